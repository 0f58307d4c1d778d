(* Model of textseg/internal/charprops/property_table.go and
   property_table_raw.go. *)
From Coq Require Import List NArith Arith Bool Strings.Byte.
From Verif Require Import Spec.Utf8 Model.Base Model.CharProps Data.TableRaw.
Import ListNotations.
Local Open Scope N_scope.

(* property_table_raw.go: the two package-level lookup tables. *)
Record tables := Tables { t_indices : arr; t_props : arr }.

(* property_table_raw.go: the committed tables. *)
Definition committed : tables :=
  Tables (arr_of_list (concat lookupIndices_blocks)) (arr_of_list (concat lookupProps_blocks)).

(* property_table.go 5 *)
Definition zeroProperties : CharProperties := 0.

(* property_table.go 22-34: the length announced by the first byte, or None
   for an invalid initial byte. *)
Definition seq_length (first : byte) : option nat :=
  if bval first <? 128 then Some 1%nat
  else if N.land (bval first) 0xe0 =? 0xc0 then Some 2%nat
  else if N.land (bval first) 0xf0 =? 0xe0 then Some 3%nat
  else if N.land (bval first) 0xf8 =? 0xf0 then Some 4%nat
  else None.

(* property_table.go 42-46: for i := 1; i < length; i++ { ... return Error, 1 };
   n iterations are left; true means a byte that is no continuation was found. *)
Fixpoint bad_continuation (p : list byte) (i n : nat) : res bool :=
  match n with
  | O => Ret false
  | S n' =>
      let! b := index p i in
      if N.land (bval b) 0xc0 =? 0x80 then bad_continuation p (S i) n' else Ret true
  end.

(* property_table.go 52-62: int(p[i] & 0b111111) *)
Definition low6 (b : byte) : N := N.land (bval b) 0x3f.

(* property_table.go 48-66: the table walk for a sequence of the given length. *)
Definition walk (tb : tables) (p : list byte) (length : nat) : res CharProperties :=
  let! first := index p 0 in
  match length with
  | 1%nat => aget (t_props tb) (bval first)
  | 2%nat =>
      let! blockIdx := aget (t_indices tb) (low6 first) in
      let! p1 := index p 1 in
      aget (t_props tb) (N.shiftl blockIdx 6 + low6 p1)
  | 3%nat =>
      let! blockIdx := aget (t_indices tb) (low6 first) in
      let! p1 := index p 1 in
      let! blockIdx := aget (t_indices tb) (N.shiftl blockIdx 6 + low6 p1) in
      let! p2 := index p 2 in
      aget (t_props tb) (N.shiftl blockIdx 6 + low6 p2)
  | 4%nat =>
      let! blockIdx := aget (t_indices tb) (low6 first) in
      let! p1 := index p 1 in
      let! blockIdx := aget (t_indices tb) (N.shiftl blockIdx 6 + low6 p1) in
      let! p2 := index p 2 in
      let! blockIdx := aget (t_indices tb) (N.shiftl blockIdx 6 + low6 p2) in
      let! p3 := index p 3 in
      aget (t_props tb) (N.shiftl blockIdx 6 + low6 p3)
  | _ => Panic Unreachable
  end.

(* property_table.go 17-66: LookupFirstChar, over arbitrary tables. *)
Definition lookup_first_char (tb : tables) (p : list byte) : res (CharProperties * nat) :=
  match p with
  | [] => Ret (zeroProperties, 0%nat)
  | first :: _ =>
      match seq_length first with
      | None => Ret (Error, 1%nat)
      | Some length =>
          if len_lt p length then Ret (zeroProperties, 0%nat)
          else
            let! bad := bad_continuation p 1 (length - 1) in
            if bad then Ret (Error, 1%nat)
            else
              let! props := walk tb p length in
              Ret (props, length)
      end
  end.

(* property_table.go 17-66: LookupFirstChar with the committed tables. *)
Definition LookupFirstChar (p : list byte) : res (CharProperties * nat) :=
  lookup_first_char committed p.
