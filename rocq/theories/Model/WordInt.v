(* Model of textseg/grapheme_clusters.go and property_table.go with Go's int as
   a machine word: w bits, two's complement, wrapping around.  (Model/Scan.v and
   Model/Lookup.v compute with natural numbers.)  len(data) is at most the
   largest int in Go; here any list is allowed and the theorems say which lists
   a word can count. *)
From Coq Require Import List NArith ZArith Bool Strings.Byte.
From Verif Require Import Spec.Utf8 Model.Base Model.CharProps Model.Machine Model.Lookup.
Import ListNotations.
Local Open Scope Z_scope.

(* int arithmetic, as in property_table.go 53-62 and grapheme_clusters.go 76:
   what is left of a number in w bits *)
Definition wrap (w z : Z) : Z := (z + 2 ^ (w - 1)) mod 2 ^ w - 2 ^ (w - 1).
Definition int_add (w a b : Z) : Z := wrap w (a + b). (* grapheme_clusters.go 76, property_table.go 42, 54 *)
Definition int_shl6 (w a : Z) : Z := wrap w (a * 64). (* property_table.go 54: blockIdx<<6 *)

(* len(p) *)
Definition int_len {A} (p : list A) : Z := Z.of_nat (length p). (* grapheme_clusters.go 18, property_table.go 36 *)

(* p[i], property_table.go 43, 54-62: negative indices panic as well *)
Definition int_index {A} (p : list A) (i : Z) : res A :=
  if (0 <=? i) && (i <? int_len p) then index p (Z.to_nat i) else Panic IndexOutOfRange.

(* lookupIndices[i], lookupProps[i], property_table.go 50-62 *)
Definition int_aget (a : arr) (i : Z) : res N :=
  if 0 <=? i then aget a (Z.to_N i) else Panic IndexOutOfRange.

(* p[n:] and p[:n], grapheme_clusters.go 34, 67 and 24, 30, 43, 55, 63, 73 *)
Definition int_slice_from {A} (p : list A) (n : Z) : res (list A) :=
  if (0 <=? n) && (n <=? int_len p) then Ret (skipn (Z.to_nat n) p) else Panic SliceOutOfRange.
Definition int_slice_to {A} (p : list A) (n : Z) : res (list A) := (* as int_slice_from *)
  if (0 <=? n) && (n <=? int_len p) then Ret (firstn (Z.to_nat n) p) else Panic SliceOutOfRange.

(* property_table.go 42-46; the loop ends after at most four rounds *)
Fixpoint int_bad_continuation (w : Z) (fuel : nat) (p : list byte) (i length : Z) : res bool :=
  match fuel with
  | O => Panic OutOfFuel
  | S fuel' =>
      if i <? length then
        let! b := int_index p i in
        if (N.land (bval b) 0xc0 =? 0x80)%N then int_bad_continuation w fuel' p (int_add w i 1) length
        else Ret true
      else Ret false
  end.

(* property_table.go 54-62: (blockIdx<<6)+int(p[i]&0b111111) *)
Definition int_entry (w blockIdx : Z) (b : byte) : Z := int_add w (int_shl6 w blockIdx) (Z.of_N (low6 b)).

(* property_table.go 48-66 *)
Definition int_walk (w : Z) (tb : tables) (p : list byte) (length : Z) : res CharProperties :=
  let! first := int_index p 0 in
  if length =? 1 then int_aget (t_props tb) (Z.of_N (bval first))
  else if length =? 2 then
    let! blockIdx := int_aget (t_indices tb) (Z.of_N (low6 first)) in
    let! p1 := int_index p 1 in
    int_aget (t_props tb) (int_entry w (Z.of_N blockIdx) p1)
  else if length =? 3 then
    let! blockIdx := int_aget (t_indices tb) (Z.of_N (low6 first)) in
    let! p1 := int_index p 1 in
    let! blockIdx := int_aget (t_indices tb) (int_entry w (Z.of_N blockIdx) p1) in
    let! p2 := int_index p 2 in
    int_aget (t_props tb) (int_entry w (Z.of_N blockIdx) p2)
  else if length =? 4 then
    let! blockIdx := int_aget (t_indices tb) (Z.of_N (low6 first)) in
    let! p1 := int_index p 1 in
    let! blockIdx := int_aget (t_indices tb) (int_entry w (Z.of_N blockIdx) p1) in
    let! p2 := int_index p 2 in
    let! blockIdx := int_aget (t_indices tb) (int_entry w (Z.of_N blockIdx) p2) in
    let! p3 := int_index p 3 in
    int_aget (t_props tb) (int_entry w (Z.of_N blockIdx) p3)
  else Panic Unreachable.

(* property_table.go 17-66, over arbitrary tables *)
Definition int_lookup_first_char (w : Z) (tb : tables) (p : list byte) : res (CharProperties * Z) :=
  if int_len p =? 0 then Ret (zeroProperties, 0)
  else
    let! first := int_index p 0 in
    let known (length : Z) :=
      if int_len p <? length then Ret (zeroProperties, 0)
      else
        let! bad := int_bad_continuation w 5 p 1 length in
        if bad then Ret (Error, 1)
        else let! props := int_walk w tb p length in Ret (props, length) in
    if (bval first <? 128)%N then known 1
    else if (N.land (bval first) 0xe0 =? 0xc0)%N then known 2
    else if (N.land (bval first) 0xf0 =? 0xe0)%N then known 3
    else if (N.land (bval first) 0xf8 =? 0xf0)%N then known 4
    else Ret (Error, 1).

(* property_table.go 17-66: with the committed tables *)
Definition int_LookupFirstChar (w : Z) (p : list byte) : res (CharProperties * Z) :=
  int_lookup_first_char w committed p.

(* grapheme_clusters.go 17 *)
Definition int_result := (Z * option (list byte) * option goerror)%type.

(* grapheme_clusters.go 38-78 *)
Fixpoint int_scan_loop (w : Z) (fuel : nat) (data : list byte) (atEOF : bool)
    (remain : list byte) (count : Z) (state : State) (prev : CharProperties) : res int_result :=
  match fuel with
  | O => Panic OutOfFuel
  | S fuel' =>
      if int_len remain =? 0 then
        if atEOF then let! token := int_slice_to data count in Ret (count, Some token, None)
        else Ret (0, None, None)
      else
        let! (next, moreCount) := int_LookupFirstChar w remain in
        if (next =? Error)%N then
          let! token := int_slice_to data count in Ret (count, Some token, None)
        else if moreCount =? 0 then
          if negb (int_len remain =? 0) && atEOF then
            let! token := int_slice_to data count in Ret (count, Some token, None)
          else Ret (0, None, None)
        else
          let! remain' := int_slice_from remain moreCount in
          let! (split, nextSt) := Transition state prev next in
          if split then let! token := int_slice_to data count in Ret (count, Some token, None)
          else int_scan_loop w fuel' data atEOF remain' (int_add w count moreCount) nextSt next
  end.

(* grapheme_clusters.go 17-79 *)
Definition int_ScanGraphemeClusters (w : Z) (data : list byte) (atEOF : bool) : res int_result :=
  if int_len data =? 0 then Ret (0, None, None)
  else
    let! (properties, count) := int_LookupFirstChar w data in
    if (properties =? Error)%N then
      let! token := int_slice_to data 1 in Ret (1, Some token, None)
    else if count =? 0 then
      if (count <? int_len data) && atEOF then
        let! token := int_slice_to data 1 in Ret (1, Some token, None)
      else Ret (0, None, None)
    else
      let! remain := int_slice_from data count in
      let! state := Begin properties in
      int_scan_loop w (S (length remain)) data atEOF remain count state properties.

(* Repeated calls with atEOF = true on what is left (README "Usage"), as
   Scan.tokenises; the caller computes data[advance:] with words too. *)
Inductive int_tokenises (w : Z) : list byte -> list (list byte) -> Prop :=
| int_tokenises_done : int_tokenises w [] []
| int_tokenises_step data n token rest toks :
    int_ScanGraphemeClusters w data true = Ret (n, Some token, None) ->
    int_slice_from data n = Ret rest ->
    int_tokenises w rest toks ->
    int_tokenises w data (token :: toks).
