(* Model of the text that charprops/generate.go writes (lines 22-64), before
   go/format.Source (line 66) changes its white space.  Not modelled:
   format.Source and writing the file (lines 66-77). *)
From Coq Require Import List NArith Arith Bool Strings.Byte Strings.String.
From Verif Require Import Spec.Utf8 Model.Base Model.Lookup Model.PropNames Model.GenTable Model.UcdParse Model.BuildTree.
Import ListNotations.

(* fmt verbs %02x and %04x for an unsigned integer: hexadecimal digits, padded
   with zeros to the given width.  The bound on the digits is not reached. *)
Fixpoint hex_digits (fuel : nat) (n : N) (acc : list byte) : list byte :=
  match fuel with
  | O => acc
  | S fuel' =>
      let acc := hex_digit (n mod 16) :: acc in
      if (n / 16 =? 0)%N then acc else hex_digits fuel' (n / 16) acc
  end.
(* generate.go 36, 45, 54, 60: fmt.Fprintf with %02x (width 2) or %04x (width 4) *)
Definition fmt_x (width : nat) (n : N) : gostring :=
  let d := hex_digits (S (N.size_nat n)) n [] in
  repeat x30 (width - List.length d) ++ d.

(* generate.go 41-46, 59-61: for _, v := range items; [check] is the test of
   lines 42-44, which the second loop does not have *)
Fixpoint fprint_items (check : bool) (items : list N) : res (list byte) :=
  match items with
  | [] => Ret []
  | v :: items' =>
      if check && (255 <? v)%N then Panic TooManyIndices
      else
        let! rest := fprint_items check items' in
        Ret (str "0x"%string ++ fmt_x 2 v ++ str ","%string ++ rest)
  end.

(* generate.go 34-48, 52-63: for i := 0; i < len(a); i += 8, where [rest] is
   a[i:].  Every round takes at least one element, so the bound is not reached. *)
Fixpoint fprint_rows (fuel : nat) (check : bool) (i : N) (rest : list N) : res (list byte) :=
  match fuel with
  | O => Panic OutOfFuel
  | S fuel' =>
      match rest with
      | [] => Ret []
      | _ =>
          let header :=
            if (i mod 64 =? 0)%N
            then str "  // block 0x"%string ++ fmt_x 4 (N.shiftr i 6) ++ [x0a]
            else [] in
          let items := firstn (Nat.min (List.length rest) 8) rest in
          let! row := fprint_items check items in
          let! more := fprint_rows fuel' check (i + 8) (skipn 8 rest) in
          Ret (header ++ [x09] ++ row ++ [x0a] ++ more)
      end
  end.

(* generate.go 22-64: the content of buf, for tree.Indices and tree.Properties
   with these elements *)
Definition source_text (indices props : list N) : res (list byte) :=
  let! rows1 := fprint_rows (S (List.length indices)) true 0 indices in
  let! rows2 := fprint_rows (S (List.length props)) false 0 props in
  Ret (str "// Generated by generate.go. DO NOT EDIT!"%string ++ x0a ::
       x0a ::
       str "package charprops"%string ++ x0a ::
       x0a ::
       str "var lookupIndices = [...]uint8{"%string ++ x0a ::
       rows1 ++
       str "}"%string ++ x0a ::
       str "var lookupProps = [...]CharProperties{"%string ++ x0a ::
       rows2 ++
       str "}"%string ++ [x0a]).

(* generate.go 22-64 *)
Definition emit_text (tree : RawPropertyTree) : res (list byte) :=
  let! indices := aread (Indices tree) 0 (N.to_nat (alen (Indices tree))) in
  let! props := aread (Properties tree) 0 (N.to_nat (alen (Properties tree))) in
  source_text indices props.

(* generate.go 16-64: the text, or the error reported *)
Definition main_text (built : res (result RawPropertyTree)) : res (result (list byte)) :=
  let! out := built in
  match out with
  | inr err => Ret (inr err)
  | inl tree => let! text := emit_text tree in Ret (inl text)
  end.
