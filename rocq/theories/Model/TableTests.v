(* Model of the three tests of textseg/internal/charprops/property_table_test.go
   that are driven by the data files (lines 74-193), for arbitrary tables.  Not
   modelled: opening the files, the names and the messages of the subtests. *)
From Coq Require Import List NArith ZArith Arith Bool Strings.Byte Strings.String.
From Verif Require Import Model.Base Model.CharProps Model.Lookup Model.Bufio.
From Verif Require Import Model.PropNames Model.GenTable Model.UcdParse Model.BuildTree.
Import ListNotations.

(* property_table_test.go 95-107, 136-148, 178-190: a subtest for one rune; [got]
   is GCBProperty or InCBProperty.  false: t.Errorf was called *)
Definition subtest (tb : tables) (got : CharProperties -> N) (want : N) (r : Z) : res bool :=
  let buf := EncodeRune r in
  let! (gotProperties, gotLength) := lookup_first_char tb buf in
  Ret ((got gotProperties =? want)%N && (gotLength =? List.length buf)).

(* property_table_test.go 94, 135, 177: for r := entry.Start; r < entry.End; r++;
   a panic ends everything *)
Fixpoint subtests (tb : tables) (got : CharProperties -> N) (want : N) (rs : list Z) : res bool :=
  match rs with
  | [] => Ret true
  | r :: rs' =>
      let! ok := subtest tb got want r in
      let! rest := subtests tb got want rs' in
      Ret (ok && rest)
  end.

(* property_table_test.go 93-108 *)
Definition gcb_test_entry (tb : tables) (e : Entry) : res bool :=
  let wantGBP := LookupGCBProperty (FirstField e) in
  subtests tb GCBProperty wantGBP (runes (Start e) (End e)).

(* property_table_test.go 131-149 *)
Definition emoji_test_entry (tb : tables) (e : Entry) : res bool :=
  let wantGBP := LookupEmojiProperty (FirstField e) in
  if negb (wantGBP =? GCBExtendedPictographic)%N then Ret true
  else subtests tb GCBProperty wantGBP (runes (Start e) (End e)).

(* property_table_test.go 171-191 *)
Definition incb_test_entry (tb : tables) (e : Entry) : res bool :=
  let! fields := AllFields e in
  match fields with
  | f0 :: f1 :: _ =>
      if negb (str_eqb f0 (str "InCB"%string)) then Ret true
      else subtests tb InCBProperty (LookupInCBProperty f1) (runes (Start e) (End e))
  | _ => Ret true
  end.

(* property_table_test.go 84-109, 122-150, 163-192: the loop over the entries.
   Ret true: the test passes; t.Fatal ends it *)
Inductive test_loop {R} (rd : reader R) (entry : Entry -> res bool) : R -> scanner -> res bool -> Prop :=
| test_eof r s r' s' :
    NextEntry rd r s r' s' (inr EOF) -> test_loop rd entry r s (Ret true)
| test_fatal r s r' s' err :
    NextEntry rd r s r' s' (inr err) -> err <> EOF -> test_loop rd entry r s (Ret false)
| test_panic r s r' s' e p :
    NextEntry rd r s r' s' (inl e) -> entry e = Panic p -> test_loop rd entry r s (Panic p)
| test_next r s r' s' e ok out :
    NextEntry rd r s r' s' (inl e) -> entry e = Ret ok ->
    test_loop rd entry r' s' out ->
    test_loop rd entry r s (let! rest := out in Ret (ok && rest)).

(* property_table_test.go 74-110, 112-151, 153-193: the three tests, given the
   open files *)
Definition TestGraphemeBreakProperty {R} (tb : tables) (rd : reader R) (f : R) : res bool -> Prop :=
  test_loop rd (gcb_test_entry tb) f newLineScan.
Definition TestEmojiExtendedPictographic {R} (tb : tables) (rd : reader R) (f : R) : res bool -> Prop := (* 112-151 *)
  test_loop rd (emoji_test_entry tb) f newLineScan.
Definition TestIndicConjunctBreakProperty {R} (tb : tables) (rd : reader R) (f : R) : res bool -> Prop := (* 153-193 *)
  test_loop rd (incb_test_entry tb) f newLineScan.
