(* What tests driven by the data files ask of tables: every character that a line
   lists has the property value of that line.  Specification: nothing here comes
   from the code except the function that is asked. *)
From Coq Require Import List NArith Strings.Byte Strings.String.
From Verif Require Import Spec.Utf8 Spec.UcdFile Spec.Generation.
Import ListNotations.

(* The encoding of a code point; surrogates have none and are encoded like U+FFFD. *)
Definition spelled (c : N) : N := if scalarb c then c else 0xFFFD%N.
Definition encoding (c : N) : list byte := utf8_encode (spelled c).

(* Below, [found bytes props]: looking the bytes up finds the properties and all of
   the bytes. *)
Definition gcb_asks (found : list byte -> N -> Prop) (ms : list meaning) : Prop :=
  forall first last fields c, In (Data first last fields) ms -> (first <= c <= last)%N ->
    exists props, found (encoding c) props /\ N.land props 0x0F = gcb_named (hd [] fields).

Definition emoji_asks (found : list byte -> N -> Prop) (ms : list meaning) : Prop :=
  forall first last fields c, In (Data first last fields) ms -> (first <= c <= last)%N ->
    is_name (hd [] fields) "Extended_Pictographic" = true ->
    exists props, found (encoding c) props /\ N.land props 0x0F = pictographic_number.

Definition incb_asks (found : list byte -> N -> Prop) (ms : list meaning) : Prop :=
  forall first last name value more c, In (Data first last (name :: value :: more)) ms -> (first <= c <= last)%N ->
    is_name name "InCB" = true ->
    exists props, found (encoding c) props /\ N.land props 0xF0 = incb_named value.

(* When files agree with themselves and each other.  [lists m d]: the line
   says something about the character d. *)
Definition lists (m : meaning) (d : N) : Prop :=
  match m with Data first last _ => exists c, (first <= c <= last)%N /\ spelled c = d | _ => False end.
Definition first_field (m : meaning) : list byte := match m with Data _ _ (f :: _) => f | _ => [] end.

(* no character is given two Grapheme_Cluster_Break values, or one and Extended_Pictographic *)
Definition gcb_agree (gbp emoji : list meaning) : Prop :=
  (forall m m' d, In m gbp -> In m' gbp -> lists m d -> lists m' d ->
     gcb_named (first_field m) = gcb_named (first_field m')) /\
  (forall m m' d, In m gbp -> In m' emoji -> lists m d -> lists m' d ->
     is_name (first_field m') "Extended_Pictographic" = false).

(* no character is given two Indic_Conjunct_Break values *)
Definition incb_line (m : meaning) (value : list byte) : Prop :=
  exists first last name more, m = Data first last (name :: value :: more) /\ is_name name "InCB" = true.
Definition incb_agree (dcp : list meaning) : Prop :=
  forall m m' value value' d, In m dcp -> In m' dcp -> incb_line m value -> incb_line m' value' ->
    lists m d -> lists m' d -> incb_named value = incb_named value'.
