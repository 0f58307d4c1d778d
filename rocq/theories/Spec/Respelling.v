(* Different spellings of the same text: canonical reordering of combining
   marks, letters with and without their accents, Hangul syllables, vowels.
   Specification: nothing here comes from the code. *)
From Coq Require Import List NArith Sorting.Permutation.
From Verif Require Import Spec.Classes Spec.Utf8 Spec.UAX29 Spec.Segmentation Spec.Hangul.
Import ListNotations.

(* A combining mark, and one that Indic conjuncts see through as well. *)
Definition combining (c : N) : Prop := gcb (ucd_class c) = Extend.
Definition accent (c : N) : Prop := combining c /\ incb (ucd_class c) = InCB_Extend.

(* Two spellings of a part of a text. *)
Inductive spelling : list N -> list N -> Prop :=
| marks_in_order ms ms' : Forall combining ms -> Permutation ms ms' -> spelling ms ms'
| letter_and_accents c d ms : ucd_class d = ucd_class c -> In (gcb (ucd_class c)) [Other; Extend; SpacingMark] ->
    Forall accent ms -> spelling [c] (d :: ms)
| same_kind c d : ucd_class d = ucd_class c -> spelling [c] [d]
| syllable_spelled s : spelling [s] (decompose s)
| vowels_spelled c vs : gcb (ucd_class c) = V -> vs <> [] -> Forall (fun v => gcb (ucd_class v) = V) vs -> spelling [c] vs.

(* Two spellings of a text: any number of parts are spelled differently, one
   after the other, in either direction. *)
Inductive respelled : list N -> list N -> Prop :=
| respelled_same t : respelled t t
| respelled_part p x y q : Forall scalar (p ++ x ++ q) -> Forall scalar (p ++ y ++ q) -> spelling x y ->
    respelled (p ++ x ++ q) (p ++ y ++ q)
| respelled_back t u : respelled t u -> respelled u t
| respelled_on t u v : respelled t u -> respelled u v -> respelled t v.
