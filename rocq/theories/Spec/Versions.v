(* Property data other than that of Unicode 17.0: what it means to segment by
   it, and for which data the rules of UAX #29 can be decided by a machine that
   follows at most one of GB9c, GB11 and GB12/GB13 at a time.
   Specification: nothing here comes from the code. *)
From Coq Require Import List NArith Bool Strings.Byte.
From Verif Require Import Spec.Classes Spec.UAX29 Spec.Utf8 Spec.Segmentation.
Import ListNotations.

(* The class of an item of arbitrary input, when cl gives the classes of the
   characters. *)
Definition item_class_by (cl : N -> cls) (i : item) : cls :=
  match i with
  | Char bs v => if scalarb v && bytes_eqb bs (utf8_encode v) then cl v else plain
  | Bad _ => control
  end.

(* Combinations of the three properties that can be followed:
   - Extended_Pictographic characters have no other property;
   - conjunct consonants are letters of any kind or spacing marks;
   - conjunct linkers and extenders join to what precedes them. *)
Definition segmentable (k : cls) : Prop :=
  (extpict k = true -> gcb k = Other /\ incb k = InCB_None) /\
  (incb k = InCB_Consonant -> In (gcb k) [Other; SpacingMark; L; V; T; LV; LVT]) /\
  (incb k = InCB_Extend \/ incb k = InCB_Linker -> In (gcb k) [Extend; ZWJ; SpacingMark]).
