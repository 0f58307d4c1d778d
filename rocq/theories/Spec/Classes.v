(* Character classes that UAX #29 (Unicode 17) section 3.1 refers to.
   Nothing here comes from the code: this file is part of the specification. *)
From Coq Require Import List NArith Bool.

(* Grapheme_Cluster_Break property values (UAX #29 Table 2). *)
Inductive GCB :=
| Other | CR | LF | Control | Extend | ZWJ | Regional_Indicator | Prepend
| SpacingMark | L | V | T | LV | LVT.

(* Indic_Conjunct_Break property values (UAX #44). *)
Inductive InCB := InCB_None | InCB_Consonant | InCB_Extend | InCB_Linker.

(* Everything the segmentation rules can see of a character. *)
Record cls := Cls { gcb : GCB; extpict : bool; incb : InCB }.

Definition GCB_eqb (a b : GCB) : bool :=
  match a, b with
  | Other, Other | CR, CR | LF, LF | Control, Control | Extend, Extend
  | ZWJ, ZWJ | Regional_Indicator, Regional_Indicator | Prepend, Prepend
  | SpacingMark, SpacingMark | L, L | V, V | T, T | LV, LV | LVT, LVT => true
  | _, _ => false
  end.

Definition InCB_eqb (a b : InCB) : bool :=
  match a, b with
  | InCB_None, InCB_None | InCB_Consonant, InCB_Consonant
  | InCB_Extend, InCB_Extend | InCB_Linker, InCB_Linker => true
  | _, _ => false
  end.

Lemma GCB_eqb_spec a b : reflect (a = b) (GCB_eqb a b).
Proof. destruct a, b; constructor; congruence. Qed.

Lemma InCB_eqb_spec a b : reflect (a = b) (InCB_eqb a b).
Proof. destruct a, b; constructor; congruence. Qed.

(* A character to which no property is assigned. *)
Definition plain : cls := Cls Other false InCB_None.
Definition control : cls := Cls Control false InCB_None.
