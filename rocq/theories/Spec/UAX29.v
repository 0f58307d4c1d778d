(* Extended grapheme cluster boundaries, UAX #29 revision for Unicode 17,
   section 3.1.1, rules GB1 - GB999, transcribed rule by rule.
   Specification: nothing here comes from the code.

   A position in a text is given by the characters before it (l) and after it
   (r), each character represented by its class. *)
From Coq Require Import List Arith Bool.
From Verif Require Import Spec.Classes.
Import ListNotations.

Definition text := list cls.

(* The character just before / just after the position satisfies P. *)
Definition before (P : cls -> Prop) (l : text) : Prop := exists p c, l = p ++ [c] /\ P c.
Definition after (P : cls -> Prop) (r : text) : Prop := exists c q, r = c :: q /\ P c.

Definition is (g : GCB) (c : cls) : Prop := gcb c = g.
Definition one_of (gs : list GCB) (c : cls) : Prop := In (gcb c) gs.
Definition pict (c : cls) : Prop := extpict c = true.
Definition consonant (c : cls) : Prop := incb c = InCB_Consonant.
Definition linker (c : cls) : Prop := incb c = InCB_Linker.
Definition ext_or_linker (c : cls) : Prop := incb c = InCB_Extend \/ incb c = InCB_Linker.

(* GB3   CR x LF *)
Definition GB3 (l r : text) := before (is CR) l /\ after (is LF) r.
(* GB4   (Control | CR | LF) ÷ *)
Definition GB4 (l r : text) := before (one_of [Control; CR; LF]) l.
(* GB5   ÷ (Control | CR | LF) *)
Definition GB5 (l r : text) := after (one_of [Control; CR; LF]) r.
(* GB6   L x (L | V | LV | LVT) *)
Definition GB6 (l r : text) := before (is L) l /\ after (one_of [L; V; LV; LVT]) r.
(* GB7   (LV | V) x (V | T) *)
Definition GB7 (l r : text) := before (one_of [LV; V]) l /\ after (one_of [V; T]) r.
(* GB8   (LVT | T) x T *)
Definition GB8 (l r : text) := before (one_of [LVT; T]) l /\ after (is T) r.
(* GB9   x (Extend | ZWJ) *)
Definition GB9 (l r : text) := after (one_of [Extend; ZWJ]) r.
(* GB9a  x SpacingMark *)
Definition GB9a (l r : text) := after (is SpacingMark) r.
(* GB9b  Prepend x *)
Definition GB9b (l r : text) := before (is Prepend) l.
(* GB9c  \p{InCB=Consonant} [\p{InCB=Extend}\p{InCB=Linker}]* \p{InCB=Linker}
         [\p{InCB=Extend}\p{InCB=Linker}]* x \p{InCB=Consonant} *)
Definition GB9c (l r : text) :=
  (exists p c m1 k m2, l = p ++ c :: m1 ++ k :: m2 /\
     consonant c /\ Forall ext_or_linker m1 /\ linker k /\ Forall ext_or_linker m2) /\
  after consonant r.
(* GB11  \p{Extended_Pictographic} Extend* ZWJ x \p{Extended_Pictographic} *)
Definition GB11 (l r : text) :=
  (exists p e m z, l = p ++ e :: m ++ [z] /\ pict e /\ Forall (is Extend) m /\ is ZWJ z) /\
  after pict r.
(* GB12  sot (RI RI)* RI x RI *)
Definition GB12 (l r : text) :=
  (Forall (is Regional_Indicator) l /\ Nat.Odd (length l)) /\ after (is Regional_Indicator) r.
(* GB13  [^RI] (RI RI)* RI x RI *)
Definition GB13 (l r : text) :=
  (exists p c m, l = p ++ c :: m /\ ~ is Regional_Indicator c /\
     Forall (is Regional_Indicator) m /\ Nat.Odd (length m)) /\
  after (is Regional_Indicator) r.
(* GB999 Any ÷ Any *)
Definition GB999 (l r : text) := True.

Inductive verdict := Join | Split.

(* The rules in order; the first one that applies decides. *)
Definition rules : list ((text -> text -> Prop) * verdict) :=
  [ (GB3, Join); (GB4, Split); (GB5, Split); (GB6, Join); (GB7, Join); (GB8, Join);
    (GB9, Join); (GB9a, Join); (GB9b, Join); (GB9c, Join); (GB11, Join);
    (GB12, Join); (GB13, Join); (GB999, Split) ].

Inductive decides (l r : text) : list ((text -> text -> Prop) * verdict) -> verdict -> Prop :=
| decides_here (R : text -> text -> Prop) v rs : R l r -> decides l r ((R, v) :: rs) v
| decides_later (R : text -> text -> Prop) v rs w :
    ~ R l r -> decides l r rs w -> decides l r ((R, v) :: rs) w.

(* Grapheme cluster boundaries of the text l ++ r at the position between l
   and r.  GB1: sot ÷ Any, GB2: Any ÷ eot (there is none in an empty text). *)
Definition boundary (l r : text) : Prop :=
  match l, r with
  | [], [] => False
  | [], _ :: _ => True                       (* GB1 *)
  | _ :: _, [] => True                       (* GB2 *)
  | _ :: _, _ :: _ => decides l r rules Split
  end.
