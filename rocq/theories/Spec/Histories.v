(* What the states of the machine are documented to stand for (state.go 23-54),
   as conditions on the characters so far.  Specification: nothing here comes
   from the code. *)
From Coq Require Import List Arith.
From Verif Require Import Spec.Classes Spec.UAX29.
Import ListNotations.

(* Extended_Pictographic Extend* *)
Definition ends_pict (h : text) : Prop :=
  exists p e m, h = p ++ e :: m /\ pict e /\ Forall (is Extend) m.
(* Extended_Pictographic Extend* ZWJ *)
Definition ends_pict_zwj (h : text) : Prop :=
  exists p e m z, h = p ++ e :: m ++ [z] /\ pict e /\ Forall (is Extend) m /\ is ZWJ z.
(* InCB=Consonant (InCB=Extend)* *)
Definition ends_consonant (h : text) : Prop :=
  exists p c m, h = p ++ c :: m /\ consonant c /\ Forall (fun x => incb x = InCB_Extend) m.
(* InCB=Consonant (InCB=Extend | InCB=Linker)*, with a Linker *)
Definition ends_linked (h : text) : Prop :=
  exists p c m, h = p ++ c :: m /\ consonant c /\ Forall ext_or_linker m /\ Exists linker m.
Definition ends_sequence (h : text) : Prop :=
  ends_pict h \/ ends_pict_zwj h \/ ends_consonant h \/ ends_linked h.

(* h is before followed by exactly n regional indicators. *)
Definition ends_flags (h before : text) (n : nat) : Prop :=
  exists m, h = before ++ m /\ length m = n /\ Forall (is Regional_Indicator) m /\
    (forall p c, before = p ++ [c] -> ~ is Regional_Indicator c).
