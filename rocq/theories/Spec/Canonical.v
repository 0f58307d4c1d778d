(* Canonical equivalence, The Unicode Standard, sections 3.7, 3.11 and 3.12.
   Specification: nothing here comes from the code.  The mappings and combining
   classes are data of the Unicode character database (Data/Canonical.v). *)
From Coq Require Import List NArith Bool.
From Verif Require Import Spec.Utf8 Spec.Segmentation Spec.Hangul Data.Canonical.
Import ListNotations.
Open Scope N_scope.

Definition ccc (c : N) : N := match listed c ccc_ranges with Some k => k | None => 0 end.

Fixpoint mapping (c : N) (ms : list (N * list N)) : option (list N) :=
  match ms with
  | [] => None
  | (d, m) :: ms' => if c =? d then Some m else mapping c ms'
  end.

(* D68: the mappings, applied until none applies (four times is enough, see
   full_done in Properties/Canonical.v) *)
Fixpoint full (n : nat) (c : N) : list N :=
  match mapping c canonical_mappings with
  | Some m => match n with O => m | S n' => flat_map (full n') m end
  | None => decompose c
  end.
Definition full_decomposition (t : list N) : list N := flat_map (full 4) t.

(* D108, D109: neighbours a b with ccc a > ccc b > 0 are exchanged until there are
   none left. *)
Fixpoint put (a : N) (t : list N) : list N :=
  match t with
  | b :: t' => if (0 <? ccc b) && (ccc b <? ccc a) then b :: put a t' else a :: t
  | [] => [a]
  end.
Fixpoint canonical_order (t : list N) : list N :=
  match t with
  | [] => []
  | a :: t' => put a (canonical_order t')
  end.

(* D118: Normalization Form D; D70: canonical equivalence. *)
Definition nfd (t : list N) : list N := canonical_order (full_decomposition t).
Definition canonically_equivalent (t u : list N) : Prop := nfd t = nfd u.
