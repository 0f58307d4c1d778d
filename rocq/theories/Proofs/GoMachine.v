(* The functions of state.go and the methods of properties.go they use, as parsed. *)
From Coq Require Import List NArith ZArith Arith Bool Lia Strings.String Strings.Ascii Strings.Byte.
From Coq Require Import ZifyBool ZifyNat ZifyN.
From Verif Require Import Spec.Utf8 Model.Base Model.CharProps Model.Machine Model.Lookup Model.WordInt.
From Verif Require Import Model.GoSyntax Model.GoSemantics Model.GoLibrary Proofs.GoFacts Proofs.GoSymbolic.
Import ListNotations.
Local Open Scope string_scope.
Local Open Scope list_scope.

Section Machine.
Variable w : Z.
Variable fuel : nat.
Variables ia pa : arr.
Notation G := (declared_with ia pa).

Lemma call_GCBProperty d n : call w fuel G (S d) "charprops.CharProperties.GCBProperty" [P n] = Ret [GCB (byte_and n 15)].
Proof. rewrite call_S. generalize (call w fuel G d). intros C. go. reflexivity. Qed.
Lemma call_InCBProperty d n : call w fuel G (S d) "charprops.CharProperties.InCBProperty" [P n] = Ret [InCB (byte_and n 0xf0)].
Proof. rewrite call_S. generalize (call w fuel G d). intros C. go. reflexivity. Qed.

Definition of_state (r : res State) : res (list value) :=
  let! s := r in Ret [VInt "machine.State" (byte_to_int s)].

Lemma state_0 a : int_eq (byte_to_int a) 0 = byte_eq a 0.
Proof. unfold int_eq, byte_eq, byte_to_int. lia. Qed.
Lemma state_pos a p : int_eq (byte_to_int a) (Zpos p) = byte_eq a (Npos p).
Proof. unfold int_eq, byte_eq, byte_to_int. lia. Qed.

Lemma call_nextState d s n : call w fuel G (S (S d)) "machine.State.nextState" [St (byte_to_int s); P n] = of_state (nextState s n).
Proof.
  start. generalize (call_GCBProperty d) (call_InCBProperty d). generalize (call w fuel G (S d)). intros C H1 H2.
  unfold nextState. cbv zeta. syms ltac:(rewrite ?H1, ?H2, ?state_0, ?state_pos).
Qed.
Lemma call_Begin d n : call w fuel G (S (S (S d))) "machine.Begin" [P n] = of_state (Begin n).
Proof.
  start. generalize (call_nextState d). generalize (call w fuel G (S (S d))). intros C H. specialize (H 0%N n).
  change (byte_to_int 0) with 0%Z in H. unfold Begin. change StateBase with 0%N. destruct (nextState 0%N n) as [s|e].
  - cbn [of_state bind] in *. syms ltac:(rewrite ?H).
  - rewrite block_cons. go. rewrite H. reflexivity.
Qed.
Lemma call_active9 d s : call w fuel G (S d) "machine.State.gb9cActive" [St (byte_to_int s)] = Ret [VBool (gb9cActive s)].
Proof. rewrite call_S. generalize (call w fuel G d). intros C. go. rewrite ?state_pos. reflexivity. Qed.
Lemma call_active11 d s : call w fuel G (S d) "machine.State.gb11Active" [St (byte_to_int s)] = Ret [VBool (gb11Active s)].
Proof. rewrite call_S. generalize (call w fuel G d). intros C. go. rewrite ?state_pos. reflexivity. Qed.
Lemma call_active13 d s : call w fuel G (S d) "machine.State.gb13Active" [St (byte_to_int s)] = Ret [VBool (gb13Active s)].
Proof. rewrite call_S. generalize (call w fuel G d). intros C. go. rewrite ?state_pos. reflexivity. Qed.
Lemma call_IsAnyControl d n : call w fuel G (S d) "charprops.GCBProperty.IsAnyControl" [GCB n] = Ret [VBool (IsAnyControl n)].
Proof.
  start. generalize (call w fuel G d). intros C. syms idtac.
  match goal with |- context [if ?x then in_scope _ _ else _] => replace x with (IsAnyControl n) end;
    [|unfold IsAnyControl, byte_eq; change GCBLF with 6%N; change GCBCR with 1%N; change GCBControl with 2%N;
      destruct (n =? 6)%N, (n =? 1)%N, (n =? 2)%N; reflexivity].
  destruct (IsAnyControl n); syms idtac.
Qed.

Definition of_transition (r : res (bool * State)) : res (list value) :=
  let! (b, s) := r in Ret [VBool b; VInt "machine.State" (byte_to_int s)].
Ltac branches := branch || match goal with |- context [if ?x then in_scope ?f ?s else ?k] => destruct x; cbn [andb] end.
Lemma call_Transition d s p n : call w fuel G (S (S (S d))) "machine.State.Transition" [St (byte_to_int s); P p; P n] = of_transition (Transition s p n).
Proof.
  start. generalize (call_nextState d s n) (call_GCBProperty (S d)) (call_InCBProperty (S d)) (call_IsAnyControl (S d))
   (call_active9 (S d) s) (call_active11 (S d) s) (call_active13 (S d) s).
  generalize (call w fuel G (S (S d))). intros C H H1 H2 H3 H4 H5 H6.
  unfold Transition. destruct (nextState s n) as [s'|e].
  - cbn [of_state of_transition bind] in *. unfold is_split. cbv zeta.
    repeat (branches || sym ltac:(rewrite ?H, ?H1, ?H2, ?H3, ?H4, ?H5, ?H6) || finish).
  - rewrite block_cons. match goal with |- context [exec w fuel G C ?c ?st ?s] => assert (exec w fuel G C c st s = Panic e) as -> by (go; rewrite H; reflexivity) end. reflexivity.
Qed.
End Machine.
