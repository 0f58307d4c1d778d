(* Basic lemmas about the Go primitives of Model/Base.v and about bytes. *)
From Coq Require Import List NArith Arith Bool Lia FMapPositive Strings.Byte.
From Coq Require Import ZArith ZifyBool ZifyNat ZifyN.
From Verif Require Import Spec.Utf8 Model.Base.
Import ListNotations.
Ltac Zify.zify_post_hook ::= Z.div_mod_to_equations.

(* ---- sweeps over all bytes *)

Definition all_bytes : list byte :=
  map (fun n => mkbyte (N.of_nat n)) (seq 0 256).

Lemma in_all_bytes b : In b all_bytes.
Proof. destruct b; vm_compute; tauto. Qed.

Lemma byte_sweep (P : byte -> bool) :
  forallb P all_bytes = true -> forall b, P b = true.
Proof. intros H b. rewrite forallb_forall in H. apply H, in_all_bytes. Qed.

Lemma bval_lt b : (bval b < 256)%N.
Proof. apply N.ltb_lt. revert b. apply byte_sweep. vm_compute. reflexivity. Qed.

Lemma mkbyte_bval b : mkbyte (bval b) = b.
Proof. unfold mkbyte, bval. rewrite Byte.of_to_N. reflexivity. Qed.

Lemma bval_mkbyte n : (n < 256)%N -> bval (mkbyte n) = n.
Proof.
  intros H. unfold mkbyte, bval.
  destruct (Byte.of_N n) as [b|] eqn:E.
  - apply Byte.to_of_N in E. exact E.
  - apply Byte.of_N_None_iff in E. lia.
Qed.

Lemma bval_inj a b : bval a = bval b -> a = b.
Proof. intros H. rewrite <- (mkbyte_bval a), <- (mkbyte_bval b), H. reflexivity. Qed.

(* ---- slices *)

Lemma is_empty_spec {A} (p : list A) : is_empty p = true <-> p = [].
Proof. destruct p; simpl; split; congruence. Qed.

Lemma len_lt_spec {A} (p : list A) n : len_lt p n = (length p <? n).
Proof.
  revert n; induction p as [|x p IH]; intros [|n]; simpl; auto.
  rewrite IH. reflexivity.
Qed.

Lemma slice_from_ok {A} (p : list A) n :
  n <= length p -> slice_from p n = Ret (skipn n p).
Proof.
  revert p; induction n as [|n IH]; intros [|x p] H; simpl in *; auto; try lia.
  apply IH; lia.
Qed.

Lemma slice_from_bad {A} (p : list A) n :
  length p < n -> slice_from p n = Panic SliceOutOfRange.
Proof.
  revert p; induction n as [|n IH]; intros [|x p] H; simpl in *; auto; try lia.
  apply IH; lia.
Qed.

Lemma slice_to_ok {A} (p : list A) n :
  n <= length p -> slice_to p n = Ret (firstn n p).
Proof.
  revert p; induction n as [|n IH]; intros [|x p] H; simpl in *; auto; try lia.
  rewrite IH by lia. reflexivity.
Qed.

Lemma slice_from_app {A} (a b : list A) : slice_from (a ++ b) (length a) = Ret b.
Proof. induction a as [|x a IH]; simpl; auto. destruct b; reflexivity. Qed.

Lemma slice_to_app {A} (a b : list A) : slice_to (a ++ b) (length a) = Ret a.
Proof. induction a as [|x a IH]; simpl; [destruct b; reflexivity|]. rewrite IH. reflexivity. Qed.

(* ---- arrays *)

Lemma succ_pos_inj i j : N.succ_pos i = N.succ_pos j -> i = j.
Proof. destruct i, j; simpl; lia. Qed.

Lemma aget_raw_add a l i v j :
  aget_raw (Arr l (PositiveMap.add (N.succ_pos i) v (adata a))) j =
  if N.eqb i j then v else aget_raw a j.
Proof.
  unfold aget_raw; simpl. destruct (N.eqb_spec i j) as [->|Hne].
  - rewrite PositiveMap.gss. reflexivity.
  - rewrite PositiveMap.gso; [reflexivity|]. intros E; apply succ_pos_inj in E; congruence.
Qed.

Lemma alen_append vs : forall a, alen (aappend a vs) = (alen a + N.of_nat (length vs))%N.
Proof.
  unfold aappend. induction vs as [|v vs IH]; intros a; simpl.
  - lia.
  - rewrite IH. simpl. lia.
Qed.

Lemma aget_raw_append vs : forall a i,
  aget_raw (aappend a vs) i =
  if ((alen a <=? i) && (i <? alen a + N.of_nat (length vs)))%N
  then nth (N.to_nat (i - alen a)) vs 0%N else aget_raw a i.
Proof.
  unfold aappend. induction vs as [|v vs IH]; intros a i; cbn [fold_left length nth].
  - destruct (_ && _) eqn:E; [lia|reflexivity].
  - rewrite IH. unfold apush at 1 2 3. cbn [alen].
    destruct (N.leb_spec (N.succ (alen a)) i) as [H1|H1]; cbn [andb].
    + destruct (N.leb_spec (alen a) i) as [H2|H2]; [|lia]. cbn [andb].
      replace (i <? N.succ (alen a) + N.of_nat (length vs))%N
        with (i <? alen a + N.of_nat (S (length vs)))%N by lia.
      destruct (_ <? _)%N.
      * replace (N.to_nat (i - alen a)) with (S (N.to_nat (i - N.succ (alen a)))) by lia.
        reflexivity.
      * unfold apush. rewrite aget_raw_add. destruct (N.eqb_spec (alen a) i); [lia|reflexivity].
    + unfold apush. rewrite aget_raw_add.
      destruct (N.eqb_spec (alen a) i) as [E|E].
      * destruct (_ && _) eqn:E2; [|lia].
        replace (N.to_nat (i - alen a)) with 0 by lia. reflexivity.
      * destruct (_ && _) eqn:E2; [lia|reflexivity].
Qed.

Lemma alen_of_list vs : alen (arr_of_list vs) = N.of_nat (length vs).
Proof. unfold arr_of_list. rewrite alen_append. reflexivity. Qed.

Lemma aget_of_list vs i :
  aget (arr_of_list vs) i =
  match nth_error vs (N.to_nat i) with Some v => Ret v | None => Panic IndexOutOfRange end.
Proof.
  unfold aget. rewrite alen_of_list.
  destruct (N.ltb_spec i (N.of_nat (length vs))) as [H|H].
  - unfold arr_of_list. rewrite aget_raw_append. cbn [alen amake].
    replace ((0 <=? i) && (i <? 0 + N.of_nat (length vs)))%N with true by lia.
    rewrite N.sub_0_r.
    destruct (nth_error vs (N.to_nat i)) eqn:E.
    + apply nth_error_nth with (d := 0%N) in E. rewrite E. reflexivity.
    + apply nth_error_None in E. lia.
  - destruct (nth_error vs (N.to_nat i)) eqn:E; [|reflexivity].
    assert (nth_error vs (N.to_nat i) <> None) as HN by congruence.
    apply nth_error_Some in HN. lia.
Qed.

(* ---- lists *)

Lemma skipn_app_exact {A} (a b : list A) : skipn (length a) (a ++ b) = b.
Proof. rewrite skipn_app, skipn_all, Nat.sub_diag. reflexivity. Qed.

Lemma firstn_app_exact {A} (a b : list A) : firstn (length a) (a ++ b) = a.
Proof. rewrite firstn_app, firstn_all, Nat.sub_diag, firstn_O, app_nil_r. reflexivity. Qed.
