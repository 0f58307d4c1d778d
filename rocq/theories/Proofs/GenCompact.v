(* Compact (gentable/generate.go 173-297): when it returns, and that what it
   returns holds the same values. *)
From Coq Require Import List NArith ZArith Arith Bool Lia Strings.Byte.
From Coq Require Import ZifyBool ZifyNat ZifyN.
From Verif Require Import Spec.Utf8 Spec.Assignments Model.Base Model.Lookup Model.GenTable Proofs.Basics Proofs.GenRaw.
Import ListNotations.
Ltac Zify.zify_post_hook ::= Z.div_mod_to_equations.
Local Open Scope N_scope.

(* ---- reading blocks *)

Definition block (a : arr) (s : N) : list N := map (fun j => aget_raw a (s * 64 + N.of_nat j)) (seq 0 64).

Lemma aread_ok a n : forall i, i + N.of_nat n <= alen a ->
  aread a i n = Ret (map (fun j => aget_raw a (i + N.of_nat j)) (seq 0 n)).
Proof.
  induction n as [|n IH]; intros i H; [reflexivity|].
  cbn [aread]. rewrite aget_ok by lia. cbn [bind]. rewrite IH by lia. cbn [bind seq map].
  rewrite N.add_0_r. f_equal. f_equal. rewrite <- seq_shift, map_map. apply map_ext.
  intros j. f_equal. lia.
Qed.

Lemma aread_block a s : s * 64 + 64 <= alen a -> aread a (s * 64) 64 = Ret (block a s).
Proof. intros H. apply aread_ok. lia. Qed.

Lemma block_length a s : length (block a s) = 64%nat.
Proof. unfold block. rewrite map_length, List.seq_length. reflexivity. Qed.

Lemma nth_map_seq (f : nat -> N) n i d : (i < n)%nat -> nth i (map f (seq 0 n)) d = f i.
Proof.
  intros H. rewrite nth_indep with (d' := f 0%nat) by (rewrite map_length, List.seq_length; exact H).
  rewrite map_nth. rewrite seq_nth by exact H. reflexivity.
Qed.

Lemma block_nth a s x d : x < 64 -> nth (N.to_nat x) (block a s) d = aget_raw a (s * 64 + x).
Proof. intros H. unfold block. rewrite nth_map_seq by lia. f_equal. lia. Qed.

Lemma list64_ext (l m : list N) : length l = 64%nat -> length m = 64%nat ->
  (forall x, x < 64 -> nth (N.to_nat x) l 0 = nth (N.to_nat x) m 0) -> l = m.
Proof.
  intros H1 H2 H. apply nth_ext with (d := 0) (d' := 0); [congruence|].
  intros i Hi. rewrite <- (Nat2N.id i). apply H. lia.
Qed.

Lemma zero_block_nth x d : x < 64 -> nth (N.to_nat x) zero_block d = 0.
Proof.
  intros H. unfold zero_block, blockSize.
  rewrite nth_indep with (d' := 0) by (rewrite repeat_length; lia). apply nth_repeat.
Qed.

Lemma src_block_ok a s : s <= 1022 -> s * 64 + 64 <= alen a -> src_block a s = Ret (block a s).
Proof.
  intros H1 H2. unfold src_block. rewrite shl6. unfold u16. rewrite (N.mod_small (s * 64)) by lia.
  rewrite N.mod_small by lia.
  destruct (_ || _) eqn:E; [lia|].
  replace (N.to_nat (s * 64 + 64 - s * 64)) with 64%nat by lia. apply aread_block. assumption.
Qed.

Lemma src_block_1023 a : src_block a 1023 = Panic SliceOutOfRange.
Proof. unfold src_block. reflexivity. Qed.

(* ---- keys *)

Lemma key_eqb_spec a : forall b, key_eqb a b = true <-> a = b.
Proof.
  induction a as [|x a IH]; intros [|y b]; cbn [key_eqb]; try (split; congruence).
  destruct (N.eqb_spec x y) as [->|E].
  - rewrite IH. split; congruence.
  - split; congruence.
Qed.

Lemma map_get_set_same m k v : map_get (map_set m k v) k = Some v.
Proof.
  induction m as [|[k' v'] m IH]; cbn [map_set map_get].
  - replace (key_eqb k k) with true by (symmetry; apply key_eqb_spec; reflexivity). reflexivity.
  - destruct (key_eqb k' k) eqn:E; cbn [map_get]; rewrite E; auto.
Qed.
Lemma map_get_set_other m k k2 v : k <> k2 -> map_get (map_set m k v) k2 = map_get m k2.
Proof.
  intros H. induction m as [|[k' v'] m IH]; cbn [map_set map_get].
  - destruct (key_eqb k k2) eqn:E; [|reflexivity]. apply key_eqb_spec in E. congruence.
  - destruct (key_eqb k' k) eqn:E; cbn [map_get].
    + apply key_eqb_spec in E. subst k'.
      destruct (key_eqb k k2) eqn:E2; [|reflexivity]. apply key_eqb_spec in E2. congruence.
    + destruct (key_eqb k' k2); auto.
Qed.

Definition flat (block : list N) : list N := flat_map (fun v => [v mod 256; N.shiftr v 8 mod 256]) block.

Lemma flat_length b : length (flat b) = (2 * length b)%nat.
Proof. unfold flat. induction b as [|v b IH]; cbn [flat_map app length]; [reflexivity|]. rewrite IH. lia. Qed.

Lemma flat_inj a : forall b, Forall (fun v => v < 65536) a -> Forall (fun v => v < 65536) b -> flat a = flat b -> a = b.
Proof.
  induction a as [|x a IH]; intros [|y b] Ha Hb E; cbn [flat flat_map app] in E; try congruence.
  inversion Ha; subst. inversion Hb; subst.
  assert (x mod 256 = y mod 256) as E1 by congruence.
  assert (N.shiftr x 8 mod 256 = N.shiftr y 8 mod 256) as E2 by congruence.
  rewrite !N.shiftr_div_pow2 in E2. change (2 ^ 8) with 256 in E2.
  f_equal; [lia|]. apply IH; [assumption|assumption|]. unfold flat. congruence.
Qed.

Lemma index_key_ok b : length b = 64%nat -> indexBlockKey b = Ret (flat b).
Proof. intros H. unfold indexBlockKey, blockSize. rewrite H. reflexivity. Qed.
Lemma prop_key_ok b : length b = 64%nat -> propertyBlockKey b = Ret b.
Proof. intros H. unfold propertyBlockKey, blockSize. rewrite H. reflexivity. Qed.

(* ---- the tree that is compacted *)

Section Tree.
Variables (t : tip) (inn lef : list (list N)) (F : list N -> N).
Hypothesis R : Rep t inn lef F.

Definition rawI (i : N) : N := aget_raw (rawIndices t) i.
Definition rawP (i : N) : N := aget_raw (rawProps t) i.
Definition child (s y : N) : N := if s =? 0 then 0 else rawI (s * 64 + y).
Definition content (s x : N) : N := if s =? 0 then 0 else rawP (s * 64 + x).

(* block s of the raw tree is below a first byte announcing kd index levels,
   with k levels left *)
Inductive reach : nat -> nat -> N -> Prop :=
| reach_root x : x < 64 -> reach (levels x) (levels x) (rawI x)
| reach_child kd k s y : reach kd (S k) s -> y < 64 -> reach kd k (child s y).

Definition on_path (kd k : nat) (q : list N) : Prop :=
  exists x m, q = x :: m /\ x < 64 /\ levels x = kd /\ (length m + k = kd)%nat.

Lemma levels_le x : (levels x <= 2)%nat.
Proof. unfold levels. destruct (x <? 32), (x <? 48); lia. Qed.

Lemma on_path_not_lef kd k q : on_path kd (S k) q -> ~ In q lef.
Proof.
  intros (x & m & -> & Hx & HL & HK) H. pose proof (r_leaf _ _ _ _ R) as HF.
  rewrite Forall_forall in HF. apply HF in H. simpl in H. lia.
Qed.
Lemma on_path_not_inn kd q : on_path kd 0 q -> ~ In q inn.
Proof.
  intros (x & m & -> & Hx & HL & HK) H. pose proof (r_inner _ _ _ _ R) as HF.
  rewrite Forall_forall in HF. apply HF in H. simpl in H. lia.
Qed.

Lemma child_entry kd k q s y : on_path kd (S k) q -> entry inn lef q s -> y < 64 ->
  entry inn lef (q ++ [y]) (child s y).
Proof.
  intros HQ HE Hy. unfold child.
  destruct HE as [(-> & H1 & H2)|[(E & H)|(E & H)]].
  - rewrite N.eqb_refl. left. split; [reflexivity|].
    split; intros K; apply H1; apply (r_closed _ _ _ _ R _ y); tauto.
  - destruct (N.eqb_spec s 0); [tauto|].
    pose proof (r_entry _ _ _ _ R _ _ y H Hy) as HR. rewrite N2Nat.id in HR. exact HR.
  - exfalso. apply nth_in in H. exact (on_path_not_lef _ _ _ HQ H).
Qed.

Lemma on_path_child kd k q y : on_path kd (S k) q -> on_path kd k (q ++ [y]).
Proof.
  intros (x & m & -> & Hx & HL & HK). exists x, (m ++ [y]). rewrite app_length. simpl. repeat split; auto. lia.
Qed.

Lemma reach_path kd k s : reach kd k s -> exists q, on_path kd k q /\ entry inn lef q s.
Proof.
  induction 1 as [x Hx|kd k s y H IH Hy].
  - exists [x]. split.
    + exists x, []. simpl. auto.
    + pose proof (r_entry _ _ _ _ R 0%nat [] x (r_root _ _ _ _ R) Hx) as H.
      change (N.of_nat 0 * 64 + x) with x in H. exact H.
  - destruct IH as (q & HQ & HE). exists (q ++ [y]). split.
    + apply on_path_child; assumption.
    + apply (child_entry kd k); assumption.
Qed.

Lemma reach_le kd k s : reach kd k s -> (k <= kd <= 2)%nat.
Proof.
  intros H. apply reach_path in H. destruct H as (q & (x & m & _ & _ & HL & HK) & _).
  pose proof (levels_le x). lia.
Qed.

Lemma reach_inner kd k s : reach kd (S k) s ->
  s = 0 \/ exists q, on_path kd (S k) q /\ s <> 0 /\ nth_error inn (N.to_nat s) = Some q.
Proof.
  intros H. apply reach_path in H. destruct H as (q & HQ & [(-> & _)|[(E & H)|(E & H)]]).
  - left; reflexivity.
  - right. exists q. auto.
  - exfalso. apply nth_in in H. exact (on_path_not_lef _ _ _ HQ H).
Qed.

Lemma reach_leaf kd s : reach kd 0 s ->
  s = 0 \/ exists q, on_path kd 0 q /\ 2 <= s /\ nth_error lef (N.to_nat (s - 2)) = Some q.
Proof.
  intros H. apply reach_path in H. destruct H as (q & HQ & [(-> & _)|[(E & H)|(E & H)]]).
  - left; reflexivity.
  - exfalso. apply nth_in in H. exact (on_path_not_inn _ _ HQ H).
  - right. exists q. auto.
Qed.

Lemma inn_small : N.of_nat (length inn) <= 342.
Proof. apply inner_count; [apply (r_inner _ _ _ _ R)|apply (r_inn _ _ _ _ R)]. Qed.

Lemma reach_inner_lt kd k s : reach kd (S k) s -> s < N.of_nat (length inn).
Proof.
  intros H. destruct (reach_inner _ _ _ H) as [->|(q & _ & _ & HN)].
  - pose proof (nth_lt _ _ _ (r_root _ _ _ _ R)). lia.
  - apply nth_lt in HN. lia.
Qed.

Lemma reach_kind kd k kd' k' s : s <> 0 -> reach kd (S k) s -> reach kd' (S k') s -> kd = kd' /\ k = k'.
Proof.
  intros Hs H H'. apply reach_inner in H. apply reach_inner in H'.
  destruct H as [H|(q & (x & m & E & Hx & HL & HK) & _ & HN)]; [tauto|].
  destruct H' as [H'|(q' & (x' & m' & E' & Hx' & HL' & HK') & _ & HN')]; [tauto|].
  assert (x = x') by congruence. assert (m = m') by congruence. subst x' m'. lia.
Qed.

Definition iblock (s : N) : list N := map (fun j => child s (N.of_nat j)) (seq 0 64).
Definition pblock (s : N) : list N := map (fun j => content s (N.of_nat j)) (seq 0 64).

Lemma zero_as_map : zero_block = map (fun _ => 0) (seq 0 64).
Proof. reflexivity. Qed.

Lemma read_inner kd k s : reach kd (S k) s ->
  (if s =? 0 then Ret zero_block else src_block (rawIndices t) s) = Ret (iblock s).
Proof.
  intros H. unfold iblock, child. destruct (N.eqb_spec s 0) as [E|E]; [rewrite zero_as_map; reflexivity|].
  pose proof (reach_inner_lt _ _ _ H). pose proof inn_small.
  apply src_block_ok; [lia|]. rewrite (r_ilen _ _ _ _ R). lia.
Qed.

Lemma iblock_reach kd k s : reach kd (S k) s -> Forall (reach kd k) (iblock s).
Proof.
  intros H. unfold iblock. rewrite Forall_map, Forall_forall. intros j Hj. apply in_seq in Hj.
  apply reach_child; [assumption|lia].
Qed.
Lemma iblock_length s : length (iblock s) = 64%nat.
Proof. unfold iblock. rewrite map_length, List.seq_length. reflexivity. Qed.
Lemma pblock_length s : length (pblock s) = 64%nat.
Proof. unfold pblock. rewrite map_length, List.seq_length. reflexivity. Qed.
Lemma iblock_nth s y d : y < 64 -> nth (N.to_nat y) (iblock s) d = child s y.
Proof. intros H. unfold iblock. rewrite nth_map_seq by lia. f_equal. lia. Qed.
Lemma pblock_nth s y d : y < 64 -> nth (N.to_nat y) (pblock s) d = content s y.
Proof. intros H. unfold pblock. rewrite nth_map_seq by lia. f_equal. lia. Qed.

(* ---- the values in the raw tree *)

Fixpoint walk_src (k : nat) (s : N) (w : list N) : N :=
  match k, w with
  | O, [x] => content s x
  | S k', y :: w' => walk_src k' (child s y) w'
  | _, _ => 0
  end.

Lemma walk_src_spec k : forall kd q s w, on_path kd k q -> entry inn lef q s ->
  length w = S k -> Forall (fun y => y < 64) w -> walk_src k s w = F (q ++ w).
Proof.
  induction k as [|k IH]; intros kd q s w HQ HE HL HW.
  - destruct w as [|x [|x2 w]]; try discriminate HL. cbn [walk_src]. inversion HW; subst.
    unfold content. destruct HE as [(-> & H1' & H2')|[(E & H)|(E & H)]].
    + rewrite N.eqb_refl. symmetry. destruct (N.eq_dec (F (q ++ [x])) 0) as [Z|Z]; [assumption|]. exfalso.
      apply (r_supp _ _ _ _ R) in Z. destruct Z as [(a & Ea & _)|(q2 & z & Hq & _ & Ez)].
      * destruct HQ as (u & m & -> & _). destruct m; discriminate Ea.
      * apply app_inj_tail in Ez. destruct Ez as [<- _]. tauto.
    + exfalso. apply nth_in in H. exact (on_path_not_inn _ _ HQ H).
    + destruct (N.eqb_spec s 0); [lia|].
      rewrite <- (r_vals _ _ _ _ R _ _ x H) by assumption. unfold rawP. f_equal. lia.
  - destruct w as [|y w]; [discriminate HL|]. cbn [walk_src]. inversion HW; subst.
    replace (q ++ y :: w) with ((q ++ [y]) ++ w) by (rewrite <- app_assoc; reflexivity).
    apply (IH kd).
    + apply on_path_child; assumption.
    + apply (child_entry kd k); assumption.
    + simpl in HL. lia.
    + assumption.
Qed.

Lemma walk_root x w : x < 64 -> length w = S (levels x) -> Forall (fun y => y < 64) w ->
  walk_src (levels x) (rawI x) w = F (x :: w).
Proof.
  intros Hx HL HW. apply (walk_src_spec (levels x) (levels x) [x]).
  - exists x, []. simpl. auto.
  - pose proof (r_entry _ _ _ _ R 0%nat [] x (r_root _ _ _ _ R) Hx) as H. exact H.
  - assumption.
  - assumption.
Qed.

(* ---- too many blocks *)

Fixpoint descend_src (k : nat) (s : N) (w : list N) : N :=
  match k, w with
  | S k', y :: w' => descend_src k' (child s y) w'
  | _, _ => s
  end.

Lemma each_ret (f : N -> cstate -> res (N * cstate)) : forall ss st r, each f ss st = Ret r ->
  forall s, In s ss -> exists st' r', f s st' = Ret r'.
Proof.
  induction ss as [|s0 ss IH]; intros st r H s Hin; [destruct Hin|].
  cbn [each] in H. destruct (f s0 st) as [[n st1]|] eqn:E; [|discriminate H]. cbn [bind] in H.
  destruct Hin as [->|Hin]; [eauto|].
  fold (each f) in H. destruct (each f ss st1) as [[ns st2]|] eqn:E2; [|discriminate H]. eauto.
Qed.

Lemma build_visits k : forall kd pm im s st r w, reach kd k s ->
  buildCompactedBlocks t k pm im s st = Ret r -> length w = k -> Forall (fun y => y < 64) w ->
  descend_src k s w = 0 \/ exists b, src_block (rawProps t) (descend_src k s w) = Ret b.
Proof.
  induction k as [|k IH]; intros kd pm im s st r w HR HB HL HW.
  - cbn [descend_src]. cbn [buildCompactedBlocks] in HB.
    destruct (N.eqb_spec s 0); [left; assumption|]. right.
    destruct (src_block (rawProps t) s); [eauto|discriminate HB].
  - cbn [buildCompactedBlocks] in HB. rewrite (read_inner _ _ _ HR) in HB. cbn [bind] in HB.
    destruct (each _ (iblock s) st) as [r2|] eqn:E; [|discriminate HB].
    destruct w as [|y w]; [discriminate HL|]. inversion HW; subst. cbn [descend_src].
    assert (In (child s y) (iblock s)) as Hin.
    { rewrite <- (iblock_nth s y 0) by assumption. apply nth_In. rewrite iblock_length. lia. }
    destruct (each_ret _ _ _ _ E _ Hin) as (st' & r' & E').
    apply (IH kd im pm _ st' r'); [apply reach_child; assumption|assumption| |assumption].
    simpl in HL. lia.
Qed.

Lemma index_levels_ok x : x < 64 -> index_levels x = Ret (levels x).
Proof.
  intros H. unfold index_levels, levels. rewrite N.shiftr_div_pow2. change (2 ^ 4) with 16.
  destruct (N.ltb_spec x 32).
  { assert (x / 16 = 0 \/ x / 16 = 1) as [-> | ->] by lia; reflexivity. }
  destruct (N.ltb_spec x 48).
  { assert (x / 16 = 2) as -> by lia; reflexivity. }
  assert (x / 16 = 3) as -> by lia. reflexivity.
Qed.

Lemma compact_root_visits : forall src i st r, compact_root t i src st = Ret r ->
  i + N.of_nat (length src) <= 64 ->
  forall j s, nth_error src j = Some s ->
  exists st' r', buildCompactedBlocks t (levels (i + N.of_nat j)) IndexMap PropMap s st' = Ret r'.
Proof.
  induction src as [|s0 src IH]; intros i st r H HL j s Hj; [destruct j; discriminate Hj|].
  cbn [compact_root] in H. cbn [length] in HL. rewrite index_levels_ok in H by lia. cbn [bind] in H.
  destruct (buildCompactedBlocks _ _ _ _ _ st) as [[n st1]|] eqn:E; [|discriminate H]. cbn [bind] in H.
  destruct j as [|j].
  - cbn [nth_error] in Hj. assert (s0 = s) by congruence. subst s0. rewrite N.add_0_r. eauto.
  - destruct (set_root i n st1) as [st2|] eqn:E2; [|discriminate H]. cbn [bind] in H.
    cbn [nth_error] in Hj.
    destruct (IH (i + 1) st2 r H ltac:(lia) j s Hj) as (st' & r' & E3).
    replace (i + N.of_nat (S j)) with (i + 1 + N.of_nat j) by lia. eauto.
Qed.

Definition root_block : list N := block (rawIndices t) 0.

Lemma read_root : aread (rawIndices t) 0 64 = Ret root_block.
Proof.
  apply (aread_block (rawIndices t) 0). rewrite (r_ilen _ _ _ _ R).
  pose proof (nth_lt _ _ _ (r_root _ _ _ _ R)). lia.
Qed.
Lemma root_nth x : x < 64 -> nth_error root_block (N.to_nat x) = Some (rawI x).
Proof.
  intros H. unfold root_block.
  rewrite nth_error_nth' with (d := 0) by (rewrite block_length; lia).
  rewrite block_nth by assumption. reflexivity.
Qed.

Lemma read_ascii0 : aread (rawProps t) 0 64 = Ret (block (rawProps t) 0).
Proof. apply (aread_block (rawProps t) 0). rewrite (r_plen _ _ _ _ R). lia. Qed.
Lemma read_ascii1 : aread (rawProps t) 64 64 = Ret (block (rawProps t) 1).
Proof. apply (aread_block (rawProps t) 1). rewrite (r_plen _ _ _ _ R). lia. Qed.

Lemma descend_entry k : forall kd q s w, on_path kd k q -> entry inn lef q s ->
  length w = k -> Forall (fun y => y < 64) w -> entry inn lef (q ++ w) (descend_src k s w).
Proof.
  induction k as [|k IH]; intros kd q s w HQ HE HL HW.
  - destruct w; [|discriminate HL]. rewrite app_nil_r. exact HE.
  - destruct w as [|y w]; [discriminate HL|]. inversion HW; subst. cbn [descend_src].
    replace (q ++ y :: w) with ((q ++ [y]) ++ w) by (rewrite <- app_assoc; reflexivity).
    apply (IH kd).
    + apply on_path_child; assumption.
    + apply (child_entry kd k); assumption.
    + simpl in HL. lia.
    + assumption.
Qed.

Lemma root_too_big : (1022 <= length lef)%nat -> forall st0 st, compact_root t 0 root_block st0 <> Ret st.
Proof.
  intros HL st0 st E.
  destruct (nth_error lef (N.to_nat 1021)) as [q|] eqn:Eq;
    [|apply nth_error_None in Eq; lia].
  pose proof (r_leaf _ _ _ _ R) as HF. rewrite Forall_forall in HF.
  pose proof (HF q (nth_in _ _ _ Eq)) as Hq. destruct q as [|x m]; [exact Hq|].
  destruct Hq as (Hx & Hm & Hlen).
  pose proof (compact_root_visits _ _ _ _ E) as HV. unfold root_block in HV at 1. rewrite block_length in HV.
  specialize (HV ltac:(lia) (N.to_nat x) (rawI x) (root_nth x ltac:(lia))).
  destruct HV as (st' & r' & HB). replace (0 + N.of_nat (N.to_nat x)) with x in HB by lia.
  assert (x < 64) as Hx64 by lia.
  pose proof (descend_entry (levels x) (levels x) [x] (rawI x) m) as HE.
  cbn [app] in HE.
  assert (entry inn lef (x :: m) (descend_src (levels x) (rawI x) m)) as HE'.
  { apply HE; auto.
    - exists x, []. simpl. auto.
    - pose proof (r_entry _ _ _ _ R 0%nat [] x (r_root _ _ _ _ R) Hx64) as HR0. exact HR0. }
  destruct (build_visits (levels x) _ _ _ _ _ _ m (reach_root x Hx64) HB Hlen Hm) as [Z|(b & Z)].
  - rewrite Z in HE'. destruct HE' as [(_ & _ & K)|[(K & _)|(K & _)]]; [|tauto|lia].
    apply K. apply (nth_in _ _ _ Eq).
  - destruct HE' as [(K0 & _ & K)|[(K & K2)|(K & K2)]].
    + apply K. apply (nth_in _ _ _ Eq).
    + apply nth_in in K2. apply (on_path_not_inn (levels x) (x :: m)); [|exact K2].
      exists x, m. repeat split; auto. lia.
    + assert (N.to_nat (descend_src (levels x) (rawI x) m - 2) = N.to_nat 1021) as E3.
      { apply (proj1 (NoDup_nth_error lef) (r_lef _ _ _ _ R)); [apply (nth_lt _ _ _ K2)|congruence]. }
      assert (descend_src (levels x) (rawI x) m = 1023) as E4 by lia.
      rewrite E4, src_block_1023 in Z. discriminate Z.
Qed.

(* what compaction can fail with *)

Lemma src_block_cases a s : 64 <= alen a -> (exists b, src_block a s = Ret b /\ length b = 64%nat) \/ src_block a s = Panic SliceOutOfRange.
Proof.
  intros Ha. unfold src_block. set (start := u16 (N.shiftl s 6)). set (stop := u16 (start + 64)).
  destruct ((stop <? start) || (alen a <? stop)) eqn:E; [right; reflexivity|]. apply orb_false_iff in E. destruct E as [E1 E2].
  left. rewrite aread_ok by lia. eexists. split; [reflexivity|]. rewrite map_length, List.seq_length.
  assert (start < 65536) by (unfold start, u16; apply N.mod_lt; lia).
  assert (start mod 64 = 0) as M.
  { unfold start, u16. rewrite shl6. change 65536 with (64 * 1024). rewrite (N.mul_comm s 64), N.mul_mod_distr_l by lia.
    rewrite N.mul_comm. apply N.mod_mul. lia. }
  apply N.mod_divide in M; [|lia]. destruct M as [z M].
  destruct (N.eq_dec start 65472) as [Q|Q].
  - exfalso. unfold stop in E1. rewrite Q in E1. discriminate E1.
  - assert (stop = start + 64) as -> by (unfold stop, u16; apply N.mod_small; lia). lia.
Qed.

Lemma place_mono key w fresh add st n st' : (forall st, alen (c_indices st) <= alen (c_indices (add st))) ->
  place key w fresh add st = (n, st') -> alen (c_indices st) <= alen (c_indices st').
Proof.
  intros H. unfold place. destruct (map_get _ _); intros E.
  - assert (st' = st) as -> by congruence. lia.
  - assert (st' = set_map w (map_set (get_map w (add st)) key fresh) (add st)) as -> by congruence. destruct w; apply H.
Qed.

Lemma aappend_alen a b : alen a <= alen (aappend a b).
Proof. rewrite alen_append. lia. Qed.

Lemma build_mono k : forall pm im s st n st', buildCompactedBlocks t k pm im s st = Ret (n, st') -> alen (c_indices st) <= alen (c_indices st').
Proof.
  induction k as [|k IH]; intros pm im s st n st' H; cbn [buildCompactedBlocks] in H.
  - destruct (if s =? 0 then _ else _) as [b|]; [|discriminate]. cbn [bind] in H.
    destruct (propertyBlockKey b) as [key|]; [|discriminate]. cbn [bind] in H.
    match type of H with Ret (place ?k ?w ?f ?a ?s0) = _ => apply (place_mono k w f a s0 n st'); [|congruence] end. intros st0. cbn [append_props c_indices]. lia.
  - destruct (if s =? 0 then _ else _) as [b|]; [|discriminate]. cbn [bind] in H.
    destruct (each _ b st) as [[nb st1]|] eqn:E; [|discriminate]. cbn [bind] in H.
    destruct (indexBlockKey nb) as [key|]; [|discriminate]. cbn [bind] in H.
    assert (alen (c_indices st) <= alen (c_indices st1)) as M1.
    { clear H. revert nb st st1 E. induction b as [|s0 b IHb]; intros nb st st1 E; cbn [each] in E.
      - assert (st1 = st) as -> by congruence. lia.
      - destruct (buildCompactedBlocks t k im pm s0 st) as [[n0 st2]|] eqn:E0; [|discriminate]. cbn [bind] in E.
        fold (each (buildCompactedBlocks t k im pm)) in E.
        destruct (each _ b st2) as [[ns st3]|] eqn:E1; [|discriminate]. cbn [bind] in E.
        assert (st3 = st1) as -> by congruence. apply IH in E0. apply IHb in E1. lia. }
    etransitivity; [exact M1|].
    match type of H with Ret (place ?k ?w ?f ?a ?s0) = _ => apply (place_mono k w f a s0 n st'); [|congruence] end. intros st0. cbn [append_indices c_indices]. apply aappend_alen.
Qed.

Lemma build_panics k : forall kd pm im s st p, reach kd k s ->
  buildCompactedBlocks t k pm im s st = Panic p -> p = SliceOutOfRange.
Proof.
  induction k as [|k IH]; intros kd pm im s st p HR H; cbn [buildCompactedBlocks] in H.
  - destruct (N.eqb_spec s 0) as [Z|Z].
    + cbn [bind] in H. rewrite prop_key_ok in H by reflexivity. discriminate H.
    + destruct (src_block_cases (rawProps t) s) as [(b & E & L)|E]; [rewrite (r_plen _ _ _ _ R); lia| |]; rewrite E in H; cbn [bind] in H.
      * rewrite prop_key_ok in H by exact L. discriminate H.
      * congruence.
  - rewrite (read_inner _ _ _ HR) in H. cbn [bind] in H.
    pose proof (iblock_reach _ _ _ HR) as HF. pose proof (iblock_length s) as HL.
    destruct (each _ (iblock s) st) as [[nb st1]|q] eqn:E.
    + cbn [bind] in H. assert (length nb = 64%nat) as L.
      { rewrite <- HL. clear - E. revert nb st st1 E. induction (iblock s) as [|s0 b IHb]; intros nb st st1 E; cbn [each] in E.
        - assert (nb = []) as -> by congruence. reflexivity.
        - destruct (buildCompactedBlocks t k im pm s0 st) as [[n0 st2]|] eqn:E0; [|discriminate]. cbn [bind] in E.
          fold (each (buildCompactedBlocks t k im pm)) in E.
          destruct (each _ b st2) as [[ns st3]|] eqn:E1; [|discriminate]. cbn [bind] in E.
          assert (nb = n0 :: ns) as -> by congruence. cbn [length]. f_equal. eapply IHb. exact E1. }
      rewrite index_key_ok in H by exact L. discriminate H.
    + cbn [bind] in H. assert (q = p) as -> by congruence. clear H HL. revert st E.
      induction HF as [|s0 b Hs HF IHb]; intros st E; cbn [each] in E; [discriminate|].
      destruct (buildCompactedBlocks t k im pm s0 st) as [[n0 st2]|q] eqn:E0; cbn [bind] in E.
      * fold (each (buildCompactedBlocks t k im pm)) in E.
        destruct (each _ b st2) as [[ns st3]|q] eqn:E1; cbn [bind] in E; [discriminate|].
        apply (IHb st2). congruence.
      * assert (q = p) as -> by congruence. eapply IH; eassumption.
Qed.

Lemma compact_root_panics : forall src i st p, compact_root t i src st = Panic p ->
  i + N.of_nat (length src) <= 64 -> 64 <= alen (c_indices st) ->
  (forall j s, nth_error src j = Some s -> s = rawI (i + N.of_nat j)) -> p = SliceOutOfRange.
Proof.
  induction src as [|s src IH]; intros i st p H HL HA HS; cbn [compact_root] in H; [discriminate|]. cbn [length] in HL.
  rewrite index_levels_ok in H by lia. cbn [bind] in H.
  pose proof (HS 0%nat s eq_refl) as E0. rewrite N.add_0_r in E0. subst s.
  destruct (buildCompactedBlocks _ _ _ _ _ st) as [[n st1]|q] eqn:E; cbn [bind] in H.
  - pose proof (build_mono _ _ _ _ _ _ _ E) as M.
    destruct (set_root i n st1) as [st2|q] eqn:E2; cbn [bind] in H.
    + apply (IH (i + 1) st2 p H); [lia| |].
      * unfold set_root in E2. destruct (c_shared st1).
        { rewrite aset_ok in E2 by lia. cbn [bind] in E2.
          match type of E2 with Ret ?x = _ => assert (st2 = x) as -> by congruence end. cbn [c_indices]. rewrite alen_upd. lia. }
        assert (st2 = st1) as -> by congruence. lia.
      * intros j s Hj. specialize (HS (S j) s Hj). rewrite HS. f_equal. lia.
    + unfold set_root in E2. destruct (c_shared st1); [|discriminate]. rewrite aset_ok in E2 by lia. discriminate.
  - assert (q = p) as -> by congruence. eapply build_panics; [apply (reach_root i); lia|exact E].
Qed.

Theorem compact_too_big_panic : (1022 <= length lef)%nat -> Compact t = Panic SliceOutOfRange.
Proof.
  intros HL. unfold Compact.
  rewrite read_ascii0, read_ascii1. cbn [bind]. rewrite !prop_key_ok by apply block_length. cbn [bind].
  rewrite read_root. cbn [bind].
  destruct (compact_root t 0 root_block _) as [st|p] eqn:E; [destruct (root_too_big HL _ _ E)|].
  cbn [bind]. f_equal. refine (compact_root_panics _ _ _ _ E _ _ _).
  - unfold root_block. rewrite block_length. lia.
  - cbn [c_indices]. vm_compute. discriminate.
  - intros j s Hj. assert (j < 64)%nat as Lj.
    { assert (nth_error root_block j <> None) as Q by congruence. apply nth_error_Some in Q. unfold root_block in Q.
      rewrite block_length in Q. exact Q. }
    pose proof (root_nth (N.of_nat j) ltac:(lia)) as Q. rewrite Nat2N.id in Q. rewrite N.add_0_l. congruence.
Qed.

(* ---- compaction of a tree that is small enough *)

Hypothesis small : (length lef <= 1021)%nat.

Lemma reach_leaf_lt kd s : reach kd 0 s -> s <= 1022 /\ s * 64 + 64 <= alen (rawProps t).
Proof.
  intros H. rewrite (r_plen _ _ _ _ R). destruct (reach_leaf _ _ H) as [->|(q & _ & H2 & HN)]; [lia|].
  apply nth_lt in HN. lia.
Qed.

Lemma read_leaf kd s : reach kd 0 s ->
  (if s =? 0 then Ret zero_block else src_block (rawProps t) s) = Ret (pblock s).
Proof.
  intros H. unfold pblock, content. destruct (N.eqb_spec s 0) as [E|E]; [rewrite zero_as_map; reflexivity|].
  destruct (reach_leaf_lt _ _ H). apply src_block_ok; assumption.
Qed.

(* which map holds what, per level *)
Definition pmap (kd k : nat) : which := if Nat.even (kd - k) then IndexMap else PropMap.
Definition imap (kd k : nat) : which := if Nat.even (kd - k) then PropMap else IndexMap.

Lemma maps_swap kd k : (S k <= kd)%nat -> pmap kd k = imap kd (S k) /\ imap kd k = pmap kd (S k).
Proof.
  intros H. unfold pmap, imap. replace (kd - k)%nat with (S (kd - S k)) by lia.
  rewrite Nat.even_succ, <- Nat.negb_even. destruct (Nat.even _); auto.
Qed.

Definition a0 : list N := block (rawProps t) 0.
Definition a1 : list N := block (rawProps t) 1.

(* the case in which block 0 is reused *)
Definition zc (kd : nat) (s : N) : Prop := pmap kd 0 = PropMap /\ a0 <> a1 /\ pblock s = a0.
Definition bad : Prop := exists s, reach 1 0 s /\ zc 1 s.

Record ext (st st' : cstate) : Prop := mkExt {
  e_np : alen (c_props st) <= alen (c_props st');
  e_ni : alen (c_indices st) <= alen (c_indices st');
  e_p : forall i, i < alen (c_props st) -> aget_raw (c_props st') i = aget_raw (c_props st) i;
  e_i : forall i, 64 <= i < alen (c_indices st) -> aget_raw (c_indices st') i = aget_raw (c_indices st) i;
  e_map : forall w k n, map_get (get_map w st) k = Some n -> map_get (get_map w st') k = Some n
}.

Lemma ext_refl st : ext st st.
Proof. constructor; auto; lia. Qed.
Lemma ext_trans a b c : ext a b -> ext b c -> ext a c.
Proof.
  intros [A1 A2 A3 A4 A5] [B1 B2 B3 B4 B5]. constructor; auto; try lia.
  - intros i H. rewrite B3, A3 by lia. reflexivity.
  - intros i H. rewrite B4, A4 by lia. reflexivity.
Qed.

Fixpoint resok (st : cstate) (kd k : nat) (n s : N) : Prop :=
  match k with
  | O => n < 65536 /\ n * 64 + 64 <= alen (c_props st) /\
         (forall x, x < 64 -> aget_raw (c_props st) (n * 64 + x) = content s x) /\
         (n = 0 <-> zc kd s)
  | S k' => n < 65536 /\ 1 <= n /\ n * 64 + 64 <= alen (c_indices st) /\
         (forall y, y < 64 -> resok st kd k' (aget_raw (c_indices st) (n * 64 + y)) (child s y))
  end.

Lemma resok_small st kd k n s : resok st kd k n s -> n < 65536.
Proof. destruct k; simpl; tauto. Qed.

Lemma resok_ext st st' kd k : ext st st' -> forall n s, resok st kd k n s -> resok st' kd k n s.
Proof.
  intros E. induction k as [|k IH]; intros n s H; cbn [resok] in *.
  - destruct H as (H1 & H2 & H3 & H4). split; [assumption|]. pose proof (e_np _ _ E).
    split; [lia|]. split; [|assumption].
    intros x Hx. rewrite (e_p _ _ E) by lia. apply H3; assumption.
  - destruct H as (H1 & H2 & H3 & H4). pose proof (e_ni _ _ E). repeat split; auto; try lia.
    intros y Hy. rewrite (e_i _ _ E) by lia. apply IH, H4; assumption.
Qed.

Definition build (kd k : nat) : N -> cstate -> res (N * cstate) :=
  buildCompactedBlocks t k (pmap kd k) (imap kd k).

Definition stab (st : cstate) (kd k : nat) (s n : N) : Prop :=
  forall st', ext st st' -> build kd k s st' = Ret (n, st').

Lemma stab_ext st st' kd k s n : ext st st' -> stab st kd k s n -> stab st' kd k s n.
Proof. intros E H st2 E2. apply H. eapply ext_trans; eassumption. Qed.

Definition visit := (nat * nat * N)%type.
Definition lvl0 (v : visit) : bool := Nat.eqb (snd (fst v)) 0.
Definition lvlS (v : visit) : bool := negb (lvl0 v).
Definition visit_eq (a b : visit) : {a = b} + {a <> b}.
Proof. decide equality; [apply N.eq_dec|]. decide equality; apply Nat.eq_dec. Defined.

Record cinv (st : cstate) (V : list visit) : Prop := mkCinv {
  ci_il : alen (c_indices st) mod 64 = 0 /\ 64 <= alen (c_indices st);
  ci_pl : alen (c_props st) mod 64 = 0 /\ 128 <= alen (c_props st);
  ci_v : NoDup V;
  ci_reach : forall kd k s, In (kd, k, s) V -> reach kd k s;
  ci_vis : forall kd k s, In (kd, k, s) V -> exists n, stab st kd k s n /\ resok st kd k n s;
  ci_np : alen (c_props st) / 64 <= 2 + N.of_nat (length (filter lvl0 V));
  ci_ni : alen (c_indices st) / 64 <= 1 + N.of_nat (length (filter lvlS V));
  ci_pk : forall w key n, map_get (get_map w st) key = Some n -> length key = 64%nat ->
    n < 65536 /\ n * 64 + 64 <= alen (c_props st) /\ key = block (c_props st) n /\
    (n = 0 <-> w = PropMap /\ a0 <> a1 /\ key = a0);
  ci_ik : forall w key n, map_get (get_map w st) key = Some n -> length key = 128%nat ->
    exists blk, key = flat blk /\ Forall (fun v => v < 65536) blk /\
    n < 65536 /\ 1 <= n /\ n * 64 + 64 <= alen (c_indices st) /\ block (c_indices st) n = blk;
  ci_a0 : exists n, map_get (get_map PropMap st) a0 = Some n;
  ci_sh : c_shared st = true;
  ci_cap : c_cap st = alen (rawIndices t) * 4;
  ci_z : forall i, 64 <= i < alen (c_indices st) -> aget_raw (c_indices st) i = 0 -> bad;
  ci_sp : forall n, 2 <= n -> n * 64 + 64 <= alen (c_props st) -> exists kd s, reach kd 0 s /\ stab st kd 0 s n;
  ci_si : forall n, 1 <= n -> n * 64 + 64 <= alen (c_indices st) -> exists kd k s, reach kd (S k) s /\ stab st kd (S k) s n;
  ci_dp : forall key key' n, map_get (get_map PropMap st) key = Some n -> map_get (get_map IndexMap st) key' = Some n ->
    length key = 64%nat -> length key' = 64%nat -> False;
  ci_di : forall key key' n, map_get (get_map PropMap st) key = Some n -> map_get (get_map IndexMap st) key' = Some n ->
    length key = 128%nat -> length key' = 128%nat -> False
}.

Lemma count0 V : NoDup V -> (forall kd k s, In (kd, k, s) V -> reach kd k s) ->
  N.of_nat (length (filter lvl0 V)) <= 3300.
Proof.
  intros HN HR.
  apply (bounded_nodup (fun v : visit => N.of_nat (fst (fst v)) * 1100 + snd v)).
  - intros [[kd k] s] H. apply filter_In in H. destruct H as [H K]. unfold lvl0 in K. cbn [fst snd] in *.
    assert (k = 0%nat) by lia. subst k. apply HR in H.
    pose proof (reach_le _ _ _ H). destruct (reach_leaf_lt _ _ H). lia.
  - intros [[kd k] s] [[kd' k'] s'] H H'. apply filter_In in H. apply filter_In in H'.
    destruct H as [H K], H' as [H' K']. unfold lvl0 in K, K'. cbn [fst snd] in *.
    assert (k = 0%nat) by lia. assert (k' = 0%nat) by lia. subst k k'. apply HR in H. apply HR in H'.
    pose proof (reach_le _ _ _ H). destruct (reach_leaf_lt _ _ H).
    pose proof (reach_le _ _ _ H'). destruct (reach_leaf_lt _ _ H'). intros E.
    assert (kd = kd') by lia. assert (s = s') by lia. congruence.
  - apply NoDup_filter; assumption.
Qed.

Definition vcode (v : visit) : N :=
  if snd v =? 0 then N.of_nat (fst (fst v) - 1) + N.of_nat (snd (fst v) - 1) else 2 + snd v.

Lemma countS V : NoDup V -> (forall kd k s, In (kd, k, s) V -> reach kd k s) ->
  N.of_nat (length (filter lvlS V)) <= N.of_nat (length inn) + 2.
Proof.
  intros HN HR.
  assert (1 <= length inn)%nat as H1 by (pose proof (nth_lt _ _ _ (r_root _ _ _ _ R)); lia).
  apply (bounded_nodup vcode).
  - intros [[kd k] s] H. apply filter_In in H. destruct H as [H K]. unfold lvlS, lvl0 in K. unfold vcode.
    cbn [fst snd] in *. destruct k as [|k]; [discriminate K|]. apply HR in H.
    pose proof (reach_le _ _ _ H). pose proof (reach_inner_lt _ _ _ H).
    destruct (N.eqb_spec s 0); lia.
  - intros [[kd k] s] [[kd' k'] s'] H H'. apply filter_In in H. apply filter_In in H'.
    destruct H as [H K], H' as [H' K']. unfold lvlS, lvl0 in K, K'. unfold vcode. cbn [fst snd] in *.
    destruct k as [|k]; [discriminate K|]. destruct k' as [|k']; [discriminate K'|].
    apply HR in H. apply HR in H'.
    pose proof (reach_le _ _ _ H). pose proof (reach_le _ _ _ H'). intros E.
    destruct (N.eqb_spec s 0), (N.eqb_spec s' 0).
    + assert (kd = kd') by lia. assert (k = k') by lia. congruence.
    + lia.
    + lia.
    + assert (s = s') by lia. subst s'. destruct (reach_kind _ _ _ _ _ n H H') as [-> ->]. reflexivity.
  - apply NoDup_filter; assumption.
Qed.

Lemma get_set_same w m st : get_map w (set_map w m st) = m.
Proof. destruct w; reflexivity. Qed.
Lemma get_set_other w w' m st : w <> w' -> get_map w' (set_map w m st) = get_map w' st.
Proof. destruct w, w'; intros H; try reflexivity; congruence. Qed.
Lemma which_dec (w w' : which) : {w = w'} + {w <> w'}.
Proof. decide equality. Qed.

Lemma get_map_set w m k v st w' k' :
  m = get_map w st ->
  map_get (get_map w' (set_map w (map_set m k v) st)) k' =
  if which_dec w w' then (if list_eq k k' then Some v else map_get (get_map w' st) k')
  else map_get (get_map w' st) k'.
Proof.
  intros ->. destruct (which_dec w w') as [<-|E].
  - rewrite get_set_same. destruct (list_eq k k') as [<-|E2].
    + apply map_get_set_same.
    + apply map_get_set_other; assumption.
  - rewrite get_set_other by assumption. reflexivity.
Qed.

(* a state with one more map entry and more data *)
Lemma ext_add w key n st st1 :
  map_get (get_map w st) key = None ->
  (forall w, get_map w st1 = get_map w st) ->
  alen (c_props st) <= alen (c_props st1) -> alen (c_indices st) <= alen (c_indices st1) ->
  (forall i, i < alen (c_props st) -> aget_raw (c_props st1) i = aget_raw (c_props st) i) ->
  (forall i, i < alen (c_indices st) -> aget_raw (c_indices st1) i = aget_raw (c_indices st) i) ->
  ext st (set_map w (map_set (get_map w st1) key n) st1).
Proof.
  intros H0 HM H1 H2 H3 H4.
  constructor.
  1,2,3,4: destruct w; cbn [set_map c_props c_indices]; auto; intros; apply H4; lia.
  intros w' k n' H. rewrite get_map_set by reflexivity. rewrite HM.
  destruct (which_dec w w') as [<-|E]; [|assumption].
  destruct (list_eq key k) as [<-|E]; [congruence|assumption].
Qed.

Lemma pmap_zc kd key s : pblock s = key -> (pmap kd 0 = PropMap /\ a0 <> a1 /\ key = a0) <-> zc kd s.
Proof. intros <-. reflexivity. Qed.

Lemma block_ext a b n : (forall x, x < 64 -> aget_raw a (n * 64 + x) = aget_raw b (n * 64 + x)) -> block a n = block b n.
Proof. intros H. unfold block. apply map_ext_in. intros j Hj. apply in_seq in Hj. apply H. lia. Qed.

Lemma append_block a vs : length vs = 64%nat -> alen a mod 64 = 0 ->
  block (aappend a vs) (alen a / 64) = vs.
Proof.
  intros H Hm. apply list64_ext; [apply block_length|assumption|]. intros x Hx.
  rewrite block_nth by assumption.
  replace (alen a / 64 * 64 + x) with (alen a + N.of_nat (N.to_nat x)) by lia.
  apply append_new. lia.
Qed.

Lemma append_block_old a vs n : n * 64 + 64 <= alen a -> block (aappend a vs) n = block a n.
Proof. intros H. apply block_ext. intros x Hx. apply append_old. lia. Qed.

Definition same_root (st st' : cstate) : Prop :=
  forall i, i < 64 -> aget_raw (c_indices st') i = aget_raw (c_indices st) i.
Lemma same_root_trans a b c : same_root a b -> same_root b c -> same_root a c.
Proof. intros H1 H2 i Hi. rewrite H2, H1 by assumption. reflexivity. Qed.

(* one leaf *)
Lemma leaf_step st V kd s : cinv st V -> reach kd 0 s -> ~ In (kd, 0%nat, s) V ->
  exists n st', build kd 0 s st = Ret (n, st') /\ cinv st' ((kd, 0%nat, s) :: V) /\ (ext st st' /\ same_root st st') /\
    stab st' kd 0 s n /\ resok st' kd 0 n s.
Proof.
  intros C HR HV. unfold build. cbn [buildCompactedBlocks]. rewrite (read_leaf _ _ HR). cbn [bind].
  rewrite prop_key_ok by apply pblock_length. cbn [bind]. unfold place.
  pose proof (pblock_length s) as PL.
  assert (forall st' n, map_get (get_map (pmap kd 0) st') (pblock s) = Some n -> stab st' kd 0 s n) as HS.
  { intros st' n Hm st2 E2. unfold build. cbn [buildCompactedBlocks]. rewrite (read_leaf _ _ HR). cbn [bind].
    rewrite prop_key_ok by assumption. cbn [bind]. unfold place.
    rewrite (e_map _ _ E2 _ _ _ Hm). reflexivity. }
  destruct C as [C1 C2 C3 C4 C5 C6 C7 C8 C9 C10 C11 C12 C13 C14 C15 C16 C17].
  assert (NoDup ((kd, 0%nat, s) :: V)) as HN' by (constructor; assumption).
  assert (forall kd' k' s', In (kd', k', s') ((kd, 0%nat, s) :: V) -> reach kd' k' s') as HR'.
  { intros kd' k' s' [E|H]; [|auto]. congruence. }
  assert (filter lvl0 ((kd, 0%nat, s) :: V) = (kd, 0%nat, s) :: filter lvl0 V) as EF0 by reflexivity.
  assert (filter lvlS ((kd, 0%nat, s) :: V) = filter lvlS V) as EFS by reflexivity.
  destruct (map_get (get_map (pmap kd 0) st) (pblock s)) as [n|] eqn:EM.
  - exists n, st. split; [reflexivity|].
    destruct (C8 _ _ _ EM PL) as (K1 & K2 & K3 & K4).
    assert (resok st kd 0 n s) as HO.
    { cbn [resok]. split; [assumption|]. split; [assumption|]. split; [|exact K4].
      intros x Hx. rewrite <- (block_nth (c_props st) n x 0) by assumption. rewrite <- K3.
      apply pblock_nth; assumption. }
    split; [|split; [split; [apply ext_refl|intros i Hi; reflexivity]|split; [apply HS; assumption|assumption]]].
    constructor; auto.
    + intros kd' k' s' [E|H]; [|apply C5; assumption].
      assert (kd = kd') by congruence. assert (0%nat = k') by congruence. assert (s = s') by congruence. subst kd' k' s'.
      eauto.
    + rewrite EF0. cbn [length]. lia.
  - pose proof (count0 V C3 C4) as HC.
    assert (N.shiftr (alen (c_props st)) 6 = alen (c_props st) / 64) as ES by apply shr6.
    rewrite ES. unfold u16. rewrite N.mod_small by lia.
    set (n := alen (c_props st) / 64).
    set (st1 := append_props (pblock s) st).
    set (st' := set_map (pmap kd 0) (map_set (get_map (pmap kd 0) st1) (pblock s) n) st1).
    exists n, st'. split; [reflexivity|].
    assert (forall w, get_map w st1 = get_map w st) as HM1 by (intros []; reflexivity).
    assert (c_props st1 = aappend (c_props st) (pblock s)) as HP1 by reflexivity.
    assert (c_indices st1 = c_indices st) as HI1 by reflexivity.
    assert (c_props st' = aappend (c_props st) (pblock s)) as HP by (unfold st'; destruct (pmap kd 0); exact HP1).
    assert (c_indices st' = c_indices st) as HI by (unfold st'; destruct (pmap kd 0); exact HI1).
    assert (alen (c_props st') = alen (c_props st) + 64) as LP.
    { rewrite HP, alen_append, PL. reflexivity. }
    assert (ext st st') as EX.
    { apply ext_add; auto.
      - rewrite HP1, alen_append. lia.
      - rewrite HI1. lia.
      - intros i Hi. rewrite HP1. apply append_old; assumption. }
    assert (forall w k, map_get (get_map w st') k =
      if which_dec (pmap kd 0) w then (if list_eq (pblock s) k then Some n else map_get (get_map w st) k)
      else map_get (get_map w st) k) as HG.
    { intros w k. unfold st'. rewrite get_map_set by reflexivity. rewrite HM1. reflexivity. }
    assert (block (c_props st') n = pblock s) as HB.
    { rewrite HP. apply append_block; tauto. }
    assert (map_get (get_map (pmap kd 0) st') (pblock s) = Some n) as HGn.
    { rewrite HG. destruct (which_dec _ _); [|congruence]. destruct (list_eq _ _); [reflexivity|congruence]. }
    assert (n = 0 <-> zc kd s) as HZ.
    { split; [lia|]. intros (Z1 & Z2 & Z3). exfalso. destruct C10 as [m Hm].
      rewrite <- Z1, <- Z3 in Hm. congruence. }
    assert (resok st' kd 0 n s) as HO.
    { cbn [resok]. split; [lia|]. split; [lia|]. split; [|exact HZ].
      intros x Hx. rewrite <- (block_nth (c_props st') n x 0) by assumption. rewrite HB.
      apply pblock_nth; assumption. }
    split; [|split; [split; [exact EX|intros i Hi; rewrite HI; reflexivity]|split; [apply HS; assumption|assumption]]].
    constructor; auto.
    + rewrite HI. assumption.
    + lia.
    + intros kd' k' s' [E|H].
      * assert (kd = kd') by congruence. assert (0%nat = k') by congruence. assert (s = s') by congruence. subst kd' k' s'.
        eauto.
      * destruct (C5 _ _ _ H) as (m & Hm1 & Hm2). exists m. split.
        -- eapply stab_ext; eassumption.
        -- eapply resok_ext; eassumption.
    + rewrite EF0. cbn [length]. lia.
    + rewrite HI, EFS. assumption.
    + intros w key m Hm Hlen. rewrite HG in Hm.
      assert (map_get (get_map w st) key = Some m -> 
        m < 65536 /\ m * 64 + 64 <= alen (c_props st') /\ key = block (c_props st') m /\
        (m = 0 <-> w = PropMap /\ a0 <> a1 /\ key = a0)) as Hold.
      { intros K. destruct (C8 _ _ _ K Hlen) as (K1 & K2 & K3 & K4).
        split; [assumption|]. split; [lia|]. split; [|assumption].
        rewrite HP, append_block_old by assumption. assumption. }
      destruct (which_dec (pmap kd 0) w) as [<-|E]; [|apply Hold; assumption].
      destruct (list_eq (pblock s) key) as [<-|E]; [|apply Hold; assumption].
      assert (n = m) by congruence. subst m. split; [lia|]. split; [lia|]. split; [congruence|].
      rewrite HZ. symmetry. apply pmap_zc. reflexivity.
    + intros w key m Hm Hlen. rewrite HG in Hm. rewrite HI.
      destruct (which_dec (pmap kd 0) w) as [<-|E]; [|eapply C9; eassumption].
      destruct (list_eq (pblock s) key) as [<-|E]; [lia|eapply C9; eassumption].
    + destruct C10 as [m Hm]. exists m. apply (e_map _ _ EX). assumption.
    + unfold st'. destruct (pmap kd 0); exact C11.
    + unfold st'. destruct (pmap kd 0); exact C12.
    + rewrite HI. assumption.
    + intros m H2m Hm. rewrite LP in Hm. destruct (N.eq_dec m n) as [->|E].
      * exists kd, s. split; [assumption|]. apply HS; assumption.
      * destruct (C14 m H2m) as (kd' & s' & K1 & K2); [unfold n in E; lia|].
        exists kd', s'. split; [assumption|]. eapply stab_ext; eassumption.
    + rewrite HI. intros m H1m Hm. destruct (C15 m H1m Hm) as (kd' & k' & s' & K1 & K2).
      exists kd', k', s'. split; [assumption|]. eapply stab_ext; eassumption.
    + intros key key' m H1 H2 L1 L2. rewrite HG in H1, H2.
      assert (forall w k, map_get (get_map w st) k = Some n -> length k = 64%nat -> False) as HOld.
      { intros w k K L. destruct (C8 _ _ _ K L) as (_ & K2 & _). unfold n in K2. lia. }
      destruct (which_dec (pmap kd 0) PropMap) as [E1|E1], (which_dec (pmap kd 0) IndexMap) as [E2|E2];
        try congruence; try (eapply C16; eassumption).
      * destruct (list_eq (pblock s) key); [|eapply C16; eassumption].
        assert (n = m) as <- by congruence. eapply HOld; eassumption.
      * destruct (list_eq (pblock s) key'); [|eapply C16; eassumption].
        assert (n = m) as <- by congruence. eapply HOld; eassumption.
    + intros key key' m H1 H2 L1 L2. rewrite HG in H1, H2.
      destruct (list_eq (pblock s) key) as [<-|_]; [lia|]. destruct (list_eq (pblock s) key') as [<-|_]; [lia|].
      apply (C17 key key' m); [|  |assumption|assumption].
      * destruct (which_dec (pmap kd 0) PropMap); exact H1.
      * destruct (which_dec (pmap kd 0) IndexMap); exact H2.
Qed.

Lemma F2_length {A B} (P : A -> B -> Prop) l m : Forall2 P l m -> length l = length m.
Proof. induction 1; simpl; congruence. Qed.

Definition only_below (kd k : nat) (V V' : list visit) : Prop :=
  forall v, In v V' -> In v V \/ exists k' s', v = (kd, k', s') /\ (k' <= k)%nat.

(* what a call returns *)
Definition built (kd k : nat) (s : N) (st : cstate) (V : list visit) (n : N) (st' : cstate) (V' : list visit) : Prop :=
  build kd k s st = Ret (n, st') /\ cinv st' V' /\ (ext st st' /\ same_root st st') /\ only_below kd k V V' /\
  stab st' kd k s n /\ resok st' kd k n s.

(* one index block, its children being done *)
Lemma index_step st0 st V V0 kd k s ns : cinv st V -> reach kd (S k) s -> ~ In (kd, S k, s) V0 ->
  only_below kd k V0 V -> ext st0 st ->
  each (build kd k) (iblock s) st0 = Ret (ns, st) ->
  Forall2 (fun c n => stab st kd k c n /\ resok st kd k n c) (iblock s) ns ->
  exists n st', build kd (S k) s st0 = Ret (n, st') /\ cinv st' ((kd, S k, s) :: V) /\ (ext st st' /\ same_root st st') /\
    stab st' kd (S k) s n /\ resok st' kd (S k) n s.
Proof.
  intros C HR HV0 HOB EX0 HE HF.
  assert (~ In (kd, S k, s) V) as HV.
  { intros K. destruct (HOB _ K) as [K2|(k' & s' & E & L)]; [tauto|].
    assert (S k = k') by congruence. lia. }
  destruct (maps_swap kd k (proj1 (reach_le _ _ _ HR))) as [SW1 SW2].
  assert (forall st, build kd (S k) s st =
    let! (newBlock, st) := each (build kd k) (iblock s) st in
    let! blockKey := indexBlockKey newBlock in
    Ret (place blockKey (imap kd (S k)) (u16 (N.shiftr (alen (c_indices st)) 6)) (append_indices newBlock) st)) as EB.
  { intros st2. unfold build. cbn [buildCompactedBlocks]. rewrite (read_inner _ _ _ HR). cbn [bind].
    rewrite SW1, SW2. reflexivity. }
  pose proof (F2_length _ _ _ HF) as HLn. rewrite iblock_length in HLn. symmetry in HLn.
  assert (forall y, y < 64 -> resok st kd k (nth (N.to_nat y) ns 0) (child s y)) as HCh.
  { intros y Hy. rewrite <- (iblock_nth s y 0) by assumption.
    assert (forall l l' i, Forall2 (fun c n => stab st kd k c n /\ resok st kd k n c) l l' -> (i < length l)%nat ->
      resok st kd k (nth i l' 0) (nth i l 0)) as HG.
    { clear. intros l l' i H. revert i. induction H as [|c n l l' [_ H] HF IH]; intros i Hi; [simpl in Hi; lia|].
      destruct i; cbn [nth]; [assumption|]. apply IH. simpl in Hi. lia. }
    apply HG; [assumption|]. rewrite iblock_length. lia. }
  assert (Forall (fun v => v < 65536) ns) as HSm.
  { apply Forall_nth. intros i d Hi. rewrite nth_indep with (d' := 0) by assumption.
    rewrite <- (Nat2N.id i). eapply resok_small. apply HCh. lia. }
  assert (forall st' n, ext st st' -> map_get (get_map (imap kd (S k)) st') (flat ns) = Some n -> stab st' kd (S k) s n) as HS.
  { intros st' n EX1 Hm st2 E2. rewrite EB.
    assert (each (build kd k) (iblock s) st2 = Ret (ns, st2)) as ->.
    { assert (ext st st2) as EX2 by (eapply ext_trans; eassumption).
      clear - HF EX2. induction HF as [|c n l l' [H _] HF IH]; [reflexivity|].
      cbn [each]. rewrite (H st2 EX2). cbn [bind]. fold (each (build kd k)). rewrite IH. reflexivity. }
    cbn [bind]. rewrite index_key_ok by assumption. cbn [bind]. unfold place.
    rewrite (e_map _ _ E2 _ _ _ Hm). reflexivity. }
  rewrite EB, HE. cbn [bind]. rewrite index_key_ok by assumption. cbn [bind]. unfold place.
  pose proof (flat_length ns) as FL. rewrite HLn in FL.
  destruct C as [C1 C2 C3 C4 C5 C6 C7 C8 C9 C10 C11 C12 C13 C14 C15 C16 C17].
  assert (NoDup ((kd, S k, s) :: V)) as HN' by (constructor; assumption).
  assert (forall kd' k' s', In (kd', k', s') ((kd, S k, s) :: V) -> reach kd' k' s') as HR'.
  { intros kd' k' s' [E|H]; [|auto]. congruence. }
  assert (filter lvl0 ((kd, S k, s) :: V) = filter lvl0 V) as EF0 by reflexivity.
  assert (filter lvlS ((kd, S k, s) :: V) = (kd, S k, s) :: filter lvlS V) as EFS by reflexivity.
  destruct (map_get (get_map (imap kd (S k)) st) (flat ns)) as [n|] eqn:EM.
  - exists n, st. split; [reflexivity|].
    destruct (C9 _ _ _ EM FL) as (blk & K1 & K2 & K3 & K4 & K5 & K6).
    apply flat_inj in K1; [|assumption|assumption]. subst blk.
    assert (resok st kd (S k) n s) as HO.
    { cbn [resok]. repeat split; auto. intros y Hy.
      rewrite <- (block_nth (c_indices st) n y 0) by assumption. rewrite K6. apply HCh; assumption. }
    split; [|split; [split; [apply ext_refl|intros i Hi; reflexivity]|split; [apply HS; [apply ext_refl|assumption]|assumption]]].
    constructor; auto.
    + intros kd' k' s' [E|H]; [|apply C5; assumption].
      assert (kd = kd') by congruence. assert (S k = k') by congruence. assert (s = s') by congruence. subst kd' k' s'.
      exists n. split; [apply HS; [apply ext_refl|assumption]|assumption].
    + rewrite EFS. cbn [length]. lia.
  - pose proof (countS _ HN' HR') as HC. rewrite EFS in HC. cbn [length] in HC.
    pose proof inn_small as HSmall.
    assert (1 <= length inn)%nat as Hinn1 by (pose proof (nth_lt _ _ _ (r_root _ _ _ _ R)); lia).
    rewrite shr6. unfold u16. rewrite N.mod_small by lia.
    set (n := alen (c_indices st) / 64).
    set (st1 := append_indices ns st).
    set (st' := set_map (imap kd (S k)) (map_set (get_map (imap kd (S k)) st1) (flat ns) n) st1).
    exists n, st'. split; [reflexivity|].
    assert (forall w, get_map w st1 = get_map w st) as HM1 by (intros []; reflexivity).
    assert (c_indices st1 = aappend (c_indices st) ns) as HI1 by reflexivity.
    assert (c_props st1 = c_props st) as HP1 by reflexivity.
    assert (c_indices st' = aappend (c_indices st) ns) as HI by (unfold st'; destruct (imap kd (S k)); exact HI1).
    assert (c_props st' = c_props st) as HP by (unfold st'; destruct (imap kd (S k)); exact HP1).
    assert (alen (c_indices st') = alen (c_indices st) + 64) as LI.
    { rewrite HI, alen_append, HLn. reflexivity. }
    assert (ext st st') as EX.
    { apply ext_add; auto.
      - rewrite HP1. lia.
      - rewrite HI1, alen_append. lia.
      - intros i Hi. rewrite HI1. apply append_old; assumption. }
    assert (forall w key, map_get (get_map w st') key =
      if which_dec (imap kd (S k)) w then (if list_eq (flat ns) key then Some n else map_get (get_map w st) key)
      else map_get (get_map w st) key) as HG.
    { intros w key. unfold st'. rewrite get_map_set by reflexivity. rewrite HM1. reflexivity. }
    assert (block (c_indices st') n = ns) as HB.
    { rewrite HI. apply append_block; tauto. }
    assert (map_get (get_map (imap kd (S k)) st') (flat ns) = Some n) as HGn.
    { rewrite HG. destruct (which_dec _ _); [|congruence]. destruct (list_eq _ _); [reflexivity|congruence]. }
    assert (resok st' kd (S k) n s) as HO.
    { cbn [resok]. split; [lia|]. split; [lia|]. split; [lia|]. intros y Hy.
      rewrite <- (block_nth (c_indices st') n y 0) by assumption. rewrite HB.
      eapply resok_ext; [exact EX|]. apply HCh; assumption. }
    split; [|split; [split; [exact EX|intros i Hi; rewrite HI; apply append_old; lia]|split; [apply HS; assumption|assumption]]].
    constructor; auto.
    + lia.
    + rewrite HP. assumption.
    + intros kd' k' s' [E|H].
      * assert (kd = kd') by congruence. assert (S k = k') by congruence. assert (s = s') by congruence. subst kd' k' s'.
        exists n. split; [apply HS; assumption|assumption].
      * destruct (C5 _ _ _ H) as (m & Hm1 & Hm2). exists m. split.
        -- eapply stab_ext; eassumption.
        -- eapply resok_ext; eassumption.
    + rewrite HP, EF0. assumption.
    + rewrite EFS. cbn [length]. lia.
    + intros w key m Hm Hlen. rewrite HG in Hm. rewrite HP.
      destruct (which_dec (imap kd (S k)) w) as [<-|E]; [|eapply C8; eassumption].
      destruct (list_eq (flat ns) key) as [<-|E]; [lia|eapply C8; eassumption].
    + intros w key m Hm Hlen. rewrite HG in Hm.
      assert (map_get (get_map w st) key = Some m ->
        exists blk, key = flat blk /\ Forall (fun v => v < 65536) blk /\
        m < 65536 /\ 1 <= m /\ m * 64 + 64 <= alen (c_indices st') /\ block (c_indices st') m = blk) as Hold.
      { intros K. destruct (C9 _ _ _ K Hlen) as (blk & K1 & K2 & K3 & K4 & K5 & K6).
        exists blk. repeat split; auto; try lia. rewrite HI, append_block_old by assumption. assumption. }
      destruct (which_dec (imap kd (S k)) w) as [<-|E]; [|apply Hold; assumption].
      destruct (list_eq (flat ns) key) as [<-|E]; [|apply Hold; assumption].
      assert (n = m) by congruence. subst m. exists ns. repeat split; auto; lia.
    + destruct C10 as [m Hm]. exists m. apply (e_map _ _ EX). assumption.
    + unfold st'.
      assert (c_shared st1 = true) as K.
      { unfold st1, append_indices. cbn [c_shared]. rewrite C11, C12, alen_append, HLn, (r_ilen _ _ _ _ R).
        cbn [andb]. apply N.leb_le. lia. }
      destruct (imap kd (S k)); exact K.
    + unfold st'. destruct (imap kd (S k)); exact C12.
    + intros i Hi Hz. rewrite LI in Hi.
      destruct (N.ltb_spec i (alen (c_indices st))) as [L|L].
      * rewrite HI, append_old in Hz by assumption. apply (C13 i); [lia|assumption].
      * assert (nth (N.to_nat (i - alen (c_indices st))) ns 0 = 0) as Hz'.
        { rewrite <- HB, block_nth by lia. rewrite <- Hz. f_equal. unfold n. lia. }
        pose proof (HCh (i - alen (c_indices st)) ltac:(lia)) as HK. rewrite Hz' in HK.
        destruct k as [|k]; [|cbn [resok] in HK; lia].
        cbn [resok] in HK. destruct HK as (_ & _ & _ & HK). destruct HK as [HK _]. specialize (HK eq_refl).
        assert (kd = 1%nat) as ->.
        { destruct HK as [HK _]. unfold pmap in HK. pose proof (reach_le _ _ _ HR).
          destruct kd as [|[|[|kd]]]; try lia; try reflexivity; discriminate HK. }
        exists (child s (i - alen (c_indices st))). split; [|exact HK]. apply reach_child; [exact HR|lia].
    + rewrite HP. intros m H2m Hm. destruct (C14 m H2m Hm) as (kd' & s' & K1 & K2).
      exists kd', s'. split; [assumption|]. eapply stab_ext; eassumption.
    + intros m H1m Hm. rewrite LI in Hm. destruct (N.eq_dec m n) as [->|E].
      * exists kd, k, s. split; [assumption|]. apply HS; assumption.
      * destruct (C15 m H1m) as (kd' & k' & s' & K1 & K2); [unfold n in E; lia|].
        exists kd', k', s'. split; [assumption|]. eapply stab_ext; eassumption.
    + intros key key' m H1 H2 L1 L2. rewrite HG in H1, H2.
      destruct (list_eq (flat ns) key) as [<-|_]; [lia|]. destruct (list_eq (flat ns) key') as [<-|_]; [lia|].
      apply (C16 key key' m); [|  |assumption|assumption].
      * destruct (which_dec (imap kd (S k)) PropMap); exact H1.
      * destruct (which_dec (imap kd (S k)) IndexMap); exact H2.
    + intros key key' m H1 H2 L1 L2. rewrite HG in H1, H2.
      assert (forall w k, map_get (get_map w st) k = Some n -> length k = 128%nat -> False) as HOld.
      { intros w k0 K L. destruct (C9 _ _ _ K L) as (blk & _ & _ & _ & _ & K2 & _). unfold n in K2. lia. }
      destruct (which_dec (imap kd (S k)) PropMap) as [E1|E1], (which_dec (imap kd (S k)) IndexMap) as [E2|E2];
        try congruence; try (eapply C17; eassumption).
      * destruct (list_eq (flat ns) key); [|eapply C17; eassumption].
        assert (n = m) as <- by congruence. eapply HOld; eassumption.
      * destruct (list_eq (flat ns) key'); [|eapply C17; eassumption].
        assert (n = m) as <- by congruence. eapply HOld; eassumption.
Qed.

Theorem build_spec k : forall kd s st V, cinv st V -> reach kd k s ->
  exists n st' V', built kd k s st V n st' V'.
Proof.
  induction k as [|k IH]; intros kd s st V C HR.
  - destruct (in_dec visit_eq (kd, 0%nat, s) V) as [Hin|Hin].
    + destruct (ci_vis _ _ C _ _ _ Hin) as (n & H1 & H2). exists n, st, V.
      split; [apply H1, ext_refl|]. split; [assumption|]. split; [split; [apply ext_refl|intros i Hi; reflexivity]|].
      split; [intros v Hv; left; exact Hv|]. auto.
    + destruct (leaf_step st V kd s C HR Hin) as (n & st' & H1 & H2 & H3 & H4 & H5).
      exists n, st', ((kd, 0%nat, s) :: V). split; [exact H1|]. split; [exact H2|]. split; [exact H3|].
      split; [|auto]. intros v [<-|Hv]; [right; exists 0%nat, s; auto|left; assumption].
  - destruct (in_dec visit_eq (kd, S k, s) V) as [Hin|Hin].
    + destruct (ci_vis _ _ C _ _ _ Hin) as (n & H1 & H2). exists n, st, V.
      split; [apply H1, ext_refl|]. split; [assumption|]. split; [split; [apply ext_refl|intros i Hi; reflexivity]|].
      split; [intros v Hv; left; exact Hv|]. auto.
    + assert (forall ss st V, cinv st V -> Forall (reach kd k) ss ->
        exists ns st' V', each (build kd k) ss st = Ret (ns, st') /\ cinv st' V' /\ (ext st st' /\ same_root st st') /\
          only_below kd k V V' /\ Forall2 (fun c n => stab st' kd k c n /\ resok st' kd k n c) ss ns) as HE.
      { clear st V C Hin. induction ss as [|c ss IHs]; intros st V C HF.
        - exists [], st, V. split; [reflexivity|]. split; [assumption|]. split; [split; [apply ext_refl|intros i Hi; reflexivity]|].
          split; [intros v Hv; left; exact Hv|constructor].
        - inversion HF; subst.
          destruct (IH kd c st V C) as (n & st1 & V1 & B1 & B2 & [B3 B3r] & B4 & B5 & B6); [assumption|].
          destruct (IHs st1 V1 B2) as (ns & st2 & V2 & D1 & D2 & [D3 D3r] & D4 & D5); [assumption|].
          exists (n :: ns), st2, V2. split.
          { cbn [each]. rewrite B1. cbn [bind]. fold (each (build kd k)). rewrite D1. reflexivity. }
          split; [assumption|]. split; [split; [eapply ext_trans; eassumption|eapply same_root_trans; eassumption]|]. split.
          { intros v Hv. destruct (D4 _ Hv) as [Hv1|Hv1]; [apply B4; assumption|right; assumption]. }
          constructor; [|assumption]. split; [eapply stab_ext; eassumption|eapply resok_ext; eassumption]. }
      destruct (HE (iblock s) st V C (iblock_reach _ _ _ HR)) as (ns & st1 & V1 & D1 & D2 & [D3 D3r] & D4 & D5).
      destruct (index_step st st1 V1 V kd k s ns D2 HR Hin D4 D3 D1 D5) as (n & st' & H1 & H2 & [H3 H3r] & H4 & H5).
      exists n, st', ((kd, S k, s) :: V1). split; [exact H1|]. split; [exact H2|].
      split; [split; [eapply ext_trans; eassumption|eapply same_root_trans; eassumption]|].
      split; [|auto]. intros v [<-|Hv]; [right; exists (S k), s; auto|].
      destruct (D4 _ Hv) as [Hv1|(k' & s' & E & L)]; [left; assumption|].
      right. exists k', s'. split; [assumption|lia].
Qed.

(* ---- the root loop *)

Definition root_written (i n : N) (st : cstate) : cstate :=
  CState (upd (c_indices st) i n) (c_props st) (c_propmap st) (c_indexmap st) (c_cap st) (c_shared st).

Lemma set_root_ok i n st V : cinv st V -> i < 64 -> set_root i n st = Ret (root_written i n st).
Proof.
  intros C Hi. unfold set_root. rewrite (ci_sh _ _ C).
  rewrite aset_ok by (pose proof (ci_il _ _ C); lia). cbn [bind]. unfold root_written.
  rewrite (ci_sh _ _ C). reflexivity.
Qed.

Lemma root_ext i n st : i < 64 -> ext st (root_written i n st) /\ ext (root_written i n st) st.
Proof.
  intros Hi. split; constructor.
  - cbn [root_written c_props]. lia.
  - cbn [root_written c_indices]. rewrite alen_upd. lia.
  - intros j Hj. reflexivity.
  - intros j Hj. cbn [root_written c_indices]. rewrite upd_get. destruct (N.eqb_spec i j); [lia|reflexivity].
  - intros w k m H. destruct w; exact H.
  - cbn [root_written c_props]. lia.
  - cbn [root_written c_indices]. rewrite alen_upd. lia.
  - intros j Hj. reflexivity.
  - intros j Hj. cbn [root_written c_indices]. rewrite upd_get. destruct (N.eqb_spec i j); [lia|reflexivity].
  - intros w k m H. destruct w; exact H.
Qed.

Lemma root_cinv i n st V : i < 64 -> cinv st V -> cinv (root_written i n st) V.
Proof.
  intros Hi C. destruct (root_ext i n st Hi) as [E1 E2].
  destruct C as [C1 C2 C3 C4 C5 C6 C7 C8 C9 C10 C11 C12 C13 C14 C15 C16 C17].
  constructor; try assumption.
  - intros kd k s H. destruct (C5 _ _ _ H) as (m & Hm1 & Hm2). exists m. split.
    + eapply stab_ext; eassumption.
    + eapply resok_ext; eassumption.
  - intros w key m H HL.
    destruct (C9 w key m) as (blk & K1 & K2 & K3 & K4 & K5 & K6); [destruct w; exact H|exact HL|].
    exists blk. unfold root_written. cbn [c_indices]. rewrite alen_upd.
    split; [assumption|]. split; [assumption|]. split; [assumption|]. split; [assumption|]. split; [assumption|].
    rewrite <- K6. apply block_ext. intros x Hx. rewrite upd_get. destruct (N.eqb_spec i (m * 64 + x)); [lia|reflexivity].
  - intros j Hj Hz. unfold root_written in *. cbn [c_indices] in *. rewrite alen_upd in Hj.
    rewrite upd_get in Hz. destruct (N.eqb_spec i j); [lia|]. apply (C13 j); assumption.
  - intros m H2m Hm. destruct (C14 m H2m Hm) as (kd' & s' & K1 & K2).
    exists kd', s'. split; [assumption|]. eapply stab_ext; eassumption.
  - intros m H1m Hm. destruct (C15 m H1m) as (kd' & k' & s' & K1 & K2).
    { unfold root_written in Hm. cbn [c_indices] in Hm. rewrite alen_upd in Hm. exact Hm. }
    exists kd', k', s'. split; [assumption|]. eapply stab_ext; eassumption.
Qed.

(* a number of a block, and what is in that block *)
Definition linked (st : cstate) (k : nat) (n s : N) : Prop := stab st k k s n /\ resok st k k n s.

Lemma compact_root_spec : forall m i st V, cinv st V -> i + N.of_nat m = 64 ->
  (forall x, x < i -> linked st (levels x) (aget_raw (c_indices st) x) (rawI x)) ->
  exists st' V', compact_root t i (map rawI (map (fun j => i + N.of_nat j) (seq 0 m))) st = Ret st' /\ cinv st' V' /\ ext st st' /\
    (forall x, x < 64 -> linked st' (levels x) (aget_raw (c_indices st') x) (rawI x)).
Proof.
  induction m as [|m IH]; intros i st V C HI HX.
  - exists st, V. split; [reflexivity|]. split; [assumption|]. split; [apply ext_refl|].
    intros x Hx. apply HX. lia.
  - cbn [seq map compact_root]. rewrite N.add_0_r. rewrite index_levels_ok by lia. cbn [bind].
    destruct (build_spec (levels i) (levels i) (rawI i) st V C (reach_root i ltac:(lia)))
      as (n & st1 & V1 & B1 & B2 & [B3 B3r] & B4 & B5 & B6).
    unfold build, pmap, imap in B1. rewrite Nat.sub_diag in B1. cbn [Nat.even] in B1. rewrite B1. cbn [bind].
    rewrite (set_root_ok _ _ _ _ B2) by lia. cbn [bind].
    destruct (root_ext i n st1 ltac:(lia)) as [E1 E2].
    destruct (IH (i + 1) (root_written i n st1) V1) as (st' & V' & D1 & D2 & D3 & D4).
    + apply root_cinv; [lia|assumption].
    + lia.
    + intros x Hx. replace (aget_raw (c_indices (root_written i n st1)) x) with (aget_raw (upd (c_indices st1) i n) x) by reflexivity. cbn [c_indices]. rewrite upd_get.
      destruct (N.eqb_spec i x) as [<-|E].
      * split; [eapply stab_ext; eassumption|eapply resok_ext; eassumption].
      * assert (forall k a, linked st k a (rawI x) -> linked (root_written i n st1) k a (rawI x)) as HG.
        { intros k a [Ha Hb]. assert (ext st (root_written i n st1)) as X by (eapply ext_trans; eassumption).
          split; [eapply stab_ext; eassumption|eapply resok_ext; eassumption]. }
        apply HG.
        assert (aget_raw (c_indices st1) x = aget_raw (c_indices st) x) as ->.
        { apply B3r. lia. }
        apply HX. lia.
    + exists st', V'. split; [|split; [assumption|split; [|assumption]];
        eapply ext_trans; [exact B3|]; eapply ext_trans; eassumption]. rewrite <- D1. f_equal. f_equal.
      rewrite <- seq_shift, map_map. apply map_ext. intros j. lia.
Qed.

(* ---- the whole of Compact *)

Definition st0 : cstate :=
  CState (amake 64) (arr_of_list (a0 ++ a1)) (map_set (map_set [] a0 0) a1 1) []
         (alen (rawIndices t) * 4) true.

Lemma a0_length : length a0 = 64%nat. Proof. apply block_length. Qed.
Lemma a1_length : length a1 = 64%nat. Proof. apply block_length. Qed.

Lemma st0_props i : i < 128 -> aget_raw (c_props st0) i = rawP i.
Proof.
  intros H. unfold st0. cbn [c_props]. unfold arr_of_list. rewrite aget_raw_append.
  rewrite app_length, a0_length, a1_length. cbn [amake alen].
  destruct (_ && _) eqn:E; [|lia]. rewrite N.sub_0_r.
  destruct (N.ltb_spec i 64).
  - rewrite app_nth1 by (rewrite a0_length; lia). unfold a0. rewrite block_nth by assumption. reflexivity.
  - rewrite app_nth2 by (rewrite a0_length; lia). rewrite a0_length.
    replace (N.to_nat i - 64)%nat with (N.to_nat (i - 64)) by lia. unfold a1.
    rewrite block_nth by lia. unfold rawP. f_equal. lia.
Qed.

Lemma st0_len : alen (c_props st0) = 128.
Proof. unfold st0. cbn [c_props]. rewrite alen_of_list, app_length, a0_length, a1_length. reflexivity. Qed.

Lemma st0_block n : n < 2 -> block (c_props st0) n = block (rawProps t) n.
Proof. intros H. apply block_ext. intros x Hx. apply st0_props. lia. Qed.

Lemma cinv0 : cinv st0 [].
Proof.
  assert (forall w key n, map_get (get_map w st0) key = Some n ->
    w = PropMap /\ ((key = a1 /\ n = 1) \/ (key = a0 /\ a0 <> a1 /\ n = 0))) as HM.
  { intros w key n. destruct w; cbn [get_map st0 c_propmap c_indexmap]; [|discriminate].
    intros H. split; [reflexivity|]. destruct (list_eq a1 key) as [<-|E].
    - rewrite map_get_set_same in H. left. split; congruence.
    - rewrite map_get_set_other in H by assumption.
      destruct (list_eq a0 key) as [<-|E2].
      + rewrite map_get_set_same in H. right. split; [reflexivity|]. split; congruence.
      + rewrite map_get_set_other in H by assumption. discriminate H. }
  constructor.
  - split; [reflexivity|]. cbn [st0 c_indices amake alen]. lia.
  - rewrite st0_len. split; [reflexivity|lia].
  - constructor.
  - intros kd k s [].
  - intros kd k s [].
  - rewrite st0_len. cbn [filter length]. lia.
  - cbn [st0 c_indices amake alen filter length]. lia.
  - intros w key n H HL. rewrite st0_len. destruct (HM _ _ _ H) as [-> [[-> ->]|[-> [HN ->]]]].
    + split; [lia|]. split; [lia|]. split; [symmetry; apply st0_block; lia|].
      split; [lia|]. intros (_ & K1 & K2). congruence.
    + split; [lia|]. split; [lia|]. split; [symmetry; apply st0_block; lia|]. tauto.
  - intros w key n H HL. exfalso. destruct (HM _ _ _ H) as [_ [[-> _]|[-> _]]].
    + rewrite a1_length in HL. lia.
    + rewrite a0_length in HL. lia.
  - cbn [st0 get_map c_propmap]. destruct (list_eq a1 a0) as [<-|E].
    + eexists. apply map_get_set_same.
    + eexists. rewrite map_get_set_other by assumption. apply map_get_set_same.
  - reflexivity.
  - reflexivity.
  - intros i Hi. cbn [st0 c_indices amake alen] in Hi. lia.
  - intros n Hn. rewrite st0_len. lia.
  - intros n Hn. cbn [st0 c_indices amake alen]. lia.
  - intros key key' n _ H. destruct (HM _ _ _ H) as [K _]. discriminate K.
  - intros key key' n _ H. destruct (HM _ _ _ H) as [K _]. discriminate K.
Qed.

Lemma no_zero_ok vs : no_zero vs = Ret tt <-> ~ In 0 vs.
Proof.
  induction vs as [|v vs IH]; cbn [no_zero In]; [tauto|].
  destruct (N.eqb_spec v 0) as [->|E].
  - split; [discriminate|tauto].
  - rewrite IH. tauto.
Qed.
Lemma no_zero_panic vs : In 0 vs -> no_zero vs = Panic ZeroIndexEntry.
Proof.
  induction vs as [|v vs IH]; cbn [no_zero In]; [tauto|].
  destruct (N.eqb_spec v 0) as [->|E]; [reflexivity|]. intros [K|K]; [tauto|auto].
Qed.

(* following the compacted index *)
Fixpoint walk_dst (I P : arr) (k : nat) (n : N) (w : list N) : res N :=
  match k, w with
  | O, [x] => aget P (n * 64 + x)
  | S k', y :: w' => let! m := aget I (n * 64 + y) in walk_dst I P k' m w'
  | _, _ => Panic Unreachable
  end.

Lemma walk_resok st kd k : forall n s w, resok st kd k n s -> length w = S k -> Forall (fun y => y < 64) w ->
  walk_dst (c_indices st) (c_props st) k n w = Ret (walk_src k s w).
Proof.
  induction k as [|k IH]; intros n s w H HL HW.
  - destruct w as [|x [|x2 w]]; try discriminate HL. inversion HW; subst.
    cbn [walk_dst walk_src]. cbn [resok] in H. destruct H as (_ & H2' & H3' & _).
    rewrite aget_ok by lia. rewrite H3' by assumption. reflexivity.
  - destruct w as [|y w]; [discriminate HL|]. inversion HW; subst.
    cbn [walk_dst walk_src]. cbn [resok] in H. destruct H as (_ & H2' & H3' & H4').
    rewrite aget_ok by lia. cbn [bind]. apply IH; [apply H4'; assumption|simpl in HL; lia|assumption].
Qed.

Record same_values (I P : arr) : Prop := mkSame {
  sv_ascii : forall c, c < 128 -> aget P c = Ret (F [c]);
  sv_other : forall x w, x < 64 -> length w = S (levels x) -> Forall (fun y => y < 64) w ->
    (let! n := aget I x in walk_dst I P (levels x) n w) = Ret (F (x :: w))
}.

Lemma bad_zero st V : cinv st V ->
  (forall x, x < 64 -> resok st (levels x) (levels x) (aget_raw (c_indices st) x) (rawI x)) ->
  (bad <-> exists i, i < alen (c_indices st) /\ aget_raw (c_indices st) i = 0).
Proof.
  intros C HX. split.
  - intros (s & HR & HZ). inversion HR as [x Hx E1 E2|kd k s1 y HR1 Hy]; subst.
    + unfold levels in *. destruct (x <? 32); [discriminate|]. destruct (x <? 48); discriminate.
    + inversion HR1 as [x Hx E1 E2 E3|kd k s2 y2 HR2 Hy2]; subst.
      2:{ apply reach_le in HR2. lia. }
      pose proof (HX x Hx) as H. rewrite E1 in H. cbn [resok] in H.
      destruct H as (_ & H2 & H3 & H4). destruct (H4 y Hy) as (_ & _ & _ & H5).
      exists (aget_raw (c_indices st) x * 64 + y). split; [lia|]. apply H5. exact HZ.
  - intros (i & Hi & Hz). destruct (N.ltb_spec i 64) as [L|L].
    + pose proof (HX i L) as H. rewrite Hz in H.
      destruct (levels i) as [|k] eqn:E; cbn [resok] in H; [|lia].
      destruct H as (_ & _ & _ & [H _]). destruct (H eq_refl) as [H1 _]. discriminate H1.
    + apply (ci_z _ _ C i); [lia|assumption].
Qed.

Theorem compact_spec :
  exists I P, same_values I P /\
    ((~ bad /\ Compact t = Ret (Tree I P)) \/ (bad /\ Compact t = Panic ZeroIndexEntry)).
Proof.
  unfold Compact. rewrite read_ascii0, read_ascii1. cbn [bind].
  rewrite !prop_key_ok by apply block_length. cbn [bind].
  rewrite read_root. cbn [bind].
  fold a0 a1. fold st0.
  assert (root_block = map rawI (map (fun j => 0 + N.of_nat j) (seq 0 64))) as ->.
  { unfold root_block, block. rewrite map_map. apply map_ext. intros j. unfold rawI. f_equal. }
  destruct (compact_root_spec 64 0 st0 [] cinv0 eq_refl) as (st & V & E & C & EX & HXL); [intros; lia|].
  assert (forall x, x < 64 -> resok st (levels x) (levels x) (aget_raw (c_indices st) x) (rawI x)) as HX by (intros x Hx; apply HXL; assumption).
  rewrite E. cbn [bind].
  exists (c_indices st), (c_props st). split.
  { constructor.
    - intros c Hc. pose proof (e_np _ _ EX) as H1. rewrite st0_len in H1.
      rewrite aget_ok by lia. rewrite (e_p _ _ EX) by (rewrite st0_len; assumption).
      rewrite st0_props by assumption. unfold rawP. rewrite (r_ascii _ _ _ _ R) by assumption. reflexivity.
    - intros x w Hx HL HW. pose proof (ci_il _ _ C).
      rewrite aget_ok by lia. cbn [bind]. rewrite (walk_resok _ _ _ _ _ _ (HX x Hx) HL HW).
      rewrite walk_root by assumption. reflexivity. }
  rewrite aread_ok by lia. cbn [bind].
  pose proof (bad_zero st V C HX) as HB.
  set (all := map (fun j => aget_raw (c_indices st) (0 + N.of_nat j)) (seq 0 (N.to_nat (alen (c_indices st))))).
  assert (In 0 all <-> bad) as HI.
  { rewrite HB. unfold all. rewrite in_map_iff. split.
    - intros (j & Hj & Hin). apply in_seq in Hin. exists (N.of_nat j). split; [lia|]. rewrite <- Hj. f_equal.
    - intros (i & Hi & Hz). exists (N.to_nat i). split; [rewrite <- Hz; f_equal; lia|]. apply in_seq. lia. }
  destruct (in_dec N.eq_dec 0 all) as [Hin|Hin].
  - right. split; [apply HI; assumption|]. rewrite no_zero_panic by assumption. reflexivity.
  - left. split; [tauto|]. rewrite (proj2 (no_zero_ok all)) by assumption. reflexivity.
Qed.

(* the state behind the result *)
Theorem compact_state I P : Compact t = Ret (Tree I P) ->
  exists st V, I = c_indices st /\ P = c_props st /\ cinv st V /\ ext st0 st /\
    (forall x, x < 64 -> linked st (levels x) (aget_raw (c_indices st) x) (rawI x)).
Proof.
  unfold Compact. rewrite read_ascii0, read_ascii1. cbn [bind].
  rewrite !prop_key_ok by apply block_length. cbn [bind].
  rewrite read_root. cbn [bind].
  fold a0 a1. fold st0.
  assert (root_block = map rawI (map (fun j => 0 + N.of_nat j) (seq 0 64))) as ->.
  { unfold root_block, block. rewrite map_map. apply map_ext. intros j. unfold rawI. f_equal. }
  destruct (compact_root_spec 64 0 st0 [] cinv0 eq_refl) as (st & V & E & C & EX & HX); [intros; lia|].
  rewrite E. cbn [bind]. rewrite aread_ok by lia. cbn [bind].
  destruct (no_zero _); cbn [bind]; [|discriminate]. intros K. exists st, V.
  split; [congruence|]. split; [congruence|]. auto.
Qed.

End Tree.
