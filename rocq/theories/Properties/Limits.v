(* Properties C29 (tables with indices of one byte) and C54 (size of the
   tables). *)
From Coq Require Import List NArith ZArith Arith Bool Lia Strings.Byte.
From Coq Require Import ZifyBool ZifyNat ZifyN.
From Verif Require Import Spec.Utf8 Spec.Assignments Spec.Limits Model.Base Model.Lookup Model.GenTable.
From Verif Require Import Spec.Readers Spec.UcdFile Spec.Generation.
From Verif Require Import Data.TableRaw Data.UcdGraphemeBreakProperty Data.UcdEmojiData Data.UcdDerivedCoreProperties.
From Verif Require Import Proofs.Basics Proofs.TextFacts Proofs.GenRaw Proofs.GenCompact Proofs.GenFacts Proofs.GenCount.
From Verif Require Import Proofs.BuildFacts Proofs.FileCheck Properties.Reproduce.
Import ListNotations.
Ltac Zify.zify_post_hook ::= Z.div_mod_to_equations.
Local Open Scope N_scope.

(* A tree that was built: its sizes and what its index contains. *)
Lemma built_sizes ops I P : build_tree ops = Ret (Tree I P) ->
  (alen P = 64 * N.of_nat (property_blocks ops) /\
   64 * N.of_nat (index_blocks_min ops) <= alen I <= 64 * N.of_nat (index_blocks_max ops)) /\
  (forall i, i < alen I -> aget_raw I i < N.max (alen P / 64) (alen I / 64)) /\
  (forall n, 2 <= n < alen P / 64 \/ 1 <= n < alen I / 64 -> exists i, i < alen I /\ aget_raw I i = n).
Proof.
  unfold build_tree. intros H.
  destruct (run_spec ops) as [[HC E]|(HC & t & inn & lef & F & E & R & HM & HL)]; rewrite E in H; cbn [bind] in H; [discriminate|].
  assert (length lef <= 1021)%nat as small.
  { destruct (le_lt_dec (length lef) 1021) as [L|L]; [assumption|].
    rewrite (compact_too_big_panic t inn lef F R) in H by lia. discriminate. }
  destruct (compact_state t inn lef F R small I P H) as (st & V & -> & -> & C & X0 & HX).
  assert (N.to_nat (alen (c_props st) / 64) = property_blocks ops) as HP by (eapply props_count; eassumption).
  assert (index_blocks_min ops <= N.to_nat (alen (c_indices st) / 64) <= index_blocks_max ops)%nat as HI
    by (eapply indices_count; eassumption).
  pose proof (ci_il _ _ _ C) as LI. pose proof (ci_pl _ _ _ C) as LP.
  split; [split; lia|]. split.
  - intros i Hi. assert (N.to_nat (aget_raw (c_indices st) i) < Nat.max (N.to_nat (alen (c_props st) / 64)) (N.to_nat (alen (c_indices st) / 64)))%nat
      by (eapply entries_small; eassumption). lia.
  - intros n Hn. assert (exists i, i < alen (c_indices st) /\ aget_raw (c_indices st) i = N.of_nat (N.to_nat n)) as (i & Hi & K)
      by (eapply entries_all; try eassumption; lia).
    exists i. split; [assumption|]. lia.
Qed.

(* C54: the emitted tables have exactly one property block per different content,
   as Spec/Limits.v counts them, and as many index blocks as it allows. *)
Theorem C54_sizes ops tb : generate ops = Ret tb ->
  alen (t_props tb) = 64 * N.of_nat (property_blocks ops) /\
  64 * N.of_nat (index_blocks_min ops) <= alen (t_indices tb) <= 64 * N.of_nat (index_blocks_max ops).
Proof.
  unfold generate. destruct (build_tree ops) as [[I P]|] eqn:E; cbn [bind]; [|discriminate].
  intros H. unfold emit in H. rewrite aread_ok in H by lia. cbn [bind] in H. destruct (forallb _ _); [|discriminate].
  assert (tb = Tables I P) as -> by (cbn [Indices Properties] in H; congruence).
  cbn [t_props t_indices]. apply (built_sizes ops I P E).
Qed.

(* C29: a tree that can be built is emitted if there are at most 256 blocks of
   each kind, and refused if there are more. *)
Theorem C29_emitted ops :
  ~ conflict ops -> (length (touched ops) <= 1021)%nat -> ~ collides ops ->
  ((property_blocks ops <= 256)%nat -> (index_blocks_max ops <= 256)%nat -> exists tb, generate ops = Ret tb) /\
  ((256 < property_blocks ops)%nat \/ (256 < index_blocks_min ops)%nat -> generate ops = Panic TooManyIndices).
Proof.
  intros H1 H2 H3. unfold generate.
  destruct (build_tree_spec ops) as [[K _]|[(_ & K & _)|[(_ & _ & K & _)|(_ & _ & _ & I & P & F & E & _)]]]; [tauto|lia|tauto|].
  rewrite E. cbn [bind]. destruct (built_sizes ops I P E) as ((SP & SI) & HB & HA).
  unfold emit. cbn [Indices Properties]. rewrite aread_ok by lia. cbn [bind].
  destruct (forallb _ _) eqn:EF.
  - split; [eauto|]. intros HN. exfalso. rewrite forallb_forall in EF.
    destruct (HA 256) as (i & Hi & K); [lia|].
    specialize (EF (aget_raw I i)). rewrite in_map_iff in EF.
    assert (aget_raw I i <=? 255 = true) as Q; [|lia].
    apply EF. exists (N.to_nat i). split; [f_equal; lia|]. apply in_seq. lia.
  - split; [|reflexivity]. intros L1 L2. exfalso.
    apply not_true_iff_false in EF. apply EF. apply forallb_forall. intros v Hv.
    apply in_map_iff in Hv. destruct Hv as (j & <- & Hj). apply in_seq in Hj. apply N.leb_le.
    specialize (HB (0 + N.of_nat j) ltac:(lia)). lia.
Qed.

(* ---- a simple sufficient bound *)

Lemma value_mentioned ops c : value ops c <> 0 -> exists o, In o ops /\ target (op_rune o) = c.
Proof.
  induction ops as [|o ops IH] using rev_ind; [intros H; destruct (H eq_refl)|].
  rewrite value_snoc. intros H.
  assert (target (op_rune o) = c \/ value ops c <> 0) as [E|E].
  { destruct o as [r v|r v]; cbn [assign op_rune] in *; destruct (N.eqb_spec (target r) c); auto. }
  - exists o. split; [|assumption]. apply in_app_iff. right; left; reflexivity.
  - destruct (IH E) as (o' & Ho & K). exists o'. split; [|assumption]. apply in_app_iff. left; assumption.
Qed.

Lemma pattern_zero_or f n b : pattern f n b = repeat 0 (N.to_nat n) \/ exists i, i < n /\ f (b * n + i) <> 0.
Proof.
  unfold pattern. generalize (b * n) as a. intros a.
  assert (forall k j, map (fun i => f (a + N.of_nat i)) (seq j k) = repeat 0 k \/
    exists i, (j <= i < j + k)%nat /\ f (a + N.of_nat i) <> 0) as H.
  { induction k as [|k IH]; intros j; [left; reflexivity|]. cbn [seq map repeat].
    destruct (N.eq_dec (f (a + N.of_nat j)) 0) as [Z|Z]; [|right; exists j; split; [lia|assumption]].
    destruct (IH (S j)) as [->|(i & Hi & K)]; [left; rewrite Z; reflexivity|].
    right. exists i. split; [lia|assumption]. }
  destruct (H (N.to_nat n) 0%nat) as [E|(i & Hi & K)]; [left; assumption|]. right. exists (N.of_nat i). split; [lia|assumption].
Qed.

Lemma touched_value ops c : 128 <= c -> value ops c <> 0 -> In (c / 64) (touched ops).
Proof.
  intros H K. destruct (value_mentioned ops c K) as (o & Ho & E). apply touched_in. exists o. rewrite E. auto.
Qed.

Lemma two_nonzero ops b i : i < 64 -> two ops (b * 64 + i) <> 0 -> b < 32 /\ In b (touched ops).
Proof.
  intros Hi. unfold two. destruct (N.leb_spec 0x80 (b * 64 + i)); cbn [andb]; [|tauto].
  destruct (N.ltb_spec (b * 64 + i) 0x800); [|tauto]. intros K. split; [lia|].
  replace b with ((b * 64 + i) / 64) by lia. apply touched_value; assumption.
Qed.
Lemma three_nonzero ops b i : i < 64 -> three ops (b * 64 + i) <> 0 -> 32 <= b < 1024 /\ In b (touched ops).
Proof.
  intros Hi. unfold three. destruct (N.leb_spec 0x800 (b * 64 + i)); cbn [andb]; [|tauto].
  destruct (N.ltb_spec (b * 64 + i) 0x10000); [|tauto]. intros K. split; [lia|].
  replace b with ((b * 64 + i) / 64) by lia. apply touched_value; [lia|assumption].
Qed.
Lemma four_nonzero ops c : four ops c <> 0 -> 0x10000 <= c /\ In (c / 64) (touched ops).
Proof.
  unfold four. destruct (N.leb_spec 0x10000 c); [|tauto]. intros K. split; [assumption|]. apply touched_value; [lia|assumption].
Qed.

Definition low_high (b : N) : bool := (b <? 32) || (1024 <=? b).

Lemma distinct_incl l m : incl l m -> (distinct l <= length m)%nat.
Proof.
  intros H. unfold distinct. apply NoDup_incl_length; [apply NoDup_nodup|]. intros x Hx. apply nodup_In in Hx. apply H; assumption.
Qed.

Lemma patterns_in f n m p : In p (patterns f n m) -> exists b, b < m /\ p = pattern f n b.
Proof.
  unfold patterns. rewrite in_map_iff. intros (j & <- & Hj). apply in_seq in Hj. exists (N.of_nat j). split; [lia|reflexivity].
Qed.

Lemma property_blocks_le ops : (property_blocks ops <= 4 + length (touched ops))%nat.
Proof.
  unfold property_blocks. set (T := touched ops). set (z := repeat 0 64).
  assert (distinct (patterns (two ops) 64 32 ++ patterns (four ops) 64 65536) <= 1 + length (filter low_high T))%nat as H1.
  { rewrite <- (map_length (fun b => if b <? 32 then pattern (two ops) 64 b else pattern (four ops) 64 b)).
    match goal with |- (distinct _ <= 1 + length ?l)%nat => change (1 + length l)%nat with (length (z :: l)) end.
    apply distinct_incl. intros p Hp. apply in_app_iff in Hp.
    destruct Hp as [Hp|Hp]; apply patterns_in in Hp; destruct Hp as (b & Hb & ->).
    - destruct (pattern_zero_or (two ops) 64 b) as [E|(i & Hi & K)]; [left; symmetry; exact E|]. right.
      apply two_nonzero in K; [|assumption]. destruct K as [L HT]. apply in_map_iff. exists b.
      split; [destruct (N.ltb_spec b 32); [reflexivity|lia]|]. apply filter_In. split; [assumption|]. unfold low_high. lia.
    - destruct (pattern_zero_or (four ops) 64 b) as [E|(i & Hi & K)]; [left; symmetry; exact E|]. right.
      apply four_nonzero in K. destruct K as [L HT]. replace ((b * 64 + i) / 64) with b in HT by lia. apply in_map_iff. exists b.
      split; [destruct (N.ltb_spec b 32); [lia|reflexivity]|]. apply filter_In. split; [assumption|]. unfold low_high. lia. }
  assert (distinct (filter (fun p => negb (like_ascii ops p)) (patterns (three ops) 64 1024)) <= 1 + length (filter (fun b => negb (low_high b)) T))%nat as H2.
  { rewrite <- (map_length (fun b => pattern (three ops) 64 b)).
    match goal with |- (distinct _ <= 1 + length ?l)%nat => change (1 + length l)%nat with (length (z :: l)) end.
    apply distinct_incl. intros p Hp. apply filter_In in Hp. destruct Hp as [Hp _].
    apply patterns_in in Hp; destruct Hp as (b & Hb & ->).
    destruct (pattern_zero_or (three ops) 64 b) as [E|(i & Hi & K)]; [left; symmetry; exact E|]. right.
    apply three_nonzero in K; [|assumption]. destruct K as [L HT]. apply in_map_iff. exists b.
    split; [reflexivity|]. apply filter_In. split; [assumption|]. unfold low_high. lia. }
  assert (length (filter low_high T) + length (filter (fun b => negb (low_high b)) T) = length T)%nat as H3.
  { clear. induction T as [|b T IH]; [reflexivity|]. cbn [filter]. destruct (low_high b); cbn [negb length]; lia. }
  lia.
Qed.

Lemma index_blocks_le ops : (index_blocks_max ops <= 34 + length (touched ops))%nat.
Proof.
  unfold index_blocks_max, index_blocks_min. set (T := touched ops).
  assert (forall l, (distinct l <= length l)%nat) as HD by (intros l; apply distinct_incl, incl_refl).
  assert (forall f n, length (patterns f n 16) = 16%nat) as HL.
  { intros f n. unfold patterns. rewrite map_length, List.seq_length. reflexivity. }
  pose proof (HD (patterns (three ops) 4096 16)) as D3. pose proof (HD (patterns (four ops) 262144 16)) as D5.
  rewrite HL in D3, D5.
  assert (distinct (patterns (four ops) 4096 1024) <= 1 + length T)%nat as D4.
  { rewrite <- (map_length (fun b => pattern (four ops) 4096 (b / 64)) T).
    match goal with |- (distinct _ <= 1 + length ?l)%nat =>
      change (1 + length l)%nat with (length (repeat 0 (N.to_nat 4096) :: l)) end.
    apply distinct_incl. intros p Hp. apply patterns_in in Hp. destruct Hp as (b & Hb & ->).
    destruct (pattern_zero_or (four ops) 4096 b) as [E|(i & Hi & K)]; [left; symmetry; exact E|]. right.
    apply four_nonzero in K. destruct K as [_ HT]. apply in_map_iff. exists ((b * 4096 + i) / 64). split; [|assumption].
    f_equal. lia. }
  lia.
Qed.

(* C29: in particular, whatever values they get, up to 222 blocks of 64 code
   points outside ASCII fit. *)
Theorem C29_room ops : ~ conflict ops -> ~ collides ops -> (length (touched ops) <= 222)%nat ->
  exists tb, generate ops = Ret tb.
Proof.
  intros H1 H2 H3. apply (C29_emitted ops H1); [lia|assumption| |].
  - pose proof (property_blocks_le ops). lia.
  - pose proof (index_blocks_le ops). lia.
Qed.

(* ---- cases that meet the hypotheses *)

Lemma no_four_no_conflict ops : (forall r, ~ In (OpSet r 4) ops) -> ~ conflict ops.
Proof.
  intros H (b & r & a & E & _). apply (H r). rewrite E, in_app_iff. right; left; reflexivity.
Qed.
Lemma ascii_alike_no_collision ops : (forall x, x < 64 -> value ops x = value ops (64 + x)) -> ~ collides ops.
Proof. intros H ((x & Hx & K) & _). exact (K (H x Hx)). Qed.
Lemma not_ascii_zero ops c : c < 128 -> Forall (fun o => 128 <= target (op_rune o)) ops -> value ops c = 0.
Proof.
  intros Hc H. destruct (N.eq_dec (value ops c) 0) as [Z|Z]; [exact Z|]. exfalso.
  destruct (value_mentioned ops c Z) as (o & Ho & E). rewrite Forall_forall in H. specialize (H o Ho). lia.
Qed.

(* the same value for 200 blocks in a row, and a different one in another: fits *)
Definition rows : list op := OpSet 0x1100 9 :: map (fun i => OpSet (0xAC00 + 64 * Z.of_nat i) 7) (seq 0 200).
Lemma high_spec ops : forallb (fun o => 128 <=? target (op_rune o)) ops = true -> Forall (fun o => 128 <= target (op_rune o)) ops.
Proof. rewrite forallb_forall, Forall_forall. intros H o Ho. specialize (H o Ho). lia. Qed.
Lemma nofour_spec ops : forallb (fun o => match o with OpSet _ 4 => false | _ => true end) ops = true -> forall r, ~ In (OpSet r 4) ops.
Proof. rewrite forallb_forall. intros H r K. specialize (H _ K). discriminate H. Qed.

Example C29_example_fits : exists tb, generate rows = Ret tb.
Proof.
  apply C29_room.
  - apply no_four_no_conflict, nofour_spec. vm_compute. reflexivity.
  - assert (Forall (fun o => 128 <= target (op_rune o)) rows) as H by (apply high_spec; vm_compute; reflexivity).
    apply ascii_alike_no_collision. intros x Hx. rewrite !not_ascii_zero by (assumption || lia). reflexivity.
  - apply Nat.leb_le. vm_compute. reflexivity.
Qed.

(* 300 blocks that are all different: too many *)
Definition crowd : list op := map (fun i => OpSet (0x10000 + 65 * Z.of_nat i) (5 + N.of_nat (i / 64))) (seq 0 300).

Lemma distinct_ge l m : incl l m -> (distinct l <= distinct m)%nat.
Proof.
  intros H. unfold distinct. apply NoDup_incl_length; [apply NoDup_nodup|]. intros x Hx. apply nodup_In in Hx.
  apply nodup_In, H, Hx.
Qed.

Lemma target_scalar z : (0x10000 <= z <= 0x10FFFF)%Z -> target z = Z.to_N z.
Proof.
  intros H. unfold target. assert ((0 <=? z)%Z = true) as -> by lia. cbn [andb].
  assert (scalarb (Z.to_N z) = true) as ->; [|reflexivity]. apply scalarb_spec. unfold scalar. lia.
Qed.

Lemma crowd_fold c k : forall a old, (a + k <= 300)%nat ->
  fold_left (assign c) (map (fun i => OpSet (0x10000 + 65 * Z.of_nat i) (5 + N.of_nat (i / 64))) (seq a k)) old =
  match find (fun i => 0x10000 + 65 * N.of_nat i =? c) (seq a k) with Some i => 5 + N.of_nat (i / 64) | None => old end.
Proof.
  induction k as [|k IH]; intros a old H; [reflexivity|]. cbn [seq map fold_left find]. rewrite IH by lia.
  cbn [assign]. rewrite target_scalar by lia.
  replace (Z.to_N (0x10000 + 65 * Z.of_nat a)) with (0x10000 + 65 * N.of_nat a) by lia.
  destruct (N.eqb_spec (0x10000 + 65 * N.of_nat a) c) as [E|E]; [|reflexivity].
  destruct (find _ (seq (S a) k)) as [i|] eqn:F; [|reflexivity]. exfalso.
  apply find_some in F. destruct F as [F1 F2]. apply in_seq in F1. lia.
Qed.

Lemma crowd_value c : value crowd c = match find (fun i => 0x10000 + 65 * N.of_nat i =? c) (seq 0 300) with
  | Some i => 5 + N.of_nat (i / 64) | None => 0 end.
Proof. unfold value, crowd. apply crowd_fold. apply Nat.le_refl. Qed.

(* The i-th assignment is the only one in block 1024 + i + i/64, at i mod 64. *)
Definition crowded (i : nat) : N := 1024 + N.of_nat (i + i / 64).

Lemma crowd_at i j : (i < 300)%nat -> (j < 64)%nat ->
  four crowd (crowded i * 64 + N.of_nat j) = if Nat.eqb j (i mod 64) then 5 + N.of_nat (i / 64) else 0.
Proof.
  intros Hi Hj. unfold four, crowded.
  pose proof (Nat.div_mod i 64 ltac:(discriminate)) as D. pose proof (Nat.mod_upper_bound i 64 ltac:(discriminate)) as M.
  remember (i / 64)%nat as q eqn:Eq. remember (i mod 64)%nat as r eqn:Er.
  destruct (N.leb_spec 0x10000 ((1024 + N.of_nat (i + q)) * 64 + N.of_nat j)) as [_|K]; [|lia].
  rewrite crowd_value. destruct (find _ _) as [k|] eqn:F.
  - apply find_some in F. destruct F as [F1 F2]. apply in_seq in F1.
    pose proof (Nat.div_mod k 64 ltac:(discriminate)) as D'. pose proof (Nat.mod_upper_bound k 64 ltac:(discriminate)) as M'.
    assert (k = i) as -> by lia.
    rewrite <- Eq. destruct (Nat.eqb_spec j r) as [E|E]; [reflexivity|exfalso; lia].
  - destruct (Nat.eqb_spec j r) as [->|E]; [|reflexivity]. exfalso.
    assert (In i (seq 0 300)) as I by (apply in_seq; lia). apply (find_none _ _ F) in I. lia.
Qed.

Lemma pattern_nth f n b i : (i < N.to_nat n)%nat -> nth i (pattern f n b) 0 = f (b * n + N.of_nat i).
Proof.
  intros H. unfold pattern. rewrite (nth_indep _ 0 (f (b * n + N.of_nat 0))) by (rewrite map_length, List.seq_length; exact H).
  rewrite (map_nth (fun i => f (b * n + N.of_nat i))). rewrite List.seq_nth by exact H. reflexivity.
Qed.

Lemma crowded_differ i j : (i < 300)%nat -> (j < 300)%nat ->
  pattern (four crowd) 64 (crowded i) = pattern (four crowd) 64 (crowded j) -> i = j.
Proof.
  intros Hi Hj E.
  pose proof (Nat.div_mod i 64 ltac:(discriminate)) as Di. pose proof (Nat.mod_upper_bound i 64 ltac:(discriminate)) as Mi.
  pose proof (Nat.div_mod j 64 ltac:(discriminate)) as Dj.
  apply (f_equal (fun l => nth (i mod 64) l 0)) in E. rewrite !pattern_nth in E by (change (N.to_nat 64) with 64%nat; exact Mi).
  rewrite !crowd_at, Nat.eqb_refl in E by assumption.
  destruct (Nat.eqb_spec (i mod 64) (j mod 64)) as [K|K]; lia.
Qed.

Lemma crowd_blocks : (256 < property_blocks crowd)%nat.
Proof.
  assert (300 <= distinct (patterns (four crowd) 64 65536))%nat as H.
  { pose (l := map (fun i => pattern (four crowd) 64 (crowded i)) (seq 0 300)).
    assert (NoDup l) as ND.
    { unfold l. assert (forall is, (forall i, In i is -> (i < 300)%nat) -> NoDup is -> NoDup (map (fun i => pattern (four crowd) 64 (crowded i)) is)) as K.
      { induction is as [|i is IH]; intros B D; [constructor|]. inversion D; subst. cbn [map]. constructor; [|apply IH; [intros; apply B; right|]; assumption].
        intros I. apply in_map_iff in I. destruct I as (k & E & I). apply crowded_differ in E; [|apply B; right; exact I|apply B; left; reflexivity].
        subst. contradiction. }
      apply K; [intros i I; apply in_seq in I; lia|apply List.seq_NoDup]. }
    assert (length l = 300)%nat as EL by (unfold l; rewrite map_length; apply List.seq_length).
    rewrite <- EL. unfold distinct. apply NoDup_incl_length; [exact ND|]. unfold incl. intros p Hp. rewrite nodup_In.
    apply in_map_iff in Hp. destruct Hp as (i & <- & Hi). apply in_seq in Hi. unfold patterns. apply in_map_iff.
    pose proof (Nat.div_mod i 64 ltac:(discriminate)) as Di.
    exists (1024 + (i + i / 64))%nat. split; [f_equal; unfold crowded; lia|]. apply in_seq. lia. }
  unfold property_blocks.
  assert (distinct (patterns (four crowd) 64 65536) <= distinct (patterns (two crowd) 64 32 ++ patterns (four crowd) 64 65536))%nat as K.
  { apply distinct_ge. intros p Hp. apply in_app_iff. right; assumption. }
  lia.
Qed.

Example C29_example_crowd : generate crowd = Panic TooManyIndices.
Proof.
  apply C29_emitted.
  - apply no_four_no_conflict, nofour_spec. vm_compute. reflexivity.
  - apply Nat.leb_le. vm_compute. reflexivity.
  - assert (Forall (fun o => 128 <= target (op_rune o)) crowd) as H by (apply high_spec; vm_compute; reflexivity).
    apply ascii_alike_no_collision. intros x Hx. rewrite !not_ascii_zero by (assumption || lia). reflexivity.
  - left. apply crowd_blocks.
Qed.

(* C54: both ends of the range for the index blocks occur: U+1100 makes the
   three-byte part one block larger, and the only block of 262144 values is then
   numbered like an empty block of 4096 values. *)
Definition apart : list op := [OpSet 13 2; OpSet 0x7F 5].
Definition shared : list op := apart ++ [OpSet 0x1100 9].

Lemma all_equal_distinct l p : l <> [] -> (forall q, In q l -> q = p) -> distinct l = 1%nat.
Proof.
  intros HN H. unfold distinct.
  assert (incl (nodup (list_eq_dec N.eq_dec) l) [p]) as K.
  { intros q Hq. apply nodup_In in Hq. left. symmetry. apply H, Hq. }
  apply NoDup_incl_length in K; [|apply NoDup_nodup]. cbn [length] in K.
  destruct l as [|q l]; [destruct (HN eq_refl)|].
  assert (In q (nodup (list_eq_dec N.eq_dec) (q :: l))) as Q by (apply nodup_In; left; reflexivity).
  destruct (nodup _ _); [destruct Q|]. cbn [length] in *. lia.
Qed.

Lemma no_four_blocks ops n m : 0 < m -> Forall (fun o => target (op_rune o) < 0x10000) ops ->
  distinct (patterns (four ops) n m) = 1%nat.
Proof.
  intros Hm H. apply (all_equal_distinct _ (repeat 0 (N.to_nat n))).
  - unfold patterns. destruct (N.to_nat m) eqn:E; [lia|]. discriminate.
  - intros q Hq. apply patterns_in in Hq. destruct Hq as (b & _ & ->).
    destruct (pattern_zero_or (four ops) n b) as [E|(i & _ & K)]; [exact E|]. exfalso.
    unfold four in K. destruct (N.leb_spec 0x10000 (b * n + i)); [|tauto].
    destruct (value_mentioned _ _ K) as (o & Ho & E). rewrite Forall_forall in H. specialize (H o Ho). lia.
Qed.

(* only one of the blocks has values *)
Lemma one_three_block ops b0 : Forall (fun o => target (op_rune o) < 0x800 \/ target (op_rune o) / 4096 = b0) ops ->
  b0 < 16 -> (exists i, i < 4096 /\ three ops (b0 * 4096 + i) <> 0) ->
  distinct (patterns (three ops) 4096 16) = 2%nat.
Proof.
  intros H HB (i0 & Hi0 & Hne). unfold distinct. set (z := repeat 0 (N.to_nat 4096)). set (p0 := pattern (three ops) 4096 b0).
  assert (p0 <> z) as Hd.
  { intros E. apply Hne. pose proof (pattern_nth (three ops) 4096 b0 (N.to_nat i0) ltac:(lia)) as K.
    fold p0 in K. rewrite E in K. rewrite N2Nat.id in K. rewrite <- K. unfold z. clear.
    generalize (N.to_nat 4096) (N.to_nat i0). induction n as [|n IH]; intros [|k]; cbn [repeat nth]; auto. }
  assert (forall b, b <> b0 -> pattern (three ops) 4096 b = z) as Hz.
  { intros b Nb. destruct (pattern_zero_or (three ops) 4096 b) as [E|(i & Hi & K)]; [exact E|]. exfalso. apply Nb.
    unfold three in K. destruct (N.leb_spec 0x800 (b * 4096 + i)) as [L|]; cbn [andb] in K; [|tauto].
    destruct (N.ltb_spec (b * 4096 + i) 0x10000) as [U|]; [|tauto].
    destruct (value_mentioned _ _ K) as (o & Ho & E). rewrite Forall_forall in H. specialize (H o Ho). rewrite E in H.
    destruct H as [H|H]; [lia|]. rewrite <- H. rewrite N.div_add_l by discriminate. rewrite N.div_small by exact Hi. lia. }
  set (l := patterns (three ops) 4096 16).
  assert (In p0 l) as I0.
  { unfold l, patterns. apply in_map_iff. exists (N.to_nat b0). rewrite N2Nat.id. split; [reflexivity|]. apply in_seq. lia. }
  assert (In z l) as I1.
  { pose (b := if N.eq_dec b0 0 then 1 else 0). assert (b <> b0) as Nb by (unfold b; destruct (N.eq_dec b0 0); lia).
    unfold l, patterns. apply in_map_iff. exists (N.to_nat b). rewrite N2Nat.id. split; [apply Hz; exact Nb|].
    apply in_seq. unfold b. destruct (N.eq_dec b0 0); lia. }
  apply Nat.le_antisymm.
  - change 2%nat with (length [p0; z]). apply NoDup_incl_length; [apply NoDup_nodup|]. intros q Hq. apply nodup_In in Hq.
    apply patterns_in in Hq. destruct Hq as (b & _ & ->). destruct (N.eq_dec b b0) as [->|Nb]; [left; reflexivity|].
    right. left. symmetry. apply Hz. exact Nb.
  - change 2%nat with (length [p0; z]). apply NoDup_incl_length.
    + constructor; [intros [E|[]]; congruence|]. constructor; [intros []|constructor].
    + intros q [<-|[<-|[]]]; rewrite nodup_In; assumption.
Qed.

Lemma no_three_block ops : Forall (fun o => target (op_rune o) < 0x800) ops -> distinct (patterns (three ops) 4096 16) = 1%nat.
Proof.
  intros H. apply (all_equal_distinct _ (repeat 0 (N.to_nat 4096))).
  - intros E. apply (f_equal (@length _)) in E. unfold patterns in E. rewrite map_length, List.seq_length in E. discriminate E.
  - intros q Hq. apply patterns_in in Hq. destruct Hq as (b & _ & ->).
    destruct (pattern_zero_or (three ops) 4096 b) as [E|(i & Hi & K)]; [exact E|]. exfalso.
    unfold three in K. destruct (N.leb_spec 0x800 (b * 4096 + i)) as [L|]; cbn [andb] in K; [|tauto].
    destruct (N.ltb_spec (b * 4096 + i) 0x10000) as [U|]; [|tauto].
    destruct (value_mentioned _ _ K) as (o & Ho & E). rewrite Forall_forall in H. specialize (H o Ho). lia.
Qed.

Example C54_example :
  (exists tb, generate apart = Ret tb /\ alen (t_props tb) = 64 * 4 /\ property_blocks apart = 4%nat /\
     alen (t_indices tb) = 64 * 4 /\ index_blocks_min apart = 3%nat /\ index_blocks_max apart = 4%nat) /\
  (exists tb, generate shared = Ret tb /\ alen (t_props tb) = 64 * 5 /\ property_blocks shared = 5%nat /\
     alen (t_indices tb) = 64 * 4 /\ index_blocks_min shared = 4%nat /\ index_blocks_max shared = 5%nat).
Proof.
  assert (forall ops p i m,
    match generate ops with Ret tb => (alen (t_props tb) =? 64 * p) && (alen (t_indices tb) =? 64 * i) | Panic _ => false end = true ->
    Forall (fun o => target (op_rune o) < 0x10000) ops -> distinct (patterns (three ops) 4096 16) = m ->
    exists tb, generate ops = Ret tb /\ alen (t_props tb) = 64 * p /\ property_blocks ops = N.to_nat p /\
     alen (t_indices tb) = 64 * i /\ index_blocks_min ops = (m + 2)%nat /\ index_blocks_max ops = (m + 3)%nat) as K.
  { intros ops p i m H HF HM. destruct (generate ops) as [tb|] eqn:E; [|discriminate H].
    destruct (C54_sizes ops tb E) as [SP _]. exists tb. split; [reflexivity|].
    unfold index_blocks_max, index_blocks_min. rewrite HM, !no_four_blocks by (assumption || lia).
    repeat split; lia. }
  assert (forall ops, forallb (fun o => target (op_rune o) <? 0x10000) ops = true -> Forall (fun o => target (op_rune o) < 0x10000) ops) as B.
  { intros ops H. rewrite forallb_forall in H. apply Forall_forall. intros o Ho. specialize (H o Ho). lia. }
  split; [apply (K apart 4 4 1%nat)|apply (K shared 5 4 2%nat)].
  - vm_cast_no_check (eq_refl true).
  - apply B. vm_compute. reflexivity.
  - apply no_three_block. constructor; [vm_compute; reflexivity|]. constructor; [vm_compute; reflexivity|constructor].
  - vm_cast_no_check (eq_refl true).
  - apply B. vm_compute. reflexivity.
  - apply (one_three_block shared 1).
    + constructor; [left; vm_compute; reflexivity|]. constructor; [left; vm_compute; reflexivity|].
      constructor; [right; vm_compute; reflexivity|constructor].
    + reflexivity.
    + exists 0x100. split; [reflexivity|]. vm_compute. discriminate.
Qed.

(* ---- the files of the repository *)

(* C54: what the present files need: 236 of the 256 possible property blocks,
   and 25 index blocks. *)
Theorem C54_published : exists ms1 ms2 ms3,
  usable (file_bytes GraphemeBreakProperty_txt) ms1 /\ usable (file_bytes emoji_data_txt) ms2 /\
  usable (file_bytes DerivedCoreProperties_txt) ms3 /\
  property_blocks (assignments ms1 ms2 ms3) = 236%nat /\
  exists tb, generate (assignments ms1 ms2 ms3) = Ret tb /\
    alen (t_props tb) = 64 * 236 /\ alen (t_indices tb) = 64 * 25.
Proof.
  destruct repository_files as (ms1 & ms2 & ms3 & U1 & U2 & U3 & E). exists ms1, ms2, ms3.
  do 3 (split; [assumption|]). rewrite E. clear E U1 U2 U3 ms1 ms2 ms3.
  pose proof generate_check as G.
  destruct (generate all_assignments) as [tb|p] eqn:EG; [|discriminate G]. cbn [same_tables] in G.
  apply andb_true_iff in G. destruct G as [G1 G2]. apply contents_ok in G1. apply contents_ok in G2.
  destruct G1 as [L1 _]. destruct G2 as [L2 _].
  pose proof (C54_sizes _ _ EG) as (S1 & _).
  assert (length (List.concat lookupIndices_blocks) = 1600)%nat as N1 by (vm_cast_no_check (eq_refl 1600%nat)).
  assert (length (List.concat lookupProps_blocks) = 15104)%nat as N2 by (vm_cast_no_check (eq_refl 15104%nat)).
  rewrite N1 in L1. rewrite N2 in L2. clear N1 N2.
  assert (alen (t_props tb) = 15104) as Q2 by (rewrite L2; vm_compute; reflexivity).
  assert (alen (t_indices tb) = 1600) as Q1 by (rewrite L1; vm_compute; reflexivity).
  clear L1 L2. split; [lia|]. exists tb. split; [reflexivity|]. split; [exact Q2|exact Q1].
Qed.
