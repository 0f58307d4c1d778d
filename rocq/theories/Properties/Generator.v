(* Properties C28, C29: the table generator. *)
From Coq Require Import List NArith ZArith Arith Bool Lia Strings.Byte.
From Coq Require Import ZifyBool ZifyNat ZifyN.
From Verif Require Import Spec.Utf8 Spec.Assignments Model.Base Model.CharProps Model.Lookup Model.GenTable.
From Verif Require Import Proofs.Basics Proofs.LookupFacts Proofs.TextFacts Proofs.GenRaw Proofs.GenCompact Proofs.GenFacts.
Import ListNotations.
Ltac Zify.zify_post_hook ::= Z.div_mod_to_equations.
Local Open Scope N_scope.

Lemma emit_ret tree tb : emit tree = Ret tb -> tb = Tables (Indices tree) (Properties tree).
Proof.
  unfold emit. destruct (aread _ _ _) as [all|]; cbn [bind]; [|discriminate].
  destruct (forallb _ all); congruence.
Qed.

Lemma generate_ret ops tb : generate ops = Ret tb ->
  exists F, same_values F (t_indices tb) (t_props tb) /\ means F ops.
Proof.
  unfold generate. intros H.
  destruct (build_tree_spec ops) as [[_ E]|[(_ & _ & E)|[(_ & _ & _ & E)|(_ & _ & _ & I & P & F & E & HS & HM)]]];
    rewrite E in H; cbn [bind] in H; try discriminate H.
  apply emit_ret in H. subst tb. exists F. auto.
Qed.

(* C28: for every history of assignments, if the generator produces tables
   then a lookup in them finds for every character exactly the value the
   history gives it, and for every overlong, surrogate or out-of-range sequence
   no property. *)
Theorem C28_generated ops tb : generate ops = Ret tb ->
  (forall c rest, scalar c ->
     lookup_first_char tb (utf8_encode c ++ rest) = Ret (value ops c, length (utf8_encode c))) /\
  (forall bs v rest, utf8_seq bs v -> ~ canonical bs v ->
     lookup_first_char tb (bs ++ rest) = Ret (0, length bs)).
Proof.
  intros H. destruct (generate_ret ops tb H) as (F & HS & HM).
  destruct tb as [I P]. cbn [t_indices t_props] in HS. split.
  - intros c rest Hc. eapply lookup_scalar; eassumption.
  - intros bs v rest Hb Hn. eapply lookup_noncanonical; eassumption.
Qed.

(* C28: looking up any bytes whatsoever in generated tables returns. *)
Theorem C28_total ops tb : generate ops = Ret tb ->
  forall p, exists props n, lookup_first_char tb p = Ret (props, n) /\ (n <= length p)%nat.
Proof.
  intros H p. destruct (generate_ret ops tb H) as (F & HS & HM).
  destruct tb as [I P]. cbn [t_indices t_props] in HS.
  destruct (lookup_outcome p) as [E|HT _|HN HT HS'|bs v rest Hb E _].
  - subst p. exists 0, 0%nat. split; [reflexivity|simpl; lia].
  - destruct HT as (a & tl & n & -> & Hn & Hl). exists 0, 0%nat. split; [|lia].
    unfold lookup_first_char. rewrite Hn, len_lt_spec.
    destruct (Nat.ltb_spec (length (a :: tl)) n); [reflexivity|lia].
  - destruct p as [|a tl]; [congruence|]. exists Error, 1%nat. split; [|simpl; lia].
    unfold lookup_first_char. destruct (seq_length a) as [n|] eqn:Hn; [|reflexivity].
    rewrite len_lt_spec. destruct (Nat.ltb_spec (length (a :: tl)) n) as [L|L].
    { exfalso. apply HT. exists a, tl, n. auto. }
    assert (1 <= n)%nat as Hn1.
    { rewrite seq_length_ok in Hn. unfold seq_length_spec in Hn.
      repeat match type of Hn with context [if ?c then _ else _] => destruct c end; try discriminate;
        assert (n <> 0%nat) by congruence; lia. }
    rewrite bad_cont_ok by lia. cbn [bind]. change (skipn 1 (a :: tl)) with tl.
    destruct (forallb is_contb (firstn (n - 1) tl)) eqn:Hc; cbn [negb]; [|reflexivity].
    exfalso. destruct (make_seq a tl n Hn L Hc) as [v Hs]. apply HS'.
    exists (a :: firstn (n - 1) tl), v, (skipn (n - 1) tl). split; [assumption|].
    simpl. rewrite firstn_skipn. reflexivity.
  - subst p. rewrite (lookup_any _ _ _ _ Hb). rewrite (walk_same _ _ _ _ _ HS Hb). cbn [bind].
    eexists _, _. split; [reflexivity|]. rewrite app_length. lia.
Qed.

(* C29: exactly when the tree can be built and compacted. *)
Theorem C29_success ops :
  (exists tree, build_tree ops = Ret tree) <->
  ~ conflict ops /\ (length (touched ops) <= 1021)%nat /\ ~ collides ops.
Proof.
  destruct (build_tree_spec ops) as [[H E]|[(H1 & H2 & E)|[(H1 & H2 & H3 & E)|(H1 & H2 & H3 & I & P & F & E & _)]]];
    rewrite E.
  - split; [intros [tree K]; discriminate K|tauto].
  - split; [intros [tree K]; discriminate K|lia].
  - split; [intros [tree K]; discriminate K|tauto].
  - split; [tauto|eauto].
Qed.

(* C29: and which failure is seen otherwise. *)
Theorem C29_failures ops :
  (conflict ops -> generate ops = Panic ConflictingProperties) /\
  (~ conflict ops -> (1022 <= length (touched ops))%nat -> generate ops = Panic SliceOutOfRange) /\
  (~ conflict ops -> (length (touched ops) <= 1021)%nat -> collides ops -> generate ops = Panic ZeroIndexEntry) /\
  (~ conflict ops -> (length (touched ops) <= 1021)%nat -> ~ collides ops ->
     generate ops = Panic TooManyIndices \/ exists tb, generate ops = Ret tb).
Proof.
  unfold generate.
  destruct (build_tree_spec ops) as [[H E]|[(H1 & H2 & E)|[(H1 & H2 & H3 & E)|(H1 & H2 & H3 & I & P & F & E & _)]]];
    rewrite E; cbn [bind].
  - repeat split; tauto.
  - repeat split; try tauto; try lia.
  - repeat split; try tauto; lia.
  - repeat split; try tauto; try lia. intros _ _ _. unfold emit. cbn [Indices Properties].
    rewrite aread_ok by lia. cbn [bind]. destruct (forallb _ _); eauto.
Qed.

(* C29: the tables are emitted exactly when every index fits a byte. *)
Theorem C29_bytes ops tree : build_tree ops = Ret tree ->
  ((forall i, i < alen (Indices tree) -> aget_raw (Indices tree) i <= 255) <-> exists tb, generate ops = Ret tb).
Proof.
  intros H. unfold generate. rewrite H. cbn [bind]. unfold emit. rewrite aread_ok by lia. cbn [bind].
  destruct (forallb _ _) eqn:E; rewrite ?forallb_forall in E.
  - split; [eauto|]. intros _ i Hi.
    specialize (E (aget_raw (Indices tree) i)). rewrite in_map_iff in E.
    assert (aget_raw (Indices tree) i <=? 255 = true) as K; [|lia].
    apply E. exists (N.to_nat i). split; [f_equal; lia|]. apply in_seq. lia.
  - split; [|intros [tb K]; discriminate K]. intros K. exfalso.
    apply not_true_iff_false in E. apply E. apply forallb_forall. intros v Hv.
    apply in_map_iff in Hv. destruct Hv as (j & <- & Hj). apply in_seq in Hj. apply N.leb_le. apply K. lia.
Qed.

(* ---- cases that meet the hypotheses *)

(* CR and an emoji, InCB=Linker on top of another value, and a rune that is no
   scalar value *)
Definition sample : list op :=
  [OpSet 13 2; OpSet 0x94D 6; OpOr 0x94D 64; OpSet 0x1F600 4; OpSet (-5) 9].

Lemma sample_values :
  value sample 13 = 2 /\ value sample 0x94D = 70 /\ value sample 0x1F600 = 4 /\
  value sample 0xFFFD = 9 /\ value sample 65 = 0.
Proof. repeat split; reflexivity. Qed.

Example C29_example : exists tree, build_tree sample = Ret tree.
Proof.
  apply C29_success. split.
  - intros (b & r & a & E & K). unfold sample in E.
    destruct b as [|o1 [|o2 [|o3 [|o4 [|o5 [|o6 b]]]]]]; cbn [app] in E; try discriminate E.
    assert (r = 0x1F600)%Z by congruence. subst r.
    assert (o1 = OpSet 13 2) by congruence. assert (o2 = OpSet 0x94D 6) by congruence.
    assert (o3 = OpOr 0x94D 64) by congruence. subst o1 o2 o3. apply K. reflexivity.
  - split; [apply Nat.leb_le; vm_compute; reflexivity|].
    intros (_ & b & Hb & K). specialize (K 13 eq_refl). change (value sample 13) with 2 in K.
    unfold value, sample in K. cbn [fold_left assign] in K.
    change (target 13) with 13 in K. change (target 0x94D) with 0x94D in K.
    change (target 0x1F600) with 0x1F600 in K. change (target (-5)) with 0xFFFD in K.
    destruct (N.eqb_spec 0xFFFD (b * 64 + 13)); [discriminate K|].
    destruct (N.eqb_spec 0x1F600 (b * 64 + 13)); [discriminate K|].
    destruct (N.eqb_spec 0x94D (b * 64 + 13)); [discriminate K|].
    destruct (N.eqb_spec 13 (b * 64 + 13)); [lia|]. discriminate K.
Qed.

(* too many blocks: one character in each of 1022 blocks from U+10000 on *)
Definition many : list op := map (fun i => OpSet (Z.of_nat i * 64 + 0x10000) 1) (seq 0 1022).

Lemma many_touched : length (touched many) = 1022%nat.
Proof.
  unfold touched, many. rewrite map_map. cbn [op_rune].
  assert (forall i, (i < 1022)%nat -> target (Z.of_nat i * 64 + 0x10000) = N.of_nat i * 64 + 0x10000) as HT.
  { intros i Hi. unfold target. destruct (_ && _) eqn:E; [lia|]. exfalso.
    apply andb_false_iff in E. destruct E as [E|E]; [lia|]. unfold scalarb in E. lia. }
  assert (map (fun i => target (Z.of_nat i * 64 + 0x10000)) (seq 0 1022) =
          map (fun i => N.of_nat i * 64 + 0x10000) (seq 0 1022)) as ->.
  { apply map_ext_in. intros i Hi. apply in_seq in Hi. apply HT. lia. }
  assert (filter (fun c => 128 <=? c) (map (fun i => N.of_nat i * 64 + 0x10000) (seq 0 1022)) =
          map (fun i => N.of_nat i * 64 + 0x10000) (seq 0 1022)) as ->.
  { induction (seq 0 1022) as [|i l IH]; [reflexivity|]. cbn [map filter].
    destruct (N.leb_spec 128 (N.of_nat i * 64 + 0x10000)); [rewrite IH; reflexivity|lia]. }
  rewrite map_map. rewrite nodup_fixed_point; [rewrite map_length, List.seq_length; reflexivity|].
  assert (forall l, NoDup l -> NoDup (map (fun i => (N.of_nat i * 64 + 0x10000) / 64) l)) as K.
  { induction 1 as [|i l Hi HN IH]; cbn [map]; constructor; [|assumption].
    rewrite in_map_iff. intros (j & E & Hj). assert (i = j) by lia. subst j. tauto. }
  apply K, seq_NoDup.
Qed.

Lemma many_no_conflict : ~ conflict many.
Proof.
  intros (b & r & a & E & _). assert (In (OpSet r 4) many) as H.
  { rewrite E, in_app_iff. right; left; reflexivity. }
  unfold many in H. apply in_map_iff in H. destruct H as (i & K & _). congruence.
Qed.

Example C29_example_many : generate many = Panic SliceOutOfRange.
Proof. apply C29_failures; [apply many_no_conflict|]. rewrite many_touched. lia. Qed.

(* a value in the second half of ASCII only: the unassigned blocks then equal
   the first ASCII block, and the consistency check stops the generator *)
Example C29_example_letter : generate [OpSet 65 1] = Panic ZeroIndexEntry.
Proof.
  apply C29_failures.
  - intros (b & r & a & E & _). destruct b as [|o b]; cbn [app] in E; [congruence|]. destruct b; discriminate E.
  - vm_compute. repeat constructor.
  - split.
    + exists 1. split; [reflexivity|]. vm_compute. discriminate.
    + exists 100. split; [lia|]. intros x Hx. unfold value. cbn [fold_left assign].
      change (target 65) with 65.
      destruct (N.eqb_spec 65 (100 * 64 + x)); [lia|]. destruct (N.eqb_spec 65 x); [lia|reflexivity].
Qed.

(* the tables of these assignments, looked up for one character of each kind and
   for an overlong sequence *)
Example C28_example : exists tb, generate sample = Ret tb /\
  lookup_first_char tb [x0d; x0a] = Ret (2, 1%nat) /\
  lookup_first_char tb [xe0; xa5; x8d] = Ret (70, 3%nat) /\
  lookup_first_char tb [xf0; x9f; x98; x80; x61] = Ret (4, 4%nat) /\
  lookup_first_char tb [xef; xbf; xbd] = Ret (9, 3%nat) /\
  lookup_first_char tb [xc0; x8d] = Ret (0, 2%nat).
Proof.
  assert (match generate sample with Ret _ => true | Panic _ => false end = true) as H by (vm_compute; reflexivity).
  destruct (generate sample) as [tb|] eqn:E; [|discriminate H]. exists tb. split; [reflexivity|].
  destruct (C28_generated sample tb E) as [K1 K2].
  split; [apply (K1 13 [x0a]); left; lia|]. split; [apply (K1 0x94D []); left; lia|].
  split; [apply (K1 0x1F600 [x61]); right; lia|]. split; [apply (K1 0xFFFD []); right; lia|].
  apply (K2 [xc0; x8d] 13 []).
  - apply (seq2 xc0 x8d); [vm_compute; split; [discriminate|reflexivity]|].
    vm_compute. split; [discriminate|reflexivity].
  - intros [_ K]. vm_compute in K. discriminate K.
Qed.

Definition all_theorems :=
  (C28_generated, C28_total, C28_example, C29_success, C29_failures, C29_bytes, C29_example, C29_example_many, C29_example_letter).
Print Assumptions all_theorems.
