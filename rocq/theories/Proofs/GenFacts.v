(* From the compacted tree to lookups, and the limits of the generator in terms
   of the assignments. *)
From Coq Require Import List NArith ZArith Arith Bool Lia Strings.Byte.
From Coq Require Import ZifyBool ZifyNat ZifyN.
From Verif Require Import Spec.Utf8 Spec.Assignments Model.Base Model.Lookup Model.GenTable.
From Verif Require Import Proofs.Basics Proofs.LookupFacts Proofs.TextFacts Proofs.GenRaw Proofs.GenCompact.
Import ListNotations.
Ltac Zify.zify_post_hook ::= Z.div_mod_to_equations.
Local Open Scope N_scope.

Lemma lookup_any tb bs v rest : utf8_seq bs v ->
  lookup_first_char tb (bs ++ rest) = let! p := walk tb bs (length bs) in Ret (p, length bs).
Proof.
  intros H. destruct (utf8_seq_first _ _ H) as (a & tl & Eb & Hl).
  assert (walk tb (bs ++ rest) (length bs) = walk tb bs (length bs)) as EW by (destruct H; reflexivity).
  pose proof (seq_conts _ _ _ _ H Eb) as HC.
  rewrite <- EW. unfold lookup_first_char.
  destruct (bs ++ rest) as [|x r] eqn:E; [rewrite Eb in E; discriminate E|].
  assert (x = a) by (rewrite Eb in E; simpl in E; congruence). subst x.
  rewrite Hl, len_lt_spec, <- E.
  destruct (Nat.ltb_spec (length (bs ++ rest)) (length bs)) as [K|K]; [rewrite app_length in K; lia|].
  assert (1 <= length bs)%nat as H1 by (rewrite Eb; simpl; lia).
  rewrite bad_cont_ok by (rewrite app_length; lia).
  assert (firstn (length bs - 1) (skipn 1 (bs ++ rest)) = tl) as ->.
  { rewrite Eb. cbn [app skipn length]. replace (S (length tl) - 1)%nat with (length tl) by lia.
    apply firstn_app_exact. }
  rewrite HC. reflexivity.
Qed.

(* the digits of a complete sequence *)
Definition spath (bs : list byte) : list N :=
  match bs with [a] => [bval a] | _ => digits bs end.

Lemma low6_lead a lo : 0xC0 <= lo -> lo <= bval a -> low6 a = bval a - 0xC0.
Proof. intros. rewrite low6_mod. pose proof (bval_lt a). lia. Qed.
Lemma low6_cont a : is_cont a -> low6 a = bval a - 0x80.
Proof. unfold is_cont. intros. rewrite low6_mod. lia. Qed.

Lemma walk_same F I P bs v : same_values F I P -> utf8_seq bs v ->
  walk (Tables I P) bs (length bs) = Ret (F (spath bs)).
Proof.
  intros [S1 S2] H. destruct H as [a Ha|a b Ha Hb|a b c Ha Hb Hc|a b c d Ha Hb Hc Hd];
    cbn [length walk spath index nth_error bind t_indices t_props digits map]; rewrite ?shl6.
  - apply S1. assumption.
  - assert (levels (low6 a) = 0%nat) as E.
    { rewrite (low6_lead a 0xC0) by lia. unfold levels. destruct (N.ltb_spec (bval a - 192) 32); [reflexivity|lia]. }
    pose proof (S2 (low6 a) [low6 b]) as K. rewrite E in K. cbn [walk_dst length] in K.
    rewrite <- K; [|apply low6_lt|reflexivity|repeat constructor; apply low6_lt].
    destruct (aget I (low6 a)); cbn [bind]; [rewrite shl6|]; reflexivity.
  - assert (levels (low6 a) = 1%nat) as E.
    { rewrite (low6_lead a 0xC0) by lia. unfold levels.
      destruct (N.ltb_spec (bval a - 192) 32); [lia|].
      destruct (N.ltb_spec (bval a - 192) 48); [reflexivity|lia]. }
    pose proof (S2 (low6 a) [low6 b; low6 c]) as K. rewrite E in K. cbn [walk_dst length] in K.
    rewrite <- K; [|apply low6_lt|reflexivity|repeat constructor; apply low6_lt].
    destruct (aget I (low6 a)); cbn [bind]; [rewrite shl6|reflexivity].
    destruct (aget I _); cbn [bind]; [rewrite shl6|]; reflexivity.
  - assert (levels (low6 a) = 2%nat) as E.
    { rewrite (low6_lead a 0xC0) by lia. unfold levels.
      destruct (N.ltb_spec (bval a - 192) 32); [lia|].
      destruct (N.ltb_spec (bval a - 192) 48); [lia|reflexivity]. }
    pose proof (S2 (low6 a) [low6 b; low6 c; low6 d]) as K. rewrite E in K. cbn [walk_dst length] in K.
    rewrite <- K; [|apply low6_lt|reflexivity|repeat constructor; apply low6_lt].
    destruct (aget I (low6 a)); cbn [bind]; [rewrite shl6|reflexivity].
    destruct (aget I _); cbn [bind]; [rewrite shl6|reflexivity].
    destruct (aget I _); cbn [bind]; [rewrite shl6|]; reflexivity.
Qed.

Lemma spath_encode c : scalar c -> spath (utf8_encode c) = cpath c.
Proof.
  intros H. unfold cpath, utf8_encode. destruct (N.ltb_spec c 0x80).
  - cbn [spath]. rewrite bval_mkbyte by lia. reflexivity.
  - destruct (c <? 0x800); [reflexivity|]. destruct (c <? 0x10000); reflexivity.
Qed.

(* a complete sequence is determined by its digits *)
Lemma spath_inj bs v bs' v' : utf8_seq bs v -> utf8_seq bs' v' -> spath bs = spath bs' -> bs = bs'.
Proof.
  assert (forall x y, bval x = bval y -> x = y) as HB by apply bval_inj.
  intros H H'. destruct H as [a Ha|a b Ha Hb|a b c Ha Hb Hc|a b c d Ha Hb Hc Hd];
    destruct H' as [a' Ha'|a' b' Ha' Hb'|a' b' c' Ha' Hb' Hc'|a' b' c' d' Ha' Hb' Hc' Hd'];
    cbn [spath digits map]; try discriminate; intros E;
    rewrite ?(low6_lead a 0xC0), ?(low6_lead a' 0xC0) in E by lia;
    rewrite ?low6_cont in E by assumption; unfold is_cont in *.
  - f_equal. apply HB. congruence.
  - assert (bval a - 192 = bval a' - 192) by congruence. assert (bval b - 128 = bval b' - 128) by congruence.
    rewrite (HB a a'), (HB b b') by lia. reflexivity.
  - assert (bval a - 192 = bval a' - 192) by congruence. assert (bval b - 128 = bval b' - 128) by congruence.
    assert (bval c - 128 = bval c' - 128) by congruence.
    rewrite (HB a a'), (HB b b'), (HB c c') by lia. reflexivity.
  - assert (bval a - 192 = bval a' - 192) by congruence. assert (bval b - 128 = bval b' - 128) by congruence.
    assert (bval c - 128 = bval c' - 128) by congruence. assert (bval d - 128 = bval d' - 128) by congruence.
    rewrite (HB a a'), (HB b b'), (HB c c'), (HB d d') by lia. reflexivity.
Qed.

(* ---- lookups in the result *)

Lemma lookup_scalar F I P ops c rest : same_values F I P -> means F ops -> scalar c ->
  lookup_first_char (Tables I P) (utf8_encode c ++ rest) = Ret (value ops c, length (utf8_encode c)).
Proof.
  intros HS [HM _] Hc. rewrite (lookup_any _ _ c) by (apply utf8_encode_seq; assumption).
  rewrite (walk_same _ _ _ _ _ HS (utf8_encode_seq c Hc)). cbn [bind].
  rewrite spath_encode by assumption. rewrite HM by assumption. reflexivity.
Qed.

Lemma lookup_noncanonical F I P ops bs v rest : same_values F I P -> means F ops ->
  utf8_seq bs v -> ~ canonical bs v ->
  lookup_first_char (Tables I P) (bs ++ rest) = Ret (0, length bs).
Proof.
  intros HS [_ HM] H HN. rewrite (lookup_any _ _ v) by assumption.
  rewrite (walk_same _ _ _ _ _ HS H). cbn [bind].
  destruct (N.eq_dec (F (spath bs)) 0) as [->|Z]; [reflexivity|]. exfalso.
  destruct (HM _ Z) as (c & Hc & E). apply HN.
  rewrite <- spath_encode in E by assumption.
  pose proof (spath_inj _ _ _ _ H (utf8_encode_seq c Hc) E) as E2.
  pose proof (utf8_encode_seq c Hc) as K. rewrite <- E2 in K.
  rewrite (utf8_seq_val _ _ _ H K). split; assumption.
Qed.

(* ---- counting the blocks *)

Definition blk (q : list N) : N :=
  match q with
  | [x] => x
  | [x; y] => (x - 32) * 64 + y
  | [x; y; z] => (x - 48) * 4096 + y * 64 + z
  | _ => 0
  end.

Definition prefix (c : N) : list N := removelast (cpath c).

Lemma blk_prefix c q x : scalar c -> 128 <= c -> cpath c = q ++ [x] -> blk q = c / 64.
Proof.
  intros Hc H E.
  assert (q = removelast (cpath c)) as -> by (rewrite E, removelast_last; reflexivity).
  rewrite cpath_form by assumption. unfold scalar in Hc.
  destruct (N.ltb_spec c 0x80); [lia|].
  destruct (N.ltb_spec c 0x800); [cbn [removelast blk]; lia|].
  destruct (N.ltb_spec c 0x10000); cbn [removelast blk]; lia.
Qed.

Lemma prefix_same c d q q' x x' : scalar c -> scalar d -> 128 <= c -> 128 <= d ->
  cpath c = q ++ [x] -> cpath d = q' ++ [x'] -> c / 64 = d / 64 -> q = q'.
Proof.
  intros Hc Hd H H' E E' EQ.
  assert (q = removelast (cpath c)) as -> by (rewrite E, removelast_last; reflexivity).
  assert (q' = removelast (cpath d)) as -> by (rewrite E', removelast_last; reflexivity).
  rewrite !cpath_form by assumption. unfold scalar in *.
  destruct (N.ltb_spec c 0x80); [lia|]. destruct (N.ltb_spec d 0x80); [lia|].
  destruct (N.ltb_spec c 0x800), (N.ltb_spec d 0x800); try lia.
  { cbn [removelast]. congruence. }
  destruct (N.ltb_spec c 0x10000), (N.ltb_spec d 0x10000); try lia; cbn [removelast];
    repeat (f_equal; try lia).
Qed.

Lemma cpath_nonempty c : scalar c -> exists q x, cpath c = q ++ [x].
Proof.
  intros H. assert (cpath c <> []) as HN.
  { rewrite cpath_form by assumption. destruct (c <? 0x80); [discriminate|]. destruct (c <? 0x800); [discriminate|].
    destruct (c <? 0x10000); discriminate. }
  destruct (exists_last HN) as (q & x & E). eauto.
Qed.

Lemma touched_in ops b : In b (touched ops) <->
  exists o, In o ops /\ 128 <= target (op_rune o) /\ target (op_rune o) / 64 = b.
Proof.
  unfold touched. rewrite nodup_In, in_map_iff. split.
  - intros (c & E & H). apply filter_In in H. destruct H as [H K]. apply in_map_iff in H.
    destruct H as (o & E2 & H). exists o. subst c. split; [assumption|]. split; [lia|assumption].
  - intros (o & H & H1 & H2). exists (target (op_rune o)). split; [assumption|]. apply filter_In.
    split; [|lia]. apply in_map_iff. eauto.
Qed.

Lemma leaves_count lef ops : leaves lef ops -> NoDup lef -> length lef = length (touched ops).
Proof.
  intros HL HN.
  assert (incl (map blk lef) (touched ops)) as H1.
  { intros b Hb. apply in_map_iff in Hb. destruct Hb as (q & <- & Hq). apply HL in Hq.
    destruct Hq as (o & x & Ho & H128 & E). apply touched_in. exists o. split; [assumption|].
    split; [assumption|]. symmetry. eapply blk_prefix; [apply target_scalar|assumption|exact E]. }
  assert (incl (touched ops) (map blk lef)) as H2.
  { intros b Hb. apply touched_in in Hb. destruct Hb as (o & Ho & H128 & <-).
    destruct (cpath_nonempty (target (op_rune o)) (target_scalar _)) as (q & x & E).
    apply in_map_iff. exists q. split.
    - eapply blk_prefix; [apply target_scalar|assumption|exact E].
    - apply HL. eauto. }
  assert (NoDup (map blk lef)) as H3.
  { assert (forall a b, In a lef -> In b lef -> blk a = blk b -> a = b) as HI.
    { intros a b Ha Hb E. apply HL in Ha. apply HL in Hb.
      destruct Ha as (o & x & Ho & Hc & E1). destruct Hb as (o' & x' & Ho' & Hc' & E2).
      eapply prefix_same; [apply target_scalar|apply target_scalar|exact Hc|exact Hc'|exact E1|exact E2|].
      rewrite <- (blk_prefix _ _ _ (target_scalar _) Hc E1), <- (blk_prefix _ _ _ (target_scalar _) Hc' E2).
      exact E. }
    clear H1 H2 HL. induction HN as [|a l Ha HN IH]; cbn [map]; constructor.
    - rewrite in_map_iff. intros (b & E & Hin). apply Ha.
      assert (b = a) as <- by (apply HI; [right; assumption|left; reflexivity|assumption]). assumption.
    - apply IH. intros; apply HI; [right; assumption|right; assumption|assumption]. }
  pose proof (NoDup_incl_length H3 H1) as L1.
  assert (NoDup (touched ops)) as H4 by apply NoDup_nodup.
  pose proof (NoDup_incl_length H4 H2) as L2.
  rewrite map_length in L1, L2. lia.
Qed.

(* ---- collisions with the first ASCII block *)

Lemma value_not_scalar ops c : ~ scalar c -> value ops c = 0.
Proof.
  intros H. induction ops as [|o ops IH] using rev_ind; [reflexivity|].
  rewrite value_snoc, IH. pose proof (target_scalar (op_rune o)) as HT.
  destruct o as [r v|r v]; cbn [assign op_rune] in *; destruct (N.eqb_spec (target r) c); congruence.
Qed.

Lemma F_three F ops x y z : means F ops -> 32 <= x < 48 -> y < 64 -> z < 64 ->
  F [x; y; z] = if ((x - 32) * 64 + y <? 32) then 0 else value ops (((x - 32) * 64 + y) * 64 + z).
Proof.
  intros [HM HS] Hx Hy Hz. set (c := ((x - 32) * 64 + y) * 64 + z).
  assert (forall d, scalar d -> [x; y; z] = cpath d -> d = c /\ 0x800 <= d) as HI.
  { intros d Hd E. rewrite cpath_form in E by assumption. unfold scalar in Hd.
    destruct (N.ltb_spec d 0x80); [discriminate E|]. destruct (N.ltb_spec d 0x800); [discriminate E|].
    destruct (N.ltb_spec d 0x10000); [|discriminate E].
    assert (x = 32 + d / 4096) by congruence. assert (y = (d / 64) mod 64) by congruence.
    assert (z = d mod 64) by congruence. unfold c. split; lia. }
  assert (0x800 <= c -> scalar c -> [x; y; z] = cpath c) as HC.
  { intros H1 H2. rewrite cpath_form by assumption.
    destruct (N.ltb_spec c 0x80); [lia|]. destruct (N.ltb_spec c 0x800); [lia|].
    destruct (N.ltb_spec c 0x10000); [|unfold c in *; lia]. unfold c. repeat (f_equal; try lia). }
  destruct (N.eq_dec (F [x; y; z]) 0) as [Z|Z].
  - rewrite Z. destruct (N.ltb_spec ((x - 32) * 64 + y) 32); [reflexivity|].
    destruct (scalarb c) eqn:ES.
    + apply scalarb_spec in ES. rewrite <- HM by assumption. rewrite <- HC; [congruence|unfold c; lia|assumption].
    + rewrite value_not_scalar; [reflexivity|]. intros K. apply scalarb_spec in K. congruence.
  - destruct (HS _ Z) as (d & Hd & E). destruct (HI d Hd E) as [-> H8].
    rewrite E, HM by assumption. destruct (N.ltb_spec ((x - 32) * 64 + y) 32); [unfold c in H8; lia|reflexivity].
Qed.

Lemma block_eq_iff a s b u : block a s = block b u <-> forall x, x < 64 -> aget_raw a (s * 64 + x) = aget_raw b (u * 64 + x).
Proof.
  split.
  - intros E x Hx. rewrite <- !block_nth with (d := 0) by assumption. congruence.
  - intros H. apply list64_ext; [apply block_length|apply block_length|]. intros x Hx.
    rewrite !block_nth by assumption. apply H; assumption.
Qed.

Lemma bad_collides t inn lef F ops : Rep t inn lef F -> means F ops -> (bad t <-> collides ops).
Proof.
  intros R HM.
  assert (forall x, x < 128 -> aget_raw (rawProps t) x = value ops x) as HA.
  { intros x Hx. rewrite (r_ascii _ _ _ _ R) by assumption.
    destruct HM as [HM _]. rewrite <- HM by (left; lia).
    rewrite cpath_form by (left; lia). destruct (N.ltb_spec x 128); [reflexivity|lia]. }
  assert (a0 t <> a1 t <-> exists x, x < 64 /\ value ops x <> value ops (64 + x)) as HD.
  { split.
    - intros HN.
      destruct (forallb (fun j => value ops (N.of_nat j) =? value ops (64 + N.of_nat j)) (seq 0 64)) eqn:E.
      + exfalso. apply HN. unfold a0, a1. apply block_eq_iff. intros x Hx.
        rewrite forallb_forall in E. specialize (E (N.to_nat x)).
        rewrite !HA by lia. replace (0 * 64 + x) with x by lia. replace (1 * 64 + x) with (64 + x) by lia.
        rewrite in_seq in E. specialize (E ltac:(lia)). rewrite N2Nat.id in E. lia.
      + assert (exists j, In j (seq 0 64) /\ (value ops (N.of_nat j) =? value ops (64 + N.of_nat j)) = false) as (j & Hj & K).
        { clear -E. induction (seq 0 64) as [|j l IH]; [discriminate E|]. cbn [forallb] in E.
          destruct (value ops (N.of_nat j) =? _) eqn:E2.
          - destruct (IH E) as (i & Hi & K). exists i. simpl. tauto.
          - exists j. simpl. tauto. }
        apply in_seq in Hj. exists (N.of_nat j). split; [lia|]. lia.
    - intros (x & Hx & K) E. apply K. unfold a0, a1 in E. rewrite block_eq_iff in E.
      specialize (E x Hx). rewrite !HA in E by lia.
      replace (0 * 64 + x) with x in E by lia. replace (1 * 64 + x) with (64 + x) in E by lia. exact E. }
  assert (forall x y, 32 <= x < 48 -> y < 64 ->
    (pblock t (child t (rawI t x) y) = a0 t <->
     forall z, z < 64 -> F [x; y; z] = value ops z)) as HP.
  { intros x y Hx Hy.
    assert (forall z, z < 64 -> content t (child t (rawI t x) y) z = F [x; y; z]) as HC.
    { intros z Hz.
      assert (levels x = 1%nat) as EL.
      { unfold levels. destruct (N.ltb_spec x 32); [lia|]. destruct (N.ltb_spec x 48); [reflexivity|lia]. }
      pose proof (walk_root t inn lef F R x [y; z]) as K. rewrite EL in K. cbn [walk_src] in K.
      apply K; [lia|reflexivity|repeat constructor; assumption]. }
    split.
    - intros E z Hz. rewrite <- HC by assumption. rewrite <- (pblock_nth t _ z 0) by assumption. rewrite E.
      unfold a0. rewrite block_nth by assumption. rewrite HA by lia. f_equal.
    - intros H. apply list64_ext; [apply pblock_length|apply block_length|]. intros z Hz.
      rewrite pblock_nth by assumption. rewrite HC by assumption. rewrite H by assumption.
      unfold a0. rewrite block_nth by assumption. rewrite HA by lia. f_equal. }
  unfold bad, zc, collides. split.
  - intros (s & HR & _ & HN & E). split; [apply HD; assumption|].
    inversion HR as [x Hx E1 E2|kd k s1 y HR1 Hy]; subst.
    + unfold levels in *. destruct (x <? 32); [discriminate|]. destruct (x <? 48); discriminate.
    + inversion HR1 as [x Hx E1 E2 E3|kd k s2 y2 HR2 Hy2]; subst.
      2:{ apply (reach_le t inn lef F R) in HR2. lia. }
      assert (32 <= x < 48) as Hx2.
      { unfold levels in E1. destruct (N.ltb_spec x 32); [discriminate|]. destruct (N.ltb_spec x 48); [lia|discriminate]. }
      rewrite (HP x y Hx2 Hy) in E.
      destruct (N.ltb_spec ((x - 32) * 64 + y) 32) as [L|L].
      * exists 864. split; [lia|]. intros z Hz. rewrite <- (E z Hz).
        rewrite value_not_scalar by (unfold scalar; lia).
        rewrite (F_three F ops) by (assumption || lia).
        destruct (N.ltb_spec ((x - 32) * 64 + y) 32); [reflexivity|lia].
      * exists ((x - 32) * 64 + y). split; [lia|]. intros z Hz. rewrite <- (E z Hz).
        rewrite (F_three F ops) by (assumption || lia).
        destruct (N.ltb_spec ((x - 32) * 64 + y) 32); [lia|reflexivity].
  - intros (H1 & b & Hb & H2).
    assert (levels (32 + b / 64) = 1%nat) as EL.
    { unfold levels. destruct (N.ltb_spec (32 + b / 64) 32); [lia|].
      destruct (N.ltb_spec (32 + b / 64) 48); [reflexivity|lia]. }
    exists (child t (rawI t (32 + b / 64)) (b mod 64)). split.
    + apply reach_child; [|lia]. rewrite <- EL. apply reach_root. lia.
    + split; [reflexivity|]. split; [apply HD; assumption|]. apply HP; [lia|lia|].
      intros z Hz. rewrite (F_three F ops) by (assumption || lia).
      destruct (N.ltb_spec ((32 + b / 64 - 32) * 64 + b mod 64) 32); [lia|].
      rewrite <- (H2 z Hz). f_equal. lia.
Qed.

(* ---- the generator *)

Theorem build_tree_spec ops :
  (conflict ops /\ build_tree ops = Panic ConflictingProperties) \/
  (~ conflict ops /\ (1022 <= length (touched ops))%nat /\ build_tree ops = Panic SliceOutOfRange) \/
  (~ conflict ops /\ (length (touched ops) <= 1021)%nat /\ collides ops /\ build_tree ops = Panic ZeroIndexEntry) \/
  (~ conflict ops /\ (length (touched ops) <= 1021)%nat /\ ~ collides ops /\
   exists I P F, build_tree ops = Ret (Tree I P) /\ same_values F I P /\ means F ops).
Proof.
  unfold build_tree. destruct (run_spec ops) as [[HC E]|(HC & t & inn & lef & F & E & R & HM & HL)]; rewrite E; cbn [bind].
  - left. auto.
  - right. pose proof (leaves_count lef ops HL (r_lef _ _ _ _ R)) as EL. rewrite <- EL.
    destruct (le_lt_dec (length lef) 1021) as [L|L].
    + right. destruct (compact_spec t inn lef F R L) as (I & P & HS & [[HB EC]|[HB EC]]).
      * right. rewrite <- (bad_collides t inn lef F ops R HM). rewrite EC.
        split; [assumption|]. split; [assumption|]. split; [assumption|]. exists I, P, F. auto.
      * left. rewrite <- (bad_collides t inn lef F ops R HM). auto.
    + left. split; [assumption|]. split; [lia|].
      apply (compact_too_big_panic t inn lef F R). lia.
Qed.
