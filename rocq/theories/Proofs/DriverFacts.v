(* Incremental driving, emission conditions and work bounds. *)
From Coq Require Import List NArith Arith Bool Lia Strings.Byte.
From Verif Require Import Spec.Classes Spec.Utf8 Spec.UAX29 Spec.Segmentation.
From Verif Require Import Model.Base Model.CharProps Model.Lookup Model.Machine Model.Scan Model.Drivers.
From Verif Require Import Proofs.Basics Proofs.TableCheck Proofs.LookupFacts Proofs.MachineFacts
  Proofs.ScanFacts Proofs.TextFacts Proofs.TextProps.
Import ListNotations.

Local Opaque committed fast_class ok1 leads conts LookupFirstChar.

(* ---- incremental driving *)

Lemma scan_take data n t : ScanGraphemeClusters data false = Ret (n, Some t, None) ->
  n <= length data /\ 1 <= n /\ t = firstn n data.
Proof.
  intros H. destruct (scan_shape data false) as [[E _]|(m & E & Hm)]; [congruence|].
  rewrite H in E. injection E as -> ->. repeat split; lia.
Qed.

Lemma scan_flush data n t : ScanGraphemeClusters data true = Ret (n, Some t, None) ->
  n <= length data /\ 1 <= n /\ t = firstn n data.
Proof.
  intros H. destruct (scan_shape data true) as [[E _]|(m & E & Hm)]; [congruence|].
  rewrite H in E. injection E as -> ->. repeat split; lia.
Qed.

Theorem streams_sound buf chunks toks :
  streams buf chunks toks -> tokenises (buf ++ concat chunks) toks.
Proof.
  induction 1 as [buf c chunks toks H IH|buf chunks n t toks Hs H IH|buf n t toks Hs H IH|]; simpl.
  - rewrite app_assoc. exact IH.
  - destruct (scan_take _ _ _ Hs) as (Hn & _ & _).
    eapply tokenises_step; [apply scan_stable; exact Hs|].
    rewrite skipn_app. replace (n - length buf) with 0 by lia. exact IH.
  - rewrite app_nil_r in *. eapply tokenises_step; eauto.
  - constructor.
Qed.

Theorem eager_streams buf chunks toks : streams_eager buf chunks toks -> streams buf chunks toks.
Proof.
  induction 1.
  - apply streams_feed. assumption.
  - eapply streams_take; eauto.
  - eapply streams_flush; eauto.
  - constructor.
Qed.

Theorem streams_exist data toks : tokenises data toks -> streams data [] toks.
Proof.
  induction 1 as [|data n t toks Hs Ht IH]; [constructor|]. eapply streams_flush; eauto.
Qed.

Theorem streams_complete chunks : forall buf toks,
  tokenises (buf ++ concat chunks) toks -> streams buf chunks toks.
Proof.
  induction chunks as [|c chunks IH]; intros buf toks H; simpl in H.
  - rewrite app_nil_r in H. apply streams_exist. exact H.
  - apply streams_feed. apply IH. rewrite <- app_assoc. exact H.
Qed.

Theorem eager_total : forall n chunks buf,
  length buf + length (concat chunks) + length chunks <= n ->
  exists toks, streams_eager buf chunks toks.
Proof.
  induction n as [|n IH]; intros chunks buf Hn.
  - destruct buf; [|simpl in Hn; lia]. destruct chunks; [|simpl in Hn; lia].
    exists []. constructor.
  - destruct (scan_shape buf false) as [[E _]|(k & E & Hk)].
    + destruct chunks as [|c chunks].
      * destruct buf as [|b buf]; [exists []; constructor|].
        destruct (scan_progress (b :: buf)) as (k & Ek & Hk); [discriminate|].
        destruct (IH [] (skipn k (b :: buf))) as [toks Ht].
        { rewrite skipn_length. cbn [length concat] in *. lia. }
        eexists. eapply eager_flush; eauto.
      * destruct (IH chunks (buf ++ c)) as [toks Ht].
        { rewrite app_length. simpl in Hn. rewrite app_length in Hn. lia. }
        exists toks. apply eager_feed; assumption.
    + destruct (IH chunks (skipn k buf)) as [toks Ht].
      { rewrite skipn_length. lia. }
      eexists. eapply eager_take; eauto.
Qed.

(* ---- exactly when a token is emitted before EOF *)

Definition incomplete (p : list byte) : Prop :=
  exists b tl, p = b :: tl /\ length p < lead_len b.

Lemma truncated_incomplete p : truncated p <-> incomplete p.
Proof.
  unfold truncated, incomplete. split.
  - intros (a & tl & n & -> & Hs & Hl). exists a, tl. split; [reflexivity|].
    rewrite seq_length_ok in Hs. unfold seq_length_spec in Hs. unfold lead_len.
    repeat match type of Hs with context [if ?c then _ else _] => destruct c end;
      try discriminate; injection Hs as <-; exact Hl.
  - intros (a & tl & -> & Hl). exists a, tl, (lead_len a). split; [reflexivity|]. split; [|exact Hl].
    rewrite seq_length_ok. unfold seq_length_spec. unfold lead_len in *.
    repeat match type of Hl with context [if ?c then _ else _] => destruct c end;
      try reflexivity; simpl in Hl; lia.
Qed.

Definition settled (r : list byte) : Prop := r <> [] /\ ~ truncated r.

Lemma settled_dec r : settled r \/ (r = [] \/ truncated r).
Proof.
  destruct (lookup_cases r) as [[H _]|[[H _]|[(H & H' & _)|(bs & v & rest & Hs & Er & _)]]].
  - auto.
  - auto.
  - left. split; assumption.
  - left. split.
    + intros ->. destruct Hs; discriminate.
    + intros H. apply (truncated_not_seq _ H). exists bs, v, rest. auto.
Qed.

Lemma loop_false_true : forall fuel data remain pre s p,
  data = pre ++ remain -> In s states -> length remain < fuel ->
  exists n t, scan_loop fuel data true remain (length pre) s p = Ret (n, Some t, None) /\
    (settled (skipn n data) ->
       scan_loop fuel data false remain (length pre) s p = Ret (n, Some t, None)) /\
    (~ settled (skipn n data) ->
       scan_loop fuel data false remain (length pre) s p = Ret (0, None, None)).
Proof.
  induction fuel as [|fuel IH]; intros data remain pre s p E Hs Hf; [lia|].
  cbn [scan_loop].
  assert (Htok : slice_to data (length pre) = Ret pre) by (rewrite E; apply slice_to_app).
  assert (Hsk : skipn (length pre) data = remain) by (rewrite E; apply skipn_app_exact).
  rewrite Htok. cbn [bind].
  destruct (is_empty remain) eqn:Hre.
  { apply is_empty_spec in Hre. exists (length pre), pre. split; [reflexivity|].
    rewrite Hsk, Hre. split; [intros [H _]; congruence|reflexivity]. }
  assert (remain <> []) as Hne by (intros H0; apply is_empty_spec in H0; congruence).
  destruct (lookup_cases remain) as [[H0 _]|[[Ht El]|[(_ & Ht & _ & El)|(bs & v & rest & Hseq & Er & G & El)]]].
  - contradiction.
  - rewrite El. cbn [bind]. rewrite zero_not_Error. cbn [Nat.eqb negb andb].
    exists (length pre), pre. rewrite Hsk. split; [reflexivity|].
    split; [intros [_ H]; contradiction|reflexivity].
  - rewrite El. cbn [bind]. rewrite N.eqb_refl.
    exists (length pre), pre. rewrite Hsk. split; [reflexivity|].
    split; [reflexivity|]. intros H. exfalso. apply H. split; assumption.
  - rewrite El. cbn [bind]. rewrite (enc_not_Error _ G).
    pose proof (utf8_seq_len _ _ Hseq) as Hlen.
    destruct (Nat.eqb_spec (length bs) 0); [lia|].
    assert (slice_from remain (length bs) = Ret rest) as -> by (rewrite Er; apply slice_from_app).
    cbn [bind].
    destruct (Transition_total s p (enc (item_class (Char bs v))) Hs) as (s' & En & Hs' & Et).
    rewrite Et. cbn [bind]. destruct (is_split _ _ _).
    + exists (length pre), pre. rewrite Hsk. split; [reflexivity|].
      split; [reflexivity|]. intros H. exfalso. apply H. split; [assumption|].
      intros Ht. apply (truncated_not_seq _ Ht). exists bs, v, rest. auto.
    + rewrite <- app_length. apply IH; auto.
      * rewrite E, Er, <- app_assoc. reflexivity.
      * rewrite Er, app_length in Hf. lia.
Qed.

Theorem scan_false_true data : data <> [] ->
  exists n t, ScanGraphemeClusters data true = Ret (n, Some t, None) /\
    (~ truncated data /\ (starts_seq data -> settled (skipn n data)) ->
       ScanGraphemeClusters data false = Ret (n, Some t, None)) /\
    (truncated data \/ (starts_seq data /\ ~ settled (skipn n data)) ->
       ScanGraphemeClusters data false = Ret (0, None, None)).
Proof.
  intros Hne. unfold ScanGraphemeClusters.
  destruct (is_empty data) eqn:Hre.
  { apply is_empty_spec in Hre. contradiction. }
  assert (slice_to data 1 = Ret (firstn 1 data)) as Htok.
  { apply slice_to_ok. destruct data; [congruence|simpl; lia]. }
  assert (0 <? length data = true) as Hl by (destruct data; [congruence|reflexivity]).
  destruct (lookup_cases data) as [[H0 _]|[[Ht El]|[(_ & Ht & Hs & El)|(bs & v & rest & Hseq & Er & G & El)]]].
  - contradiction.
  - rewrite El. cbn [bind]. rewrite zero_not_Error, Htok. cbn [Nat.eqb negb andb bind]. rewrite Hl. cbn [andb].
    exists 1, (firstn 1 data). split; [reflexivity|]. split; [intros [H _]; contradiction|reflexivity].
  - rewrite El. cbn [bind]. rewrite N.eqb_refl, Htok. cbn [bind].
    exists 1, (firstn 1 data). split; [reflexivity|]. split; [reflexivity|].
    intros [H|[H _]]; contradiction.
  - rewrite El. cbn [bind]. rewrite (enc_not_Error _ G).
    pose proof (utf8_seq_len _ _ Hseq) as Hlen.
    destruct (Nat.eqb_spec (length bs) 0); [lia|].
    assert (slice_from data (length bs) = Ret rest) as -> by (rewrite Er; apply slice_from_app).
    cbn [bind].
    destruct (Begin_total (enc (item_class (Char bs v)))) as (s & Eb & Hs).
    rewrite Eb. cbn [bind].
    destruct (loop_false_true (S (length rest)) data rest bs s (enc (item_class (Char bs v))) Er Hs)
      as (n0 & t & E1 & E2 & E3); [lia|].
    assert (starts_seq data) as Hst by (exists bs, v, rest; auto).
    exists n0, t. split; [exact E1|]. split.
    + intros [_ H]. auto.
    + intros [H|[_ H]]; [|auto]. exfalso. apply (truncated_not_seq _ H Hst).
Qed.

Theorem emission_exact data n t :
  ScanGraphemeClusters data false = Ret (n, Some t, None) <->
  ScanGraphemeClusters data true = Ret (n, Some t, None) /\
  ~ incomplete data /\
  (starts_seq data -> skipn n data <> [] /\ ~ incomplete (skipn n data)).
Proof.
  destruct (list_eq_dec Byte.byte_eq_dec data []) as [->|Hne].
  { split; [discriminate|intros [H _]; discriminate]. }
  destruct (scan_false_true data Hne) as (m & u & E1 & E2 & E3).
  assert (HT : truncated data \/ ~ truncated data).
  { destruct (lookup_cases data) as [[H _]|[[H _]|[(H & H' & _)|(bs & v & rest & Hs & Er & _)]]].
    - contradiction.
    - left. exact H.
    - right. exact H'.
    - right. intros H. apply (truncated_not_seq _ H). exists bs, v, rest. auto. }
  assert (HS : settled (skipn m data) \/ ~ settled (skipn m data)).
  { destruct (settled_dec (skipn m data)) as [H|H]; [auto|right].
    intros [H1 H2]. destruct H; contradiction. }
  rewrite <- !truncated_incomplete. rewrite E1. split.
  - intros H. destruct HT as [HT|HT]; [rewrite (E3 (or_introl HT)) in H; discriminate|].
    destruct HS as [HS|HS].
    + rewrite E2 in H by auto. injection H as <- <-. auto.
    + destruct (starts_seq_dec data) as [Hst|Hst].
      * rewrite (E3 (or_intror (conj Hst HS))) in H. discriminate.
      * rewrite E2 in H by (split; [exact HT|intros; contradiction]). injection H as <- <-.
        split; [reflexivity|]. split; [exact HT|]. intros; contradiction.
  - intros (E & H1 & H2). injection E as <- <-. apply E2. split; [exact H1|].
    intros Hst. destruct (H2 Hst) as [H3 H4]. split; assumption.
Qed.

(* bounded look-ahead, both directions *)
Theorem enough_lookahead data n t :
  ScanGraphemeClusters data true = Ret (n, Some t, None) -> n + 4 <= length data ->
  ScanGraphemeClusters data false = Ret (n, Some t, None).
Proof.
  intros H Hn. destruct (scan_shape data false) as [[E _]|(m & E & _)].
  - exfalso. pose proof (scan_lookahead data [] true n t E) as K. rewrite app_nil_r in K.
    specialize (K H). lia.
  - pose proof (scan_stable data m _ [] true E) as K. rewrite app_nil_r in K. congruence.
Qed.

(* ---- work *)

Lemma loop_cost : forall fuel data atEOF remain count s p k,
  match scan_loop fuel data atEOF remain count s p with
  | Ret r => exists k', scan_loop_cost fuel data atEOF remain count s p k = Ret (r, k')
  | Panic e => scan_loop_cost fuel data atEOF remain count s p k = Panic e
  end.
Proof.
  induction fuel as [|fuel IH]; intros; cbn [scan_loop scan_loop_cost]; [reflexivity|].
  destruct (is_empty remain).
  { destruct atEOF; [|eauto]. destruct (slice_to _ _); cbn [bind]; eauto. }
  destruct (LookupFirstChar remain) as [[next more]|]; cbn [bind]; [|reflexivity].
  destruct (next =? Error)%N.
  { destruct (slice_to _ _); cbn [bind]; eauto. }
  destruct (more =? 0).
  { destruct (negb _ && _); [|eauto]. destruct (slice_to _ _); cbn [bind]; eauto. }
  destruct (slice_from _ _); cbn [bind]; [|reflexivity].
  destruct (Transition _ _ _) as [[sp ns]|]; cbn [bind]; [|reflexivity].
  destruct sp; [|apply IH]. destruct (slice_to _ _); cbn [bind]; eauto.
Qed.

Lemma loop_cost_bound : forall fuel data atEOF remain count s p k n t e k',
  scan_loop_cost fuel data atEOF remain count s p k = Ret (n, Some t, e, k') ->
  k' + count <= k + n + 1.
Proof.
  induction fuel as [|fuel IH]; intros data atEOF remain count s p k n t e k' H;
    cbn [scan_loop_cost] in H; [discriminate|].
  destruct (is_empty remain).
  { destruct atEOF; [|discriminate]. destruct (slice_to _ _); cbn [bind] in H; [|discriminate].
    injection H as <- _ _ <-. lia. }
  destruct (LookupFirstChar remain) as [[next more]|]; cbn [bind] in H; [|discriminate].
  destruct (next =? Error)%N.
  { destruct (slice_to _ _); cbn [bind] in H; [|discriminate]. injection H as <- _ _ <-. lia. }
  destruct (Nat.eqb_spec more 0).
  { destruct (negb _ && _); [|discriminate].
    destruct (slice_to _ _); cbn [bind] in H; [|discriminate]. injection H as <- _ _ <-. lia. }
  destruct (slice_from _ _); cbn [bind] in H; [|discriminate].
  destruct (Transition _ _ _) as [[sp ns]|]; cbn [bind] in H; [|discriminate].
  destruct sp.
  { destruct (slice_to _ _); cbn [bind] in H; [|discriminate]. injection H as <- _ _ <-. lia. }
  apply IH in H. lia.
Qed.

Theorem scan_cost_same data atEOF :
  match ScanGraphemeClusters data atEOF with
  | Ret r => exists k, scan_cost data atEOF = Ret (r, k)
  | Panic e => scan_cost data atEOF = Panic e
  end.
Proof.
  unfold ScanGraphemeClusters, scan_cost.
  destruct (is_empty data); [eauto|].
  destruct (LookupFirstChar data) as [[pr n]|]; cbn [bind]; [|reflexivity].
  destruct (pr =? Error)%N.
  { destruct (slice_to _ _); cbn [bind]; eauto. }
  destruct (n =? 0).
  { destruct (_ && _); [|eauto]. destruct (slice_to _ _); cbn [bind]; eauto. }
  destruct (slice_from _ _); cbn [bind]; [|reflexivity].
  destruct (Begin _); cbn [bind]; [|reflexivity].
  apply loop_cost.
Qed.

Theorem scan_cost_bound data atEOF n t e k :
  scan_cost data atEOF = Ret (n, Some t, e, k) -> k <= n + 1.
Proof.
  unfold scan_cost. intros H. destruct (is_empty data); [discriminate|].
  destruct (LookupFirstChar data) as [[pr m]|]; cbn [bind] in H; [|discriminate].
  destruct (pr =? Error)%N.
  { destruct (slice_to _ _); cbn [bind] in H; [|discriminate]. injection H as <- _ _ <-. lia. }
  destruct (Nat.eqb_spec m 0).
  { destruct (_ && _); [|discriminate].
    destruct (slice_to _ _); cbn [bind] in H; [|discriminate]. injection H as <- _ _ <-. lia. }
  destruct (slice_from _ _); cbn [bind] in H; [|discriminate].
  destruct (Begin _); cbn [bind] in H; [|discriminate].
  apply loop_cost_bound in H. lia.
Qed.

(* a need-more answer costs at most one lookup per byte, plus one *)
Lemma loop_cost_more : forall fuel data atEOF remain count s p k n t e k',
  scan_loop_cost fuel data atEOF remain count s p k = Ret (n, t, e, k') ->
  k' <= k + length remain.
Proof.
  induction fuel as [|fuel IH]; intros data atEOF remain count s p k n t e k' H;
    cbn [scan_loop_cost] in H; [discriminate|].
  destruct remain as [|b rem]; cbn [is_empty] in H.
  { destruct atEOF; [|injection H as _ _ _ <-; simpl; lia].
    destruct (slice_to _ _); cbn [bind] in H; [|discriminate].
    injection H as _ _ _ <-. simpl; lia. }
  destruct (LookupFirstChar (b :: rem)) as [[next more]|]; cbn [bind] in H; [|discriminate].
  destruct (next =? Error)%N.
  { destruct (slice_to _ _); cbn [bind] in H; [|discriminate]. injection H as _ _ _ <-. simpl; lia. }
  destruct (Nat.eqb_spec more 0).
  { destruct (negb _ && _); [|injection H as _ _ _ <-; simpl; lia].
    destruct (slice_to _ _); cbn [bind] in H; [|discriminate]. injection H as _ _ _ <-. simpl; lia. }
  destruct (slice_from (b :: rem) more) as [rem'|] eqn:Esl; cbn [bind] in H; [|discriminate].
  assert (length rem' < length (b :: rem)) as Hlt.
  { destruct (le_lt_dec more (length (b :: rem))).
    - rewrite slice_from_ok in Esl by assumption.
      assert (rem' = skipn more (b :: rem)) as -> by congruence. rewrite skipn_length. cbn [length] in *. lia.
    - rewrite slice_from_bad in Esl by assumption. discriminate. }
  destruct (Transition _ _ _) as [[sp ns]|]; cbn [bind] in H; [|discriminate].
  destruct sp.
  { destruct (slice_to _ _); cbn [bind] in H; [|discriminate]. injection H as _ _ _ <-. simpl; lia. }
  apply IH in H. lia.
Qed.

Theorem scan_cost_any data atEOF n t e k :
  scan_cost data atEOF = Ret (n, t, e, k) -> k <= length data.
Proof.
  unfold scan_cost. intros H. destruct data as [|b data]; cbn [is_empty] in H.
  { injection H as _ _ _ <-. simpl. lia. }
  destruct (LookupFirstChar (b :: data)) as [[pr m]|]; cbn [bind] in H; [|discriminate].
  destruct (pr =? Error)%N.
  { destruct (slice_to _ _); cbn [bind] in H; [|discriminate]. injection H as _ _ _ <-. simpl; lia. }
  destruct (Nat.eqb_spec m 0).
  { destruct (_ && _); [|injection H as _ _ _ <-; simpl; lia].
    destruct (slice_to _ _); cbn [bind] in H; [|discriminate]. injection H as _ _ _ <-. simpl; lia. }
  destruct (slice_from (b :: data) m) as [rem'|] eqn:Esl; cbn [bind] in H; [|discriminate].
  assert (length rem' < length (b :: data)) as Hlt.
  { destruct (le_lt_dec m (length (b :: data))).
    - rewrite slice_from_ok in Esl by assumption.
      assert (rem' = skipn m (b :: data)) as -> by congruence. rewrite skipn_length. cbn [length] in *. lia.
    - rewrite slice_from_bad in Esl by assumption. discriminate. }
  destruct (Begin _); cbn [bind] in H; [|discriminate].
  apply loop_cost_more in H. lia.
Qed.

Theorem cost_total : forall data, exists total, tokenises_cost data total /\ total <= 2 * length data.
Proof.
  intros data. destruct (tokenises_total data) as [toks H].
  induction H as [|data n t toks Hs Ht (total & IH & Hle)].
  - exists 0. split; [constructor|lia].
  - pose proof (scan_cost_same data true) as K. rewrite Hs in K. destruct K as [k Hk].
    exists (k + total). split; [eapply cost_step; eauto|].
    pose proof (scan_cost_bound _ _ _ _ _ _ Hk) as Hb.
    destruct (scan_flush _ _ _ Hs) as (H1 & H2 & _). rewrite skipn_length in Hle. lia.
Qed.

Theorem cost_bound data total : tokenises_cost data total -> total <= 2 * length data.
Proof.
  induction 1 as [|data n t k total Hs Ht IH]; [simpl; lia|].
  pose proof (scan_cost_bound _ _ _ _ _ _ Hs) as Hb.
  pose proof (scan_cost_same data true) as K.
  destruct (ScanGraphemeClusters data true) as [r|] eqn:E; [|congruence].
  destruct K as [k' Hk]. rewrite Hs in Hk. injection Hk as <- _.
  destruct (scan_flush _ _ _ E) as (H1 & H2 & _). rewrite skipn_length in IH. lia.
Qed.
