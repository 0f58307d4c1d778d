(* ScanGraphemeClusters: totality, shape, stability, look-ahead, and refinement
   to the UAX #29 clusters of the items read from the input. *)
From Coq Require Import List NArith Arith Bool Lia Strings.Byte.
From Coq Require Import ZArith ZifyBool ZifyNat ZifyN.
From Verif Require Import Spec.Classes Spec.Utf8 Spec.UAX29 Spec.Segmentation.
From Verif Require Import Model.Base Model.CharProps Model.Lookup Model.Machine Model.Scan.
From Verif Require Import Proofs.Basics Proofs.TableCheck Proofs.LookupFacts Proofs.MachineFacts.
Import ListNotations.

Local Opaque LookupFirstChar Error.

(* ---- the machine never panics on its own states *)

Lemma nextState_total s x : In s states -> exists s', nextState s x = Ret s' /\ In s' states.
Proof.
  intros H. unfold nextState.
  destruct (_ =? _)%N; [eexists; split; [reflexivity|simpl; tauto]|].
  destruct (_ =? _)%N; [eexists; split; [reflexivity|simpl; tauto]|].
  unfold states in H. simpl in H.
  destruct H as [<-|[<-|[<-|[<-|[<-|[<-|[]]]]]]]; cbn [N.eqb Pos.eqb StateBase StateAwaitEmojiFlag
    StateGB11BeforeZWJ StateGB11AfterZWJ StateGB9cConsonant StateGB9cLinker];
  repeat match goal with |- context [if ?b then _ else _] => destruct b end;
  (eexists; split; [reflexivity|simpl; tauto]).
Qed.

Lemma Begin_total x : exists s, Begin x = Ret s /\ In s states.
Proof. apply nextState_total. simpl; tauto. Qed.

Lemma Transition_total s p x : In s states ->
  exists s', nextState s x = Ret s' /\ In s' states /\
             Transition s p x = Ret (is_split s p x, s').
Proof.
  intros H. destruct (nextState_total s x H) as (s' & E & H').
  exists s'. unfold Transition. rewrite E. auto.
Qed.

(* ---- lookup: weak form for control flow *)

Lemma lookup_cases p :
  (p = [] /\ LookupFirstChar p = Ret (0%N, 0)) \/
  (truncated p /\ LookupFirstChar p = Ret (0%N, 0)) \/
  (p <> [] /\ ~ truncated p /\ ~ starts_seq p /\ LookupFirstChar p = Ret (Error, 1)) \/
  (exists bs v rest, utf8_seq bs v /\ p = bs ++ rest /\ good (item_class (Char bs v)) /\
     LookupFirstChar p = Ret (enc (item_class (Char bs v)), length bs)).
Proof.
  pose proof (lookup_outcome p) as H. inversion H as [E R|Ht Hs R|Hn Ht Hs R|bs v rest Hs E G R].
  - left. auto.
  - right; left. auto.
  - right; right; left. auto.
  - right; right; right. exists bs, v, rest. auto.
Qed.

Lemma zero_not_Error : (0 =? Error)%N = false.
Proof. reflexivity. Qed.

Lemma enc_not_Error c : good c -> (enc c =? Error)%N = false.
Proof. intros H. apply N.eqb_neq, good_enc, H. Qed.

Lemma truncated_bound p : truncated p -> p <> [] /\ length p < 4.
Proof.
  intros (a & tl & n & -> & Hn & Hl). split; [discriminate|].
  rewrite seq_length_ok in Hn. unfold seq_length_spec in Hn.
  repeat match type of Hn with context [if ?c then _ else _] => destruct c end;
    try discriminate; injection Hn as <-; lia.
Qed.

Lemma truncated_app p ext : p <> [] -> truncated (p ++ ext) -> truncated p.
Proof.
  intros Hp (a & tl & n & E & Hn & Hl). destruct p as [|b p]; [congruence|].
  simpl in E. injection E as -> E. exists a, p, n. split; [reflexivity|]. split; [exact Hn|].
  simpl in *. rewrite app_length in Hl. lia.
Qed.

Lemma starts_seq_app p ext : p <> [] -> ~ truncated p -> starts_seq (p ++ ext) -> starts_seq p.
Proof.
  intros Hp Ht (bs & v & rest & Hs & E).
  destruct (utf8_seq_first _ _ Hs) as (a & tl & Eb & Hl).
  assert (length bs <= length p) as Hlen.
  { destruct (le_lt_dec (length bs) (length p)) as [H|H]; [exact H|]. exfalso. apply Ht.
    destruct p as [|b p]; [congruence|]. rewrite Eb in E. simpl in E. injection E as -> _.
    exists a, p, (length bs). auto. }
  exists bs, v, (skipn (length bs) p). split; [exact Hs|].
  rewrite <- (firstn_skipn (length bs) p) at 1. f_equal.
  pose proof (f_equal (firstn (length bs)) E) as E2. rewrite firstn_app_exact in E2.
  rewrite firstn_app in E2. replace (length bs - length p) with 0 in E2 by lia.
  rewrite firstn_O, app_nil_r in E2. exact E2.
Qed.

(* appending bytes never changes an answer of non-zero length *)
Lemma lookup_stable p ext pr n :
  LookupFirstChar p = Ret (pr, n) -> n <> 0 -> LookupFirstChar (p ++ ext) = Ret (pr, n).
Proof.
  intros H Hn. destruct (lookup_cases p) as [[_ E]|[[_ E]|[(Hp & Ht & Hs & E)|(bs & v & rest & Hs & -> & G & E)]]].
  - congruence.
  - congruence.
  - assert (pr = Error /\ n = 1) as [-> ->] by (rewrite E in H; injection H; auto).
    pose proof (lookup_outcome (p ++ ext)) as O.
    inversion O as [E' R|Ht' Hs' R|Hn' Ht' Hs' R|bs v rest Hs' E' G R]; auto.
    + destruct p; simpl in E'; congruence.
    + exfalso. apply Ht. eapply truncated_app; eauto.
    + exfalso. apply Hs. apply (starts_seq_app p ext Hp Ht). exists bs, v, rest. auto.
  - rewrite <- app_assoc. destruct (lookup_char bs v (rest ++ ext) Hs) as [E' _]. congruence.
Qed.

(* ---- totality and shape *)

Definition shape (data : list byte) (atEOF : bool) (r : res scan_result) : Prop :=
  (r = Ret (0, None, None) /\ (data = [] \/ atEOF = false)) \/
  (exists n, r = Ret (n, Some (firstn n data), None) /\ 1 <= n <= length data).

Lemma loop_shape : forall fuel data atEOF remain pre s p,
  data = pre ++ remain -> 1 <= length pre -> In s states -> length remain < fuel ->
  shape data atEOF (scan_loop fuel data atEOF remain (length pre) s p).
Proof.
  induction fuel as [|fuel IH]; intros data atEOF remain pre s p E Hpre Hs Hf; [lia|].
  cbn [scan_loop].
  assert (Htok : slice_to data (length pre) = Ret (firstn (length pre) data)).
  { apply slice_to_ok. rewrite E, app_length. lia. }
  assert (Hsh : shape data atEOF (let! token := slice_to data (length pre) in
                                  Ret (length pre, Some token, None))).
  { rewrite Htok. cbn [bind]. right. exists (length pre). split; [reflexivity|].
    rewrite E, app_length. lia. }
  destruct (is_empty remain) eqn:Hre.
  { destruct atEOF; [exact Hsh|]. left; auto. }
  assert (remain <> []) as Hne by (intros H0; apply is_empty_spec in H0; congruence).
  destruct (lookup_cases remain) as [[H0 _]|[[_ El]|[(_ & _ & _ & El)|(bs & v & rest & Hseq & Er & G & El)]]].
  - contradiction.
  - rewrite El. cbn [bind]. rewrite zero_not_Error. cbn [Nat.eqb negb andb].
    destruct atEOF; [exact Hsh|]. left; auto.
  - rewrite El. cbn [bind]. rewrite N.eqb_refl. exact Hsh.
  - rewrite El. cbn [bind]. rewrite (enc_not_Error _ G).
    pose proof (utf8_seq_len _ _ Hseq) as Hlen.
    destruct (Nat.eqb_spec (length bs) 0); [lia|].
    rewrite Er, slice_from_app. cbn [bind].
    destruct (Transition_total s p (enc (item_class (Char bs v))) Hs) as (s' & En & Hs' & Et).
    rewrite Et. cbn [bind]. destruct (is_split _ _ _); [exact Hsh|].
    rewrite <- app_length. apply IH; auto.
    + rewrite E, Er, <- app_assoc. reflexivity.
    + rewrite app_length. lia.
    + rewrite Er, app_length in Hf. lia.
Qed.

Theorem scan_shape data atEOF : shape data atEOF (ScanGraphemeClusters data atEOF).
Proof.
  unfold ScanGraphemeClusters.
  destruct (is_empty data) eqn:He.
  { left. split; [reflexivity|]. left. apply is_empty_spec. exact He. }
  assert (data <> []) as Hne by (intros H0; apply is_empty_spec in H0; congruence).
  assert (1 <= length data) as Hl by (destruct data; simpl; [congruence|lia]).
  assert (Hsh : shape data atEOF (let! token := slice_to data 1 in Ret (1, Some token, None))).
  { rewrite slice_to_ok by lia. cbn [bind]. right. exists 1. auto. }
  destruct (lookup_cases data) as [[H0 _]|[[_ El]|[(_ & _ & _ & El)|(bs & v & rest & Hseq & Er & G & El)]]].
  - contradiction.
  - rewrite El. cbn [bind]. rewrite zero_not_Error. cbn [Nat.eqb].
    destruct (Nat.ltb_spec 0 (length data)); [|lia]. cbn [andb].
    destruct atEOF; [exact Hsh|]. left; auto.
  - rewrite El. cbn [bind]. rewrite N.eqb_refl. exact Hsh.
  - rewrite El. cbn [bind]. rewrite (enc_not_Error _ G).
    pose proof (utf8_seq_len _ _ Hseq) as Hlen.
    destruct (Nat.eqb_spec (length bs) 0); [lia|].
    assert (slice_from data (length bs) = Ret rest) as -> by (rewrite Er; apply slice_from_app).
    cbn [bind].
    destruct (Begin_total (enc (item_class (Char bs v)))) as (s & Eb & Hs).
    rewrite Eb. cbn [bind]. apply loop_shape; auto; lia.
Qed.

Corollary scan_ret data atEOF :
  exists n tok, ScanGraphemeClusters data atEOF = Ret (n, tok, None).
Proof.
  destruct (scan_shape data atEOF) as [[-> _]|(n & -> & _)]; eauto.
Qed.

Corollary scan_progress data : data <> [] ->
  exists n, ScanGraphemeClusters data true = Ret (n, Some (firstn n data), None) /\ 1 <= n <= length data.
Proof.
  intros H. destruct (scan_shape data true) as [[_ [E|E]]|H']; [contradiction|discriminate|exact H'].
Qed.

(* ---- stability under extension, and look-ahead *)

Lemma loop_stable : forall fuel fuel' data remain pre s p n t ext atEOF,
  data = pre ++ remain -> In s states ->
  length remain < fuel -> length (remain ++ ext) < fuel' ->
  scan_loop fuel data false remain (length pre) s p = Ret (n, Some t, None) ->
  scan_loop fuel' (data ++ ext) atEOF (remain ++ ext) (length pre) s p = Ret (n, Some t, None).
Proof.
  induction fuel as [|fuel IH]; intros fuel' data remain pre s p n t ext atEOF E Hs Hf Hf' H; [lia|].
  destruct fuel' as [|fuel']; [lia|].
  cbn [scan_loop] in *.
  destruct (is_empty remain) eqn:Hre; [discriminate|].
  assert (remain <> []) as Hne by (intros H0; apply is_empty_spec in H0; congruence).
  assert (is_empty (remain ++ ext) = false) as ->.
  { destruct remain; [congruence|reflexivity]. }
  assert (Htok : slice_to data (length pre) = Ret pre) by (rewrite E; apply slice_to_app).
  assert (Htok' : slice_to (data ++ ext) (length pre) = Ret pre).
  { rewrite E, <- app_assoc. apply slice_to_app. }
  rewrite Htok in H. rewrite Htok'. cbn [bind] in *.
  destruct (lookup_cases remain) as [[H0 _]|[[_ El]|[(_ & _ & _ & El)|(bs & v & rest & Hseq & Er & G & El)]]].
  - contradiction.
  - rewrite El in H. cbn [bind] in H. rewrite zero_not_Error in H. discriminate.
  - rewrite (lookup_stable _ ext _ _ El) by lia. rewrite El in H. cbn [bind] in *.
    rewrite N.eqb_refl in *. exact H.
  - pose proof (utf8_seq_len _ _ Hseq) as Hlen.
    rewrite (lookup_stable _ ext _ _ El) by lia. rewrite El in H. cbn [bind] in *.
    rewrite (enc_not_Error _ G) in *.
    destruct (Nat.eqb_spec (length bs) 0); [lia|].
    rewrite Er in *. rewrite <- app_assoc in *. rewrite slice_from_app in *. cbn [bind] in *.
    destruct (Transition_total s p (enc (item_class (Char bs v))) Hs) as (s' & En & Hs' & Et).
    rewrite Et in *. cbn [bind] in *. destruct (is_split _ _ _); [exact H|].
    rewrite <- app_length in *. eapply IH; eauto.
    + rewrite E, <- app_assoc. reflexivity.
    + rewrite app_length in Hf. lia.
    + rewrite !app_length in Hf'. rewrite app_length. lia.
Qed.

Theorem scan_stable data n t ext atEOF :
  ScanGraphemeClusters data false = Ret (n, Some t, None) ->
  ScanGraphemeClusters (data ++ ext) atEOF = Ret (n, Some t, None).
Proof.
  unfold ScanGraphemeClusters. intros H.
  destruct (is_empty data) eqn:He; [discriminate|].
  assert (data <> []) as Hne by (intros H0; apply is_empty_spec in H0; congruence).
  assert (is_empty (data ++ ext) = false) as ->.
  { destruct data; [congruence|reflexivity]. }
  assert (Htok : slice_to (data ++ ext) 1 = slice_to data 1).
  { destruct data as [|b0 d0]; [congruence|]. cbn [app slice_to bind].
    destruct d0, ext; reflexivity. }
  rewrite Htok.
  destruct (lookup_cases data) as [[H0 _]|[[_ El]|[(_ & _ & _ & El)|(bs & v & rest & Hseq & Er & G & El)]]].
  - contradiction.
  - rewrite El in H. cbn [bind] in H. rewrite zero_not_Error in H. cbn [Nat.eqb] in H.
    rewrite andb_false_r in H. discriminate.
  - rewrite (lookup_stable _ ext _ _ El) by lia. rewrite El in H. cbn [bind] in *.
    rewrite N.eqb_refl in *. exact H.
  - pose proof (utf8_seq_len _ _ Hseq) as Hlen.
    rewrite (lookup_stable _ ext _ _ El) by lia. rewrite El in H. cbn [bind] in *.
    rewrite (enc_not_Error _ G) in *.
    destruct (Nat.eqb_spec (length bs) 0); [lia|].
    assert (slice_from data (length bs) = Ret rest) as E1 by (rewrite Er; apply slice_from_app).
    assert (slice_from (data ++ ext) (length bs) = Ret (rest ++ ext)) as E2.
    { rewrite Er, <- app_assoc. apply slice_from_app. }
    rewrite E1 in H. rewrite E2. cbn [bind] in *.
    destruct (Begin_total (enc (item_class (Char bs v)))) as (s & Eb & Hs).
    rewrite Eb in *. cbn [bind] in *.
    eapply loop_stable; eauto; lia.
Qed.

(* a request for more data is made only within three bytes of the end of the
   cluster *)
Lemma loop_lookahead : forall fuel fuel' data remain pre s p n t ext atEOF,
  data = pre ++ remain -> In s states ->
  length remain < fuel -> length (remain ++ ext) < fuel' ->
  scan_loop fuel data false remain (length pre) s p = Ret (0, None, None) ->
  scan_loop fuel' (data ++ ext) atEOF (remain ++ ext) (length pre) s p = Ret (n, Some t, None) ->
  length data < n + 4.
Proof.
  induction fuel as [|fuel IH]; intros fuel' data remain pre s p n t ext atEOF E Hs Hf Hf' H H'; [lia|].
  assert (Hn : length pre <= n).
  { clear -H' E Hs Hf'.
    assert (data ++ ext = pre ++ (remain ++ ext)) as Ed by (rewrite E, app_assoc; reflexivity).
    clear E. revert Ed Hs Hf' H'. generalize (data ++ ext) (remain ++ ext). clear.
    revert pre s p n t.
    induction fuel' as [|fuel IH]; intros pre s p n t d r Ed Hs Hf H; [lia|].
    cbn [scan_loop] in H.
    assert (Htok : slice_to d (length pre) = Ret pre) by (rewrite Ed; apply slice_to_app).
    rewrite Htok in H. cbn [bind] in H.
    destruct (is_empty r) eqn:Hre.
    { destruct atEOF; [injection H as <- _; lia|discriminate]. }
    assert (r <> []) as Hne by (intros H0; apply is_empty_spec in H0; congruence).
    destruct (lookup_cases r) as [[H0 _]|[[_ El]|[(_ & _ & _ & El)|(bs & v & rest & Hseq & Er & G & El)]]].
    - contradiction.
    - rewrite El in H. cbn [bind] in H. rewrite zero_not_Error in H. cbn [Nat.eqb negb andb] in H.
      destruct atEOF; [injection H as <- _; lia|discriminate].
    - rewrite El in H. cbn [bind] in H. rewrite N.eqb_refl in H. injection H as <- _; lia.
    - rewrite El in H. cbn [bind] in H. rewrite (enc_not_Error _ G) in H.
      pose proof (utf8_seq_len _ _ Hseq) as Hlen.
      destruct (Nat.eqb_spec (length bs) 0); [lia|].
      rewrite Er, slice_from_app in H. cbn [bind] in H.
      destruct (Transition_total s p (enc (item_class (Char bs v))) Hs) as (s' & En & Hs' & Et).
      rewrite Et in H. cbn [bind] in H. destruct (is_split _ _ _); [injection H as <- _; lia|].
      rewrite <- app_length in H. apply IH in H; auto.
      + rewrite app_length in H. lia.
      + rewrite Ed, Er, <- app_assoc. reflexivity.
      + rewrite Er, app_length in Hf. lia. }
  destruct fuel' as [|fuel']; [lia|].
  cbn [scan_loop] in *.
  destruct (is_empty remain) eqn:Hre.
  { apply is_empty_spec in Hre. subst remain. rewrite E, app_nil_r. lia. }
  assert (remain <> []) as Hne by (intros H0; apply is_empty_spec in H0; congruence).
  assert (is_empty (remain ++ ext) = false) as Hre'.
  { destruct remain; [congruence|reflexivity]. }
  rewrite Hre' in H'.
  assert (Htok : slice_to data (length pre) = Ret pre) by (rewrite E; apply slice_to_app).
  assert (Htok' : slice_to (data ++ ext) (length pre) = Ret pre).
  { rewrite E, <- app_assoc. apply slice_to_app. }
  rewrite Htok in H. rewrite Htok' in H'. cbn [bind] in *.
  destruct (lookup_cases remain) as [[H0 _]|[[Ht El]|[(_ & _ & _ & El)|(bs & v & rest & Hseq & Er & G & El)]]].
  - contradiction.
  - apply truncated_bound in Ht. rewrite E, app_length. lia.
  - rewrite El in H. cbn [bind] in H. rewrite N.eqb_refl in H. discriminate.
  - pose proof (utf8_seq_len _ _ Hseq) as Hlen.
    rewrite (lookup_stable _ ext _ _ El) in H' by lia. rewrite El in H. cbn [bind] in *.
    rewrite (enc_not_Error _ G) in *.
    destruct (Nat.eqb_spec (length bs) 0); [lia|].
    rewrite Er in *. rewrite <- app_assoc in *. rewrite slice_from_app in *. cbn [bind] in *.
    destruct (Transition_total s p (enc (item_class (Char bs v))) Hs) as (s' & En & Hs' & Et).
    rewrite Et in *. cbn [bind] in *. destruct (is_split _ _ _); [discriminate|].
    rewrite <- app_length in *. eapply IH; [| | | |exact H|exact H'].
    + rewrite E, <- app_assoc. reflexivity.
    + exact Hs'.
    + rewrite app_length in Hf. lia.
    + rewrite !app_length in Hf'. rewrite app_length. lia.
Qed.

Theorem scan_lookahead data ext atEOF n t :
  ScanGraphemeClusters data false = Ret (0, None, None) ->
  ScanGraphemeClusters (data ++ ext) atEOF = Ret (n, Some t, None) ->
  length data < n + 4.
Proof.
  unfold ScanGraphemeClusters. intros H H'.
  destruct (is_empty data) eqn:He.
  { apply is_empty_spec in He. subst data. simpl. lia. }
  assert (data <> []) as Hne by (intros H0; apply is_empty_spec in H0; congruence).
  assert (is_empty (data ++ ext) = false) as He'.
  { destruct data; [congruence|reflexivity]. }
  rewrite He' in H'.
  destruct (lookup_cases data) as [[H0 _]|[[Ht El]|[(_ & _ & _ & El)|(bs & v & rest & Hseq & Er & G & El)]]].
  - contradiction.
  - apply truncated_bound in Ht. lia.
  - rewrite El in H. cbn [bind] in H. rewrite N.eqb_refl in H.
    destruct data as [|b0 [|b1 d]]; [congruence|discriminate|discriminate].
  - pose proof (utf8_seq_len _ _ Hseq) as Hlen.
    rewrite (lookup_stable _ ext _ _ El) in H' by lia. rewrite El in H. cbn [bind] in *.
    rewrite (enc_not_Error _ G) in *.
    destruct (Nat.eqb_spec (length bs) 0); [lia|].
    assert (slice_from data (length bs) = Ret rest) as E1 by (rewrite Er; apply slice_from_app).
    assert (slice_from (data ++ ext) (length bs) = Ret (rest ++ ext)) as E2.
    { rewrite Er, <- app_assoc. apply slice_from_app. }
    rewrite E1 in H. rewrite E2 in H'. cbn [bind] in *.
    destruct (Begin_total (enc (item_class (Char bs v)))) as (s & Eb & Hs).
    rewrite Eb in *. cbn [bind] in *.
    eapply loop_lookahead; [| | | |exact H|exact H']; eauto; lia.
Qed.

(* ---- reading items *)

Lemma starts_seq_dec p : {starts_seq p} + {~ starts_seq p}.
Proof.
  destruct (LookupFirstChar p) as [[pr n]|] eqn:E.
  - destruct (N.eqb pr Error) eqn:Ee.
    + right. destruct (lookup_cases p) as [[H0 El]|[[Ht El]|[(_ & _ & Hs & El)|(bs & v & rest & Hseq & Er & G & El)]]].
      * assert (pr = 0%N) as -> by congruence. rewrite zero_not_Error in Ee. discriminate.
      * apply truncated_not_seq; exact Ht.
      * exact Hs.
      * assert (pr = enc (item_class (Char bs v))) as -> by congruence.
        rewrite (enc_not_Error _ G) in Ee. discriminate.
    + destruct (Nat.eqb n 0) eqn:En.
      * right. destruct (lookup_cases p) as [[H0 El]|[[Ht El]|[(_ & _ & Hs & El)|(bs & v & rest & Hseq & Er & G & El)]]].
        -- intros (bs & v & rest & Hs & Ep). subst. destruct Hs; discriminate.
        -- apply truncated_not_seq; exact Ht.
        -- exact Hs.
        -- assert (n = length bs) as -> by congruence. pose proof (utf8_seq_len _ _ Hseq).
           apply Nat.eqb_eq in En. lia.
      * left. destruct (lookup_cases p) as [[H0 El]|[[Ht El]|[(_ & _ & Hs & El)|(bs & v & rest & Hseq & Er & G & El)]]].
        -- assert (n = 0) as -> by congruence. discriminate.
        -- assert (n = 0) as -> by congruence. discriminate.
        -- assert (pr = Error) as -> by congruence. rewrite N.eqb_refl in Ee. discriminate.
        -- exists bs, v, rest. auto.
  - exfalso. destruct (lookup_cases p) as [[H0 El]|[[Ht El]|[(_ & _ & Hs & El)|(bs & v & rest & Hseq & Er & G & El)]]];
      congruence.
Qed.

Theorem reads_total data : exists its, reads data its.
Proof.
  remember (length data) as n eqn:En. revert data En.
  induction n as [n IH] using lt_wf_ind. intros data En.
  destruct data as [|b data]; [exists []; constructor|].
  destruct (starts_seq_dec (b :: data)) as [(bs & v & rest & Hs & E)|Hs].
  - pose proof (utf8_seq_len _ _ Hs) as Hl.
    destruct (IH (length rest)) with (data := rest) as [its Hits]; auto.
    { rewrite En, E, app_length. lia. }
    exists (Char bs v :: its). rewrite E. constructor; assumption.
  - destruct (IH (length data)) with (data := data) as [its Hits]; auto.
    { rewrite En. simpl. lia. }
    exists (Bad b :: its). constructor; assumption.
Qed.

Theorem reads_unique data its its' : reads data its -> reads data its' -> its = its'.
Proof.
  intros H. revert its'. induction H as [|bs v rest its Hs Hr IH|b rest its Hs Hr IH]; intros its' H'.
  - inversion H' as [|bs v rest its2 Hs E E2|]; [reflexivity|]. destruct Hs; discriminate.
  - inversion H' as [E|bs' v' rest' its2 Hs' Hr' E E2|b' rest' its2 Hs' Hr' E E2].
    + destruct Hs; discriminate.
    + destruct (utf8_seq_unique _ _ _ _ _ _ Hs' Hs E) as (-> & -> & ->). f_equal. auto.
    + exfalso. apply Hs'. rewrite E. exists bs, v, rest. auto.
  - inversion H' as [|bs' v' rest' its2 Hs' Hr' E E2|b' rest' its2 Hs' Hr' E E2].
    + exfalso. apply Hs. exists bs', v', rest'. auto.
    + f_equal. auto.
Qed.

Lemma reads_bytes data its : reads data its -> items_bytes its = data.
Proof.
  induction 1 as [|bs v rest its Hs Hr IH|b rest its Hs Hr IH]; simpl; congruence.
Qed.

Lemma reads_good data its : reads data its -> Forall (fun i => good (item_class i)) its.
Proof.
  induction 1 as [|bs v rest its Hs Hr IH|b rest its Hs Hr IH]; constructor; auto.
  - apply (lookup_char bs v [] Hs).
  - apply good_control.
Qed.

(* ---- the loop at EOF, on items *)

Fixpoint chunk (s : State) (p : cls) (its : list item) : list item * list item :=
  match its with
  | (Char bs v as i) :: its' =>
      let x := item_class i in
      if is_split s (enc p) (enc x) then ([], its)
      else match nextState s (enc x) with
           | Ret s' => let '(c, r) := chunk s' x its' in (i :: c, r)
           | Panic _ => ([], its)
           end
  | _ => ([], its)
  end.

Lemma loop_items : forall its fuel data remain pre s p c r,
  reads remain its -> data = pre ++ remain -> In s states -> length remain < fuel ->
  chunk s p its = (c, r) ->
  scan_loop fuel data true remain (length pre) s (enc p) =
    Ret (length pre + length (items_bytes c), Some (pre ++ items_bytes c), None) /\
  its = c ++ r /\ reads (items_bytes r) r.
Proof.
  induction its as [|i its IH]; intros fuel data remain pre s p c r Hr E Hs Hf Hc;
    (destruct fuel as [|fuel]; [lia|]); cbn [scan_loop].
  - inversion Hr; subst. cbn [chunk] in Hc. injection Hc as <- <-. cbn [is_empty].
    rewrite slice_to_app. cbn [bind items_bytes flat_map length].
    rewrite Nat.add_0_r, app_nil_r. repeat split; constructor.
  - assert (Htok : slice_to data (length pre) = Ret pre) by (rewrite E; apply slice_to_app).
    inversion Hr as [|bs v rest its2 Hseq Hrest E1 E2|b rest its2 Hseq Hrest E1 E2]; subst.
    + pose proof (utf8_seq_len _ _ Hseq) as Hlen.
      assert (is_empty (bs ++ rest) = false) as -> by (destruct bs; [simpl in Hlen; lia|reflexivity]).
      destruct (lookup_char bs v rest Hseq) as [El G].
      rewrite El. cbn [bind]. rewrite (enc_not_Error _ G).
      destruct (Nat.eqb_spec (length bs) 0); [lia|].
      rewrite slice_from_app. cbn [bind].
      destruct (Transition_total s (enc p) (enc (item_class (Char bs v))) Hs) as (s' & En & Hs' & Et).
      rewrite Et. cbn [bind]. cbn [chunk] in Hc. rewrite En in Hc.
      destruct (is_split _ _ _).
      * injection Hc as <- <-. rewrite Htok. simpl. rewrite Nat.add_0_r, app_nil_r.
        split; [reflexivity|]. split; [reflexivity|]. constructor; [exact Hseq|].
        fold (items_bytes its). rewrite (reads_bytes _ _ Hrest). exact Hrest.
      * destruct (chunk s' (item_class (Char bs v)) its) as [c' r'] eqn:Hc'.
        injection Hc as <- <-.
        destruct (IH fuel (pre ++ bs ++ rest) rest (pre ++ bs) s' (item_class (Char bs v)) c' r')
          as (E1 & E2 & E3); auto.
        { rewrite <- app_assoc. reflexivity. }
        { rewrite app_length in Hf. lia. }
        rewrite <- app_length, E1.
        split; [|split; [simpl; congruence|exact E3]].
        change (items_bytes (Char bs v :: c')) with (bs ++ items_bytes c').
        rewrite !app_length, <- app_assoc, Nat.add_assoc. reflexivity.
    + simpl in Hc. injection Hc as <- <-. cbn [is_empty].
      destruct (lookup_cases (b :: rest)) as [[H0 _]|[[Ht El]|[(_ & _ & _ & El)|(bs & v & rest' & Hseq' & Er & G & El)]]].
      * discriminate.
      * rewrite El. cbn [bind]. rewrite zero_not_Error, Htok. simpl.
        rewrite Nat.add_0_r, app_nil_r. repeat split; auto.
        constructor; fold (items_bytes its); rewrite (reads_bytes _ _ Hrest); assumption.
      * rewrite El. cbn [bind]. rewrite N.eqb_refl, Htok. simpl.
        rewrite Nat.add_0_r, app_nil_r. repeat split; auto.
        constructor; fold (items_bytes its); rewrite (reads_bytes _ _ Hrest); assumption.
      * exfalso. apply Hseq. exists bs, v, rest'. auto.
Qed.

(* One call at EOF. *)
Lemma scan_items_char bs v rest its s c r :
  utf8_seq bs v -> reads rest its ->
  Begin (enc (item_class (Char bs v))) = Ret s ->
  chunk s (item_class (Char bs v)) its = (c, r) ->
  ScanGraphemeClusters (bs ++ rest) true =
    Ret (length (bs ++ items_bytes c), Some (bs ++ items_bytes c), None) /\
  its = c ++ r /\ reads (items_bytes r) r.
Proof.
  intros Hseq Hr Hb Hc. unfold ScanGraphemeClusters.
  pose proof (utf8_seq_len _ _ Hseq) as Hlen.
  assert (is_empty (bs ++ rest) = false) as -> by (destruct bs; [simpl in Hlen; lia|reflexivity]).
  destruct (lookup_char bs v rest Hseq) as [El G].
  rewrite El. cbn [bind]. rewrite (enc_not_Error _ G).
  destruct (Nat.eqb_spec (length bs) 0); [lia|].
  rewrite slice_from_app. cbn [bind]. rewrite Hb. cbn [bind].
  destruct (Begin_total (enc (item_class (Char bs v)))) as (s' & Eb & Hs).
  assert (s' = s) by congruence. subst s'.
  destruct (loop_items its (S (length rest)) (bs ++ rest) rest bs s (item_class (Char bs v)) c r)
    as (E1 & E2 & E3); auto.
  rewrite E1, app_length. auto.
Qed.

Lemma scan_items_bad b rest :
  ~ starts_seq (b :: rest) ->
  ScanGraphemeClusters (b :: rest) true = Ret (1, Some [b], None).
Proof.
  intros Hs. unfold ScanGraphemeClusters. cbn [is_empty].
  destruct (lookup_cases (b :: rest)) as [[H0 _]|[[Ht El]|[(_ & _ & _ & El)|(bs & v & rest' & Hseq' & Er & G & El)]]].
  - discriminate.
  - rewrite El. cbn [bind]. rewrite zero_not_Error. cbn [Nat.eqb].
    destruct (Nat.ltb_spec 0 (length (b :: rest))); [|simpl in *; lia]. simpl. destruct rest; reflexivity.
  - rewrite El. cbn [bind]. rewrite N.eqb_refl. simpl. destruct rest; reflexivity.
  - exfalso. apply Hs. exists bs, v, rest'. auto.
Qed.

(* ---- tokens are the clusters *)

Lemma tokenises_unique data ts ts' : tokenises data ts -> tokenises data ts' -> ts = ts'.
Proof.
  intros H. revert ts'. induction H as [|data n t ts Hscan Ht IH]; intros ts' H'.
  - inversion H'; subst; [reflexivity|]. discriminate.
  - inversion H' as [|? n' t' ts2 Hscan' Ht']; subst; [discriminate|].
    assert (n' = n /\ t' = t) as [-> ->] by (rewrite Hscan in Hscan'; injection Hscan'; auto).
    f_equal. auto.
Qed.

(* rl: classes of everything before, most recent first *)
Definition ready (rl : list cls) (its : list item) : Prop :=
  match its with
  | Char bs v :: _ =>
      exists s, Begin (enc (item_class (Char bs v))) = Ret s /\ summary (item_class (Char bs v) :: rl) s
  | _ => True
  end.

Definition cl := item_class.

Lemma chunk_spec : forall its s p rl c r,
  Forall (fun i => good (cl i)) its ->
  summary (p :: rl) s -> Forall good (p :: rl) ->
  chunk s p its = (c, r) ->
  (forall l m tl, c = l ++ m -> m <> [] -> ~ boundary (rev (p :: rl) ++ map cl l) (map cl m ++ tl)) /\
  (r <> [] -> boundary (rev (p :: rl) ++ map cl c) (map cl r)) /\
  ready (rev (map cl c) ++ p :: rl) r.
Proof.
  induction its as [|i its IH]; intros s p rl c r HG HS Hrl Hc.
  - simpl in Hc. injection Hc as <- <-. split.
    { intros l m tl E Hm. destruct l, m; try discriminate. congruence. }
    split; [congruence|exact I].
  - inversion HG as [|? ? Hi HGi]; subst.
    destruct i as [bs v|b].
    + cbn [chunk] in Hc. set (x := item_class (Char bs v)) in *.
      destruct (is_split s (enc p) (enc x)) eqn:Hsp.
      * injection Hc as <- <-.
        destruct (transition_split rl p x s (map cl its) HS Hrl Hi Hsp) as (HB & s' & Eb & HS').
        split; [intros l m tl E Hm; destruct l, m; try discriminate; congruence|].
        split.
        { intros _. simpl map at 1. rewrite app_nil_r. exact HB. }
        simpl. exists s'. auto.
      * destruct (transition_join rl p x s (map cl its) HS Hrl Hi Hsp) as (_ & s' & En & HS').
        rewrite En in Hc. destruct (chunk s' x its) as [c' r'] eqn:Hc'. injection Hc as <- <-.
        destruct (IH s' x (p :: rl) c' r' HGi HS' (Forall_cons _ Hi Hrl) Hc') as (H1 & H2 & H3).
        assert (Er : forall z, rev (x :: p :: rl) ++ z = rev (p :: rl) ++ x :: z).
        { intros z. simpl. rewrite <- !app_assoc. reflexivity. }
        split; [|split].
        -- intros l m tl E Hm. destruct l as [|j l]; simpl in E.
           ++ subst m. simpl map. rewrite app_nil_r. simpl app.
              apply (transition_join rl p x s _ HS Hrl Hi Hsp).
           ++ injection E as <- E. simpl map. change (cl (Char bs v)) with x. rewrite <- Er.
              apply H1; assumption.
        -- intros Hr. simpl map at 1. change (cl (Char bs v)) with x. rewrite <- Er. auto.
        -- simpl map. change (cl (Char bs v)) with x. simpl rev. rewrite <- app_assoc. exact H3.
    + simpl in Hc. injection Hc as <- <-.
      split; [intros l m tl E Hm; destruct l, m; try discriminate; congruence|].
      split; [|exact I].
      intros _. simpl map at 1. rewrite app_nil_r. apply boundary_control.
Qed.

(* cuts are right, given the left context rl *)
Definition cuts_ok (rl : list cls) (segs : list (list item)) : Prop :=
  forall l r, concat segs = l ++ r -> l <> [] -> r <> [] ->
    ((exists s1 s2, segs = s1 ++ s2 /\ concat s1 = l) <-> boundary (rev rl ++ map cl l) (map cl r)).

Lemma app_compare {A} (a b l r : list A) :
  a ++ b = l ++ r ->
  (exists m, a = l ++ m /\ r = m ++ b) \/ (exists m, l = a ++ m /\ b = m ++ r).
Proof.
  revert l. induction a as [|x a IH]; intros l H.
  - right. exists l. auto.
  - destruct l as [|y l]; simpl in H.
    + left. exists (x :: a). auto.
    + injection H as -> H. destruct (IH l H) as [(m & -> & ->)|(m & -> & ->)].
      * left. exists m. auto.
      * right. exists m. auto.
Qed.

Lemma cuts_cons rl c segs :
  c <> [] -> Forall (fun s => s <> []) segs ->
  (forall l m tl, c = l ++ m -> l <> [] -> m <> [] -> ~ boundary (rev rl ++ map cl l) (map cl m ++ tl)) ->
  (concat segs <> [] -> boundary (rev rl ++ map cl c) (map cl (concat segs))) ->
  cuts_ok (rev (map cl c) ++ rl) segs ->
  cuts_ok rl (c :: segs).
Proof.
  intros Hc Hsegs Hin Hend Hrest l r E Hl Hr. simpl in E.
  destruct (app_compare _ _ _ _ E) as [(m & -> & ->)|(m & -> & Em)].
  - destruct m as [|i m].
    + simpl in *. rewrite app_nil_r in *. split.
      * intros _. apply Hend. exact Hr.
      * intros _. exists [l], segs. simpl. rewrite app_nil_r. auto.
    + split.
      * intros (s1 & s2 & Es & El). exfalso. destruct s1 as [|x s1]; simpl in *; [congruence|].
        injection Es as <- Es. apply (f_equal (@length _)) in El.
        rewrite !app_length in El. simpl in El. lia.
      * intros HB. exfalso. rewrite map_app in HB.
        apply (Hin l (i :: m) (map cl (concat segs)) eq_refl Hl); [discriminate|]. exact HB.
  - destruct m as [|i m].
    + rewrite app_nil_r in *. simpl in Em. subst r. split.
      * intros _. apply Hend. exact Hr.
      * intros _. exists [c], segs. simpl. rewrite app_nil_r. auto.
    + specialize (Hrest (i :: m) r Em ltac:(discriminate) Hr).
      rewrite rev_app_distr, rev_involutive, <- app_assoc, <- map_app in Hrest.
      rewrite <- Hrest. split.
      * intros (s1 & s2 & Es & El). destruct s1 as [|x s1]; simpl in *.
        { destruct c; [congruence|discriminate]. }
        injection Es as <- Es. apply app_inv_head in El. exists s1, s2. auto.
      * intros (s1 & s2 & -> & El). exists (c :: s1), s2. simpl. rewrite El. auto.
Qed.

Theorem tokenise_items : forall n its data rl,
  length its <= n -> reads data its -> Forall good rl -> ready rl its ->
  exists segs, tokenises data (map items_bytes segs) /\ concat segs = its /\
    Forall (fun s => s <> []) segs /\ cuts_ok rl segs.
Proof.
  induction n as [|n IH]; intros its data rl Hn Hr Hrl Hready.
  - destruct its; [|simpl in Hn; lia]. inversion Hr; subst.
    exists []. repeat split; try constructor.
    + intros _. destruct l; [congruence|discriminate].
    + intros _. destruct l; [congruence|discriminate].
  - inversion Hr as [E|bs v rest its' Hseq Hrest E1 E2|b rest its' Hs Hrest E1 E2]; subst.
    + exists []. repeat split; try constructor;
      intros _; destruct l; try congruence; discriminate.
    + simpl in Hready. destruct Hready as (s & Eb & HS). set (x := item_class (Char bs v)) in *.
      destruct (chunk s x its') as [c r] eqn:Hc.
      destruct (scan_items_char bs v rest its' s c r Hseq Hrest Eb Hc) as (Escan & -> & Hrr).
      pose proof (reads_good _ _ Hr) as HG. inversion HG as [|? ? Gx HGi]; subst.
      destruct (chunk_spec _ s x rl c r HGi HS (Forall_cons _ Gx Hrl) Hc) as (H1 & H2 & H3).
      assert (Forall good (rev (map cl c) ++ x :: rl)) as Hrl'.
      { apply Forall_app. split; [|constructor; assumption]. apply Forall_rev.
        apply Forall_app in HGi. destruct HGi as [HGc _]. clear -HGc.
        induction HGc; constructor; auto. }
      destruct (IH r (items_bytes r) (rev (map cl c) ++ x :: rl)) as (segs & Ht & Ec & Hne & Hcut); auto.
      { simpl in Hn. rewrite app_length in Hn. lia. }
      exists ((Char bs v :: c) :: segs). split; [|split; [|split]].
      * simpl map. eapply tokenises_step.
        { change (items_bytes (Char bs v :: c)) with (bs ++ items_bytes c). exact Escan. }
        assert (bs ++ rest = (bs ++ items_bytes c) ++ items_bytes r) as ->.
        { rewrite <- app_assoc. f_equal. unfold items_bytes. rewrite <- flat_map_app.
          symmetry. apply (reads_bytes _ _ Hrest). }
        rewrite skipn_app_exact. exact Ht.
      * simpl. rewrite Ec. reflexivity.
      * constructor; [discriminate|assumption].
      * apply cuts_cons; auto.
        -- discriminate.
        -- intros l m tl E Hl Hm. destruct l as [|j l]; [congruence|]. simpl in E. injection E as <- E.
           simpl map. change (cl (Char bs v)) with x.
           specialize (H1 l m tl E Hm). simpl rev in H1. rewrite <- app_assoc in H1. exact H1.
        -- rewrite Ec. intros Hne'. simpl map at 1. change (cl (Char bs v)) with x.
           specialize (H2 Hne'). simpl rev in H2. rewrite <- app_assoc in H2. exact H2.
        -- simpl map. change (cl (Char bs v)) with x. simpl rev. rewrite <- app_assoc. exact Hcut.
    + assert (ready (control :: rl) its') as Hready'.
      { destruct its' as [|[bs v|b'] its'']; try exact I.
        pose proof (reads_good _ _ Hrest) as HG. inversion HG as [|? ? Gx HGi]; subst.
        destruct (transition_split rl control (item_class (Char bs v)) 0%N []
                    (control_summary rl) (Forall_cons _ good_control Hrl) Gx
                    (split_after_control _ Gx)) as (_ & s' & Eb & HS').
        exists s'. auto. }
      destruct (IH its' rest (control :: rl)) as (segs & Ht & Ec & Hne & Hcut); auto.
      { simpl in Hn. lia. }
      { constructor; [apply good_control|assumption]. }
      exists ([Bad b] :: segs). split; [|split; [|split]].
      * simpl map. eapply tokenises_step; [apply scan_items_bad; exact Hs|]. exact Ht.
      * simpl. rewrite Ec. reflexivity.
      * constructor; [discriminate|assumption].
      * apply cuts_cons; auto.
        -- discriminate.
        -- intros l m tl E Hl Hm. destruct l as [|j [|]], m as [|]; simpl in E; try discriminate; congruence.
        -- rewrite Ec. intros Hne'. simpl map at 1. change (cl (Bad b)) with control.
           pose proof (reads_good _ _ Hrest) as HG. destruct its' as [|i its'']; [congruence|].
           inversion HG as [|? ? Gx HGi]; subst.
           apply (transition_split rl control (cl i) 0%N (map cl its'')
                    (control_summary rl) (Forall_cons _ good_control Hrl) Gx (split_after_control _ Gx)).
Qed.

Theorem tokenises_clusters data :
  exists its segs, reads data its /\ clusters item_class its segs /\
    tokenises data (map items_bytes segs).
Proof.
  destruct (reads_total data) as [its Hits].
  assert (ready [] its) as Hready.
  { destruct its as [|[bs v|b] its']; try exact I.
    pose proof (reads_good _ _ Hits) as HG. inversion HG as [|? ? Gx HGi]; subst.
    apply begin_summary. exact Gx. }
  destruct (tokenise_items (length its) its data [] (le_n _) Hits (Forall_nil _) Hready)
    as (segs & Ht & Ec & Hne & Hcut).
  exists its, segs. split; [exact Hits|]. split; [|exact Ht].
  constructor; auto. intros l r E Hnz. destruct l as [|i l].
  - simpl. split; [|intros _; exists [], segs; auto].
    intros _. destruct r; [subst; simpl in *; congruence|exact I].
  - destruct r as [|j r].
    + simpl. split; [auto|]. intros _. exists segs, []. rewrite app_nil_r in *. subst. auto.
    + apply (Hcut (i :: l) (j :: r)); [congruence|discriminate|discriminate].
Qed.
