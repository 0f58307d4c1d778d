(* Exactly how much look-ahead the split function needs. *)
From Coq Require Import List NArith ZArith Arith Bool Lia ZifyBool ZifyNat ZifyN Strings.Byte.
From Verif Require Import Spec.Utf8 Spec.Room Spec.Classes Spec.Segmentation.
From Verif Require Import Model.Base Model.CharProps Model.Lookup Model.Machine Model.Scan.
From Verif Require Import Proofs.Basics Proofs.TableCheck Proofs.LookupFacts Proofs.MachineFacts Proofs.ScanFacts Proofs.TextFacts Proofs.DriverFacts.
Import ListNotations.

Local Opaque committed LookupFirstChar.

(* the token starts with what has been accepted, and then ends or has the whole
   next character *)
Lemma loop_next : forall fuel data atEOF remain pre s p n t,
  data = pre ++ remain -> In s states -> length remain < fuel ->
  scan_loop fuel data atEOF remain (length pre) s p = Ret (n, Some t, None) ->
  n = length pre \/ exists bs v rest, utf8_seq bs v /\ remain = bs ++ rest /\ length pre + length bs <= n.
Proof.
  assert (Hge : forall fuel data atEOF remain pre s p n t,
    data = pre ++ remain -> In s states -> length remain < fuel ->
    scan_loop fuel data atEOF remain (length pre) s p = Ret (n, Some t, None) -> length pre <= n).
  { induction fuel as [|fuel IH]; intros d atEOF r pre s p n t Ed Hs Hf H; [lia|].
    cbn [scan_loop] in H.
    assert (Htok : slice_to d (length pre) = Ret pre) by (rewrite Ed; apply slice_to_app).
    rewrite Htok in H. cbn [bind] in H.
    destruct (is_empty r) eqn:Hre.
    { destruct atEOF; [injection H as <- _; lia|discriminate]. }
    assert (r <> []) as Hne by (intros H0; apply is_empty_spec in H0; congruence).
    destruct (lookup_cases r) as [[H0 _]|[[_ El]|[(_ & _ & _ & El)|(bs & v & rest & Hseq & Er & G & El)]]].
    - contradiction.
    - rewrite El in H. cbn [bind] in H. rewrite zero_not_Error in H. cbn [Nat.eqb negb andb] in H.
      destruct atEOF; [injection H as <- _; lia|discriminate].
    - rewrite El in H. cbn [bind] in H. rewrite N.eqb_refl in H. injection H as <- _; lia.
    - rewrite El in H. cbn [bind] in H. rewrite (enc_not_Error _ G) in H.
      pose proof (utf8_seq_len _ _ Hseq) as Hlen.
      destruct (Nat.eqb_spec (length bs) 0); [lia|].
      rewrite Er, slice_from_app in H. cbn [bind] in H.
      destruct (Transition_total s p (enc (item_class (Char bs v))) Hs) as (s' & En & Hs' & Et).
      rewrite Et in H. cbn [bind] in H. destruct (is_split _ _ _); [injection H as <- _; lia|].
      rewrite <- app_length in H. apply IH in H; auto.
      + rewrite app_length in H. lia.
      + rewrite Ed, Er, <- app_assoc. reflexivity.
      + rewrite Er, app_length in Hf. lia. }
  intros fuel d atEOF r pre s p n t Ed Hs Hf H. destruct fuel as [|fuel]; [lia|].
  cbn [scan_loop] in H.
  assert (Htok : slice_to d (length pre) = Ret pre) by (rewrite Ed; apply slice_to_app).
  rewrite Htok in H. cbn [bind] in H.
  destruct (is_empty r) eqn:Hre.
  { destruct atEOF; [injection H as <- _; auto|discriminate]. }
  assert (r <> []) as Hne by (intros H0; apply is_empty_spec in H0; congruence).
  destruct (lookup_cases r) as [[H0 _]|[[_ El]|[(_ & _ & _ & El)|(bs & v & rest & Hseq & Er & G & El)]]].
  - contradiction.
  - rewrite El in H. cbn [bind] in H. rewrite zero_not_Error in H. cbn [Nat.eqb negb andb] in H.
    destruct atEOF; [injection H as <- _; auto|discriminate].
  - rewrite El in H. cbn [bind] in H. rewrite N.eqb_refl in H. injection H as <- _; auto.
  - rewrite El in H. cbn [bind] in H. rewrite (enc_not_Error _ G) in H.
    pose proof (utf8_seq_len _ _ Hseq) as Hlen.
    destruct (Nat.eqb_spec (length bs) 0); [lia|].
    rewrite Er, slice_from_app in H. cbn [bind] in H.
    destruct (Transition_total s p (enc (item_class (Char bs v))) Hs) as (s' & En & Hs' & Et).
    rewrite Et in H. cbn [bind] in H. destruct (is_split _ _ _); [injection H as <- _; auto|].
    right. exists bs, v, rest. split; [exact Hseq|]. split; [exact Er|].
    rewrite <- app_length in *. eapply (Hge fuel d atEOF rest (pre ++ bs)); [| |  |exact H]; auto.
    + rewrite Ed, Er, <- app_assoc. reflexivity.
    + rewrite Er, app_length in Hf. lia.
Qed.

Lemma seq_lead bs v : utf8_seq bs v -> exists b tl, bs = b :: tl /\ lead_len b = length bs.
Proof.
  intros H. inversion H; subst; eexists; eexists; (split; [reflexivity|]); unfold lead_len; cbn [length];
    repeat match goal with |- context [N.ltb ?x ?y] => destruct (N.ltb_spec x y) end; lia.
Qed.

Lemma loop_need : forall fuel fuel' data remain pre s p n t ext atEOF,
  data = pre ++ remain -> In s states ->
  length remain < fuel -> length (remain ++ ext) < fuel' ->
  scan_loop fuel data false remain (length pre) s p = Ret (0, None, None) ->
  scan_loop fuel' (data ++ ext) atEOF (remain ++ ext) (length pre) s p = Ret (n, Some t, None) ->
  length data <= n \/ exists a tl, skipn n (data ++ ext) = a :: tl /\ length data < n + lead_len a.
Proof.
  induction fuel as [|fuel IH]; intros fuel' data remain pre s p n t ext atEOF E Hs Hf Hf' H H'; [lia|].
  assert (Hn : n = length pre \/ exists bs v rest, utf8_seq bs v /\ remain ++ ext = bs ++ rest /\ length pre + length bs <= n).
  { eapply (loop_next fuel' (data ++ ext)); [|exact Hs| |exact H']; [rewrite E, app_assoc; reflexivity|assumption]. }
  destruct fuel' as [|fuel']; [lia|].
  cbn [scan_loop] in *.
  destruct (is_empty remain) eqn:Hre.
  { apply is_empty_spec in Hre. subst remain. left. rewrite E, app_nil_r.
    destruct Hn as [->|(bs & v & rest & _ & _ & K)]; lia. }
  assert (remain <> []) as Hne by (intros H0; apply is_empty_spec in H0; congruence).
  assert (is_empty (remain ++ ext) = false) as Hre'.
  { destruct remain; [congruence|reflexivity]. }
  rewrite Hre' in H'.
  assert (Htok : slice_to data (length pre) = Ret pre) by (rewrite E; apply slice_to_app).
  assert (Htok' : slice_to (data ++ ext) (length pre) = Ret pre).
  { rewrite E, <- app_assoc. apply slice_to_app. }
  rewrite Htok in H. rewrite Htok' in H'. cbn [bind] in *.
  destruct (lookup_cases remain) as [[H0 _]|[[Ht El]|[(_ & _ & _ & El)|(bs & v & rest & Hseq & Er & G & El)]]].
  - contradiction.
  - apply truncated_incomplete in Ht. destruct Ht as (a & tl & -> & Hl).
    destruct Hn as [->|(bs & v & rest & Hb & Er & K)].
    + right. exists a, (tl ++ ext). split; [|rewrite E, app_length; lia].
      rewrite E, <- app_assoc, skipn_app, skipn_all, Nat.sub_diag. reflexivity.
    + left. destruct (seq_lead bs v Hb) as (b & tl' & -> & Hb'). cbn [app] in Er.
      assert (a = b) by congruence. subst b. rewrite E, app_length. lia.
  - rewrite El in H. cbn [bind] in H. rewrite N.eqb_refl in H. discriminate.
  - pose proof (utf8_seq_len _ _ Hseq) as Hlen.
    rewrite (lookup_stable _ ext _ _ El) in H' by lia. rewrite El in H. cbn [bind] in *.
    rewrite (enc_not_Error _ G) in *.
    destruct (Nat.eqb_spec (length bs) 0); [lia|].
    clear Hn. rewrite Er in *. rewrite <- app_assoc in *. rewrite slice_from_app in *. cbn [bind] in *.
    destruct (Transition_total s p (enc (item_class (Char bs v))) Hs) as (s' & En & Hs' & Et).
    rewrite Et in *. cbn [bind] in *. destruct (is_split _ _ _); [discriminate|].
    rewrite <- app_length in *. eapply IH; [| | | |exact H|exact H'].
    + rewrite E, <- app_assoc. reflexivity.
    + exact Hs'.
    + rewrite app_length in Hf. lia.
    + rewrite !app_length in Hf'. rewrite app_length. lia.
Qed.

(* asking for more *)
Lemma scan_need data ext atEOF n t :
  ScanGraphemeClusters data false = Ret (0, None, None) ->
  ScanGraphemeClusters (data ++ ext) atEOF = Ret (n, Some t, None) ->
  data = [] \/ incomplete data \/
  (starts_seq data /\ (length data <= n \/ exists a tl, skipn n (data ++ ext) = a :: tl /\ length data < n + lead_len a)).
Proof.
  unfold ScanGraphemeClusters. intros H H'.
  destruct (is_empty data) eqn:He.
  { apply is_empty_spec in He. auto. }
  right. assert (data <> []) as Hne by (intros H0; apply is_empty_spec in H0; congruence).
  assert (is_empty (data ++ ext) = false) as He'.
  { destruct data; [congruence|reflexivity]. }
  rewrite He' in H'.
  destruct (lookup_cases data) as [[H0 _]|[[Ht El]|[(_ & _ & _ & El)|(bs & v & rest & Hseq & Er & G & El)]]].
  - contradiction.
  - left. apply truncated_incomplete, Ht.
  - rewrite El in H. cbn [bind] in H. rewrite N.eqb_refl in H.
    destruct data as [|b0 [|b1 d]]; [congruence|discriminate|discriminate].
  - right. split; [exists bs, v, rest; auto|]. pose proof (utf8_seq_len _ _ Hseq) as Hlen.
    rewrite (lookup_stable _ ext _ _ El) in H' by lia. rewrite El in H. cbn [bind] in *.
    rewrite (enc_not_Error _ G) in *.
    destruct (Nat.eqb_spec (length bs) 0); [lia|].
    assert (slice_from data (length bs) = Ret rest) as E1 by (rewrite Er; apply slice_from_app).
    assert (slice_from (data ++ ext) (length bs) = Ret (rest ++ ext)) as E2.
    { rewrite Er, <- app_assoc. apply slice_from_app. }
    rewrite E1 in H. rewrite E2 in H'. cbn [bind] in *.
    destruct (Begin_total (enc (item_class (Char bs v)))) as (s & Eb & Hs).
    rewrite Eb in *. cbn [bind] in *.
    eapply loop_need; [| | | |exact H|exact H']; eauto; lia.
Qed.

(* the first character belongs to the token *)
Lemma first_whole data atEOF n t bs v rest : utf8_seq bs v -> data = bs ++ rest ->
  ScanGraphemeClusters data atEOF = Ret (n, Some t, None) -> length bs <= n.
Proof.
  intros Hb E H. pose proof (utf8_seq_len _ _ Hb) as Hlen.
  destruct (lookup_cases data) as [[-> _]|[[Ht _]|[(_ & _ & Hn & _)|(bs' & v' & rest' & Hseq & Er & G & El)]]].
  - destruct bs; [cbn [length] in Hlen; lia|discriminate E].
  - exfalso. apply (truncated_not_seq _ Ht). exists bs, v, rest. auto.
  - exfalso. apply Hn. exists bs, v, rest. auto.
  - assert (length bs' = length bs) as Q.
    { destruct (seq_lead _ _ Hb) as (b & tl & E1 & Q1). destruct (seq_lead _ _ Hseq) as (b' & tl' & E2 & Q2).
      rewrite E1 in E. rewrite E2 in Er. rewrite E in Er. cbn [app] in Er. assert (b = b') by congruence. subst b'. congruence. }
    unfold ScanGraphemeClusters in H. rewrite El in H.
    destruct (is_empty data) eqn:He; [discriminate H|]. cbn [bind] in H. rewrite (enc_not_Error _ G) in H.
    destruct (Nat.eqb_spec (length bs') 0); [lia|].
    rewrite Er, slice_from_app in H. cbn [bind] in H.
    destruct (Begin_total (enc (item_class (Char bs' v')))) as (s & Eb & Hs). rewrite Eb in H. cbn [bind] in H.
    rewrite <- Q. eapply loop_next in H; [|reflexivity|exact Hs|lia].
    destruct H as [->|(b2 & v2 & r2 & _ & _ & K)]; lia.
Qed.

Lemma starts_seq_app d ext : starts_seq d -> starts_seq (d ++ ext).
Proof. intros (bs & v & rest & H & ->). exists bs, v, (rest ++ ext). rewrite <- app_assoc. auto. Qed.

(* C60 at the level of the split function: a prefix of the text yields the token
   exactly if it has the bytes demanded *)
Lemma demand_exact t after m d ext :
  ScanGraphemeClusters (t ++ after) true = Ret (length t, Some t, None) -> demand t after m -> d ++ ext = t ++ after ->
  (m <= length d <-> ScanGraphemeClusters d false = Ret (length t, Some t, None)).
Proof.
  intros Hs Hm Hd.
  assert (L : length d + length ext = length t + length after) by (rewrite <- !app_length; congruence).
  assert (Ht1 : 1 <= length t).
  { destruct (scan_shape (t ++ after) true) as [[E _]|(n & E & Hn)]; rewrite Hs in E; [discriminate E|].
    assert (n = length t) by congruence. lia. }
  split.
  - intros Hle. destruct (scan_shape d false) as [[E _]|(n & E & Hn)].
    + exfalso. assert (ScanGraphemeClusters (d ++ ext) true = Ret (length t, Some t, None)) as Hs' by congruence.
      destruct (scan_need d ext true _ _ E Hs') as [->|[(b & tl & -> & Hi)|(Hst & K)]].
      * cbn [length] in Hle. inversion Hm; subst; unfold span in *; lia.
      * inversion Hm as [b' t' af Hn|t' Hst|t' b' af Hst]; subst.
        -- cbn [app] in Hd. assert (b = b') by congruence. subst b'. unfold span in Hle. lia.
        -- rewrite app_nil_r in *. destruct Hst as (bs & v & rest & Hb & E2).
           pose proof (first_whole _ _ _ _ _ _ _ Hb E2 Hs) as Q. destruct (seq_lead _ _ Hb) as (b2 & tl2 & -> & Q2).
           rewrite <- Hd in E2. cbn [app] in E2. assert (b = b2) by congruence. subst b2. lia.
        -- destruct Hst as (bs & v & rest & Hb & E2). rewrite E2 in Hs at 1.
           pose proof (first_whole _ _ _ _ _ _ _ Hb eq_refl Hs) as Q. destruct (seq_lead _ _ Hb) as (b2 & tl2 & -> & Q2).
           rewrite <- Hd in E2. cbn [app] in E2. assert (b = b2) by congruence. subst b2. lia.
      * inversion Hm as [b' t' af Hn|t' Hst'|t' b' af Hst']; subst.
        -- apply Hn. pose proof (starts_seq_app d ext Hst) as Q. rewrite Hd in Q. exact Q.
        -- cbn [length] in L. destruct K as [K|(a & tl & K & _)]; [lia|].
           rewrite Hd, app_nil_r, skipn_all in K. discriminate K.
        -- destruct K as [K|(a & tl & K & K')]; [unfold span in Hle; lia|].
           rewrite Hd, skipn_app, skipn_all, Nat.sub_diag in K. cbn [app skipn] in K.
           assert (a = b') by congruence. subst a. unfold span in Hle. lia.
    + pose proof (scan_stable d n _ ext true E) as Q. congruence.
  - intros E. apply emission_exact in E. destruct E as (E & Hi & Hst).
    assert (length t <= length d) as Lt.
    { destruct (scan_shape d true) as [[K _]|(n & K & Hn)]; rewrite E in K; [discriminate K|].
      assert (n = length t) by congruence. lia. }
    assert (starts_seq (t ++ after) -> starts_seq d) as Hsd.
    { intros (bs & v & rest & Hb & E2). pose proof (first_whole _ _ _ _ _ _ _ Hb E2 Hs) as Q.
      exists bs, v, (skipn (length bs) d). split; [exact Hb|].
      rewrite <- (firstn_skipn (length bs) d) at 1. f_equal.
      assert (firstn (length bs) (d ++ ext) = firstn (length bs) (bs ++ rest)) as K by congruence.
      rewrite !firstn_app in K. replace (length bs - length d) with 0 in K by lia.
      rewrite Nat.sub_diag, firstn_all, !firstn_O, !app_nil_r in K. exact K. }
    inversion Hm as [b' t' af Hn|t' Hst'|t' b' af Hst']; subst.
    + destruct d as [|b d]; [cbn [length] in *; lia|]. cbn [app] in Hd. assert (b = b') by congruence. subst b'.
      unfold span. destruct (Nat.leb_spec (lead_len b) (length (b :: d))) as [Q|Q]; [cbn [length] in *; lia|].
      exfalso. apply Hi. exists b, d. auto.
    + rewrite app_nil_r in *. cbn [length] in L. destruct (Hst (Hsd Hst')) as [K _].
      exfalso. apply K. apply skipn_all2. lia.
    + destruct (Hst (Hsd Hst')) as [K1 K2].
      assert (skipn (length t) d ++ ext = b' :: af) as Q.
      { assert (skipn (length t) (d ++ ext) = skipn (length t) (t ++ b' :: af)) as Q by congruence.
        rewrite !skipn_app in Q. replace (length t - length d) with 0 in Q by lia.
        rewrite Nat.sub_diag, skipn_all in Q. exact Q. }
      destruct (skipn (length t) d) as [|a tl] eqn:Ed; [congruence|]. cbn [app] in Q.
      assert (a = b') by congruence. subst a.
      assert (length (skipn (length t) d) = length (b' :: tl)) as Q2 by congruence. rewrite skipn_length in Q2.
      unfold span. destruct (Nat.leb_spec (lead_len b') (length (b' :: tl))) as [P|P]; [cbn [length] in *; lia|].
      exfalso. apply K2. exists b', tl. auto.
Qed.

Lemma demand_exists t after : t <> [] -> exists m, demand t after m.
Proof.
  intros H. destruct (starts_seq_dec (t ++ after)) as [K|K].
  - destruct after as [|b after]; [exists (length t + 1); constructor; rewrite app_nil_r in K; exact K|].
    eexists. constructor. exact K.
  - destruct t as [|b t]; [congruence|]. eexists. constructor. exact K.
Qed.
