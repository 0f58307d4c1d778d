(* The split function over any tables that hold a class for every character:
   the counterpart of Proofs/ScanFacts.v. *)
From Coq Require Import List NArith Arith Bool Lia Strings.Byte.
From Coq Require Import ZArith ZifyBool ZifyNat ZifyN.
From Verif Require Import Spec.Classes Spec.Utf8 Spec.UAX29 Spec.Segmentation Spec.Versions.
From Verif Require Import Model.Base Model.CharProps Model.Lookup Model.Machine Model.Scan Model.OtherTables.
From Verif Require Import Proofs.Basics Proofs.TableCheck Proofs.LookupFacts Proofs.MachineFacts Proofs.ScanFacts.
Import ListNotations.

Local Opaque lookup_first_char Error.

(* ---- lookup where no sequence starts does not depend on the tables *)

Lemma lookup_elsewhere tb p : ~ starts_seq p -> lookup_first_char tb p = LookupFirstChar p.
Proof.
  Transparent lookup_first_char. unfold LookupFirstChar, lookup_first_char. Opaque lookup_first_char.
  intros Hs. destruct p as [|a tl]; [reflexivity|].
  destruct (seq_length a) as [n|] eqn:Hn; [|reflexivity].
  rewrite len_lt_spec. destruct (Nat.ltb_spec (length (a :: tl)) n) as [Hlt|Hge]; [reflexivity|].
  assert (1 <= n)%nat as Hn1.
  { rewrite seq_length_ok in Hn. unfold seq_length_spec in Hn.
    repeat match type of Hn with context [if ?c then _ else _] => destruct c end;
      try discriminate; injection Hn as <-; lia. }
  rewrite bad_cont_ok by lia. cbn [bind]. change (skipn 1 (a :: tl)) with tl.
  destruct (forallb is_contb (firstn (n - 1) tl)) eqn:Hc; cbn [negb]; [|reflexivity].
  exfalso. apply Hs. destruct (make_seq a tl n Hn Hge Hc) as [v Hv].
  exists (a :: firstn (n - 1) tl), v, (skipn (n - 1) tl). split; [exact Hv|].
  simpl. rewrite firstn_skipn. reflexivity.
Qed.

(* what a lookup of a complete sequence finds *)
Definition found (w : N -> N) (bs : list byte) (v : N) : N :=
  if scalarb v && bytes_eqb bs (utf8_encode v) then w v else 0%N.

Definition finds (tb : tables) (w : N -> N) : Prop :=
  forall bs v rest, utf8_seq bs v -> lookup_first_char tb (bs ++ rest) = Ret (found w bs v, length bs).

Section Tables.
Variable tb : tables.
Variable w : N -> N.
Hypothesis Hw : finds tb w.

Lemma cases_with p :
  (p = [] /\ lookup_first_char tb p = Ret (0%N, 0)) \/
  (truncated p /\ lookup_first_char tb p = Ret (0%N, 0)) \/
  (p <> [] /\ ~ truncated p /\ ~ starts_seq p /\ lookup_first_char tb p = Ret (Error, 1)) \/
  (exists bs v rest, utf8_seq bs v /\ p = bs ++ rest /\
     lookup_first_char tb p = Ret (found w bs v, length bs)).
Proof.
  destruct (starts_seq_dec p) as [(bs & v & rest & Hs & ->)|Hs].
  - right; right; right. exists bs, v, rest. auto.
  - rewrite (lookup_elsewhere tb p Hs).
    destruct (lookup_cases p) as [[H0 El]|[[Ht El]|[(Hp & Ht & Hs' & El)|(bs & v & rest & Hseq & Er & G & El)]]]; auto.
    + right; right; left. auto.
    + exfalso. apply Hs. exists bs, v, rest. auto.
Qed.

Lemma stable_with p ext pr n :
  lookup_first_char tb p = Ret (pr, n) -> n <> 0 -> lookup_first_char tb (p ++ ext) = Ret (pr, n).
Proof.
  intros H Hn. destruct (cases_with p) as [[_ E]|[[_ E]|[(Hp & Ht & Hs & E)|(bs & v & rest & Hs & -> & E)]]].
  - congruence.
  - congruence.
  - rewrite lookup_elsewhere.
    + rewrite <- H. rewrite (lookup_elsewhere tb p Hs). 
      rewrite (lookup_elsewhere tb p Hs) in H. rewrite H. apply lookup_stable; assumption.
    + intros Q. apply Hs. eapply starts_seq_app; eauto.
  - rewrite <- app_assoc, Hw by exact Hs. rewrite <- H. symmetry. apply Hw, Hs.
Qed.

(* ---- totality and shape, whatever the values *)

Lemma loop_shape_with : forall fuel data atEOF remain pre s p,
  data = pre ++ remain -> 1 <= length pre -> In s states -> length remain < fuel ->
  shape data atEOF (scan_loop_with tb fuel data atEOF remain (length pre) s p).
Proof.
  induction fuel as [|fuel IH]; intros data atEOF remain pre s p E Hpre Hs Hf; [lia|].
  cbn [scan_loop_with].
  assert (Htok : slice_to data (length pre) = Ret (firstn (length pre) data)).
  { apply slice_to_ok. rewrite E, app_length. lia. }
  assert (Hsh : shape data atEOF (let! token := slice_to data (length pre) in
                                  Ret (length pre, Some token, None))).
  { rewrite Htok. cbn [bind]. right. exists (length pre). split; [reflexivity|].
    rewrite E, app_length. lia. }
  destruct (is_empty remain) eqn:Hre.
  { destruct atEOF; [exact Hsh|]. left; auto. }
  assert (remain <> []) as Hne by (intros H0; apply is_empty_spec in H0; congruence).
  destruct (cases_with remain) as [[H0 _]|[[_ El]|[(_ & _ & _ & El)|(bs & v & rest & Hseq & Er & El)]]].
  - contradiction.
  - rewrite El. cbn [bind]. rewrite zero_not_Error. cbn [Nat.eqb negb andb].
    destruct atEOF; [exact Hsh|]. left; auto.
  - rewrite El. cbn [bind]. rewrite N.eqb_refl. exact Hsh.
  - rewrite El. cbn [bind]. destruct (N.eqb (found w bs v) Error); [exact Hsh|].
    pose proof (utf8_seq_len _ _ Hseq) as Hlen.
    destruct (Nat.eqb_spec (length bs) 0); [lia|].
    rewrite Er, slice_from_app. cbn [bind].
    destruct (Transition_total s p (found w bs v) Hs) as (s' & En & Hs' & Et).
    rewrite Et. cbn [bind]. destruct (is_split _ _ _); [exact Hsh|].
    rewrite <- app_length. apply IH; auto.
    + rewrite E, Er, <- app_assoc. reflexivity.
    + rewrite app_length. lia.
    + rewrite Er, app_length in Hf. lia.
Qed.

Theorem scan_shape_with data atEOF : shape data atEOF (ScanGraphemeClusters_with tb data atEOF).
Proof.
  unfold ScanGraphemeClusters_with.
  destruct (is_empty data) eqn:He.
  { left. split; [reflexivity|]. left. apply is_empty_spec. exact He. }
  assert (data <> []) as Hne by (intros H0; apply is_empty_spec in H0; congruence).
  assert (1 <= length data) as Hl by (destruct data; simpl; [congruence|lia]).
  assert (Hsh : shape data atEOF (let! token := slice_to data 1 in Ret (1, Some token, None))).
  { rewrite slice_to_ok by lia. cbn [bind]. right. exists 1. auto. }
  destruct (cases_with data) as [[H0 _]|[[_ El]|[(_ & _ & _ & El)|(bs & v & rest & Hseq & Er & El)]]].
  - contradiction.
  - rewrite El. cbn [bind]. rewrite zero_not_Error. cbn [Nat.eqb].
    destruct (Nat.ltb_spec 0 (length data)); [|lia]. cbn [andb].
    destruct atEOF; [exact Hsh|]. left; auto.
  - rewrite El. cbn [bind]. rewrite N.eqb_refl. exact Hsh.
  - rewrite El. cbn [bind]. destruct (N.eqb (found w bs v) Error); [exact Hsh|].
    pose proof (utf8_seq_len _ _ Hseq) as Hlen.
    destruct (Nat.eqb_spec (length bs) 0); [lia|].
    assert (slice_from data (length bs) = Ret rest) as -> by (rewrite Er; apply slice_from_app).
    cbn [bind].
    destruct (Begin_total (found w bs v)) as (s & Eb & Hs).
    rewrite Eb. cbn [bind]. apply loop_shape_with; auto; lia.
Qed.

Corollary scan_progress_with data : data <> [] ->
  exists n, ScanGraphemeClusters_with tb data true = Ret (n, Some (firstn n data), None) /\ 1 <= n <= length data.
Proof.
  intros H. destruct (scan_shape_with data true) as [[_ [E|E]]|H']; [contradiction|discriminate|exact H'].
Qed.

Lemma loop_stable_with : forall fuel fuel' data remain pre s p n t ext atEOF,
  data = pre ++ remain -> In s states ->
  length remain < fuel -> length (remain ++ ext) < fuel' ->
  scan_loop_with tb fuel data false remain (length pre) s p = Ret (n, Some t, None) ->
  scan_loop_with tb fuel' (data ++ ext) atEOF (remain ++ ext) (length pre) s p = Ret (n, Some t, None).
Proof.
  induction fuel as [|fuel IH]; intros fuel' data remain pre s p n t ext atEOF E Hs Hf Hf' H; [lia|].
  destruct fuel' as [|fuel']; [lia|].
  cbn [scan_loop_with] in *.
  destruct (is_empty remain) eqn:Hre; [discriminate|].
  assert (remain <> []) as Hne by (intros H0; apply is_empty_spec in H0; congruence).
  assert (is_empty (remain ++ ext) = false) as ->.
  { destruct remain; [congruence|reflexivity]. }
  assert (Htok : slice_to data (length pre) = Ret pre) by (rewrite E; apply slice_to_app).
  assert (Htok' : slice_to (data ++ ext) (length pre) = Ret pre).
  { rewrite E, <- app_assoc. apply slice_to_app. }
  rewrite Htok in H. rewrite Htok'. cbn [bind] in *.
  destruct (cases_with remain) as [[H0 _]|[[_ El]|[(_ & _ & _ & El)|(bs & v & rest & Hseq & Er & El)]]].
  - contradiction.
  - rewrite El in H. cbn [bind] in H. rewrite zero_not_Error in H. discriminate.
  - rewrite (stable_with _ ext _ _ El) by lia. rewrite El in H. cbn [bind] in *.
    rewrite N.eqb_refl in *. exact H.
  - pose proof (utf8_seq_len _ _ Hseq) as Hlen.
    rewrite (stable_with _ ext _ _ El) by lia. rewrite El in H. cbn [bind] in *.
    destruct (N.eqb (found w bs v) Error); [exact H|].
    destruct (Nat.eqb_spec (length bs) 0); [lia|].
    rewrite Er in *. rewrite <- app_assoc in *. rewrite slice_from_app in *. cbn [bind] in *.
    destruct (Transition_total s p (found w bs v) Hs) as (s' & En & Hs' & Et).
    rewrite Et in *. cbn [bind] in *. destruct (is_split _ _ _); [exact H|].
    rewrite <- app_length in *. eapply IH; eauto.
    + rewrite E, <- app_assoc. reflexivity.
    + rewrite app_length in Hf. lia.
    + rewrite !app_length in Hf'. rewrite app_length. lia.
Qed.

Theorem scan_stable_with data n t ext atEOF :
  ScanGraphemeClusters_with tb data false = Ret (n, Some t, None) ->
  ScanGraphemeClusters_with tb (data ++ ext) atEOF = Ret (n, Some t, None).
Proof.
  unfold ScanGraphemeClusters_with. intros H.
  destruct (is_empty data) eqn:He; [discriminate|].
  assert (data <> []) as Hne by (intros H0; apply is_empty_spec in H0; congruence).
  assert (is_empty (data ++ ext) = false) as ->.
  { destruct data; [congruence|reflexivity]. }
  assert (Htok : slice_to (data ++ ext) 1 = slice_to data 1).
  { destruct data as [|b0 d0]; [congruence|]. cbn [app slice_to bind].
    destruct d0, ext; reflexivity. }
  rewrite Htok.
  destruct (cases_with data) as [[H0 _]|[[_ El]|[(_ & _ & _ & El)|(bs & v & rest & Hseq & Er & El)]]].
  - contradiction.
  - rewrite El in H. cbn [bind] in H. rewrite zero_not_Error in H. cbn [Nat.eqb] in H.
    rewrite andb_false_r in H. discriminate.
  - rewrite (stable_with _ ext _ _ El) by lia. rewrite El in H. cbn [bind] in *.
    rewrite N.eqb_refl in *. exact H.
  - pose proof (utf8_seq_len _ _ Hseq) as Hlen.
    rewrite (stable_with _ ext _ _ El) by lia. rewrite El in H. cbn [bind] in *.
    destruct (N.eqb (found w bs v) Error); [exact H|].
    destruct (Nat.eqb_spec (length bs) 0); [lia|].
    assert (slice_from data (length bs) = Ret rest) as E1 by (rewrite Er; apply slice_from_app).
    assert (slice_from (data ++ ext) (length bs) = Ret (rest ++ ext)) as E2.
    { rewrite Er, <- app_assoc. apply slice_from_app. }
    rewrite E1 in H. rewrite E2. cbn [bind] in *.
    destruct (Begin_total (found w bs v)) as (s & Eb & Hs).
    rewrite Eb in *. cbn [bind] in *.
    eapply loop_stable_with; eauto; lia.
Qed.

Lemma tokenises_with_total data : exists ts, tokenises_with tb data ts /\ concat ts = data /\ Forall (fun t => t <> []) ts.
Proof.
  remember (length data) as n eqn:En. revert data En.
  induction n as [n IH] using lt_wf_ind. intros data En.
  destruct data as [|b data]; [exists []; repeat split; constructor|].
  destruct (scan_progress_with (b :: data)) as (m & Es & Hm); [discriminate|].
  destruct (IH (length (skipn m (b :: data)))) with (data := skipn m (b :: data)) as (ts & Ht & Ec & Hne).
  { rewrite skipn_length. lia. }
  { reflexivity. }
  exists (firstn m (b :: data) :: ts). split; [econstructor; eauto|]. split.
  - cbn [concat]. rewrite Ec. apply firstn_skipn.
  - constructor; [|exact Hne]. destruct m; [lia|]. discriminate.
Qed.

End Tables.

Lemma tokenises_with_unique tb data ts ts' : tokenises_with tb data ts -> tokenises_with tb data ts' -> ts = ts'.
Proof.
  intros H. revert ts'. induction H as [|data n t ts Hscan Ht IH]; intros ts' H'.
  - inversion H' as [|? ? ? ? Hs' _]; subst; [reflexivity|]. discriminate.
  - inversion H' as [|? n' t' ts2 Hscan' Ht']; subst; [discriminate|].
    assert (n' = n /\ t' = t) as [-> ->] by (rewrite Hscan in Hscan'; injection Hscan'; auto).
    f_equal. auto.
Qed.

(* ---- the committed tables are a case of it *)

Lemma scan_loop_committed : forall fuel data atEOF remain count s p,
  scan_loop_with committed fuel data atEOF remain count s p = scan_loop fuel data atEOF remain count s p.
Proof.
  induction fuel as [|fuel IH]; intros; [reflexivity|]. cbn [scan_loop_with scan_loop].
  change (lookup_first_char committed remain) with (LookupFirstChar remain).
  destruct (is_empty remain); [reflexivity|].
  destruct (LookupFirstChar remain) as [[next n]|]; cbn [bind]; [|reflexivity].
  destruct (next =? Error)%N; [reflexivity|]. destruct (n =? 0); [reflexivity|].
  destruct (slice_from remain n); cbn [bind]; [|reflexivity].
  destruct (Transition s p next) as [[sp s']|]; cbn [bind]; [|reflexivity].
  destruct sp; [reflexivity|]. apply IH.
Qed.

Lemma scan_committed data atEOF : ScanGraphemeClusters_with committed data atEOF = ScanGraphemeClusters data atEOF.
Proof.
  unfold ScanGraphemeClusters_with, ScanGraphemeClusters.
  change (lookup_first_char committed data) with (LookupFirstChar data).
  destruct (is_empty data); [reflexivity|].
  destruct (LookupFirstChar data) as [[next n]|]; cbn [bind]; [|reflexivity].
  destruct (next =? Error)%N; [reflexivity|]. destruct (n =? 0); [reflexivity|].
  destruct (slice_from data n); cbn [bind]; [|reflexivity].
  destruct (Begin next); cbn [bind]; [|reflexivity]. apply scan_loop_committed.
Qed.

Lemma tokenises_committed data ts : tokenises_with committed data ts <-> tokenises data ts.
Proof.
  split; induction 1; econstructor; eauto; rewrite scan_committed in *; assumption.
Qed.

(* ---- segmentable classes *)

Definition all_classes : list cls :=
  flat_map (fun g => flat_map (fun e => map (Cls g e) [InCB_None; InCB_Consonant; InCB_Extend; InCB_Linker]) [false; true])
    [Other; CR; LF; Control; Extend; ZWJ; Regional_Indicator; Prepend; SpacingMark; L; V; T; LV; LVT].

Lemma in_all_classes k : In k all_classes.
Proof.
  assert (existsb (cls_eqb k) all_classes = true) as H by (destruct k as [[] [] []]; reflexivity).
  apply existsb_exists in H. destruct H as (x & Hx & E). destruct (cls_eqb_spec k x); congruence.
Qed.

Definition segmentableb (k : cls) : bool :=
  (negb (extpict k) || (b_is Other k && b_incb InCB_None k)) &&
  (negb (b_incb InCB_Consonant k) || b_in [Other; SpacingMark; L; V; T; LV; LVT] k) &&
  (negb (b_incb InCB_Extend k || b_incb InCB_Linker k) || b_in [Extend; ZWJ; SpacingMark] k).

Lemma segmentableb_iff k : segmentableb k = true <-> segmentable k.
Proof.
  unfold segmentableb, segmentable. rewrite !andb_true_iff, !orb_true_iff, !negb_true_iff, andb_true_iff.
  rewrite !b_in_iff, b_is_iff, b_incb_iff. unfold one_of, is. destruct k as [g e i]; cbn [gcb extpict incb].
  destruct e, i; cbn; intuition (try discriminate).
Qed.

Definition segmentable_classes : list cls := filter segmentableb all_classes.

Lemma in_segmentable k : segmentable k -> In k segmentable_classes.
Proof. intros H. apply filter_In. split; [apply in_all_classes|apply segmentableb_iff, H]. Qed.

Lemma segmentable_tame k : segmentable k -> tame k.
Proof. intros [H _] E. apply H, E. Qed.

Lemma segmentables_tame rl : Forall segmentable rl -> Forall tame rl.
Proof. intros H. eapply Forall_impl; [|exact H]. exact segmentable_tame. Qed.

Lemma segmentable_plain : segmentable plain.
Proof. apply segmentableb_iff. reflexivity. Qed.
Lemma segmentable_control : segmentable control.
Proof. apply segmentableb_iff. reflexivity. Qed.

Lemma enc_plain_Error k : (enc k =? Error)%N = false.
Proof. Transparent Error. destruct k as [[] [] []]; reflexivity. Opaque Error. Qed.

Definition steps_ok : bool :=
  forallb (fun s => forallb (fun p => forallb (fun x =>
    negb (fits s p) ||
    (Bool.eqb (is_split s (enc p) (enc x)) (spec_split p x (A9c s) (B11 s) (Cri s)) &&
     match nextState (if is_split s (enc p) (enc x) then 0%N else s) (enc x) with
     | Ret s' => summ_step s s' x
     | Panic _ => false
     end)) segmentable_classes) segmentable_classes) states.

Lemma steps_ok_true : steps_ok = true. Proof. vm_compute. reflexivity. Qed.

Lemma step_with s p x : fits s p = true -> segmentable p -> segmentable x ->
  is_split s (enc p) (enc x) = spec_split p x (A9c s) (B11 s) (Cri s) /\
  exists s', nextState (if is_split s (enc p) (enc x) then 0%N else s) (enc x) = Ret s' /\
    summ_step s s' x = true.
Proof.
  intros Hf Hp Hx. pose proof steps_ok_true as K. unfold steps_ok in K.
  rewrite forallb_forall in K. specialize (K s (fits_state s p Hf)).
  rewrite forallb_forall in K. specialize (K p (in_segmentable p Hp)).
  rewrite forallb_forall in K. specialize (K x (in_segmentable x Hx)).
  rewrite Hf in K. cbn [negb orb] in K. apply andb_true_iff in K. destruct K as [K1 K2].
  apply eqb_prop in K1. split; [exact K1|].
  destruct (nextState _ _) as [s'|]; [|discriminate]. exists s'. auto.
Qed.

Lemma join_with rl p x s r :
  summary (p :: rl) s -> Forall segmentable (p :: rl) -> segmentable x ->
  is_split s (enc p) (enc x) = false ->
  ~ boundary (rev (p :: rl)) (x :: r) /\
  exists s', nextState s (enc x) = Ret s' /\ summary (x :: p :: rl) s'.
Proof.
  intros HS HG Hx Hn. pose proof HS as (Hf & H1 & H2 & H3).
  assert (segmentable p) as Hp by (inversion HG; assumption).
  destruct (step_with s p x Hf Hp Hx) as [E (s' & En & Es)].
  split.
  - rewrite boundary_iff_tame by (apply segmentables_tame; assumption). rewrite H1, H2, H3. congruence.
  - rewrite Hn in En. exists s'. split; [exact En|]. eapply summary_step; eauto.
Qed.

Lemma split_with rl p x s r :
  summary (p :: rl) s -> Forall segmentable (p :: rl) -> segmentable x ->
  is_split s (enc p) (enc x) = true ->
  boundary (rev (p :: rl)) (x :: r) /\
  exists s', Begin (enc x) = Ret s' /\ summary (x :: p :: rl) s'.
Proof.
  intros HS HG Hx Hn. pose proof HS as (Hf & H1 & H2 & H3).
  assert (segmentable p) as Hp by (inversion HG; assumption).
  destruct (step_with s p x Hf Hp Hx) as [E (s' & En & Es)].
  split.
  - apply boundary_iff_tame; [apply segmentables_tame; assumption|]. rewrite H1, H2, H3. congruence.
  - rewrite Hn in En. exists s'. split; [exact En|]. eapply summary_step; eauto.
Qed.

Definition begin_ok : bool :=
  forallb (fun x =>
    is_split 0%N (enc control) (enc x) &&
    match nextState 0%N (enc x) with Ret s' => summ_step 0%N s' x | Panic _ => false end) segmentable_classes.

Lemma begin_ok_true : begin_ok = true. Proof. vm_compute. reflexivity. Qed.

Lemma begin_with x : segmentable x -> exists s, Begin (enc x) = Ret s /\ summary [x] s.
Proof.
  intros Hx. pose proof begin_ok_true as K. unfold begin_ok in K.
  rewrite forallb_forall in K. specialize (K x (in_segmentable x Hx)). unfold Begin, StateBase.
  apply andb_true_iff in K. destruct K as [_ K].
  destruct (nextState 0%N (enc x)) as [s'|]; [|discriminate]. exists s'. split; [reflexivity|].
  unfold summ_step in K. rewrite !andb_true_iff in K.
  destruct K as [[[Hf' E1] E2] E3]. apply N.eqb_eq in E1, E2. apply eqb_prop in E3.
  repeat split; auto.
Qed.

Lemma after_control_with x : segmentable x -> is_split 0%N (enc control) (enc x) = true.
Proof.
  intros Hx. pose proof begin_ok_true as K. unfold begin_ok in K.
  rewrite forallb_forall in K. specialize (K x (in_segmentable x Hx)). apply andb_true_iff in K. apply K.
Qed.

(* ---- tokens are the clusters *)

Section Classes.
Variable tb : tables.
Variable cl : N -> cls.
Hypothesis Htb : finds tb (fun c => enc (cl c)).

Let k := item_class_by cl.

Lemma found_class bs v : found (fun c => enc (cl c)) bs v = enc (k (Char bs v)).
Proof. unfold found, k, item_class_by. destruct (scalarb v && bytes_eqb bs (utf8_encode v)); reflexivity. Qed.

Lemma found_not_Error bs v : (found (fun c => enc (cl c)) bs v =? Error)%N = false.
Proof. rewrite found_class. apply enc_plain_Error. Qed.

Fixpoint chunk_by (s : State) (p : cls) (its : list item) : list item * list item :=
  match its with
  | (Char bs v as i) :: its' =>
      let x := k i in
      if is_split s (enc p) (enc x) then ([], its)
      else match nextState s (enc x) with
           | Ret s' => let '(c, r) := chunk_by s' x its' in (i :: c, r)
           | Panic _ => ([], its)
           end
  | _ => ([], its)
  end.

Lemma loop_items_with : forall its fuel data remain pre s p c r,
  reads remain its -> data = pre ++ remain -> In s states -> length remain < fuel ->
  chunk_by s p its = (c, r) ->
  scan_loop_with tb fuel data true remain (length pre) s (enc p) =
    Ret (length pre + length (items_bytes c), Some (pre ++ items_bytes c), None) /\
  its = c ++ r /\ reads (items_bytes r) r.
Proof.
  induction its as [|i its IH]; intros fuel data remain pre s p c r Hr E Hs Hf Hc;
    (destruct fuel as [|fuel]; [lia|]); cbn [scan_loop_with].
  - inversion Hr; subst. cbn [chunk_by] in Hc. injection Hc as <- <-. cbn [is_empty].
    rewrite slice_to_app. cbn [bind items_bytes flat_map length].
    rewrite Nat.add_0_r, app_nil_r. repeat split; constructor.
  - assert (Htok : slice_to data (length pre) = Ret pre) by (rewrite E; apply slice_to_app).
    inversion Hr as [|bs v rest its2 Hseq Hrest E1 E2|b rest its2 Hseq Hrest E1 E2]; subst.
    + pose proof (utf8_seq_len _ _ Hseq) as Hlen.
      assert (is_empty (bs ++ rest) = false) as -> by (destruct bs; [simpl in Hlen; lia|reflexivity]).
      rewrite (Htb bs v rest Hseq). cbn [bind]. rewrite found_not_Error, found_class.
      destruct (Nat.eqb_spec (length bs) 0); [lia|].
      rewrite slice_from_app. cbn [bind].
      destruct (Transition_total s (enc p) (enc (k (Char bs v))) Hs) as (s' & En & Hs' & Et).
      rewrite Et. cbn [bind]. cbn [chunk_by] in Hc. rewrite En in Hc.
      destruct (is_split _ _ _).
      * injection Hc as <- <-. rewrite Htok. simpl. rewrite Nat.add_0_r, app_nil_r.
        split; [reflexivity|]. split; [reflexivity|]. constructor; [exact Hseq|].
        fold (items_bytes its). rewrite (reads_bytes _ _ Hrest). exact Hrest.
      * destruct (chunk_by s' (k (Char bs v)) its) as [c' r'] eqn:Hc'.
        injection Hc as <- <-.
        destruct (IH fuel (pre ++ bs ++ rest) rest (pre ++ bs) s' (k (Char bs v)) c' r')
          as (E1 & E2 & E3); auto.
        { rewrite <- app_assoc. reflexivity. }
        { rewrite app_length in Hf. lia. }
        rewrite <- app_length, E1.
        split; [|split; [simpl; congruence|exact E3]].
        change (items_bytes (Char bs v :: c')) with (bs ++ items_bytes c').
        rewrite !app_length, <- app_assoc, Nat.add_assoc. reflexivity.
    + simpl in Hc. injection Hc as <- <-. cbn [is_empty].
      destruct (cases_with tb _ Htb (b :: rest)) as [[H0 _]|[[Ht El]|[(_ & _ & _ & El)|(bs & v & rest' & Hseq' & Er & El)]]].
      * discriminate.
      * rewrite El. cbn [bind]. rewrite zero_not_Error, Htok. simpl.
        rewrite Nat.add_0_r, app_nil_r. repeat split; auto.
        constructor; fold (items_bytes its); rewrite (reads_bytes _ _ Hrest); assumption.
      * rewrite El. cbn [bind]. rewrite N.eqb_refl, Htok. simpl.
        rewrite Nat.add_0_r, app_nil_r. repeat split; auto.
        constructor; fold (items_bytes its); rewrite (reads_bytes _ _ Hrest); assumption.
      * exfalso. apply Hseq. exists bs, v, rest'. auto.
Qed.

Lemma scan_char_with bs v rest its s c r :
  utf8_seq bs v -> reads rest its ->
  Begin (enc (k (Char bs v))) = Ret s ->
  chunk_by s (k (Char bs v)) its = (c, r) ->
  ScanGraphemeClusters_with tb (bs ++ rest) true =
    Ret (length (bs ++ items_bytes c), Some (bs ++ items_bytes c), None) /\
  its = c ++ r /\ reads (items_bytes r) r.
Proof.
  intros Hseq Hr Hb Hc. unfold ScanGraphemeClusters_with.
  pose proof (utf8_seq_len _ _ Hseq) as Hlen.
  assert (is_empty (bs ++ rest) = false) as -> by (destruct bs; [simpl in Hlen; lia|reflexivity]).
  rewrite (Htb bs v rest Hseq). cbn [bind]. rewrite found_not_Error, found_class.
  destruct (Nat.eqb_spec (length bs) 0); [lia|].
  rewrite slice_from_app. cbn [bind]. rewrite Hb. cbn [bind].
  destruct (Begin_total (enc (k (Char bs v)))) as (s' & Eb & Hs).
  assert (s' = s) by congruence. subst s'.
  destruct (loop_items_with its (S (length rest)) (bs ++ rest) rest bs s (k (Char bs v)) c r)
    as (E1 & E2 & E3); auto.
  rewrite E1, app_length. auto.
Qed.

Lemma scan_bad_with b rest :
  ~ starts_seq (b :: rest) ->
  ScanGraphemeClusters_with tb (b :: rest) true = Ret (1, Some [b], None).
Proof.
  intros Hs. unfold ScanGraphemeClusters_with. cbn [is_empty].
  destruct (cases_with tb _ Htb (b :: rest)) as [[H0 _]|[[Ht El]|[(_ & _ & _ & El)|(bs & v & rest' & Hseq' & Er & El)]]].
  - discriminate.
  - rewrite El. cbn [bind]. rewrite zero_not_Error. cbn [Nat.eqb].
    destruct (Nat.ltb_spec 0 (length (b :: rest))); [|simpl in *; lia]. simpl. destruct rest; reflexivity.
  - rewrite El. cbn [bind]. rewrite N.eqb_refl. simpl. destruct rest; reflexivity.
  - exfalso. apply Hs. exists bs, v, rest'. auto.
Qed.

Hypothesis Hcl : forall c, scalar c -> segmentable (cl c).

Lemma class_segmentable i : segmentable (k i).
Proof.
  destruct i as [bs v|b]; [|apply segmentable_control]. unfold k, item_class_by.
  destruct (scalarb v) eqn:E; cbn [andb]; [|apply segmentable_plain].
  destruct (bytes_eqb _ _); [|apply segmentable_plain]. apply Hcl.
  revert E. unfold scalarb, scalar. clear. lia.
Qed.

Definition ready_with (rl : list cls) (its : list item) : Prop :=
  match its with
  | Char bs v :: _ =>
      exists s, Begin (enc (k (Char bs v))) = Ret s /\ summary (k (Char bs v) :: rl) s
  | _ => True
  end.

Lemma chunk_with : forall its s p rl c r,
  summary (p :: rl) s -> Forall segmentable (p :: rl) ->
  chunk_by s p its = (c, r) ->
  (forall l m tl, c = l ++ m -> m <> [] -> ~ boundary (rev (p :: rl) ++ map k l) (map k m ++ tl)) /\
  (r <> [] -> boundary (rev (p :: rl) ++ map k c) (map k r)) /\
  ready_with (rev (map k c) ++ p :: rl) r.
Proof.
  induction its as [|i its IH]; intros s p rl c r HS Hrl Hc.
  - simpl in Hc. injection Hc as <- <-. split.
    { intros l m tl E Hm. destruct l, m; try discriminate. congruence. }
    split; [congruence|exact I].
  - pose proof (class_segmentable i) as Hi.
    destruct i as [bs v|b].
    + cbn [chunk_by] in Hc. set (x := k (Char bs v)) in *.
      destruct (is_split s (enc p) (enc x)) eqn:Hsp.
      * injection Hc as <- <-.
        destruct (split_with rl p x s (map k its) HS Hrl Hi Hsp) as (HB & s' & Eb & HS').
        split; [intros l m tl E Hm; destruct l, m; try discriminate; congruence|].
        split.
        { intros _. simpl map at 1. rewrite app_nil_r. exact HB. }
        simpl. exists s'. auto.
      * destruct (join_with rl p x s (map k its) HS Hrl Hi Hsp) as (_ & s' & En & HS').
        rewrite En in Hc. destruct (chunk_by s' x its) as [c' r'] eqn:Hc'. injection Hc as <- <-.
        destruct (IH s' x (p :: rl) c' r' HS' (Forall_cons _ Hi Hrl) Hc') as (H1 & H2 & H3).
        assert (Er : forall z, rev (x :: p :: rl) ++ z = rev (p :: rl) ++ x :: z).
        { intros z. simpl. rewrite <- !app_assoc. reflexivity. }
        split; [|split].
        -- intros l m tl E Hm. destruct l as [|j l]; simpl in E.
           ++ subst m. simpl map. rewrite app_nil_r. simpl app.
              apply (join_with rl p x s _ HS Hrl Hi Hsp).
           ++ injection E as <- E. simpl map. fold x. rewrite <- Er.
              apply H1; assumption.
        -- intros Hr. simpl map at 1. fold x. rewrite <- Er. auto.
        -- simpl map. fold x. simpl rev. rewrite <- app_assoc. exact H3.
    + simpl in Hc. injection Hc as <- <-.
      split; [intros l m tl E Hm; destruct l, m; try discriminate; congruence|].
      split; [|exact I].
      intros _. simpl map at 1. rewrite app_nil_r. apply boundary_control.
Qed.

Definition cuts_with (rl : list cls) (segs : list (list item)) : Prop :=
  forall l r, concat segs = l ++ r -> l <> [] -> r <> [] ->
    ((exists s1 s2, segs = s1 ++ s2 /\ concat s1 = l) <-> boundary (rev rl ++ map k l) (map k r)).

Lemma cuts_cons_with rl c segs :
  c <> [] -> Forall (fun s => s <> []) segs ->
  (forall l m tl, c = l ++ m -> l <> [] -> m <> [] -> ~ boundary (rev rl ++ map k l) (map k m ++ tl)) ->
  (concat segs <> [] -> boundary (rev rl ++ map k c) (map k (concat segs))) ->
  cuts_with (rev (map k c) ++ rl) segs ->
  cuts_with rl (c :: segs).
Proof.
  intros Hc Hsegs Hin Hend Hrest l r E Hl Hr. simpl in E.
  destruct (app_compare _ _ _ _ E) as [(m & -> & ->)|(m & -> & Em)].
  - destruct m as [|i m].
    + simpl in *. rewrite app_nil_r in *. split.
      * intros _. apply Hend. exact Hr.
      * intros _. exists [l], segs. simpl. rewrite app_nil_r. auto.
    + split.
      * intros (s1 & s2 & Es & El). exfalso. destruct s1 as [|x s1]; simpl in *; [congruence|].
        injection Es as <- Es. apply (f_equal (@length _)) in El.
        rewrite !app_length in El. simpl in El. lia.
      * intros HB. exfalso. rewrite map_app in HB.
        apply (Hin l (i :: m) (map k (concat segs)) eq_refl Hl); [discriminate|]. exact HB.
  - destruct m as [|i m].
    + rewrite app_nil_r in *. simpl in Em. subst r. split.
      * intros _. apply Hend. exact Hr.
      * intros _. exists [c], segs. simpl. rewrite app_nil_r. auto.
    + specialize (Hrest (i :: m) r Em ltac:(discriminate) Hr).
      rewrite rev_app_distr, rev_involutive, <- app_assoc, <- map_app in Hrest.
      rewrite <- Hrest. split.
      * intros (s1 & s2 & Es & El). destruct s1 as [|x s1]; simpl in *.
        { destruct c; [congruence|discriminate]. }
        injection Es as <- Es. apply app_inv_head in El. exists s1, s2. auto.
      * intros (s1 & s2 & -> & El). exists (c :: s1), s2. simpl. rewrite El. auto.
Qed.

Lemma tokenise_with : forall n its data rl,
  length its <= n -> reads data its -> Forall segmentable rl -> ready_with rl its ->
  exists segs, tokenises_with tb data (map items_bytes segs) /\ concat segs = its /\
    Forall (fun s => s <> []) segs /\ cuts_with rl segs.
Proof.
  induction n as [|n IH]; intros its data rl Hn Hr Hrl Hready.
  - destruct its; [|simpl in Hn; lia]. inversion Hr; subst.
    exists []. repeat split; try constructor.
    + intros _. destruct l; [congruence|discriminate].
    + intros _. destruct l; [congruence|discriminate].
  - inversion Hr as [E|bs v rest its' Hseq Hrest E1 E2|b rest its' Hs Hrest E1 E2]; subst.
    + exists []. repeat split; try constructor;
      intros _; destruct l; try congruence; discriminate.
    + simpl in Hready. destruct Hready as (s & Eb & HS).
      pose proof (class_segmentable (Char bs v)) as Gx. set (x := k (Char bs v)) in *.
      destruct (chunk_by s x its') as [c r] eqn:Hc.
      destruct (scan_char_with bs v rest its' s c r Hseq Hrest Eb Hc) as (Escan & -> & Hrr).
      destruct (chunk_with _ s x rl c r HS (Forall_cons _ Gx Hrl) Hc) as (H1 & H2 & H3).
      assert (Forall segmentable (rev (map k c) ++ x :: rl)) as Hrl'.
      { apply Forall_app. split; [|constructor; assumption]. apply Forall_rev.
        apply Forall_forall. intros y Hy. apply in_map_iff in Hy. destruct Hy as (i & <- & _).
        apply class_segmentable. }
      destruct (IH r (items_bytes r) (rev (map k c) ++ x :: rl)) as (segs & Ht & Ec & Hne & Hcut); auto.
      { simpl in Hn. rewrite app_length in Hn. lia. }
      exists ((Char bs v :: c) :: segs). split; [|split; [|split]].
      * simpl map. eapply tokenises_with_step.
        { change (items_bytes (Char bs v :: c)) with (bs ++ items_bytes c). exact Escan. }
        assert (bs ++ rest = (bs ++ items_bytes c) ++ items_bytes r) as ->.
        { rewrite <- app_assoc. f_equal. unfold items_bytes. rewrite <- flat_map_app.
          symmetry. apply (reads_bytes _ _ Hrest). }
        rewrite skipn_app_exact. exact Ht.
      * simpl. rewrite Ec. reflexivity.
      * constructor; [discriminate|assumption].
      * apply cuts_cons_with; auto.
        -- discriminate.
        -- intros l m tl E Hl Hm. destruct l as [|j l]; [congruence|]. simpl in E. injection E as <- E.
           simpl map. fold x.
           specialize (H1 l m tl E Hm). simpl rev in H1. rewrite <- app_assoc in H1. exact H1.
        -- rewrite Ec. intros Hne'. simpl map at 1. fold x.
           specialize (H2 Hne'). simpl rev in H2. rewrite <- app_assoc in H2. exact H2.
        -- simpl map. fold x. simpl rev. rewrite <- app_assoc. exact Hcut.
    + assert (ready_with (control :: rl) its') as Hready'.
      { destruct its' as [|[bs v|b'] its'']; try exact I.
        pose proof (class_segmentable (Char bs v)) as Gx.
        destruct (split_with rl control (k (Char bs v)) 0%N []
                    (control_summary rl) (Forall_cons _ segmentable_control Hrl) Gx
                    (after_control_with _ Gx)) as (_ & s' & Eb & HS').
        exists s'. auto. }
      destruct (IH its' rest (control :: rl)) as (segs & Ht & Ec & Hne & Hcut); auto.
      { simpl in Hn. lia. }
      { constructor; [apply segmentable_control|assumption]. }
      exists ([Bad b] :: segs). split; [|split; [|split]].
      * simpl map. eapply tokenises_with_step; [apply scan_bad_with; exact Hs|]. exact Ht.
      * simpl. rewrite Ec. reflexivity.
      * constructor; [discriminate|assumption].
      * apply cuts_cons_with; auto.
        -- discriminate.
        -- intros l m tl E Hl Hm. destruct l as [|j [|]], m as [|]; simpl in E; try discriminate; congruence.
        -- rewrite Ec. intros Hne'. simpl map at 1. change (k (Bad b)) with control.
           destruct its' as [|i its'']; [congruence|].
           pose proof (class_segmentable i) as Gx.
           apply (split_with rl control (k i) 0%N (map k its'')
                    (control_summary rl) (Forall_cons _ segmentable_control Hrl) Gx (after_control_with _ Gx)).
Qed.

Theorem clusters_with data :
  exists its segs, reads data its /\ clusters (item_class_by cl) its segs /\
    tokenises_with tb data (map items_bytes segs).
Proof.
  destruct (reads_total data) as [its Hits].
  assert (ready_with [] its) as Hready.
  { destruct its as [|[bs v|b] its']; try exact I. apply begin_with, class_segmentable. }
  destruct (tokenise_with (length its) its data [] (le_n _) Hits (Forall_nil _) Hready)
    as (segs & Ht & Ec & Hne & Hcut).
  exists its, segs. split; [exact Hits|]. split; [|exact Ht].
  constructor; auto. intros l r E Hnz. destruct l as [|i l].
  - simpl. split; [|intros _; exists [], segs; auto].
    intros _. destruct r; [subst; simpl in *; congruence|exact I].
  - destruct r as [|j r].
    + simpl. split; [auto|]. intros _. exists segs, []. rewrite app_nil_r in *. subst. auto.
    + apply (Hcut (i :: l) (j :: r)); [congruence|discriminate|discriminate].
Qed.

End Classes.

(* ---- where the machine cuts a text of complete sequences, by the classes only *)

Fixpoint marks (s : State) (p : cls) (ks : list cls) : list bool :=
  match ks with
  | [] => []
  | x :: ks' =>
      if is_split s (enc p) (enc x)
      then true :: match Begin (enc x) with Ret s' => marks s' x ks' | Panic _ => [] end
      else false :: match nextState s (enc x) with Ret s' => marks s' x ks' | Panic _ => [] end
  end.

Definition sequence (i : item) : Prop := exists bs v, i = Char bs v /\ utf8_seq bs v.

Lemma chunk_marks cl : forall its s p c r, In s states -> Forall sequence its ->
  chunk_by cl s p its = (c, r) ->
  marks s p (map (item_class_by cl) its) =
  repeat false (length c) ++
  match r with
  | [] => []
  | i :: r' => true :: match Begin (enc (item_class_by cl i)) with
                       | Ret s' => marks s' (item_class_by cl i) (map (item_class_by cl) r')
                       | Panic _ => [] end
  end.
Proof.
  induction its as [|i its IH]; intros s p c r Hs Hq Hc.
  - cbn in Hc. injection Hc as <- <-. reflexivity.
  - inversion Hq as [|? ? (bs & v & -> & _) Hq']; subst. cbn [chunk_by map marks] in *.
    destruct (is_split s (enc p) (enc (item_class_by cl (Char bs v)))) eqn:Hsp.
    + injection Hc as <- <-. reflexivity.
    + destruct (nextState_total s (enc (item_class_by cl (Char bs v))) Hs) as (s' & En & Hs').
      rewrite En in *. destruct (chunk_by cl s' _ its) as [c' r'] eqn:Hc'. injection Hc as <- <-.
      cbn [length repeat app]. f_equal. apply IH; assumption.
Qed.

Lemma nonempty_bytes i : sequence i -> item_bytes i <> [].
Proof. intros (bs & v & -> & H). destruct H; discriminate. Qed.

Lemma bytes_pos its : Forall sequence its -> its <> [] -> 0 < length (items_bytes its).
Proof.
  intros H Hn. destruct H as [|i its H Ht]; [congruence|]. cbn [items_bytes flat_map].
  rewrite app_length. apply nonempty_bytes in H. destruct (item_bytes i); [congruence|]. simpl. lia.
Qed.

Lemma items_app a b : items_bytes (a ++ b) = items_bytes a ++ items_bytes b.
Proof. apply flat_map_app. Qed.

Lemma marks_cut tb cl : finds tb (fun c => enc (cl c)) ->
  forall n its i0 s ts, length its <= n -> Forall sequence (i0 :: its) ->
  reads (items_bytes (i0 :: its)) (i0 :: its) ->
  Begin (enc (item_class_by cl i0)) = Ret s ->
  tokenises_with tb (items_bytes (i0 :: its)) ts ->
  forall l r, i0 :: its = l ++ r -> l <> [] -> r <> [] ->
    (cut ts (items_bytes l) <->
     nth (length l - 1) (marks s (item_class_by cl i0) (map (item_class_by cl) its)) false = true).
Proof.
  intros Htb. induction n as [n IH] using lt_wf_ind. intros its i0 s ts Hn Hq Hr Eb Ht l r E Hl Hrne.
  inversion Hq as [|? ? (bs & v & -> & Hseq) Hq']; subst.
  assert (reads (items_bytes its) its) as Hr'.
  { inversion Hr as [|bs' v' rest its2 Hs2 Hrest E1 E2|]; subst.
    rewrite (reads_bytes _ _ Hrest). exact Hrest. }
  destruct (chunk_by cl s (item_class_by cl (Char bs v)) its) as [c r0] eqn:Hc.
  destruct (scan_char_with tb cl Htb bs v (items_bytes its) its s c r0 Hseq Hr' Eb Hc) as (Es & Eits & Hr0).
  change (items_bytes (Char bs v :: its)) with (bs ++ items_bytes its) in Ht.
  inversion Ht as [E0|data n1 t ts' Es' Ht' E1]; subst.
  { exfalso. destruct Hseq; discriminate. }
  rewrite Es in Es'.
  assert (n1 = length (bs ++ items_bytes c)) as -> by congruence.
  assert (t = bs ++ items_bytes c) as -> by congruence. clear Es'.
  destruct (Begin_total (enc (item_class_by cl (Char bs v)))) as (s0 & Eb0 & Hs0).
  assert (s0 = s) as -> by congruence.
  rewrite (chunk_marks cl _ s (item_class_by cl (Char bs v)) c r0 Hs0 Hq' Hc).
  change (bs ++ items_bytes c) with (items_bytes (Char bs v :: c)) in *.
  change (Char bs v :: c ++ r0) with ((Char bs v :: c) ++ r0) in E, Hq.
  set (first := Char bs v :: c) in *.
  assert (length first = S (length c)) as Hfirst by reflexivity.
  apply Forall_app in Hq. destruct Hq as [Hqf Hqr].
  assert (skipn (length (items_bytes first)) (bs ++ items_bytes (c ++ r0)) = items_bytes r0) as Esk.
  { rewrite items_app, app_assoc. change (bs ++ items_bytes c) with (items_bytes first). apply skipn_app_exact. }
  rewrite Esk in Ht'.
  destruct (app_compare _ _ _ _ E) as [(m & Ef & ->)|(m & -> & Er)].
  - destruct m as [|j m].
    + (* exactly the first token *)
      rewrite app_nil_r in Ef. subst l. cbn [app] in *.
      destruct r0 as [|i1 r1]; [congruence|].
      rewrite Hfirst. replace (S (length c) - 1) with (length c) by lia.
      rewrite app_nth2 by (rewrite repeat_length; lia). rewrite repeat_length, Nat.sub_diag. cbn [nth].
      split; [reflexivity|]. intros _. exists [items_bytes first], ts'. split; [reflexivity|].
      cbn [concat]. apply app_nil_r.
    + (* inside it *)
      assert (length l <= length c) as Hlen.
      { pose proof (f_equal (@length _) Ef) as El. rewrite app_length, Hfirst in El. simpl in El. lia. }
      assert (0 < length l) as Hl0 by (destruct l; [congruence|simpl; lia]).
      rewrite app_nth1 by (rewrite repeat_length; lia).
      split.
      2:{ intros K. exfalso. assert (nth (length l - 1) (repeat false (length c)) false = false) as K'.
          { clear. generalize (length l - 1) (length c). intros a b. revert a.
            induction b as [|b IHb]; intros [|a]; cbn; auto. }
          congruence. }
      intros (a & b & Ets & Ec). exfalso.
      rewrite Ef in Hqf. apply Forall_app in Hqf. destruct Hqf as [Hql Hqm].
      destruct a as [|t0 a]; cbn [app] in Ets.
      * cbn [concat] in Ec. pose proof (bytes_pos l Hql Hl) as Hp. rewrite <- Ec in Hp. simpl in Hp. lia.
      * assert (t0 = items_bytes first) as -> by congruence. cbn [concat] in Ec. apply (f_equal (@length _)) in Ec.
        rewrite Ef, items_app, !app_length in Ec.
        pose proof (bytes_pos (j :: m) Hqm) as Hp. specialize (Hp ltac:(discriminate)). lia.
  - destruct m as [|i1 m].
    + rewrite app_nil_r in *. cbn [app] in Er. subst r.
      destruct r0 as [|i1 r1]; [congruence|].
      rewrite Hfirst. replace (S (length c) - 1) with (length c) by lia.
      rewrite app_nth2 by (rewrite repeat_length; lia). rewrite repeat_length, Nat.sub_diag. cbn [nth].
      split; [reflexivity|]. intros _. exists [items_bytes first], ts'. split; [reflexivity|].
      cbn [concat]. apply app_nil_r.
    + (* after it *)
      destruct r0 as [|i1' r1]; [discriminate|]. cbn [app] in Er.
      assert (i1' = i1) by congruence. subst i1'.
      destruct (Begin_total (enc (item_class_by cl i1))) as (s1 & Eb1 & Hs1).
      rewrite Eb1.
      rewrite app_nth2 by (rewrite repeat_length, app_length, Hfirst; simpl; lia).
      rewrite repeat_length, app_length, Hfirst.
      replace (S (length c) + length (i1 :: m) - 1 - length c) with (S (length (i1 :: m) - 1)) by (simpl; lia).
      cbn [nth].
      assert (length r1 < n) as Hlt.
      { rewrite app_length in Hn. simpl in Hn. lia. }
      rewrite <- (IH (length r1) Hlt r1 i1 s1 ts' (le_n _) Hqr Hr0 Eb1 Ht' (i1 :: m) r);
        [|cbn [app]; exact Er|discriminate|exact Hrne].
      split.
      * intros (a & b & Ets & Ec). rewrite items_app in Ec. destruct a as [|t0 a]; cbn [app] in Ets.
        { exfalso. cbn [concat] in Ec. pose proof (bytes_pos first Hqf ltac:(discriminate)) as Hp.
          symmetry in Ec. apply app_eq_nil in Ec. destruct Ec as [Ec _]. rewrite Ec in Hp. simpl in Hp. lia. }
        assert (t0 = items_bytes first) as -> by congruence. cbn [concat] in Ec. apply app_inv_head in Ec.
        exists a, b. split; [congruence|exact Ec].
      * intros (a & b & -> & Ec). exists (items_bytes first :: a), b. split; [reflexivity|].
        cbn [concat]. rewrite items_app, Ec. reflexivity.
Qed.

(* ---- where the rules cut it *)

Fixpoint rule_marks (rl : list cls) (p : cls) (ks : list cls) : list bool :=
  match ks with
  | [] => []
  | x :: ks' => spec_split p x (g9c (p :: rl)) (g11 (p :: rl)) (ri (p :: rl)) :: rule_marks (p :: rl) x ks'
  end.

Lemma rule_marks_boundary : forall a rl p x b, Forall tame (a ++ p :: rl) ->
  (nth (length a) (rule_marks rl p (a ++ x :: b)) false = true <->
   boundary (rev rl ++ p :: a) (x :: b)).
Proof.
  induction a as [|y a IH]; intros rl p x b HT.
  - cbn [length app rule_marks nth]. symmetry. apply (boundary_iff_tame rl p x b). exact HT.
  - cbn [length app rule_marks nth]. rewrite IH.
    + cbn [rev]. rewrite <- app_assoc. reflexivity.
    + cbn [app] in HT. inversion HT as [|? ? Hy HT']; subst. apply Forall_app in HT'. destruct HT' as [H1 H2].
      apply Forall_app. split; [assumption|]. constructor; assumption.
Qed.

(* ---- every class that is not segmentable is cut wrongly somewhere *)

Definition con : cls := Cls Other false InCB_Consonant.
Definition lnk : cls := Cls Extend false InCB_Linker.
Definition ext : cls := Cls Extend false InCB_Extend.
Definition pic : cls := Cls Other true InCB_None.
Definition zwj : cls := Cls ZWJ false InCB_Extend.
Definition reg : cls := Cls Regional_Indicator false InCB_None.

Definition templates (k : cls) : list (list cls) :=
  [[k; lnk; con]; [con; k; ext; con]; [con; k; lnk; con]; [pic; k; zwj; pic]; [pic; k; pic]; [k; k]; [k; reg; reg]].

Definition differs (ks : list cls) : bool :=
  match ks with
  | [] => false
  | p :: ks' =>
      match Begin (enc p) with
      | Ret s => if list_eq_dec bool_dec (marks s p ks') (rule_marks [] p ks') then false else true
      | Panic _ => false
      end
  end.

Definition tameb (k : cls) : bool := negb (extpict k) || b_is Other k.

Definition wrong_somewhere : bool :=
  forallb (fun k => negb (tameb k) || segmentableb k || existsb differs (templates k)) all_classes.
Lemma wrong_somewhere_true : wrong_somewhere = true. Proof. vm_compute. reflexivity. Qed.

Lemma wrong_template k : tame k -> ~ segmentable k -> exists ks, In ks (templates k) /\ differs ks = true.
Proof.
  intros HT HN. pose proof wrong_somewhere_true as K. unfold wrong_somewhere in K.
  rewrite forallb_forall in K. specialize (K k (in_all_classes k)). cbv beta in K.
  rewrite !orb_true_iff in K. destruct K as [[K|K]|K].
  - exfalso. apply negb_true_iff in K. unfold tameb in K. apply orb_false_iff in K. destruct K as [K1 K2].
    apply negb_false_iff in K1. apply HT, b_is_iff in K1. congruence.
  - apply segmentableb_iff in K. contradiction.
  - apply existsb_exists in K. exact K.
Qed.

Lemma differ_nth : forall (a b : list bool), length a = length b -> a <> b ->
  exists i, i < length a /\ nth i a false <> nth i b false.
Proof.
  induction a as [|x a IH]; intros [|y b] E H; try discriminate; [congruence|].
  destruct (bool_dec x y) as [->|Hxy].
  - destruct (IH b) as (i & Hi & K); [simpl in E; lia|congruence|]. exists (S i). simpl. split; [lia|exact K].
  - exists 0. simpl. split; [lia|exact Hxy].
Qed.

Lemma marks_length : forall ks s p, In s states -> length (marks s p ks) = length ks.
Proof.
  induction ks as [|x ks IH]; intros s p Hs; [reflexivity|]. cbn [marks].
  destruct (Begin_total (enc x)) as (s1 & E1 & H1). destruct (nextState_total s (enc x) Hs) as (s2 & E2 & H2).
  rewrite E1, E2. destruct (is_split _ _ _); cbn [length]; rewrite IH by assumption; reflexivity.
Qed.

Lemma rule_marks_length : forall ks rl p, length (rule_marks rl p ks) = length ks.
Proof. induction ks as [|x ks IH]; intros rl p; [reflexivity|]. cbn [rule_marks length]. rewrite IH. reflexivity. Qed.
