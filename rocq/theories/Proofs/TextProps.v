(* Positions in arbitrary bytes, locality of tokenisation, ASCII. *)
From Coq Require Import List NArith Arith Bool Lia Strings.Byte.
From Coq Require Import ZArith ZifyBool ZifyNat ZifyN.
From Verif Require Import Spec.Classes Spec.Utf8 Spec.UAX29 Spec.UcdRanges Spec.Segmentation.
From Verif Require Import Model.Base Model.CharProps Model.Lookup Model.Machine Model.Scan.
From Verif Require Import Proofs.Basics Proofs.TableCheck Proofs.LookupFacts Proofs.MachineFacts
  Proofs.ScanFacts Proofs.TextFacts.
Import ListNotations.

Local Opaque committed fast_class ok1 leads conts LookupFirstChar.

(* ---- synchronisation at bytes that are no continuation *)

Lemma reads_at_sync p r its : synced r -> reads (p ++ r) its ->
  exists i1 i2, reads p i1 /\ reads r i2 /\ its = i1 ++ i2.
Proof.
  intros Hs Hr. destruct (reads_total p) as [i1 H1], (reads_total r) as [i2 H2].
  exists i1, i2. split; [exact H1|]. split; [exact H2|].
  eapply reads_unique; [exact Hr|]. apply reads_app; assumption.
Qed.

(* a byte that can neither start nor continue a sequence *)
Lemma bad_byte_reads p b q : (0xF8 <= bval b)%N ->
  exists i1 i2, reads p i1 /\ reads (p ++ b :: q) (i1 ++ Bad b :: i2).
Proof.
  intros Hb. destruct (reads_total p) as [i1 H1], (reads_total q) as [i2 H2].
  exists i1, i2. split; [exact H1|]. apply reads_app; auto.
  - constructor; [|exact H2]. intros (bs & v & rest & Hs & E).
    destruct (utf8_seq_first _ _ Hs) as (a & tl & -> & Hl). simpl in E. injection E as <- _.
    rewrite seq_length_ok in Hl. unfold seq_length_spec in Hl.
    repeat match type of Hl with context [(?x <? ?y)%N] => replace (x <? y)%N with false in Hl by lia end.
    discriminate.
  - simpl. unfold is_cont. lia.
Qed.

Theorem bad_is_token data toks i1 b i2 :
  tokenises data toks -> reads data (i1 ++ Bad b :: i2) -> piece_at toks (items_bytes i1) [b].
Proof.
  intros Ht Hr. apply (lone_control data toks i1 (Bad b) i2 Ht Hr); auto.
  - intros j j1 _ [_ H]. discriminate.
  - intros j j2 _ [H _]. discriminate.
Qed.

(* segments are single bad bytes or consist of characters only *)
Definition is_char (i : item) : Prop := match i with Char _ _ => True | Bad _ => False end.

Lemma classic_bad (s : list item) : Forall is_char s \/ exists y b z, s = y ++ Bad b :: z.
Proof.
  induction s as [|[bs v|b] s IH]; [left; constructor| |].
  - destruct IH as [IH|(y & b & z & ->)].
    + left. constructor; [exact I|exact IH].
    + right. exists (Char bs v :: y), b, z. reflexivity.
  - right. exists [], b, s. reflexivity.
Qed.

Theorem segments_pure its segs :
  clusters item_class its segs -> Forall good (map item_class its) ->
  Forall (fun s => (s <> [] /\ Forall is_char s) \/ exists b, s = [Bad b]) segs.
Proof.
  intros [C1 C2 C3] G. rewrite Forall_forall. intros s Hs.
  apply in_split in Hs. destruct Hs as (s1 & s2 & Es).
  assert (s <> []) as Hne.
  { rewrite Forall_forall in C2. apply C2. rewrite Es. apply in_or_app. right; left; reflexivity. }
  assert (its = concat s1 ++ s ++ concat s2) as Ei.
  { rewrite <- C1, Es, concat_app. reflexivity. }
  assert (Hnn : its <> []).
  { rewrite Ei. destruct (concat s1), s; try discriminate. congruence. }
  (* no cut strictly inside s *)
  assert (Hin : forall y z, s = y ++ z -> y <> [] -> z <> [] ->
                 ~ boundary (map item_class (concat s1 ++ y)) (map item_class (z ++ concat s2))).
  { intros y z E Hy Hz HB. apply (C3 (concat s1 ++ y) (z ++ concat s2)) in HB; auto.
    2:{ rewrite Ei, E, <- !app_assoc. reflexivity. }
    destruct HB as (u1 & u2 & Eu & El). rewrite Es in Eu.
    destruct (app_compare _ _ _ _ Eu) as [(m & Em & _)|(m & Em & Em2)].
    - subst s1. rewrite concat_app, <- app_assoc in El.
      rewrite <- (app_nil_r (concat u1)) in El at 1. apply app_inv_head in El.
      destruct (concat m); simpl in El; [subst y; congruence|discriminate].
    - subst u1. rewrite concat_app in El. apply app_inv_head in El.
      destruct m as [|x m]; [simpl in El; subst; congruence|].
      simpl in Em2. injection Em2 as <- _. simpl in El. rewrite E, <- app_assoc in El.
      rewrite <- (app_nil_r y) in El at 2. apply app_inv_head in El.
      destruct z; [congruence|discriminate]. }
  destruct (classic_bad s) as [HF|(y & b & z & E)]; [left; auto|].
  right. exists b. subst s.
  assert (y = []) as ->.
  { destruct (exists_last_or y) as [|(y0 & j & ->)]; [assumption|]. exfalso.
    apply (Hin (y0 ++ [j]) (Bad b :: z)); [rewrite <- app_assoc; reflexivity|destruct y0; discriminate|discriminate|].
    rewrite app_assoc, map_app. simpl map. apply boundary_pos.
    - rewrite Ei, !map_app in G. rewrite map_app. rewrite Forall_forall in *. intros x Hx. apply G.
      simpl in *. rewrite !in_app_iff in *. simpl in *. tauto.
    - apply split_ctl_right; [reflexivity|]. intros [_ H]. discriminate. }
  assert (z = []) as ->.
  { destruct z as [|j z]; [reflexivity|]. exfalso.
    apply (Hin [Bad b] (j :: z)); [reflexivity|discriminate|discriminate|].
    rewrite map_app. simpl map. apply boundary_pos.
    - rewrite Ei in G. simpl in G. rewrite map_app in G. simpl in G.
      apply Forall_app in G. destruct G as [G1 G2]. inversion G2; subst.
      apply Forall_app; auto.
    - apply split_ctl_left; [reflexivity|]. intros [H _]. discriminate. }
  reflexivity.
Qed.

(* ---- tokens re-scanned alone *)

Lemma chunk_alone : forall its s p c r, chunk s p its = (c, r) -> chunk s p c = (c, []).
Proof.
  induction its as [|i its IH]; intros s p c r H.
  - simpl in H. injection H as <- <-. reflexivity.
  - destruct i as [bs v|b]; cbn [chunk] in H.
    + destruct (is_split _ _ _) eqn:Es; [injection H as <- <-; reflexivity|].
      destruct (nextState _ _) as [s'|] eqn:En; [|injection H as <- <-; reflexivity].
      destruct (chunk s' _ its) as [c' r'] eqn:Hc. injection H as <- <-.
      cbn [chunk]. rewrite Es, En, (IH _ _ _ _ Hc). reflexivity.
    + injection H as <- <-. reflexivity.
Qed.

Lemma scan_read data n t : ScanGraphemeClusters data true = Ret (n, Some t, None) ->
  (exists b rest, data = b :: rest /\ t = [b] /\ n = 1 /\ ~ starts_seq data) \/
  (exists bs v its s c r, utf8_seq bs v /\ reads data (Char bs v :: its) /\
     Begin (enc (item_class (Char bs v))) = Ret s /\
     chunk s (item_class (Char bs v)) its = (c, r) /\
     t = items_bytes (Char bs v :: c) /\ n = length t /\ its = c ++ r /\
     data = t ++ items_bytes r /\ reads (items_bytes r) r).
Proof.
  intros H. destruct (reads_total data) as [its Hr]. inversion Hr; subst.
  - discriminate.
  - right. rename H0 into Hs. rename H1 into Hrest.
    destruct (Begin_total (enc (item_class (Char bs v)))) as (s & Eb & _).
    destruct (chunk s (item_class (Char bs v)) its0) as [c r] eqn:Hc.
    destruct (scan_items_char bs v rest its0 s c r Hs Hrest Eb Hc) as (E & Ei & Hr2).
    rewrite E in H. injection H as <- <-.
    exists bs, v, its0, s, c, r. repeat split; auto.
    change (items_bytes (Char bs v :: c)) with (bs ++ items_bytes c).
    rewrite <- app_assoc. f_equal. rewrite <- items_bytes_app, <- Ei.
    symmetry. apply (reads_bytes _ _ Hrest).
  - left. exists b, rest. rewrite (scan_items_bad b rest H0) in H. injection H as <- <-. auto.
Qed.

Theorem scan_alone data n t :
  ScanGraphemeClusters data true = Ret (n, Some t, None) ->
  ScanGraphemeClusters t true = Ret (length t, Some t, None).
Proof.
  intros H. destruct (scan_read data n t H)
    as [(b & rest & -> & -> & -> & Hs)|(bs & v & its & s & c & r & Hs & Hr & Eb & Hc & -> & _ & Ei & _ & _)].
  - apply scan_items_bad. intros K. apply Hs. apply (starts_seq_prefix [b] rest K).
  - change (items_bytes (Char bs v :: c)) with (bs ++ items_bytes c).
    destruct (reads_split_l _ _ Hr (Char bs v :: c) r) as [Hc' _]; [rewrite Ei; reflexivity|].
    assert (reads (items_bytes c) c) as Hcc.
    { destruct (reads_split_l _ _ Hc' [Char bs v] c eq_refl) as [_ K]. exact K. }
    destruct (scan_items_char bs v (items_bytes c) c s c [] Hs Hcc Eb (chunk_alone _ _ _ _ _ Hc))
      as (E & _ & _).
    exact E.
Qed.

(* ---- after a control everything starts afresh *)

Lemma last_cons_default {A} (l : list A) : forall x p, last (x :: l) p = last l x.
Proof.
  induction l as [|y l IH]; intros x p; [reflexivity|].
  change (last (x :: y :: l) p) with (last (y :: l) p). rewrite IH. symmetry. apply IH.
Qed.

Lemma chunk_control : forall i1 s p c r i2,
  fits s p = true -> good p -> Forall (fun i => good (cl i)) (i1 ++ i2) ->
  b_in [Control; LF] (last (map cl i1) p) = true ->
  chunk s p i1 = (c, r) -> chunk s p (i1 ++ i2) = (c, r ++ i2).
Proof.
  induction i1 as [|i i1 IH]; intros s p c r i2 Hf Gp G Hl Hc.
  - cbn [chunk map last app] in *. injection Hc as <- <-.
    destruct i2 as [|[bs v|b] i2]; [reflexivity| |reflexivity].
    inversion G as [|? ? Gx _]; subst. cbn [chunk].
    destruct (step_facts s p (item_class (Char bs v)) Hf Gp Gx) as [E _].
    rewrite E, split_ctl_left; [reflexivity| |].
    + apply b_in_iff in Hl. apply ctl_spec. unfold one_of in Hl. simpl in Hl. intuition congruence.
    + apply b_in_iff in Hl. unfold one_of in Hl. simpl in Hl. intuition congruence.
  - inversion G as [|? ? Gx G']; subst. destruct i as [bs v|b].
    + simpl app. cbn [chunk] in *.
      destruct (step_facts s p (item_class (Char bs v)) Hf Gp Gx) as [_ (s' & En & Hs')].
      destruct (is_split _ _ _) eqn:Es.
      * injection Hc as <- <-. reflexivity.
      * rewrite En in *. destruct (chunk s' (item_class (Char bs v)) i1) as [c' r'] eqn:Hc'.
        injection Hc as <- <-. rewrite (IH s' (item_class (Char bs v)) c' r' i2); auto.
        -- unfold summ_step in Hs'. apply andb_true_iff in Hs'. destruct Hs' as [Hs' _].
           apply andb_true_iff in Hs'. destruct Hs' as [Hs' _].
           apply andb_true_iff in Hs'. apply Hs'.
        -- cbn [map] in Hl. rewrite last_cons_default in Hl. exact Hl.
    + simpl in *. injection Hc as <- <-. reflexivity.
Qed.

Definition resets (i : item) : Prop := gcb (item_class i) = LF \/ gcb (item_class i) = Control.

Lemma last_map_cl its i p : last (map cl (its ++ [i])) p = cl i.
Proof. rewrite map_app. simpl. apply last_last. Qed.

Theorem tokens_after_control : forall n a i1 b i2 t1 t2,
  length i1 <= n ->
  reads (a ++ b) (i1 ++ i2) -> items_bytes i1 = a -> reads b i2 ->
  (i1 = [] \/ exists j i, i1 = j ++ [i] /\ resets i) ->
  tokenises a t1 -> tokenises b t2 -> tokenises (a ++ b) (t1 ++ t2).
Proof.
  induction n as [|n IH]; intros a i1 b i2 t1 t2 Hn Hr Ea Hb Hc Ht1 Ht2.
  - destruct i1; [|simpl in Hn; lia]. simpl in Ea. subst a. simpl in *.
    inversion Ht1; subst; [exact Ht2|]. discriminate.
  - pose proof (reads_split_l _ _ Hr i1 i2 eq_refl) as [Hra _]. rewrite Ea in Hra.
    inversion Ht1 as [E|? k t toks Hscan Hrest]; subst.
    { match goal with H : _ = items_bytes i1 |- _ => rewrite <- H in * end.
      rewrite (reads_unique _ _ _ Hra reads_nil) in *. exact Ht2. }
    simpl. rename Hrest into Hrest0.
    assert (Hstep : ScanGraphemeClusters (items_bytes i1 ++ b) true = Ret (k, Some t, None) /\
              exists j1 j2, i1 = j1 ++ j2 /\ j1 <> [] /\ items_bytes j1 = t /\ k = length t).
    { inversion Hra as [E0|bs v rest its Hs Hrs E1 E2|b0 rest its Hs Hrs E1 E2]; subst i1.
      - rewrite <- E0 in Hscan. discriminate.
      - destruct (Begin_total (enc (item_class (Char bs v)))) as (s & Eb & _).
        destruct (chunk s (item_class (Char bs v)) its) as [c r] eqn:Hch.
        destruct (scan_items_char bs v rest its s c r Hs Hrs Eb Hch) as (E & Ei & Hr2).
        rewrite <- E1, E in Hscan. injection Hscan as <- <-.
        simpl app in Hr. pose proof (good_items _ _ Hr) as G.
        pose proof (reads_good _ _ Hr) as G2. inversion G2 as [|? ? Gx G2']; subst.
        assert (Hch2 : chunk s (item_class (Char bs v)) ((c ++ r) ++ i2) = (c, r ++ i2)).
        { apply chunk_control; auto.
          - destruct (begin_summary _ Gx) as (s' & Eb' & HS). assert (s' = s) as -> by congruence.
            apply HS.
          - destruct Hc as [|(j & i & Ej & Hi)]; [discriminate|].
            assert (last (map cl (c ++ r)) (item_class (Char bs v)) = cl i) as ->.
            { change (item_class (Char bs v)) with (cl (Char bs v)).
              destruct j as [|j0 j]; simpl in Ej; [injection Ej as <- ->; reflexivity|].
              injection Ej as <- ->. apply last_map_cl. }
            apply b_in_iff. unfold one_of, cl. destruct Hi as [->| ->]; simpl; auto. }
        assert (Hrest2 : reads (rest ++ b) ((c ++ r) ++ i2)).
        { destruct (reads_split_l _ _ Hr [Char bs v] ((c ++ r) ++ i2) eq_refl) as [_ K].
          rewrite items_bytes_app, (reads_bytes _ _ Hrs), (reads_bytes _ _ Hb) in K. exact K. }
        destruct (scan_items_char bs v (rest ++ b) _ s c (r ++ i2) Hs Hrest2 Eb Hch2) as (E' & _ & _).
        split.
        + rewrite <- app_assoc. exact E'.
        + exists (Char bs v :: c), r. repeat split; auto. discriminate.
      - rewrite <- E1 in Hscan. rewrite (scan_items_bad b0 rest Hs) in Hscan. injection Hscan as <- <-.
        split.
        + rewrite <- E1 in Hr. simpl app in Hr |- *.
          apply scan_items_bad. inversion Hr; assumption.
        + exists [Bad b0], its. repeat split; auto. discriminate. }
    destruct Hstep as (Hscan' & j1 & j2 & -> & Hj1 & Ej & ->).
    eapply tokenises_step; [exact Hscan'|].
    rewrite items_bytes_app, Ej in *. rewrite <- app_assoc, skipn_app_exact.
    rewrite skipn_app_exact in Hrest0.
    apply (IH (items_bytes j2) j2 b i2); auto.
    + rewrite app_length in Hn. destruct j1; [congruence|]. simpl in Hn. lia.
    + rewrite <- app_assoc in Hr. destruct (reads_split_l _ _ Hr j1 (j2 ++ i2)) as [_ K].
      { rewrite app_assoc. reflexivity. }
      rewrite items_bytes_app, (reads_bytes _ _ Hb) in K. exact K.
    + destruct Hc as [Hc|(j & i & Ej2 & Hi)].
      * apply app_eq_nil in Hc. left. apply Hc.
      * destruct (exists_last_or j2) as [|(j2' & x & ->)]; [left; assumption|right].
        rewrite app_assoc in Ej2. apply app_inj_tail in Ej2. destruct Ej2 as [_ ->].
        exists j2', i. auto.
Qed.
