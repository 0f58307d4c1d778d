(* Property C67: the library with tables regenerated from other data files. *)
From Coq Require Import List NArith ZArith Arith Bool Lia Strings.Byte Strings.String.
From Coq Require Import ZifyBool ZifyNat ZifyN.
From Verif Require Import Spec.Classes Spec.UAX29 Spec.Utf8 Spec.Segmentation Spec.PropNames Spec.Assignments Spec.Readers Spec.UcdFile.
From Verif Require Import Spec.Generation Spec.Versions.
From Verif Require Import Model.Base Model.CharProps Model.Lookup Model.Machine Model.Scan Model.OtherTables Model.Bufio Model.GenTable.
From Verif Require Import Model.UcdParse Model.BuildTree.
From Verif Require Import Proofs.Basics Proofs.TableCheck Proofs.LookupFacts Proofs.MachineFacts Proofs.ScanFacts Proofs.TextFacts.
From Verif Require Import Proofs.BuildFacts Proofs.FileCheck Proofs.VersionFacts Properties.Generator Properties.Limits Properties.Reproduce.
Import ListNotations.
Notation length := List.length.
Notation concat := List.concat.
Local Opaque committed.

(* ---- what the lines of the three files say about a character *)

Definition gcb_text (text : list byte) : GCB :=
  match find (fun g => is_name text (gcb_name g)) all_gcb with Some g => g | None => Other end.
Definition incb_text (text : list byte) : InCB :=
  match find (fun i => is_name text (incb_name i)) all_incb with Some i => i | None => InCB_None end.

(* a line "range ; InCB; value" that covers c *)
Definition about_incb (c : N) (m : meaning) : bool :=
  covers m c && is_name (field 0 m) "InCB" && has_field 1 m.

(* The lines give c the class k: the last Grapheme_Cluster_Break line about c
   names its value, emoji-data.txt lists it or not, and all lines about its InCB
   value agree; where no line covers c, it has the default values. *)
Definition lines_say (ms1 ms2 ms3 : list meaning) (c : N) (k : cls) : Prop :=
  gcb k = match rev (filter (fun m => covers m c) ms1) with m :: _ => gcb_text (field 0 m) | [] => Other end /\
  extpict k = pictographic_by ms2 c /\
  (forall m, In m ms3 -> about_incb c m = true -> incb_text (field 1 m) = incb k) /\
  ((forall m, In m ms3 -> about_incb c m = false) -> incb k = InCB_None).

Lemma gcb_number_code g : gcb_number g = gcb_code g.
Proof. destruct g; reflexivity. Qed.

Lemma said_value ms1 ms2 ms3 c k : scalar c -> lines_say ms1 ms2 ms3 c k ->
  value (assignments ms1 ms2 ms3) c = enc k.
Proof.
  intros S (H1 & H2 & H3 & H4). rewrite C44_value by exact S.
  assert (gcb_by ms1 c = gcb_number (gcb k)) as ->.
  { rewrite H1. unfold gcb_by. destruct (rev _) as [|m l]; [reflexivity|].
    unfold gcb_named, gcb_text. destruct (find _ all_gcb); reflexivity. }
  assert (incb_by ms3 c = incb_number (incb k)) as ->.
  { unfold incb_by. fold (about_incb c).
    change (fun m => covers m c && is_name (field 0 m) "InCB" && has_field 1 m) with (about_incb c).
    assert (Forall (fun x => x = incb_number (incb k))
             (map (fun m => incb_named (field 1 m)) (filter (about_incb c) ms3))) as F.
    { apply Forall_forall. intros x Hx. apply in_map_iff in Hx. destruct Hx as (m & <- & Hm).
      apply filter_In in Hm. destruct Hm as [Hm E]. rewrite <- (H3 m Hm E).
      unfold incb_named, incb_text. destruct (find _ all_incb); reflexivity. }
    destruct (filter (about_incb c) ms3) as [|m l] eqn:Ef.
    - rewrite H4; [reflexivity|]. intros m Hm. destruct (about_incb c m) eqn:E; [|reflexivity].
      assert (In m []) as [] by (rewrite <- Ef; apply filter_In; auto).
    - revert F. cbn [map]. generalize (incb_named (field 1 m)) (map (fun m0 => incb_named (field 1 m0)) l).
      intros x xs F. inversion F as [|? ? Ex Fx]; subst. cbn [fold_left]. rewrite N.lor_0_l. clear - Fx.
      induction Fx as [|y ys -> F IH]; cbn [fold_left]; [reflexivity|]. rewrite N.lor_diag. exact IH. }
  rewrite <- H2. destruct k as [[] [] []]; reflexivity.
Qed.

Lemma canonical_dec bs v : scalarb v && bytes_eqb bs (utf8_encode v) = true <-> canonical bs v.
Proof.
  rewrite andb_true_iff, scalarb_spec. unfold canonical, bytes_eqb.
  destruct (list_eq_dec Byte.byte_eq_dec bs (utf8_encode v)); split; intros [? ?]; split; congruence.
Qed.

Lemma generated_holds ops tb : generate ops = Ret tb -> finds tb (value ops).
Proof.
  intros G bs v rest Hs. destruct (C28_generated ops tb G) as [K1 K2]. unfold found.
  destruct (scalarb v && bytes_eqb bs (utf8_encode v)) eqn:E.
  - apply canonical_dec in E. destruct E as [Sv ->]. apply K1, Sv.
  - apply (K2 bs v rest Hs). intros C. apply canonical_dec in C. congruence.
Qed.

Lemma said_holds ms1 ms2 ms3 tb cl :
  generate (assignments ms1 ms2 ms3) = Ret tb ->
  (forall c, scalar c -> lines_say ms1 ms2 ms3 c (cl c)) ->
  finds tb (fun c => enc (cl c)).
Proof.
  intros G Hcl bs v rest Hs. rewrite (generated_holds _ _ G bs v rest Hs). unfold found.
  destruct (scalarb v) eqn:E; cbn [andb]; [|reflexivity].
  destruct (bytes_eqb _ _); [|reflexivity]. apply scalarb_spec in E. rewrite (said_value _ _ _ _ _ E (Hcl v E)). reflexivity.
Qed.

(* ---- pictographs with another value stop the generator *)

Lemma sets_four c : forall ops old, Forall (fun o => exists r, o = OpSet r 4%N) ops ->
  fold_left (assign c) ops old = old \/ fold_left (assign c) ops old = 4%N.
Proof.
  induction ops as [|o ops IH]; intros old F; [left; reflexivity|]. inversion F as [|? ? (r & ->) F']; subst.
  cbn [fold_left assign]. destruct (target r =? c)%N; [|apply IH; exact F'].
  destruct (IH 4%N F') as [E|E]; right; exact E.
Qed.

Lemma emoji_sets ms : Forall (fun o => exists r, o = OpSet r 4%N) (flat_map emoji_assignments ms).
Proof.
  apply Forall_forall. intros o Ho. apply in_flat_map in Ho. destruct Ho as (m & _ & Ho).
  destruct m as [|a b fields|]; cbn [emoji_assignments] in Ho; try contradiction.
  destruct (is_name _ _); [|contradiction]. apply in_map_iff in Ho. destruct Ho as (r & <- & _). eauto.
Qed.

Lemma pictographic_set ms c : scalar c -> pictographic_by ms c = true ->
  exists r, In (OpSet r 4%N) (flat_map emoji_assignments ms) /\ target r = c.
Proof.
  intros S H. unfold pictographic_by in H. apply existsb_exists in H. destruct H as (m & Hm & E).
  apply andb_true_iff in E. destruct E as [E1 E2].
  destruct m as [|a b fields|]; try discriminate E1.
  rewrite <- (covered a b fields c S) in E1. apply existsb_exists in E1. destruct E1 as (z & Hz & E1).
  apply N.eqb_eq in E1. exists z. split; [|exact E1]. apply in_flat_map. exists (Data a b fields). split; [exact Hm|].
  cbn [emoji_assignments]. cbn [field] in E2. rewrite hd_nth, E2. apply in_map_iff. exists z. auto.
Qed.

Lemma said_tame ms1 ms2 ms3 tb c k :
  generate (assignments ms1 ms2 ms3) = Ret tb -> scalar c -> lines_say ms1 ms2 ms3 c k -> tame k.
Proof.
  intros G S (H1 & H2 & _) E.
  destruct (GCB_eqb_spec (gcb k) Other) as [|Hn]; [assumption|]. exfalso.
  assert (conflict (assignments ms1 ms2 ms3)) as K.
  { rewrite H2 in E. destruct (pictographic_set ms2 c S E) as (r & Hr & Et). apply in_split in Hr.
    destruct Hr as (b & a & Eb).
    exists (flat_map gcb_assignments ms1 ++ b), r, (a ++ flat_map incb_assignments ms3). split.
    - unfold assignments. rewrite Eb, <- !app_assoc. reflexivity.
    - rewrite Et. unfold value. rewrite fold_left_app.
      pose proof (emoji_sets ms2) as F. rewrite Eb in F. apply Forall_app in F. destruct F as [F _].
      assert (fold_left (assign c) (flat_map gcb_assignments ms1) 0%N <> 0%N) as Hne.
      { rewrite gcb_step by exact S. revert Hn. rewrite H1. destruct (rev _) as [|m l]; [congruence|].
        unfold gcb_text, gcb_named. destruct (find _ all_gcb) as [g|] eqn:Ef; [|congruence].
        intros Hg. destruct g; cbn; congruence. }
      destruct (sets_four c b (fold_left (assign c) (flat_map gcb_assignments ms1) 0%N) F) as [-> | ->]; [exact Hne|discriminate]. }
  rewrite (proj1 (C29_failures _) K) in G. discriminate.
Qed.

(* ---- C67: data of segmentable classes *)

Lemma segments_generated ms1 ms2 ms3 tb cl :
  generate (assignments ms1 ms2 ms3) = Ret tb ->
  (forall c, scalar c -> lines_say ms1 ms2 ms3 c (cl c)) ->
  (forall c, scalar c -> segmentable (cl c)) ->
  forall data its segs, reads data its -> clusters (item_class_by cl) its segs ->
    tokenises_with tb data (map items_bytes segs).
Proof.
  intros G Hcl Hseg data its segs Hr Hc.
  destruct (clusters_with tb cl (said_holds _ _ _ _ _ G Hcl) Hseg data) as (its' & segs' & Hr' & Hc' & Ht).
  assert (its' = its) as -> by (eapply reads_unique; eassumption).
  rewrite (clusters_unique _ _ _ _ Hc Hc'). exact Ht.
Qed.

Lemma written {R1 R2 R3} (rd1 : reader R1) r1 (rd2 : reader R2) r2 (rd3 : reader R3) r3 f1 f2 f3 ms1 ms2 ms3 out tb :
  delivers rd1 100 r1 f1 EOF -> delivers rd2 100 r2 f2 EOF -> delivers rd3 100 r3 f3 EOF ->
  usable f1 ms1 -> usable f2 ms2 -> usable f3 ms3 ->
  BuildRawPropertyTree rd1 r1 rd2 r2 rd3 r3 out -> main_tables out = Ret (inl tb) ->
  generate (assignments ms1 ms2 ms3) = Ret tb.
Proof.
  intros D1 D2 D3 U1 U2 U3 B E.
  destruct (C44_end_to_end rd1 r1 rd2 r2 rd3 r3 f1 f2 f3 ms1 ms2 ms3 D1 D2 D3 U1 U2 U3) as (out' & _ & H1 & H2).
  rewrite (H1 out B) in E. rewrite H2 in E.
  destruct (generate (assignments ms1 ms2 ms3)) as [tb'|]; cbn [bind] in E; [|discriminate]. congruence.
Qed.

(* Whatever the version of the data files: if the generator writes tables from
   them and every character has a segmentable class by their lines, then with
   these tables the tokens of any bytes are the UAX #29 clusters by these
   classes. *)
Theorem C67_segments {R1 R2 R3} (rd1 : reader R1) r1 (rd2 : reader R2) r2 (rd3 : reader R3) r3 f1 f2 f3 ms1 ms2 ms3 out tb cl :
  delivers rd1 100 r1 f1 EOF -> delivers rd2 100 r2 f2 EOF -> delivers rd3 100 r3 f3 EOF ->
  usable f1 ms1 -> usable f2 ms2 -> usable f3 ms3 ->
  BuildRawPropertyTree rd1 r1 rd2 r2 rd3 r3 out -> main_tables out = Ret (inl tb) ->
  (forall c, scalar c -> lines_say ms1 ms2 ms3 c (cl c)) ->
  (forall c, scalar c -> segmentable (cl c)) ->
  forall data, exists its segs, reads data its /\ clusters (item_class_by cl) its segs /\
    forall ts, tokenises_with tb data ts <-> ts = map items_bytes segs.
Proof.
  intros D1 D2 D3 U1 U2 U3 B E Hcl Hseg data.
  pose proof (written rd1 r1 rd2 r2 rd3 r3 _ _ _ _ _ _ _ _ D1 D2 D3 U1 U2 U3 B E) as G.
  destruct (clusters_with tb cl (said_holds _ _ _ _ _ G Hcl) Hseg data) as (its & segs & Hr & Hc & Ht).
  exists its, segs. split; [exact Hr|]. split; [exact Hc|]. intros ts. split; [|intros ->; exact Ht].
  intros Ht'. eapply tokenises_with_unique; eassumption.
Qed.

(* ---- C67: and only those *)

(* The data has characters of the six classes that the examples below need, as
   every version since Unicode 15.1 (InCB) does: a conjunct consonant, linker and
   extender, a pictograph, the joiner, a regional indicator. *)
Definition has_class (cl : N -> cls) (k : cls) : Prop := exists c, scalar c /\ cl c = k.
Definition rich (cl : N -> cls) : Prop :=
  Forall (has_class cl)
    [Cls Other false InCB_Consonant; Cls Extend false InCB_Linker; Cls Extend false InCB_Extend;
     Cls Other true InCB_None; Cls ZWJ false InCB_Extend; Cls Regional_Indicator false InCB_None].

Lemma class_by_char cl c : scalar c -> item_class_by cl (char c) = cl c.
Proof.
  intros S. unfold char, item_class_by. rewrite bytes_eqb_true by reflexivity.
  apply scalarb_spec in S. rewrite S. reflexivity.
Qed.

Lemma choose cl : forall ks, Forall (has_class cl) ks ->
  exists cs, Forall scalar cs /\ map cl cs = ks.
Proof.
  induction 1 as [|k ks (c & S & <-) H (cs & F & <-)]; [exists []; split; constructor|].
  exists (c :: cs). split; [constructor; assumption|reflexivity].
Qed.

Lemma wrong_at tb cl ks : finds tb (fun c => enc (cl c)) -> Forall tame ks -> Forall (has_class cl) ks ->
  differs ks = true ->
  exists l r ts, l <> [] /\ r <> [] /\ map cl (l ++ r) = ks /\ Forall scalar (l ++ r) /\
    tokenises_with tb (utf8_text (l ++ r)) ts /\
    ~ (cut ts (utf8_text l) <-> boundary (map cl l) (map cl r)).
Proof.
  intros Htb HT Hk Hd. destruct (choose cl ks Hk) as (cs & F & <-).
  destruct cs as [|c0 cs]; [discriminate|]. cbn [map differs] in Hd.
  destruct (Begin_total (enc (cl c0))) as (s & Eb & Hs). rewrite Eb in Hd.
  destruct (list_eq_dec bool_dec _ _) as [|Hne]; [discriminate|].
  destruct (differ_nth (marks s (cl c0) (map cl cs)) (rule_marks [] (cl c0) (map cl cs))) as (i & Hi & Hn).
  { rewrite marks_length, rule_marks_length by exact Hs. reflexivity. }
  { exact Hne. }
  rewrite marks_length, map_length in Hi by exact Hs.
  destruct (tokenises_with_total tb _ Htb (utf8_text (c0 :: cs))) as (ts & Ht & _ & _).
  pose proof (reads_utf8_text (c0 :: cs) F) as Hr.
  assert (Forall sequence (map char (c0 :: cs))) as Hq.
  { apply Forall_forall. intros x Hx. apply in_map_iff in Hx. destruct Hx as (c & <- & Hc).
    exists (utf8_encode c), c. split; [reflexivity|]. apply utf8_encode_seq. rewrite Forall_forall in F. auto. }
  assert (forall xs, Forall scalar xs -> map (item_class_by cl) (map char xs) = map cl xs) as Hmap.
  { intros xs Fx. rewrite map_map. apply map_ext_in. intros x Hx. apply class_by_char.
    rewrite Forall_forall in Fx. auto. }
  inversion F as [|? ? S0 Fs]; subst.
  exists (c0 :: firstn i cs), (skipn i cs), ts.
  assert ((c0 :: firstn i cs) ++ skipn i cs = c0 :: cs) as Ecs by (cbn [app]; rewrite firstn_skipn; reflexivity).
  assert (skipn i cs <> []) as Hr0.
  { intros K. apply (f_equal (@length _)) in K. rewrite skipn_length in K. simpl in K. lia. }
  rewrite Ecs. split; [discriminate|]. split; [exact Hr0|]. split; [reflexivity|]. split; [exact F|].
  split; [exact Ht|].
  pose proof (marks_cut tb cl Htb (length cs) (map char cs) (char c0) s ts) as MC.
  rewrite map_length in MC. specialize (MC (le_n _) Hq).
  change (char c0 :: map char cs) with (map char (c0 :: cs)) in MC. rewrite items_bytes_chars in MC.
  specialize (MC Hr). rewrite (class_by_char cl c0 S0) in MC. specialize (MC Eb Ht (map char (c0 :: firstn i cs)) (map char (skipn i cs))).
  rewrite <- map_app, Ecs in MC. specialize (MC eq_refl ltac:(discriminate)).
  assert (map char (skipn i cs) <> []) as Hr1 by (intros K; apply map_eq_nil in K; contradiction).
  specialize (MC Hr1). rewrite items_bytes_chars, map_length in MC. cbn [length] in MC.
  rewrite firstn_length, Nat.min_l, Nat.sub_succ, Nat.sub_0_r in MC by lia.
  rewrite (Hmap cs Fs) in MC. rewrite MC.
  destruct (skipn i cs) as [|x b] eqn:Esk; [congruence|].
  assert (map cl cs = map cl (firstn i cs) ++ cl x :: map cl b) as Em.
  { rewrite <- (firstn_skipn i cs) at 1. rewrite map_app, Esk. reflexivity. }
  pose proof (rule_marks_boundary (map cl (firstn i cs)) [] (cl c0) (cl x) (map cl b)) as RM.
  rewrite map_length, firstn_length, Nat.min_l, <- Em in RM by lia.
  assert (Forall tame (map cl (firstn i cs) ++ [cl c0])) as HT'.
  { cbn [map] in HT. inversion HT as [|? ? T0 Tn]; subst. rewrite Em in Tn. apply Forall_app in Tn. destruct Tn as [T1 _].
    apply Forall_app. split; [exact T1|]. constructor; [exact T0|constructor]. }
  specialize (RM HT'). change (rev [] ++ cl c0 :: map cl (firstn i cs)) with (map cl (c0 :: firstn i cs)) in RM.
  change (cl x :: map cl b) with (map cl (x :: b)) in RM. rewrite <- RM.
  intros K. apply Hn. apply eq_true_iff_eq. exact K.
Qed.

Lemma rich_template cl c ks : scalar c -> rich cl -> In ks (templates (cl c)) -> Forall (has_class cl) ks /\ In (cl c) ks /\ length ks <= 4.
Proof.
  intros S Hr Hin. assert (has_class cl (cl c)) as Hc by (exists c; auto).
  unfold rich in Hr. rewrite Forall_forall in Hr. unfold templates in Hin.
  assert (forall k, In k [cl c; con; lnk; ext; pic; zwj; reg] -> has_class cl k) as K.
  { intros k [<-|Hk]; [exact Hc|]. apply Hr. exact Hk. }
  cbn [In] in Hin. repeat (destruct Hin as [<-|Hin]; [split; [|split; [cbn [In]; tauto|cbn; lia]]|]);
    [..|contradiction]; repeat constructor; apply K; cbn [In]; tauto.
Qed.

Lemma rich_tame cl ks : (forall c, scalar c -> tame (cl c)) -> Forall (has_class cl) ks -> Forall tame ks.
Proof. intros HT H. eapply Forall_impl; [|exact H]. intros k (c & S & <-). apply HT, S. Qed.

(* In any such data, a character whose class is not segmentable is in a text of
   at most four characters that is cut wrongly: at some place there is a token
   boundary and no cluster boundary, or the other way round. *)
Theorem C67_wrong {R1 R2 R3} (rd1 : reader R1) r1 (rd2 : reader R2) r2 (rd3 : reader R3) r3 f1 f2 f3 ms1 ms2 ms3 out tb cl :
  delivers rd1 100 r1 f1 EOF -> delivers rd2 100 r2 f2 EOF -> delivers rd3 100 r3 f3 EOF ->
  usable f1 ms1 -> usable f2 ms2 -> usable f3 ms3 ->
  BuildRawPropertyTree rd1 r1 rd2 r2 rd3 r3 out -> main_tables out = Ret (inl tb) ->
  (forall c, scalar c -> lines_say ms1 ms2 ms3 c (cl c)) -> rich cl ->
  forall c, scalar c -> ~ segmentable (cl c) ->
  exists l r ts, l <> [] /\ r <> [] /\ length (l ++ r) <= 4 /\ Forall scalar (l ++ r) /\ In (cl c) (map cl (l ++ r)) /\
    tokenises_with tb (utf8_text (l ++ r)) ts /\
    ~ (cut ts (utf8_text l) <-> boundary (map cl l) (map cl r)).
Proof.
  intros D1 D2 D3 U1 U2 U3 B E Hcl Hrich c S Hns.
  pose proof (written rd1 r1 rd2 r2 rd3 r3 _ _ _ _ _ _ _ _ D1 D2 D3 U1 U2 U3 B E) as G.
  assert (forall c, scalar c -> tame (cl c)) as HT by (intros c' S'; eapply said_tame; eauto).
  destruct (wrong_template (cl c) (HT c S) Hns) as (ks & Hin & Hd).
  destruct (rich_template cl c ks S Hrich Hin) as (Hk & Hck & Hlen).
  destruct (wrong_at tb cl ks (said_holds _ _ _ _ _ G Hcl) (rich_tame cl ks HT Hk) Hk Hd)
    as (l & r & ts & Hl & Hr & Em & F & Ht & Hw).
  exists l, r, ts. split; [exact Hl|]. split; [exact Hr|]. split; [|split; [exact F|split; [rewrite Em; exact Hck|auto]]].
  rewrite <- Em, map_length in Hlen. exact Hlen.
Qed.

(* So the library segments all texts by UAX #29 exactly when all classes are
   segmentable. *)
Theorem C67_exactly {R1 R2 R3} (rd1 : reader R1) r1 (rd2 : reader R2) r2 (rd3 : reader R3) r3 f1 f2 f3 ms1 ms2 ms3 out tb cl :
  delivers rd1 100 r1 f1 EOF -> delivers rd2 100 r2 f2 EOF -> delivers rd3 100 r3 f3 EOF ->
  usable f1 ms1 -> usable f2 ms2 -> usable f3 ms3 ->
  BuildRawPropertyTree rd1 r1 rd2 r2 rd3 r3 out -> main_tables out = Ret (inl tb) ->
  (forall c, scalar c -> lines_say ms1 ms2 ms3 c (cl c)) -> rich cl ->
  ((forall c, scalar c -> segmentable (cl c)) <->
   (forall cs ts, Forall scalar cs -> tokenises_with tb (utf8_text cs) ts ->
      forall l r, l <> [] -> r <> [] -> cs = l ++ r -> (cut ts (utf8_text l) <-> boundary (map cl l) (map cl r)))).
Proof.
  intros D1 D2 D3 U1 U2 U3 B E Hcl Hrich. split.
  - intros Hseg cs ts F Ht l r Hl Hr ->.
    pose proof (written rd1 r1 rd2 r2 rd3 r3 _ _ _ _ _ _ _ _ D1 D2 D3 U1 U2 U3 B E) as G.
    destruct (clusters_with tb cl (said_holds _ _ _ _ _ G Hcl) Hseg (utf8_text (l ++ r))) as (its & segs & Hrd & Hc & Ht').
    assert (its = map char (l ++ r)) as -> by (eapply reads_unique; [exact Hrd|apply reads_utf8_text, F]).
    assert (ts = map items_bytes segs) as -> by (eapply tokenises_with_unique; eassumption).
    assert (forall xs, Forall scalar xs -> map (item_class_by cl) (map char xs) = map cl xs) as Hmap.
    { intros xs Fx. rewrite map_map. apply map_ext_in. intros x Hx. apply class_by_char.
      rewrite Forall_forall in Fx. auto. }
    apply Forall_app in F. destruct F as [Fl Fr]. rewrite map_app in Hc.
    pose proof (clusters_cuts _ _ _ Hc (map char l) (map char r) eq_refl) as K.
    rewrite !Hmap in K by assumption. rewrite <- K.
    2:{ intros Q. apply app_eq_nil in Q. destruct Q as [Q _]. apply map_eq_nil in Q. contradiction. }
    split.
    + intros (a & b & Es & Ea). apply map_eq_app in Es. destruct Es as (sa & sb & -> & <- & <-).
      exists sa, sb. split; [reflexivity|].
      pose proof (clusters_concat _ _ _ Hc) as Ecc. rewrite concat_app in Ecc.
      destruct (app_compare _ _ _ _ Ecc) as [(m & Em & _)|(m & Em & _)].
      * assert (items_bytes m = []) as Z.
        { rewrite <- items_bytes_chars in Ea. 
          assert (concat (map items_bytes sa) = items_bytes (concat sa)) as Q.
          { clear. induction sa as [|x sa IH]; [reflexivity|]. cbn [map concat]. rewrite IH, items_app. reflexivity. }
          rewrite Q, Em, items_app in Ea. rewrite <- (app_nil_r (items_bytes (map char l))) in Ea at 2.
          apply app_inv_head in Ea. exact Ea. }
        destruct m as [|i m]; [rewrite app_nil_r in Em; exact Em|]. exfalso.
        assert (In i (concat (sa ++ sb))) as Hi.
        { rewrite concat_app, Em, <- app_assoc. apply in_or_app. right. left. reflexivity. }
        rewrite (clusters_concat _ _ _ Hc), <- map_app in Hi. apply in_map_iff in Hi. destruct Hi as (c & <- & Hi).
        cbn [items_bytes flat_map item_bytes char] in Z. apply app_eq_nil in Z. destruct Z as [Z _].
        assert (scalar c) as Sc by (assert (Forall scalar (l ++ r)) as Fa by (apply Forall_app; auto); rewrite Forall_forall in Fa; auto).
        apply utf8_encode_seq in Sc. rewrite Z in Sc. inversion Sc.
      * assert (items_bytes m = []) as Z.
        { rewrite <- items_bytes_chars in Ea.
          assert (concat (map items_bytes sa) = items_bytes (concat sa)) as Q.
          { clear. induction sa as [|x sa IH]; [reflexivity|]. cbn [map concat]. rewrite IH, items_app. reflexivity. }
          rewrite Q, Em, items_app in Ea. rewrite <- (app_nil_r (items_bytes (concat sa))) in Ea at 1.
          apply app_inv_head in Ea. symmetry. exact Ea. }
        destruct m as [|i m]; [rewrite app_nil_r in Em; symmetry; exact Em|]. exfalso.
        assert (In i (map char l)) as Hi by (rewrite Em; apply in_or_app; right; left; reflexivity).
        apply in_map_iff in Hi. destruct Hi as (c & <- & Hi).
        cbn [items_bytes flat_map item_bytes char] in Z. apply app_eq_nil in Z. destruct Z as [Z _].
        assert (scalar c) as Sc by (rewrite Forall_forall in Fl; auto).
        apply utf8_encode_seq in Sc. rewrite Z in Sc. inversion Sc.
    + intros (sa & sb & -> & Ea). exists (map items_bytes sa), (map items_bytes sb). split; [apply map_app|].
      rewrite <- items_bytes_chars, <- Ea. clear. induction sa as [|x sa IH]; [reflexivity|].
      cbn [map concat]. rewrite IH, items_app. reflexivity.
  - intros H c S. destruct (segmentableb (cl c)) eqn:Eb; [apply segmentableb_iff; exact Eb|].
    assert (~ segmentable (cl c)) as Hns by (rewrite <- segmentableb_iff; congruence).
    destruct (C67_wrong rd1 r1 rd2 r2 rd3 r3 f1 f2 f3 ms1 ms2 ms3 out tb cl D1 D2 D3 U1 U2 U3 B E Hcl Hrich c S Hns)
      as (l & r & ts & Hl & Hr & _ & F & _ & Ht & Hw).
    exfalso. apply Hw. exact (H (l ++ r) ts F Ht l r Hl Hr eq_refl).
Qed.

(* ---- C67: the general conduct does not depend on the data *)

(* Whatever the values in generated tables: a call returns without panic or
   error and gives either nothing - then there was no data or more may come - or a
   non-empty initial part of the data with its length; what it gives without
   knowing the end is final; and repeated calls divide all data into tokens. *)
Theorem C67_any ops tb : generate ops = Ret tb ->
  (forall data atEOF,
     (ScanGraphemeClusters_with tb data atEOF = Ret (0, None, None) /\ (data = [] \/ atEOF = false)) \/
     (exists n, ScanGraphemeClusters_with tb data atEOF = Ret (n, Some (firstn n data), None) /\ 1 <= n <= length data)) /\
  (forall data more atEOF n token,
     ScanGraphemeClusters_with tb data false = Ret (n, Some token, None) ->
     ScanGraphemeClusters_with tb (data ++ more) atEOF = Ret (n, Some token, None)) /\
  (forall data, exists tokens, tokenises_with tb data tokens /\ concat tokens = data /\ Forall (fun t => t <> []) tokens /\
     forall tokens', tokenises_with tb data tokens' -> tokens' = tokens).
Proof.
  intros G. apply generated_holds in G. split; [|split].
  - intros data atEOF. apply (scan_shape_with tb _ G).
  - intros data more atEOF n token H. apply (scan_stable_with tb _ G). exact H.
  - intros data. destruct (tokenises_with_total tb _ G data) as (ts & Ht & Ec & Hne). exists ts.
    split; [exact Ht|]. split; [exact Ec|]. split; [exact Hne|]. intros ts' Ht'.
    eapply tokenises_with_unique; eassumption.
Qed.

(* ---- C67: the library as it is *)

(* The published library is the case of the committed tables, which hold the
   classes of Unicode 17: these are all segmentable, and rich. *)
Theorem C67_committed :
  (forall data atEOF, ScanGraphemeClusters_with committed data atEOF = ScanGraphemeClusters data atEOF) /\
  (forall c, scalar c -> segmentable (ucd_class c)) /\ rich ucd_class.
Proof.
  split; [exact scan_committed|]. split.
  - intros c S. destruct (lookup_char (utf8_encode c) c [] (utf8_encode_seq c S)) as [_ G].
    change (Char (utf8_encode c) c) with (char c) in G. rewrite (class_char c S) in G.
    unfold good, good_classes in G. apply segmentableb_iff.
    cbn [In] in G. repeat (destruct G as [<-|G]; [reflexivity|]). contradiction.
  - unfold rich, has_class. repeat constructor.
    + exists 0x915%N. split; [left; lia|vm_compute; reflexivity].
    + exists 0x94D%N. split; [left; lia|vm_compute; reflexivity].
    + exists 0x300%N. split; [left; lia|vm_compute; reflexivity].
    + exists 0x1F600%N. split; [right; lia|vm_compute; reflexivity].
    + exists 0x200D%N. split; [left; lia|vm_compute; reflexivity].
    + exists 0x1F1E6%N. split; [right; lia|vm_compute; reflexivity].
Qed.

(* ---- examples: small files, and the same with one more line *)

Definition other_gbp : string := "0300..0301 ; Extend
0600..0605 ; Prepend
0903       ; SpacingMark
094D       ; Extend
200D       ; ZWJ
1F1E6..1F1FF ; Regional_Indicator
".
Definition other_emoji : string := "1F600..1F603 ; Extended_Pictographic
".
Definition other_dcp : string := "0300..0301 ; InCB; Extend
0903 ; InCB; Linker
0915..0917 ; InCB; Consonant
094D ; InCB; Linker
200D ; InCB; Extend
".
Definition odd_line : string := "0600 ; InCB; Consonant
".

(* the class the lines give, where they agree *)
Definition class_of (ms1 ms2 ms3 : list meaning) (c : N) : cls :=
  Cls (match rev (filter (fun m => covers m c) ms1) with m :: _ => gcb_text (field 0 m) | [] => Other end)
      (pictographic_by ms2 c)
      (match filter (about_incb c) ms3 with m :: _ => incb_text (field 1 m) | [] => InCB_None end).

Definition agrees (ms3 : list meaning) (c : N) : bool :=
  match filter (about_incb c) ms3 with
  | [] => true
  | m :: l => forallb (fun m' => InCB_eqb (incb_text (field 1 m')) (incb_text (field 1 m))) l
  end.

Lemma class_of_said ms1 ms2 ms3 c : agrees ms3 c = true -> lines_say ms1 ms2 ms3 c (class_of ms1 ms2 ms3 c).
Proof.
  intros A. unfold agrees in A. split; [reflexivity|]. split; [reflexivity|]. cbn [class_of incb].
  destruct (filter (about_incb c) ms3) as [|m l] eqn:Ef.
  - split; [|reflexivity]. intros m Hm E. assert (In m []) as [] by (rewrite <- Ef; apply filter_In; auto).
  - split.
    + intros m' Hm E. assert (In m' (m :: l)) as Hin by (rewrite <- Ef; apply filter_In; auto).
      destruct Hin as [->|Hin]; [reflexivity|]. rewrite forallb_forall in A. specialize (A m' Hin).
      destruct (InCB_eqb_spec (incb_text (field 1 m')) (incb_text (field 1 m))); [assumption|discriminate].
    + intros K. assert (In m ms3 /\ about_incb c m = true) as [Hm E] by (apply filter_In; rewrite Ef; left; reflexivity).
      rewrite (K m Hm) in E. discriminate.
Qed.

Definition points (m : meaning) : list N :=
  match m with Data a b _ => map target (code_points a b) | _ => [] end.

Lemma in_points m c : scalar c -> covers m c = true -> In c (points m).
Proof.
  intros S H. destruct m as [|a b fields|]; try discriminate H. rewrite <- (covered a b fields c S) in H.
  apply existsb_exists in H. destruct H as (z & Hz & E). apply N.eqb_eq in E. apply in_map_iff. exists z. auto.
Qed.

Lemma by_points ms1 ms2 ms3 (P : N -> cls -> bool) :
  (forall c, P c plain = true) ->
  forallb (fun c => P c (class_of ms1 ms2 ms3 c) && agrees ms3 c) (flat_map points (ms1 ++ ms2 ++ ms3)) = true ->
  forall c, scalar c -> P c (class_of ms1 ms2 ms3 c) = true /\ lines_say ms1 ms2 ms3 c (class_of ms1 ms2 ms3 c).
Proof.
  intros HP H c S. rewrite forallb_forall in H.
  destruct (existsb (fun m => covers m c) (ms1 ++ ms2 ++ ms3)) eqn:E.
  - apply existsb_exists in E. destruct E as (m & Hm & E).
    assert (In c (flat_map points (ms1 ++ ms2 ++ ms3))) as Hc by (apply in_flat_map; exists m; split; [exact Hm|apply in_points; assumption]).
    specialize (H c Hc). apply andb_true_iff in H. destruct H as [H1 H2]. split; [exact H1|]. apply class_of_said, H2.
  - assert (forall m, In m (ms1 ++ ms2 ++ ms3) -> covers m c = false) as K.
    { intros m Hm. destruct (covers m c) eqn:Ec; [|reflexivity].
      assert (existsb (fun m => covers m c) (ms1 ++ ms2 ++ ms3) = true) by (apply existsb_exists; exists m; auto). congruence. }
    assert (forall f ms, (forall m, In m ms -> In m (ms1 ++ ms2 ++ ms3)) ->
              filter (fun m => covers m c && f m) ms = []) as F.
    { intros f ms Hms. induction ms as [|m ms IH]; [reflexivity|]. cbn [filter]. rewrite (K m) by (apply Hms; left; reflexivity).
      apply IH. intros m' Hm'. apply Hms. right. exact Hm'. }
    assert (filter (about_incb c) ms3 = []) as F3.
    { rewrite <- (F (fun m => is_name (field 0 m) "InCB" && has_field 1 m) ms3).
      - apply filter_ext. intros m. unfold about_incb. rewrite andb_assoc. reflexivity.
      - intros m Hm. apply in_or_app. right. apply in_or_app. right. exact Hm. }
    assert (class_of ms1 ms2 ms3 c = plain) as Ep.
    { unfold class_of. rewrite F3.
      assert (filter (fun m => covers m c) ms1 = []) as ->.
      { rewrite <- (F (fun _ => true) ms1).
        - apply filter_ext. intros m. rewrite andb_true_r. reflexivity.
        - intros m Hm. apply in_or_app. left. exact Hm. }
      assert (pictographic_by ms2 c = false) as ->; [|reflexivity].
      unfold pictographic_by. destruct (existsb _ ms2) eqn:E2; [|reflexivity].
      apply existsb_exists in E2. destruct E2 as (m & Hm & E2). rewrite (K m) in E2; [discriminate|].
      apply in_or_app. right. apply in_or_app. left. exact Hm. }
    split; [rewrite Ep; apply HP|]. apply class_of_said. unfold agrees. rewrite F3. reflexivity.
Qed.

Lemma points_class ms1 ms2 ms3 c k : scalarb c = true -> cls_eqb (class_of ms1 ms2 ms3 c) k = true ->
  has_class (class_of ms1 ms2 ms3) k.
Proof.
  intros S E. exists c. split; [apply scalarb_spec; exact S|].
  destruct (cls_eqb_spec (class_of ms1 ms2 ms3 c) k); [assumption|discriminate].
Qed.

Definition conflictb (ops : list op) : bool :=
  existsb (fun i => match nth_error ops i with
                    | Some (OpSet r v) => (v =? 4)%N && negb (value (firstn i ops) (target r) =? 0)%N
                    | _ => false end) (seq 0 (length ops)).
Lemma conflictb_spec ops : conflictb ops = false -> ~ conflict ops.
Proof.
  intros H (b & r & a & -> & Hv).
  assert (conflictb (b ++ OpSet r 4%N :: a) = true); [|congruence].
  apply existsb_exists. exists (length b). split; [apply in_seq; rewrite app_length; simpl; lia|].
  rewrite nth_error_app2, Nat.sub_diag by lia. cbn [nth_error]. rewrite firstn_app_exact.
  apply N.eqb_neq in Hv. rewrite Hv. reflexivity.
Qed.

Lemma small_generate ops : conflictb ops = false ->
  forallb (fun o => 128 <=? target (op_rune o))%N ops = true -> Nat.leb (length (Assignments.touched ops)) 222 = true ->
  exists tb, generate ops = Ret tb.
Proof.
  intros H1 H2 H3. apply C29_room; [apply conflictb_spec, H1| |apply Nat.leb_le, H3].
  apply ascii_alike_no_collision. intros x Hx. apply high_spec in H2.
  rewrite !not_ascii_zero by (assumption || lia). reflexivity.
Qed.

Lemma usable_text p ms : file_select (fun _ => true) [p] = Some ms -> usable (file_bytes [p]) ms.
Proof.
  intros H. apply file_select_ok in H. destruct H as (ms' & U & E).
  assert (ms' = ms) as <-; [|exact U]. rewrite <- E. clear. induction ms' as [|m ms' IH]; [reflexivity|].
  cbn [filter]. rewrite <- IH. reflexivity.
Qed.

Definition lines_of (p : string) : list meaning :=
  match file_select (fun _ => true) [p] with Some ms => ms | None => [] end.

Lemma lines_usable p : (if file_select (fun _ => true) [p] then true else false) = true -> usable (file_bytes [p]) (lines_of p).
Proof.
  unfold lines_of. destruct (file_select (fun _ => true) [p]) as [ms|] eqn:E; [|discriminate].
  intros _. apply usable_text, E.
Qed.

Lemma others_usable :
  usable (file_bytes [other_gbp]) (lines_of other_gbp) /\ usable (file_bytes [other_emoji]) (lines_of other_emoji) /\
  usable (file_bytes [other_dcp]) (lines_of other_dcp) /\
  usable (file_bytes [(other_dcp ++ odd_line)%string]) (lines_of (other_dcp ++ odd_line)).
Proof. repeat split; apply lines_usable; vm_compute; reflexivity. Qed.

Definition other_class : N -> cls := class_of (lines_of other_gbp) (lines_of other_emoji) (lines_of other_dcp).
Definition odd_class : N -> cls := class_of (lines_of other_gbp) (lines_of other_emoji) (lines_of (other_dcp ++ odd_line)).

(* Files that meet the hypotheses of all theorems; a spacing mark is a linker in
   them, unlike in Unicode 17. *)
Example C67_example :
  usable (file_bytes [other_gbp]) (lines_of other_gbp) /\ usable (file_bytes [other_emoji]) (lines_of other_emoji) /\
  usable (file_bytes [other_dcp]) (lines_of other_dcp) /\
  (exists tb, generate (assignments (lines_of other_gbp) (lines_of other_emoji) (lines_of other_dcp)) = Ret tb) /\
  (forall c, scalar c -> lines_say (lines_of other_gbp) (lines_of other_emoji) (lines_of other_dcp) c (other_class c)) /\
  (forall c, scalar c -> segmentable (other_class c)) /\ rich other_class /\
  other_class 0x903 = Cls SpacingMark false InCB_Linker.
Proof.
  destruct others_usable as (U1 & U2 & U3 & _). split; [exact U1|]. split; [exact U2|]. split; [exact U3|].
  assert (forall c, scalar c -> segmentableb (other_class c) = true /\
            lines_say (lines_of other_gbp) (lines_of other_emoji) (lines_of other_dcp) c (other_class c)) as K.
  { apply (by_points _ _ _ (fun _ => segmentableb)); [reflexivity|vm_compute; reflexivity]. }
  split; [apply small_generate; vm_compute; reflexivity|].
  split; [intros c S; apply (K c S)|]. split; [intros c S; apply segmentableb_iff, (K c S)|].
  split; [|vm_compute; reflexivity]. unfold rich.
  constructor; [apply points_class with (c := 0x915%N); vm_compute; reflexivity|].
  constructor; [apply points_class with (c := 0x94D%N); vm_compute; reflexivity|].
  constructor; [apply points_class with (c := 0x300%N); vm_compute; reflexivity|].
  constructor; [apply points_class with (c := 0x1F600%N); vm_compute; reflexivity|].
  constructor; [apply points_class with (c := 0x200D%N); vm_compute; reflexivity|].
  constructor; [apply points_class with (c := 0x1F1E6%N); vm_compute; reflexivity|constructor].
Qed.

(* With one more line a prepended sign is a consonant too: then texts are cut
   wrongly. *)
Example C67_example_odd :
  usable (file_bytes [(other_dcp ++ odd_line)%string]) (lines_of (other_dcp ++ odd_line)) /\
  (exists tb, generate (assignments (lines_of other_gbp) (lines_of other_emoji) (lines_of (other_dcp ++ odd_line))) = Ret tb) /\
  (forall c, scalar c -> lines_say (lines_of other_gbp) (lines_of other_emoji) (lines_of (other_dcp ++ odd_line)) c (odd_class c)) /\
  rich odd_class /\ ~ segmentable (odd_class 0x600).
Proof.
  destruct others_usable as (_ & _ & _ & U4). split; [exact U4|].
  assert (forall c, scalar c -> true = true /\
            lines_say (lines_of other_gbp) (lines_of other_emoji) (lines_of (other_dcp ++ odd_line)) c (odd_class c)) as K.
  { apply (by_points _ _ _ (fun _ _ => true)); [reflexivity|vm_compute; reflexivity]. }
  split; [apply small_generate; vm_compute; reflexivity|].
  split; [intros c S; apply (K c S)|]. split.
  - unfold rich.
    constructor; [apply points_class with (c := 0x915%N); vm_compute; reflexivity|].
    constructor; [apply points_class with (c := 0x94D%N); vm_compute; reflexivity|].
    constructor; [apply points_class with (c := 0x300%N); vm_compute; reflexivity|].
    constructor; [apply points_class with (c := 0x1F600%N); vm_compute; reflexivity|].
    constructor; [apply points_class with (c := 0x200D%N); vm_compute; reflexivity|].
    constructor; [apply points_class with (c := 0x1F1E6%N); vm_compute; reflexivity|constructor].
  - rewrite <- segmentableb_iff. assert (segmentableb (odd_class 0x600) = false) as -> by (vm_compute; reflexivity). discriminate.
Qed.

Definition all_theorems :=
  (@C67_segments, @C67_wrong, @C67_exactly, C67_any, C67_committed, C67_example, C67_example_odd).
Print Assumptions all_theorems.
