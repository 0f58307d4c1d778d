(* Consequences of tokenises_clusters: uniqueness, positions, locality. *)
From Coq Require Import List NArith Arith Bool Lia Strings.Byte.
From Coq Require Import ZArith ZifyBool ZifyNat ZifyN.
From Verif Require Import Spec.Classes Spec.Utf8 Spec.UAX29 Spec.UcdRanges Spec.Segmentation.
From Verif Require Import Model.Base Model.CharProps Model.Lookup Model.Machine Model.Scan.
From Verif Require Import Proofs.Basics Proofs.TableCheck Proofs.LookupFacts Proofs.MachineFacts
  Proofs.ScanFacts.
Import ListNotations.

Local Opaque committed fast_class ok1 leads conts LookupFirstChar.

Lemma exists_last_or {A} (l : list A) : l = [] \/ exists l' x, l = l' ++ [x].
Proof.
  destruct l as [|a l]; [left; reflexivity|right].
  destruct (exists_last (l := a :: l)) as (l' & x & E); [discriminate|]. eauto.
Qed.

(* ---- segmentations are unique *)

Lemma pieces_unique {A} : forall (s1 s2 : list (list A)),
  Forall (fun s => s <> []) s1 -> Forall (fun s => s <> []) s2 ->
  concat s1 = concat s2 ->
  (forall l, cut s1 l <-> cut s2 l) -> s1 = s2.
Proof.
  assert (Hshort : forall (a b : list A) s1 s2, a <> [] -> b <> [] ->
    (forall l, cut (a :: s1) l -> cut (b :: s2) l) -> length b <= length a).
  { intros a b s1 s2 Ha Hb H. destruct (H a) as (t1 & t2 & E & E2).
    { exists [a], s1. simpl. rewrite app_nil_r. auto. }
    destruct t1 as [|x t1]; [simpl in E2; congruence|]. simpl in *. injection E as <- E.
    rewrite <- E2, app_length. lia. }
  assert (Hcons : forall (a : list A) s1 s2, Forall (fun s => s <> []) s2 -> a <> [] ->
    (forall l, cut (a :: s1) l -> cut (a :: s2) l) -> (forall l, cut s1 l -> cut s2 l)).
  { intros a s1 s2 Hs2 Ha H l (t1 & t2 & -> & El).
    destruct (H (a ++ l)) as (u1 & u2 & Eu & Eul).
    { exists (a :: t1), t2. simpl. rewrite El. auto. }
    destruct u1 as [|x u1]; simpl in *.
    { destruct a; [congruence|discriminate]. }
    injection Eu as <- Eu. apply app_inv_head in Eul. exists u1, u2. auto. }
  induction s1 as [|a s1 IH]; intros s2 H1 H2 E H.
  - destruct s2 as [|b s2]; [reflexivity|]. inversion H2; subst. simpl in E.
    destruct b; [congruence|discriminate].
  - destruct s2 as [|b s2].
    { inversion H1; subst. simpl in E. destruct a; [congruence|discriminate]. }
    inversion H1 as [|? ? Ha H1']; inversion H2 as [|? ? Hb H2']; subst.
    assert (length b <= length a) by (eapply Hshort; eauto; intros l; apply H).
    assert (length a <= length b) by (eapply Hshort; eauto; intros l; apply H).
    simpl in E. assert (a = b /\ concat s1 = concat s2) as [-> E'].
    { apply app_eq_length; [exact E|lia]. }
    f_equal. apply IH; auto. intros l. split; (eapply Hcons; [| |intros l'; apply H]); eauto.
Qed.

Theorem clusters_unique {A} (f : A -> cls) txt s1 s2 :
  clusters f txt s1 -> clusters f txt s2 -> s1 = s2.
Proof.
  intros [C1 N1 K1] [C2 N2 K2]. apply pieces_unique; auto; [congruence|].
  intros l. assert (txt = [] \/ txt <> []) as [Et|Hne] by (destruct txt; [left|right]; congruence).
  - subst txt.
    assert (s1 = []) as ->.
    { destruct s1 as [|a s1]; [reflexivity|]. inversion N1; subst. simpl in Et.
      destruct a; [congruence|discriminate]. }
    assert (s2 = []) as ->.
    { destruct s2 as [|a s2]; [reflexivity|]. inversion N2; subst. simpl in C2.
      destruct a; [congruence|discriminate]. }
    reflexivity.
  - split; intros (t1 & t2 & Es & El).
    + assert (txt = l ++ concat t2) as Et by (rewrite <- C1, Es, concat_app; congruence).
      apply (K2 l _ Et Hne). apply (K1 l _ Et Hne). exists t1, t2. auto.
    + assert (txt = l ++ concat t2) as Et by (rewrite <- C2, Es, concat_app; congruence).
      apply (K1 l _ Et Hne). apply (K2 l _ Et Hne). exists t1, t2. auto.
Qed.

Theorem tokenises_total data : exists toks, tokenises data toks.
Proof. destruct (tokenises_clusters data) as (its & segs & _ & _ & H). eauto. Qed.

(* the tokens of any data are the clusters of its items *)
Theorem tokenises_iff data its toks : reads data its ->
  (tokenises data toks <->
   exists segs, clusters item_class its segs /\ toks = map items_bytes segs).
Proof.
  intros Hr. destruct (tokenises_clusters data) as (its' & segs & Hr' & Hc & Ht).
  assert (its' = its) as -> by (eapply reads_unique; eauto).
  split.
  - intros H. exists segs. split; [exact Hc|]. eapply tokenises_unique; eauto.
  - intros (segs' & Hc' & ->). rewrite (clusters_unique _ _ _ _ Hc' Hc). exact Ht.
Qed.

Lemma tokenises_concat data toks : tokenises data toks -> concat toks = data.
Proof.
  induction 1 as [|data n t toks Hs Ht IH]; [reflexivity|].
  simpl. rewrite IH. destruct (scan_shape data true) as [[E _]|(m & E & Hm)]; [congruence|].
  assert (m = n /\ t = firstn n data) as [-> ->] by (rewrite Hs in E; injection E as <- <-; auto).
  apply firstn_skipn.
Qed.

Lemma tokenises_nonempty data toks : tokenises data toks -> Forall (fun t => t <> []) toks.
Proof.
  induction 1 as [|data n t toks Hs Ht IH]; constructor; auto.
  destruct (scan_shape data true) as [[E _]|(m & E & Hm)]; [congruence|].
  assert (m = n /\ t = firstn n data) as [-> ->] by (rewrite Hs in E; injection E as <- <-; auto).
  destruct data; simpl in *; [lia|]. destruct n; [lia|]. discriminate.
Qed.

Lemma nonempty_count {A} (ts : list (list A)) :
  Forall (fun t => t <> []) ts -> length ts <= length (concat ts).
Proof.
  induction 1 as [|t ts Ht H IH]; simpl; [lia|]. rewrite app_length.
  destruct t; [congruence|]. simpl. lia.
Qed.

(* ---- items *)

Lemma reads_nonempty data its : reads data its -> Forall (fun i => item_bytes i <> []) its.
Proof.
  induction 1 as [|bs v rest its Hs Hr IH|b rest its Hs Hr IH]; constructor; auto.
  - destruct Hs; discriminate.
  - discriminate.
Qed.

Lemma items_bytes_app a b : items_bytes (a ++ b) = items_bytes a ++ items_bytes b.
Proof. apply flat_map_app. Qed.

Lemma items_bytes_concat segs : items_bytes (concat segs) = concat (map items_bytes segs).
Proof. induction segs as [|s segs IH]; [reflexivity|]. simpl. rewrite items_bytes_app, IH. reflexivity. Qed.

(* prefixes of the same item list with the same bytes are equal *)
Lemma items_prefix_eq a b x y :
  a ++ x = b ++ y -> Forall (fun i => item_bytes i <> []) (a ++ x) ->
  items_bytes a = items_bytes b -> a = b.
Proof.
  revert b. induction a as [|i a IH]; intros b E HF Hb.
  - destruct b as [|j b]; [reflexivity|]. simpl in E. subst x. simpl in HF.
    inversion HF as [|? ? Hj _]; subst. simpl in Hb. destruct (item_bytes j); [congruence|discriminate].
  - destruct b as [|j b].
    + simpl in HF. inversion HF as [|? ? Hj _]; subst. simpl in Hb.
      destruct (item_bytes i); [congruence|discriminate].
    + simpl in *. injection E as -> E. inversion HF; subst. f_equal. apply (IH b E); auto.
      eapply app_inv_head; eauto.
Qed.

Lemma starts_seq_prefix p q : starts_seq p -> starts_seq (p ++ q).
Proof.
  intros (bs & v & rest & Hs & ->). exists bs, v, (rest ++ q). rewrite app_assoc. auto.
Qed.

Lemma reads_split_l data its : reads data its -> forall i1 i2, its = i1 ++ i2 ->
  reads (items_bytes i1) i1 /\ reads (items_bytes i2) i2.
Proof.
  induction 1 as [|bs v rest its Hs Hr IH|b rest its Hs Hr IH]; intros i1 i2 E.
  - symmetry in E. apply app_eq_nil in E. destruct E as [-> ->]. split; constructor.
  - destruct i1 as [|i i1]; simpl in E.
    + subst i2. split; [constructor|]. simpl. fold (items_bytes its).
      rewrite (reads_bytes _ _ Hr). constructor; assumption.
    + injection E as <- E. destruct (IH _ _ E) as [H1 H2]. split; [|exact H2].
      simpl. constructor; assumption.
  - destruct i1 as [|i i1]; simpl in E.
    + subst i2. split; [constructor|]. simpl. fold (items_bytes its).
      rewrite (reads_bytes _ _ Hr). constructor; assumption.
    + injection E as <- E. destruct (IH _ _ E) as [H1 H2]. split; [|exact H2].
      simpl. constructor; [|assumption]. intros Hss. apply Hs.
      assert (b :: rest = (b :: items_bytes i1) ++ items_bytes i2) as ->.
      { simpl. rewrite <- items_bytes_app, <- E, (reads_bytes _ _ Hr). reflexivity. }
      apply starts_seq_prefix. exact Hss.
Qed.

Definition synced (r : list byte) : Prop :=
  match r with [] => True | b :: _ => ~ is_cont b end.

Lemma starts_seq_synced p r : p <> [] -> synced r -> starts_seq (p ++ r) -> starts_seq p.
Proof.
  intros Hp Hr (bs & v & rest & Hs & E).
  destruct (app_compare _ _ _ _ E) as [(m & Ep & Er)|(m & Eb & Er)].
  - exists bs, v, m. auto.
  - destruct m as [|b m].
    + rewrite app_nil_r in Eb. subst p. exists bs, v, []. rewrite app_nil_r. auto.
    + exfalso. subst r. simpl in Hr. destruct p as [|a p]; [congruence|].
      pose proof (seq_conts bs v a (p ++ b :: m) Hs Eb) as Hc.
      rewrite forallb_app in Hc. simpl in Hc. apply andb_true_iff in Hc. destruct Hc as [_ Hc].
      apply andb_true_iff in Hc. destruct Hc as [Hc _]. apply Hr. apply is_contb_spec. exact Hc.
Qed.

Theorem reads_app p i1 : reads p i1 -> forall r i2, reads r i2 -> synced r -> reads (p ++ r) (i1 ++ i2).
Proof.
  induction 1 as [|bs v rest its Hs Hr IH|b rest its Hs Hr IH]; intros r i2 Hr2 Hsy; simpl.
  - exact Hr2.
  - rewrite <- app_assoc. constructor; auto.
  - constructor; auto. intros H. apply Hs. apply (starts_seq_synced (b :: rest) r); auto. discriminate.
Qed.

(* ---- canonical characters *)

Lemma utf8_encode_seq c : scalar c -> utf8_seq (utf8_encode c) c.
Proof.
  intros Hc. unfold utf8_encode, scalar in *.
  destruct (N.ltb_spec c 0x80).
  { replace c with (bval (mkbyte c)) at 2 by (apply bval_mkbyte; lia).
    constructor. rewrite bval_mkbyte; lia. }
  destruct (N.ltb_spec c 0x800).
  { assert (E1 : bval (mkbyte (0xC0 + c / 64)) = (0xC0 + c / 64)%N) by (apply bval_mkbyte; lia).
    assert (E2 : bval (mkbyte (0x80 + c mod 64)) = (0x80 + c mod 64)%N) by (apply bval_mkbyte; lia).
    assert (utf8_seq [mkbyte (0xC0 + c / 64); mkbyte (0x80 + c mod 64)]
              ((bval (mkbyte (0xC0 + c / 64)) - 0xC0) * 64 + (bval (mkbyte (0x80 + c mod 64)) - 0x80))) as K.
    { constructor; unfold is_cont; rewrite ?E1, ?E2; lia. }
    rewrite E1, E2 in K. replace ((0xC0 + c / 64 - 0xC0) * 64 + (0x80 + c mod 64 - 0x80))%N with c in K by lia.
    exact K. }
  destruct (N.ltb_spec c 0x10000).
  { set (a := mkbyte (0xE0 + c / 4096)). set (b := mkbyte (0x80 + (c / 64) mod 64)).
    set (d := mkbyte (0x80 + c mod 64)).
    assert (E1 : bval a = (0xE0 + c / 4096)%N) by (apply bval_mkbyte; lia).
    assert (E2 : bval b = (0x80 + (c / 64) mod 64)%N) by (apply bval_mkbyte; lia).
    assert (E3 : bval d = (0x80 + c mod 64)%N) by (apply bval_mkbyte; lia).
    assert (utf8_seq [a; b; d] ((bval a - 0xE0) * 4096 + (bval b - 0x80) * 64 + (bval d - 0x80))) as K.
    { constructor; unfold is_cont; rewrite ?E1, ?E2, ?E3; lia. }
    rewrite E1, E2, E3 in K.
    match type of K with utf8_seq _ ?v => replace v with c in K by lia end. exact K. }
  { set (a := mkbyte (0xF0 + c / 262144)). set (b := mkbyte (0x80 + (c / 4096) mod 64)).
    set (d := mkbyte (0x80 + (c / 64) mod 64)). set (e := mkbyte (0x80 + c mod 64)).
    assert (E1 : bval a = (0xF0 + c / 262144)%N) by (apply bval_mkbyte; lia).
    assert (E2 : bval b = (0x80 + (c / 4096) mod 64)%N) by (apply bval_mkbyte; lia).
    assert (E3 : bval d = (0x80 + (c / 64) mod 64)%N) by (apply bval_mkbyte; lia).
    assert (E4 : bval e = (0x80 + c mod 64)%N) by (apply bval_mkbyte; lia).
    assert (utf8_seq [a; b; d; e] ((bval a - 0xF0) * 262144 + (bval b - 0x80) * 4096
              + (bval d - 0x80) * 64 + (bval e - 0x80))) as K.
    { constructor; unfold is_cont; rewrite ?E1, ?E2, ?E3, ?E4; lia. }
    rewrite E1, E2, E3, E4 in K.
    match type of K with utf8_seq _ ?v => replace v with c in K by lia end. exact K. }
Qed.

Definition char (c : N) : item := Char (utf8_encode c) c.

Lemma scalarb_spec c : scalarb c = true <-> scalar c.
Proof. unfold scalarb, scalar. lia. Qed.

Lemma class_char c : scalar c -> item_class (char c) = ucd_class c.
Proof.
  intros H. unfold char, item_class. rewrite bytes_eqb_true by reflexivity.
  apply scalarb_spec in H. rewrite H. reflexivity.
Qed.

Lemma encode_synced c r : scalar c -> synced (utf8_encode c ++ r).
Proof.
  intros Hc. pose proof (utf8_encode_seq c Hc) as H.
  destruct (utf8_seq_first _ _ H) as (a & tl & E & Hl). rewrite E. simpl.
  rewrite seq_length_ok in Hl. unfold seq_length_spec in Hl. unfold is_cont.
  intros [H1 H2].
  replace (bval a <? 0x80)%N with false in Hl by lia.
  replace (bval a <? 0xC0)%N with true in Hl by lia. discriminate.
Qed.

Lemma encode_nonempty c : utf8_encode c <> [].
Proof. unfold utf8_encode. repeat destruct (_ <? _)%N; discriminate. Qed.

Lemma reads_char_app c rest its : scalar c -> reads rest its -> reads (utf8_encode c ++ rest) (char c :: its).
Proof. intros Hc H. constructor; [apply utf8_encode_seq; exact Hc|exact H]. Qed.

Lemma reads_text cs : Forall scalar cs -> forall rest its, reads rest its ->
  reads (utf8_text cs ++ rest) (map char cs ++ its).
Proof.
  induction 1 as [|c cs Hc Hcs IH]; intros rest its H; [exact H|].
  simpl. rewrite <- app_assoc. apply reads_char_app; auto.
Qed.

Lemma reads_utf8_text cs : Forall scalar cs -> reads (utf8_text cs) (map char cs).
Proof.
  intros H. pose proof (reads_text cs H [] [] reads_nil) as K. rewrite !app_nil_r in K. exact K.
Qed.

Lemma items_bytes_chars cs : items_bytes (map char cs) = utf8_text cs.
Proof. induction cs as [|c cs IH]; [reflexivity|]. simpl. rewrite <- IH. reflexivity. Qed.

Lemma map_class_chars cs : Forall scalar cs -> map item_class (map char cs) = map ucd_class cs.
Proof.
  intros H. rewrite map_map. apply map_ext_in. intros c Hc. apply class_char.
  rewrite Forall_forall in H. auto.
Qed.

Lemma chars_in_context p c q ip iq : scalar c -> reads p ip -> reads q iq ->
  reads (p ++ utf8_encode c ++ q) (ip ++ char c :: iq).
Proof.
  intros Hc Hp Hq. apply reads_app; auto.
  - apply reads_char_app; assumption.
  - apply encode_synced. exact Hc.
Qed.

(* ---- positions *)

Theorem cut_boundary data its toks i1 i2 :
  tokenises data toks -> reads data its -> its = i1 ++ i2 -> its <> [] ->
  (cut toks (items_bytes i1) <-> boundary (map item_class i1) (map item_class i2)).
Proof.
  intros Ht Hr E Hne. apply (tokenises_iff data its toks Hr) in Ht.
  destruct Ht as (segs & Hc & ->). destruct Hc as [C1 C2 C3].
  rewrite <- (C3 _ _ E Hne). split.
  - intros (t1 & t2 & Et & El). apply map_eq_app in Et. destruct Et as (s1 & s2 & Es & <- & <-).
    exists s1, s2. split; [exact Es|].
    rewrite <- items_bytes_concat in El. symmetry.
    apply (items_prefix_eq i1 (concat s1) i2 (concat s2)).
    + rewrite <- concat_app, <- Es, C1. auto.
    + rewrite <- E. apply (reads_nonempty _ _ Hr).
    + auto.
  - intros (s1 & s2 & Es & El). exists (map items_bytes s1), (map items_bytes s2).
    rewrite Es, map_app. split; [reflexivity|]. rewrite <- items_bytes_concat, El. reflexivity.
Qed.

(* a piece between two cuts with no cut inside *)
Lemma piece_between {A} (ts : list (list A)) l x :
  Forall (fun t => t <> []) ts -> x <> [] ->
  cut ts l -> cut ts (l ++ x) ->
  (forall y z, x = y ++ z -> y <> [] -> z <> [] -> ~ cut ts (l ++ y)) ->
  piece_at ts l x.
Proof.
  intros HF Hx (t1 & t2 & E & El) (u1 & u2 & E2 & El2) Hno.
  assert (exists w, u1 = t1 ++ w) as [w ->].
  { rewrite E in E2. destruct (app_compare _ _ _ _ E2) as [(m & Em & _)|(m & Em & _)].
    - destruct m as [|a m]; [exists []; rewrite app_nil_r in *; auto|].
      exfalso. subst t1. rewrite concat_app in El. rewrite El2 in El. simpl in El.
      apply (f_equal (@length _)) in El. rewrite !app_length in El.
      destruct x; [congruence|]. simpl in El. lia.
    - exists m. exact Em. }
  rewrite concat_app, El in El2. apply app_inv_head in El2.
  destruct w as [|a w]; [simpl in El2; congruence|].
  assert (a <> []) as Ha.
  { rewrite E2 in HF. rewrite <- app_assoc in HF. apply Forall_app in HF. destruct HF as [_ HF].
    simpl in HF. inversion HF; auto. }
  assert (concat w = []) as Ew.
  { destruct (concat w) as [|z zs] eqn:Ez; [reflexivity|]. exfalso.
    apply (Hno a (z :: zs)); auto; [simpl in El2; rewrite Ez in El2; auto|discriminate|].
    exists (t1 ++ [a]), (w ++ u2). rewrite E2, <- !app_assoc. split; [reflexivity|].
    rewrite concat_app, El. simpl. rewrite app_nil_r. reflexivity. }
  simpl in El2. rewrite Ew, app_nil_r in El2. subst a.
  exists t1, (w ++ u2). split; [|exact El]. rewrite E2, <- app_assoc. reflexivity.
Qed.

Lemma piece_cuts {A} (ts : list (list A)) l x : piece_at ts l x -> cut ts l /\ cut ts (l ++ x).
Proof.
  intros (t1 & t2 & E & El). split; [exists t1, (x :: t2)|exists (t1 ++ [x]), t2].
  - auto.
  - rewrite <- app_assoc. split; [exact E|]. rewrite concat_app, El. simpl. rewrite app_nil_r. reflexivity.
Qed.

(* cuts lie at item boundaries *)
Lemma cut_items data its toks l :
  tokenises data toks -> reads data its -> cut toks l ->
  exists i1 i2, its = i1 ++ i2 /\ items_bytes i1 = l.
Proof.
  intros Ht Hr (t1 & t2 & Et & El). apply (tokenises_iff data its toks Hr) in Ht.
  destruct Ht as (segs & Hc & ->). destruct Hc as [C1 C2 C3].
  apply map_eq_app in Et. destruct Et as (s1 & s2 & Es & <- & <-).
  exists (concat s1), (concat s2). split.
  - rewrite <- concat_app, <- Es. auto.
  - rewrite items_bytes_concat. exact El.
Qed.

(* an item with a boundary on both sides is a token *)
Lemma lone_item data toks i1 i i2 :
  tokenises data toks -> reads data (i1 ++ i :: i2) ->
  boundary (map item_class i1) (map item_class (i :: i2)) ->
  boundary (map item_class (i1 ++ [i])) (map item_class i2) ->
  piece_at toks (items_bytes i1) (item_bytes i).
Proof.
  intros Ht Hr B1 B2.
  pose proof (reads_nonempty _ _ Hr) as Hne.
  assert (item_bytes i <> []) as Hi.
  { rewrite Forall_forall in Hne. apply Hne. apply in_or_app. right. left. reflexivity. }
  assert (i1 ++ i :: i2 <> []) as Hnn by (destruct i1; discriminate).
  apply piece_between; auto.
  - apply (tokenises_nonempty _ _ Ht).
  - apply (cut_boundary _ _ _ i1 (i :: i2) Ht Hr eq_refl Hnn). exact B1.
  - assert (items_bytes i1 ++ item_bytes i = items_bytes (i1 ++ [i])) as ->.
    { rewrite items_bytes_app. simpl. rewrite app_nil_r. reflexivity. }
    apply (cut_boundary _ _ _ (i1 ++ [i]) i2 Ht Hr).
    + rewrite <- app_assoc. reflexivity.
    + exact Hnn.
    + exact B2.
  - intros y z Eyz Hy Hz Hc. destruct (cut_items _ _ _ _ Ht Hr Hc) as (j1 & j2 & Ej & Eb).
    assert (Hlen : forall x, In x (i1 ++ i :: i2) -> item_bytes x <> []).
    { rewrite Forall_forall in Hne. exact Hne. }
    destruct (app_compare _ _ _ _ Ej) as [(m & Em & _)|(m & Em & Em2)].
    + subst i1. rewrite items_bytes_app in Eb.
      apply (f_equal (@length _)) in Eb. rewrite !app_length in Eb.
      destruct y; [congruence|]. simpl in Eb. lia.
    + subst j1. rewrite items_bytes_app in Eb. apply app_inv_head in Eb.
      destruct m as [|x m]; [simpl in Eb; congruence|]. simpl in Em2. injection Em2 as <- _.
      simpl in Eb. apply (f_equal (@length _)) in Eb. rewrite Eyz, !app_length in Eb.
      destruct z; [congruence|]. simpl in Eb. lia.
Qed.

(* ---- boundaries around controlling characters *)

Lemma boundary_pos l p x r :
  Forall good (l ++ [p]) ->
  (boundary (l ++ [p]) (x :: r) <->
   spec_split p x (g9c (p :: rev l)) (g11 (p :: rev l)) (ri (p :: rev l)) = true).
Proof.
  intros H. pose proof (boundary_iff (rev l) p x r) as K. simpl rev in K.
  rewrite rev_involutive in K. apply K.
  apply Forall_app in H. destruct H as [H1 H2]. inversion H2; subst.
  constructor; auto. apply Forall_rev. exact H1.
Qed.

Definition ctl (c : cls) : bool := b_in [Control; CR; LF] c.

Lemma ctl_spec c : ctl c = true <-> (gcb c = CR \/ gcb c = LF \/ gcb c = Control).
Proof.
  unfold ctl. rewrite b_in_iff. unfold one_of. simpl. intuition congruence.
Qed.

Lemma split_ctl_left p x a b c : ctl p = true -> ~ (gcb p = CR /\ gcb x = LF) ->
  spec_split p x a b c = true.
Proof.
  intros H Hn. unfold spec_split, brules. cbn [first_true].
  destruct (b_is CR p && b_is LF x) eqn:E.
  { exfalso. apply Hn. apply andb_true_iff in E. rewrite !b_is_iff in E. exact E. }
  unfold ctl in H. rewrite H. reflexivity.
Qed.

Lemma split_ctl_right p x a b c : ctl x = true -> ~ (gcb p = CR /\ gcb x = LF) ->
  spec_split p x a b c = true.
Proof.
  intros H Hn. unfold spec_split, brules. cbn [first_true].
  destruct (b_is CR p && b_is LF x) eqn:E.
  { exfalso. apply Hn. apply andb_true_iff in E. rewrite !b_is_iff in E. exact E. }
  destruct (b_in [Control; CR; LF] p); [reflexivity|].
  unfold ctl in H. rewrite H. reflexivity.
Qed.

Lemma split_crlf p x a b c : gcb p = CR -> gcb x = LF -> spec_split p x a b c = false.
Proof.
  intros H1 H2. unfold spec_split, brules. cbn [first_true]. unfold b_is. rewrite H1, H2. reflexivity.
Qed.

Lemma split_extending p x a b c : In (gcb x) [Extend; ZWJ; SpacingMark] ->
  spec_split p x a b c = ctl p.
Proof.
  intros H. unfold spec_split, brules, ctl, b_is, b_in.
  destruct p as [gp ep ip], x as [gx ex ix]. simpl in *.
  destruct H as [<-|[<-|[<-|[]]]]; destruct gp; reflexivity.
Qed.

Lemma split_prepend p x a b c : gcb p = Prepend ->
  spec_split p x a b c = ctl x.
Proof.
  intros H. unfold spec_split, brules, ctl, b_is, b_in.
  destruct p as [gp ep ip], x as [gx ex ix]. simpl in *. subst gp.
  destruct gx; reflexivity.
Qed.

Lemma split_hangul p x a b c :
  (gcb p = L /\ In (gcb x) [L; V; LV; LVT]) \/
  (In (gcb p) [LV; V] /\ In (gcb x) [V; T]) \/
  (In (gcb p) [LVT; T] /\ gcb x = T) ->
  spec_split p x a b c = false.
Proof.
  destruct p as [gp ep ip], x as [gx ex ix]. unfold spec_split, brules, b_is, b_in. simpl.
  intros H. destruct H as [[-> H]|[[H H']|[H ->]]];
    repeat match goal with
           | H : _ \/ _ |- _ => destruct H
           | H : False |- _ => destruct H
           end; subst; reflexivity.
Qed.

Lemma good_consonant x : good x -> incb x = InCB_Consonant -> x = Cls Other false InCB_Consonant.
Proof.
  intros H E. unfold good, good_classes in H. simpl in H.
  repeat (destruct H as [<-|H]; [try discriminate; try reflexivity|]). destruct H.
Qed.

Lemma split_consonant p x a b c : good x -> incb x = InCB_Consonant ->
  spec_split p x a b c = negb (negb (ctl p) && (b_is Prepend p || (a =? 2)%N)).
Proof.
  intros G E. rewrite (good_consonant x G E). unfold spec_split, brules, ctl, b_is, b_in, b_incb.
  destruct p as [gp ep ip]. simpl. rewrite !andb_true_r, !andb_false_r.
  destruct gp; simpl; destruct (a =? 2)%N; reflexivity.
Qed.

Lemma split_pict p x a b c : good x -> extpict x = true -> gcb p = ZWJ ->
  spec_split p x a b c = negb (b =? 2)%N.
Proof.
  intros G E Hp. assert (x = Cls Other true InCB_None) as ->.
  { unfold good, good_classes in G. simpl in G.
    repeat (destruct G as [<-|G]; [try discriminate; try reflexivity|]). destruct G. }
  unfold spec_split, brules, ctl, b_is, b_in, b_incb.
  destruct p as [gp ep ip]. simpl in *. subst gp. simpl.
  rewrite !andb_true_r, !andb_false_r. destruct (b =? 2)%N; reflexivity.
Qed.

Lemma split_ri p x a b c : good x -> gcb x = Regional_Indicator -> gcb p = Regional_Indicator ->
  spec_split p x a b c = negb c.
Proof.
  intros G E Hp. assert (x = Cls Regional_Indicator false InCB_None) as ->.
  { unfold good, good_classes in G. simpl in G.
    repeat (destruct G as [<-|G]; [try discriminate; try reflexivity|]). destruct G. }
  unfold spec_split, brules, ctl, b_is, b_in, b_incb.
  destruct p as [gp ep ip]. simpl in *. subst gp. simpl.
  rewrite !andb_true_r, !andb_false_r. destruct c; reflexivity.
Qed.

Lemma good_items data its : reads data its -> Forall good (map item_class its).
Proof.
  intros H. apply reads_good in H. induction H; constructor; auto.
Qed.

(* the decision at a position inside the item list *)
Theorem cut_pos data toks i1 p x i2 :
  tokenises data toks -> reads data (i1 ++ p :: x :: i2) ->
  (cut toks (items_bytes (i1 ++ [p])) <->
   spec_split (item_class p) (item_class x)
     (g9c (rev (map item_class (i1 ++ [p])))) (g11 (rev (map item_class (i1 ++ [p]))))
     (ri (rev (map item_class (i1 ++ [p])))) = true).
Proof.
  intros Ht Hr.
  rewrite (cut_boundary data (i1 ++ p :: x :: i2) toks (i1 ++ [p]) (x :: i2) Ht Hr).
  - rewrite map_app. simpl map. rewrite rev_app_distr. simpl rev. simpl app.
    apply boundary_pos.
    pose proof (good_items _ _ Hr) as G. rewrite map_app in G. simpl in G.
    apply Forall_app in G. destruct G as [G1 G2]. inversion G2; subst.
    apply Forall_app. split; auto.
  - rewrite <- app_assoc. reflexivity.
  - destruct i1; discriminate.
Qed.

Lemma cut_start toks : cut toks (@nil byte).
Proof. exists [], toks. auto. Qed.

Lemma cut_end data toks : tokenises data toks -> cut toks data.
Proof. intros H. exists toks, []. rewrite app_nil_r. split; [reflexivity|]. apply tokenises_concat. exact H. Qed.

Lemma boundary_start x r : boundary [] (x :: r).
Proof. exact I. Qed.
Lemma boundary_end l p : boundary (l ++ [p]) [].
Proof. destruct l; exact I. Qed.

(* a controlling item that is not half of a CR LF is a token *)
Theorem lone_control data toks i1 i i2 :
  tokenises data toks -> reads data (i1 ++ i :: i2) ->
  ctl (item_class i) = true ->
  (forall j j1, i1 = j1 ++ [j] -> ~ (gcb (item_class j) = CR /\ gcb (item_class i) = LF)) ->
  (forall j j2, i2 = j :: j2 -> ~ (gcb (item_class i) = CR /\ gcb (item_class j) = LF)) ->
  piece_at toks (items_bytes i1) (item_bytes i).
Proof.
  intros Ht Hr Hc Hl Hrr.
  pose proof (good_items _ _ Hr) as G. rewrite map_app in G. simpl in G.
  apply (lone_item data toks i1 i i2 Ht Hr).
  - destruct (exists_last_or i1) as [->|(j1 & j & ->)]; [exact I|].
    simpl map. rewrite map_app. simpl map.
    apply boundary_pos.
    + rewrite map_app in G. apply Forall_app in G. apply G.
    + apply split_ctl_right; auto. apply (Hl j j1 eq_refl).
  - rewrite map_app. simpl map. destruct i2 as [|j j2]; [apply boundary_end|].
    simpl map. apply boundary_pos.
    + apply Forall_app in G. destruct G as [G1 G2]. inversion G2; subst. apply Forall_app; auto.
    + apply split_ctl_left; auto. apply (Hrr j j2 eq_refl).
Qed.
