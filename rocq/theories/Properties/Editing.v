(* Properties C47, C48: parts of a text. *)
From Coq Require Import List NArith Arith Bool Lia Strings.Byte.
From Coq Require Import ZArith ZifyBool ZifyNat ZifyN.
From Verif Require Import Spec.Classes Spec.Utf8 Spec.UAX29 Spec.UcdRanges Spec.Segmentation.
From Verif Require Import Model.Base Model.CharProps Model.Lookup Model.Machine Model.Scan.
From Verif Require Import Proofs.Basics Proofs.TableCheck Proofs.LookupFacts Proofs.MachineFacts
  Proofs.ScanFacts Proofs.TextFacts Proofs.TextProps Proofs.DriverFacts Proofs.UnicodeFacts.
Import ListNotations.

Local Opaque committed LookupFirstChar fast_class ok1 leads conts.

(* ---- the rules look at one character to the right *)

Lemma after_head P x r r' : after P (x :: r) <-> after P (x :: r').
Proof. rewrite !after_iff. tauto. Qed.

Lemma rules_head l x r r' : Forall (fun Rv => fst Rv l (x :: r) <-> fst Rv l (x :: r')) rules.
Proof.
  unfold rules. repeat (constructor; [cbn [fst];
    first [unfold GB4, GB999; tauto|
           unfold GB3, GB5, GB6, GB7, GB8, GB9, GB9a, GB9b, GB9c, GB11, GB12, GB13; rewrite ?(after_head _ x r r'); tauto]|]).
  constructor.
Qed.

Lemma decides_ext l r l' r' rs v : Forall (fun Rv => fst Rv l r <-> fst Rv l' r') rs ->
  decides l r rs v -> decides l' r' rs v.
Proof.
  intros HF H. induction H as [R v rs HR|R v rs w HR H IH]; inversion HF as [|? ? HR' HF']; subst; cbn [fst] in HR'.
  - apply decides_here. tauto.
  - apply decides_later; [tauto|auto].
Qed.

Lemma boundary_head l x r r' : boundary l (x :: r) <-> boundary l (x :: r').
Proof.
  destruct l as [|c l]; [tauto|]. unfold boundary.
  split; apply decides_ext; apply rules_head.
Qed.

(* ---- cuts *)

Lemma cut_app_l {A} (s1 s2 : list (list A)) l : cut s1 l -> cut (s1 ++ s2) l.
Proof. intros (a & b & -> & E). exists a, (b ++ s2). rewrite app_assoc. auto. Qed.

Lemma concat_nil {A} (s : list (list A)) : Forall (fun s => s <> []) s -> concat s = [] -> s = [].
Proof.
  intros H E. destruct s as [|x s]; [reflexivity|]. inversion H; subst. cbn [concat] in E. apply app_eq_nil in E. tauto.
Qed.

Lemma cut_app_inv {A} (s1 s2 : list (list A)) l : Forall (fun s => s <> []) (s1 ++ s2) ->
  cut (s1 ++ s2) l -> length l <= length (concat s1) -> cut s1 l.
Proof.
  revert l. induction s1 as [|x s1 IH]; intros l HF (a & b & E & El) Hl.
  - cbn [concat length] in Hl. exists [], []. split; [reflexivity|]. destruct l; [reflexivity|cbn [length] in Hl; lia].
  - destruct a as [|y a].
    + cbn [concat] in El. subst l. exists [], (x :: s1). auto.
    + cbn [app] in E. injection E as <- E. cbn [concat] in El, Hl. inversion HF; subst.
      rewrite !app_length in Hl.
      destruct (IH (concat a)) as (a' & b' & E' & El'); [assumption|exists a, b; auto|lia|].
      exists (x :: a'), b'. rewrite E'. cbn [concat]. rewrite El'. auto.
Qed.

Lemma cut_concat {A} (s : list (list A)) l : cut s l -> exists r, concat s = l ++ r.
Proof. intros (a & b & -> & <-). exists (concat b). apply concat_app. Qed.

(* Inside the first part, the cuts of the parts are those of the whole. *)
Lemma cut_in_part ia ib ta toks l :
  reads (items_bytes ia) ia -> reads (items_bytes (ia ++ ib)) (ia ++ ib) ->
  tokenises (items_bytes ia) ta -> tokenises (items_bytes (ia ++ ib)) toks ->
  length l < length (items_bytes ia) -> (cut ta l <-> cut toks l).
Proof.
  intros Ra Rab Ha Hab Hl.
  assert (forall i1 i2, ia = i1 ++ i2 -> items_bytes i1 = l -> cut ta l <-> cut toks l) as K.
  { intros i1 i2 -> <-.
    assert (exists x i2', i2 = x :: i2') as (x & i2' & ->).
    { destruct i2 as [|x i2']; [rewrite app_nil_r in Hl; lia|eauto]. }
    assert (forall tl : list item, (i1 ++ x :: i2') ++ tl <> []) as Hne by (intros tl; destruct i1; discriminate).
    pose proof (Hne []) as Hne0. rewrite app_nil_r in Hne0.
    rewrite (cut_boundary _ _ _ i1 (x :: i2') Ha Ra eq_refl Hne0).
    rewrite (cut_boundary _ _ _ i1 ((x :: i2') ++ ib) Hab Rab (eq_sym (app_assoc _ _ _)) (Hne ib)).
    cbn [app map]. apply boundary_head. }
  split; intros H.
  - destruct (cut_items _ _ _ _ Ha Ra H) as (i1 & i2 & E & El). apply (K _ _ E El). exact H.
  - destruct (cut_items _ _ _ _ Hab Rab H) as (i1 & i2 & E & El).
    assert (exists i2', ia = i1 ++ i2') as (i2' & E').
    { apply app_eq_app in E. destruct E as (m & [[E1 E2]|[E1 E2]]); [eauto|].
      subst i1. rewrite items_bytes_app in El. subst l. rewrite app_length in Hl.
      assert (length (items_bytes ia) <= length (items_bytes ia) + length (items_bytes m)) by lia. lia. }
    apply (K _ _ E' El). exact H.
Qed.

(* ---- C47 *)

(* A reported boundary divides a text into two independent texts. *)
Theorem C47_divide : forall a b toks, tokenises (a ++ b) toks ->
  (cut toks a <-> exists ta tb, tokenises a ta /\ tokenises b tb /\ toks = ta ++ tb).
Proof.
  intros a b toks Ht. split.
  - intros Hc. destruct (reads_total (a ++ b)) as [its Hr].
    destruct (cut_items _ _ _ _ Ht Hr Hc) as (ia & ib & -> & Ea).
    assert (items_bytes ib = b) as Eb.
    { pose proof (reads_bytes _ _ Hr) as E. rewrite items_bytes_app, Ea in E. apply app_inv_head in E. exact E. }
    destruct (reads_split_l _ _ Hr ia ib eq_refl) as [Ra Rb].
    destruct Hc as (t1 & t2 & -> & Et).
    pose proof (tokenises_nonempty _ _ Ht) as HF.
    assert (tokenises b t2) as Hb.
    { clear - Ht Et HF. revert a Et Ht. induction t1 as [|t t1 IH]; intros a Et Ht.
      - cbn [concat] in Et. subst a. exact Ht.
      - cbn [app] in Ht, HF. inversion Ht as [|d n t' ts Hs Hrest]; subst.
        destruct (scan_flush _ _ _ Hs) as (Hn & _ & Etok).
        cbn [concat] in Hrest, Hs, Etok, Hn. inversion HF; subst.
        assert (length (firstn n ((t ++ concat t1) ++ b)) = n) as Ln by (apply firstn_length_le; exact Hn).
        rewrite <- Etok in Ln. subst n. rewrite <- app_assoc, skipn_app, skipn_all, Nat.sub_diag in Hrest.
        cbn [app skipn] in Hrest. eapply IH; [assumption|reflexivity|exact Hrest]. }
    exists t1, t2. split; [|auto].
    destruct (tokenises_total a) as [ta Ha].
    assert (t1 = ta) as ->; [|exact Ha].
    apply Forall_app in HF as HF'. destruct HF' as [HF1 HF2].
    apply pieces_unique; [exact HF1|eapply tokenises_nonempty; exact Ha|rewrite (tokenises_concat _ _ Ha); exact Et|].
    intros l. rewrite <- Ea in Ha. rewrite <- Eb, <- Ea, <- items_bytes_app in Ht, Hr.
    assert (length l < length (items_bytes ia) \/ length (items_bytes ia) <= length l) as [L|L] by lia.
    + rewrite (cut_in_part ia ib ta (t1 ++ t2) l Ra Hr Ha Ht L). split; [apply cut_app_l|].
      intros K. apply (cut_app_inv t1 t2); [exact HF|exact K|]. rewrite Et, <- Ea. lia.
    + assert (forall s, concat s = items_bytes ia -> cut s l -> l = items_bytes ia) as Hall.
      { intros s E K. destruct (cut_concat _ _ K) as [r Er]. rewrite E in Er.
        assert (r = []) as ->; [|rewrite app_nil_r in Er; auto].
        apply (f_equal (@length _)) in Er. rewrite app_length in Er. destruct r; [reflexivity|cbn [length] in Er; lia]. }
      split; intros K.
      * rewrite (Hall t1) by (assumption || congruence). apply cut_end. exact Ha.
      * rewrite (Hall ta) by (assumption || (eapply tokenises_concat; exact Ha)).
        exists t1, []. rewrite app_nil_r. split; [reflexivity|]. congruence.
  - intros (ta & tb & Ha & Hb & ->). exists ta, tb. split; [reflexivity|]. apply tokenises_concat. exact Ha.
Qed.

(* Appending - anything that does not begin with a continuation byte, in
   particular any text - changes at most the last cluster: the others stay, and
   the last one can only grow. *)
Theorem C47_append : forall a ta t b toks,
  tokenises a (ta ++ [t]) -> (forall c b', b = c :: b' -> ~ is_cont c) -> tokenises (a ++ b) toks ->
  exists u rest, toks = ta ++ (t ++ u) :: rest.
Proof.
  intros a ta t b toks Ha Hb Hab.
  assert (synced b) as Hsy by (destruct b; cbn [synced]; [exact I|apply (Hb _ _ eq_refl)]).
  destruct (reads_total a) as [ia Ra], (reads_total b) as [ib Rb].
  pose proof (reads_app _ _ Ra _ _ Rb Hsy) as Rab.
  pose proof (reads_bytes _ _ Ra) as Ea. pose proof (reads_bytes _ _ Rb) as Eb.
  pose proof (tokenises_nonempty _ _ Ha) as HFa. pose proof (tokenises_nonempty _ _ Hab) as HFab.
  pose proof (tokenises_concat _ _ Ha) as Ca. pose proof (tokenises_concat _ _ Hab) as Cab.
  assert (t <> []) as Hne by (apply Forall_app in HFa; destruct HFa as [_ HFa]; inversion HFa; assumption).
  assert (forall l, length l < length a -> (cut (ta ++ [t]) l <-> cut toks l)) as Hcut.
  { intros l Hl. rewrite <- Ea in Ha, Hl. rewrite <- Eb, <- Ea, <- items_bytes_app in Hab, Rab.
    rewrite <- Ea in Ra. rewrite Ea in Ra at 1. apply (cut_in_part ia ib); try assumption. rewrite Ea. exact Ra. }
  rewrite concat_app in Ca. cbn [concat] in Ca. rewrite app_nil_r in Ca.
  assert (length (concat ta) < length a) as Lta.
  { rewrite <- Ca, app_length. destruct t; [congruence|cbn [length]; lia]. }
  assert (cut toks (concat ta)) as (t1 & t2 & Et & El).
  { apply Hcut; [exact Lta|]. exists ta, [t]. auto. }
  assert (t1 = ta) as ->.
  { subst toks. apply Forall_app in HFab as HF'. destruct HF' as [HF1 _]. apply Forall_app in HFa as HF'. destruct HF' as [HF3 _].
    apply pieces_unique; [exact HF1|exact HF3|exact El|].
    intros l. split; intros K; destruct (cut_concat _ _ K) as [r Er].
    - apply (cut_app_inv ta [t]); [exact HFa| |].
      + apply Hcut; [|apply cut_app_l; exact K]. rewrite El in Er. rewrite Er, app_length in Lta. lia.
      + rewrite <- El, Er, app_length. lia.
    - apply (cut_app_inv t1 t2); [exact HFab| |].
      + apply Hcut; [|apply cut_app_l; exact K]. rewrite Er, app_length in Lta. lia.
      + rewrite El, Er, app_length. lia. }
  subst toks. rewrite concat_app in Cab. rewrite <- Ca, <- app_assoc in Cab. apply app_inv_head in Cab.
  destruct t2 as [|x t2].
  - cbn [concat] in Cab. symmetry in Cab. apply app_eq_nil in Cab. tauto.
  - cbn [concat] in Cab.
    assert (length t <= length x) as Lx.
    { assert (length x < length t \/ length t <= length x) as [L|L] by lia; [exfalso|exact L].
      assert (cut (ta ++ [t]) (concat ta ++ x)) as (s1 & s2 & Es & Els).
      { apply Hcut; [rewrite <- Ca, !app_length; lia|]. exists (ta ++ [x]), t2. rewrite <- app_assoc. split; [reflexivity|].
        rewrite concat_app. cbn [concat]. rewrite app_nil_r. reflexivity. }
      apply Forall_app in HFab as HF'. destruct HF' as [_ HFx]. inversion HFx as [|? ? Hx _]; subst.
      destruct (exists_last_or s2) as [->|(s2' & y & ->)].
      - rewrite app_nil_r in Es. subst s1. rewrite concat_app in Els. cbn [concat] in Els. rewrite app_nil_r in Els.
        apply app_inv_head in Els. subst x. lia.
      - rewrite app_assoc in Es. apply app_inj_tail in Es. destruct Es as [-> _].
        rewrite concat_app in Els. apply (f_equal (@length _)) in Els. rewrite !app_length in Els.
        destruct x; [congruence|cbn [length] in Els; lia]. }
    assert (exists u, x = t ++ u) as [u ->].
    { exists (skipn (length t) x). apply (f_equal (firstn (length t))) in Cab.
      rewrite !firstn_app, Nat.sub_diag, firstn_all, firstn_O, app_nil_r in Cab.
      replace (length t - length x) with 0 in Cab by lia. rewrite firstn_O, app_nil_r in Cab.
      rewrite <- Cab at 1. symmetry. apply firstn_skipn. }
    exists u, t2. reflexivity.
Qed.

(* e + acute, x; appending a diaeresis to x *)
Example C47_example :
  tokenises [x65; xcc; x81; x78] ([[x65; xcc; x81]] ++ [[x78]]) /\
  tokenises ([x65; xcc; x81; x78] ++ [xcc; x88; x79]) ([[x65; xcc; x81]] ++ ([x78] ++ [xcc; x88]) :: [[x79]]) /\
  cut [[x65; xcc; x81]; [x78]] [x65; xcc; x81].
Proof.
  split; [|split].
  - repeat (eapply tokenises_step; [vm_compute; reflexivity|]; cbn [skipn]). constructor.
  - repeat (eapply tokenises_step; [vm_compute; reflexivity|]; cbn [skipn]). constructor.
  - exists [[x65; xcc; x81]], [[x78]]. auto.
Qed.

(* Without the proviso it can be more than the last cluster: e, and the first
   two bytes of a combining mark; the third one follows. *)
Theorem C47_append_needs_proviso : exists a ta t b toks,
  tokenises a (ta ++ [t]) /\ tokenises (a ++ b) toks /\ ~ exists rest, toks = ta ++ rest.
Proof.
  exists [x65; xe2; x83], [[x65]; [xe2]], [x83], [x90], [[x65; xe2; x83; x90]].
  split; [|split].
  - repeat (eapply tokenises_step; [vm_compute; reflexivity|]; cbn [skipn]). constructor.
  - repeat (eapply tokenises_step; [vm_compute; reflexivity|]; cbn [skipn app]). constructor.
  - intros [rest E]. discriminate E.
Qed.

(* ---- C48 *)

Lemma before_context P l1 l2 : l2 <> [] -> (before P (l1 ++ l2) <-> before P l2).
Proof.
  intros H. destruct (exists_last_or l2) as [->|(l & x & ->)]; [congruence|]. rewrite app_assoc, !before_iff. tauto.
Qed.

(* With more text to the left, no boundary before a character that is not a
   regional indicator comes up. *)
Lemma boundary_context l1 l2 x r : l2 <> [] -> gcb x <> Regional_Indicator ->
  boundary (l1 ++ l2) (x :: r) -> boundary l2 (x :: r).
Proof.
  intros Hne Hx H.
  assert (decides (l1 ++ l2) (x :: r) rules Split) as D.
  { unfold boundary in H. destruct (l1 ++ l2) eqn:E; [|exact H]. apply app_eq_nil in E. tauto. }
  assert (decides l2 (x :: r) rules Split) as D'; [|unfold boundary; destruct l2; [congruence|exact D']].
  assert (forall (R : text -> text -> Prop) v rs, (R l2 (x :: r) -> R (l1 ++ l2) (x :: r)) ->
    (v = Split -> R (l1 ++ l2) (x :: r) -> R l2 (x :: r)) ->
    (decides (l1 ++ l2) (x :: r) rs Split -> decides l2 (x :: r) rs Split) ->
    decides (l1 ++ l2) (x :: r) ((R, v) :: rs) Split -> decides l2 (x :: r) ((R, v) :: rs) Split) as step.
  { intros R v rs K1 K2 K3 K. inversion K as [R' v' rs' HR|R' v' rs' w HR HD]; subst.
    - apply decides_here. auto.
    - apply decides_later; auto. }
  revert D. unfold rules.
  pose proof (fun P => before_context P l1 l2 Hne) as B.
  assert (~ is Regional_Indicator x) as Hri by exact Hx.
  repeat (apply step;
    [unfold GB3, GB4, GB5, GB6, GB7, GB8, GB9, GB9a, GB9b, GB12, GB13, GB999; rewrite ?B, ?after_iff; try tauto
    |unfold GB4, GB5, GB999; rewrite ?B, ?after_iff; try tauto; try discriminate|]).
  - intros [(p & c & m1 & k & m2 & E & K) Ha]. split; [|exact Ha].
    exists (l1 ++ p), c, m1, k, m2. rewrite E, <- app_assoc. auto.
  - intros [(p & e & m & z & E & K) Ha]. split; [|exact Ha]. exists (l1 ++ p), e, m, z. rewrite E, <- app_assoc. auto.
  - intros K. inversion K.
Qed.

(* Starting to read at an arbitrary character (b does not begin with a
   continuation byte): every boundary of the whole text that comes later is
   found, except possibly between two regional indicators. *)
Theorem C48_seek : forall a b toks toks' x,
  (forall c b', b = c :: b' -> ~ is_cont c) ->
  tokenises (a ++ b) toks -> tokenises b toks' -> x <> [] -> cut toks (a ++ x) ->
  (forall its i rest, reads b (its ++ i :: rest) -> items_bytes its = x -> gcb (item_class i) <> Regional_Indicator) ->
  cut toks' x.
Proof.
  intros a b toks toks' x Hb Hab Hbt Hx Hc Hri.
  assert (synced b) as Hsy by (destruct b; cbn [synced]; [exact I|apply (Hb _ _ eq_refl)]).
  destruct (reads_total a) as [ia Ra], (reads_total b) as [ib Rb].
  pose proof (reads_app _ _ Ra _ _ Rb Hsy) as Rab.
  destruct (cut_items _ _ _ _ Hab Rab Hc) as (i1 & i2 & E & El).
  pose proof (reads_bytes _ _ Ra) as Ea. pose proof (reads_bytes _ _ Rb) as Eb.
  apply app_eq_app in E. destruct E as (m & [[E1 E2]|[E1 E2]]).
  - exfalso. subst ia. rewrite items_bytes_app in Ea. rewrite El, <- app_assoc in Ea.
    apply (f_equal (@length _)) in Ea. rewrite !app_length in Ea. destruct x; [congruence|cbn [length] in Ea; lia].
  - subst i1 ib. rewrite items_bytes_app, Ea in El. apply app_inv_head in El. subst x.
    assert (m <> []) as Hm by (intros ->; apply Hx; reflexivity).
    assert (m ++ i2 <> []) as Hne by (destruct m; [congruence|discriminate]).
    apply (cut_boundary _ _ _ m i2 Hbt Rb eq_refl Hne).
    rewrite <- Ea, <- items_bytes_app in Hc.
    assert (boundary (map item_class (ia ++ m)) (map item_class i2)) as K.
    { apply (cut_boundary _ _ _ (ia ++ m) i2 Hab Rab); [apply app_assoc|destruct ia; [exact Hne|discriminate]|exact Hc]. }
    destruct i2 as [|i i2].
    + destruct (exists_last_or m) as [->|(m' & y & ->)]; [congruence|]. rewrite map_app. apply boundary_end.
    + cbn [map] in *. rewrite map_app in K. apply boundary_context in K; [exact K|destruct m; [congruence|discriminate]|].
      apply (Hri m i i2); [exact Rb|reflexivity].
Qed.

(* Between regional indicators it can be lost (four of them, starting at the
   second), and a boundary found may be none of the whole text (between ZWJ and
   an emoji). *)
Theorem C48_exceptions :
  (exists a b toks toks' x, tokenises (a ++ b) toks /\ tokenises b toks' /\ Forall scalar [0x1F1E9]%N /\
     a = utf8_encode 0x1F1E9 /\ x <> [] /\ cut toks (a ++ x) /\ ~ cut toks' x) /\
  (exists a b toks toks' x, tokenises (a ++ b) toks /\ tokenises b toks' /\
     a = utf8_encode 0x1F469 /\ x <> [] /\ cut toks' x /\ ~ cut toks (a ++ x)).
Proof.
  assert (forall (t : list (list byte)) l, ~ In l (map (fun k => concat (firstn k t)) (seq 0 (S (length t)))) -> ~ cut t l) as NC.
  { intros t l H (t1 & t2 & -> & <-). apply H. apply in_map_iff. exists (length t1).
    rewrite firstn_app, Nat.sub_diag, firstn_all, firstn_O, app_nil_r. split; [reflexivity|]. apply in_seq. rewrite app_length. lia. }
  split.
  - set (d := utf8_encode 0x1F1E9). set (e := utf8_encode 0x1F1EA).
    exists d, (e ++ d ++ e), [d ++ e; d ++ e], [e ++ d; e], e.
    split; [repeat (eapply tokenises_step; [vm_compute; reflexivity|]; cbn [skipn app d e]); constructor|].
    split; [repeat (eapply tokenises_step; [vm_compute; reflexivity|]; cbn [skipn app d e]); constructor|].
    split; [constructor; [apply scalarb_spec; reflexivity|constructor]|]. split; [reflexivity|]. split; [discriminate|]. split.
    + exists [d ++ e], [d ++ e]. split; [reflexivity|]. cbn [concat]. rewrite app_nil_r. reflexivity.
    + apply NC. vm_compute. intuition discriminate.
  - set (w := utf8_encode 0x1F469). set (z := utf8_encode 0x200D). set (l := utf8_encode 0x1F4BB).
    exists w, (z ++ l), [w ++ z ++ l], [z; l], z.
    split; [repeat (eapply tokenises_step; [vm_compute; reflexivity|]; cbn [skipn app w z l]); constructor|].
    split; [repeat (eapply tokenises_step; [vm_compute; reflexivity|]; cbn [skipn app w z l]); constructor|].
    split; [reflexivity|]. split; [discriminate|]. split.
    + exists [z], [l]. split; [reflexivity|]. cbn [concat]. rewrite app_nil_r. reflexivity.
    + apply NC. vm_compute. intuition discriminate.
Qed.

(* the hypotheses of C48 are met: "e", then acute, "x" *)
Example C48_example :
  tokenises ([x65] ++ [xcc; x81; x78]) [[x65; xcc; x81]; [x78]] /\ tokenises [xcc; x81; x78] [[xcc; x81]; [x78]] /\
  cut [[x65; xcc; x81]; [x78]] ([x65] ++ [xcc; x81]).
Proof.
  split; [|split].
  - repeat (eapply tokenises_step; [vm_compute; reflexivity|]; cbn [skipn app]). constructor.
  - repeat (eapply tokenises_step; [vm_compute; reflexivity|]; cbn [skipn app]). constructor.
  - exists [[x65; xcc; x81]], [[x78]]. auto.
Qed.

Definition all_theorems := (C47_divide, C47_append, C47_append_needs_proviso, C48_seek, C48_exceptions).
Print Assumptions all_theorems.
