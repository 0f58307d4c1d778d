(* Properties C56 (editing and restarting in the middle) and C57 (numbers of
   clusters), and parts of a token list (C47). *)
From Coq Require Import List NArith Arith Bool Lia Strings.Byte.
From Coq Require Import ZArith ZifyBool ZifyNat ZifyN.
From Verif Require Import Spec.Classes Spec.Utf8 Spec.UAX29 Spec.UcdRanges Spec.Segmentation.
From Verif Require Import Model.Base Model.CharProps Model.Lookup Model.Machine Model.Scan.
From Verif Require Import Proofs.Basics Proofs.TableCheck Proofs.MachineFacts Proofs.LookupFacts Proofs.ScanFacts
  Proofs.TextFacts Proofs.TextProps Proofs.UnicodeFacts Proofs.BoundaryFacts.
From Verif Require Import Properties.Splitting Properties.Editing.
Import ListNotations.

Local Opaque committed LookupFirstChar fast_class ok1 leads conts.

(* ---- C47: any part of the token list *)

Lemma same_pieces {A} : forall (t1 t2 ta tb : list (list A)), t1 ++ t2 = ta ++ tb -> concat t1 = concat ta ->
  Forall (fun t => t <> []) (t1 ++ t2) -> t1 = ta /\ t2 = tb.
Proof.
  induction t1 as [|x t1 IH]; intros t2 ta tb E C F.
  - destruct ta as [|y ta]; [auto|]. cbn [app] in E, F. subst t2. inversion F; subst. cbn [concat] in C.
    symmetry in C. apply app_eq_nil in C. tauto.
  - inversion F; subst. destruct ta as [|y ta].
    + cbn [concat] in C. apply app_eq_nil in C. tauto.
    + cbn [app] in E. assert (x = y) as <- by congruence. cbn [concat] in C. apply app_inv_head in C.
      destruct (IH t2 ta tb) as [-> ->]; [congruence|assumption|assumption|auto].
Qed.

(* Consecutive tokens of any data, taken by themselves, are the same tokens. *)
Theorem C47_part : forall data t1 t2 t3, tokenises data (t1 ++ t2 ++ t3) -> tokenises (concat t2) t2.
Proof.
  assert (forall t1 t2, tokenises (concat (t1 ++ t2)) (t1 ++ t2) -> tokenises (concat t1) t1 /\ tokenises (concat t2) t2) as K.
  { intros t1 t2 H. pose proof (tokenises_nonempty _ _ H) as F. rewrite concat_app in H.
    destruct (proj1 (C47_divide _ _ _ H)) as (ta & tb & Ha & Hb & E).
    { exists t1, t2. auto. }
    destruct (same_pieces t1 t2 ta tb E) as [-> ->]; [symmetry; eapply tokenises_concat; exact Ha|assumption|auto]. }
  intros data t1 t2 t3 H. pose proof (tokenises_concat _ _ H) as E. rewrite <- E in H.
  apply K in H. destruct H as [_ H]. apply K in H. tauto.
Qed.

Example C47_part_example : tokenises [x65; xcc; x81; x0d; x0a; x78; x79] ([[x65; xcc; x81]] ++ [[x0d; x0a]; [x78]] ++ [[x79]]).
Proof. apply C04_tokens_fn. vm_compute. reflexivity. Qed.

(* ---- C56 *)

(* Two texts a ++ b and a' ++ b whose parts before b make no difference after
   the first item of b. *)
Lemma same_after a a' b toks toks' ia ia' i ib :
  reads a ia -> reads a' ia' -> reads b (i :: ib) -> synced b ->
  tokenises (a ++ b) toks -> tokenises (a' ++ b) toks' ->
  alike (item_class i :: rev (map item_class ia)) (item_class i :: rev (map item_class ia')) ->
  forall x, x <> [] -> cut toks (a ++ x) -> cut toks' (a' ++ x).
Proof.
  intros Ra Ra' Rb Hsy Hab Hab' HA x Hx Hc.
  pose proof (reads_app _ _ Ra _ _ Rb Hsy) as Rab. pose proof (reads_app _ _ Ra' _ _ Rb Hsy) as Rab'.
  destruct (cut_items _ _ _ _ Hab Rab Hc) as (i1 & i2 & E & El).
  pose proof (reads_bytes _ _ Ra) as Ea. pose proof (reads_bytes _ _ Ra') as Ea'.
  apply app_eq_app in E. destruct E as (m & [[E1 E2]|[E1 E2]]).
  - exfalso. subst ia. rewrite items_bytes_app in Ea. rewrite El, <- app_assoc in Ea.
    apply (f_equal (@length _)) in Ea. rewrite !app_length in Ea. destruct x; [congruence|cbn [length] in Ea; lia].
  - subst i1. rewrite items_bytes_app, Ea in El. apply app_inv_head in El. subst x.
    destruct m as [|j m]; [exfalso; apply Hx; reflexivity|]. cbn [app] in E2. assert (j = i) as -> by congruence.
    assert (ib = m ++ i2) as -> by congruence.
    rewrite <- Ea' at 1. rewrite <- items_bytes_app.
    apply (cut_boundary _ _ _ (ia' ++ i :: m) i2 Hab' Rab'); [rewrite <- app_assoc; reflexivity|destruct ia'; discriminate|].
    rewrite <- Ea, <- items_bytes_app in Hc.
    apply (cut_boundary _ _ _ (ia ++ i :: m) i2 Hab Rab) in Hc; [|rewrite <- app_assoc; reflexivity|destruct ia; discriminate].
    destruct i2 as [|y i2].
    + destruct (exists_last_or (ia' ++ i :: m)) as [K|(m' & z & ->)]; [destruct ia'; discriminate K|]. rewrite map_app. apply boundary_end.
    + rewrite !map_app in *. cbn [map] in *.
      pose proof (good_items _ _ Rab) as G. pose proof (good_items _ _ Rab') as G'.
      rewrite !map_app in G, G'. cbn [map] in G, G'. rewrite !map_app in G, G'.
      rewrite app_comm_cons, app_assoc in G, G'. apply Forall_app in G. apply Forall_app in G'.
      apply (boundary_after (map item_class ia) (map item_class ia')); [apply G|apply G'|assumption|assumption].
Qed.

(* A character after which the text before it does not matter. *)
Definition safe (i : item) : Prop := ~ In (gcb (item_class i)) [Extend; ZWJ; Regional_Indicator].

Lemma safe_step (x : cls) rl : good x -> ~ In (gcb x) [Extend; ZWJ; Regional_Indicator] -> alike (x :: rl) [x].
Proof.
  unfold good, good_classes. cbn [In]. intros G N. unfold alike, g9c, g11, ri. cbn [fold_right].
  decompose [or] G; subst; try contradiction; try (exfalso; apply N; cbn; tauto); repeat split; reflexivity.
Qed.

Lemma first_good b i ib : reads b (i :: ib) -> good (item_class i).
Proof. intros R. apply good_items in R. inversion R; assumption. Qed.

Lemma item_synced b i ib : reads b (i :: ib) -> (forall c b', b = c :: b' -> ~ is_cont c) -> synced b.
Proof. intros _ H. destruct b; [exact I|]. apply (H _ _ eq_refl). Qed.

(* C56. From a character on that is neither Extend nor ZWJ nor a regional
   indicator, exactly the same later boundaries are found whatever comes before
   it - in particular when starting with it. *)
Theorem C56_local : forall a a' b i rest toks toks',
  (forall c b', b = c :: b' -> ~ is_cont c) -> reads b (i :: rest) ->
  ~ In (gcb (item_class i)) [Extend; ZWJ; Regional_Indicator] ->
  tokenises (a ++ b) toks -> tokenises (a' ++ b) toks' ->
  forall x, x <> [] -> (cut toks (a ++ x) <-> cut toks' (a' ++ x)).
Proof.
  intros a a' b i rest toks toks' Hb R Hs Ht Ht' x Hx.
  destruct (reads_total a) as [ia Ra], (reads_total a') as [ia' Ra']. pose proof (first_good _ _ _ R) as G.
  assert (forall l l', alike (item_class i :: l) (item_class i :: l')) as HA.
  { intros l l'. destruct (safe_step _ l G Hs) as (A & B & C). destruct (safe_step _ l' G Hs) as (A' & B' & C').
    unfold alike. rewrite A, A', B, B', C, C'. auto. }
  split.
  - apply (same_after a a' b toks toks' ia ia' i rest); auto. eapply item_synced; eassumption.
  - apply (same_after a' a b toks' toks ia' ia i rest); auto. eapply item_synced; eassumption.
Qed.

Theorem C56_restart : forall a b i rest toks toks',
  (forall c b', b = c :: b' -> ~ is_cont c) -> reads b (i :: rest) ->
  ~ In (gcb (item_class i)) [Extend; ZWJ; Regional_Indicator] ->
  tokenises (a ++ b) toks -> tokenises b toks' ->
  forall x, x <> [] -> (cut toks (a ++ x) <-> cut toks' x).
Proof. intros a b i rest toks toks' Hb R Hs Ht Ht'. apply (C56_local a [] b i rest); assumption. Qed.

(* the hypotheses are met: "e", then "x", acute, "y" *)
Example C56_example :
  reads [x78; xcc; x81; x79] [Char [x78] 0x78; Char [xcc; x81] 0x301; Char [x79] 0x79] /\
  ~ In (gcb (item_class (Char [x78] 0x78))) [Extend; ZWJ; Regional_Indicator] /\
  tokenises ([x65] ++ [x78; xcc; x81; x79]) [[x65]; [x78; xcc; x81]; [x79]] /\
  tokenises [x78; xcc; x81; x79] [[x78; xcc; x81]; [x79]].
Proof.
  split; [|split; [vm_compute; intuition discriminate|split; apply C04_tokens_fn; vm_compute; reflexivity]].
  apply (reads_utf8_text [0x78; 0x301; 0x79]%N). repeat constructor.
Qed.

(* A regional indicator is as good a place if an even number of them precede it. *)
Theorem C56_restart_flags : forall a flags b i rest toks toks',
  (forall its j, reads a (its ++ [j]) -> gcb (item_class j) <> Regional_Indicator) ->
  Forall scalar flags -> Forall (fun c => gcb (ucd_class c) = Regional_Indicator) flags -> Nat.Even (length flags) ->
  (forall c b', b = c :: b' -> ~ is_cont c) -> reads b (i :: rest) -> gcb (item_class i) = Regional_Indicator ->
  tokenises (a ++ utf8_text flags ++ b) toks -> tokenises b toks' ->
  forall x, x <> [] -> (cut toks (a ++ utf8_text flags ++ x) <-> cut toks' x).
Proof.
  intros a flags b i rest toks toks' Ha Hs HR HE Hb R Hi Ht Ht' x Hx.
  destruct (reads_total a) as [ia Ra]. pose proof (first_good _ _ _ R) as G.
  assert (synced (utf8_text flags)) as Hsy.
  { destruct flags as [|c fl]; [exact I|]. inversion Hs; subst. apply encode_synced. assumption. }
  pose proof (reads_app _ _ Ra _ _ (reads_utf8_text flags Hs) Hsy) as Raf.
  assert (alike (item_class i :: rev (map item_class (ia ++ map char flags))) [item_class i]) as HA.
  { assert (ri (rev (map item_class (ia ++ map char flags))) = false) as E.
    { rewrite map_app, rev_app_distr, map_class_chars by assumption.
      assert (ri (rev (map item_class ia)) = false) as E0.
      { destruct (exists_last_or ia) as [->|(l & j & ->)]; [reflexivity|]. rewrite map_app, rev_app_distr. cbn [map rev app].
        unfold ri. cbn [fold_right]. unfold stepri at 1. destruct (b_is Regional_Indicator (item_class j)) eqn:K; [|reflexivity].
        apply b_is_iff in K. exfalso. apply (Ha l j Ra K). }
      assert (forall l, Forall (fun c => gcb (ucd_class c) = Regional_Indicator) l -> forall r0,
        ri (rev (map ucd_class l) ++ r0) = xorb (Nat.odd (length l)) (ri r0)) as K.
      { clear. induction l as [|c l IH] using rev_ind; intros F r0; [cbn [map rev app length]; unfold Nat.odd; cbn [Nat.even negb]; rewrite xorb_false_l; reflexivity|].
        apply Forall_app in F. destruct F as [F Fc]. inversion Fc as [|? ? Ec _]; subst.
        rewrite map_app, rev_app_distr. cbn [map rev app]. unfold ri in *. cbn [fold_right]. rewrite (IH F).
        unfold stepri at 1. assert (b_is Regional_Indicator (ucd_class c) = true) as -> by (apply b_is_iff; exact Ec).
        rewrite app_length, Nat.add_1_r, Nat.odd_succ, <- Nat.negb_odd. destruct (Nat.odd (length l)), (fold_right stepri false r0); reflexivity. }
      rewrite K by assumption. rewrite E0, xorb_false_r. destruct (Nat.odd (length flags)) eqn:O; [|reflexivity].
      apply Nat.odd_spec in O. exfalso. destruct HE as [k1 HE], O as [k2 O]. lia. }
    unfold alike, g9c, g11, ri in *. cbn [fold_right]. rewrite E.
    assert (item_class i = Cls Regional_Indicator false InCB_None) as ->; [|repeat split; reflexivity].
    revert G Hi. clear. generalize (item_class i). intros c G Hi. unfold good, good_classes in G. cbn [In] in G.
    decompose [or] G; subst; try discriminate Hi; [reflexivity|contradiction]. }
  rewrite app_assoc in Ht |- *. split.
  - apply (same_after (a ++ utf8_text flags) [] b toks toks' (ia ++ map char flags) [] i rest); auto; [constructor|eapply item_synced; eassumption].
  - apply (same_after [] (a ++ utf8_text flags) b toks' toks [] (ia ++ map char flags) i rest); auto; [constructor|eapply item_synced; eassumption|].
    destruct HA as (A & B & C). unfold alike. cbn [map rev]. auto.
Qed.

Lemma not_cut (t : list (list byte)) l : ~ In l (map (fun k => concat (firstn k t)) (seq 0 (S (length t)))) -> ~ cut t l.
Proof.
  intros H (t1 & t2 & -> & <-). apply H. apply in_map_iff. exists (length t1).
  rewrite firstn_app, Nat.sub_diag, firstn_all, firstn_O, app_nil_r. split; [reflexivity|]. apply in_seq. rewrite app_length. lia.
Qed.

(* None of the three classes can be left out: Ka, virama | Ka; emoji, ZWJ | emoji;
   three regional indicators starting with the second. *)
Theorem C56_needed : forall g, In g [Extend; ZWJ; Regional_Indicator] ->
  exists a b i rest toks toks' x, (forall c b', b = c :: b' -> ~ is_cont c) /\ reads b (i :: rest) /\ gcb (item_class i) = g /\
    tokenises (a ++ b) toks /\ tokenises b toks' /\ x <> [] /\ ~ (cut toks (a ++ x) <-> cut toks' x).
Proof.
  assert (forall a0 b0 g, scalar a0 -> Forall scalar [b0; a0] -> gcb (ucd_class b0) = g ->
    tokens (utf8_text [a0; b0; a0]) = Ret [utf8_text [a0; b0; a0]] ->
    tokens (utf8_text [b0; a0]) = Ret [utf8_encode b0; utf8_encode a0] ->
    exists a b i rest toks toks' x, (forall c b', b = c :: b' -> ~ is_cont c) /\ reads b (i :: rest) /\ gcb (item_class i) = g /\
    tokenises (a ++ b) toks /\ tokenises b toks' /\ x <> [] /\ ~ (cut toks (a ++ x) <-> cut toks' x)) as K.
  { intros a0 b0 g Ha Hs Hg T1 T2. inversion Hs as [|? ? Hb0 _]; subst.
    exists (utf8_encode a0), (utf8_text [b0; a0]), (char b0), [char a0], [utf8_text [a0; b0; a0]], [utf8_encode b0; utf8_encode a0], (utf8_encode b0).
    split. { intros c b' E. pose proof (encode_synced b0 (utf8_text [a0]) Hb0) as S. change (utf8_text [b0; a0]) with (utf8_encode b0 ++ utf8_text [a0]) in E. rewrite E in S. exact S. }
    split; [apply (reads_utf8_text [b0; a0] Hs)|]. split; [rewrite class_char by assumption; reflexivity|].
    split; [apply C04_tokens_fn; exact T1|]. split; [apply C04_tokens_fn; exact T2|]. split; [apply encode_nonempty|].
    intros [_ H]. destruct (H) as (t1 & t2 & E & C).
    - exists [utf8_encode b0], [utf8_encode a0]. split; [reflexivity|]. cbn [concat]. apply app_nil_r.
    - destruct t1 as [|y [|z t1]]; [| |discriminate E].
      + cbn [concat] in C. symmetry in C. apply app_eq_nil in C. apply (encode_nonempty a0). tauto.
      + cbn [app] in E. assert (y = utf8_text [a0; b0; a0]) as -> by congruence. cbn [concat] in C. rewrite app_nil_r in C.
        unfold utf8_text in C. cbn [flat_map] in C. apply app_inv_head in C. rewrite <- (app_nil_r (utf8_encode b0)) in C at 2.
        apply app_inv_head in C. rewrite app_nil_r in C. apply (encode_nonempty a0 C). }
  intros g [<-|[<-|[<-|[]]]].
  - apply (K 0x915%N 0x94D%N); try (vm_compute; reflexivity); [apply scalarb_spec; reflexivity|].
    repeat (constructor; [apply scalarb_spec; reflexivity|]); constructor.
  - apply (K 0x1F469%N 0x200D%N); try (vm_compute; reflexivity); [apply scalarb_spec; reflexivity|].
    repeat (constructor; [apply scalarb_spec; reflexivity|]); constructor.
  - exists (utf8_encode 0x1F1E9%N), (utf8_text [0x1F1EA; 0x1F1E9]%N), (char 0x1F1EA%N), [char 0x1F1E9%N],
      [utf8_text [0x1F1E9; 0x1F1EA]%N; utf8_text [0x1F1E9]%N], [utf8_text [0x1F1EA; 0x1F1E9]%N], (utf8_encode 0x1F1EA%N).
    split. { intros c b' E. assert (c = xf0) as -> by (vm_compute in E; congruence). unfold is_cont. vm_compute. intuition discriminate. }
    split. { apply (reads_utf8_text [0x1F1EA; 0x1F1E9]%N). repeat (constructor; [apply scalarb_spec; reflexivity|]); constructor. }
    split; [vm_compute; reflexivity|]. split; [apply C04_tokens_fn; vm_compute; reflexivity|].
    split; [apply C04_tokens_fn; vm_compute; reflexivity|]. split; [apply encode_nonempty|].
    intros [H _]. apply (not_cut [utf8_text [0x1F1EA; 0x1F1E9]%N] (utf8_encode 0x1F1EA%N)).
    + vm_compute. intuition discriminate.
    + apply H. exists [utf8_text [0x1F1E9; 0x1F1EA]%N], [utf8_text [0x1F1E9]%N]. split; [reflexivity|]. vm_compute. reflexivity.
Qed.

(* ---- C57: numbers of clusters *)

(* The number of boundaries when reading xs after rl (most recent first). *)
Fixpoint count (rl : list cls) (xs : list cls) : nat :=
  match xs with
  | [] => 0
  | x :: xs' =>
      match rl with
      | [] => 1
      | p :: _ => if spec_split p x (g9c rl) (g11 rl) (ri rl) then 1 else 0
      end + count (x :: rl) xs'
  end.

Lemma count_app rl a : forall b, count rl (a ++ b) = count rl a + count (rev a ++ rl) b.
Proof.
  revert rl. induction a as [|x a IH]; intros rl b; [reflexivity|]. cbn [app count rev].
  rewrite IH. rewrite <- app_assoc. cbn [app]. lia.
Qed.

Lemma count_alike xs : forall p r1 r2, alike (p :: r1) (p :: r2) -> count (p :: r1) xs = count (p :: r2) xs.
Proof.
  induction xs as [|x xs IH]; intros p r1 r2 H; [reflexivity|]. cbn [count].
  rewrite (IH x (p :: r1) (p :: r2)) by (apply (alike_more [x]); exact H).
  destruct H as (-> & -> & ->). reflexivity.
Qed.

Lemma count_boundary l x r : Forall good l -> good x -> l <> [] -> boundary l (x :: r) ->
  count (rev l) (x :: r) = count [] (x :: r).
Proof.
  intros G Gx Hl B. pose proof (alike_boundary l x r Hl G Gx B) as HA. cbn [count].
  rewrite (count_alike r x (rev l) []) by exact HA. destruct (exists_last_or l) as [->|(l' & p & ->)]; [congruence|].
  apply boundary_pos in B; [|assumption]. rewrite rev_app_distr. cbn [rev app]. rewrite B. reflexivity.
Qed.

Lemma count_joined l : forall m, Forall good (l ++ m) -> l <> [] ->
  (forall u v, m = u ++ v -> v <> [] -> ~ boundary (l ++ u) v) -> count (rev l) m = 0.
Proof.
  intros m. revert l. induction m as [|x m IH]; intros l G Hl J; [reflexivity|]. cbn [count].
  assert (Forall good l) as Gl by (apply Forall_app in G; tauto).
  destruct (exists_last_or l) as [->|(l' & p & ->)]; [congruence|].
  assert (count (x :: rev (l' ++ [p])) m = 0) as ->.
  { change (x :: rev (l' ++ [p])) with (rev [x] ++ rev (l' ++ [p])). rewrite <- rev_app_distr. apply IH.
    - rewrite <- app_assoc. exact G.
    - destruct l'; discriminate.
    - intros u v E Hv. rewrite <- app_assoc. cbn [app]. apply J; [cbn [app]; congruence|assumption]. }
  specialize (J [] (x :: m) eq_refl ltac:(discriminate)). rewrite app_nil_r, boundary_pos in J by assumption.
  rewrite rev_app_distr. cbn [rev app]. destruct (spec_split _ _ _ _ _); [congruence|reflexivity].
Qed.

Lemma clusters_count {A} (cl : A -> cls) segs : forall txt, Forall good (map cl txt) -> clusters cl txt segs ->
  length segs = count [] (map cl txt).
Proof.
  induction segs as [|x segs IH]; intros txt G [C1 C2 C3].
  - cbn in C1. subst txt. reflexivity.
  - inversion C2 as [|? ? Hx C2']; subst. cbn [concat] in *. set (rest := concat segs) in *.
    assert (Forall good (map cl x) /\ Forall good (map cl rest)) as [Gx Gr] by (rewrite map_app in G; apply Forall_app; assumption).
    assert (x ++ rest <> []) as N by (destruct x; [congruence|discriminate]).
    assert (rest <> [] -> boundary (map cl x) (map cl rest)) as B.
    { intros Hr. apply C3; [reflexivity|assumption|]. exists [x], segs. split; [reflexivity|]. cbn. apply app_nil_r. }
    assert (map cl x <> []) as Nx by (destruct x; [congruence|discriminate]).
    rewrite map_app, count_app, app_nil_r.
    assert (count [] (map cl x) = 1) as ->.
    { destruct x as [|y x]; [congruence|]. cbn [map count]. change [cl y] with (rev [cl y]). rewrite count_joined; [reflexivity|exact Gx|discriminate|].
      intros u v E Hv Bd. destruct (map_split cl x u v E) as (u' & v' & -> & <- & <-).
      assert (cut ((y :: u' ++ v') :: segs) (y :: u')) as K.
      { apply (C3 (y :: u') (v' ++ rest)); [rewrite app_assoc; reflexivity|assumption|].
        destruct v' as [|z v']; [cbn in Hv; congruence|]. cbn [app map] in *. eapply boundary_one_right; [|exact Bd].
        inversion Gx as [|? ? G1 G2]; subst. rewrite map_app in G2. apply Forall_app in G2. constructor; tauto. }
      destruct (cut_inside _ _ _ K) as (l' & E2); [discriminate|]. apply (f_equal (@length _)) in E2.
      cbn [app length] in E2. rewrite !app_length in E2. destruct v'; [cbn in Hv; congruence|]. cbn [length] in E2. lia. }
    cbn [Nat.add length]. f_equal. rewrite (IH rest Gr).
    + destruct (map cl rest) as [|z r] eqn:E; [reflexivity|]. symmetry. apply count_boundary; [assumption|inversion Gr; assumption|assumption|].
      apply B. intros ->. discriminate E.
    + constructor; [reflexivity|assumption|]. intros l r E Hr. fold (@cut A segs l). destruct l as [|w l].
      * split; intros _; [|exists [], segs; auto]. cbn [app] in E. subst r. destruct rest; [congruence|]. exact I.
      * specialize (B Hr). rewrite <- (cut_next x segs (w :: l) Hx). unfold cut at 1. rewrite (C3 (x ++ w :: l) r); [|rewrite E, <- app_assoc; reflexivity|assumption].
        rewrite map_app. destruct r as [|y r].
        { cbn [map]. destruct (map cl x); [congruence|]. cbn. tauto. }
        rewrite E in B, G. rewrite map_app in G. cbn [app map] in B, G. rewrite map_app in G. cbn [map] in *.
        eapply boundary_fresh; [assumption| |exact B]. rewrite app_comm_cons, app_assoc in G. apply Forall_app in G. apply G.
Qed.

Lemma tokens_count data its toks : reads data its -> tokenises data toks -> length toks = count [] (map item_class its).
Proof.
  intros R H. pose proof (good_items _ _ R) as G. apply (tokenises_iff data its toks R) in H. destruct H as (segs & C & ->).
  rewrite map_length. apply clusters_count; assumption.
Qed.

(* How far the numbers can drift apart when two readings of the same characters
   are in different states (the first one knows more of what came before). *)
Definition gap (s1 s2 : State) : option (Z * Z) :=
  if (s1 =? s2)%N then Some (0, 0)%Z
  else if (s1 =? 0)%N && (s2 =? 1)%N then Some (-1, 0)%Z
  else if (s2 =? 0)%N then Some (0, 1)%Z
  else None.

Definition after_step (s : State) (p x : cls) : bool * res State :=
  let j := spec_split p x (A9c s) (B11 s) (Cri s) in (j, nextState (if j then 0%N else s) (enc x)).

Definition check_gap : bool :=
  forallb (fun s1 => forallb (fun s2 => forallb (fun p => forallb (fun x =>
    negb (fits s1 p) || negb (fits s2 p) ||
    match gap s1 s2 with
    | None => true
    | Some (lo, hi) =>
        let '(j1, n1) := after_step s1 p x in
        let '(j2, n2) := after_step s2 p x in
        match n1, n2 with
        | Ret s1', Ret s2' =>
            match gap s1' s2' with
            | Some (lo', hi') =>
                let d := (Z.b2z j2 - Z.b2z j1)%Z in (lo <=? d + lo')%Z && (d + hi' <=? hi)%Z
            | None => false
            end
        | _, _ => false
        end
    end) good_classes) good_classes) states) states.
Lemma check_gap_ok : check_gap = true.
Proof. vm_compute. reflexivity. Qed.

Lemma summary_after p rl s x : summary (p :: rl) s -> good p -> good x ->
  exists s', nextState (if spec_split p x (A9c s) (B11 s) (Cri s) then 0%N else s) (enc x) = Ret s' /\
    summary (x :: p :: rl) s' /\ fits s p = true /\
    spec_split p x (g9c (p :: rl)) (g11 (p :: rl)) (ri (p :: rl)) = spec_split p x (A9c s) (B11 s) (Cri s).
Proof.
  intros S Gp Gx. pose proof S as (F & A & B & C). destruct (step_facts s p x F Gp Gx) as (E & s' & N & K).
  rewrite E in N. exists s'. split; [exact N|]. split; [eapply summary_step; eassumption|]. split; [exact F|]. rewrite A, B, C. reflexivity.
Qed.

Lemma count_gap xs : forall p r1 r2 s1 s2 lo hi, good p -> Forall good xs ->
  summary (p :: r1) s1 -> summary (p :: r2) s2 -> gap s1 s2 = Some (lo, hi) ->
  (lo <= Z.of_nat (count (p :: r2) xs) - Z.of_nat (count (p :: r1) xs) <= hi)%Z.
Proof.
  induction xs as [|x xs IH]; intros p r1 r2 s1 s2 lo hi Gp G S1 S2 HG.
  - cbn [count]. unfold gap in HG.
    destruct (s1 =? s2)%N; [assert (lo = 0 /\ hi = 0)%Z by (split; congruence); lia|].
    destruct ((s1 =? 0)%N && (s2 =? 1)%N); [assert (lo = -1 /\ hi = 0)%Z by (split; congruence); lia|].
    destruct (s2 =? 0)%N; [assert (lo = 0 /\ hi = 1)%Z by (split; congruence); lia|discriminate].
  - inversion G as [|? ? Gx Gxs]; subst. cbn [count].
    destruct (summary_after p r1 s1 x S1 Gp Gx) as (s1' & N1 & S1' & F1 & E1).
    destruct (summary_after p r2 s2 x S2 Gp Gx) as (s2' & N2 & S2' & F2 & E2).
    rewrite E1, E2. pose proof check_gap_ok as K. unfold check_gap in K.
    rewrite forallb_forall in K. specialize (K s1 (fits_state _ _ F1)).
    rewrite forallb_forall in K. specialize (K s2 (fits_state _ _ F2)).
    rewrite forallb_forall in K. specialize (K p Gp).
    rewrite forallb_forall in K. specialize (K x Gx).
    rewrite F1, F2, HG in K. unfold after_step in K. rewrite N1, N2 in K. cbn [negb orb] in K.
    destruct (gap s1' s2') as [[lo' hi']|] eqn:G'; [|discriminate K]. apply andb_true_iff in K. destruct K as [K1 K2].
    specialize (IH x (p :: r1) (p :: r2) s1' s2' lo' hi' Gx Gxs S1' S2' G').
    destruct (spec_split p x (A9c s1) (B11 s1) (Cri s1)), (spec_split p x (A9c s2) (B11 s2) (Cri s2)); cbn [Z.b2z] in *; lia.
Qed.

Definition check_first : bool :=
  forallb (fun s => forallb (fun p => forallb (fun x =>
    negb (fits s p) || spec_split p x (A9c s) (B11 s) (Cri s) ||
    match nextState s (enc x), nextState 0%N (enc x) with
    | Ret s1, Ret s2 => match gap s1 s2 with Some (lo, hi) => (-1 <=? lo)%Z && (hi <=? 1)%Z | None => false end
    | _, _ => false
    end) good_classes) good_classes) states.
Lemma check_first_ok : check_first = true.
Proof. vm_compute. reflexivity. Qed.

Lemma count_context l b : Forall good l -> Forall good b -> count (rev l) b <= count [] b <= count (rev l) b + 2.
Proof.
  intros Gl Gb. destruct (exists_last_or l) as [->|(l' & p & ->)]; [cbn [rev]; lia|].
  destruct b as [|x b]; [cbn; lia|]. inversion Gb as [|? ? Gx Gb']; subst.
  destruct (boundary_dec (l' ++ [p]) x b Gl) as [B|B].
  - rewrite count_boundary; try assumption; [lia|destruct l'; discriminate].
  - rewrite boundary_pos in B by assumption.
    assert (rev (l' ++ [p]) = p :: rev l') as E by (rewrite rev_app_distr; reflexivity). rewrite E.
    assert (Forall good (p :: rev l')) as G by (rewrite <- E; apply Forall_rev; assumption).
    destruct (summary_exists (p :: rev l') ltac:(discriminate) G) as (s & S).
    destruct (summary_after p (rev l') s x S (Forall_inv G) Gx) as (s1 & N1 & S1 & F1 & E1).
    destruct (begin_summary x Gx) as (s2 & N2 & S2).
    cbn [count]. rewrite E1 in *. destruct (spec_split p x (A9c s) (B11 s) (Cri s)) eqn:J; [congruence|].
    pose proof check_first_ok as K. unfold check_first in K.
    rewrite forallb_forall in K. specialize (K s (fits_state _ _ F1)).
    rewrite forallb_forall in K. specialize (K p (Forall_inv G)).
    rewrite forallb_forall in K. specialize (K x Gx).
    unfold Begin, StateBase in N2. rewrite F1, J, N1, N2 in K. cbn [negb orb] in K.
    destruct (gap s1 s2) as [[lo hi]|] eqn:HG; [|discriminate K].
    pose proof (count_gap b x (p :: rev l') [] s1 s2 lo hi Gx Gb' S1 S2 HG). lia.
Qed.

(* C57. Putting two texts together can only save clusters, and at most two. *)
Theorem C57_concat : forall a b ta tb toks,
  (forall c b', b = c :: b' -> ~ is_cont c) ->
  tokenises a ta -> tokenises b tb -> tokenises (a ++ b) toks ->
  length toks <= length ta + length tb <= length toks + 2.
Proof.
  intros a b ta tb toks Hb Ha Htb Hab.
  assert (synced b) as Hsy by (destruct b; cbn [synced]; [exact I|apply (Hb _ _ eq_refl)]).
  destruct (reads_total a) as [ia Ra], (reads_total b) as [ib Rb].
  pose proof (reads_app _ _ Ra _ _ Rb Hsy) as Rab.
  rewrite (tokens_count _ _ _ Ra Ha), (tokens_count _ _ _ Rb Htb), (tokens_count _ _ _ Rab Hab).
  rewrite map_app, count_app, app_nil_r.
  pose proof (count_context (map item_class ia) (map item_class ib) (good_items _ _ Ra) (good_items _ _ Rb)). lia.
Qed.

(* Both extremes occur: nothing saved with letters, two with an emoji before ZWJ
   and an emoji. *)
Example C57_example :
  tokenises [x61] [[x61]] /\ tokenises [x62] [[x62]] /\ tokenises ([x61] ++ [x62]) [[x61]; [x62]] /\
  tokenises (utf8_encode 0x1F469) [utf8_encode 0x1F469] /\
  tokenises (utf8_text [0x200D; 0x1F469]%N) [utf8_encode 0x200D; utf8_encode 0x1F469] /\
  tokenises (utf8_encode 0x1F469 ++ utf8_text [0x200D; 0x1F469]%N) [utf8_text [0x1F469; 0x200D; 0x1F469]%N].
Proof. repeat split; apply C04_tokens_fn; vm_compute; reflexivity. Qed.

(* For any two pieces of data, even if a sequence is cut between them, the whole
   has at most as many tokens as the parts together. *)
Lemma bytes_split : forall its a b, items_bytes its = a ++ b ->
  (exists i1 i2, its = i1 ++ i2 /\ items_bytes i1 = a /\ items_bytes i2 = b) \/
  (exists i1 i i2 a2 b1, its = i1 ++ i :: i2 /\ item_bytes i = a2 ++ b1 /\ a2 <> [] /\ b1 <> [] /\
     a = items_bytes i1 ++ a2 /\ b = b1 ++ items_bytes i2).
Proof.
  induction its as [|i its IH]; intros a b E.
  - cbn in E. symmetry in E. apply app_eq_nil in E. destruct E as [-> ->]. left. exists [], []. auto.
  - change (items_bytes (i :: its)) with (item_bytes i ++ items_bytes its) in E.
    apply app_eq_app in E. destruct E as (m & [[E1 E2]|[E1 E2]]).
    + destruct a as [|a0 a]; [|destruct m as [|m0 m]].
      * left. exists [], (i :: its). cbn [app] in *. subst m. split; [reflexivity|]. split; [reflexivity|]. symmetry. exact E2.
      * left. exists [i], its. rewrite app_nil_r in E1. split; [reflexivity|]. split; [cbn; rewrite app_nil_r; exact E1|]. symmetry. exact E2.
      * right. exists [], i, its, (a0 :: a), (m0 :: m). repeat split; try assumption; discriminate.
    + destruct (IH m b E2) as [(i1 & i2 & -> & <- & <-)|(i1 & j & i2 & a2 & b1 & -> & Ej & Ha2 & Hb1 & -> & ->)].
      * left. exists (i :: i1), i2. split; [reflexivity|]. split; [symmetry; exact E1|reflexivity].
      * right. exists (i :: i1), j, i2, a2, b1. split; [reflexivity|]. split; [assumption|]. split; [assumption|]. split; [assumption|].
        split; [|reflexivity]. rewrite E1, app_assoc. reflexivity.
Qed.

Lemma cont_bad b rest : is_cont b -> ~ starts_seq (b :: rest).
Proof.
  intros Hb (bs & v & r & H & E). unfold is_cont in Hb. inversion H; subst; cbn [app] in E; injection E as ? ?; subst; lia.
Qed.

Lemma conts_read bs rest its : Forall is_cont bs -> reads rest its -> reads (bs ++ rest) (map Bad bs ++ its).
Proof.
  intros F R. induction F as [|b bs Hb F IH]; [assumption|]. cbn [app map]. apply reads_bad; [apply cont_bad; assumption|assumption].
Qed.

Lemma cut_sequence bs v a2 b1 : utf8_seq bs v -> bs = a2 ++ b1 -> a2 <> [] -> b1 <> [] ->
  synced a2 /\ reads a2 (map Bad a2) /\ Forall is_cont b1.
Proof.
  assert (forall a t, (0xC0 <= bval a)%N -> Forall is_cont t ->
    length t + 1 < (if (bval a <? 0xE0)%N then 2 else if (bval a <? 0xF0)%N then 3 else 4) ->
    (bval a < 0xF8)%N -> reads (a :: t) (map Bad (a :: t))) as K.
  { intros a t Ha Ft L Hm. cbn [map]. apply reads_bad.
    - intros (bs' & w & r & H & E). unfold is_cont in *.
      inversion H; subst; cbn [app] in E; injection E as ? ?; subst; cbn [length] in L;
        repeat match type of L with context [(?u <? ?w)%N] => destruct (N.ltb_spec u w) end; lia.
    - pose proof (conts_read t [] [] Ft reads_nil) as R. rewrite !app_nil_r in R. exact R. }
  intros H E Ha Hb. inversion H; subst;
    (destruct a2 as [|y0 [|y1 [|y2 [|y3 a2]]]]; [congruence|..]); cbn [app] in *;
    repeat match goal with E : _ :: _ = _ :: _ |- _ => injection E as ? ?; subst end;
    try congruence; try discriminate; unfold is_cont in *;
    try (exfalso; destruct a2; [apply Hb; cbn in *; congruence|discriminate]);
    (split; [cbn [synced]; unfold is_cont; lia|]); (split; [|repeat (constructor; [unfold is_cont; lia|]); constructor]);
    (apply K; [lia|repeat (constructor; [unfold is_cont; lia|]); constructor|cbn [length];
       repeat match goal with |- context [(?u <? ?w)%N] => destruct (N.ltb_spec u w) end; lia|lia]).
Qed.

Lemma count_control rl k : count rl (repeat control k) = k.
Proof.
  revert rl. induction k as [|k IH]; intros rl; [reflexivity|]. cbn [repeat count]. rewrite IH.
  destruct rl as [|p rl]; [reflexivity|]. rewrite split_ctl_right; [reflexivity|reflexivity|]. cbn. intuition discriminate.
Qed.

Lemma class_bad bs : map item_class (map Bad bs) = repeat control (length bs).
Proof. induction bs as [|b bs IH]; [reflexivity|]. cbn [map length repeat item_class]. rewrite IH. reflexivity. Qed.

Lemma count_after_control k b : Forall good b -> count [] (repeat control (S k) ++ b) = S k + count [] b.
Proof.
  intros G. rewrite count_app, count_control, app_nil_r. f_equal. destruct b as [|x b]; [reflexivity|].
  inversion G as [|? ? Gx _]; subst. apply count_boundary; [|assumption|discriminate|].
  - apply Forall_forall. intros c Hc. apply repeat_spec in Hc. subst c. apply good_control.
  - cbn [repeat]. rewrite repeat_cons. apply boundary_pos.
    + apply Forall_app. split; [|constructor; [apply good_control|constructor]].
      apply Forall_forall. intros c Hc. apply repeat_spec in Hc. subst c. apply good_control.
    + apply split_ctl_left; [reflexivity|]. cbn. intuition discriminate.
Qed.

Theorem C57_concat_any : forall a b ta tb toks,
  tokenises a ta -> tokenises b tb -> tokenises (a ++ b) toks -> length toks <= length ta + length tb.
Proof.
  intros a b ta tb toks Ha Hb Hab. destruct (reads_total (a ++ b)) as [its Rab].
  rewrite (tokens_count _ _ _ Rab Hab). pose proof (good_items _ _ Rab) as G.
  pose proof (reads_bytes _ _ Rab) as E.
  destruct (bytes_split its a b E) as [(i1 & i2 & -> & E1 & E2)|(i1 & i & i2 & a2 & b1 & -> & Ei & Ha2 & Hb1 & E1 & E2)].
  - destruct (reads_split_l _ _ Rab i1 i2 eq_refl) as [R1 R2]. rewrite E1 in R1. rewrite E2 in R2.
    rewrite (tokens_count _ _ _ R1 Ha), (tokens_count _ _ _ R2 Hb). rewrite map_app in *. apply Forall_app in G.
    rewrite count_app, app_nil_r. pose proof (count_context (map item_class i1) (map item_class i2) (proj1 G) (proj2 G)). lia.
  - destruct (reads_split_l _ _ Rab i1 (i :: i2) eq_refl) as [R1 R2].
    destruct (reads_split_l _ _ Rab (i1 ++ [i]) i2) as [_ R3]; [rewrite <- app_assoc; reflexivity|].
    assert (exists bs v, i = Char bs v /\ utf8_seq bs v) as (bs & v & -> & Hs).
    { change (items_bytes (i :: i2)) with (item_bytes i ++ items_bytes i2) in R2.
      inversion R2 as [|bs v rest its Hs Hr Eb Ei'|x rest its Hn Hr Eb Ei']; subst.
      - eauto.
      - exfalso. cbn [item_bytes] in Ei. destruct a2 as [|y [|z a2]]; [congruence| |discriminate Ei].
        cbn [app] in Ei. destruct b1; [congruence|discriminate Ei]. }
    cbn [item_bytes] in Ei. destruct (cut_sequence bs v a2 b1 Hs Ei Ha2 Hb1) as (Sy & Ra2 & Fc).
    pose proof (reads_app _ _ R1 _ _ Ra2 Sy) as Ra. pose proof (conts_read b1 _ _ Fc R3) as Rb.
    rewrite <- E1 in Ra. rewrite <- E2 in Rb.
    rewrite (tokens_count _ _ _ Ra Ha), (tokens_count _ _ _ Rb Hb).
    rewrite map_app in G. cbn [map] in G. apply Forall_app in G. destruct G as [G1 G2]. inversion G2 as [|? ? Gc G3]; subst.
    assert (exists k, length b1 = S k) as (k & Ek) by (destruct b1; [congruence|eexists; reflexivity]).
    assert (1 <= length a2) as La by (destruct a2; [congruence|cbn [length]; lia]).
    rewrite !map_app. cbn [map]. rewrite !class_bad, Ek, count_after_control by assumption.
    rewrite (count_app [] (map item_class i1) (repeat control (length a2))), count_control.
    change (item_class (Char (a2 ++ b1) v) :: map item_class i2) with ([item_class (Char (a2 ++ b1) v)] ++ map item_class i2).
    rewrite app_assoc, count_app, app_nil_r.
    pose proof (count_context (map item_class i1 ++ [item_class (Char (a2 ++ b1) v)]) (map item_class i2)) as K.
    rewrite (count_app [] (map item_class i1)), app_nil_r.
    assert (count (rev (map item_class i1)) [item_class (Char (a2 ++ b1) v)] <= 1) as C1.
    { cbn [count]. destruct (rev (map item_class i1)); [lia|]. destruct (spec_split _ _ _ _ _); lia. }
    specialize (K ltac:(apply Forall_app; split; [assumption|constructor; [assumption|constructor]]) G3). lia.
Qed.

(* the first two and the last two bytes of an emoji: four tokens become one *)
Example C57_any_example : tokenises [xf0; x9f] [[xf0]; [x9f]] /\ tokenises [x98; x80] [[x98]; [x80]] /\
  tokenises ([xf0; x9f] ++ [x98; x80]) [[xf0; x9f; x98; x80]].
Proof. repeat split; apply C04_tokens_fn; vm_compute; reflexivity. Qed.

(* A beginning of a text has at most as many clusters as the text; the rest of a
   text at most one more. *)
Theorem C57_parts : forall a b ta tb toks,
  (forall c b', b = c :: b' -> ~ is_cont c) ->
  tokenises a ta -> tokenises b tb -> tokenises (a ++ b) toks ->
  length ta <= length toks /\ length tb <= length toks + 1.
Proof.
  intros a b ta tb toks Hb Ha Htb Hab. pose proof (C57_concat a b ta tb toks Hb Ha Htb Hab) as H. split.
  - destruct (exists_last_or ta) as [->|(t1 & t & ->)]; [cbn; lia|].
    destruct (C47_append a t1 t b toks Ha Hb Hab) as (u & rest & ->). rewrite !app_length. cbn [length]. lia.
  - destruct ta as [|t ta]; [|cbn [length] in H; lia].
    pose proof (tokenises_concat _ _ Ha) as E. cbn in E. subst a. cbn [app] in Hab.
    assert (toks = tb) as -> by (eapply tokenises_unique; eassumption). lia.
Qed.

Definition all_theorems := (C47_part, C56_local, C56_restart, C56_restart_flags, C56_needed, C57_concat, C57_concat_any, C57_parts).
Print Assumptions all_theorems.
