(* The state machine of state.go summarises the left context that the rules of
   UAX #29 look at. *)
From Coq Require Import List NArith Arith Bool Lia.
From Coq Require Import ZArith ZifyBool ZifyNat ZifyN.
From Verif Require Import Spec.Classes Spec.UAX29.
From Verif Require Import Model.Base Model.CharProps Model.Machine Proofs.TableCheck.
Import ListNotations.
Local Open Scope N_scope.

(* ---- summaries of the left context; lists here are most recent first *)

Definition b_is (g : GCB) (c : cls) : bool := GCB_eqb (gcb c) g.
Definition b_in (gs : list GCB) (c : cls) : bool := existsb (GCB_eqb (gcb c)) gs.
Definition b_incb (i : InCB) (c : cls) : bool := InCB_eqb (incb c) i.

(* 0: no consonant; 1: consonant Extend*; 2: consonant [Extend Linker]* with a Linker *)
Definition step9c (x : cls) (a : N) : N :=
  if b_incb InCB_Consonant x then 1
  else if b_incb InCB_Linker x then (if a =? 0 then 0 else 2)
  else if b_incb InCB_Extend x then a
  else 0.
(* 1: pict Extend*; 2: pict Extend* ZWJ *)
Definition step11 (x : cls) (b : N) : N :=
  if extpict x then 1
  else if b_is ZWJ x then (if b =? 1 then 2 else 0)
  else if b_is Extend x then (if b =? 1 then 1 else 0)
  else 0.
(* odd number of regional indicators *)
Definition stepri (x : cls) (c : bool) : bool := if b_is Regional_Indicator x then negb c else false.

Definition g9c (rl : list cls) : N := fold_right step9c 0 rl.
Definition g11 (rl : list cls) : N := fold_right step11 0 rl.
Definition ri (rl : list cls) : bool := fold_right stepri false rl.

(* ---- the rules as a boolean function of the neighbours and the summaries *)

Definition brules (p x : cls) (a b : N) (c : bool) : list (bool * verdict) :=
  [ (b_is CR p && b_is LF x, Join);
    (b_in [Control; CR; LF] p, Split);
    (b_in [Control; CR; LF] x, Split);
    (b_is L p && b_in [L; V; LV; LVT] x, Join);
    (b_in [LV; V] p && b_in [V; T] x, Join);
    (b_in [LVT; T] p && b_is T x, Join);
    (b_in [Extend; ZWJ] x, Join);
    (b_is SpacingMark x, Join);
    (b_is Prepend p, Join);
    ((a =? 2) && b_incb InCB_Consonant x, Join);
    ((b =? 2) && extpict x, Join);
    (c && b_is Regional_Indicator x, Join);
    (true, Split) ].

Fixpoint first_true (rs : list (bool * verdict)) : verdict :=
  match rs with
  | [] => Split
  | (true, v) :: _ => v
  | (false, _) :: rs' => first_true rs'
  end.

Definition spec_split (p x : cls) (a b : N) (c : bool) : bool :=
  match first_true (brules p x a b c) with Split => true | Join => false end.

Lemma b_is_iff g c : b_is g c = true <-> is g c.
Proof. unfold b_is, is. destruct (GCB_eqb_spec (gcb c) g); split; congruence. Qed.

Lemma b_in_iff gs c : b_in gs c = true <-> one_of gs c.
Proof.
  unfold b_in, one_of. rewrite existsb_exists. split.
  - intros (g & Hin & E). destruct (GCB_eqb_spec (gcb c) g); congruence.
  - intros H. exists (gcb c). split; [exact H|]. destruct (GCB_eqb_spec (gcb c) (gcb c)); congruence.
Qed.

Lemma b_incb_iff i c : b_incb i c = true <-> incb c = i.
Proof. unfold b_incb. destruct (InCB_eqb_spec (incb c) i); split; congruence. Qed.

Lemma before_iff P q p : before P (q ++ [p]) <-> P p.
Proof.
  split.
  - intros (q' & c & E & H). apply app_inj_tail in E. destruct E as [-> ->]. exact H.
  - intros H. exists q, p. auto.
Qed.

Lemma after_iff P x r : after P (x :: r) <-> P x.
Proof.
  split.
  - intros (c & q & E & H). injection E as <- <-. exact H.
  - intros H. exists x, r. auto.
Qed.

(* ---- summaries = the look-behind patterns *)

Lemma g9c_pos rl :
  g9c rl <> 0 <-> exists m c q, rl = m ++ c :: q /\ consonant c /\ Forall ext_or_linker m.
Proof.
  induction rl as [|x rl IH].
  - split; [intros H; exfalso; apply H; reflexivity|].
    intros (m & c & q & E & _). destruct m; discriminate.
  - change (g9c (x :: rl)) with (step9c x (g9c rl)). unfold step9c.
    destruct (b_incb InCB_Consonant x) eqn:E1.
    { split; [|lia]. intros _. exists [], x, rl. apply b_incb_iff in E1. repeat split; auto. }
    assert (forall m c q, x :: rl = m ++ c :: q -> consonant c -> Forall ext_or_linker m ->
             ext_or_linker x /\ exists m' , rl = m' ++ c :: q /\ Forall ext_or_linker m') as Hcons.
    { intros [|y m] c q E Hc Hm; simpl in E; injection E as -> E.
      - apply b_incb_iff in Hc. congruence.
      - inversion Hm; subst. split; [assumption|]. exists m. auto. }
    assert (ext_or_linker x ->
      (g9c rl <> 0 <-> exists m c q, x :: rl = m ++ c :: q /\ consonant c /\ Forall ext_or_linker m)) as Hx.
    { intros Hx. rewrite IH. split.
      - intros (m & c & q & -> & Hc & Hm). exists (x :: m), c, q. repeat split; auto.
      - intros (m & c & q & E & Hc & Hm). destruct (Hcons m c q E Hc Hm) as [_ (m' & E' & Hm')].
        exists m', c, q. auto. }
    destruct (b_incb InCB_Linker x) eqn:E2.
    { rewrite <- Hx by (right; apply b_incb_iff; exact E2).
      destruct (N.eqb_spec (g9c rl) 0); lia. }
    destruct (b_incb InCB_Extend x) eqn:E3.
    { rewrite <- Hx by (left; apply b_incb_iff; exact E3). reflexivity. }
    split; [lia|]. intros (m & c & q & E & Hc & Hm).
    destruct (Hcons m c q E Hc Hm) as [[H|H] _]; apply b_incb_iff in H; congruence.
Qed.

Lemma g9c_two rl :
  g9c rl = 2 <->
  exists m2 k m1 c q, rl = m2 ++ k :: m1 ++ c :: q /\
    consonant c /\ Forall ext_or_linker m1 /\ linker k /\ Forall ext_or_linker m2.
Proof.
  induction rl as [|x rl IH].
  - split; [discriminate|]. intros (m & k & m1 & c & q & E & _). destruct m; discriminate.
  - change (g9c (x :: rl)) with (step9c x (g9c rl)). unfold step9c.
    assert (forall m2 k m1 c q, x :: rl = m2 ++ k :: m1 ++ c :: q ->
              Forall ext_or_linker m2 -> linker k -> ext_or_linker x) as Hext.
    { intros [|y m2] k m1 c q E Hm Hk; simpl in E; injection E as -> E.
      - right; exact Hk.
      - inversion Hm; assumption. }
    destruct (b_incb InCB_Consonant x) eqn:E1.
    { apply b_incb_iff in E1. split; [lia|].
      intros (m2 & k & m1 & c & q & E & Hc & Hm1 & Hk & Hm2).
      destruct (Hext _ _ _ _ _ E Hm2 Hk) as [H|H]; unfold ext_or_linker in *; congruence. }
    destruct (b_incb InCB_Linker x) eqn:E2.
    { apply b_incb_iff in E2. destruct (N.eqb_spec (g9c rl) 0) as [Z|Z].
      - split; [discriminate|]. intros (m2 & k & m1 & c & q & E & Hc & Hm1 & Hk & Hm2).
        exfalso. apply (proj2 (g9c_pos rl)); [|exact Z].
        destruct m2 as [|y m2]; simpl in E; injection E as -> E.
        + exists m1, c, q. auto.
        + exists (m2 ++ k :: m1), c, q. rewrite E, <- app_assoc. repeat split; auto.
          apply Forall_app. inversion Hm2; subst. split; [assumption|].
          constructor; [right; exact Hk|assumption].
      - split; [|reflexivity]. intros _. apply g9c_pos in Z.
        destruct Z as (m & c & q & -> & Hc & Hm). exists [], x, m, c, q. repeat split; auto. }
    destruct (b_incb InCB_Extend x) eqn:E3.
    { apply b_incb_iff in E3. rewrite IH. split.
      - intros (m2 & k & m1 & c & q & -> & Hc & Hm1 & Hk & Hm2).
        exists (x :: m2), k, m1, c, q. repeat split; auto. constructor; auto. left; auto.
      - intros (m2 & k & m1 & c & q & E & Hc & Hm1 & Hk & Hm2).
        destruct m2 as [|y m2]; simpl in E; injection E as -> E.
        + unfold linker in Hk. congruence.
        + exists m2, k, m1, c, q. inversion Hm2; subst. repeat split; auto. }
    split; [lia|]. intros (m2 & k & m1 & c & q & E & Hc & Hm1 & Hk & Hm2).
    destruct (Hext _ _ _ _ _ E Hm2 Hk) as [H|H]; apply b_incb_iff in H; congruence.
Qed.

Lemma good_pict_other x : good x -> extpict x = true -> gcb x = Other.
Proof.
  unfold good, good_classes. simpl. intros H.
  repeat (destruct H as [<-|H]; [simpl; congruence|]). destruct H.
Qed.

(* Pictographs have no other Grapheme_Cluster_Break value: all that the
   summaries need to know about the classes. *)
Definition tame (x : cls) : Prop := extpict x = true -> gcb x = Other.

Lemma good_tame rl : Forall good rl -> Forall tame rl.
Proof. intros H. eapply Forall_impl; [|exact H]. exact good_pict_other. Qed.

Lemma g11_one_tame rl : Forall tame rl ->
  (g11 rl = 1 <-> exists m e q, rl = m ++ e :: q /\ pict e /\ Forall (is Extend) m).
Proof.
  induction rl as [|x rl IH]; intros HG.
  - split; [discriminate|]. intros (m & c & q & E & _). destruct m; discriminate.
  - inversion HG as [|? ? Hgx HGr]; subst. specialize (IH HGr).
    change (g11 (x :: rl)) with (step11 x (g11 rl)). unfold step11.
    destruct (extpict x) eqn:E1.
    { split; [|reflexivity]. intros _. exists [], x, rl. repeat split; auto. }
    assert (forall m e q, x :: rl = m ++ e :: q -> pict e -> Forall (is Extend) m ->
             is Extend x /\ exists m', rl = m' ++ e :: q /\ Forall (is Extend) m') as Hcons.
    { intros [|y m] e q E He Hm; simpl in E; injection E as -> E.
      - unfold pict in He. congruence.
      - inversion Hm; subst. eauto. }
    destruct (b_is ZWJ x) eqn:E2.
    { apply b_is_iff in E2. split; [destruct (g11 rl =? 1); discriminate|].
      intros (m & e & q & E & He & Hm). destruct (Hcons m e q E He Hm) as [H _].
      unfold is in *. congruence. }
    destruct (b_is Extend x) eqn:E3.
    { apply b_is_iff in E3. destruct (N.eqb_spec (g11 rl) 1) as [Z|Z].
      - split; [|reflexivity]. intros _. apply IH in Z. destruct Z as (m & e & q & -> & He & Hm).
        exists (x :: m), e, q. repeat split; auto.
      - split; [discriminate|]. intros (m & e & q & E & He & Hm). exfalso. apply Z, IH.
        destruct (Hcons m e q E He Hm) as [_ (m' & E' & Hm')]. exists m', e, q. auto. }
    split; [discriminate|]. intros (m & e & q & E & He & Hm).
    destruct (Hcons m e q E He Hm) as [H _]. apply b_is_iff in H. congruence.
Qed.

Lemma g11_one rl : Forall good rl ->
  (g11 rl = 1 <-> exists m e q, rl = m ++ e :: q /\ pict e /\ Forall (is Extend) m).
Proof. intros H. apply g11_one_tame, good_tame, H. Qed.

Lemma g11_two_tame rl : Forall tame rl ->
  (g11 rl = 2 <-> exists z m e q, rl = z :: m ++ e :: q /\ pict e /\ Forall (is Extend) m /\ is ZWJ z).
Proof.
  destruct rl as [|x rl]; intros HG.
  - split; [discriminate|]. intros (z & m & c & q & E & _). discriminate.
  - inversion HG as [|? ? Hgx HGr]; subst.
    change (g11 (x :: rl)) with (step11 x (g11 rl)). unfold step11.
    destruct (extpict x) eqn:E1.
    { split; [discriminate|]. intros (z & m & e & q & E & He & Hm & Hz). injection E as -> E.
      apply Hgx in E1. unfold is in Hz. congruence. }
    destruct (b_is ZWJ x) eqn:E2.
    { apply b_is_iff in E2. destruct (N.eqb_spec (g11 rl) 1) as [Z|Z].
      - split; [|reflexivity]. intros _. apply (g11_one_tame rl HGr) in Z.
        destruct Z as (m & e & q & -> & He & Hm). exists x, m, e, q. repeat split; auto.
      - split; [discriminate|]. intros (z & m & e & q & E & He & Hm & Hz). injection E as -> E.
        exfalso. apply Z, (g11_one_tame rl HGr). exists m, e, q. auto. }
    split; [destruct (b_is Extend x), (g11 rl =? 1); discriminate|].
    intros (z & m & e & q & E & He & Hm & Hz). injection E as -> E.
    apply b_is_iff in Hz. congruence.
Qed.

Lemma g11_two rl : Forall good rl ->
  (g11 rl = 2 <-> exists z m e q, rl = z :: m ++ e :: q /\ pict e /\ Forall (is Extend) m /\ is ZWJ z).
Proof. intros H. apply g11_two_tame, good_tame, H. Qed.

Lemma ri_run rl :
  exists m q, rl = m ++ q /\ Forall (is Regional_Indicator) m /\
    (q = [] \/ exists c q', q = c :: q' /\ ~ is Regional_Indicator c) /\
    ri rl = Nat.odd (length m).
Proof.
  induction rl as [|x rl (m & q & -> & Hm & Hq & Hr)].
  - exists [], []. repeat split; auto.
  - destruct (b_is Regional_Indicator x) eqn:E.
    + exists (x :: m), q. repeat split; auto.
      { constructor; [apply b_is_iff|]; assumption. }
      change (ri (x :: m ++ q)) with (stepri x (ri (m ++ q))). unfold stepri. rewrite E, Hr.
      cbn [length]. rewrite Nat.odd_succ, <- Nat.negb_odd. reflexivity.
    + exists [], (x :: m ++ q). repeat split; auto.
      { right. exists x, (m ++ q). split; [reflexivity|]. rewrite <- b_is_iff. congruence. }
      change (ri (x :: m ++ q)) with (stepri x (ri (m ++ q))). unfold stepri. rewrite E. reflexivity.
Qed.

Lemma run_unique {A} (P : A -> Prop) m q m' q' :
  m ++ q = m' ++ q' -> Forall P m -> Forall P m' ->
  (q = [] \/ exists c t, q = c :: t /\ ~ P c) ->
  (q' = [] \/ exists c t, q' = c :: t /\ ~ P c) -> m = m'.
Proof.
  revert m'. induction m as [|x m IH]; intros [|y m'] E Hm Hm' Hq Hq'; simpl in E.
  - reflexivity.
  - subst q. destruct Hq as [Hq|(c & t & Hq & Hn)]; [discriminate|]. injection Hq as <- <-.
    inversion Hm'; contradiction.
  - subst q'. destruct Hq' as [Hq'|(c & t & Hq' & Hn)]; [discriminate|]. injection Hq' as <- <-.
    inversion Hm; contradiction.
  - injection E as -> E. inversion Hm; inversion Hm'; subst. f_equal. apply IH; auto.
Qed.

Lemma ri_iff rl :
  ri rl = true <->
  (Forall (is Regional_Indicator) (rev rl) /\ Nat.Odd (length (rev rl))) \/
  (exists p c m, rev rl = p ++ c :: m /\ ~ is Regional_Indicator c /\
     Forall (is Regional_Indicator) m /\ Nat.Odd (length m)).
Proof.
  destruct (ri_run rl) as (m & q & E & Hm & Hq & Hr). rewrite Hr, Nat.odd_spec. split.
  - intros Hodd. destruct Hq as [->|(c & q' & -> & Hc)].
    + left. rewrite app_nil_r in E. subst rl. rewrite rev_length. split; [|exact Hodd].
      apply Forall_rev. exact Hm.
    + right. exists (rev q'), c, (rev m). subst rl. rewrite rev_app_distr. simpl.
      rewrite <- app_assoc. repeat split; auto.
      * apply Forall_rev; exact Hm.
      * rewrite rev_length. exact Hodd.
  - intros [[Hall Hodd]|(p & c & m' & Er & Hc & Hm' & Hodd)].
    + assert (m = rl) as ->.
      { apply (run_unique (is Regional_Indicator) m q rl []).
        - rewrite app_nil_r; congruence.
        - exact Hm.
        - apply Forall_rev in Hall. rewrite rev_involutive in Hall. exact Hall.
        - exact Hq.
        - left; reflexivity. }
      rewrite rev_length in Hodd. exact Hodd.
    + assert (m = rev m') as ->.
      { apply (run_unique (is Regional_Indicator) m q (rev m') (c :: rev p)).
        - rewrite <- E, <- (rev_involutive rl), Er, rev_app_distr. simpl.
          rewrite <- app_assoc. reflexivity.
        - exact Hm.
        - apply Forall_rev; exact Hm'.
        - exact Hq.
        - right. exists c, (rev p). auto. }
      rewrite rev_length. exact Hodd.
Qed.

(* ---- rules reflected *)

Lemma GB9c_iff rl x r :
  GB9c (rev rl) (x :: r) <-> (g9c rl =? 2) && b_incb InCB_Consonant x = true.
Proof.
  unfold GB9c. rewrite after_iff, andb_true_iff, b_incb_iff, N.eqb_eq, g9c_two.
  apply and_iff_compat_r. split.
  - intros (p & c & m1 & k & m2 & E & H). exists (rev m2), k, (rev m1), c, (rev p).
    split.
    + rewrite <- (rev_involutive rl), E.
      repeat (rewrite rev_app_distr; simpl). rewrite <- !app_assoc. reflexivity.
    + destruct H as (Hc & H1 & Hk & H2). auto using Forall_rev.
  - intros (m2 & k & m1 & c & q & -> & Hc & H1 & Hk & H2).
    exists (rev q), c, (rev m1), k, (rev m2). split; [|auto using Forall_rev].
    repeat (rewrite rev_app_distr; simpl). rewrite <- !app_assoc. reflexivity.
Qed.

Lemma GB11_iff rl x r : Forall tame rl ->
  (GB11 (rev rl) (x :: r) <-> (g11 rl =? 2) && extpict x = true).
Proof.
  intros HG. unfold GB11. rewrite after_iff, andb_true_iff, N.eqb_eq, (g11_two_tame rl HG).
  apply and_iff_compat_r. split.
  - intros (p & e & m & z & E & H). exists z, (rev m), e, (rev p).
    split.
    + rewrite <- (rev_involutive rl), E.
      repeat (rewrite rev_app_distr; simpl). rewrite <- !app_assoc. reflexivity.
    + destruct H as (He & Hm & Hz). auto using Forall_rev.
  - intros (z & m & e & q & -> & He & Hm & Hz).
    exists (rev q), e, (rev m), z. split; [|auto using Forall_rev].
    simpl. repeat (rewrite rev_app_distr; simpl). rewrite <- !app_assoc. reflexivity.
Qed.

Lemma decides_det l r rs v : decides l r rs v -> forall w, decides l r rs w -> v = w.
Proof.
  induction 1 as [R v rs HR|R v rs w HR Hd IH]; intros u Hu; inversion Hu; subst; auto; contradiction.
Qed.

Lemma decides_first_true l r : forall rs bs,
  Forall2 (fun rv bv => (fst rv l r <-> fst bv = true) /\ snd rv = snd bv) rs bs ->
  (exists bv, In bv bs /\ fst bv = true) ->
  decides l r rs (first_true bs).
Proof.
  induction 1 as [|[R v] [b w] rs bs [H1 H2] HF IH]; intros (bv & Hin & Ht); simpl in *.
  - destruct Hin.
  - subst w. destruct b.
    + apply decides_here. tauto.
    + apply decides_later; [intros HR; apply H1 in HR; discriminate|].
      apply IH. destruct Hin as [<-|Hin]; [discriminate|]. exists bv; auto.
Qed.

Lemma first_true_app pre t t' :
  first_true t = first_true t' -> first_true (pre ++ t) = first_true (pre ++ t').
Proof. intros H. induction pre as [|[[|] v] pre IH]; simpl; auto. Qed.

Lemma boundary_iff_tame rl p x r :
  Forall tame (p :: rl) ->
  (boundary (rev (p :: rl)) (x :: r) <->
   spec_split p x (g9c (p :: rl)) (g11 (p :: rl)) (ri (p :: rl)) = true).
Proof.
  intros HG. unfold spec_split.
  set (bs := brules p x (g9c (p :: rl)) (g11 (p :: rl)) (ri (p :: rl))).
  set (l := rev (p :: rl)) in *.
  set (bs2 := firstn 11 bs ++
     [ (if Forall_dec (is Regional_Indicator)
            (fun c => match GCB_eqb_spec (gcb c) Regional_Indicator with
                      | ReflectT _ h => left h | ReflectF _ h => right h end) l
        then ri (p :: rl) && b_is Regional_Indicator x else false, Join);
       (if Forall_dec (is Regional_Indicator)
            (fun c => match GCB_eqb_spec (gcb c) Regional_Indicator with
                      | ReflectT _ h => left h | ReflectF _ h => right h end) l
        then false else ri (p :: rl) && b_is Regional_Indicator x, Join);
       (true, Split) ]).
  assert (first_true bs = first_true bs2) as ->.
  { unfold bs2. rewrite <- (firstn_skipn 11 bs) at 1. apply first_true_app.
    unfold bs. cbn [skipn brules]. destruct (Forall_dec _ _ _) as [D|D]; cbn [first_true];
      destruct (ri (p :: rl) && b_is Regional_Indicator x); reflexivity. }
  assert (l = rev rl ++ [p]) as El by reflexivity.
  assert (decides l (x :: r) rules (first_true bs2)) as HD.
  { apply decides_first_true.
    2:{ exists (true, Split). split; [|reflexivity]. unfold bs2. apply in_or_app. right. simpl. auto. }
    unfold rules, bs2, bs. cbn [firstn brules app].
    repeat match goal with |- Forall2 _ (_ :: _) (_ :: _) => constructor end; [..|constructor];
      (split; [|reflexivity]); cbn [fst].
    - unfold GB3. rewrite El, before_iff, after_iff, andb_true_iff, !b_is_iff. reflexivity.
    - unfold GB4. rewrite El, before_iff, b_in_iff. reflexivity.
    - unfold GB5. rewrite after_iff, b_in_iff. reflexivity.
    - unfold GB6. rewrite El, before_iff, after_iff, andb_true_iff, b_is_iff, b_in_iff. reflexivity.
    - unfold GB7. rewrite El, before_iff, after_iff, andb_true_iff, !b_in_iff. reflexivity.
    - unfold GB8. rewrite El, before_iff, after_iff, andb_true_iff, b_is_iff, b_in_iff. reflexivity.
    - unfold GB9. rewrite after_iff, b_in_iff. reflexivity.
    - unfold GB9a. rewrite after_iff, b_is_iff. reflexivity.
    - unfold GB9b. rewrite El, before_iff, b_is_iff. reflexivity.
    - apply GB9c_iff.
    - apply GB11_iff; exact HG.
    - unfold GB12. rewrite after_iff, <- b_is_iff. destruct (Forall_dec _ _ _) as [D|D].
      + rewrite andb_true_iff, ri_iff. fold l. split; [tauto|]. intros [[H|H] Hx]; [tauto|].
        exfalso. destruct H as (q & c & m & E & Hc & _). rewrite E in D.
        apply Forall_app in D. destruct D as [_ D]. inversion D; contradiction.
      + split; [tauto|discriminate].
    - unfold GB13. rewrite after_iff, <- b_is_iff. destruct (Forall_dec _ _ _) as [D|D].
      + split; [|discriminate]. intros [(q & c & m & E & Hc & _) _]. exfalso. rewrite E in D.
        apply Forall_app in D. destruct D as [_ D]. inversion D; contradiction.
      + rewrite andb_true_iff, ri_iff. fold l. tauto.
    - unfold GB999. tauto. }
  unfold boundary. destruct l as [|y l'] eqn:E'.
  { destruct (rev rl); discriminate. }
  destruct (first_true bs2); split; intros H; auto; try discriminate.
  pose proof (decides_det _ _ _ _ HD _ H). discriminate.
Qed.

Lemma boundary_iff rl p x r :
  Forall good (p :: rl) ->
  (boundary (rev (p :: rl)) (x :: r) <->
   spec_split p x (g9c (p :: rl)) (g11 (p :: rl)) (ri (p :: rl)) = true).
Proof. intros H. apply boundary_iff_tame, good_tame, H. Qed.

(* ---- the machine *)

(* summaries represented by each state *)
Definition A9c (s : State) : N := if s =? 4 then 1 else if s =? 5 then 2 else 0.
Definition B11 (s : State) : N := if s =? 2 then 1 else if s =? 3 then 2 else 0.
Definition Cri (s : State) : bool := s =? 1.

(* the previous character fits the state *)
Definition fits (s : State) (p : cls) : bool :=
  if s =? 0 then true
  else if s =? 1 then b_is Regional_Indicator p
  else if s =? 2 then extpict p || b_is Extend p
  else if s =? 3 then b_is ZWJ p
  else if s =? 4 then b_incb InCB_Consonant p || b_incb InCB_Extend p
  else if s =? 5 then b_incb InCB_Linker p || b_incb InCB_Extend p
  else false.

(* the state summarises the left context (most recent first) *)
Definition summary (rl : list cls) (s : State) : Prop :=
  match rl with
  | [] => False
  | p :: _ => fits s p = true /\ g9c rl = A9c s /\ g11 rl = B11 s /\ ri rl = Cri s
  end.

Definition states : list State := [0; 1; 2; 3; 4; 5].

Lemma fits_state s p : fits s p = true -> In s states.
Proof.
  unfold fits. intros H.
  destruct (N.eqb_spec s 0); [subst; simpl; tauto|].
  destruct (N.eqb_spec s 1); [subst; simpl; tauto|].
  destruct (N.eqb_spec s 2); [subst; simpl; tauto|].
  destruct (N.eqb_spec s 3); [subst; simpl; tauto|].
  destruct (N.eqb_spec s 4); [subst; simpl; tauto|].
  destruct (N.eqb_spec s 5); [subst; simpl; tauto|].
  discriminate.
Qed.

Definition summ_step (s s' : State) (x : cls) : bool :=
  fits s' x && (step9c x (A9c s) =? A9c s') && (step11 x (B11 s) =? B11 s')
  && Bool.eqb (stepri x (Cri s)) (Cri s').

Definition check_step : bool :=
  forallb (fun s => forallb (fun p => forallb (fun x =>
    negb (fits s p) ||
    (Bool.eqb (is_split s (enc p) (enc x)) (spec_split p x (A9c s) (B11 s) (Cri s)) &&
     match nextState (if is_split s (enc p) (enc x) then 0 else s) (enc x) with
     | Ret s' => summ_step s s' x
     | Panic _ => false
     end)) good_classes) good_classes) states.

Lemma check_step_ok : check_step = true. Proof. vm_compute. reflexivity. Qed.

Lemma step_facts s p x : fits s p = true -> good p -> good x ->
  is_split s (enc p) (enc x) = spec_split p x (A9c s) (B11 s) (Cri s) /\
  exists s', nextState (if is_split s (enc p) (enc x) then 0 else s) (enc x) = Ret s' /\
    summ_step s s' x = true.
Proof.
  intros Hf Hp Hx. pose proof check_step_ok as K. unfold check_step in K.
  rewrite forallb_forall in K. specialize (K s (fits_state s p Hf)).
  rewrite forallb_forall in K. specialize (K p Hp).
  rewrite forallb_forall in K. specialize (K x Hx).
  rewrite Hf in K. cbn [negb orb] in K. apply andb_true_iff in K. destruct K as [K1 K2].
  apply eqb_prop in K1. split; [exact K1|].
  destruct (nextState _ _) as [s'|]; [|discriminate]. exists s'. auto.
Qed.

Lemma summary_step p rl s s' x :
  summary (p :: rl) s -> summ_step s s' x = true -> summary (x :: p :: rl) s'.
Proof.
  intros (Hf & H1 & H2 & H3) H. unfold summ_step in H. rewrite !andb_true_iff in H.
  destruct H as [[[Hf' E1] E2] E3]. apply N.eqb_eq in E1, E2. apply eqb_prop in E3.
  repeat split; auto.
  - change (g9c (x :: p :: rl)) with (step9c x (g9c (p :: rl))). congruence.
  - change (g11 (x :: p :: rl)) with (step11 x (g11 (p :: rl))). congruence.
  - change (ri (x :: p :: rl)) with (stepri x (ri (p :: rl))). congruence.
Qed.

(* no split: Transition continues the summary *)
Theorem transition_join rl p x s r :
  summary (p :: rl) s -> Forall good (p :: rl) -> good x ->
  is_split s (enc p) (enc x) = false ->
  ~ boundary (rev (p :: rl)) (x :: r) /\
  exists s', nextState s (enc x) = Ret s' /\ summary (x :: p :: rl) s'.
Proof.
  intros HS HG Hx Hn. pose proof HS as (Hf & H1 & H2 & H3).
  assert (good p) as Hp by (inversion HG; assumption).
  destruct (step_facts s p x Hf Hp Hx) as [E (s' & En & Es)].
  split.
  - rewrite boundary_iff by assumption. rewrite H1, H2, H3. congruence.
  - rewrite Hn in En. exists s'. split; [exact En|]. eapply summary_step; eauto.
Qed.

(* split: restarting with Begin gives the summary of the whole context *)
Theorem transition_split rl p x s r :
  summary (p :: rl) s -> Forall good (p :: rl) -> good x ->
  is_split s (enc p) (enc x) = true ->
  boundary (rev (p :: rl)) (x :: r) /\
  exists s', Begin (enc x) = Ret s' /\ summary (x :: p :: rl) s'.
Proof.
  intros HS HG Hx Hn. pose proof HS as (Hf & H1 & H2 & H3).
  assert (good p) as Hp by (inversion HG; assumption).
  destruct (step_facts s p x Hf Hp Hx) as [E (s' & En & Es)].
  split.
  - apply boundary_iff; [assumption|]. rewrite H1, H2, H3. congruence.
  - rewrite Hn in En. exists s'. split; [exact En|]. eapply summary_step; eauto.
Qed.

Definition check_begin : bool :=
  forallb (fun x =>
    match nextState 0 (enc x) with Ret s' => summ_step 0 s' x | Panic _ => false end) good_classes.

Lemma check_begin_ok : check_begin = true. Proof. vm_compute. reflexivity. Qed.

Theorem begin_summary x : good x -> exists s, Begin (enc x) = Ret s /\ summary [x] s.
Proof.
  intros Hx. pose proof check_begin_ok as K. unfold check_begin in K.
  rewrite forallb_forall in K. specialize (K x Hx). unfold Begin, StateBase.
  destruct (nextState 0 (enc x)) as [s'|]; [|discriminate]. exists s'. split; [reflexivity|].
  unfold summ_step in K. rewrite !andb_true_iff in K.
  destruct K as [[[Hf' E1] E2] E3]. apply N.eqb_eq in E1, E2. apply eqb_prop in E3.
  repeat split; auto.
Qed.

(* control characters reset everything *)
Lemma control_summary rl : summary (control :: rl) 0.
Proof. repeat split. Qed.

Lemma boundary_control rl p r : boundary (rev (p :: rl)) (control :: r).
Proof.
  unfold boundary. destruct (rev (p :: rl)) eqn:E; [simpl in E; destruct (rev rl); discriminate|].
  rewrite <- E. clear E.
  apply decides_later; [intros [_ H]; rewrite after_iff in H; discriminate H|].
  destruct (b_in [Control; CR; LF] p) eqn:E.
  - apply decides_here. unfold GB4. simpl. rewrite before_iff. apply b_in_iff, E.
  - apply decides_later.
    + intros H. unfold GB4 in H. simpl in H. rewrite before_iff, <- b_in_iff in H. congruence.
    + apply decides_here. unfold GB5. rewrite after_iff. left; reflexivity.
Qed.

Lemma split_after_control x : good x -> is_split 0 (enc control) (enc x) = true.
Proof.
  unfold good, good_classes. simpl. intros H.
  repeat (destruct H as [<-|H]; [reflexivity|]). destruct H.
Qed.
