(* Property C53: what a State stands for. *)
From Coq Require Import List NArith Arith Bool Lia Strings.Byte.
From Coq Require Import ZArith ZifyBool ZifyNat ZifyN.
From Verif Require Import Spec.Classes Spec.Utf8 Spec.UAX29 Spec.UcdRanges Spec.Histories Spec.Segmentation.
From Verif Require Import Model.Base Model.CharProps Model.Lookup Model.Machine Model.States.
From Verif Require Import Proofs.Basics Proofs.TableCheck Proofs.LookupFacts Proofs.MachineFacts Proofs.ScanFacts Proofs.TextFacts Proofs.DriverFacts Proofs.UnicodeFacts.
From Verif Require Import Properties.Lookup.
Import ListNotations.

Local Opaque committed LookupFirstChar.

(* ---- the four sequences *)

Lemma rev_split {A} (h : list A) p c m : h = p ++ c :: m <-> rev h = rev m ++ c :: rev p.
Proof.
  split.
  - intros ->. rewrite rev_app_distr. cbn [rev]. rewrite <- app_assoc. reflexivity.
  - intros E. rewrite <- (rev_involutive h), E, rev_app_distr. cbn [rev]. rewrite !rev_involutive, <- app_assoc. reflexivity.
Qed.

Lemma pict_iff h : Forall good h -> (ends_pict h <-> g11 (rev h) = 1%N).
Proof.
  intros G. rewrite g11_one by (apply Forall_rev; exact G). split.
  - intros (p & e & m & E & H1 & H2). exists (rev m), e, (rev p). split; [apply (proj1 (rev_split _ _ _ _)); exact E|].
    split; [exact H1|apply Forall_rev; exact H2].
  - intros (m & e & q & E & H1 & H2). exists (rev q), e, (rev m). split; [apply (proj2 (rev_split _ _ _ _)); rewrite !rev_involutive; exact E|].
    split; [exact H1|apply Forall_rev; exact H2].
Qed.

Lemma pict_zwj_iff h : Forall good h -> (ends_pict_zwj h <-> g11 (rev h) = 2%N).
Proof.
  intros G. rewrite g11_two by (apply Forall_rev; exact G). split.
  - intros (p & e & m & z & E & H1 & H2 & H3). exists z, (rev m), e, (rev p). split.
    + apply (proj1 (rev_split _ _ _ _)) in E. rewrite E, rev_app_distr. reflexivity.
    + split; [exact H1|]. split; [apply Forall_rev; exact H2|exact H3].
  - intros (z & m & e & q & E & H1 & H2 & H3). exists (rev q), e, (rev m), z. split.
    + apply (proj2 (rev_split _ _ _ _)). rewrite rev_app_distr, !rev_involutive. exact E.
    + split; [exact H1|]. split; [apply Forall_rev; exact H2|exact H3].
Qed.

Lemma linked_iff h : ends_linked h <-> g9c (rev h) = 2%N.
Proof.
  rewrite g9c_two. split.
  - intros (p & c & m & E & H1 & H2 & H3). apply Exists_exists in H3. destruct H3 as (k & Hk & Lk).
    apply in_split in Hk. destruct Hk as (m1 & m2 & ->).
    apply Forall_app in H2. destruct H2 as [F1 F2]. inversion F2 as [|? ? _ F2']; subst.
    exists (rev m2), k, (rev m1), c, (rev p). split.
    + rewrite rev_app_distr. cbn [rev]. rewrite rev_app_distr. cbn [rev]. rewrite <- !app_assoc. reflexivity.
    + repeat (split; [assumption || (apply Forall_rev; assumption)|]). apply Forall_rev. exact F2'.
  - intros (m2 & k & m1 & c & q & E & H1 & F1 & Lk & F2).
    exists (rev q), c, (rev m1 ++ k :: rev m2). split.
    + apply (proj2 (rev_split _ _ _ _)). rewrite rev_app_distr. cbn [rev]. rewrite !rev_involutive, <- !app_assoc. exact E.
    + split; [exact H1|]. split.
      * apply Forall_app. split; [apply Forall_rev; exact F1|]. constructor; [right; exact Lk|apply Forall_rev; exact F2].
      * apply Exists_exists. exists k. split; [apply in_or_app; right; left; reflexivity|exact Lk].
Qed.

Lemma g9c_one rl : g9c rl = 1%N <-> exists m c q, rl = m ++ c :: q /\ consonant c /\ Forall (fun x => incb x = InCB_Extend) m.
Proof.
  induction rl as [|x rl IH].
  - split; [discriminate|]. intros (m & c & q & E & _). destruct m; discriminate.
  - change (g9c (x :: rl)) with (step9c x (g9c rl)). unfold step9c.
    destruct (b_incb InCB_Consonant x) eqn:E1.
    { split; [intros _|reflexivity]. exists [], x, rl. split; [reflexivity|]. split; [apply b_incb_iff; exact E1|constructor]. }
    assert (forall m c q, x :: rl = m ++ c :: q -> consonant c -> Forall (fun x => incb x = InCB_Extend) m ->
              incb x = InCB_Extend /\ exists m', rl = m' ++ c :: q /\ Forall (fun x => incb x = InCB_Extend) m') as K.
    { intros [|y m] c q E Hc Hm; cbn [app] in E; injection E as -> ->.
      - apply b_incb_iff in Hc. congruence.
      - inversion Hm; subst. split; [assumption|]. exists m. auto. }
    destruct (b_incb InCB_Linker x) eqn:E2.
    { apply b_incb_iff in E2. split; [destruct (g9c rl =? 0)%N; discriminate|].
      intros (m & c & q & E & Hc & Hm). destruct (K m c q E Hc Hm) as [Q _]. congruence. }
    destruct (b_incb InCB_Extend x) eqn:E3.
    + apply b_incb_iff in E3. rewrite IH. split.
      * intros (m & c & q & -> & Hc & Hm). exists (x :: m), c, q. split; [reflexivity|]. split; [exact Hc|constructor; assumption].
      * intros (m & c & q & E & Hc & Hm). destruct (K m c q E Hc Hm) as (_ & m' & E' & Hm'). exists m', c, q. auto.
    + split; [discriminate|]. intros (m & c & q & E & Hc & Hm). destruct (K m c q E Hc Hm) as [Q _].
      apply b_incb_iff in Q. congruence.
Qed.

Lemma consonant_iff h : ends_consonant h <-> g9c (rev h) = 1%N.
Proof.
  rewrite g9c_one. split.
  - intros (p & e & m & E & H1 & H2). exists (rev m), e, (rev p). split; [apply (proj1 (rev_split _ _ _ _)); exact E|].
    split; [exact H1|apply Forall_rev; exact H2].
  - intros (m & e & q & E & H1 & H2). exists (rev q), e, (rev m). split; [apply (proj2 (rev_split _ _ _ _)); rewrite !rev_involutive; exact E|].
    split; [exact H1|apply Forall_rev; exact H2].
Qed.

(* ---- the runs *)

(* what is kept: the state, for the text so far, most recent character first *)
Definition holds_state (rl : text) (s : State) : Prop := In s states /\ g9c rl = A9c s /\ g11 rl = B11 s.

(* the state without restarts *)
Definition next_state (x : cls) (s : State) : State :=
  match nextState s (enc x) with Ret s' => s' | Panic _ => 0%N end.
Definition used_on (rl : text) : State := fold_right next_state 0%N rl.

Lemma check_plain : forallb (fun s => forallb (fun x =>
    match nextState s (enc x) with
    | Ret s' => existsb (N.eqb s') states && (A9c s' =? step9c x (A9c s))%N && (B11 s' =? step11 x (B11 s))%N
                && Bool.eqb (s' =? 1)%N ((s =? 0)%N && b_is Regional_Indicator x)
                && (if b_is Regional_Indicator x then (s' <=? 1)%N else true)
    | Panic _ => false
    end) good_classes) states = true.
Proof. vm_compute. reflexivity. Qed.

Lemma plain_step s x : In s states -> good x ->
  nextState s (enc x) = Ret (next_state x s) /\ In (next_state x s) states /\
  A9c (next_state x s) = step9c x (A9c s) /\ B11 (next_state x s) = step11 x (B11 s) /\
  ((next_state x s =? 1)%N = ((s =? 0)%N && b_is Regional_Indicator x)) /\
  (b_is Regional_Indicator x = true -> (next_state x s <= 1)%N).
Proof.
  intros Hs Hx. pose proof check_plain as K. rewrite forallb_forall in K. specialize (K s Hs).
  rewrite forallb_forall in K. specialize (K x Hx). unfold next_state.
  destruct (nextState s (enc x)) as [s'|]; [|discriminate]. rewrite !andb_true_iff in K. destruct K as [[[[K1 K2] K3] K4] K5].
  split; [reflexivity|]. split.
  { apply existsb_exists in K1. destruct K1 as (y & Hy & E). apply N.eqb_eq in E. rewrite E. exact Hy. }
  apply N.eqb_eq in K2, K3. apply eqb_prop in K4. split; [exact K2|]. split; [exact K3|]. split; [exact K4|].
  intros R. rewrite R in K5. lia.
Qed.

Lemma plain_holds rl : Forall good rl -> holds_state rl (used_on rl).
Proof.
  induction rl as [|x rl IH]; intros G; [split; [left; reflexivity|split; reflexivity]|].
  inversion G as [|? ? Gx G']; subst. destruct (IH G') as (I1 & I2 & I3).
  destruct (plain_step (used_on rl) x I1 Gx) as (_ & H1 & H2 & H3 & _).
  change (used_on (x :: rl)) with (next_state x (used_on rl)). split; [exact H1|].
  change (g9c (x :: rl)) with (step9c x (g9c rl)). change (g11 (x :: rl)) with (step11 x (g11 rl)). split; congruence.
Qed.

Lemma from_plain : forall xs rl p, Forall good rl -> Forall good xs ->
  state_from false (used_on rl) (enc p) (map enc xs) = Ret (used_on (rev xs ++ rl)).
Proof.
  induction xs as [|x xs IH]; intros rl p G Gx; [reflexivity|]. inversion Gx as [|? ? Hx Gx']; subst.
  cbn [map state_from andb]. destruct (plain_holds rl G) as (I1 & _).
  destruct (plain_step (used_on rl) x I1 Hx) as (E & _). unfold Transition. rewrite E. cbn [bind].
  change (next_state x (used_on rl)) with (used_on (x :: rl)). rewrite (IH (x :: rl) x); [|constructor; assumption|assumption].
  cbn [rev]. rewrite <- app_assoc. reflexivity.
Qed.

Lemma after_plain h : Forall good h -> state_after false (map enc h) = Ret (used_on (rev h)).
Proof.
  destruct h as [|x h]; intros G; [reflexivity|]. inversion G as [|? ? Hx G']; subst. cbn [map state_after]. unfold Begin.
  change StateBase with (used_on []). destruct (plain_step (used_on []) x) as (E & _); [left; reflexivity|exact Hx|].
  rewrite E. cbn [bind]. change (next_state x (used_on [])) with (used_on [x]).
  rewrite (from_plain h [x] x); [reflexivity|constructor; [exact Hx|constructor]|exact G'].
Qed.

Lemma from_restart : forall xs s p rl, summary (p :: rl) s -> Forall good (p :: rl) -> Forall good xs ->
  exists s', state_from true s (enc p) (map enc xs) = Ret s' /\ summary (rev xs ++ p :: rl) s'.
Proof.
  induction xs as [|x xs IH]; intros s p rl HS Hrl Hxs; cbn [map state_from].
  - exists s. split; [reflexivity|exact HS].
  - inversion Hxs as [|? ? Gx Hxs']; subst.
    assert (exists s1, (let! (split, s') := Transition s (enc p) (enc x) in
              let! s'' := if true && split then Begin (enc x) else Ret s' in Ret s'') = Ret s1 /\ summary (x :: p :: rl) s1) as (s1 & E & HS1).
    { destruct (is_split s (enc p) (enc x)) eqn:Esp.
      - destruct (transition_split rl p x s xs HS Hrl Gx Esp) as (HB & s' & Eb & HS').
        assert (In s states) as Hs by (destruct HS as [Hf _]; eapply fits_state; exact Hf).
        destruct (Transition_total s (enc p) (enc x) Hs) as (s0 & _ & _ & Et).
        exists s'. rewrite Et, Esp. cbn [bind andb]. rewrite Eb. auto.
      - destruct (transition_join rl p x s xs HS Hrl Gx Esp) as (HB & s' & En & HS').
        exists s'. unfold Transition. rewrite En. cbn [bind]. rewrite Esp. auto. }
    destruct (IH s1 x (p :: rl) HS1 (Forall_cons _ Gx Hrl) Hxs') as (s' & E' & HS'').
    exists s'. split; [|cbn [rev]; rewrite <- app_assoc; exact HS''].
    rewrite <- E'. destruct (Transition s (enc p) (enc x)) as [[split s2]|]; cbn [bind] in E |- *; [|discriminate].
    destruct (if true && split then Begin (enc x) else Ret s2) as [s3|]; cbn [bind] in E |- *; [|discriminate].
    assert (s3 = s1) as -> by congruence. reflexivity.
Qed.

Lemma after_restart x h : Forall good (x :: h) ->
  exists s, state_after true (map enc (x :: h)) = Ret s /\ summary (rev (x :: h)) s.
Proof.
  intros G. inversion G as [|? ? Gx Gh]; subst. cbn [map state_after].
  destruct (begin_summary x Gx) as (s & E & HS). rewrite E. cbn [bind].
  destruct (from_restart h s x [] HS (Forall_cons _ Gx (Forall_nil _)) Gh) as (s' & E' & HS').
  exists s'. split; [exact E'|exact HS'].
Qed.

Lemma after_holds restart h : Forall good h -> exists s, state_after restart (map enc h) = Ret s /\ holds_state (rev h) s.
Proof.
  intros G. destruct restart.
  - destruct h as [|x h]; [exists 0%N; split; [reflexivity|split; [left; reflexivity|split; reflexivity]]|].
    destruct (after_restart x h G) as (s & E & HS). exists s. split; [exact E|].
    destruct (rev (x :: h)) as [|p rl]; [destruct HS|]. destruct HS as (Hf & H1 & H2 & _).
    split; [eapply fits_state; exact Hf|]. split; assumption.
  - exists (used_on (rev h)). split; [apply after_plain; exact G|]. apply plain_holds, Forall_rev, G.
Qed.

(* ---- C53 *)

Lemma states_values s v9 v11 : In s states -> v9 = A9c s -> v11 = B11 s ->
  (s = StateGB11BeforeZWJ <-> v11 = 1%N) /\ (s = StateGB11AfterZWJ <-> v11 = 2%N) /\
  (s = StateGB9cConsonant <-> v9 = 1%N) /\ (s = StateGB9cLinker <-> v9 = 2%N).
Proof.
  intros Hs -> ->. unfold states in Hs. repeat (destruct Hs as [<-|Hs]; [vm_compute; repeat split; congruence|]). destruct Hs.
Qed.

(* Driven either way, the machine is in one of its six states, and the two states
   for emoji sequences and the two for Indic conjuncts mean what their comments
   say about the characters so far. *)
Theorem C53_sequences restart cs ps : Forall scalar cs -> text_properties cs ps ->
  exists s, state_after restart ps = Ret s /\
    In s [StateBase; StateAwaitEmojiFlag; StateGB11BeforeZWJ; StateGB11AfterZWJ; StateGB9cConsonant; StateGB9cLinker] /\
    (s = StateGB11BeforeZWJ <-> ends_pict (map ucd_class cs)) /\
    (s = StateGB11AfterZWJ <-> ends_pict_zwj (map ucd_class cs)) /\
    (s = StateGB9cConsonant <-> ends_consonant (map ucd_class cs)) /\
    (s = StateGB9cLinker <-> ends_linked (map ucd_class cs)).
Proof.
  intros Hcs Hps. destruct (text_properties_enc cs ps Hcs Hps) as [-> G].
  destruct (after_holds restart _ G) as (s & E & Hs & H1 & H2). exists s. split; [exact E|]. split; [exact Hs|].
  rewrite (pict_iff _ G), (pict_zwj_iff _ G), consonant_iff, linked_iff. exact (states_values s _ _ Hs H1 H2).
Qed.

Lemma flags_iff h : ri (rev h) = true <-> exists before n, ends_flags h before n /\ Nat.Odd n.
Proof.
  rewrite ri_iff, rev_involutive. split.
  - intros [[H1 H2]|(p & c & m & E & Hc & Hm & Ho)].
    + exists [], (length h). split; [|exact H2]. exists h. repeat split; auto. intros p c E. destruct p; discriminate.
    + exists (p ++ [c]), (length m). split; [|exact Ho]. exists m. rewrite <- app_assoc. repeat split; auto.
      intros p' c' E'. apply app_inj_tail in E'. destruct E' as [_ <-]. exact Hc.
  - intros (before & n & (m & E & L & Hm & Hb) & Ho). destruct before as [|b before] using rev_ind.
    + left. cbn [app] in E. subst. auto.
    + right. exists before, b, m. rewrite <- app_assoc in E. split; [exact E|]. split; [apply (Hb before b eq_refl)|].
      subst n. auto.
Qed.

(* Restarted at every split, StateAwaitEmojiFlag means an odd number of regional
   indicators. *)
Theorem C53_flags cs ps : Forall scalar cs -> text_properties cs ps ->
  exists s, state_after true ps = Ret s /\
    (s = StateAwaitEmojiFlag <-> exists before n, ends_flags (map ucd_class cs) before n /\ Nat.Odd n).
Proof.
  intros Hcs Hps. destruct (text_properties_enc cs ps Hcs Hps) as [-> G].
  destruct (map ucd_class cs) as [|x h]; [exists 0%N; split; [reflexivity|]; rewrite <- flags_iff; split; discriminate|].
  destruct (after_restart x h G) as (s & E & HS). exists s. split; [exact E|]. rewrite <- flags_iff.
  destruct (rev (x :: h)) as [|p rl]; [destruct HS|]. destruct HS as (_ & _ & _ & ->). unfold Cri.
  rewrite N.eqb_eq. reflexivity.
Qed.

Lemma plain_run : forall m q, Forall good (m ++ q) -> Forall (is Regional_Indicator) m -> used_on q <> 1%N ->
  (used_on (m ++ q) =? 1)%N = (if (used_on q =? 0)%N then Nat.odd (length m) else Nat.even (length m) && negb (length m =? 0)) /\
  (m <> [] -> (used_on (m ++ q) <= 1)%N).
Proof.
  induction m as [|x m IH]; intros q G Hm Hq.
  - cbn [app length]. split; [|congruence]. destruct (used_on q =? 0)%N eqn:E; [apply N.eqb_eq in E; rewrite E; reflexivity|].
    cbn [Nat.even Nat.eqb negb andb]. apply N.eqb_neq. exact Hq.
  - cbn [app] in G |- *. inversion G as [|? ? Gx G']; subst. inversion Hm as [|? ? Rx Hm']; subst.
    destruct (IH q G' Hm' Hq) as (I1 & I2). destruct (plain_holds (m ++ q) G') as (Hs & _).
    destruct (plain_step (used_on (m ++ q)) x Hs Gx) as (_ & _ & _ & _ & K1 & K2).
    apply b_is_iff in Rx. rewrite Rx, andb_true_r in K1. specialize (K2 Rx).
    change (used_on (x :: m ++ q)) with (next_state x (used_on (m ++ q))). split; [|intros _; exact K2].
    rewrite K1. cbn [length]. destruct m as [|y m].
    + cbn [app length]. destruct (used_on q =? 0)%N; reflexivity.
    + specialize (I2 ltac:(discriminate)).
      assert ((used_on ((y :: m) ++ q) =? 0)%N = negb (used_on ((y :: m) ++ q) =? 1)%N) as -> by lia.
      rewrite I1. set (k := length (y :: m)) in *. assert (k <> 0) as K0 by (cbn [length] in k; lia).
      rewrite Nat.odd_succ, Nat.even_succ. apply Nat.eqb_neq in K0. rewrite K0. cbn [Nat.eqb negb]. rewrite !andb_true_r.
      destruct (used_on q =? 0)%N; [apply Nat.negb_odd|apply Nat.negb_even].
Qed.

Lemma flags_exist h : exists before n, ends_flags h before n.
Proof.
  destruct (ri_run (rev h)) as (m & q & E & Hm & Hq & _). exists (rev q), (length m). exists (rev m).
  split; [rewrite <- (rev_involutive h), E, rev_app_distr; reflexivity|]. split; [apply rev_length|]. split; [apply Forall_rev; exact Hm|].
  intros p c E'. apply (f_equal (@rev cls)) in E'. rewrite rev_involutive, rev_app_distr in E'. cbn [rev app] in E'.
  destruct Hq as [->|(c' & q' & -> & Hc)]; [discriminate|]. injection E' as <- _. exact Hc.
Qed.

(* Used on, as documented, it means that only if no sequence is under way when
   the regional indicators begin; otherwise it means an even number of them, and
   not none. *)
Theorem C53_flags_on cs ps before n : Forall scalar cs -> text_properties cs ps ->
  ends_flags (map ucd_class cs) before n ->
  exists s, state_after false ps = Ret s /\
    (s = StateAwaitEmojiFlag <->
     (~ ends_sequence before /\ Nat.Odd n) \/ (ends_sequence before /\ Nat.Even n /\ n <> 0)).
Proof.
  intros Hcs Hps (m & E & L & Hm & Hb). destruct (text_properties_enc cs ps Hcs Hps) as [-> G].
  exists (used_on (rev (map ucd_class cs))). split; [apply after_plain; exact G|]. rewrite E in *. rewrite rev_app_distr.
  apply Forall_app in G. destruct G as [Gb Gm].
  destruct (plain_holds (rev before) (Forall_rev Gb)) as (Hs & H1 & H2).
  assert (used_on (rev before) <> 1%N) as N1.
  { destruct before as [|b before] using rev_ind; [discriminate|]. rewrite rev_app_distr. cbn [rev app].
    apply Forall_app in Gb. destruct Gb as [Gb Gx]. inversion Gx as [|? ? Gx' _]; subst.
    destruct (plain_holds (rev before) (Forall_rev Gb)) as (Hs' & _).
    destruct (plain_step _ b Hs' Gx') as (_ & _ & _ & _ & K & _).
    change (used_on (b :: rev before)) with (next_state b (used_on (rev before))). intros Q. rewrite Q in K. cbn [N.eqb Pos.eqb] in K.
    symmetry in K. apply andb_true_iff in K. destruct K as [_ K]. apply b_is_iff in K. exact (Hb before b eq_refl K). }
  assert (ends_sequence before <-> used_on (rev before) <> 0%N) as SQ.
  { unfold ends_sequence. rewrite (pict_iff _ Gb), (pict_zwj_iff _ Gb), consonant_iff, linked_iff.
    destruct (states_values _ _ _ Hs H1 H2) as (V1 & V2 & V3 & V4). rewrite <- V1, <- V2, <- V3, <- V4.
    clear - Hs N1. revert Hs N1. generalize (used_on (rev before)). intros s Hs N1. unfold states in Hs.
    repeat (destruct Hs as [<-|Hs]; [vm_compute; try (exfalso; apply N1; reflexivity); intuition congruence|]). destruct Hs. }
  destruct (plain_run (rev m) (rev before)) as (K & _).
  { rewrite <- rev_app_distr. apply Forall_rev, Forall_app. auto. }
  { apply Forall_rev. exact Hm. }
  { exact N1. }
  rewrite rev_length, L in K. rewrite SQ. rewrite <- Nat.odd_spec, <- Nat.even_spec.
  change StateAwaitEmojiFlag with 1%N. rewrite <- N.eqb_eq, K. destruct (N.eqb_spec (used_on (rev before)) 0) as [Z|Z].
  - split; [intros H; left; split; [intros Q; contradiction|exact H]|]. intros [[_ H]|[H _]]; [exact H|contradiction].
  - rewrite andb_true_iff, negb_true_iff, Nat.eqb_neq. split; [intros [H1' H2']; right; auto|].
    intros [[H _]|[_ H]]; [exfalso; apply H; exact Z|exact H].
Qed.

Theorem C53_flags_exist h : exists before n, ends_flags h before n.
Proof. apply flags_exist. Qed.

(* The comment of StateAwaitEmojiFlag says that the previous character is a
   regional indicator and the one before it is not.  Refuted for both ways: too
   narrow with restarts, and not what happens without. *)
Definition single_flag (h : text) : Prop :=
  exists p c, h = p ++ [c] /\ is Regional_Indicator c /\ forall q d, p = q ++ [d] -> ~ is Regional_Indicator d.

Theorem C53_refuted :
  ~ (forall cs ps, Forall scalar cs -> text_properties cs ps ->
       state_after true ps = Ret StateAwaitEmojiFlag -> single_flag (map ucd_class cs)) /\
  ~ (forall cs ps, Forall scalar cs -> text_properties cs ps ->
       single_flag (map ucd_class cs) -> state_after false ps = Ret StateAwaitEmojiFlag).
Proof.
  split; intros H.
  - specialize (H [0x1F1E6; 0x1F1E7; 0x1F1E8]%N [0x0a; 0x0a; 0x0a]%N).
    destruct H as (p & c & E & Hc & Hp).
    + repeat (constructor; [apply scalarb_spec; reflexivity|]). constructor.
    + repeat (constructor; [vm_compute; reflexivity|]). constructor.
    + reflexivity.
    + change (map ucd_class [0x1F1E6; 0x1F1E7; 0x1F1E8]%N) with
        ([ucd_class 0x1F1E6; ucd_class 0x1F1E7] ++ [ucd_class 0x1F1E8])%N in E.
      apply app_inj_tail in E. destruct E as [E _].
      apply (Hp [ucd_class 0x1F1E6] (ucd_class 0x1F1E7)%N); [symmetry; exact E|]. vm_compute. reflexivity.
  - specialize (H [0x1F600; 0x1F1E6]%N [0x04; 0x0a]%N).
    assert (state_after false [0x04; 0x0a]%N = Ret StateBase) as E by reflexivity. rewrite E in H.
    enough (Ret StateBase = Ret StateAwaitEmojiFlag) by discriminate. apply H.
    + repeat (constructor; [apply scalarb_spec; reflexivity|]). constructor.
    + repeat (constructor; [vm_compute; reflexivity|]). constructor.
    + exists [ucd_class 0x1F600%N], (ucd_class 0x1F1E6%N). split; [reflexivity|]. split; [vm_compute; reflexivity|].
      intros q d Eq. assert (d = ucd_class 0x1F600%N) as ->.
      { symmetry in Eq. change [ucd_class 0x1F600%N] with ([] ++ [ucd_class 0x1F600%N]) in Eq. apply app_inj_tail in Eq. destruct Eq as [_ Eq]. exact Eq. }
      vm_compute. discriminate.
Qed.

(* A woman, a skin tone and a joiner; KA and a virama; three indicators. *)
Example C53_example :
  text_properties [0x1F469; 0x1F3FD; 0x200D]%N [0x04; 0x23; 0x2e]%N /\
  state_after true [0x04; 0x23; 0x2e]%N = Ret StateGB11AfterZWJ /\
  ends_pict_zwj (map ucd_class [0x1F469; 0x1F3FD; 0x200D]%N) /\
  text_properties [0x915; 0x94D]%N [0x10; 0x33]%N /\
  state_after false [0x10; 0x33]%N = Ret StateGB9cLinker /\
  text_properties [0x1F1E6; 0x1F1E7; 0x1F1E8]%N [0x0a; 0x0a; 0x0a]%N /\
  ends_flags (map ucd_class [0x1F1E6; 0x1F1E7; 0x1F1E8]%N) [] 3.
Proof.
  split; [repeat (constructor; [vm_compute; reflexivity|]); constructor|]. split; [reflexivity|]. split.
  { exists [], (ucd_class 0x1F469%N), [ucd_class 0x1F3FD%N], (ucd_class 0x200D%N). split; [reflexivity|].
    split; [vm_compute; reflexivity|]. split; [constructor; [vm_compute; reflexivity|constructor]|vm_compute; reflexivity]. }
  split; [repeat (constructor; [vm_compute; reflexivity|]); constructor|]. split; [reflexivity|].
  split; [repeat (constructor; [vm_compute; reflexivity|]); constructor|].
  eexists. split; [reflexivity|]. split; [reflexivity|]. split; [repeat (constructor; [vm_compute; reflexivity|]); constructor|].
  intros p c E. destruct p; discriminate.
Qed.

Definition all_theorems := (C53_sequences, C53_flags, C53_flags_on, C53_flags_exist, C53_refuted, C53_example).
Print Assumptions all_theorems.
