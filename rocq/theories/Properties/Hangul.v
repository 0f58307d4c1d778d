(* Property C58: Hangul syllables, precomposed or not. *)
From Coq Require Import List NArith Arith Bool Lia Strings.Byte.
From Coq Require Import ZArith ZifyBool ZifyNat ZifyN.
From Verif Require Import Spec.Classes Spec.Utf8 Spec.UAX29 Spec.UcdRanges Spec.Segmentation Spec.Hangul.
From Verif Require Import Model.Base Model.CharProps Model.Lookup Model.Machine Model.Scan.
From Verif Require Import Proofs.Basics Proofs.TableCheck Proofs.MachineFacts Proofs.LookupFacts Proofs.ScanFacts
  Proofs.TextFacts Proofs.TextProps Proofs.UnicodeFacts Proofs.BoundaryFacts.
From Verif Require Import Properties.Splitting Properties.Editing Properties.Conformance.
Import ListNotations.

Local Opaque committed LookupFirstChar fast_class ok1 leads conts.

(* ---- the classes of a decomposed syllable *)
Definition jamo (c : cls) : list cls :=
  match gcb c with
  | LV => [Cls L false InCB_None; Cls V false InCB_None]
  | LVT => [Cls L false InCB_None; Cls V false InCB_None; Cls T false InCB_None]
  | _ => [c]
  end.

Lemma syllable_range c : syllable c = true <-> (44032 <= c < 44032 + 11172)%N.
Proof.
  unfold syllable. change SBase with 44032%N. change (44032 + SCount)%N with 55204%N. lia.
Qed.

Definition check_outside : bool :=
  forallb (fun '(lo, hi, g) => negb (GCB_eqb g LV || GCB_eqb g LVT) || (44032 <=? lo)%N && (hi <? 55204)%N) gcb_ranges.
Lemma check_outside_ok : check_outside = true.
Proof. vm_cast_no_check (eq_refl true). Qed.

Lemma listed_in {X} c (rs : list (N * N * X)) v : listed c rs = Some v ->
  exists lo hi, In (lo, hi, v) rs /\ (lo <= c <= hi)%N.
Proof.
  induction rs as [|[[lo hi] w] rs IH]; cbn [listed]; [discriminate|]. intros H.
  destruct ((lo <=? c) && (c <=? hi))%N eqn:E.
  - injection H as ->. exists lo, hi. split; [left; reflexivity|]. lia.
  - destruct (IH H) as (a & b & I & J). exists a, b. split; [right; assumption|assumption].
Qed.


(* ---- the ranges of the data files that meet an interval *)
Definition meets {X} (a b : N) (r : N * N * X) : bool := match r with (lo, hi, _) => (lo <=? b) && (a <=? hi) end%N.

Lemma listed_some {X} c (rs : list (N * N * X)) lo hi v : In (lo, hi, v) rs -> (lo <= c <= hi)%N -> exists w, listed c rs = Some w.
Proof.
  induction rs as [|[[lo' hi'] w] rs IH]; [intros []|]. intros I B. cbn [listed].
  destruct ((lo' <=? c) && (c <=? hi'))%N eqn:E; [eauto|]. destruct I as [I|I]; [|auto]. exfalso. injection I as -> -> _. lia.
Qed.

Lemma listed_none {X} a b (rs : list (N * N * X)) c : filter (meets a b) rs = [] -> (a <= c <= b)%N -> listed c rs = None.
Proof.
  intros H B. destruct (listed c rs) as [v|] eqn:E; [|reflexivity]. exfalso. destruct (listed_in _ _ _ E) as (lo & hi & I & J).
  assert (In (lo, hi, v) (filter (meets a b) rs)) as K by (apply filter_In; split; [exact I|cbn [meets]; lia]). rewrite H in K. destruct K.
Qed.

(* if all ranges that meet the interval, of which one has c, say f c, so does the list *)
Lemma listed_by {X} a b (rs es : list (N * N * X)) c v : filter (meets a b) rs = es -> (a <= c <= b)%N ->
  (exists lo hi w, In (lo, hi, w) es /\ (lo <= c <= hi)%N) ->
  (forall lo hi w, In (lo, hi, w) es -> (lo <= c <= hi)%N -> w = v) -> listed c rs = Some v.
Proof.
  intros <- B (lo & hi & w & I & J) H. apply filter_In in I. destruct (listed_some c rs lo hi w (proj1 I) J) as (x & E).
  rewrite E. f_equal. destruct (listed_in _ _ _ E) as (lo' & hi' & I' & J'). apply (H lo' hi'); [|exact J'].
  apply filter_In. split; [exact I'|cbn [meets]; lia].
Qed.

Definition syllable_ranges : list (N * N * GCB) :=
  map (fun k => (44032 + 28 * N.of_nat k, 44032 + 28 * N.of_nat k, LV)%N) (seq 0 399) ++
  map (fun k => (44032 + 28 * N.of_nat k + 1, 44032 + 28 * N.of_nat k + 27, LVT)%N) (seq 0 399).

Lemma ranges_ok :
  filter (meets 44032 55203) gcb_ranges = syllable_ranges /\
  filter (meets 0x1100 0x115F) gcb_ranges = [(0x1100, 0x115F, L)]%N /\
  filter (meets 0x1161 0x11A7) gcb_ranges = [(0x1160, 0x11A7, V)]%N /\
  filter (meets 0x11A8 0x11FF) gcb_ranges = [(0x11A8, 0x11FF, T)]%N.
Proof. repeat split; vm_cast_no_check (@eq_refl (list (N * N * GCB)) syllable_ranges) || (vm_compute; reflexivity). Qed.

Lemma no_others :
  filter (meets 44032 55203) extpict_ranges = [] /\ filter (meets 0x1100 0x11FF) extpict_ranges = [] /\
  filter (meets 44032 55203) incb_ranges = [] /\ filter (meets 0x1100 0x11FF) incb_ranges = [].
Proof. repeat split; vm_compute; reflexivity. Qed.

Lemma class_by c g : listed c gcb_ranges = Some g -> ((44032 <= c <= 55203) \/ (0x1100 <= c <= 0x11FF))%N ->
  ucd_class c = Cls g false InCB_None.
Proof.
  intros H B. destruct no_others as (A1 & A2 & A3 & A4). unfold ucd_class. rewrite H.
  assert (listed c extpict_ranges = None) as -> by (destruct B as [B|B]; [exact (listed_none _ _ _ _ A1 B)|exact (listed_none _ _ _ _ A2 B)]).
  assert (listed c incb_ranges = None) as -> by (destruct B as [B|B]; [exact (listed_none _ _ _ _ A3 B)|exact (listed_none _ _ _ _ A4 B)]).
  reflexivity.
Qed.

Lemma in_syllable_ranges lo hi w : In (lo, hi, w) syllable_ranges <->
  exists k, (k < 399)%N /\ ((lo = 44032 + 28 * k /\ hi = lo /\ w = LV) \/ (lo = 44032 + 28 * k + 1 /\ hi = 44032 + 28 * k + 27 /\ w = LVT))%N.
Proof.
  unfold syllable_ranges. rewrite in_app_iff, !in_map_iff. split.
  - intros [(k & E & I)|(k & E & I)]; apply in_seq in I; exists (N.of_nat k); (split; [lia|]); [left|right];
      repeat split; congruence.
  - intros (k & K & [(-> & -> & ->)|(-> & -> & ->)]); [left|right]; exists (N.to_nat k); rewrite N2Nat.id;
      (split; [reflexivity|apply in_seq; lia]).
Qed.

Lemma class_syllable c : (44032 <= c < 44032 + 11172)%N ->
  ucd_class c = Cls (if (c - 44032) mod 28 =? 0 then LV else LVT)%N false InCB_None.
Proof.
  intros B. apply class_by; [|lia].
  pose proof (N.div_mod (c - 44032) 28 ltac:(discriminate)) as D. pose proof (N.mod_lt (c - 44032) 28 ltac:(discriminate)) as M.
  remember ((c - 44032) / 28)%N as q eqn:Eq. remember ((c - 44032) mod 28)%N as r eqn:Er. clear Eq Er.
  apply (listed_by _ _ _ _ c _ (proj1 ranges_ok)); [lia| |].
  - destruct (N.eqb_spec r 0) as [E|E].
    + exists c, c, LV. split; [|lia]. apply in_syllable_ranges. exists q. split; [lia|]. left. repeat split; lia.
    + exists (44032 + 28 * q + 1)%N, (44032 + 28 * q + 27)%N, LVT. split; [|lia].
      apply in_syllable_ranges. exists q. split; [lia|]. right. repeat split; lia.
  - intros lo hi w I J. apply in_syllable_ranges in I. destruct I as (k & K & [(-> & -> & ->)|(-> & -> & ->)]);
      destruct (N.eqb_spec r 0) as [E|E]; try reflexivity; exfalso; lia.
Qed.

Lemma class_one a b a' b' g c : filter (meets a b) gcb_ranges = [(a', b', g)] -> (a' <= a /\ b <= b' /\ a <= c <= b /\ 0x1100 <= a /\ b <= 0x11FF)%N ->
  ucd_class c = Cls g false InCB_None.
Proof.
  intros H B. apply class_by; [|lia]. apply (listed_by _ _ _ _ c _ H); [lia| |].
  - exists a', b', g. split; [left; reflexivity|lia].
  - intros lo hi w [I|[]] _. congruence.
Qed.

Lemma outside c : gcb (ucd_class c) = LV \/ gcb (ucd_class c) = LVT -> (44032 <= c < 44032 + 11172)%N.
Proof.
  unfold ucd_class. cbn [gcb]. generalize check_outside_ok. unfold check_outside. generalize gcb_ranges. intros rs K H.
  destruct (listed c rs) as [g|] eqn:Lc; [|destruct H; discriminate].
  destruct (listed_in _ _ _ Lc) as (lo & hi & I & B). rewrite forallb_forall in K. specialize (K _ I). cbn beta iota in K.
  destruct H as [-> | ->]; cbn [GCB_eqb orb negb] in K; lia.
Qed.

Lemma classes_decompose c : map ucd_class (decompose c) = jamo (ucd_class c).
Proof.
  destruct (syllable c) eqn:E.
  - apply syllable_range in E. destruct ranges_ok as (_ & RL & RV & RT). unfold decompose.
    rewrite (proj2 (syllable_range c) E), (class_syllable c E). cbv zeta.
    change NCount with 588%N. change TCount with 28%N. change SBase with 44032%N.
    change LBase with 0x1100%N. change VBase with 0x1161%N. change TBase with 0x11A7%N.
    assert (forall x y, y <> 0%N -> x = (y * (x / y) + x mod y)%N /\ (x mod y < y)%N) as DM
      by (intros x y Hy; split; [apply N.div_mod|apply N.mod_lt]; exact Hy).
    destruct (DM (c - 44032)%N 588%N) as [D1 D2]; [discriminate|]. destruct (DM (c - 44032)%N 28%N) as [D3 D4]; [discriminate|].
    destruct (DM ((c - 44032) mod 588)%N 28%N) as [D5 D6]; [discriminate|].
    assert (ucd_class (0x1100 + (c - 44032) / 588)%N = Cls L false InCB_None) as HL by (apply (class_one _ _ _ _ _ _ RL); lia).
    assert (ucd_class (0x1161 + (c - 44032) mod 588 / 28)%N = Cls V false InCB_None) as HV by (apply (class_one _ _ _ _ _ _ RV); lia).
    destruct (N.eqb_spec ((c - 44032) mod 28) 0) as [Z|Z]; cbn [map]; rewrite HL, HV; [reflexivity|].
    rewrite (class_one _ _ _ _ _ (0x11A7 + (c - 44032) mod 28)%N RT) by lia. reflexivity.
  - unfold decompose. rewrite E. cbn [map]. unfold jamo.
    destruct (gcb (ucd_class c)) eqn:Eg; try reflexivity; exfalso;
      (assert (syllable c = true) as E' by (apply syllable_range; apply outside; rewrite Eg; auto)); congruence.
Qed.

Definition jamos (l : list cls) : list cls := flat_map jamo l.

Lemma classes_decomposed cs : map ucd_class (decomposed cs) = jamos (map ucd_class cs).
Proof.
  induction cs as [|c cs IH]; [reflexivity|]. unfold decomposed, jamos in *. cbn [flat_map map]. rewrite map_app, IH, classes_decompose. reflexivity.
Qed.

Lemma good_jamo c : good c -> Forall good (jamo c).
Proof.
  intros G. unfold jamo.
  assert (good (Cls L false InCB_None) /\ good (Cls V false InCB_None) /\ good (Cls T false InCB_None)) as (A & B & C)
    by (unfold good, good_classes; cbn [In]; tauto).
  destruct (gcb c); auto.
Qed.

Lemma good_jamos l : Forall good l -> Forall good (jamos l).
Proof.
  induction 1 as [|c l G _ IH]; [constructor|]. unfold jamos. cbn [flat_map]. apply Forall_app. split; [apply good_jamo; assumption|exact IH].
Qed.

(* ---- contexts look the same *)
Lemma alike_jamo c a b : good c -> alike a b -> alike (rev (jamo c) ++ a) (c :: b).
Proof.
  intros G (A & B & C). unfold alike, g9c, g11, ri in *.
  unfold good, good_classes in G. cbn [In] in G.
  decompose [or] G; subst; try contradiction; cbn [jamo gcb rev app fold_right]; rewrite ?A, ?B, ?C; auto;
    cbn; auto.
Qed.

Lemma alike_jamos l : Forall good l -> alike (rev (jamos l)) (rev l).
Proof.
  intros G. induction l as [|x l IH] using rev_ind; [unfold alike; auto|]. apply Forall_app in G. destruct G as [G Gx].
  unfold jamos in *. rewrite flat_map_app, !rev_app_distr. cbn [flat_map rev app]. rewrite app_nil_r.
  apply alike_jamo; [inversion Gx; assumption|auto].
Qed.

Lemma jamo_cases c : good c ->
  exists d ds ds' e, jamo c = d :: ds /\ jamo c = ds' ++ [e] /\
   (forall p a b f, good p -> spec_split p d a b f = spec_split p c a b f) /\
   (forall x a b f, good x -> spec_split e x a b f = spec_split c x a b f).
Proof.
  intros G. pose proof G as G'. unfold good, good_classes in G. cbn [In] in G.
  decompose [or] G; subst; try contradiction; cbn [jamo gcb];
  match goal with
  | |- context [[?d; ?v; ?e]] => exists d, [v; e], [d; v], e
  | |- context [[?d; ?e]] => exists d, [e], [d], e
  | |- context [[?d]] => exists d, [], [], d
  end; (split; [reflexivity|]); (split; [reflexivity|]); (split; [|]); try reflexivity;
  intros p a b f Gp; unfold good, good_classes in Gp; cbn [In] in Gp; decompose [or] Gp; subst; try contradiction; reflexivity.
Qed.

Lemma boundary_jamos l r : Forall good l -> Forall good r -> (boundary (jamos l) (jamos r) <-> boundary l r).
Proof.
  intros Gl Gr. destruct (exists_last_or l) as [->|(l' & p & ->)].
  - destruct r as [|x r]; [reflexivity|]. inversion Gr as [|? ? Gx _]; subst.
    destruct (jamo_cases x Gx) as (d & ds & _ & _ & E & _). unfold jamos. cbn [flat_map]. rewrite E. cbn. tauto.
  - pose proof Gl as Gl0. apply Forall_app in Gl. destruct Gl as [Gl Gp]. inversion Gp as [|? ? Gp' _]; subst.
    destruct (jamo_cases p Gp') as (_ & _ & ds' & e & _ & Ee & _ & He).
    assert (jamos (l' ++ [p]) = (jamos l' ++ ds') ++ [e]) as E1.
    { unfold jamos. rewrite flat_map_app. cbn [flat_map]. rewrite app_nil_r, Ee, app_assoc. reflexivity. }
    destruct r as [|x r].
    + rewrite E1. split; intros _; apply boundary_end.
    + inversion Gr as [|? ? Gx _]; subst. destruct (jamo_cases x Gx) as (d & ds & _ & _ & Ed & _ & Hd & _).
      assert (jamos (x :: r) = d :: ds ++ jamos r) as E2 by (unfold jamos; cbn [flat_map]; rewrite Ed; reflexivity).
      pose proof (good_jamos _ Gl0) as Gj. pose proof (alike_jamos _ Gl0) as (A & B & C).
      rewrite E2. rewrite E1 in *. rewrite !boundary_pos by assumption.
      rewrite !rev_app_distr in A, B, C. cbn [rev app] in A, B, C. rewrite rev_app_distr, A, B, C.
      assert (good d) as Gd by (pose proof (good_jamo x Gx) as F; rewrite Ed in F; inversion F; assumption).
      rewrite He by assumption. rewrite Hd by assumption. reflexivity.
Qed.

(* Inside a decomposed syllable there is no boundary. *)
Lemma boundary_within l c u v r : Forall good l -> good c -> jamo c = u ++ v -> u <> [] -> v <> [] -> ~ boundary (l ++ u) (v ++ r).
Proof.
  intros Gl Gc E Hu Hv.
  assert (forall g x, In (gcb g, gcb x) [(L, V); (V, T)] -> forall a b f, spec_split g x a b f = false) as K.
  { intros g x I a b f. unfold spec_split, brules, b_is, b_in. cbn [In] in I.
    destruct I as [I|[I|[]]]; injection I as I1 I2; rewrite <- I1, <- I2; cbn; reflexivity. }
  assert (forall u' g x v', jamo c = u' ++ g :: x :: v' -> In (gcb g, gcb x) [(L, V); (V, T)]) as K2.
  { intros u' g x v' E'. unfold jamo in E'.
    destruct (gcb c); destruct u' as [|y [|z [|w u']]]; cbn [app] in E'; try discriminate E';
      injection E'; intros; subst; cbn [gcb In]; auto; try discriminate; try (destruct u'; discriminate). }
  destruct (exists_last_or u) as [->|(u' & g & ->)]; [congruence|]. destruct v as [|x v]; [congruence|].
  rewrite <- app_assoc in E. cbn [app] in E. rewrite app_assoc. cbn [app]. rewrite boundary_pos.
  - rewrite K; [discriminate|]. eapply K2; exact E.
  - rewrite <- app_assoc. apply Forall_app. split; [assumption|]. pose proof (good_jamo c Gc) as F. rewrite E in F.
    apply Forall_app in F. destruct F as [F1 F2]. apply Forall_app. split; [assumption|]. inversion F2; subst. constructor; auto.
Qed.

(* ---- texts *)
Lemma decomposed_app a b : decomposed (a ++ b) = decomposed a ++ decomposed b.
Proof. apply flat_map_app. Qed.

Lemma decompose_nonempty c : decompose c <> [].
Proof. unfold decompose. destruct (syllable c); [|discriminate]. cbv zeta. destruct (_ =? 0)%N; discriminate. Qed.

Lemma decompose_scalar c : scalar c -> Forall scalar (decompose c).
Proof.
  intros H. unfold decompose. destruct (syllable c) eqn:E; [|auto].
  assert (c - SBase < SCount)%N as B by (apply syllable_range in E; change SBase with 44032%N; change SCount with 11172%N; lia).
  assert ((c - SBase) / NCount < 19)%N as B1 by (apply N.div_lt_upper_bound; [discriminate|exact B]).
  assert (((c - SBase) mod NCount) / TCount < 21)%N as B2.
  { apply N.div_lt_upper_bound; [discriminate|]. change (TCount * 21)%N with NCount. apply N.mod_lt. discriminate. }
  assert ((c - SBase) mod TCount < 28)%N as B3 by (apply N.mod_lt; discriminate).
  assert (forall b k, (b + 64 <= 0xD800)%N -> (k < 28)%N -> scalar (b + k)%N) as K by (intros b k; unfold scalar; lia).
  cbv zeta. destruct (_ =? 0)%N; repeat (apply Forall_cons; [apply K; [vm_compute; discriminate|lia]|]); apply Forall_nil.
Qed.

Lemma decomposed_scalar cs : Forall scalar cs -> Forall scalar (decomposed cs).
Proof. induction 1 as [|c cs H _ IH]; [constructor|]. unfold decomposed. cbn [flat_map]. apply Forall_app. split; [apply decompose_scalar; assumption|exact IH]. Qed.

Lemma decomposed_nil cs : decomposed cs = [] -> cs = [].
Proof.
  destruct cs as [|c cs]; [reflexivity|]. unfold decomposed. cbn [flat_map]. intros E. apply app_eq_nil in E.
  destruct E as [E _]. apply decompose_nonempty in E. contradiction.
Qed.

(* Where a position of the decomposed text is. *)
Lemma decomposed_split cs : forall l r, decomposed cs = l ++ r ->
  (exists l0 r0, cs = l0 ++ r0 /\ l = decomposed l0 /\ r = decomposed r0) \/
  (exists l0 c r0 u v, cs = l0 ++ c :: r0 /\ decompose c = u ++ v /\ u <> [] /\ v <> [] /\
     l = decomposed l0 ++ u /\ r = v ++ decomposed r0).
Proof.
  induction cs as [|c cs IH]; intros l r E.
  - symmetry in E. apply app_eq_nil in E. destruct E as [-> ->]. left. exists [], []. auto.
  - unfold decomposed in E. cbn [flat_map] in E. fold (decomposed cs) in E.
    apply app_eq_app in E. destruct E as (m & [[E1 E2]|[E1 E2]]).
    + destruct l as [|y l].
      * left. exists [], (c :: cs). split; [reflexivity|]. split; [reflexivity|]. rewrite E2. cbn [app] in E1. subst m. reflexivity.
      * destruct m as [|z m].
        { left. exists [c], cs. rewrite app_nil_r in E1. split; [reflexivity|]. split; [|exact E2].
          unfold decomposed. cbn [flat_map]. rewrite app_nil_r. auto. }
        right. exists [], c, cs, (y :: l), (z :: m). repeat split; auto; discriminate.
    + destruct (IH m r E2) as [(l0 & r0 & -> & -> & ->)|(l0 & d & r0 & u & v & -> & Ed & Hu & Hv & -> & ->)].
      * left. exists (c :: l0), r0. repeat split. exact E1.
      * right. exists (c :: l0), d, r0, u, v. repeat split; auto. rewrite E1, app_assoc. reflexivity.
Qed.

Lemma decomposed_prefix a b a' b' : a ++ b = a' ++ b' -> decomposed a = decomposed a' -> a = a'.
Proof.
  intros E D. apply app_eq_app in E. destruct E as (m & [[-> _]|[-> _]]); rewrite decomposed_app in D.
  - rewrite <- (app_nil_r (decomposed a')) in D at 2. apply app_inv_head in D. apply decomposed_nil in D. subst m. apply app_nil_r.
  - symmetry in D. rewrite <- (app_nil_r (decomposed a)) in D at 2. apply app_inv_head in D. apply decomposed_nil in D. subst m. symmetry. apply app_nil_r.
Qed.

Lemma map_app_inv {A B} (f : A -> B) (x : list A) l r : map f x = l ++ r -> exists u v, x = u ++ v /\ map f u = l /\ map f v = r.
Proof. apply map_split. Qed.

Lemma concat_decomposed segs : concat (map decomposed segs) = decomposed (concat segs).
Proof. induction segs as [|s segs IH]; [reflexivity|]. cbn [map concat]. rewrite decomposed_app, IH. reflexivity. Qed.

Lemma clusters_decomposed cs segs : Forall good (map ucd_class cs) -> clusters ucd_class cs segs ->
  clusters ucd_class (decomposed cs) (map decomposed segs).
Proof.
  intros G [C1 C2 C3]. constructor.
  - rewrite concat_decomposed, C1. reflexivity.
  - apply Forall_map. eapply Forall_impl; [|exact C2]. intros s Hs D. apply Hs. apply decomposed_nil. exact D.
  - intros l r E Hn. assert (cs <> []) as Hcs by (intros ->; apply Hn; reflexivity).
    destruct (decomposed_split _ _ _ E) as [(l0 & r0 & -> & -> & ->)|(l0 & c & r0 & u & v & -> & Ec & Hu & Hv & -> & ->)].
    + rewrite !classes_decomposed. rewrite map_app in G. apply Forall_app in G. destruct G as [Gl Gr].
      rewrite boundary_jamos by assumption. rewrite <- (C3 l0 r0 eq_refl Hcs). split.
      * intros (s1 & s2 & Es & El). apply map_app_inv in Es. destruct Es as (t1 & t2 & -> & <- & <-).
        exists t1, t2. split; [reflexivity|]. rewrite concat_decomposed in El.
        rewrite concat_app in C1. exact (decomposed_prefix _ _ _ _ C1 El).
      * intros (s1 & s2 & -> & <-). exists (map decomposed s1), (map decomposed s2). split; [apply map_app|apply concat_decomposed].
    + rewrite map_app in G. cbn [map] in G. apply Forall_app in G. destruct G as [Gl Gr]. inversion Gr as [|? ? Gc Gr']; subst.
      split.
      * intros (s1 & s2 & Es & El). exfalso. apply map_app_inv in Es. destruct Es as (t1 & t2 & -> & <- & <-).
        rewrite concat_decomposed in El. rewrite concat_app in C1. pose proof C1 as C1'. apply app_eq_app in C1'.
        destruct C1' as (m & [[M1 M2]|[M1 M2]]).
        -- rewrite M1, decomposed_app in El. apply app_inv_head in El. destruct m as [|d m].
           ++ cbn in El. congruence.
           ++ cbn [app] in M2; assert (d = c) as -> by congruence. unfold decomposed in El. cbn [flat_map] in El. rewrite Ec, <- app_assoc in El.
              rewrite <- (app_nil_r u) in El at 2. apply app_inv_head in El. apply app_eq_nil in El. tauto.
        -- rewrite M1, decomposed_app, <- app_assoc in El. rewrite <- (app_nil_r (decomposed (concat t1))) in El at 1.
           apply app_inv_head in El. symmetry in El. apply app_eq_nil in El. tauto.
      * intros B. exfalso. revert B. rewrite !map_app, !classes_decomposed.
        apply (boundary_within _ (ucd_class c) (map ucd_class u) (map ucd_class v)).
        -- apply good_jamos. assumption.
        -- assumption.
        -- rewrite <- classes_decompose, Ec, map_app. reflexivity.
        -- destruct u; [congruence|discriminate].
        -- destruct v; [congruence|discriminate].
Qed.

(* C58. Decomposing the syllables of a text decomposes its tokens: no boundary
   is gained or lost. *)
Theorem C58_decompose : forall cs toks, Forall scalar cs -> tokenises (utf8_text cs) toks ->
  exists segs, concat segs = cs /\ toks = map utf8_text segs /\
    tokenises (utf8_text (decomposed cs)) (map (fun s => utf8_text (decomposed s)) segs).
Proof.
  intros cs toks Hcs Ht. assert (Forall good (map ucd_class cs)) as G.
  { rewrite <- map_class_chars by assumption. eapply good_items. apply reads_utf8_text. assumption. }
  apply (text_clusters cs toks Hcs) in Ht. destruct Ht as (segs & H & ->). exists segs.
  split; [apply H|]. split; [reflexivity|]. apply (text_clusters _ _ (decomposed_scalar cs Hcs)).
  exists (map decomposed segs). split; [|rewrite map_map; reflexivity]. apply clusters_decomposed; assumption.
Qed.

(* Two texts that differ only in how their syllables are written have
   corresponding tokens. *)
Theorem C58_equivalent : forall cs cs' toks toks', Forall scalar cs -> Forall scalar cs' -> decomposed cs = decomposed cs' ->
  tokenises (utf8_text cs) toks -> tokenises (utf8_text cs') toks' ->
  exists segs segs', concat segs = cs /\ concat segs' = cs' /\ toks = map utf8_text segs /\ toks' = map utf8_text segs' /\
    Forall2 (fun s s' => decomposed s = decomposed s') segs segs'.
Proof.
  intros cs cs' toks toks' Hcs Hcs' E Ht Ht'.
  destruct (C58_decompose _ _ Hcs Ht) as (segs & C & -> & D). destruct (C58_decompose _ _ Hcs' Ht') as (segs' & C' & -> & D').
  exists segs, segs'. repeat (split; [auto|]). rewrite E in D. pose proof (tokenises_unique _ _ _ D D') as U. clear Ht Ht' D D'.
  assert (Forall (Forall scalar) segs) as F by (subst cs; apply Forall_concat; assumption).
  assert (Forall (Forall scalar) segs') as F' by (subst cs'; apply Forall_concat; assumption).
  clear C C' E. revert segs' U F'. induction segs as [|s segs IH]; intros [|s' segs'] U F'; try discriminate U; constructor.
  - cbn [map] in U. inversion F; inversion F'; subst. apply utf8_text_inj; [apply decomposed_scalar; assumption..|]. congruence.
  - cbn [map] in U. inversion F; inversion F'; subst. apply IH; auto. congruence.
Qed.

(* "hanguk" with both syllables precomposed, and with the first one spelled out,
   and an LV syllable followed by a trailing consonant: the same tokens. *)
Example C58_example :
  Forall scalar [0xD55C; 0xAD6D; 0x61]%N /\
  decompose 0xD55C = [0x1112; 0x1161; 0x11AB]%N /\ decompose 0xD558 = [0x1112; 0x1161]%N /\
  decomposed [0xD55C; 0xAD6D; 0x61]%N = decomposed [0x1112; 0x1161; 0x11AB; 0xAD6D; 0x61]%N /\
  decomposed [0xD55C; 0xAD6D; 0x61]%N = decomposed [0xD558; 0x11AB; 0xAD6D; 0x61]%N /\
  tokenises (utf8_text [0xD55C; 0xAD6D; 0x61]%N) (map utf8_text [[0xD55C]; [0xAD6D]; [0x61]]%N) /\
  tokenises (utf8_text [0x1112; 0x1161; 0x11AB; 0xAD6D; 0x61]%N) (map utf8_text [[0x1112; 0x1161; 0x11AB]; [0xAD6D]; [0x61]]%N) /\
  tokenises (utf8_text [0xD558; 0x11AB; 0xAD6D; 0x61]%N) (map utf8_text [[0xD558; 0x11AB]; [0xAD6D]; [0x61]]%N).
Proof.
  split; [repeat constructor; apply scalarb_spec; reflexivity|].
  repeat (split; [vm_compute; reflexivity|]). repeat split; apply C04_tokens_fn; vm_compute; reflexivity.
Qed.

Definition all_theorems := (C58_decompose, C58_equivalent).
Print Assumptions all_theorems.
