(* Property C68: the same text spelled differently. *)
From Coq Require Import List NArith Arith Bool Lia Strings.Byte Sorting.Permutation.
From Coq Require Import ZArith ZifyBool ZifyNat ZifyN.
From Verif Require Import Spec.Classes Spec.Utf8 Spec.UAX29 Spec.UcdRanges Spec.Segmentation Spec.Hangul Spec.Respelling.
From Verif Require Import Model.Base Model.CharProps Model.Lookup Model.Machine Model.Scan.
From Verif Require Import Proofs.Basics Proofs.TableCheck Proofs.MachineFacts Proofs.LookupFacts Proofs.ScanFacts
  Proofs.TextFacts Proofs.TextProps Proofs.UnicodeFacts Proofs.BoundaryFacts.
From Verif Require Import Properties.Splitting Properties.Editing Properties.Conformance Properties.Hangul.
Import ListNotations.

Local Opaque committed LookupFirstChar fast_class ok1 leads conts.

(* ---- where a list of pieces is cut *)
Lemma cut_before {A} (s1 : list (list A)) X s2 l m u : Forall (fun s => s <> []) s1 -> concat s1 ++ u = l ++ m ->
  (forall k, u = X ++ k -> False) -> (cut (s1 ++ X :: s2) l <-> cut s1 l).
Proof.
  revert l. induction s1 as [|x s1 IH]; intros l N E K.
  - cbn [concat app] in E. split.
    + intros (b & a & Eb & C). destruct b as [|y b]; cbn [concat] in C; [exists [], []; auto|].
      cbn [app] in Eb. assert (y = X) as -> by congruence. exfalso. apply (K (concat b ++ m)). rewrite E, <- C, <- app_assoc. reflexivity.
    + intros (b & a & Eb & C). symmetry in Eb. apply app_eq_nil in Eb. destruct Eb as [-> ->]. exists [], (X :: s2). auto.
  - inversion N as [|? ? Nx N']; subst. cbn [app]. destruct (list_eq_dec (A:=unit) (fun a b => match a, b with tt, tt => left eq_refl end) (map (fun _ => tt) l) []) as [El|El].
    + assert (l = []) as -> by (destruct l; [reflexivity|discriminate]). split; intros _.
      * exists [], (x :: s1). auto.
      * exists [], (x :: s1 ++ X :: s2). auto.
    + assert (l <> []) as Hl by (intros ->; apply El; reflexivity). split; intros H.
      * destruct (cut_inside _ _ _ H Hl) as (l' & ->). apply (cut_next x (s1 ++ X :: s2) l' Nx) in H.
        apply (cut_next x s1 l' Nx). apply (IH l' N'); [|assumption|assumption].
        cbn [concat] in E. rewrite <- !app_assoc in E. apply app_inv_head in E. exact E.
      * destruct (cut_inside _ _ _ H Hl) as (l' & ->). apply (cut_next x s1 l' Nx) in H.
        apply (cut_next x (s1 ++ X :: s2) l' Nx). apply (IH l' N'); [|assumption|assumption].
        cbn [concat] in E. rewrite <- !app_assoc in E. apply app_inv_head in E. exact E.
Qed.

Lemma cut_beyond {A} (s1 : list (list A)) s2 k : Forall (fun s => s <> []) s1 -> (cut (s1 ++ s2) (concat s1 ++ k) <-> cut s2 k).
Proof.
  induction s1 as [|x s1 IH]; intros N; [reflexivity|]. inversion N as [|? ? Nx N']; subst.
  cbn [app concat]. rewrite <- app_assoc, cut_next by assumption. auto.
Qed.

Lemma cut_there {A} (X : list A) s2 k : k <> [] -> X <> [] -> (cut (X :: s2) k <-> exists m, k = X ++ m /\ cut s2 m).
Proof.
  intros Hk HX. split.
  - intros H. destruct (cut_inside _ _ _ H Hk) as (m & ->). exists m. split; [reflexivity|]. apply (cut_next X s2 m HX). exact H.
  - intros (m & -> & H). apply cut_next; assumption.
Qed.

(* ---- parts that look the same from outside *)
Record same_part (X Y : list cls) : Prop := {
  part_l : X <> []; part_r : Y <> [];
  part_good_l : Forall good X; part_good_r : Forall good Y;
  part_alike : forall a b, alike a b -> alike (rev X ++ a) (rev Y ++ b);
  part_first : forall p a b f, good p -> spec_split p (hd plain X) a b f = spec_split p (hd plain Y) a b f;
  part_last : forall x a b f, good x -> spec_split (last X plain) x a b f = spec_split (last Y plain) x a b f;
  part_in_l : forall l u v r, Forall good l -> X = u ++ v -> u <> [] -> v <> [] -> ~ boundary (l ++ u) (v ++ r);
  part_in_r : forall l u v r, Forall good l -> Y = u ++ v -> u <> [] -> v <> [] -> ~ boundary (l ++ u) (v ++ r) }.

Lemma same_part_sym X Y : same_part X Y -> same_part Y X.
Proof.
  intros H. destruct H as [H1 H2 H3 H4 H5 H6 H7 H8 H9]. constructor; auto.
  - intros a b (A & B & C). destruct (H5 b a) as (A' & B' & C'); unfold alike in *; auto.
  - intros. symmetry. auto.
  - intros. symmetry. auto.
Qed.

Lemma last_snoc {A} (X : list A) d : X <> [] -> exists X', X = X' ++ [last X d].
Proof. intros H. exists (removelast X). apply app_removelast_last. exact H. Qed.

Lemma alike_refl a : alike a a.
Proof. unfold alike. auto. Qed.

(* Boundaries before, in and after the part. *)
Lemma boundary_before_part X Y l m q : Forall good l -> same_part X Y ->
  (boundary l (m ++ X ++ q) <-> boundary l (m ++ Y ++ q)).
Proof.
  intros Gl H. destruct m as [|x m]; [|cbn [app]; apply boundary_one_right; assumption]. cbn [app].
  destruct (exists_last_or l) as [->|(l' & p & ->)].
  - destruct X as [|x X]; [destruct (part_l _ _ H); reflexivity|]. destruct Y as [|y Y]; [destruct (part_r _ _ H); reflexivity|]. cbn. tauto.
  - destruct X as [|x X]; [destruct (part_l _ _ H); reflexivity|]. destruct Y as [|y Y]; [destruct (part_r _ _ H); reflexivity|].
    cbn [app]. rewrite !boundary_pos by assumption. pose proof (part_first _ _ H p) as F. cbn [hd] in F. rewrite F; [reflexivity|].
    apply Forall_app in Gl. destruct Gl as [_ Gp]. inversion Gp; assumption.
Qed.

Lemma boundary_after_part X Y l m r : Forall good (l ++ m) -> Forall good r -> same_part X Y ->
  (boundary (l ++ X ++ m) r <-> boundary (l ++ Y ++ m) r).
Proof.
  intros G Gr H. apply Forall_app in G. destruct G as [Gl Gm].
  destruct (last_snoc X plain (part_l _ _ H)) as (X' & EX). destruct (last_snoc Y plain (part_r _ _ H)) as (Y' & EY).
  destruct r as [|x r].
  { assert (l ++ X ++ m <> [] /\ l ++ Y ++ m <> []) as [H1 H2].
    { split; intros E; apply app_eq_nil in E; destruct E as [_ E]; apply app_eq_nil in E; destruct E as [E _]; revert E; apply H. }
    destruct (l ++ X ++ m); [congruence|]. destruct (l ++ Y ++ m); [congruence|]. cbn. tauto. }
  inversion Gr as [|? ? Gx _]; subst.
  pose proof (part_alike _ _ H _ _ (alike_refl (rev l))) as A. apply (alike_more (rev m)) in A.
  assert (Forall good (l ++ X ++ m)) as GX by (rewrite !Forall_app; split; [assumption|]; split; [apply H|assumption]).
  assert (Forall good (l ++ Y ++ m)) as GY by (rewrite !Forall_app; split; [assumption|]; split; [apply H|assumption]).
  destruct (exists_last_or m) as [->|(m' & p & ->)].
  - rewrite !app_nil_r in *. cbn [rev app] in A. rewrite <- !rev_app_distr in A. rewrite EX in A, GX |- *. rewrite EY in A, GY |- *.
    rewrite !app_assoc in *. rewrite !boundary_pos by assumption. destruct A as (A & B & C).
    rewrite !(rev_app_distr _ [_]) in A, B, C. cbn [rev app] in A, B, C. rewrite A, B, C.
    rewrite (part_last _ _ H) by assumption. reflexivity.
  - rewrite !app_assoc in *. rewrite <- !rev_app_distr in A. rewrite !app_assoc in A. apply boundary_alike; assumption.
Qed.

(* ---- replacing a part of a text *)
Definition classes_of : list N -> list cls := map ucd_class.

Lemma in_one_cluster p X q segs : Forall good (classes_of (p ++ X ++ q)) -> X <> [] ->
  (forall l u v r, Forall good l -> classes_of X = u ++ v -> u <> [] -> v <> [] -> ~ boundary (l ++ u) (v ++ r)) ->
  clusters ucd_class (p ++ X ++ q) segs ->
  exists s1 u v s2, segs = s1 ++ (u ++ X ++ v) :: s2 /\ p = concat s1 ++ u /\ q = v ++ concat s2.
Proof.
  intros G HX In H. destruct H as [C1 C2 C3].
  (* the piece that holds the first character of X *)
  assert (exists s1 u w s2, segs = s1 ++ (u ++ w) :: s2 /\ p = concat s1 ++ u /\ w <> []) as (s1 & u & w & s2 & -> & -> & Hw).
  { assert (X ++ q <> []) as HXq by (intros E; apply app_eq_nil in E; tauto).
    clear C3 In G. revert p C1. induction segs as [|s segs IH]; intros p C1.
    - cbn [concat] in C1. symmetry in C1. apply app_eq_nil in C1. tauto.
    - inversion C2 as [|? ? Hs C2']; subst. cbn [concat] in C1. pose proof C1 as E. apply app_eq_app in E.
      destruct E as (m & [[E1 E2]|[E1 E2]]).
      + destruct m as [|c m].
        * rewrite app_nil_r in E1. subst s. cbn [app] in E2. destruct (IH C2' [] (eq_sym E2)) as (s1 & u & w & s2 & Es & Ep & Hw).
          symmetry in Ep. apply app_eq_nil in Ep. destruct Ep as [Ec ->]. exists (p :: s1), [], w, s2.
          split; [cbn [app] in *; congruence|]. split; [cbn [concat]; rewrite Ec, !app_nil_r; reflexivity|assumption].
        * exists [], p, (c :: m), segs. subst s. repeat split; discriminate.
      + destruct (IH C2' m E2) as (s1 & u & w & s2 & Es & Ep & Hw). exists (s :: s1), u, w, s2.
        split; [cbn [app]; congruence|]. split; [cbn [concat]; rewrite <- app_assoc, <- Ep; exact E1|assumption]. }
  rewrite concat_app in C1. cbn [concat] in C1. rewrite <- !app_assoc in C1. apply app_inv_head in C1. apply app_inv_head in C1.
  pose proof C1 as E. apply app_eq_app in E. destruct E as (m & [[E1 E2]|[E1 E2]]).
  - (* the piece goes on to the end of X at least *)
    exists s1, u, m, s2. rewrite E1, E2. auto.
  - destruct m as [|c m].
    { rewrite app_nil_r in E1. subst w. exists s1, u, [], s2. rewrite app_nil_r. split; [reflexivity|]. split; [reflexivity|]. symmetry; exact E2. }
    exfalso. (* a cut inside X *)
    assert (cut (s1 ++ (u ++ w) :: s2) (concat s1 ++ u ++ w)) as K.
    { exists (s1 ++ [u ++ w]), s2. rewrite <- app_assoc. split; [reflexivity|]. rewrite concat_app. cbn [concat]. rewrite app_nil_r. reflexivity. }
    apply (C3 _ ((c :: m) ++ q)) in K.
    + unfold classes_of in *. rewrite E1 in In. revert K. rewrite !map_app. rewrite app_assoc. apply In.
      * rewrite !map_app, !Forall_app in G. apply Forall_app. tauto.
      * apply map_app.
      * destruct w; [congruence|discriminate].
      * discriminate.
    + rewrite E1. rewrite <- !app_assoc. reflexivity.
    + intros E. apply app_eq_nil in E. destruct E as [_ E]. apply app_eq_nil in E. tauto.
Qed.

Lemma nonempty_part {A} (u X v : list A) : X <> [] -> u ++ X ++ v <> [].
Proof. intros H E. apply app_eq_nil in E. destruct E as [_ E]. apply app_eq_nil in E. tauto. Qed.

Lemma clusters_part X Y s1 u v s2 : same_part (classes_of X) (classes_of Y) ->
  Forall good (classes_of ((concat s1 ++ u) ++ X ++ v ++ concat s2)) ->
  clusters ucd_class ((concat s1 ++ u) ++ X ++ v ++ concat s2) (s1 ++ (u ++ X ++ v) :: s2) ->
  clusters ucd_class ((concat s1 ++ u) ++ Y ++ v ++ concat s2) (s1 ++ (u ++ Y ++ v) :: s2).
Proof.
  intros S G H. destruct H as [C1 C2 C3].
  assert (X <> []) as HX by (intros ->; apply (part_l _ _ S); reflexivity).
  assert (Y <> []) as HY by (intros ->; apply (part_r _ _ S); reflexivity).
  apply Forall_app in C2. destruct C2 as [N1 N2]. inversion N2 as [|? ? Nx N2']; subst.
  assert (forall Z, Z <> [] -> u ++ Z ++ v <> []) as NZ by (intros Z HZ; apply nonempty_part; assumption).
  assert (forall Z, Z <> [] -> (concat s1 ++ u) ++ Z ++ v ++ concat s2 <> []) as NT by (intros Z HZ; apply nonempty_part; assumption).
  unfold classes_of in *. rewrite !map_app, !Forall_app in G. destruct G as ((G1 & G2) & GX & G3 & G4).
  constructor.
  - rewrite concat_app. cbn [concat]. rewrite <- !app_assoc. reflexivity.
  - apply Forall_app. split; [assumption|]. constructor; auto.
  - intros l r E Hn. fold (cut (s1 ++ (u ++ Y ++ v) :: s2) l).
    assert (forall l r, (concat s1 ++ u) ++ X ++ v ++ concat s2 = l ++ r ->
              (cut (s1 ++ (u ++ X ++ v) :: s2) l <-> boundary (map ucd_class l) (map ucd_class r))) as C
      by (intros l' r' E'; exact (C3 l' r' E' (NT X HX))).
    apply app_eq_app in E. destruct E as (m & [[E1 E2]|[E1 E2]]).
    + (* before the part *)
      rewrite E2.
      assert (forall Z k, Z <> [] -> u = (u ++ Z ++ v) ++ k -> False) as K.
      { intros Z k HZ Ez. rewrite <- app_assoc in Ez. rewrite <- (app_nil_r u) in Ez at 1. apply app_inv_head in Ez. symmetry in Ez.
        apply app_eq_nil in Ez. destruct Ez as [Ez _]. apply app_eq_nil in Ez. tauto. }
      rewrite (cut_before s1 (u ++ Y ++ v) s2 l m u N1 E1 (fun k => K Y k HY)).
      rewrite <- (cut_before s1 (u ++ X ++ v) s2 l m u N1 E1 (fun k => K X k HX)).
      rewrite (C l (m ++ X ++ v ++ concat s2)) by (rewrite E1, <- !app_assoc; reflexivity).
      rewrite !map_app. apply boundary_before_part; [|assumption].
      assert (Forall good (map ucd_class (l ++ m))) as Glm by (rewrite <- E1, map_app; apply Forall_app; auto).
      rewrite map_app in Glm. apply Forall_app in Glm. tauto.
    + pose proof E2 as E2'. apply app_eq_app in E2'. destruct E2' as (n & [[F1 F2]|[F1 F2]]).
      * destruct m as [|c m]; [|destruct n as [|d n]].
        -- (* just before the part: as above *)
           rewrite app_nil_r in E1. subst l. cbn [app] in F1. subst n. rewrite F2.
           assert (forall Z k, Z <> [] -> u = (u ++ Z ++ v) ++ k -> False) as K.
           { intros Z k HZ Ez. rewrite <- app_assoc in Ez. rewrite <- (app_nil_r u) in Ez at 1. apply app_inv_head in Ez. symmetry in Ez.
             apply app_eq_nil in Ez. destruct Ez as [Ez _]. apply app_eq_nil in Ez. tauto. }
           assert (concat s1 ++ u = (concat s1 ++ u) ++ []) as E1 by (rewrite app_nil_r; reflexivity).
           rewrite (cut_before s1 (u ++ Y ++ v) s2 _ [] u N1 E1 (fun k => K Y k HY)).
           rewrite <- (cut_before s1 (u ++ X ++ v) s2 _ [] u N1 E1 (fun k => K X k HX)).
           rewrite (C (concat s1 ++ u) (X ++ v ++ concat s2) eq_refl).
           rewrite !map_app. apply (boundary_before_part _ _ _ []); [|assumption]. apply Forall_app; auto.
        -- (* just after it *)
           rewrite app_nil_r in F1. subst Y. cbn [app] in F2. subst r. subst l.
           rewrite <- !app_assoc. rewrite (cut_beyond s1 _ _ N1).
           assert (u ++ c :: m <> []) as HY' by (intros E; apply app_eq_nil in E; destruct E; discriminate).
           rewrite (cut_there _ _ _ HY') by auto.
           specialize (C ((concat s1 ++ u) ++ X) (v ++ concat s2)). rewrite <- !app_assoc in C. specialize (C eq_refl).
           rewrite (cut_beyond s1 _ _ N1) in C.
           assert (u ++ X <> []) as HX' by (intros E; apply app_eq_nil in E; tauto).
           rewrite (cut_there _ _ _ HX') in C by auto.
           assert (forall Z, (exists k, u ++ Z = (u ++ Z ++ v) ++ k /\ cut s2 k) <-> v = [] /\ cut s2 []) as EQ.
           { intros Z. split.
             - intros (k & Ek & Ck). rewrite <- !app_assoc in Ek. apply app_inv_head in Ek. rewrite <- (app_nil_r Z) in Ek at 1.
               apply app_inv_head in Ek. symmetry in Ek. apply app_eq_nil in Ek. destruct Ek as [-> ->]. auto.
             - intros [-> K]. exists []. rewrite !app_nil_r. auto. }
           rewrite EQ in C |- *. rewrite C. rewrite !map_app. rewrite !app_assoc.
           pose proof (boundary_after_part (map ucd_class X) (map ucd_class (c :: m)) (map ucd_class (concat s1) ++ map ucd_class u) []
             (map ucd_class v ++ map ucd_class (concat s2))) as BA.
           rewrite !app_nil_r in BA. apply BA; [apply Forall_app; auto|apply Forall_app; auto|assumption].
        -- (* inside *)
           subst l. split; intros B; exfalso.
           ++ rewrite <- !app_assoc in B. apply (proj1 (cut_beyond s1 _ _ N1)) in B.
              apply cut_there in B; [|intros E; apply app_eq_nil in E; destruct E; discriminate|auto].
              destruct B as (k & Ek & _). rewrite F1, <- !app_assoc in Ek. apply app_inv_head in Ek.
              rewrite <- (app_nil_r (c :: m)) in Ek at 1. apply app_inv_head in Ek. discriminate Ek.
           ++ revert B. rewrite F2. rewrite (map_app _ (concat s1 ++ u)), (map_app _ (d :: n)). apply (part_in_r _ _ S).
              ** rewrite map_app. apply Forall_app; auto.
              ** rewrite F1. apply map_app.
              ** discriminate.
              ** discriminate.
      * (* after it *)
        subst m l. rewrite <- !app_assoc. rewrite (cut_beyond s1 _ _ N1).
        assert (forall Z, Z <> [] -> u ++ Z ++ n <> []) as HZ' by (intros Z HZ E; apply app_eq_nil in E; destruct E as [_ E]; apply app_eq_nil in E; tauto).
        rewrite (cut_there _ _ _ (HZ' Y HY)) by auto.
        specialize (C ((concat s1 ++ u) ++ X ++ n) r). rewrite <- !app_assoc in C.
        rewrite F2 in C. specialize (C eq_refl).
        rewrite (cut_beyond s1 _ _ N1) in C. rewrite (cut_there _ _ _ (HZ' X HX)) in C by auto.
        assert (forall Z, (exists k, u ++ Z ++ n = (u ++ Z ++ v) ++ k /\ cut s2 k) <-> exists k, n = v ++ k /\ cut s2 k) as EQ.
        { intros Z. split; intros (k & Ek & Ck); exists k; (split; [|assumption]).
          - rewrite <- !app_assoc in Ek. apply app_inv_head in Ek. apply app_inv_head in Ek. exact Ek.
          - rewrite Ek, <- !app_assoc. reflexivity. }
        rewrite EQ in C |- *. rewrite C. rewrite !map_app.
        assert (Forall good (map ucd_class (n ++ r))) as Gn by (rewrite <- F2, map_app; apply Forall_app; auto).
        rewrite map_app in Gn. apply Forall_app in Gn. destruct Gn as [Gn Gr].
        rewrite (app_assoc (map ucd_class (concat s1))). rewrite (app_assoc (map ucd_class (concat s1)) _ (map ucd_class Y ++ _)).
        apply boundary_after_part; [|assumption|assumption]. rewrite !Forall_app. auto.
Qed.

(* ---- the parts that may be spelled differently *)
Definition loose (c : cls) : Prop := In (gcb c) [Other; Extend; SpacingMark].

Lemma split_extend p x a b f : gcb x = Extend -> spec_split p x a b f = b_in [Control; CR; LF] p.
Proof.
  intros E. unfold spec_split, brules, b_is, b_in. rewrite E. cbn [existsb GCB_eqb orb].
  destruct (gcb p); reflexivity.
Qed.

Lemma split_loose p p' x a b f : loose p -> loose p' -> spec_split p x a b f = spec_split p' x a b f.
Proof.
  unfold loose. cbn [In]. intros H H'. unfold spec_split, brules, b_is, b_in.
  destruct H as [<- | [<- | [<- | []]]]; destruct H' as [<- | [<- | [<- | []]]]; reflexivity.
Qed.

Lemma loose_inside X : Forall good X -> Forall loose X -> Forall (is Extend) (tl X) ->
  forall l u v r, Forall good l -> X = u ++ v -> u <> [] -> v <> [] -> ~ boundary (l ++ u) (v ++ r).
Proof.
  intros G HL HE l u v r Gl -> Hu Hv. destruct (exists_last_or u) as [->|(u' & p & ->)]; [congruence|].
  destruct v as [|x v]; [congruence|].
  assert (gcb x = Extend) as Ex.
  { assert (In x (tl ((u' ++ [p]) ++ x :: v))) as I.
    { destruct u' as [|y u']; cbn [app tl]; [left; reflexivity|]. rewrite <- app_assoc. apply in_or_app. right. right. left. reflexivity. }
    rewrite Forall_forall in HE. exact (HE x I). }
  rewrite !Forall_app in G, HL. destruct G as ((G1 & G2) & _). destruct HL as ((_ & HL) & _). inversion HL as [|? ? Lp _]; subst.
  rewrite app_assoc. cbn [app]. rewrite boundary_pos by (rewrite !Forall_app; auto).
  rewrite split_extend by assumption. unfold loose in Lp. cbn [In] in Lp. unfold b_in.
  destruct Lp as [<- | [<- | [<- | []]]]; discriminate.
Qed.

Lemma good_text cs : Forall scalar cs -> Forall good (classes_of cs).
Proof.
  intros H. unfold classes_of. rewrite <- map_class_chars by assumption. eapply good_items. apply reads_utf8_text. assumption.
Qed.

Lemma good_extend x : good x -> gcb x = Extend -> extpict x = false /\ incb x <> InCB_Consonant.
Proof.
  unfold good, good_classes. cbn [In]. intros G E. decompose [or] G; subst; try contradiction; cbn in *; try discriminate; split; congruence.
Qed.

Lemma fold_permutation {A S} (f : A -> S -> S) (P : A -> Prop) X Y : (forall x y a, P x -> P y -> f x (f y a) = f y (f x a)) ->
  Permutation X Y -> Forall P X -> forall a, fold_right f a X = fold_right f a Y.
Proof.
  intros C Pm. induction Pm as [|x X Y Pm IH|x y X|X Y Z P1 IH1 P2 IH2]; intros F a; [reflexivity|..].
  - inversion F; subst. cbn [fold_right]. f_equal. auto.
  - inversion F as [|? ? F1 F2]; subst. inversion F2; subst. cbn [fold_right]. auto.
  - rewrite IH1 by assumption. apply IH2. eapply Permutation_Forall; eassumption.
Qed.

Lemma alike_permutation X Y a b : Forall good X -> Forall (is Extend) X -> Permutation X Y -> alike a b -> alike (X ++ a) (Y ++ b).
Proof.
  intros G E P (A & B & C). unfold alike, g9c, g11, ri in *. rewrite !fold_right_app, A, B, C.
  assert (Forall (fun x => gcb x = Extend /\ extpict x = false /\ incb x <> InCB_Consonant) X) as F.
  { apply Forall_forall. intros x I. rewrite Forall_forall in G, E. split; [apply E; assumption|]. apply good_extend; [apply G|apply E]; assumption. }
  clear G E A B C.
  split; [|split]; (eapply fold_permutation; [|exact P|exact F]); intros x y s (E1 & P1 & I1) (E2 & P2 & I2).
  - unfold step9c, b_incb. destruct (incb x), (incb y); try congruence; cbn [InCB_eqb]; destruct (s =? 0)%N eqn:Es; rewrite ?Es; reflexivity.
  - unfold step11, b_is. rewrite E1, E2, P1, P2. cbn [GCB_eqb]. reflexivity.
  - unfold stepri, b_is. rewrite E1, E2. reflexivity.
Qed.

Lemma hd_in {A} (X : list A) d : X <> [] -> In (hd d X) X.
Proof. destruct X; [congruence|left; reflexivity]. Qed.
Lemma last_in {A} (X : list A) d : X <> [] -> In (last X d) X.
Proof. intros H. destruct (last_snoc X d H) as (X' & E). rewrite E at 2. apply in_or_app. right. left. reflexivity. Qed.

Lemma marks_part X Y : X <> [] -> Forall good X -> Forall (is Extend) X -> Permutation X Y -> same_part X Y.
Proof.
  intros HX G E P.
  assert (Y <> []) as HY by (intros ->; apply Permutation_sym, Permutation_nil in P; congruence).
  assert (Forall good Y) as GY by (eapply Permutation_Forall; eassumption).
  assert (Forall (is Extend) Y) as EY by (eapply Permutation_Forall; eassumption).
  assert (forall Z, Forall (is Extend) Z -> Forall loose Z) as EL
    by (intros Z F; eapply Forall_impl; [|exact F]; intros z Hz; unfold loose; rewrite Hz; cbn; auto).
  assert (forall Z, Forall (is Extend) Z -> Forall (is Extend) (tl Z)) as ET by (intros Z [|]; [constructor|assumption]).
  assert (forall Z z, Forall (is Extend) Z -> In z Z -> gcb z = Extend) as EI by (intros Z z F I; rewrite Forall_forall in F; exact (F z I)).
  constructor; try assumption.
  - intros a b A. apply alike_permutation; [apply Forall_rev; assumption..| |assumption].
    eapply Permutation_trans; [apply Permutation_sym, Permutation_rev|]. eapply Permutation_trans; [exact P|apply Permutation_rev].
  - intros p a b f _. rewrite !split_extend; [reflexivity|eapply EI; [exact EY|apply hd_in; assumption]|eapply EI; [exact E|apply hd_in; assumption]].
  - intros x a b f _. apply split_loose; [generalize (EL X E); intros F; rewrite Forall_forall in F; apply F; apply last_in; assumption|].
    generalize (EL Y EY); intros F; rewrite Forall_forall in F; apply F; apply last_in; assumption.
  - apply loose_inside; auto.
  - apply loose_inside; auto.
Qed.

Lemma accent_part c ms : good c -> loose c -> Forall good ms -> Forall (fun m => gcb m = Extend /\ incb m = InCB_Extend) ms ->
  same_part [c] (c :: ms).
Proof.
  intros Gc Lc Gm F.
  assert (Forall loose (c :: ms)) as FL
    by (constructor; [assumption|]; eapply Forall_impl; [|exact F]; intros z [Hz _]; unfold loose; rewrite Hz; cbn; auto).
  assert (Forall (is Extend) ms) as FE by (eapply Forall_impl; [|exact F]; intros z [Hz _]; exact Hz).
  constructor; try discriminate; auto.
  - intros a b A. cbn [rev app]. rewrite <- app_assoc. cbn [app].
    assert (alike (c :: a) (c :: b)) as A' by (apply (alike_more [c]); exact A). clear A.
    assert (exists d, g11 (c :: a) = step11 c d /\ (ri (c :: a) = false)) as (d & D & R).
    { exists (g11 a). split; [reflexivity|]. unfold ri. cbn [fold_right]. unfold stepri, b_is.
      unfold loose in Lc. cbn [In] in Lc. destruct Lc as [<- | [<- | [<- | []]]]; reflexivity. }
    destruct A' as (A & B & C).
    assert (forall l, Forall (fun m => gcb m = Extend /\ incb m = InCB_Extend) l -> Forall good l ->
       g9c (l ++ c :: b) = g9c (c :: b) /\ g11 (l ++ c :: b) = g11 (c :: b) /\ ri (l ++ c :: b) = ri (c :: b)) as K.
    { induction 1 as [|m l [M1 M2] _ IH]; intros Gl; [auto|]. inversion Gl as [|? ? Gm' Gl']; subst.
      destruct (IH Gl') as (I1 & I2 & I3). destruct (good_extend m Gm' M1) as [M3 _].
      unfold g9c, g11, ri in *. cbn [app fold_right]. cbn [app fold_right] in I1, I2, I3. rewrite I1, I2, I3. split; [|split].
      - unfold step9c at 1, b_incb. rewrite M2. reflexivity.
      - cbn [fold_right] in B, D. rewrite <- B, D. unfold step11, b_is. rewrite M1, M3. cbn [GCB_eqb].
        unfold loose in Lc. cbn [In] in Lc.
        destruct (extpict c); [reflexivity|]. destruct Lc as [<- | [<- | [<- | []]]]; cbn [GCB_eqb]; try reflexivity. destruct (d =? 1)%N; reflexivity.
      - cbn [fold_right] in C, R. rewrite <- C, R. unfold stepri, b_is. rewrite M1. reflexivity. }
    destruct (K (rev ms)) as (K1 & K2 & K3); [apply Forall_rev; assumption..|]. unfold alike. rewrite K1, K2, K3. auto.
  - intros x a b f _. apply split_loose; [assumption|].
    rewrite Forall_forall in FL. apply FL. apply last_in. discriminate.
  - apply loose_inside; cbn [tl]; auto.
  - apply loose_inside; cbn [tl]; auto.
Qed.

Lemma one_part c : good c -> same_part [c] [c].
Proof.
  intros G. constructor; try discriminate; auto.
  - intros a b A. apply (alike_more [c]). exact A.
  - intros l u v r _ E Hu Hv. destruct u as [|x [|y u]]; [congruence| |discriminate]. cbn [app] in E. destruct v; [congruence|discriminate].
  - intros l u v r _ E Hu Hv. destruct u as [|x [|y u]]; [congruence| |discriminate]. cbn [app] in E. destruct v; [congruence|discriminate].
Qed.

Lemma syllable_part c : good c -> same_part [c] (jamo c).
Proof.
  intros G. destruct (jamo_cases c G) as (d & ds & ds' & e & E1 & E2 & F1 & F2). constructor.
  - discriminate.
  - rewrite E1. discriminate.
  - auto.
  - apply good_jamo. assumption.
  - intros a b (A & B & C). destruct (alike_jamo c b a G) as (A' & B' & C'); [unfold alike; auto|]. unfold alike. cbn [rev app]. auto.
  - intros p a b f Gp. rewrite E1. cbn [hd]. symmetry. apply F1. assumption.
  - intros x a b f Gx. rewrite E2, last_last. cbn [last]. symmetry. apply F2. assumption.
  - intros l u v r _ E Hu Hv. destruct u as [|x [|y u]]; [congruence| |discriminate]. cbn [app] in E. destruct v; [congruence|discriminate].
  - intros l u v r Gl E Hu Hv. apply (boundary_within l c u v r); assumption.
Qed.

Lemma good_vowel x : good x -> gcb x = V -> x = Cls V false InCB_None.
Proof.
  unfold good, good_classes. cbn [In]. intros G E. decompose [or] G; subst; try contradiction; cbn in *; try discriminate; reflexivity.
Qed.

Lemma vowels_part c vs : good c -> gcb c = V -> vs <> [] -> Forall good vs -> Forall (is V) vs -> same_part [c] vs.
Proof.
  intros Gc Ec Hn Gv Ev. apply good_vowel in Ec; [|assumption]. set (v := Cls V false InCB_None) in *.
  assert (Forall (eq v) vs) as F.
  { apply Forall_forall. intros x I. rewrite Forall_forall in Gv, Ev. symmetry. apply good_vowel; [apply Gv|apply Ev]; assumption. }
  assert (forall l, l <> [] -> Forall (eq v) l -> forall a, g9c (l ++ a) = 0%N /\ g11 (l ++ a) = 0%N /\ ri (l ++ a) = false) as K.
  { intros l Hl Fl a. destruct Fl as [|x l <- _]; [congruence|]. unfold g9c, g11, ri. cbn [app fold_right]. auto. }
  subst c. constructor; try discriminate; auto.
  - intros a b _. destruct (K (rev [v]) ltac:(discriminate) ltac:(repeat constructor) a) as (A1 & A2 & A3).
    destruct (K (rev vs)) with (a := b) as (B1 & B2 & B3);
      [intros E; apply Hn; rewrite <- (rev_involutive vs), E; reflexivity|apply Forall_rev; assumption|].
    unfold alike. rewrite A1, A2, A3, B1, B2, B3. auto.
  - intros p a b f _. cbn [hd]. rewrite Forall_forall in F. rewrite <- (F _ (hd_in vs plain Hn)). reflexivity.
  - intros x a b f _. cbn [last]. rewrite Forall_forall in F. rewrite <- (F _ (last_in vs plain Hn)). reflexivity.
  - intros l u w r _ E Hu Hw. destruct u as [|x [|y u]]; [congruence| |discriminate]. cbn [app] in E. destruct w; [congruence|discriminate].
  - intros l u w r Gl -> Hu Hw. destruct (exists_last_or u) as [->|(u' & p & ->)]; [congruence|]. destruct w as [|x w]; [congruence|].
    rewrite !Forall_app in F, Gv. destruct F as ((_ & Fp) & Fx). inversion Fp; subst. inversion Fx; subst.
    rewrite app_assoc. cbn [app]. rewrite boundary_pos by (rewrite !Forall_app; tauto). subst v. discriminate.
Qed.

Lemma spelling_part X Y : Forall scalar X -> Forall scalar Y -> spelling X Y -> X = Y \/ same_part (classes_of X) (classes_of Y).
Proof.
  intros SX SY H. apply good_text in SX. apply good_text in SY. destruct H as [ms ms' F P|c d ms E I F|c d E|s|c vs E Hn F].
  - destruct ms as [|m ms]; [left; symmetry; apply Permutation_nil; assumption|]. right. apply marks_part; [discriminate|assumption| |].
    + unfold classes_of. apply Forall_map. exact F.
    + apply Permutation_map. assumption.
  - right. unfold classes_of in *. cbn [map] in *. rewrite E in *. inversion SY; subst. apply accent_part; [assumption|exact I|assumption|].
    apply Forall_map. exact F.
  - right. unfold classes_of in *. cbn [map] in *. rewrite E in *. apply one_part. inversion SX; assumption.
  - right. unfold classes_of in *. rewrite classes_decompose. cbn [map] in *. apply syllable_part. inversion SX; assumption.
  - right. unfold classes_of in *. cbn [map] in *. inversion SX; subst. apply vowels_part; [assumption|assumption| |assumption|].
    + destruct vs; [congruence|discriminate].
    + apply Forall_map. exact F.
Qed.

(* ---- texts *)
Lemma clusters_same_part p X Y q segs : Forall scalar (p ++ X ++ q) -> same_part (classes_of X) (classes_of Y) ->
  clusters ucd_class (p ++ X ++ q) segs ->
  exists s1 u v s2, segs = s1 ++ (u ++ X ++ v) :: s2 /\ clusters ucd_class (p ++ Y ++ q) (s1 ++ (u ++ Y ++ v) :: s2).
Proof.
  intros Hs S H. pose proof (good_text _ Hs) as G.
  destruct (in_one_cluster p X q segs G) as (s1 & u & v & s2 & -> & -> & ->); [intros ->; apply (part_l _ _ S); reflexivity|apply S|assumption|].
  exists s1, u, v, s2. split; [reflexivity|]. eapply clusters_part; eassumption.
Qed.

Lemma Forall2_same {A} (R : A -> A -> Prop) l : (forall x, R x x) -> Forall2 R l l.
Proof. intros H. induction l; constructor; auto. Qed.
Lemma Forall2_back {A} (R : A -> A -> Prop) l m : (forall x y, R x y -> R y x) -> Forall2 R l m -> Forall2 R m l.
Proof. intros H. induction 1; constructor; auto. Qed.
Lemma Forall2_on {A} (R : A -> A -> Prop) l m n : (forall x y z, R x y -> R y z -> R x z) -> Forall2 R l m -> Forall2 R m n -> Forall2 R l n.
Proof. intros H F. revert n. induction F; intros n G; inversion G; subst; constructor; eauto. Qed.

Lemma text_has_clusters cs : Forall scalar cs -> exists segs, clusters ucd_class cs segs.
Proof.
  intros H. destruct (tokenises_total (utf8_text cs)) as (toks & T). apply (text_clusters cs toks H) in T. destruct T as (segs & C & _). eauto.
Qed.

(* Texts that come from each other by replacing parts, in either direction. *)
Inductive linked (R : list N -> list N -> Prop) : list N -> list N -> Prop :=
| linked_same t : linked R t t
| linked_part p x y q : Forall scalar (p ++ x ++ q) -> Forall scalar (p ++ y ++ q) -> R x y -> linked R (p ++ x ++ q) (p ++ y ++ q)
| linked_back t u : linked R t u -> linked R u t
| linked_on t u v : linked R t u -> linked R u v -> linked R t v.

Lemma linked_scalar R t u : linked R t u -> (Forall scalar t <-> Forall scalar u).
Proof. induction 1; tauto. Qed.

Lemma linked_clusters (R : list N -> list N -> Prop) t u :
  (forall X Y, Forall scalar X -> Forall scalar Y -> R X Y -> X = Y \/ same_part (classes_of X) (classes_of Y)) ->
  linked R t u -> Forall scalar t -> forall st su,
  clusters ucd_class t st -> clusters ucd_class u su -> Forall2 (linked R) st su.
Proof.
  intros HR. induction 1 as [t|p X Y q S1 S2 H|t u L IH|t u v R1 IH1 R2 IH2]; intros Hs st su Ct Cu.
  - rewrite (clusters_unique _ _ _ _ Ct Cu). apply Forall2_same. constructor.
  - assert (Forall scalar X /\ Forall scalar Y /\ True) as (SX & SY & _) by (rewrite !Forall_app in S1, S2; tauto).
    destruct (HR X Y SX SY H) as [-> | S].
    { rewrite (clusters_unique _ _ _ _ Ct Cu). apply Forall2_same. constructor. }
    destruct (clusters_same_part p X Y q st S1 S Ct) as (s1 & u & v & s2 & -> & C'). rewrite (clusters_unique _ _ _ _ Cu C').
    apply Forall2_app; [apply Forall2_same; constructor|]. constructor; [|apply Forall2_same; constructor].
    assert (forall Z sg, Forall scalar (p ++ Z ++ q) -> clusters ucd_class (p ++ Z ++ q) (s1 ++ sg :: s2) -> Forall scalar sg) as K.
    { intros Z sg HZ HC. destruct HC as [E _ _]. rewrite concat_app in E. cbn [concat] in E. rewrite <- E, !Forall_app in HZ. tauto. }
    apply linked_part; [exact (K X _ S1 Ct)|exact (K Y _ S2 C')|assumption].
  - apply Forall2_back; [apply linked_back|]. apply IH; [|assumption|assumption]. apply (linked_scalar _ _ _ L). assumption.
  - assert (Forall scalar u) as Hu by (apply (linked_scalar _ _ _ R1); assumption).
    destruct (text_has_clusters u Hu) as (sm & Cm).
    eapply Forall2_on; [apply linked_on|eapply IH1; eassumption|eapply IH2; eassumption].
Qed.

Lemma respelled_linked t u : respelled t u <-> linked spelling t u.
Proof. split; induction 1; solve [constructor; assumption|eapply respelled_on; eassumption|eapply linked_on; eassumption]. Qed.

Lemma respelled_scalar t u : respelled t u -> (Forall scalar t <-> Forall scalar u).
Proof. intros H. apply respelled_linked in H. exact (linked_scalar _ _ _ H). Qed.

Lemma respelled_clusters t u : respelled t u -> Forall scalar t -> forall st su,
  clusters ucd_class t st -> clusters ucd_class u su -> Forall2 respelled st su.
Proof.
  intros H Hs st su Ct Cu. apply respelled_linked in H.
  pose proof (linked_clusters spelling t u spelling_part H Hs st su Ct Cu) as F. clear Ct Cu.
  induction F; constructor; [apply respelled_linked; assumption|assumption].
Qed.

(* C68. Two spellings of a text have corresponding tokens: as many, and each is
   a spelling of the other. *)
Theorem C68_respelled : forall t u toks toks', Forall scalar t -> respelled t u ->
  tokenises (utf8_text t) toks -> tokenises (utf8_text u) toks' ->
  exists segs segs', concat segs = t /\ concat segs' = u /\
    toks = map utf8_text segs /\ toks' = map utf8_text segs' /\ Forall2 respelled segs segs'.
Proof.
  intros t u toks toks' Ht R T T'. assert (Forall scalar u) as Hu by (apply (respelled_scalar _ _ R); assumption).
  apply (text_clusters t toks Ht) in T. apply (text_clusters u toks' Hu) in T'.
  destruct T as (segs & C & ->). destruct T' as (segs' & C' & ->). exists segs, segs'.
  split; [apply C|]. split; [apply C'|]. split; [reflexivity|]. split; [reflexivity|]. eapply respelled_clusters; eassumption.
Qed.

Theorem C68_count : forall t u toks toks', Forall scalar t -> respelled t u ->
  tokenises (utf8_text t) toks -> tokenises (utf8_text u) toks' -> length toks = length toks'.
Proof.
  intros t u toks toks' Ht R T T'. destruct (C68_respelled t u toks toks' Ht R T T') as (segs & segs' & _ & _ & -> & -> & F).
  rewrite !map_length. clear T T'. induction F; cbn [length]; congruence.
Qed.

(* Marks put in another order: the tokens keep their lengths. *)
Theorem C68_order : forall p ms ms' q toks toks', Forall scalar (p ++ ms ++ q) -> Forall combining ms -> Permutation ms ms' ->
  tokenises (utf8_text (p ++ ms ++ q)) toks -> tokenises (utf8_text (p ++ ms' ++ q)) toks' ->
  map (@length byte) toks = map (@length byte) toks'.
Proof.
  intros p ms ms' q toks toks' Hs Hm P T T'.
  assert (Forall scalar (p ++ ms' ++ q)) as Hs'.
  { rewrite !Forall_app in *. destruct Hs as (A & B & C). split; [assumption|]. split; [|assumption]. eapply Permutation_Forall; eassumption. }
  apply (text_clusters _ _ Hs) in T. apply (text_clusters _ _ Hs') in T'. destruct T as (segs & C & ->). destruct T' as (segs' & C' & ->).
  assert (Forall scalar ms /\ Forall scalar ms') as [Sm Sm'] by (rewrite !Forall_app in Hs, Hs'; tauto).
  destruct (spelling_part ms ms' Sm Sm' (marks_in_order ms ms' Hm P)) as [E | S].
  { rewrite E in C. rewrite (clusters_unique _ _ _ _ C C'). reflexivity. }
  destruct (clusters_same_part p ms ms' q segs Hs S C) as (s1 & u & v & s2 & -> & C2). rewrite (clusters_unique _ _ _ _ C' C2).
  rewrite !map_app. cbn [map]. f_equal. f_equal. unfold utf8_text. rewrite !flat_map_app, !app_length. f_equal. f_equal.
  clear - P. induction P as [|x X Y _ IH|x y X|X Y Z _ IH1 _ IH2]; cbn [flat_map]; rewrite ?app_length; lia.
Qed.

Ltac scalars := repeat (apply Forall_cons; [apply scalarb_spec; reflexivity|]); apply Forall_nil.
Ltac cluster_list := apply C04_tokens_fn; vm_compute; reflexivity.

(* e acute dot-below, in three spellings; ka with nukta as one character or two; a
   syllable spelled out. *)
Example C68_example :
  respelled [0xE9; 0x323; 0x958; 0xD558]%N [0x65; 0x323; 0x301; 0x915; 0x93C; 0x1112; 0x1161]%N /\
  tokenises (utf8_text [0xE9; 0x323; 0x958; 0xD558]%N) (map utf8_text [[0xE9; 0x323]; [0x958]; [0xD558]]%N) /\
  tokenises (utf8_text [0x65; 0x323; 0x301; 0x915; 0x93C; 0x1112; 0x1161]%N)
    (map utf8_text [[0x65; 0x323; 0x301]; [0x915; 0x93C]; [0x1112; 0x1161]]%N).
Proof.
  split; [|split; cluster_list].
  apply respelled_on with [0x65; 0x301; 0x323; 0x958; 0xD558]%N.
  { apply (respelled_part [] [0xE9]%N [0x65; 0x301]%N [0x323; 0x958; 0xD558]%N); [scalars..|].
    apply letter_and_accents; [vm_compute; reflexivity|vm_compute; auto|]. repeat constructor; vm_compute; reflexivity. }
  apply respelled_on with [0x65; 0x323; 0x301; 0x958; 0xD558]%N.
  { apply (respelled_part [0x65]%N [0x301; 0x323]%N [0x323; 0x301]%N [0x958; 0xD558]%N); [scalars..|].
    apply marks_in_order; [repeat constructor; vm_compute; reflexivity|apply perm_swap]. }
  apply respelled_on with [0x65; 0x323; 0x301; 0x915; 0x93C; 0xD558]%N.
  { apply (respelled_part [0x65; 0x323; 0x301]%N [0x958]%N [0x915; 0x93C]%N [0xD558]%N); [scalars..|].
    apply letter_and_accents; [vm_compute; reflexivity|vm_compute; auto|]. repeat constructor; vm_compute; reflexivity. }
  apply (respelled_part [0x65; 0x323; 0x301; 0x915; 0x93C]%N [0xD558]%N (decompose 0xD558) []); [scalars..|]. apply syllable_spelled.
Qed.

(* What the conditions are for.  ZWJ does not commute with marks (emoji sequence);
   a mark that conjuncts do not see through (ZWNJ) separates consonants; a mark
   after Prepend, regional indicators or Hangul letters separates what follows. *)
Theorem C68_needed :
  (exists toks toks', tokenises (utf8_text [0x1F469; 0xFE0F; 0x200D; 0x1F469]%N) toks /\
     tokenises (utf8_text [0x1F469; 0x200D; 0xFE0F; 0x1F469]%N) toks' /\ length toks = 1%nat /\ length toks' = 2%nat /\
     gcb (ucd_class 0x200D) = ZWJ /\ combining 0xFE0F) /\
  (exists toks toks', tokenises (utf8_text [0x915; 0x94D; 0x915]%N) toks /\
     tokenises (utf8_text [0x915; 0x94D; 0x200C; 0x915]%N) toks' /\ length toks = 1%nat /\ length toks' = 2%nat /\ combining 0x200C) /\
  Forall (fun c => exists d toks toks', tokenises (utf8_text [c; d]) toks /\
     tokenises (utf8_text [c; 0x301%N; d]) toks' /\ length toks = 1%nat /\ length toks' = 2%nat /\ accent 0x301) ([0x600; 0x1F1E9; 0x1100; 0x1161; 0x11A8; 0xAC00; 0xAC01]%N).
Proof.
  split; [|split].
  - do 2 eexists. split; [cluster_list|]. split; [cluster_list|]. vm_compute. auto.
  - do 2 eexists. split; [cluster_list|]. split; [cluster_list|]. vm_compute. auto.
  - assert (accent 0x301) as A by (vm_compute; auto).
    apply Forall_cons; [exists 0x61%N; do 2 eexists; split; [cluster_list|]; split; [cluster_list|]; auto|].
    apply Forall_cons; [exists 0x1F1EA%N; do 2 eexists; split; [cluster_list|]; split; [cluster_list|]; auto|].
    apply Forall_cons; [exists 0x1161%N; do 2 eexists; split; [cluster_list|]; split; [cluster_list|]; auto|].
    repeat (apply Forall_cons; [exists 0x11A8%N; do 2 eexists; split; [cluster_list|]; split; [cluster_list|]; auto|]). apply Forall_nil.
Qed.

Definition all_theorems := (C68_respelled, C68_count, C68_order, C68_needed).
Print Assumptions all_theorems.
