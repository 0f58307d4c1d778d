(* Property C55: the tokens are the longest matches of the regular expression
   for extended grapheme clusters. *)
From Coq Require Import List NArith Arith Bool Lia Strings.Byte.
From Verif Require Import Spec.Classes Spec.Utf8 Spec.UAX29 Spec.UcdRanges Spec.Segmentation Spec.ClusterRegex.
From Verif Require Import Model.Base Model.CharProps Model.Lookup Model.Machine Model.Scan.
From Verif Require Import Proofs.Basics Proofs.TableCheck Proofs.MachineFacts Proofs.LookupFacts Proofs.ScanFacts
  Proofs.TextFacts Proofs.UnicodeFacts Proofs.BoundaryFacts Proofs.RegexFacts.
From Verif Require Import Properties.Splitting.
Import ListNotations.

Local Opaque committed LookupFirstChar fast_class ok1 leads conts.

Section Matches.
Context {A : Type} (cl : A -> cls).

Lemma split_cases (x rest l r : list A) : x ++ rest = l ++ r ->
  (exists l2, l2 <> [] /\ x = l ++ l2 /\ r = l2 ++ rest) \/ (exists l', l = x ++ l' /\ rest = l' ++ r).
Proof.
  revert l. induction x as [|a x IH]; intros l E.
  - right. exists l. auto.
  - destruct l as [|b l].
    + left. exists (a :: x). split; [discriminate|]. split; [reflexivity|]. symmetry. exact E.
    + cbn [app] in E. assert (a = b) as <- by congruence. assert (x ++ rest = l ++ r) as E' by congruence.
      destruct (IH l E') as [(l2 & H & -> & ->)|(l' & -> & ->)]; [left; exists l2; auto|right; exists l'; auto].
Qed.

Lemma map_nonempty {B C} (f : B -> C) l : l <> [] -> map f l <> [].
Proof. destruct l; [congruence|discriminate]. Qed.

(* Where the first match ends there is a boundary. *)
Lemma longest_boundary x rest : x <> [] -> Forall good (map cl (x ++ rest)) -> cluster_regex (map cl x) ->
  (forall y z, rest = y ++ z -> y <> [] -> ~ cluster_regex (map cl (x ++ y))) -> rest <> [] ->
  boundary (map cl x) (map cl rest).
Proof.
  intros Hx G R M Hr. destruct rest as [|y rest]; [congruence|]. cbn [map].
  rewrite map_app in G. cbn [map] in G. apply Forall_app in G. destruct G as [Gx Gr]. inversion Gr as [|? ? Gy _]; subst.
  destruct (boundary_dec (map cl x) (cl y) (map cl rest) Gx) as [B|B]; [assumption|]. exfalso.
  apply (M [y] rest); [reflexivity|discriminate|].
  assert (map cl (x ++ [y]) <> []) as N by (apply map_nonempty; destruct x; discriminate).
  assert (Forall good (map cl (x ++ [y]))) as G by (rewrite map_app; apply Forall_app; split; [assumption|constructor; [assumption|constructor]]).
  apply regex_joined; [assumption|assumption|]. apply (regex_joined (map cl x)) in R; [|apply map_nonempty; assumption|assumption].
  intros l r E Hl Hr' Bd. rewrite map_app in E. cbn [map] in E.
  destruct (exists_last_or r) as [->|(r' & z & ->)]; [congruence|]. rewrite app_assoc in E. apply app_inj_tail in E. destruct E as [E <-].
  destruct r' as [|w r'].
  - rewrite app_nil_r in E. subst l. apply B. apply (boundary_one_right _ _ [] (map cl rest)); assumption.
  - apply (R l (w :: r') E Hl ltac:(discriminate)).
    assert (Forall good l) as Gl by (rewrite E in Gx; apply Forall_app in Gx; tauto).
    apply (boundary_one_right l w (r' ++ [cl y]) r' Gl). exact Bd.
Qed.

Lemma joined_no_boundary x rest l l2 : joined (map cl x) -> Forall good (map cl x) -> x = l ++ l2 -> l <> [] -> l2 <> [] ->
  ~ boundary (map cl l) (map cl (l2 ++ rest)).
Proof.
  intros J G -> Hl Hl2 B. destruct l2 as [|y l2]; [congruence|]. rewrite map_app in J, G. apply Forall_app in G. destruct G as [G _].
  apply (J (map cl l) (map cl (y :: l2)) eq_refl); [apply map_nonempty; assumption|discriminate|].
  cbn [map app] in *. apply (boundary_one_right _ _ _ (map cl (l2 ++ rest)) G). exact B.
Qed.

Lemma boundary_rest x rest l r : x <> [] -> rest = l ++ r -> l <> [] -> Forall good (map cl (x ++ rest)) ->
  boundary (map cl x) (map cl rest) ->
  (boundary (map cl (x ++ l)) (map cl r) <-> boundary (map cl l) (map cl r)).
Proof.
  intros Hx -> Hl G B. destruct r as [|y r].
  - cbn [map]. destruct x; [congruence|]. destruct l; [congruence|]. cbn. tauto.
  - destruct l as [|z l]; [congruence|]. rewrite map_app in G. cbn [app map] in G. rewrite map_app in G. cbn [map] in G.
    rewrite map_app. cbn [map]. eapply boundary_fresh.
    + apply map_nonempty; assumption.
    + rewrite app_comm_cons, app_assoc in G. apply Forall_app in G. apply G.
    + cbn [app map] in B. exact B.
Qed.

Lemma matches_clusters txt segs : Forall good (map cl txt) -> longest_matches cl txt segs -> clusters cl txt segs.
Proof.
  intros G H. induction H as [|x rest segs Hx R M H IH].
  - constructor; [reflexivity|constructor|]. congruence.
  - assert (Forall good (map cl x) /\ Forall good (map cl rest)) as [Gx Gr] by (rewrite map_app in G; apply Forall_app; assumption).
    destruct (IH Gr) as [C1 C2 C3]. constructor.
    + cbn [concat]. rewrite C1. reflexivity.
    + constructor; assumption.
    + intros l r E _. fold (@cut A (x :: segs) l).
      assert (joined (map cl x)) as J by (apply regex_joined; [apply map_nonempty; assumption|assumption|assumption]).
      destruct (split_cases x rest l r E) as [(l2 & Hl2 & E1 & ->)|(l' & -> & E1)].
      * destruct l as [|a l].
        -- split; intros _; [|exists [], (x :: segs); auto]. subst x. cbn [app] in Hx. destruct l2; [congruence|]. exact I.
        -- split; intros K; exfalso.
           ++ destruct (cut_inside _ _ _ K) as (l' & E2); [discriminate|]. rewrite E2 in E1. rewrite <- app_assoc in E1.
              rewrite <- (app_nil_r x) in E1 at 1. apply app_inv_head in E1. symmetry in E1. apply app_eq_nil in E1. tauto.
           ++ revert K. eapply joined_no_boundary; try eassumption. discriminate.
      * rewrite cut_next by assumption. destruct rest as [|z rest].
        { symmetry in E1. apply app_eq_nil in E1. destruct E1 as [-> ->]. rewrite app_nil_r. split.
          - intros _. destruct x; [congruence|]. exact I.
          - intros _. exists [], segs. auto. }
        assert (boundary (map cl x) (map cl (z :: rest))) as B by (apply longest_boundary; try assumption; discriminate).
        destruct l' as [|w l'].
        { cbn [app] in E1. subst r. rewrite app_nil_r. split; intros _; [assumption|]. exists [], segs. auto. }
        rewrite (boundary_rest x (z :: rest) (w :: l') r); try assumption; try discriminate.
        apply C3; [assumption|discriminate].
Qed.

Lemma clusters_matches segs : forall txt, Forall good (map cl txt) -> clusters cl txt segs -> longest_matches cl txt segs.
Proof.
  induction segs as [|x segs IH]; intros txt G [C1 C2 C3].
  - cbn in C1. subst txt. constructor.
  - inversion C2 as [|? ? Hx C2']; subst. cbn [concat] in *. set (rest := concat segs) in *.
    assert (Forall good (map cl x) /\ Forall good (map cl rest)) as [Gx Gr] by (rewrite map_app in G; apply Forall_app; assumption).
    assert (x ++ rest <> []) as N by (destruct x; [congruence|discriminate]).
    assert (rest <> [] -> boundary (map cl x) (map cl rest)) as B.
    { intros Hr. apply C3; [reflexivity|assumption|]. exists [x], segs. split; [reflexivity|]. cbn. apply app_nil_r. }
    assert (cluster_regex (map cl x)) as R.
    { apply regex_joined; [apply map_nonempty; assumption|assumption|]. intros l r E Hl Hr Bd.
      destruct (map_split cl x l r E) as (u & v & E1 & <- & <-).
      destruct v as [|y v]; [cbn in Hr; congruence|].
      assert (cut (x :: segs) u) as K.
      { apply (C3 u ((y :: v) ++ rest)); [rewrite E1, <- app_assoc; reflexivity|assumption|].
        cbn [app map] in *. eapply boundary_one_right; [|exact Bd]. rewrite E1, map_app in Gx. apply Forall_app in Gx. tauto. }
      destruct (cut_inside _ _ _ K) as (l' & E2); [destruct u; [cbn in Hl; congruence|discriminate]|].
      rewrite E2 in E1. rewrite <- app_assoc in E1. rewrite <- (app_nil_r x) in E1 at 1. apply app_inv_head in E1.
      symmetry in E1. apply app_eq_nil in E1. destruct E1; discriminate. }
    constructor; [assumption|assumption| |].
    + intros y z E Hy R'. apply regex_joined in R'.
      * apply (R' (map cl x) (map cl y)); [apply map_app|apply map_nonempty; assumption|apply map_nonempty; assumption|].
        destruct y as [|w y]; [congruence|]. cbn [map]. rewrite E in B. cbn [app map] in B.
        apply (boundary_one_right _ _ (map cl (y ++ z))); [assumption|]. apply B. discriminate.
      * apply map_nonempty. destruct x; [congruence|discriminate].
      * rewrite E, app_assoc, map_app in G. apply Forall_app in G. tauto.
    + apply IH; [assumption|]. constructor; [reflexivity|assumption|].
      intros l r E Hr. fold (@cut A segs l). destruct l as [|w l].
      * split; intros _; [|exists [], segs; auto]. cbn [app] in E. subst r. destruct rest; [congruence|]. exact I.
      * rewrite <- (boundary_rest x rest (w :: l) r); try assumption; try discriminate; [|apply B; assumption].
        rewrite <- (C3 (x ++ w :: l) r); [|rewrite E, <- app_assoc; reflexivity|assumption].
        fold (@cut A (x :: segs) (x ++ w :: l)). rewrite cut_next by assumption. reflexivity.
Qed.
End Matches.

(* C55. For any bytes, read as characters and bad bytes. *)
Theorem C55_any_bytes : forall data its toks, reads data its ->
  (tokenises data toks <-> exists segs, longest_matches item_class its segs /\ toks = map items_bytes segs).
Proof.
  intros data its toks R. pose proof (good_items _ _ R) as G. rewrite (tokenises_iff data its toks R).
  split; intros (segs & H & ->); exists segs; (split; [|reflexivity]).
  - apply clusters_matches; assumption.
  - apply matches_clusters; assumption.
Qed.

(* C55. For texts of Unicode characters. *)
Theorem C55_regex : forall cs toks, Forall scalar cs ->
  (tokenises (utf8_text cs) toks <-> exists segs, longest_matches ucd_class cs segs /\ toks = map utf8_text segs).
Proof.
  intros cs toks Hcs. assert (Forall good (map ucd_class cs)) as G.
  { rewrite <- map_class_chars by assumption. eapply good_items. apply reads_utf8_text. assumption. }
  rewrite (text_clusters cs toks Hcs). split; intros (segs & H & ->); exists segs; (split; [|reflexivity]).
  - apply clusters_matches; assumption.
  - apply matches_clusters; assumption.
Qed.

(* A sign before, a conjunct of two consonants, a vowel sign: one cluster, of
   the form precore core postcore; two letters are not one. *)
Example C55_matches : cluster_regex (map ucd_class [0x600; 0x915; 0x94D; 0x915; 0x903]%N).
Proof.
  right. right. exists (map ucd_class [0x600]%N), (map ucd_class [0x915; 0x94D; 0x915; 0x903]%N). split; [reflexivity|]. split.
  - apply star_one, one_i. vm_compute. auto.
  - exists (map ucd_class [0x915; 0x94D; 0x915]%N), (map ucd_class [0x903]%N). split; [reflexivity|]. split.
    + do 3 right. left. exists (map ucd_class [0x915]%N), (map ucd_class [0x94D; 0x915]%N). split; [reflexivity|]. split.
      * apply one_i. vm_compute. reflexivity.
      * apply plus_one. apply cat_nil_l; [constructor|]. apply (cat_i (one linker) _ [ucd_class 0x94D] [ucd_class 0x915]).
        -- apply one_i. vm_compute. reflexivity.
        -- apply cat_nil_l; [constructor|]. apply one_i. vm_compute. reflexivity.
    + apply star_one, one_i. vm_compute. auto.
Qed.

Example C55_no_match : ~ cluster_regex (map ucd_class [0x61; 0x62]%N).
Proof.
  assert (Forall good (map ucd_class [0x61; 0x62]%N)) as G.
  { rewrite <- map_class_chars by (repeat constructor). eapply good_items. apply reads_utf8_text. repeat constructor. }
  intros R. apply regex_joined in R; [|discriminate|assumption].
  apply (R [ucd_class 0x61] [ucd_class 0x62]); [reflexivity|discriminate|discriminate|].
  apply (boundary_pos [] (ucd_class 0x61) (ucd_class 0x62) []); [|vm_compute; reflexivity].
  inversion G; subst. constructor; [assumption|constructor].
Qed.

Example C55_example : exists segs,
  longest_matches ucd_class [0x600; 0x915; 0x94D; 0x915; 0x903; 0x915; 0x1F1E9; 0x1F1EA; 0x1F1E9]%N segs /\
  map utf8_text segs =
    [utf8_text [0x600; 0x915; 0x94D; 0x915; 0x903]; utf8_text [0x915]; utf8_text [0x1F1E9; 0x1F1EA]; utf8_text [0x1F1E9]]%N.
Proof.
  destruct (proj1 (C55_regex [0x600; 0x915; 0x94D; 0x915; 0x903; 0x915; 0x1F1E9; 0x1F1EA; 0x1F1E9]%N
    [utf8_text [0x600; 0x915; 0x94D; 0x915; 0x903]; utf8_text [0x915]; utf8_text [0x1F1E9; 0x1F1EA]; utf8_text [0x1F1E9]]%N
    ltac:(repeat (constructor; [apply scalarb_spec; reflexivity|]); constructor))) as (segs & H & E).
  - apply C04_tokens_fn. vm_compute. reflexivity.
  - exists segs. split; [assumption|]. symmetry. assumption.
Qed.

Definition all_theorems := (C55_any_bytes, C55_regex).
Print Assumptions all_theorems.
