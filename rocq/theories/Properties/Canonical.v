(* Property C69: canonically equivalent texts. *)
From Coq Require Import List NArith Arith Bool Lia Strings.Byte Sorting.Permutation FSets.FMapPositive.
From Coq Require Import ZArith ZifyBool ZifyNat ZifyN.
From Verif Require Import Spec.Classes Spec.Utf8 Spec.UAX29 Spec.UcdRanges Spec.Segmentation Spec.Hangul Spec.Respelling
  Data.Canonical Spec.Canonical.
From Verif Require Import Model.Base Model.CharProps Model.Lookup Model.Machine Model.Scan.
From Verif Require Import Proofs.Basics Proofs.TableCheck Proofs.MachineFacts Proofs.LookupFacts Proofs.ScanFacts
  Proofs.TextFacts Proofs.TextProps Proofs.UnicodeFacts Proofs.BoundaryFacts.
From Verif Require Import Properties.Splitting Properties.Editing Properties.Conformance Properties.Hangul Properties.Respelling.
Import ListNotations.

Local Opaque committed LookupFirstChar fast_class ok1 leads conts.

(* ---- the data, looked up quickly *)
Definition rows : list (N * N * list N) := map (fun '(c, m) => (c, c, m)) canonical_mappings.
Definition mapping_map := paint rows.
Definition fast_mapping (c : N) : option (list N) := PositiveMap.find (N.succ_pos c) mapping_map.

Lemma mapping_listed c ms : mapping c ms = listed c (map (fun '(d, m) => (d, d, m)) ms).
Proof.
  induction ms as [|[d m] ms IH]; [reflexivity|]. cbn [mapping map listed]. rewrite IH.
  destruct (N.eqb_spec c d) as [-> | H]; [rewrite N.leb_refl; reflexivity|].
  replace ((d <=? c) && (c <=? d))%N with false by lia. reflexivity.
Qed.

Lemma fast_mapping_ok c : fast_mapping c = mapping c canonical_mappings.
Proof. unfold fast_mapping, mapping_map. rewrite find_paint, mapping_listed. reflexivity. Qed.

Fixpoint fast_full (n : nat) (c : N) : list N :=
  match fast_mapping c with
  | Some m => match n with O => m | S n' => flat_map (fast_full n') m end
  | None => decompose c
  end.
Lemma fast_full_ok n : forall c, fast_full n c = full n c.
Proof.
  induction n as [|n IH]; intros c; cbn [fast_full full]; rewrite fast_mapping_ok; destruct (mapping c canonical_mappings); auto.
  apply flat_map_ext. exact IH.
Qed.

Definition same_list (a b : list N) : bool := if list_eq_dec N.eq_dec a b then true else false.
Definition exception : N := 0x21AE.

Definition row_ok (r : N * list N) : bool :=
  let '(c, m) := r in
  (* scalar values, not Hangul, and the decomposition is complete *)
  scalarb c && forallb scalarb m && negb (syllable c) && ((c <? 0x1100) || (0x11FF <? c))%N &&
  forallb (fun d => match fast_mapping d with None => negb (syllable d) | Some _ => false end) (fast_full 4 c) &&
  same_list (flat_map (fast_full 4) m) (fast_full 4 c) &&
  negb (existsb (N.eqb exception) m) &&
  (* the kinds of characters *)
  ((c =? exception)%N ||
   match m with
   | [] => false
   | d :: ms => cls_eqb (fast_class d) (fast_class c) &&
       (match ms with [] => true | _ => b_in [Other; Extend; SpacingMark] (fast_class c) end) &&
       forallb (fun x => GCB_eqb (gcb (fast_class x)) Extend && InCB_eqb (incb (fast_class x)) InCB_Extend) ms
   end).
Definition check_rows : bool := forallb row_ok canonical_mappings.
Lemma check_rows_ok : check_rows = true.
Proof. vm_cast_no_check (eq_refl true). Qed.

Definition check_ccc : bool :=
  forallb (fun '(lo, hi, k) => forallb (fun i => GCB_eqb (gcb (fast_class (lo + N.of_nat i))) Extend) (seq 0 (S (N.to_nat (hi - lo))))) ccc_ranges.
Lemma check_ccc_ok : check_ccc = true.
Proof. vm_cast_no_check (eq_refl true). Qed.

(* ---- what the data say *)
Record row (c : N) (m : list N) : Prop := {
  row_scalar : scalar c; row_scalars : Forall scalar m; row_not_syllable : syllable c = false; row_not_jamo : (c < 0x1100 \/ 0x11FF < c)%N;
  row_done : forall d, In d (full 4 c) -> mapping d canonical_mappings = None /\ syllable d = false;
  row_full : flat_map (full 4) m = full 4 c;
  row_spared : ~ In exception m;
  row_spelling : c <> exception -> spelling [c] m }.

Lemma mapping_in c m ms : mapping c ms = Some m -> In (c, m) ms.
Proof.
  induction ms as [|[d n] ms IH]; cbn [mapping]; [discriminate|]. destruct (N.eqb_spec c d) as [-> | H].
  - intros E. left. congruence.
  - intros E. right. auto.
Qed.

Lemma row_of c m : mapping c canonical_mappings = Some m -> row c m.
Proof.
  intros H. apply mapping_in in H. pose proof check_rows_ok as K. unfold check_rows in K. rewrite forallb_forall in K.
  specialize (K _ H). clear H. unfold row_ok in K. rewrite !andb_true_iff in K. destruct K as (((((((K1 & K2) & K3) & K4) & K5) & K6) & K7) & K8).
  rewrite fast_full_ok in K5, K6.
  constructor.
  - apply scalarb_spec. assumption.
  - apply Forall_forall. intros x I. rewrite forallb_forall in K2. apply scalarb_spec. auto.
  - apply negb_true_iff. assumption.
  - lia.
  - intros d I. rewrite forallb_forall in K5. specialize (K5 d I). rewrite fast_mapping_ok in K5.
    destruct (mapping d canonical_mappings); [discriminate|]. split; [reflexivity|]. apply negb_true_iff. assumption.
  - unfold same_list in K6. destruct (list_eq_dec N.eq_dec _ _) as [E|]; [|discriminate]. rewrite <- E. apply flat_map_ext. intros d. symmetry. apply fast_full_ok.
  - intros I. apply negb_true_iff in K7. assert (existsb (N.eqb exception) m = true) as E; [|congruence].
    apply existsb_exists. exists exception. split; [assumption|apply N.eqb_refl].
  - intros Hc. apply orb_true_iff in K8. destruct K8 as [E|K8]; [apply N.eqb_eq in E; congruence|]. destruct m as [|d ms]; [discriminate|].
    rewrite !andb_true_iff in K8. destruct K8 as ((A & B) & C). rewrite !fast_class_ok in A.
    destruct (cls_eqb_spec (ucd_class d) (ucd_class c)) as [E|]; [|discriminate].
    destruct ms as [|x ms]; [apply same_kind; assumption|]. rewrite fast_class_ok in B. apply letter_and_accents; [assumption| |].
    + unfold b_in in B. apply existsb_exists in B. destruct B as (g & I & Eg). destruct (GCB_eqb_spec (gcb (ucd_class c)) g); [|discriminate]. congruence.
    + apply Forall_forall. intros y I. rewrite forallb_forall in C. specialize (C y I). rewrite fast_class_ok in C. apply andb_true_iff in C.
      destruct C as [C1 C2]. unfold accent, combining.
      destruct (GCB_eqb_spec (gcb (ucd_class y)) Extend); [|discriminate]. destruct (InCB_eqb_spec (incb (ucd_class y)) InCB_Extend); [|discriminate]. auto.
Qed.

Lemma ccc_combining c : (0 < ccc c)%N -> combining c.
Proof.
  unfold ccc. destruct (listed c ccc_ranges) as [k|] eqn:E; [|lia]. intros _. destruct (listed_in _ _ _ E) as (lo & hi & I & B).
  pose proof check_ccc_ok as K. unfold check_ccc in K. rewrite forallb_forall in K. specialize (K _ I). cbn beta iota in K.
  rewrite forallb_forall in K. specialize (K (N.to_nat (c - lo))). rewrite fast_class_ok in K.
  replace (lo + N.of_nat (N.to_nat (c - lo)))%N with c in K by lia. unfold combining.
  destruct (GCB_eqb_spec (gcb (ucd_class c)) Extend); [assumption|]. exfalso.
  assert (false = true) as F by (apply K; apply in_seq; lia). discriminate F.
Qed.

(* From here on only these facts count. *)
Local Opaque canonical_mappings ccc_ranges.

(* ---- full decompositions are complete *)
Definition done (d : N) : Prop := mapping d canonical_mappings = None /\ syllable d = false.

Lemma done_full n d : done d -> full n d = [d].
Proof. intros [M S]. destruct n; cbn [full]; rewrite M; unfold decompose; rewrite S; reflexivity. Qed.

Lemma jamo_done c d : syllable c = true -> In d (decompose c) -> done d.
Proof.
  intros Sc I. pose proof Sc as E. apply syllable_range in E. unfold decompose in I. rewrite Sc in I.
  assert (0x1100 <= d <= 0x11FF)%N as B.
  { cbv zeta in I. change NCount with 588%N in I. change TCount with 28%N in I. change SBase with 44032%N in I.
    change LBase with 0x1100%N in I. change VBase with 0x1161%N in I. change TBase with 0x11A7%N in I.
    assert (forall x y, y <> 0%N -> x = (y * (x / y) + x mod y)%N /\ (x mod y < y)%N) as DM
      by (intros x y Hy; split; [apply N.div_mod|apply N.mod_lt]; exact Hy).
    destruct (DM (c - 44032)%N 588%N) as [D1 D2]; [discriminate|]. destruct (DM (c - 44032)%N 28%N) as [D3 D4]; [discriminate|].
    destruct (DM ((c - 44032) mod 588)%N 28%N) as [D5 D6]; [discriminate|].
    destruct ((c - 44032) mod 28 =? 0)%N; cbn [In] in I; lia. }
  split.
  - destruct (mapping d canonical_mappings) as [m|] eqn:M; [|reflexivity]. apply row_of in M. destruct (row_not_jamo _ _ M); lia.
  - destruct (syllable d) eqn:Sd; [|reflexivity]. apply syllable_range in Sd. lia.
Qed.

Lemma full_done c d : In d (full 4 c) -> done d.
Proof.
  intros I. destruct (mapping c canonical_mappings) as [m|] eqn:M.
  - exact (row_done _ _ (row_of _ _ M) d I).
  - cbn [full] in I. rewrite M in I. destruct (syllable c) eqn:S; [eapply jamo_done; eassumption|].
    unfold decompose in I. rewrite S in I. destruct I as [<- | []]. split; assumption.
Qed.

Lemma full_decompose c : flat_map (full 4) (decompose c) = full 4 c.
Proof.
  destruct (syllable c) eqn:S.
  - assert (full 4 c = decompose c) as ->.
    { cbn [full]. destruct (mapping c canonical_mappings) as [m|] eqn:M; [|reflexivity].
      pose proof (row_not_syllable _ _ (row_of _ _ M)). congruence. }
    assert (forall d, In d (decompose c) -> full 4 d = [d]) as K by (intros d I; apply done_full; eapply jamo_done; eassumption).
    revert K. generalize (decompose c). induction l as [|d l IH]; intros K; [reflexivity|]. cbn [flat_map].
    rewrite K by (left; reflexivity). cbn [app]. f_equal. apply IH. intros e I. apply K. right. assumption.
  - unfold decompose. rewrite S. cbn [flat_map]. apply app_nil_r.
Qed.

(* ---- canonical order *)
Lemma put_commute a b t : (0 < ccc b < ccc a)%N -> put a (put b t) = put b (put a t).
Proof.
  intros H. induction t as [|x t IH]; cbn [put].
  - replace ((0 <? ccc b) && (ccc b <? ccc a))%N with true by lia. replace ((0 <? ccc a) && (ccc a <? ccc b))%N with false by lia. reflexivity.
  - destruct ((0 <? ccc x) && (ccc x <? ccc b))%N eqn:E1.
    + replace ((0 <? ccc x) && (ccc x <? ccc a))%N with true by lia. cbn [put]. rewrite E1.
      replace ((0 <? ccc x) && (ccc x <? ccc a))%N with true by lia. rewrite IH. reflexivity.
    + destruct ((0 <? ccc x) && (ccc x <? ccc a))%N eqn:E2; cbn [put]; rewrite ?E1, ?E2;
        replace ((0 <? ccc b) && (ccc b <? ccc a))%N with true by lia; [reflexivity|].
      replace ((0 <? ccc a) && (ccc a <? ccc b))%N with false by lia. reflexivity.
Qed.

Lemma order_exchange p a b q : (0 < ccc b < ccc a)%N -> canonical_order (p ++ a :: b :: q) = canonical_order (p ++ b :: a :: q).
Proof. intros H. induction p as [|x p IH]; cbn [app canonical_order]; [apply put_commute; assumption|]. rewrite IH. reflexivity. Qed.

Fixpoint ordered (t : list N) : Prop :=
  match t with
  | a :: ((b :: _) as t') => ~ (0 < ccc b < ccc a)%N /\ ordered t'
  | _ => True
  end.

Lemma ordered_cons a t : ordered (a :: t) <-> match t with [] => True | b :: _ => ~ (0 < ccc b < ccc a)%N /\ ordered t end.
Proof. destruct t; [cbn [ordered]; tauto|reflexivity]. Qed.

Lemma ordered_put a t : ordered t -> ordered (put a t).
Proof.
  induction t as [|b t IH]; intros H; cbn [put]; [exact I|].
  destruct ((0 <? ccc b) && (ccc b <? ccc a))%N eqn:E.
  - assert (ordered t) as Ht by (apply (proj1 (ordered_cons _ _)) in H; destruct t; [exact I|tauto]). specialize (IH Ht).
    apply ordered_cons. destruct t as [|c t]; cbn [put] in *; [split; [lia|assumption]|].
    destruct ((0 <? ccc c) && (ccc c <? ccc a))%N eqn:E2.
    + split; [|assumption]. apply (proj1 (ordered_cons _ _)) in H. exact (proj1 H).
    + split; [lia|assumption].
  - apply ordered_cons. split; [lia|assumption].
Qed.

Lemma ordered_order t : ordered (canonical_order t).
Proof. induction t as [|a t IH]; [exact I|]. cbn [canonical_order]. apply ordered_put. assumption. Qed.

Lemma order_ordered t : ordered t -> canonical_order t = t.
Proof.
  induction t as [|a t IH]; intros H; [reflexivity|]. cbn [canonical_order]. apply (proj1 (ordered_cons _ _)) in H.
  destruct t as [|b t]; [reflexivity|]. destruct H as [H1 H2]. rewrite IH by assumption. cbn [put].
  replace ((0 <? ccc b) && (ccc b <? ccc a))%N with false by lia. reflexivity.
Qed.

Lemma ordered_app a b : ordered (a ++ b) -> ordered a /\ ordered b.
Proof.
  induction a as [|x a IH]; intros H; [split; [exact I|exact H]|]. cbn [app] in H. apply (proj1 (ordered_cons _ _)) in H.
  destruct a as [|y a]; cbn [app] in *.
  - destruct b; [split; exact I|]. split; [exact I|tauto].
  - destruct H as [H1 H2]. destruct (IH H2) as [H3 H4]. split; [|assumption]. apply ordered_cons. auto.
Qed.

Lemma put_permutation a t : Permutation (a :: t) (put a t).
Proof.
  induction t as [|b t IH]; cbn [put]; [apply Permutation_refl|]. destruct (_ && _); [|apply Permutation_refl].
  eapply Permutation_trans; [apply perm_swap|]. apply perm_skip. assumption.
Qed.
Lemma order_permutation t : Permutation t (canonical_order t).
Proof.
  induction t as [|a t IH]; [constructor|]. cbn [canonical_order]. eapply Permutation_trans; [apply perm_skip; exact IH|apply put_permutation].
Qed.

(* ---- steps *)
Inductive canon : list N -> list N -> Prop :=
| canon_map c m : mapping c canonical_mappings = Some m -> c <> exception -> canon [c] m
| canon_syllable s : canon [s] (decompose s)
| canon_exchange a b : (0 < ccc b < ccc a)%N -> done a -> done b -> canon [a; b] [b; a].

Lemma canon_part X Y : Forall scalar X -> Forall scalar Y -> canon X Y -> X = Y \/ same_part (classes_of X) (classes_of Y).
Proof.
  intros SX SY H. apply spelling_part; [assumption|assumption|]. destruct H as [c m M E|s|a b H _ _].
  - apply row_spelling; [apply row_of; assumption|assumption].
  - apply syllable_spelled.
  - apply marks_in_order; [|apply perm_swap]. constructor; [apply ccc_combining; lia|]. constructor; [apply ccc_combining; lia|constructor].
Qed.

Lemma linked_context R p x y q : Forall scalar p -> Forall scalar q -> linked R x y -> linked R (p ++ x ++ q) (p ++ y ++ q).
Proof.
  intros Hp Hq H. induction H as [t|p' x y q' S1 S2 H|t u _ IH|t u v _ IH1 _ IH2].
  - apply linked_same.
  - assert (forall z, p ++ (p' ++ z ++ q') ++ q = (p ++ p') ++ z ++ q' ++ q) as E by (intros z; rewrite <- !app_assoc; reflexivity).
    rewrite !E. apply linked_part; [| |assumption]; rewrite <- E, !Forall_app in *; tauto.
  - apply linked_back. assumption.
  - eapply linked_on; eassumption.
Qed.

Lemma linked_flat_map R (f : N -> list N) t : Forall scalar t -> (forall c, In c t -> linked R [c] (f c)) -> linked R t (flat_map f t).
Proof.
  intros H. induction H as [|c t Hc Ht IH]; intros K; [apply linked_same|]. cbn [flat_map].
  apply linked_on with (f c ++ t).
  - change (c :: t) with ([] ++ [c] ++ t). change (f c ++ t) with ([] ++ f c ++ t).
    apply linked_context; [apply Forall_nil|assumption|]. apply K. left. reflexivity.
  - rewrite <- (app_nil_r t) at 1. rewrite <- (app_nil_r (flat_map f t)).
    apply linked_context; [|apply Forall_nil|].
    + apply (linked_scalar R [c]); [apply K; left; reflexivity|]. auto.
    + apply IH. intros d I. apply K. right. assumption.
Qed.

Lemma linked_full n : forall c, scalar c -> c <> exception -> linked canon [c] (full n c).
Proof.
  assert (forall x y, Forall scalar x -> Forall scalar y -> canon x y -> linked canon x y) as One.
  { intros x y Sx Sy H. rewrite <- (app_nil_r x), <- (app_nil_r y). apply (linked_part canon [] x y []); rewrite ?app_nil_r; assumption. }
  induction n as [|n IH]; intros c Hc He; cbn [full]; destruct (mapping c canonical_mappings) as [m|] eqn:M.
  - apply One; [auto| |apply canon_map; assumption]. apply (row_scalars _ _ (row_of _ _ M)).
  - apply One; [auto|apply decompose_scalar; assumption|apply canon_syllable].
  - pose proof (row_of _ _ M) as Rw. pose proof (row_scalars _ _ Rw) as Sm. apply linked_on with m; [apply One; [auto|assumption|apply canon_map; assumption]|].
    apply linked_flat_map; [assumption|]. intros d I. apply IH; [rewrite Forall_forall in Sm; auto|].
    intros ->. exact (row_spared _ _ Rw I).
  - apply One; [auto|apply decompose_scalar; assumption|apply canon_syllable].
Qed.

Lemma linked_put a t : Forall scalar (a :: t) -> Forall done (a :: t) -> linked canon (a :: t) (put a t).
Proof.
  induction t as [|b t IH]; intros Hs Hd; cbn [put]; [apply linked_same|].
  inversion Hs as [|? ? Sa S']; subst. inversion S' as [|? ? Sb St]; subst. inversion Hd as [|? ? Da D']; subst. inversion D' as [|? ? Db Dt]; subst.
  destruct ((0 <? ccc b) && (ccc b <? ccc a))%N eqn:E; [|apply linked_same].
  apply linked_on with (b :: a :: t).
  - apply (linked_part canon [] [a; b] [b; a] t); [cbn [app]; repeat (apply Forall_cons; [assumption|]); assumption..|]. apply canon_exchange; [lia|assumption|assumption].
  - change (b :: a :: t) with ([b] ++ (a :: t)). change (b :: put a t) with ([b] ++ put a t).
    rewrite <- (app_nil_r (a :: t)), <- (app_nil_r (put a t)). apply linked_context; [auto|constructor|]. apply IH; constructor; assumption.
Qed.

Lemma linked_order t : Forall scalar t -> Forall done t -> linked canon t (canonical_order t).
Proof.
  induction t as [|a t IH]; intros Hs Hd; [apply linked_same|]. inversion Hs; subst. inversion Hd; subst. cbn [canonical_order].
  apply linked_on with (a :: canonical_order t).
  - change (a :: t) with ([a] ++ t). change (a :: canonical_order t) with ([a] ++ canonical_order t).
    rewrite <- (app_nil_r t) at 1. rewrite <- (app_nil_r (canonical_order t)). apply linked_context; auto.
  - apply linked_put; (constructor; [assumption|]); eapply Permutation_Forall; [apply order_permutation|assumption|apply order_permutation|assumption].
Qed.

Lemma full_decomposition_done t : Forall done (full_decomposition t).
Proof.
  apply Forall_forall. intros d I. unfold full_decomposition in I. apply in_flat_map in I. destruct I as (c & _ & I). eapply full_done; exact I.
Qed.

Lemma linked_nfd t : Forall scalar t -> ~ In exception t -> linked canon t (nfd t).
Proof.
  intros Hs He.
  assert (linked canon t (full_decomposition t)) as L.
  { apply linked_flat_map; [assumption|]. intros c I. apply linked_full; [rewrite Forall_forall in Hs; auto|]. intros ->. contradiction. }
  eapply linked_on; [exact L|]. apply linked_order; [apply (linked_scalar _ _ _ L); assumption|apply full_decomposition_done].
Qed.

Lemma canon_nfd t u : linked canon t u -> nfd t = nfd u.
Proof.
  induction 1 as [t|p x y q _ _ H|t u _ IH|t u v _ IH1 _ IH2]; [reflexivity| |congruence|congruence].
  unfold nfd, full_decomposition. rewrite !flat_map_app. destruct H as [c m M _|s|a b H Da Db].
  - rewrite (row_full _ _ (row_of _ _ M)). cbn [flat_map]. rewrite app_nil_r. reflexivity.
  - rewrite full_decompose. cbn [flat_map]. rewrite app_nil_r. reflexivity.
  - cbn [flat_map]. rewrite !done_full by assumption. cbn [app]. apply order_exchange. assumption.
Qed.

(* ---- C69 *)

(* Canonically equivalent texts have corresponding tokens, unless U+21AE occurs. *)
Theorem C69_canonical : forall t u toks toks', Forall scalar t -> Forall scalar u ->
  canonically_equivalent t u -> ~ In 0x21AE%N t -> ~ In 0x21AE%N u ->
  tokenises (utf8_text t) toks -> tokenises (utf8_text u) toks' ->
  exists segs segs', concat segs = t /\ concat segs' = u /\
    toks = map utf8_text segs /\ toks' = map utf8_text segs' /\ Forall2 canonically_equivalent segs segs'.
Proof.
  intros t u toks toks' Ht Hu E Et Eu T T'.
  assert (linked canon t u) as L.
  { eapply linked_on; [apply linked_nfd; assumption|]. apply linked_back. rewrite E. apply linked_nfd; assumption. }
  apply (text_clusters t toks Ht) in T. apply (text_clusters u toks' Hu) in T'.
  destruct T as (segs & C & ->). destruct T' as (segs' & C' & ->). exists segs, segs'.
  split; [apply C|]. split; [apply C'|]. split; [reflexivity|]. split; [reflexivity|].
  pose proof (linked_clusters canon t u canon_part L Ht segs segs' C C') as F. clear C C'.
  induction F; constructor; [apply canon_nfd; assumption|assumption].
Qed.

Lemma nfd_normal t : Forall done (nfd t) /\ ordered (nfd t).
Proof.
  split; [|apply ordered_order]. eapply Permutation_Forall; [apply order_permutation|apply full_decomposition_done].
Qed.
Lemma normal_nfd t : Forall done t -> ordered t -> nfd t = t.
Proof.
  intros D O. unfold nfd, full_decomposition. replace (flat_map (full 4) t) with t; [apply order_ordered; assumption|].
  induction D as [|d t Hd _ IH]; [reflexivity|]. cbn [flat_map]. rewrite done_full by assumption. cbn [app]. f_equal. apply IH.
  apply (proj1 (ordered_cons _ _)) in O. destruct t; [exact I|tauto].
Qed.

(* Normalising (NFD) before or after splitting makes no difference. *)
Theorem C69_nfd : forall t toks, Forall scalar t -> ~ In 0x21AE%N t -> tokenises (utf8_text t) toks ->
  exists segs, concat segs = t /\ toks = map utf8_text segs /\
    tokenises (utf8_text (nfd t)) (map (fun s => utf8_text (nfd s)) segs).
Proof.
  intros t toks Ht Et T. pose proof (linked_nfd t Ht Et) as L.
  assert (Forall scalar (nfd t)) as Hn by (apply (linked_scalar _ _ _ L); assumption).
  destruct (nfd_normal t) as [D O].
  assert (~ In 0x21AE%N (nfd t)) as En.
  { intros I. rewrite Forall_forall in D. destruct (D _ I) as [M _]. revert M. rewrite <- fast_mapping_ok. vm_compute. discriminate. }
  destruct (tokenises_total (utf8_text (nfd t))) as (toks' & T').
  destruct (C69_canonical t (nfd t) toks toks' Ht Hn) as (segs & segs' & E1 & E2 & -> & -> & F); try assumption.
  { unfold canonically_equivalent. symmetry. apply normal_nfd; assumption. }
  exists segs. split; [assumption|]. split; [reflexivity|].
  replace (map (fun s => utf8_text (nfd s)) segs) with (map utf8_text segs'); [assumption|].
  rewrite <- E2 in D, O. clear - F D O. induction F as [|s s' segs segs' H _ IH]; [reflexivity|]. cbn [map concat] in *.
  apply Forall_app in D. destruct D as [D1 D2]. apply ordered_app in O. destruct O as [O1 O2]. f_equal; [|auto].
  unfold canonically_equivalent in H. rewrite H. rewrite normal_nfd by assumption. reflexivity.
Qed.

(* The exception: U+21AE is U+2194 with a stroke, and only the latter is
   pictographic.  Before ZWJ and an emoji this shows. *)
Theorem C69_refuted : exists t u toks toks', Forall scalar t /\ Forall scalar u /\ canonically_equivalent t u /\
  tokenises (utf8_text t) toks /\ tokenises (utf8_text u) toks' /\ length toks <> length toks'.
Proof.
  exists [0x21AE; 0x200D; 0x1F600]%N, [0x2194; 0x338; 0x200D; 0x1F600]%N. do 2 eexists.
  split; [scalars|]. split; [scalars|]. split; [vm_compute; reflexivity|].
  split; [cluster_list|]. split; [cluster_list|]. vm_compute. discriminate.
Qed.

(* Vietnamese, Devanagari, Greek, Hangul. *)
Example C69_example :
  nfd [0x1EC7; 0x958; 0x1FA2; 0xD55C]%N =
    [0x65; 0x323; 0x302; 0x915; 0x93C; 0x3C9; 0x313; 0x300; 0x345; 0x1112; 0x1161; 0x11AB]%N /\
  canonically_equivalent [0x1EC7; 0xAC01]%N [0xEA; 0x323; 0xAC00; 0x11A8]%N /\
  tokenises (utf8_text [0x1EC7; 0xAC01]%N) (map utf8_text [[0x1EC7]; [0xAC01]]%N) /\
  tokenises (utf8_text [0xEA; 0x323; 0xAC00; 0x11A8]%N) (map utf8_text [[0xEA; 0x323]; [0xAC00; 0x11A8]]%N).
Proof. split; [vm_compute; reflexivity|]. split; [vm_compute; reflexivity|]. split; cluster_list. Qed.

Definition all_theorems := (C69_canonical, C69_nfd, C69_refuted).
Print Assumptions all_theorems.
