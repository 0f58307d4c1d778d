(* How far the rules look back: when the text before some character has no
   influence on later boundaries. *)
From Coq Require Import List NArith Arith Bool Lia.
From Verif Require Import Spec.Classes Spec.UAX29 Spec.Segmentation.
From Verif Require Import Model.Base Model.CharProps Model.Machine.
From Verif Require Import Proofs.TableCheck Proofs.MachineFacts Proofs.TextFacts.
Import ListNotations.

Lemma summary_exists rl : rl <> [] -> Forall good rl -> exists s, summary rl s.
Proof.
  induction rl as [|x rl IH]; [congruence|]. intros _ G. inversion G as [|? ? Gx Gr]; subst.
  destruct rl as [|p rl].
  - destruct (begin_summary x Gx) as (s & _ & S). eauto.
  - destruct IH as (s & S); [discriminate|assumption|].
    destruct (is_split s (enc p) (enc x)) eqn:E.
    + destruct (transition_split rl p x s [] S Gr Gx E) as (_ & s' & _ & S'). eauto.
    + destruct (transition_join rl p x s [] S Gr Gx E) as (_ & s' & _ & S'). eauto.
Qed.

(* Two left contexts (most recent first) look the same to the rules. *)
Definition alike (r1 r2 : list cls) : Prop := g9c r1 = g9c r2 /\ g11 r1 = g11 r2 /\ ri r1 = ri r2.

Lemma alike_more m r1 r2 : alike r1 r2 -> alike (m ++ r1) (m ++ r2).
Proof.
  unfold alike, g9c, g11, ri. rewrite !fold_right_app. intros (-> & -> & ->). auto.
Qed.

Lemma boundary_alike l1 l2 p x r : Forall good (l1 ++ [p]) -> Forall good (l2 ++ [p]) ->
  alike (rev (l1 ++ [p])) (rev (l2 ++ [p])) -> (boundary (l1 ++ [p]) (x :: r) <-> boundary (l2 ++ [p]) (x :: r)).
Proof.
  intros G1 G2 (A & B & C). rewrite (boundary_pos l1 p x r), (boundary_pos l2 p x r) by assumption.
  rewrite !rev_app_distr in A, B, C. cbn [rev app] in A, B, C. rewrite A, B, C. reflexivity.
Qed.

(* Same character c, contexts that make no difference after it. *)
Lemma boundary_after l1 l2 c m x r : Forall good (l1 ++ c :: m) -> Forall good (l2 ++ c :: m) ->
  alike (c :: rev l1) (c :: rev l2) ->
  (boundary (l1 ++ c :: m) (x :: r) <-> boundary (l2 ++ c :: m) (x :: r)).
Proof.
  intros G1 G2 H. destruct (exists_last_or (c :: m)) as [E|(m' & p & E)]; [discriminate E|].
  rewrite E in *. rewrite !app_assoc in *. apply boundary_alike; [assumption|assumption|].
  rewrite <- !app_assoc, <- E, !rev_app_distr. cbn [rev]. rewrite <- !app_assoc. apply alike_more. exact H.
Qed.

Definition check_fresh : bool :=
  forallb (fun s => forallb (fun p => forallb (fun x =>
    negb (fits s p) || negb (spec_split p x (A9c s) (B11 s) (Cri s)) ||
    ((step9c x (A9c s) =? step9c x 0)%N && (step11 x (B11 s) =? step11 x 0)%N && Bool.eqb (stepri x (Cri s)) (stepri x false)))
    good_classes) good_classes) states.
Lemma check_fresh_ok : check_fresh = true.
Proof. vm_compute. reflexivity. Qed.

(* After a boundary everything starts afresh. *)
Lemma alike_boundary l x r : l <> [] -> Forall good l -> good x -> boundary l (x :: r) -> alike (x :: rev l) [x].
Proof.
  intros Hl G Gx B. destruct (exists_last_or l) as [->|(l' & p & ->)]; [congruence|].
  apply boundary_pos in B; [|assumption].
  assert (rev (l' ++ [p]) = p :: rev l') as E by (rewrite rev_app_distr; reflexivity).
  assert (Forall good (p :: rev l')) as G' by (rewrite <- E; apply Forall_rev; assumption).
  destruct (summary_exists (p :: rev l') ltac:(discriminate) G') as (s & F & A & B' & C).
  rewrite A, B', C in B. pose proof check_fresh_ok as K. unfold check_fresh in K.
  rewrite forallb_forall in K. specialize (K s (fits_state s p F)).
  rewrite forallb_forall in K. specialize (K p (Forall_inv G')).
  rewrite forallb_forall in K. specialize (K x Gx).
  rewrite F, B in K. cbn [negb orb] in K. apply andb_true_iff in K. destruct K as [K K3]. apply andb_true_iff in K. destruct K as [K1 K2].
  apply N.eqb_eq in K1. apply N.eqb_eq in K2. apply eqb_prop in K3.
  rewrite E. unfold alike, g9c, g11, ri in *. cbn [fold_right] in *. rewrite A, B', C. auto.
Qed.

Lemma boundary_fresh l x m y r r0 : l <> [] -> Forall good (l ++ x :: m) -> boundary l (x :: r0) ->
  (boundary (l ++ x :: m) (y :: r) <-> boundary (x :: m) (y :: r)).
Proof.
  intros Hl G B. assert (Forall good l /\ Forall good (x :: m)) as [Gl Gm] by (apply Forall_app; assumption).
  rewrite (boundary_after l [] x m y r); [reflexivity|assumption|assumption|].
  eapply alike_boundary; try eassumption. inversion Gm; assumption.
Qed.

(* The rules look at one character to the right. *)
Lemma boundary_one_right l x r r' : Forall good l -> (boundary l (x :: r) <-> boundary l (x :: r')).
Proof.
  intros G. destruct (exists_last_or l) as [->|(l' & p & ->)]; [reflexivity|].
  rewrite !boundary_pos by assumption. reflexivity.
Qed.

Lemma boundary_dec l x r : Forall good l -> boundary l (x :: r) \/ ~ boundary l (x :: r).
Proof.
  intros G. destruct (exists_last_or l) as [->|(l' & p & ->)]; [left; exact I|].
  rewrite boundary_pos by assumption. destruct (spec_split _ _ _ _ _); [left; reflexivity|right; discriminate].
Qed.

(* ---- cuts *)
Lemma cut_next {A} (x : list A) segs l : x <> [] -> (cut (x :: segs) (x ++ l) <-> cut segs l).
Proof.
  intros Hx. split.
  - intros (b & a & E & C). destruct b as [|y b]; cbn [concat] in C.
    + symmetry in C. apply app_eq_nil in C. tauto.
    + cbn [app] in E. assert (y = x) as -> by congruence. apply app_inv_head in C. exists b, a. split; congruence.
  - intros (b & a & -> & C). exists (x :: b), a. split; [reflexivity|]. cbn [concat]. rewrite C. reflexivity.
Qed.

Lemma cut_inside {A} (x : list A) segs l : cut (x :: segs) l -> l <> [] -> exists l', l = x ++ l'.
Proof.
  intros (b & a & E & C) Hl. destruct b as [|y b]; cbn [concat] in C; [congruence|].
  cbn [app] in E. assert (y = x) as -> by congruence. eauto.
Qed.

Lemma map_split {A B} (cl : A -> B) (x : list A) l r : map cl x = l ++ r -> exists u v, x = u ++ v /\ map cl u = l /\ map cl v = r.
Proof.
  revert l. induction x as [|a x IH]; intros l E.
  - symmetry in E. apply app_eq_nil in E. destruct E as [-> ->]. exists [], []. auto.
  - destruct l as [|b l]; cbn [map app] in E.
    + exists [], (a :: x). auto.
    + destruct (IH l ltac:(congruence)) as (u & v & -> & E1 & E2). exists (a :: u), v. cbn [map app]. repeat split; congruence.
Qed.
