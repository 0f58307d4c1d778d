(* The regular expression for clusters describes exactly the texts without a
   boundary inside. *)
From Coq Require Import List NArith Arith Bool Lia.
From Verif Require Import Spec.Classes Spec.UAX29 Spec.ClusterRegex.
From Verif Require Import Model.Base Model.CharProps Model.Machine.
From Verif Require Import Proofs.TableCheck Proofs.MachineFacts Proofs.TextFacts.
Import ListNotations.

(* ---- languages *)

Lemma star_one (A : lang) u : A u -> star A u.
Proof. intros H. rewrite <- (app_nil_r u). constructor; [assumption|constructor]. Qed.
Lemma star_app (A : lang) u v : star A u -> star A v -> star A (u ++ v).
Proof. intros H K. induction H; [assumption|]. rewrite <- app_assoc. constructor; assumption. Qed.
Lemma star_snoc (A : lang) u v : star A u -> A v -> star A (u ++ v).
Proof. intros. apply star_app; [|apply star_one]; assumption. Qed.
Lemma star_mono (A B : lang) u : (forall w, A w -> B w) -> star A u -> star B u.
Proof. intros S H. induction H; constructor; auto. Qed.
Lemma plus_star (A : lang) u : plus A u -> star A u.
Proof. intros (a & b & -> & Ha & Hb). constructor; assumption. Qed.
Lemma plus_snoc (A : lang) u v : plus A u -> A v -> plus A (u ++ v).
Proof. intros (a & b & -> & Ha & Hb) Hv. exists a, (b ++ v). rewrite app_assoc. split; [reflexivity|]. split; [assumption|]. apply star_snoc; assumption. Qed.
Lemma plus_one (A : lang) u : A u -> plus A u.
Proof. intros H. exists u, []. rewrite app_nil_r. repeat split; [assumption|constructor]. Qed.
Lemma snoc_plus (A : lang) u v : star A u -> A v -> plus A (u ++ v).
Proof.
  intros Hu Hv. induction Hu as [|a b Ha Hb IH]; [apply plus_one; assumption|].
  exists a, (b ++ v). rewrite app_assoc. split; [reflexivity|]. split; [assumption|]. apply plus_star; assumption.
Qed.
Lemma cat_i (A B : lang) u v : A u -> B v -> cat A B (u ++ v).
Proof. intros. exists u, v. auto. Qed.
Lemma cat_snoc (A B : lang) w v : cat A B w -> (forall b, B b -> B (b ++ v)) -> cat A B (w ++ v).
Proof. intros (a & b & -> & Ha & Hb) H. rewrite <- app_assoc. apply cat_i; auto. Qed.
Lemma cat_mono (A A' B B' : lang) w : (forall u, A u -> A' u) -> (forall u, B u -> B' u) -> cat A B w -> cat A' B' w.
Proof. intros HA HB (a & b & -> & Ha & Hb). apply cat_i; auto. Qed.
Lemma cat_assoc (A B C : lang) w : cat (cat A B) C w <-> cat A (cat B C) w.
Proof.
  split.
  - intros (ab & c & -> & (a & b & -> & Ha & Hb) & Hc). rewrite <- app_assoc. apply cat_i; [assumption|]. apply cat_i; assumption.
  - intros (a & bc & -> & Ha & (b & c & -> & Hb & Hc)). rewrite app_assoc. apply cat_i; [|assumption]. apply cat_i; assumption.
Qed.
Lemma cat_nil_r (A B : lang) w : A w -> B [] -> cat A B w.
Proof. intros. rewrite <- (app_nil_r w). apply cat_i; assumption. Qed.
Lemma cat_nil_l (A B : lang) w : A [] -> B w -> cat A B w.
Proof. intros. change w with ([] ++ w). apply cat_i; assumption. Qed.
Lemma one_i (P : cls -> Prop) c : P c -> one P [c].
Proof. intros; exists c; auto. Qed.
Lemma star_Forall P w : star (one P) w <-> Forall P w.
Proof.
  split; intros H.
  - induction H as [|u v (c & -> & Hc) Hv IH]; [constructor|]. constructor; assumption.
  - induction H as [|c w Hc Hw IH]; [constructor|]. change (c :: w) with ([c] ++ w). constructor; [apply one_i; assumption|assumption].
Qed.

(* ---- phases of reading a cluster, and what has been read in each *)

Inductive phase := Pre | HL | HV | HT | RI1 | EP | EPZ | Con | Lnk | Post | Cr | End.

Definition pre : lang := star precore.
Definition vowels : lang := alt (plus (any_of [V])) (cat (any_of [LV]) (star (any_of [V]))).
Definition link : lang := cat (star (one ext_or_linker)) (cat (one linker) (star (one ext_or_linker))).
Definition chain : lang := cat (one consonant) (star (cat link (one consonant))).
Definition body : lang := cat pre (cat core (star postcore)).

Definition read (ph : phase) : lang :=
  match ph with
  | Pre => plus precore
  | HL => cat pre (plus (any_of [L]))
  | HV => cat pre (cat (star (any_of [L])) vowels)
  | HT => cat pre (alt (cat (star (any_of [L])) (cat (alt vowels (any_of [LVT])) (star (any_of [T])))) (plus (any_of [T])))
  | RI1 => cat pre (any_of [Regional_Indicator])
  | EP => cat pre (cat xpicto_sequence (star (any_of [Extend])))
  | EPZ => cat pre (cat xpicto_sequence (cat (star (any_of [Extend])) (any_of [ZWJ])))
  | Con => cat pre (cat chain (star (one (fun c => incb c = InCB_Extend))))
  | Lnk => cat pre (cat chain link)
  | Post => body
  | Cr => any_of [CR]
  | End => alt crlf (any_of [Control])
  end.

Definition next_phase (ph : phase) (x : cls) : option phase :=
  match ph with
  | Cr => match gcb x with LF => Some End | _ => None end
  | End => None
  | _ =>
    match gcb x with
    | Extend =>
        match ph with
        | EP => Some EP
        | Con => match incb x with InCB_Extend => Some Con | InCB_Linker => Some Lnk | _ => Some Post end
        | Lnk => match incb x with InCB_Extend | InCB_Linker => Some Lnk | _ => Some Post end
        | _ => Some Post
        end
    | ZWJ => match ph with EP => Some EPZ | Con => Some Con | Lnk => Some Lnk | _ => Some Post end
    | SpacingMark => Some Post
    | Other =>
        if extpict x then match ph with Pre | EPZ => Some EP | _ => None end
        else match incb x with
             | InCB_Consonant => match ph with Pre | Lnk => Some Con | _ => None end
             | _ => match ph with Pre => Some Post | _ => None end
             end
    | Prepend => match ph with Pre => Some Pre | _ => None end
    | Regional_Indicator => match ph with Pre => Some RI1 | RI1 => Some Post | _ => None end
    | L => match ph with Pre | HL => Some HL | _ => None end
    | V => match ph with Pre | HL | HV => Some HV | _ => None end
    | LV => match ph with Pre | HL => Some HV | _ => None end
    | LVT => match ph with Pre | HL => Some HT | _ => None end
    | T => match ph with Pre | HV | HT => Some HT | _ => None end
    | _ => None
    end
  end.

Definition first_phase (x : cls) : phase :=
  match gcb x with
  | CR => Cr
  | LF | Control => End
  | Extend | ZWJ => Post
  | _ => match next_phase Pre x with Some ph => ph | None => Post end
  end.

Lemma in1 g c : gcb c = g -> one_of [g] c.
Proof. intros; left; auto. Qed.

Lemma pre_nil : pre []. Proof. constructor. Qed.

Lemma body_post w x : body w -> one_of [Extend; ZWJ; SpacingMark] x -> body (w ++ [x]).
Proof.
  intros H Hx. apply cat_snoc; [assumption|]. intros b Hb. apply cat_snoc; [assumption|]. intros p Hp.
  apply star_snoc; [assumption|]. apply one_i. assumption.
Qed.

Lemma core_body u w : pre u -> core w -> body (u ++ w).
Proof. intros Hu Hw. apply cat_i; [assumption|]. apply cat_nil_r; [assumption|constructor]. Qed.

Lemma core_one x : ~ one_of [Control; CR; LF] x -> core [x].
Proof. intros H. do 4 right. apply one_i. assumption. Qed.

Lemma body_one u x : pre u -> ~ one_of [Control; CR; LF] x -> body (u ++ [x]).
Proof. intros. apply core_body; [assumption|]. apply core_one; assumption. Qed.

Lemma el_post x : good x -> ext_or_linker x -> one_of [Extend; ZWJ; SpacingMark] x.
Proof.
  unfold good, good_classes. cbn [In]. intros H K. decompose [or] H; subst; destruct K as [K|K]; try discriminate K; cbn; auto; contradiction.
Qed.

Lemma els_post w : Forall good w -> Forall ext_or_linker w -> star postcore w.
Proof.
  intros G H. apply star_Forall. rewrite Forall_forall in *. intros x Hx. apply el_post; auto.
Qed.

Lemma link_els w : link w -> Forall ext_or_linker w.
Proof.
  intros (u & v & -> & Hu & (k & t & -> & (c & -> & Hc) & Ht)). apply star_Forall in Hu. apply star_Forall in Ht.
  apply Forall_app. split; [assumption|]. constructor; [right; assumption|assumption].
Qed.

Lemma chain_core w : Forall good w -> chain w -> core w.
Proof.
  intros G (u & v & -> & (c & -> & Hc) & Hv). inversion Hv; subst.
  - apply core_one. inversion G; subst. unfold good, good_classes in H1. cbn [In] in H1.
    intros K. decompose [or] H1; subst; try discriminate Hc; cbn in K; decompose [or] K; try discriminate; assumption.
  - do 3 right. left. apply cat_i; [apply one_i; assumption|]. exists u, v0. split; [reflexivity|].
    assert (forall y, cat link (one consonant) y ->
      cat (star (one ext_or_linker)) (cat (one linker) (cat (star (one ext_or_linker)) (one consonant))) y) as M.
    { intros y Hy. apply cat_assoc in Hy. eapply cat_mono; [| |exact Hy]; [auto|]. intros z Hz. apply cat_assoc in Hz. exact Hz. }
    split; [apply M; assumption|]. eapply star_mono; [exact M|assumption].
Qed.

Lemma app_good (u v : list cls) : Forall good (u ++ v) -> Forall good u /\ Forall good v.
Proof. apply Forall_app. Qed.

Lemma vowels_syllable u v t : star (any_of [L]) u -> alt vowels (any_of [LVT]) v -> star (any_of [T]) t ->
  hangul_syllable (u ++ v ++ t).
Proof.
  intros Hu Hv Ht. left. apply cat_i; [assumption|]. apply cat_i; [|assumption].
  destruct Hv as [[Hv|Hv]|Hv]; [left|right; left|right; right]; assumption.
Qed.

Lemma xp_core w : xpicto_sequence w -> core w.
Proof. intros H. do 2 right. left. assumption. Qed.

(* What has been read is a cluster body, except for the control phases. *)
Lemma read_body ph w : Forall good w -> read ph w -> ph = Cr \/ ph = End \/ body w.
Proof.
  intros G R. destruct ph; auto; right; right; cbn [read] in R.
  - (* Pre *) assert (star precore w) as S by (apply plus_star; assumption).
    unfold precore, any_of in *. destruct R as (u & v & -> & (c & -> & Hc) & Hv).
    assert (Forall (one_of [Prepend]) (c :: v)) as F by (constructor; [assumption|apply star_Forall; assumption]).
    change ([c] ++ v) with (c :: v).
    destruct (@exists_last _ (c :: v)) as (l & x & E); [discriminate|]. rewrite E in *. apply Forall_app in F. destruct F as [F1 F2].
    apply body_one; [apply star_Forall; assumption|]. inversion F2 as [|? ? HP _]; subst. destruct HP as [HP|[]].
    intros K. unfold one_of in K. rewrite <- HP in K. cbn in K. decompose [or] K; try discriminate; assumption.
  - (* HL *) destruct R as (u & v & -> & Hu & Hv). apply core_body; [assumption|]. left. right. left. assumption.
  - (* HV *) destruct R as (u & v & -> & Hu & (a & b & -> & Ha & Hb)). apply core_body; [assumption|]. left.
    rewrite <- (app_nil_r b). apply vowels_syllable; [assumption|left; assumption|constructor].
  - (* HT *) destruct R as (u & v & -> & Hu & [(a & bt & -> & Ha & (b & t & -> & Hb & Ht))|Hv]); apply core_body; try assumption; left.
    + apply vowels_syllable; assumption.
    + right. right. assumption.
  - (* RI1 *) destruct R as (u & v & -> & Hu & (c & -> & [Hc|[]])). apply body_one; [assumption|].
    intros K. unfold one_of in K. rewrite <- Hc in K. cbn in K. decompose [or] K; try discriminate; assumption.
  - (* EP *) destruct R as (u & v & -> & Hu & (a & b & -> & Ha & Hb)). apply cat_i; [assumption|].
    apply cat_i; [apply xp_core; assumption|]. eapply star_mono; [|exact Hb]. intros y (c & -> & [Hc|[]]). apply one_i. left; assumption.
  - (* EPZ *) destruct R as (u & v & -> & Hu & (a & bz & -> & Ha & (b & z & -> & Hb & (c & -> & [Hc|[]])))). apply cat_i; [assumption|].
    apply cat_i; [apply xp_core; assumption|]. apply star_snoc; [|apply one_i; right; left; assumption].
    eapply star_mono; [|exact Hb]. intros y (d & -> & [Hd|[]]). apply one_i. left; assumption.
  - (* Con *) destruct R as (u & v & -> & Hu & (a & b & -> & Ha & Hb)). apply app_good in G. destruct G as [_ G]. apply app_good in G. destruct G as [G1 G2].
    apply cat_i; [assumption|]. apply cat_i; [apply chain_core; assumption|]. apply els_post; [assumption|].
    apply star_Forall in Hb. eapply Forall_impl; [|exact Hb]. intros; left; assumption.
  - (* Lnk *) destruct R as (u & v & -> & Hu & (a & b & -> & Ha & Hb)). apply app_good in G. destruct G as [_ G]. apply app_good in G. destruct G as [G1 G2].
    apply cat_i; [assumption|]. apply cat_i; [apply chain_core; assumption|]. apply els_post; [assumption|]. apply link_els; assumption.
Qed.

Lemma read_regex ph w : Forall good w -> read ph w -> cluster_regex w.
Proof.
  intros G R. destruct (read_body ph w G R) as [->|[->|H]]; [| |right; right; exact H].
  - left. right. left. exact R.
  - destruct R as [R|R]; [left|right; left]; assumption.
Qed.

(* ---- one more character *)

Lemma pre_of_Pre w : read Pre w -> pre w.
Proof. apply plus_star. Qed.

(* from the prepends (or from nothing) *)
Lemma start_read u x ph : good x -> pre u -> next_phase Pre x = Some ph -> read ph (u ++ [x]).
Proof.
  unfold good, good_classes. cbn [In]. intros G Hu H. decompose [or] G; subst; cbn [next_phase gcb extpict incb] in H; try discriminate H;
    try contradiction; assert (ph = ph) as _ by reflexivity; injection H as <-; cbn [read].
  - apply body_one; [assumption|]. cbn. intuition discriminate.
  - apply cat_i; [assumption|]. apply cat_nil_r; [|constructor]. apply cat_nil_r; [apply one_i; reflexivity|constructor].
  - apply cat_i; [assumption|]. apply cat_nil_r; [|constructor]. apply cat_nil_r; [apply one_i; reflexivity|constructor].
  - apply body_one; [assumption|]. cbn. intuition discriminate.
  - apply body_one; [assumption|]. cbn. intuition discriminate.
  - apply body_one; [assumption|]. cbn. intuition discriminate.
  - apply body_one; [assumption|]. cbn. intuition discriminate.
  - apply cat_i; [assumption|]. apply one_i. left; reflexivity.
  - apply snoc_plus; [assumption|]. apply one_i. left; reflexivity.
  - apply body_one; [assumption|]. cbn. intuition discriminate.
  - apply cat_i; [assumption|]. apply plus_one. apply one_i. left; reflexivity.
  - apply cat_i; [assumption|]. apply cat_nil_l; [constructor|]. left. apply plus_one. apply one_i. left; reflexivity.
  - apply cat_i; [assumption|]. right. apply plus_one. apply one_i. left; reflexivity.
  - apply cat_i; [assumption|]. apply cat_nil_l; [constructor|]. right. apply cat_nil_r; [|constructor]. apply one_i. left; reflexivity.
  - apply cat_i; [assumption|]. left. apply cat_nil_l; [constructor|]. apply cat_nil_r; [|constructor]. right. apply one_i. left; reflexivity.
Qed.

Lemma first_read x : good x -> read (first_phase x) [x].
Proof.
  intros G. pose proof (start_read [] x) as S. cbn [app] in S.
  pose proof G as G'. unfold good, good_classes in G'. cbn [In] in G'.
  decompose [or] G'; subst; try contradiction; cbn [first_phase gcb next_phase extpict incb];
    try (apply S; [assumption|apply pre_nil|reflexivity]); cbn [read].
  - apply one_i; left; reflexivity.
  - left. right. right. apply one_i; left; reflexivity.
  - right. apply one_i; left; reflexivity.
Qed.

Lemma link_snoc w x : link w -> ext_or_linker x -> link (w ++ [x]).
Proof.
  intros H K. apply cat_snoc; [assumption|]. intros b Hb. apply cat_snoc; [assumption|]. intros c Hc. apply star_snoc; [assumption|].
  apply one_i; assumption.
Qed.

Lemma step_read ph w x ph' : Forall good w -> good x -> read ph w -> next_phase ph x = Some ph' -> read ph' (w ++ [x]).
Proof.
  intros GW G R N.
  destruct (read_body ph w GW R) as [E|[E|B]].
  { subst ph. cbn [next_phase] in N. destruct (gcb x) eqn:E; try discriminate N. injection N as <-. left. left.
    apply cat_i; [exact R|]. apply one_i; left; auto. }
  { subst ph. discriminate N. }
  assert (gcb x = SpacingMark -> ph' = Post -> read ph' (w ++ [x])) as KS.
  { intros E ->. apply body_post; [assumption|]. right. right. left. auto. }
  assert (one_of [Extend; ZWJ; SpacingMark] x -> ph' = Post -> read ph' (w ++ [x])) as KP.
  { intros E ->. apply body_post; assumption. }
  destruct ph; try (apply start_read; [assumption|apply pre_of_Pre; assumption|assumption]);
    pose proof G as G'; unfold good, good_classes in G'; cbn [In] in G';
    decompose [or] G'; subst; try contradiction; cbn [next_phase gcb extpict incb] in N; try discriminate N;
    injection N as <-; try (apply KP; [cbn; tauto|reflexivity]); clear KS KP; cbn [read] in *.
  - (* HL L *) apply cat_snoc; [assumption|]. intros b Hb. apply plus_snoc; [assumption|]. apply one_i; left; reflexivity.
  - (* HL V *) destruct R as (u & v & -> & Hu & Hv). rewrite <- app_assoc. apply cat_i; [assumption|].
    apply cat_i; [apply plus_star; assumption|]. left. apply plus_one, one_i. left; reflexivity.
  - (* HL LV *) destruct R as (u & v & -> & Hu & Hv). rewrite <- app_assoc. apply cat_i; [assumption|].
    apply cat_i; [apply plus_star; assumption|]. right. apply cat_nil_r; [|constructor]. apply one_i. left; reflexivity.
  - (* HL LVT *) destruct R as (u & v & -> & Hu & Hv). rewrite <- app_assoc. apply cat_i; [assumption|]. left.
    apply cat_i; [apply plus_star; assumption|]. apply cat_nil_r; [|constructor]. right. apply one_i. left; reflexivity.
  - (* HV V *) apply cat_snoc; [assumption|]. intros b Hb. apply cat_snoc; [assumption|]. intros c [Hc|Hc].
    + left. apply plus_snoc; [assumption|]. apply one_i; left; reflexivity.
    + right. apply cat_snoc; [assumption|]. intros d Hd. apply star_snoc; [assumption|]. apply one_i; left; reflexivity.
  - (* HV T *) destruct R as (u & v & -> & Hu & (a & b & -> & Ha & Hb)). rewrite <- app_assoc. apply cat_i; [assumption|]. left.
    rewrite <- app_assoc. apply cat_i; [assumption|]. apply cat_i; [left; assumption|]. apply star_one, one_i. left; reflexivity.
  - (* HT T *) apply cat_snoc; [assumption|]. intros b [Hb|Hb].
    + left. apply cat_snoc; [assumption|]. intros c Hc. apply cat_snoc; [assumption|]. intros d Hd. apply star_snoc; [assumption|]. apply one_i; left; reflexivity.
    + right. apply plus_snoc; [assumption|]. apply one_i; left; reflexivity.
  - (* RI1 RI *) destruct R as (u & v & -> & Hu & Hv). rewrite <- app_assoc. apply core_body; [assumption|].
    right. left. apply cat_i; [assumption|]. apply one_i; left; reflexivity.
  - (* EP Extend *) apply cat_snoc; [assumption|]. intros b Hb. apply cat_snoc; [assumption|]. intros c Hc. apply star_snoc; [assumption|]. apply one_i; left; reflexivity.
  - apply cat_snoc; [assumption|]. intros b Hb. apply cat_snoc; [assumption|]. intros c Hc. apply star_snoc; [assumption|]. apply one_i; left; reflexivity.
  - apply cat_snoc; [assumption|]. intros b Hb. apply cat_snoc; [assumption|]. intros c Hc. apply star_snoc; [assumption|]. apply one_i; left; reflexivity.
  - (* EP ZWJ *) destruct R as (u & v & -> & Hu & (a & b & -> & Ha & Hb)). rewrite <- app_assoc. apply cat_i; [assumption|].
    rewrite <- app_assoc. apply cat_i; [assumption|]. apply cat_i; [assumption|]. apply one_i; left; reflexivity.
  - (* EPZ EP *) destruct R as (u & v & -> & Hu & (a & bz & -> & Ha & Hb)). rewrite <- app_assoc. apply cat_i; [assumption|].
    apply cat_nil_r; [|constructor]. rewrite <- app_assoc. destruct Ha as (e & s & -> & He & Hs). rewrite <- app_assoc.
    apply cat_i; [assumption|]. apply star_snoc; [assumption|]. apply cat_assoc. apply cat_i; [assumption|]. apply one_i; reflexivity.
  - (* Con Extend *) apply cat_snoc; [assumption|]. intros b Hb. apply cat_snoc; [assumption|]. intros c Hc. apply star_snoc; [assumption|]. apply one_i; reflexivity.
  - (* Con Linker *) destruct R as (u & v & -> & Hu & (a & b & -> & Ha & Hb)). rewrite <- app_assoc. apply cat_i; [assumption|].
    rewrite <- app_assoc. apply cat_i; [assumption|]. apply cat_i.
    + eapply star_mono; [|exact Hb]. intros y (c & -> & Hc). apply one_i. left; assumption.
    + apply cat_nil_r; [apply one_i; reflexivity|constructor].
  - (* Con ZWJ *) apply cat_snoc; [assumption|]. intros b Hb. apply cat_snoc; [assumption|]. intros c Hc. apply star_snoc; [assumption|]. apply one_i; reflexivity.
  - (* Lnk Consonant *) destruct R as (u & v & -> & Hu & (a & b & -> & Ha & Hb)). rewrite <- app_assoc. apply cat_i; [assumption|].
    apply cat_nil_r; [|constructor]. rewrite <- app_assoc. destruct Ha as (e & s & -> & He & Hs). rewrite <- app_assoc.
    apply cat_i; [assumption|]. apply star_snoc; [assumption|]. apply cat_i; [assumption|]. apply one_i; reflexivity.
  - (* Lnk *) apply cat_snoc; [assumption|]. intros b Hb. apply cat_snoc; [assumption|]. intros c Hc. apply link_snoc; [assumption|]. left; reflexivity.
  - apply cat_snoc; [assumption|]. intros b Hb. apply cat_snoc; [assumption|]. intros c Hc. apply link_snoc; [assumption|]. right; reflexivity.
  - apply cat_snoc; [assumption|]. intros b Hb. apply cat_snoc; [assumption|]. intros c Hc. apply link_snoc; [assumption|]. left; reflexivity.
  - (* Cr LF *) left. left. apply cat_i; [exact R|]. apply one_i; left; reflexivity.
Qed.

(* ---- texts without a boundary inside *)

Definition joined (w : list cls) : Prop := forall l r, w = l ++ r -> l <> [] -> r <> [] -> ~ boundary l r.

(* What the rules see of a text that has been read up to some phase: the last
   character and the three summaries. *)
Definition sees (ph : phase) (p : cls) (a b : N) (c : bool) : bool :=
  match ph with
  | Pre => b_is Prepend p && (a =? 0)%N && (b =? 0)%N && negb c
  | HL => b_is L p && (a =? 0)%N && (b =? 0)%N && negb c
  | HV => b_in [V; LV] p && (a =? 0)%N && (b =? 0)%N && negb c
  | HT => b_in [T; LVT] p && (a =? 0)%N && (b =? 0)%N && negb c
  | RI1 => b_is Regional_Indicator p && (a =? 0)%N && (b =? 0)%N && c
  | EP => (extpict p || b_is Extend p) && (a =? 0)%N && (b =? 1)%N && negb c
  | EPZ => b_is ZWJ p && (a =? 0)%N && (b =? 2)%N && negb c
  | Con => (b_incb InCB_Consonant p || b_incb InCB_Extend p) && (a =? 1)%N && (b =? 0)%N && negb c
  | Lnk => (b_incb InCB_Linker p || b_incb InCB_Extend p) && (a =? 2)%N && (b =? 0)%N && negb c
  | Post => b_in [Other; Extend; ZWJ; SpacingMark; Regional_Indicator] p && (a =? 0)%N && (b =? 0)%N && negb c
  | Cr => b_is CR p && (a =? 0)%N && (b =? 0)%N && negb c
  | End => b_in [LF; Control] p && (a =? 0)%N && (b =? 0)%N && negb c
  end.

Definition sees_summary (ph : phase) (rl : list cls) : bool :=
  match rl with [] => false | p :: _ => sees ph p (g9c rl) (g11 rl) (ri rl) end.

Definition phases := [Pre; HL; HV; HT; RI1; EP; EPZ; Con; Lnk; Post; Cr; End].
Lemma in_phases ph : In ph phases.
Proof. destruct ph; cbn; tauto. Qed.

Definition is_some_phase (o : option phase) : bool := match o with Some _ => true | None => false end.

Definition check_phases : bool :=
  forallb (fun ph => forallb (fun p => forallb (fun x => forallb (fun a => forallb (fun b => forallb (fun c =>
    negb (sees ph p a b c) ||
    (Bool.eqb (spec_split p x a b c) (negb (is_some_phase (next_phase ph x))) &&
     match next_phase ph x with
     | Some ph' => sees ph' x (step9c x a) (step11 x b) (stepri x c)
     | None => true
     end)) [true; false]) [0; 1; 2]%N) [0; 1; 2]%N) good_classes) good_classes) phases.

Lemma check_phases_ok : check_phases = true.
Proof. vm_compute. reflexivity. Qed.

Lemma summary_range rl : (In (g9c rl) [0; 1; 2] /\ In (g11 rl) [0; 1; 2])%N.
Proof.
  induction rl as [|x rl [H1 H2]]; [cbn; tauto|]. unfold g9c, g11 in *. cbn [fold_right]. unfold step9c at 1, step11 at 1.
  split.
  - destruct (b_incb InCB_Consonant x); [cbn; tauto|]. destruct (b_incb InCB_Linker x).
    + destruct (_ =? 0)%N; cbn; tauto.
    + destruct (b_incb InCB_Extend x); [assumption|cbn; tauto].
  - destruct (extpict x); [cbn; tauto|]. destruct (b_is ZWJ x); [destruct (_ =? 1)%N; cbn; tauto|].
    destruct (b_is Extend x); [destruct (_ =? 1)%N; cbn; tauto|cbn; tauto].
Qed.

Lemma phase_step ph p rl x : good p -> good x -> sees_summary ph (p :: rl) = true ->
  spec_split p x (g9c (p :: rl)) (g11 (p :: rl)) (ri (p :: rl)) = negb (is_some_phase (next_phase ph x)) /\
  (forall ph', next_phase ph x = Some ph' -> sees_summary ph' (x :: p :: rl) = true).
Proof.
  intros Gp Gx S. pose proof check_phases_ok as C. unfold check_phases in C.
  rewrite forallb_forall in C. specialize (C ph (in_phases ph)).
  rewrite forallb_forall in C. specialize (C p Gp).
  rewrite forallb_forall in C. specialize (C x Gx).
  destruct (summary_range (p :: rl)) as [Ha Hb].
  rewrite forallb_forall in C. specialize (C _ Ha).
  rewrite forallb_forall in C. specialize (C _ Hb).
  rewrite forallb_forall in C. specialize (C (ri (p :: rl)) ltac:(destruct (ri (p :: rl)); cbn; tauto)).
  cbn [sees_summary] in S. rewrite S in C. cbn [negb orb] in C. apply andb_true_iff in C. destruct C as [C1 C2].
  apply eqb_prop in C1. split; [exact C1|]. intros ph' E. rewrite E in C2. exact C2.
Qed.

Lemma first_sees x : good x -> sees_summary (first_phase x) [x] = true.
Proof. intros G. unfold good, good_classes in G. cbn [In] in G. decompose [or] G; subst; try reflexivity; contradiction. Qed.

Lemma boundary_snoc l p x r : Forall good (l ++ [p]) ->
  (boundary (l ++ [p]) (x :: r) <-> spec_split p x (g9c (p :: rev l)) (g11 (p :: rev l)) (ri (p :: rev l)) = true).
Proof.
  intros G. rewrite <- (boundary_iff (rev l) p x r).
  - cbn [rev]. rewrite rev_involutive. reflexivity.
  - assert (p :: rev l = rev (l ++ [p])) as -> by (rewrite rev_app_distr; reflexivity). apply Forall_rev. assumption.
Qed.

(* The phase of a text without a boundary inside. *)
Lemma joined_phase w : w <> [] -> Forall good w -> joined w ->
  exists ph, read ph w /\ sees_summary ph (rev w) = true.
Proof.
  induction w as [|x w IH] using rev_ind; [congruence|]. intros _ G J. apply Forall_app in G. destruct G as [G Gx].
  inversion Gx as [|? ? Gx' _]; subst. destruct (exists_last_or w) as [->|(l & p & ->)].
  - exists (first_phase x). split; [apply first_read; assumption|apply first_sees; assumption].
  - destruct IH as (ph & R & S); [destruct l; discriminate|assumption| |].
    { intros l' r E Hl Hr B. apply (J l' (r ++ [x])); [rewrite E, app_assoc; reflexivity|assumption|destruct r; discriminate|].
      destruct r as [|y r]; [congruence|]. cbn [app]. destruct (exists_last_or l') as [->|(l1 & z & ->)]; [congruence|].
      assert (Forall good (l1 ++ [z])) as G1 by (rewrite E in G; apply Forall_app in G; tauto).
      apply (boundary_snoc l1 z y (r ++ [x])); [assumption|]. apply (boundary_snoc l1 z y r); assumption. }
    assert (rev (l ++ [p]) = p :: rev l) as E by (rewrite rev_app_distr; reflexivity). rewrite E in S.
    assert (good p) as Gp by (apply Forall_app in G; destruct G as [_ G]; inversion G; assumption).
    destruct (phase_step ph p (rev l) x Gp Gx' S) as [H1 H2].
    destruct (next_phase ph x) as [ph'|] eqn:N.
    + exists ph'. split; [eapply step_read; eassumption|]. rewrite rev_app_distr. cbn [rev app]. rewrite E. apply H2. reflexivity.
    + exfalso. apply (J (l ++ [p]) [x]); [reflexivity|destruct l; discriminate|discriminate|].
      apply boundary_snoc; assumption.
Qed.

Lemma joined_regex w : w <> [] -> Forall good w -> joined w -> cluster_regex w.
Proof. intros W G J. destruct (joined_phase w W G J) as (ph & R & _). eapply read_regex; eassumption. Qed.

(* ---- and back: the phases run through a word of the expression *)

Inductive st := Start | In (ph : phase).
Definition step (s : st) (x : cls) : option phase :=
  match s with Start => Some (first_phase x) | In ph => next_phase ph x end.
Inductive runs : st -> list cls -> st -> Prop :=
| runs_nil s : runs s [] s
| runs_cons s x ph w s' : step s x = Some ph -> runs (In ph) w s' -> runs s (x :: w) s'.

Lemma runs_app s u s1 v s2 : runs s u s1 -> runs s1 v s2 -> runs s (u ++ v) s2.
Proof. intros H K. induction H; [assumption|]. cbn [app]. econstructor; eauto. Qed.

Lemma runs_app_inv s u v s2 : runs s (u ++ v) s2 -> exists s1, runs s u s1 /\ runs s1 v s2.
Proof.
  revert s. induction u as [|x u IH]; intros s H; cbn [app] in H.
  - exists s. split; [constructor|assumption].
  - inversion H; subst. destruct (IH _ H5) as (s1 & A & B). exists s1. split; [econstructor; eassumption|assumption].
Qed.

Definition moves (A : lang) (S S' : st -> Prop) : Prop :=
  forall w s, Forall good w -> A w -> S s -> exists s', runs s w s' /\ S' s'.

Lemma moves_weaken A (S S' S1 S1' : st -> Prop) :
  (forall s, S1 s -> S s) -> (forall s, S' s -> S1' s) -> moves A S S' -> moves A S1 S1'.
Proof. intros H K M w s G Hw Hs. destruct (M w s G Hw (H s Hs)) as (s' & R & E). eauto. Qed.
Lemma moves_cat A B S S1 S2 : moves A S S1 -> moves B S1 S2 -> moves (cat A B) S S2.
Proof.
  intros M N w s G (u & v & -> & Hu & Hv) Hs. apply Forall_app in G. destruct G as [G1 G2].
  destruct (M u s G1 Hu Hs) as (s1 & R1 & E1). destruct (N v s1 G2 Hv E1) as (s2 & R2 & E2).
  exists s2. split; [eapply runs_app; eassumption|assumption].
Qed.
Lemma moves_star A S : moves A S S -> moves (star A) S S.
Proof.
  intros M w s G H. revert s G. induction H as [|u v Hu Hv IH]; intros s G Hs.
  - exists s. split; [constructor|assumption].
  - apply Forall_app in G. destruct G as [G1 G2]. destruct (M u s G1 Hu Hs) as (s1 & R1 & E1).
    destruct (IH s1 G2 E1) as (s2 & R2 & E2). exists s2. split; [eapply runs_app; eassumption|assumption].
Qed.
Lemma moves_alt A B S S' : moves A S S' -> moves B S S' -> moves (alt A B) S S'.
Proof. intros M N w s G [H|H] Hs; [apply M|apply N]; assumption. Qed.
Lemma moves_plus A S S' : moves A S S' -> moves A S' S' -> moves (plus A) S S'.
Proof. intros M N. eapply moves_cat; [exact M|]. apply moves_star. exact N. Qed.
Lemma moves_one (P : cls -> Prop) (S S' : st -> Prop) :
  (forall x s, List.In x good_classes -> P x -> S s -> exists ph, step s x = Some ph /\ S' (In ph)) -> moves (one P) S S'.
Proof.
  intros H w s G (c & -> & Hc) Hs. inversion G; subst. destruct (H c s H2 Hc Hs) as (ph & E & K).
  exists (In ph). split; [econstructor; [exact E|constructor]|assumption].
Qed.

Definition among (l : list st) (s : st) : Prop := List.In s l.
Ltac chars :=
  apply moves_one; intros x s Gx Px Hs; unfold good_classes in Gx; cbn [List.In] in Gx;
  decompose [or] Gx; subst; try contradiction;
  try (exfalso; first [ discriminate Px | cbv in Px; clear - Px; intuition discriminate]);
  unfold among in Hs; cbn [List.In] in Hs; decompose [or] Hs; subst; try contradiction;
  (eexists; split; [reflexivity|unfold among; cbn; tauto]).

Definition bodies : list st := [In Pre; In HL; In HV; In HT; In RI1; In EP; In EPZ; In Con; In Lnk; In Post].

Lemma regex_moves : moves cluster_regex (among [Start]) (fun _ => True).
Proof.
  assert (moves (star precore) (among [Start]) (among [Start; In Pre])) as MP.
  { eapply moves_weaken; [| |apply (moves_star precore (among [Start; In Pre])); chars]; [|auto].
    unfold among; cbn; tauto. }
  assert (moves (star postcore) (among bodies) (fun _ => True)) as MQ.
  { eapply moves_weaken; [| |apply (moves_star postcore (among bodies)); unfold bodies; chars]; auto. }
  assert (moves (star (any_of [L])) (among [Start; In Pre]) (among [Start; In Pre; In HL])) as ML.
  { eapply moves_weaken; [| |apply (moves_star _ (among [Start; In Pre; In HL])); chars]; [|auto].
    unfold among; cbn; tauto. }
  assert (moves core (among [Start; In Pre]) (among bodies)) as MC.
  { apply moves_alt; [|apply moves_alt; [|apply moves_alt; [|apply moves_alt]]].
    - apply moves_alt; [|apply moves_alt].
      + eapply moves_cat; [exact ML|]. apply (moves_cat _ _ _ (among [In HV; In HT])).
        * apply moves_alt; [|apply moves_alt].
          -- eapply moves_weaken; [| |apply (moves_plus _ (among [Start; In Pre; In HL]) (among [In HV])); chars]; [auto|unfold among; cbn; tauto].
          -- apply (moves_cat _ _ _ (among [In HV])); [chars|].
             eapply moves_weaken; [| |apply (moves_star _ (among [In HV])); chars]; [auto|unfold among; cbn; tauto].
          -- chars.
        * eapply moves_weaken; [| |apply (moves_star _ (among [In HV; In HT])); chars]; [auto|unfold among; cbn; tauto].
      + eapply moves_weaken; [| |apply (moves_plus _ (among [Start; In Pre]) (among [In HL])); chars]; [auto|unfold among; cbn; tauto].
      + eapply moves_weaken; [| |apply (moves_plus _ (among [Start; In Pre]) (among [In HT])); chars]; [auto|unfold among; cbn; tauto].
    - apply (moves_cat _ _ _ (among [In RI1])); unfold bodies; chars.
    - apply (moves_cat _ _ _ (among [In EP])); [chars|].
      eapply moves_weaken; [| |apply (moves_star _ (among [In EP]))]; [auto|unfold among; cbn; tauto|].
      apply (moves_cat _ _ _ (among [In EP])); [apply moves_star; chars|].
      apply (moves_cat _ _ _ (among [In EPZ])); chars.
    - apply (moves_cat _ _ _ (among [In Con])); [chars|].
      assert (moves (cat (star (one ext_or_linker)) (cat (one linker) (cat (star (one ext_or_linker)) (one consonant))))
        (among [In Con]) (among [In Con])) as MK.
      { apply (moves_cat _ _ _ (among [In Con; In Lnk])).
        - eapply moves_weaken; [| |apply (moves_star _ (among [In Con; In Lnk])); chars]; [unfold among; cbn; tauto|auto].
        - apply (moves_cat _ _ _ (among [In Lnk])); [chars|].
          apply (moves_cat _ _ _ (among [In Lnk])); [apply moves_star; chars|chars]. }
      eapply moves_weaken; [| |apply moves_plus; exact MK]; [auto|unfold among; cbn; tauto].
    - apply moves_one. intros x s Gx Px Hs. unfold good_classes in Gx. cbn [List.In] in Gx. unfold among in Hs. cbn [List.In] in Hs.
      decompose [or] Gx; subst; try contradiction; try (exfalso; apply Px; cbn; tauto);
        decompose [or] Hs; subst; try contradiction; (eexists; split; [reflexivity|unfold among; cbn; tauto]). }
  apply moves_alt; [|apply moves_alt].
  - apply moves_alt; [|apply moves_alt].
    + apply (moves_cat _ _ _ (among [In Cr])); [chars|]. eapply moves_weaken; [| |apply (moves_one _ (among [In Cr]) (among [In End]))]; auto.
      intros x s Gx Px Hs. unfold good_classes in Gx. cbn [List.In] in Gx. unfold among in Hs. cbn [List.In] in Hs.
      decompose [or] Gx; subst; try contradiction; try (exfalso; cbn in Px; intuition discriminate);
        decompose [or] Hs; subst; try contradiction; (eexists; split; [reflexivity|unfold among; cbn; tauto]).
    + apply (moves_weaken _ (among [Start]) (among [In Cr])); [| |chars]; auto.
    + apply (moves_weaken _ (among [Start]) (among [In End])); [| |chars]; auto.
  - apply (moves_weaken _ (among [Start]) (among [In End])); [| |chars]; auto.
  - eapply moves_cat; [exact MP|]. eapply moves_cat; [exact MC|exact MQ].
Qed.

Lemma runs_sees w : forall s, w <> [] -> Forall good w -> runs Start w s ->
  exists ph, s = In ph /\ sees_summary ph (rev w) = true /\ joined w.
Proof.
  induction w as [|x w IH] using rev_ind; [congruence|]. intros s _ G R. apply Forall_app in G. destruct G as [G Gx].
  inversion Gx as [|? ? Gx' _]; subst. apply runs_app_inv in R. destruct R as (s1 & R1 & R2).
  inversion R2 as [|? ? ph ? ? E R3]; subst. inversion R3; subst. exists ph. split; [reflexivity|].
  destruct (exists_last_or w) as [->|(l & p & ->)].
  - inversion R1; subst. cbn [step] in E. assert (first_phase x = ph) as <- by congruence.
    split; [apply first_sees; assumption|].
    intros [|y l] r El Hl Hr; [congruence|]. cbn [app] in El. destruct l; [|destruct l; discriminate El].
    destruct r; [congruence|discriminate El].
  - destruct (IH s1) as (ph1 & -> & S & J); [destruct l; discriminate|assumption|assumption|].
    assert (rev (l ++ [p]) = p :: rev l) as Er by (rewrite rev_app_distr; reflexivity). rewrite Er in S.
    assert (good p) as Gp by (apply Forall_app in G; destruct G as [_ G]; inversion G; assumption).
    destruct (phase_step ph1 p (rev l) x Gp Gx' S) as [H1 H2]. cbn [step] in E.
    split. { rewrite rev_app_distr. cbn [rev app]. rewrite Er. apply H2. assumption. }
    intros l' r El Hl Hr B. destruct (exists_last_or r) as [->|(r' & y & ->)]; [congruence|].
    rewrite app_assoc in El. apply app_inj_tail in El. destruct El as [El ->].
    destruct r' as [|z r'].
    + rewrite app_nil_r in El. rewrite <- El in B. apply boundary_snoc in B; [|assumption]. rewrite H1, E in B. discriminate B.
    + destruct (exists_last_or l') as [->|(l1 & q & ->)]; [congruence|].
      assert (Forall good (l1 ++ [q])) as G1 by (rewrite El in G; apply Forall_app in G; tauto).
      apply (J (l1 ++ [q]) (z :: r')); [assumption|assumption|discriminate|].
      apply boundary_snoc; [assumption|]. apply (boundary_snoc l1 q z (r' ++ [y])); assumption.
Qed.

Theorem regex_joined w : w <> [] -> Forall good w -> (cluster_regex w <-> joined w).
Proof.
  intros W G. split; [|apply joined_regex; assumption]. intros H.
  destruct (regex_moves w Start G H) as (s & R & _); [left; reflexivity|].
  destruct (runs_sees w s W G R) as (_ & _ & _ & J). exact J.
Qed.
