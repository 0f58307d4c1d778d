(* The memory-level code does what the list-level code does, reading only the
   argument and the tables, whatever happens elsewhere. *)
From Coq Require Import List NArith Arith Bool Lia ZifyBool ZifyNat ZifyN Strings.Byte.
From Verif Require Import Spec.Utf8 Model.Base Model.CharProps Model.Lookup Model.Machine Model.Scan Model.Memory.
From Verif Require Import Proofs.Basics.
Import ListNotations.

Local Opaque committed.

(* What a goroutine may rely on. *)
Record view := View { v_heap : N -> option byte; v_table : table -> N -> option N }.

(* the result of a program that only loads what the view has, and stores nothing *)
Fixpoint eval {A} (v : view) (p : prog A) : option (res A) :=
  match p with
  | Done a => Some (Ret a)
  | Crash e => Some (Panic e)
  | Load a k => match v_heap v a with Some b => eval v (k b) | None => None end
  | LoadTable t i k => match v_table v t i with Some x => eval v (k x) | None => None end
  | Store _ _ _ | StoreTable _ _ _ _ => None
  end.

Lemma eval_bind {A B} v (p : prog A) (f : A -> prog B) :
  eval v (pbind p f) =
  match eval v p with Some (Ret a) => eval v (f a) | Some (Panic e) => Some (Panic e) | None => None end.
Proof.
  induction p as [a|e|a k IH|t i k IH|a b k IH|t i x k IH]; cbn [pbind eval]; auto.
  - destruct (v_heap v a); auto.
  - destruct (v_table v t i); auto.
Qed.

Lemma eval_let {A B} v (p : prog A) (f : A -> prog B) r g :
  eval v p = Some r -> (forall a, r = Ret a -> eval v (f a) = Some (g a)) ->
  eval v (pbind p f) = Some (bind r g).
Proof.
  intros E H. rewrite eval_bind, E. destruct r as [a|e]; cbn [bind]; auto.
Qed.

Lemma eval_pure {A} v (r : res A) : eval v (pure r) = Some r.
Proof. destruct r; reflexivity. Qed.

Record holds (v : view) (s : bslice) (bs : list byte) : Prop := {
  h_len : b_len s = length bs;
  h_cap : b_len s <= b_cap s;
  h_bytes : forall i b, nth_error bs i = Some b -> v_heap v (b_base s + N.of_nat i)%N = Some b
}.

Definition has_tables (v : view) : Prop :=
  (forall i, (i < alen (t_indices committed))%N -> v_table v Indices i = Some (aget_raw (t_indices committed) i)) /\
  (forall i, (i < alen (t_props committed))%N -> v_table v Props i = Some (aget_raw (t_props committed) i)).

Lemma eval_index v s bs i : holds v s bs -> eval v (m_index s i) = Some (index bs i).
Proof.
  intros [Hl _ Hb]. unfold m_index, index. rewrite Hl. destruct (Nat.ltb_spec i (length bs)) as [H|H].
  - destruct (nth_error bs i) as [b|] eqn:E; [|apply nth_error_None in E; lia].
    cbn [eval]. rewrite (Hb i b E). reflexivity.
  - rewrite (proj2 (nth_error_None bs i)) by exact H. reflexivity.
Qed.

Definition tab (t : table) : arr := match t with Indices => t_indices committed | Props => t_props committed end.

Lemma eval_table v t i : has_tables v -> eval v (m_table_get t i) = Some (aget (tab t) i).
Proof.
  intros [Hi Hp]. unfold m_table_get, aget. destruct t; unfold tab.
  - destruct (N.ltb_spec i (alen (t_indices committed))) as [H|H]; [|reflexivity].
    cbn [eval]. rewrite (Hi i H). reflexivity.
  - destruct (N.ltb_spec i (alen (t_props committed))) as [H|H]; [|reflexivity].
    cbn [eval]. rewrite (Hp i H). reflexivity.
Qed.

Lemma eval_bad v s bs : holds v s bs -> forall n i,
  eval v (m_bad_continuation s i n) = Some (bad_continuation bs i n).
Proof.
  intros H. induction n as [|n IH]; intros i; cbn [m_bad_continuation bad_continuation]; [reflexivity|].
  eapply eval_let; [apply eval_index; exact H|]. intros b _.
  destruct (N.land (bval b) 192 =? 128)%N; [apply IH|reflexivity].
Qed.

Lemma eval_walk v s bs first n : holds v s bs -> has_tables v -> index bs 0 = Ret first ->
  eval v (m_walk s first n) = Some (walk committed bs n).
Proof.
  intros H T F. unfold walk, m_walk. rewrite F. cbn [bind].
  pose proof (fun i => eval_index v s bs i H) as I.
  pose proof (fun i => eval_table v Indices i T) as Ti. pose proof (fun i => eval_table v Props i T) as Tp.
  destruct n as [|[|[|[|[|n]]]]]; try reflexivity; [apply Tp| | | ];
    repeat first [eapply eval_let; [solve [apply I|apply Ti|apply Tp]|intros ? _] | apply Tp].
Qed.

Lemma eval_lookup v s bs : holds v s bs -> has_tables v ->
  eval v (m_LookupFirstChar s) = Some (LookupFirstChar bs).
Proof.
  intros H T. unfold m_LookupFirstChar, LookupFirstChar, lookup_first_char.
  rewrite (h_len _ _ _ H). destruct bs as [|first bs]; [reflexivity|].
  cbn [length Nat.eqb]. change (S (length bs)) with (length (first :: bs)).
  rewrite eval_bind, (eval_index v s _ 0 H). cbn [index nth_error].
  destruct (seq_length first) as [n|]; [|reflexivity].
  rewrite len_lt_spec. destruct (length (first :: bs) <? n); [reflexivity|].
  eapply eval_let; [apply eval_bad; exact H|]. intros [|] _; [reflexivity|].
  eapply eval_let; [apply eval_walk; auto|]. intros p _. reflexivity.
Qed.

(* the result of a call: the token is the beginning of data's memory *)
Definition located (data : bslice) (r : scan_result) : m_scan_result :=
  match r with
  | (n, Some t, e) => (n, Some (Bslice (b_base data) (length t) (b_cap data)), e)
  | (n, None, e) => (n, None, e)
  end.

Lemma slice_to_bad {A} (p : list A) n : length p < n -> exists e, slice_to p n = Panic e.
Proof.
  revert n. induction p as [|x p IH]; intros [|n] H; cbn [length slice_to] in *; try lia; [eauto|].
  destruct (IH n) as [e ->]; [lia|]. cbn [bind]. eauto.
Qed.

Lemma eval_token v data bs n r : holds v data bs ->
  (let! token := slice_to bs n in Ret (n, Some token, None)) = Ret r ->
  eval v (do token := m_slice_to data n in Done (n, Some token, None)) = Some (Ret (located data r)).
Proof.
  intros [Hl Hc _] E. unfold m_slice_to.
  destruct (Nat.le_gt_cases n (length bs)) as [H|H].
  - rewrite slice_to_ok in E by exact H. cbn [bind] in E. injection E as <-.
    replace (n <=? b_cap data) with true by lia. cbn [pbind eval located].
    rewrite firstn_length_le by exact H. reflexivity.
  - destruct (slice_to_bad bs n H) as [e Es]. rewrite Es in E. discriminate.
Qed.

Lemma eval_slice_from v s bs n bs' : holds v s bs -> slice_from bs n = Ret bs' ->
  exists s', m_slice_from s n = Done s' /\ holds v s' bs'.
Proof.
  intros [Hl Hc Hb] E. unfold m_slice_from.
  destruct (Nat.le_gt_cases n (length bs)) as [H|H].
  - rewrite slice_from_ok in E by exact H. injection E as <-.
    replace (n <=? b_len s) with true by lia. eexists. split; [reflexivity|].
    constructor; cbn [b_len b_base b_cap].
    + rewrite skipn_length. lia.
    + lia.
    + intros i b Hi. rewrite <- N.add_assoc, <- Nat2N.inj_add. apply Hb.
      clear - Hi. revert n Hi. induction bs as [|x bs IH]; intros n Hi.
      * rewrite skipn_nil in Hi. destruct i; discriminate.
      * destruct n as [|n]; [exact Hi|]. cbn [skipn] in Hi. cbn [Nat.add nth_error]. apply IH. exact Hi.
  - exfalso. rewrite slice_from_bad in E by exact H. discriminate.
Qed.

Local Opaque LookupFirstChar m_LookupFirstChar Transition.

Lemma eval_loop v data bs : holds v data bs -> has_tables v ->
  forall fuel atEOF remain rs count st prev r, holds v remain rs ->
  scan_loop fuel bs atEOF rs count st prev = Ret r ->
  eval v (m_scan_loop fuel data atEOF remain count st prev) = Some (Ret (located data r)).
Proof.
  intros H T. induction fuel as [|fuel IH]; intros atEOF remain rs count st prev r Hr E; [discriminate|].
  cbn [scan_loop] in E. cbn [m_scan_loop].
  assert (b_len remain =? 0 = is_empty rs) as -> by (rewrite (h_len _ _ _ Hr); destruct rs; reflexivity).
  destruct (is_empty rs) eqn:Hem.
  - destruct atEOF; [eapply eval_token; eauto|]. injection E as <-. reflexivity.
  - rewrite eval_bind, (eval_lookup v remain rs Hr T).
    destruct (LookupFirstChar rs) as [[next more]|e]; [|discriminate]. cbn [bind] in E.
    destruct (next =? Error)%N; [eapply eval_token; eauto|].
    destruct (more =? 0).
    + destruct (negb false && atEOF); [eapply eval_token; eauto|]. injection E as <-. reflexivity.
    + destruct (slice_from rs more) as [rs'|e] eqn:Es; [|discriminate]. cbn [bind] in E.
      destruct (eval_slice_from v remain rs more rs' Hr Es) as (s' & -> & Hs'). cbn [pbind].
      destruct (Transition st prev next) as [[split st']|e] eqn:Et; [|discriminate]. cbn [bind] in E.
      cbn [pure pbind]. destruct split; [eapply eval_token; eauto|]. eapply IH; eauto.
Qed.

Theorem eval_scan v data bs atEOF r : holds v data bs -> has_tables v ->
  ScanGraphemeClusters bs atEOF = Ret r ->
  eval v (m_ScanGraphemeClusters data atEOF) = Some (Ret (located data r)).
Proof.
  intros H T E. unfold ScanGraphemeClusters in E. unfold m_ScanGraphemeClusters.
  pose proof (h_len _ _ _ H) as Hl.
  assert (b_len data =? 0 = is_empty bs) as -> by (rewrite Hl; destruct bs; reflexivity).
  destruct (is_empty bs) eqn:Hem; [injection E as <-; reflexivity|].
  rewrite eval_bind, (eval_lookup v data bs H T).
  destruct (LookupFirstChar bs) as [[p count]|e]; [|discriminate]. cbn [bind] in E.
  destruct (p =? Error)%N; [eapply eval_token; eauto|].
  destruct (count =? 0).
  - rewrite Hl. destruct ((count <? length bs) && atEOF); [eapply eval_token; eauto|].
    injection E as <-. reflexivity.
  - destruct (slice_from bs count) as [rs|e] eqn:Es; [|discriminate]. cbn [bind] in E.
    destruct (eval_slice_from v data bs count rs H Es) as (s' & -> & Hs'). cbn [pbind].
    destruct (Begin p) as [st|e] eqn:Eb; [|discriminate]. cbn [bind] in E. cbn [pure pbind].
    rewrite (h_len _ _ _ Hs'). eapply eval_loop; eauto.
Qed.

(* ---- goroutines *)

(* the memory has what the view promises *)
Definition agrees (v : view) (m : memory) : Prop :=
  (forall a b, v_heap v a = Some b -> m_heap m a = b) /\
  (forall t i x, v_table v t i = Some x -> m_table m t i = x).

Definition seen (v : view) (l : loc) : Prop :=
  match l with Heap a => v_heap v a <> None | Table t i => v_table v t i <> None end.

Lemma acts_eval {A} v m (p : prog A) e m' p' o : acts m p e m' p' -> agrees v m -> eval v p = Some o ->
  m' = m /\ eval v p' = Some o /\ exists l, e = ReadAt l /\ seen v l.
Proof.
  intros Ha [Hh Ht] E. destruct Ha as [m a k|m t i k|m a b k|m t i x k]; cbn [eval] in E; try discriminate.
  - destruct (v_heap v a) as [b|] eqn:Ev; [|discriminate]. split; [reflexivity|].
    rewrite (Hh a b Ev). split; [exact E|]. eexists. split; [reflexivity|]. cbn [seen]. congruence.
  - destruct (v_table v t i) as [x|] eqn:Ev; [|discriminate]. split; [reflexivity|].
    rewrite (Ht t i x Ev). split; [exact E|]. eexists. split; [reflexivity|]. cbn [seen]. congruence.
Qed.

Lemma nth_error_middle {B} (l1 : list B) x l2 j y : nth_error (l1 ++ x :: l2) j = Some y ->
  (j = length l1 /\ y = x) \/ (j <> length l1 /\ forall x', nth_error (l1 ++ x' :: l2) j = Some y).
Proof.
  destruct (Nat.eq_dec j (length l1)) as [->|Hj].
  - rewrite nth_error_app2, Nat.sub_diag by lia. cbn [nth_error]. intros E. left. split; congruence.
  - intros E. right. split; [exact Hj|]. intros x'.
    destruct (Nat.lt_ge_cases j (length l1)) as [Hl|Hl].
    + rewrite nth_error_app1 in * by exact Hl. exact E.
    + rewrite nth_error_app2 in * by exact Hl.
      destruct (j - length l1) as [|k] eqn:Ek; [lia|]. exact E.
Qed.

(* Each goroutine i has its view (views i) and its result (outs i). *)
Theorem interleaves_eval {A} (others : memory -> memory -> Prop) (views : nat -> view) (outs : nat -> res A)
  m ps tr m' ps' :
  interleaves others m ps tr m' ps' ->
  (forall i p, nth_error ps i = Some p -> agrees (views i) m /\ eval (views i) p = Some (outs i)) ->
  (forall i p m1 m2, nth_error ps i = Some p -> others m1 m2 -> agrees (views i) m1 -> agrees (views i) m2) ->
  length ps' = length ps /\
  (forall i p, nth_error ps' i = Some p -> agrees (views i) m' /\ eval (views i) p = Some (outs i)) /\
  (forall i e, In (i, e) tr -> exists l, e = ReadAt l /\ seen (views i) l).
Proof.
  intros Hi H0 Ho. induction Hi as [m ps|m ps tr m1 ps1 ps2 i p p' e m2 Hi IH Hlen Ha|m ps tr m1 ps1 m2 Hi IH Hstep].
  - split; [reflexivity|]. split; [exact H0|]. intros i e [].
  - destruct (IH H0 Ho) as (L & E & T). clear IH.
    assert (nth_error (ps1 ++ p :: ps2) i = Some p) as Hp.
    { subst i. rewrite nth_error_app2, Nat.sub_diag by lia. reflexivity. }
    destruct (E i p Hp) as [Ag Ev].
    destruct (acts_eval _ _ _ _ _ _ _ Ha Ag Ev) as (-> & Ev' & l & -> & Hl).
    rewrite !app_length in *. cbn [length] in *. split; [exact L|]. split.
    + intros j q Hq. apply nth_error_middle in Hq. destruct Hq as [[-> ->]|[Hj Hq]].
      * subst i. auto.
      * apply E. apply Hq.
    + intros j e Hin. apply in_app_iff in Hin. destruct Hin as [Hin|[Hin|[]]]; [apply T; exact Hin|].
      injection Hin as <- <-. eauto.
  - destruct (IH H0 Ho) as (L & E & T). split; [exact L|]. split; [|exact T].
    intros i p Hp. destruct (E i p Hp) as [Ag Ev]. split; [|exact Ev].
    assert (i < length ps) as Hlt by (rewrite <- L; apply nth_error_Some; congruence).
    destruct (nth_error ps i) as [p0|] eqn:E0; [|apply nth_error_None in E0; lia].
    eapply Ho; eauto.
Qed.

(* a program can run to its end on its own *)
Lemma runs_alone {A} others : forall (p : prog A) m ps tr m1 ps1 ps2,
  interleaves others m ps tr m1 (ps1 ++ p :: ps2) ->
  exists tr' m2 p', interleaves others m ps (tr ++ tr') m2 (ps1 ++ p' :: ps2) /\
    ((exists a, p' = Done a) \/ exists e, p' = Crash e).
Proof.
  induction p as [a|e|a k IH|t i k IH|a b k IH|t i x k IH]; intros m ps tr m1 ps1 ps2 H.
  - exists [], m1, (Done a). rewrite app_nil_r. eauto.
  - exists [], m1, (Crash e). rewrite app_nil_r. eauto.
  - destruct (IH _ m ps _ _ ps1 ps2 (inter_act _ _ _ _ _ _ _ _ _ _ _ _ H eq_refl (acts_load m1 a k))) as (tr' & K).
    exists ((length ps1, ReadAt (Heap a)) :: tr'). rewrite <- app_assoc in K. exact K.
  - destruct (IH _ m ps _ _ ps1 ps2 (inter_act _ _ _ _ _ _ _ _ _ _ _ _ H eq_refl (acts_load_table m1 t i k))) as (tr' & K).
    exists ((length ps1, ReadAt (Table t i)) :: tr'). rewrite <- app_assoc in K. exact K.
  - destruct (IH m ps _ _ ps1 ps2 (inter_act _ _ _ _ _ _ _ _ _ _ _ _ H eq_refl (acts_store m1 a b k))) as (tr' & K).
    exists ((length ps1, WriteAt (Heap a)) :: tr'). rewrite <- app_assoc in K. exact K.
  - destruct (IH m ps _ _ ps1 ps2 (inter_act _ _ _ _ _ _ _ _ _ _ _ _ H eq_refl (acts_store_table m1 t i x k))) as (tr' & K).
    exists ((length ps1, WriteAt (Table t i)) :: tr'). rewrite <- app_assoc in K. exact K.
Qed.
