(* Property C72: how much of what lies before a place decides whether it is a
   boundary. *)
From Coq Require Import List NArith Arith Bool Lia Strings.Byte.
From Coq Require Import ZArith ZifyBool ZifyNat ZifyN.
From Verif Require Import Spec.Classes Spec.Utf8 Spec.UAX29 Spec.UcdRanges Spec.Segmentation.
From Verif Require Import Model.Base Model.CharProps Model.Lookup Model.Machine Model.Scan.
From Verif Require Import Proofs.Basics Proofs.TableCheck Proofs.MachineFacts Proofs.LookupFacts Proofs.ScanFacts
  Proofs.TextFacts Proofs.TextProps Proofs.UnicodeFacts Proofs.BoundaryFacts.
From Verif Require Import Proofs.VersionFacts Properties.Splitting Properties.Editing Properties.Conformance Properties.Locality.
Import ListNotations.

Local Opaque committed LookupFirstChar fast_class ok1 leads conts.

(* The boundary before c in the text l, p, c, r. *)
Lemma cut_text l p c r toks : Forall scalar (l ++ p :: c :: r) -> tokenises (utf8_text (l ++ p :: c :: r)) toks ->
  (cut toks (utf8_text (l ++ [p])) <->
   let past := rev (map ucd_class (l ++ [p])) in
   spec_split (ucd_class p) (ucd_class c) (g9c past) (g11 past) (ri past) = true).
Proof.
  intros Hs T. cbv zeta. pose proof (reads_utf8_text _ Hs) as R. rewrite map_app in R. cbn [map] in R.
  pose proof (cut_pos _ _ _ _ _ _ T R) as C.
  apply Forall_app in Hs. destruct Hs as [Hl Hs]. inversion Hs as [|? ? Hp Hs']; subst. inversion Hs' as [|? ? Hc _]; subst.
  rewrite !class_char in C by assumption.
  replace (map item_class (map char l ++ [char p])) with (map ucd_class (l ++ [p])) in C.
  2: { rewrite !map_app, map_class_chars by assumption. cbn [map]. rewrite class_char by assumption. reflexivity. }
  replace (items_bytes (map char l ++ [char p])) with (utf8_text (l ++ [p])) in C; [exact C|].
  clear. induction l as [|x l IH]; [reflexivity|]. unfold items_bytes, utf8_text in *. cbn [map app flat_map concat] in *. rewrite IH. reflexivity.
Qed.

Definition ka_class := Cls Other false InCB_Consonant.

Lemma ka_split p a b c : In (gcb p) [Other; Extend; ZWJ] -> spec_split p ka_class a b c = negb (a =? 2)%N.
Proof.
  destruct p as [g e i]. cbn [gcb]. intros H. unfold spec_split, brules. generalize (a =? 2)%N as a', (b =? 2)%N as b'. intros a' b'.
  cbn in H. destruct H as [<-|[<-|[<-|[]]]]; destruct a', b', c; reflexivity.
Qed.

Lemma g9c_repeat e k q : incb e = InCB_Extend -> g9c (repeat e k ++ q) = g9c q.
Proof.
  intros H. induction k as [|k IH]; [reflexivity|]. cbn [repeat app]. change (g9c (e :: repeat e k ++ q)) with (step9c e (g9c (repeat e k ++ q))).
  unfold step9c, b_incb. rewrite H. cbn. exact IH.
Qed.

Lemma ri_repeat e k q : gcb e = Regional_Indicator -> ri (repeat e k ++ q) = xorb (Nat.odd k) (ri q).
Proof.
  intros H. induction k as [|k IH]; [change (Nat.odd 0) with false; rewrite xorb_false_l; reflexivity|]. cbn [repeat app]. change (ri (e :: repeat e k ++ q)) with (stepri e (ri (repeat e k ++ q))).
  unfold stepri, b_is. rewrite H. cbn [GCB_eqb]. rewrite IH, Nat.odd_succ, <- Nat.negb_odd. destruct (Nat.odd k), (ri q); reflexivity.
Qed.

Lemma rev_repeat {A} (e : A) k : rev (repeat e k) = repeat e k.
Proof.
  induction k as [|k IH]; [reflexivity|]. cbn [repeat rev]. rewrite IH. clear IH. induction k as [|k IH]; [reflexivity|].
  cbn [repeat app]. rewrite IH. reflexivity.
Qed.

Lemma map_repeat' {A B} (f : A -> B) e k : map f (repeat e k) = repeat (f e) k.
Proof. induction k as [|k IH]; [reflexivity|]. cbn. rewrite IH. reflexivity. Qed.

(* Two beginnings and k characters e, then c. *)
Lemma cut_repeat a e k c toks (P : cls -> Prop) : a <> [] -> Forall scalar a -> scalar e -> scalar c ->
  Forall (fun x => P (ucd_class x)) a -> P (ucd_class e) ->
  tokenises (utf8_text (a ++ repeat e k ++ [c])) toks ->
  exists p, P p /\
  (cut toks (utf8_text (a ++ repeat e k)) <->
   let past := repeat (ucd_class e) k ++ rev (map ucd_class a) in
   spec_split p (ucd_class c) (g9c past) (g11 past) (ri past) = true).
Proof.
  intros Na Ha He Hc Pa Pe T. cbv zeta. destruct (@exists_last _ (a ++ repeat e k)) as (l & p & E).
  { destruct a; [congruence|]. discriminate. }
  assert (Forall scalar (l ++ p :: [c])) as Hs.
  { replace (l ++ p :: [c]) with ((l ++ [p]) ++ [c]) by (rewrite <- app_assoc; reflexivity). rewrite <- E.
    apply Forall_app. split; [|repeat (apply Forall_cons; [assumption|]); apply Forall_nil].
    apply Forall_app. split; [assumption|]. apply Forall_forall. intros x Hx. apply repeat_spec in Hx. subst x. assumption. }
  replace (a ++ repeat e k ++ [c]) with (l ++ p :: [c]) in T
    by (rewrite (app_assoc a), E, <- app_assoc; reflexivity).
  pose proof (cut_text l p c [] toks Hs T) as C. cbv zeta in C.
  exists (ucd_class p). split.
  - assert (In p (a ++ repeat e k)) as H by (rewrite E; apply in_or_app; right; left; reflexivity).
    apply in_app_or in H. destruct H as [H|H]; [rewrite Forall_forall in Pa; auto|apply repeat_spec in H; subst; assumption].
  - rewrite E. rewrite <- E in C at 2 3 4. rewrite map_app, rev_app_distr, map_repeat', rev_repeat in C. exact C.
Qed.

(* C72. However long the run of Extend, ZWJ or Regional_Indicator characters before
   a place is: what comes before the run can decide. *)
Theorem C72_no_bound : forall k g, In g [Extend; ZWJ; Regional_Indicator] ->
  exists a a' w c toks toks', Forall scalar a /\ Forall scalar a' /\ Forall scalar w /\ scalar c /\
    length w = k /\ Forall (fun x => gcb (ucd_class x) = g) w /\
    tokenises (utf8_text (a ++ w ++ [c])) toks /\ tokenises (utf8_text (a' ++ w ++ [c])) toks' /\
    cut toks (utf8_text (a ++ w)) /\ ~ cut toks' (utf8_text (a' ++ w)).
Proof.
  intros k g Hg.
  assert (forall e, scalar e -> incb (ucd_class e) = InCB_Extend -> In (gcb (ucd_class e)) [Extend; ZWJ] -> gcb (ucd_class e) = g ->
    exists a a' w c toks toks', Forall scalar a /\ Forall scalar a' /\ Forall scalar w /\ scalar c /\
    length w = k /\ Forall (fun x => gcb (ucd_class x) = g) w /\
    tokenises (utf8_text (a ++ w ++ [c])) toks /\ tokenises (utf8_text (a' ++ w ++ [c])) toks' /\
    cut toks (utf8_text (a ++ w)) /\ ~ cut toks' (utf8_text (a' ++ w))) as KE.
  { intros e He Hi He2 Hge.
    destruct (tokenises_total (utf8_text ([0x78] ++ repeat e k ++ [0x915])%N)) as (toks & T).
    destruct (tokenises_total (utf8_text ([0x915; 0x94d] ++ repeat e k ++ [0x915])%N)) as (toks' & T').
    exists [0x78%N], [0x915%N; 0x94d%N], (repeat e k), 0x915%N, toks, toks'.
    assert (Forall scalar [0x78%N]) as H1 by (repeat (apply Forall_cons; [apply scalarb_spec; reflexivity|]); apply Forall_nil).
    assert (Forall scalar [0x915%N; 0x94d%N]) as H2 by (repeat (apply Forall_cons; [apply scalarb_spec; reflexivity|]); apply Forall_nil).
    assert (scalar 0x915) as H3 by (apply scalarb_spec; reflexivity).
    assert (ucd_class 0x915 = ka_class) as Eka by (vm_compute; reflexivity).
    split; [exact H1|]. split; [exact H2|].
    split; [apply Forall_forall; intros x Hx; apply repeat_spec in Hx; subst; assumption|]. split; [exact H3|].
    split; [apply repeat_length|]. split; [apply Forall_forall; intros x Hx; apply repeat_spec in Hx; rewrite Hx; exact Hge|].
    split; [exact T|]. split; [exact T'|].
    destruct (cut_repeat [0x78%N] e k 0x915%N toks (fun p => In (gcb p) [Other; Extend; ZWJ])) as (p & Hp & C);
      [discriminate|exact H1|exact He|exact H3| |cbn in *; tauto|exact T|].
    { apply Forall_cons; [vm_compute; tauto|apply Forall_nil]. }
    destruct (cut_repeat [0x915%N; 0x94d%N] e k 0x915%N toks' (fun p => In (gcb p) [Other; Extend; ZWJ])) as (p' & Hp' & C');
      [discriminate|exact H2|exact He|exact H3| |cbn in *; tauto|exact T'|].
    { repeat (apply Forall_cons; [vm_compute; tauto|]). apply Forall_nil. }
    cbv zeta in C, C'. rewrite Eka in C, C'. rewrite ka_split, g9c_repeat in C, C' by assumption. split.
    - apply C. vm_compute. reflexivity.
    - intros X. apply C' in X. vm_compute in X. discriminate X. }
  cbn in Hg. destruct Hg as [<-|[<-|[<-|[]]]].
  - apply (KE 0x301%N); [apply scalarb_spec; reflexivity|vm_compute; auto..].
  - apply (KE 0x200d%N); [apply scalarb_spec; reflexivity|vm_compute; auto..].
  - clear KE. set (R := 0x1f1e6%N). assert (scalar R) as HR by (apply scalarb_spec; reflexivity).
    assert (scalar 0x78) as Hx by (apply scalarb_spec; reflexivity).
    assert (ucd_class R = Cls Regional_Indicator false InCB_None) as ER by (vm_compute; reflexivity).
    assert (ucd_class 0x78 = Cls Other false InCB_None) as EX by (vm_compute; reflexivity).
    assert (forall a toks, In a [[0x78%N]; [0x78%N; R]] -> tokenises (utf8_text (a ++ repeat R k ++ [R])) toks ->
      (cut toks (utf8_text (a ++ repeat R k)) <-> xorb (Nat.odd k) (ri (rev (map ucd_class a))) = false)) as K.
    { intros a toks Hin T.
      destruct (cut_repeat a R k R toks (fun p => In p [Cls Other false InCB_None; Cls Regional_Indicator false InCB_None])) as (p & Hp & C); auto.
      - destruct Hin as [<-|[<-|[]]]; discriminate.
      - destruct Hin as [<-|[<-|[]]]; repeat (apply Forall_cons; [assumption|]); apply Forall_nil.
      - destruct Hin as [<-|[<-|[]]]; repeat (apply Forall_cons; [rewrite ?EX, ?ER; cbn; tauto|]); apply Forall_nil.
      - rewrite ER. cbn. tauto.
      - cbv zeta in C. rewrite ri_repeat in C by (rewrite ER; reflexivity). rewrite ER in C at 1. rewrite C. clear C.
        generalize (g9c (repeat (ucd_class R) k ++ rev (map ucd_class a))), (g11 (repeat (ucd_class R) k ++ rev (map ucd_class a))).
        intros x y. generalize (xorb (Nat.odd k) (ri (rev (map ucd_class a)))). intros z.
        unfold spec_split, brules. generalize (x =? 2)%N as a', (y =? 2)%N as b'. intros a' b'.
        cbn in Hp. destruct Hp as [<-|[<-|[]]]; destruct a', b', z; split; intros X; try reflexivity; try discriminate X. }
    assert (ri (rev (map ucd_class [0x78%N])) = false) as F1 by (cbn [map rev app]; rewrite EX; reflexivity).
    assert (ri (rev (map ucd_class [0x78%N; R])) = true) as F2 by (cbn [map rev app]; rewrite EX, ER; reflexivity).
    destruct (tokenises_total (utf8_text ([0x78%N] ++ repeat R k ++ [R]))) as (t1 & T1).
    destruct (tokenises_total (utf8_text ([0x78%N; R] ++ repeat R k ++ [R]))) as (t2 & T2).
    pose proof (K _ _ (or_introl eq_refl) T1) as K1. pose proof (K _ _ (or_intror (or_introl eq_refl)) T2) as K2.
    rewrite F1 in K1. rewrite F2 in K2.
    assert (Forall scalar (repeat R k)) as H1 by (apply Forall_forall; intros x Hin; apply repeat_spec in Hin; subst; assumption).
    assert (Forall (fun x => gcb (ucd_class x) = Regional_Indicator) (repeat R k)) as H2
      by (apply Forall_forall; intros x Hin; apply repeat_spec in Hin; rewrite Hin, ER; reflexivity).
    assert (Forall scalar [0x78%N]) as H3 by (apply Forall_cons; [assumption|apply Forall_nil]).
    assert (Forall scalar [0x78%N; R]) as H4 by (repeat (apply Forall_cons; [assumption|]); apply Forall_nil).
    destruct (Nat.odd k).
    + exists [0x78%N; R], [0x78%N], (repeat R k), R, t2, t1. repeat (split; [first [assumption|apply repeat_length]|]).
      split; [apply K2; reflexivity|]. intros X. apply K1 in X. discriminate X.
    + exists [0x78%N], [0x78%N; R], (repeat R k), R, t1, t2. repeat (split; [first [assumption|apply repeat_length]|]).
      split; [apply K1; reflexivity|]. intros X. apply K2 in X. discriminate X.
Qed.

Lemma last_bytes {A} k (x y : list A) : k <= length y -> skipn (length (x ++ y) - k) (x ++ y) = skipn (length y - k) y.
Proof.
  intros H. rewrite app_length. rewrite skipn_app. rewrite skipn_all2 by lia. cbn [app]. f_equal. lia.
Qed.

Lemma text_long w : length w <= length (utf8_text w).
Proof.
  induction w as [|c w IH]; [apply Nat.le_refl|]. change (utf8_text (c :: w)) with (utf8_encode c ++ utf8_text w).
  rewrite app_length. cbn [length]. pose proof (encode_nonempty c). destruct (utf8_encode c); [congruence|]. cbn [length]. lia.
Qed.

(* So no program that looks at the last k bytes before a place, and at everything
   after it, finds the boundaries. *)
Theorem C72_no_window : forall k (f : list byte -> list byte -> bool),
  ~ (forall l r toks, tokenises (l ++ r) toks -> (cut toks l <-> f (skipn (length l - k) l) r = true)).
Proof.
  intros k f H. destruct (C72_no_bound k Regional_Indicator) as (a & a' & w & c & toks & toks' & _ & _ & _ & _ & L & _ & T & T' & C & C');
    [cbn; tauto|].
  assert (forall x y : list N, utf8_text (x ++ y) = utf8_text x ++ utf8_text y) as U by (intros; apply flat_map_app).
  rewrite (app_assoc a), (U (a ++ w)) in T. rewrite (app_assoc a'), (U (a' ++ w)) in T'.
  apply (H _ _ _ T) in C. apply C'. apply (H _ _ _ T'). pose proof (text_long w).
  rewrite (U a w), last_bytes in C by lia. rewrite (U a' w), last_bytes by lia. exact C.
Qed.

(* But a finite memory of the past is enough: some automaton with finitely many
   states that reads the text once, from the front, finds the boundaries. *)
Definition memory := (option cls * N * N * bool)%type.
Definition remember (m : memory) (c : N) : memory :=
  let '(_, a, b, r) := m in let k := ucd_class c in (Some k, step9c k a, step11 k b, stepri k r).
Definition says (m : memory) (c : N) : bool :=
  let '(p, a, b, r) := m in match p with None => true | Some k => spec_split k (ucd_class c) a b r end.
Definition all_memories : list memory :=
  list_prod (list_prod (list_prod (None :: map Some all_classes) [0%N; 1%N; 2%N]) [0%N; 1%N; 2%N]) [false; true].

Lemma remembered l : fold_left remember l (None, 0%N, 0%N, false) =
  (match rev l with [] => None | c :: _ => Some (ucd_class c) end,
   g9c (rev (map ucd_class l)), g11 (rev (map ucd_class l)), ri (rev (map ucd_class l))).
Proof.
  induction l as [|c l IH] using rev_ind; [reflexivity|]. rewrite fold_left_app, IH. cbn [fold_left]. unfold remember.
  rewrite map_app, !rev_app_distr. reflexivity.
Qed.

Lemma g9c_small rl : In (g9c rl) [0%N; 1%N; 2%N].
Proof.
  induction rl as [|x rl IH]; [cbn; tauto|]. change (g9c (x :: rl)) with (step9c x (g9c rl)). unfold step9c.
  destruct (b_incb InCB_Consonant x); [cbn; tauto|]. destruct (b_incb InCB_Linker x); [destruct (g9c rl =? 0)%N; cbn; tauto|].
  destruct (b_incb InCB_Extend x); [exact IH|cbn; tauto].
Qed.
Lemma g11_small rl : In (g11 rl) [0%N; 1%N; 2%N].
Proof.
  induction rl as [|x rl IH]; [cbn; tauto|]. change (g11 (x :: rl)) with (step11 x (g11 rl)). unfold step11.
  repeat match goal with |- In (if ?b then _ else _) _ => destruct b end; cbn; tauto.
Qed.

Theorem C72_finite : exists (Q : Set) (all : list Q) (start : Q) (step : Q -> N -> Q) (f : Q -> N -> bool),
  (forall l, In (fold_left step l start) all) /\
  forall l c r toks, Forall scalar (l ++ c :: r) -> tokenises (utf8_text (l ++ c :: r)) toks ->
    (cut toks (utf8_text l) <-> f (fold_left step l start) c = true).
Proof.
  exists memory, all_memories, (None, 0%N, 0%N, false), remember, says. split.
  - intros l. rewrite remembered. unfold all_memories. repeat apply in_prod.
    + destruct (rev l); [left; reflexivity|]. right. apply in_map, in_all_classes.
    + apply g9c_small.
    + apply g11_small.
    + destruct (ri (rev (map ucd_class l))); cbn; tauto.
  - intros l c r toks Hs T. rewrite remembered. destruct (exists_last_or l) as [->|(l' & p & ->)].
    + cbn. split; [reflexivity|]. intros _. exists [], toks. auto.
    + rewrite <- app_assoc in Hs, T. cbn [app] in Hs, T. rewrite (cut_text l' p c r toks Hs T). cbv zeta.
      rewrite (rev_app_distr l'). reflexivity.
Qed.

(* Three or four regional indicators: a boundary before the last of three, none
   before the last of four, with the same eight bytes before it. *)
Example C72_example :
  let r := [xf0; x9f; x87; xa6] in
  tokens ([x78] ++ (r ++ r) ++ r) = Ret [[x78]; r ++ r; r] /\
  tokens ([x78] ++ r ++ (r ++ r) ++ r) = Ret [[x78]; r ++ r; r ++ r].
Proof. vm_compute. split; reflexivity. Qed.

Definition all_theorems := (C72_no_bound, C72_no_window, C72_finite).
Print Assumptions all_theorems.
