(* The table builder's tree in progress (gentable/generate.go 96-171): a
   representation invariant and what Set and BitwiseOr do to it. *)
From Coq Require Import List NArith ZArith Arith Bool Lia Strings.Byte.
From Coq Require Import ZifyBool ZifyNat ZifyN.
From Verif Require Import Spec.Utf8 Spec.Assignments Model.Base Model.Lookup Model.GenTable Proofs.Basics Proofs.LookupFacts Proofs.TextFacts.
Import ListNotations.
Ltac Zify.zify_post_hook ::= Z.div_mod_to_equations.
Local Open Scope N_scope.

(* ---- arrays *)

Lemma shl6 n : N.shiftl n 6 = n * 64.
Proof. rewrite N.shiftl_mul_pow2. reflexivity. Qed.
Lemma shr6 n : N.shiftr n 6 = n / 64.
Proof. rewrite N.shiftr_div_pow2. reflexivity. Qed.

Lemma low6_mod b : low6 b = bval b mod 64.
Proof. unfold low6. change 0x3f with (N.ones 6). rewrite N.land_ones. reflexivity. Qed.
Lemma low6_lt b : low6 b < 64.
Proof. rewrite low6_mod. lia. Qed.

Lemma aget_ok a i : i < alen a -> aget a i = Ret (aget_raw a i).
Proof. intros H. unfold aget. destruct (N.ltb_spec i (alen a)); [reflexivity|lia]. Qed.

Definition upd (a : arr) (i v : N) : arr :=
  Arr (alen a) (FMapPositive.PositiveMap.add (N.succ_pos i) v (adata a)).
Lemma aset_ok a i v : i < alen a -> aset a i v = Ret (upd a i v).
Proof. intros H. unfold aset. destruct (N.ltb_spec i (alen a)); [reflexivity|lia]. Qed.
Lemma alen_upd a i v : alen (upd a i v) = alen a.
Proof. reflexivity. Qed.
Lemma upd_get a i v j : aget_raw (upd a i v) j = if i =? j then v else aget_raw a j.
Proof. unfold upd. apply aget_raw_add. Qed.

Lemma alen_zero_block a : alen (aappend a zero_block) = alen a + 64.
Proof. rewrite alen_append. reflexivity. Qed.
Lemma append_old a vs i : i < alen a -> aget_raw (aappend a vs) i = aget_raw a i.
Proof. intros H. rewrite aget_raw_append. destruct (_ && _) eqn:E; [lia|reflexivity]. Qed.
Lemma append_new a vs i d : (i < length vs)%nat -> aget_raw (aappend a vs) (alen a + N.of_nat i) = nth i vs d.
Proof.
  intros H. rewrite aget_raw_append. destruct (_ && _) eqn:E; [|lia].
  replace (N.to_nat (alen a + N.of_nat i - alen a)) with i by lia. apply nth_indep; exact H.
Qed.
Lemma append_zero_new a x : x < 64 -> aget_raw (aappend a zero_block) (alen a + x) = 0.
Proof.
  intros H. replace x with (N.of_nat (N.to_nat x)) by lia.
  rewrite append_new with (d := 0) by (unfold zero_block, blockSize; rewrite repeat_length; lia).
  unfold zero_block. apply nth_repeat.
Qed.

(* ---- paths *)

(* A path is the sequence of the six-bit digits of an encoded character; the
   first one decides how many there are. *)
Definition levels (x : N) : nat := if x <? 32 then 0 else if x <? 48 then 1 else 2.

(* a path to an index block / to a property block *)
Definition inner (q : list N) : Prop :=
  match q with
  | [] => True
  | x :: m => x < 53 /\ Forall (fun y => y < 64) m /\ (length m < levels x)%nat
  end.
Definition leafp (q : list N) : Prop :=
  match q with
  | [] => False
  | x :: m => x < 53 /\ Forall (fun y => y < 64) m /\ (length m = levels x)%nat
  end.

Lemma inner_not_leafp q : inner q -> leafp q -> False.
Proof. destruct q; simpl; intros; [assumption|]. lia. Qed.

(* ---- counting *)

Lemma bounded_nodup {A} (code : A -> N) (n : N) (l : list A) :
  (forall a, In a l -> code a < n) ->
  (forall a b, In a l -> In b l -> code a = code b -> a = b) ->
  NoDup l -> N.of_nat (length l) <= n.
Proof.
  intros Hb Hi Hn.
  assert (NoDup (map (fun a => N.to_nat (code a)) l)) as H1.
  { clear Hb. induction Hn as [|a l Ha Hn IH]; cbn [map]; constructor.
    - rewrite in_map_iff. intros (b & E & Hin). apply Ha.
      assert (a = b) as -> by (apply Hi; [left; reflexivity|right; assumption|lia]). assumption.
    - apply IH. intros; apply Hi; [right; assumption|right; assumption|assumption]. }
  assert (incl (map (fun a => N.to_nat (code a)) l) (seq 0 (N.to_nat n))) as H2.
  { intros k Hk. rewrite in_map_iff in Hk. destruct Hk as (a & <- & Ha). apply in_seq.
    specialize (Hb a Ha). lia. }
  pose proof (NoDup_incl_length H1 H2) as H3. rewrite map_length, List.seq_length in H3. lia.
Qed.

Definition inner_code (q : list N) : N :=
  match q with
  | [] => 0
  | [x] => 1 + (x - 32)
  | [x; y] => 22 + (x - 48) * 64 + y
  | _ => 0
  end.
Definition leaf_code (q : list N) : N :=
  match q with
  | [x] => x
  | [x; y] => 32 + (x - 32) * 64 + y
  | [x; y; z] => 1056 + (x - 48) * 4096 + y * 64 + z
  | _ => 0
  end.

Lemma inner_cases q : inner q ->
  q = [] \/ (exists x, q = [x] /\ 32 <= x < 53) \/
  (exists x y, q = [x; y] /\ 48 <= x < 53 /\ y < 64).
Proof.
  destruct q as [|x m]; simpl; [tauto|]. intros (H1 & H2 & H3). right. unfold levels in H3.
  destruct (N.ltb_spec x 32); [lia|].
  destruct m as [|y m]; [left; exists x; split; [reflexivity|lia]|].
  destruct (N.ltb_spec x 48); [simpl in H3; lia|].
  destruct m as [|z m]; [|simpl in H3; lia].
  right. exists x, y. inversion H2; subst. repeat split; lia.
Qed.

Lemma leaf_cases q : leafp q ->
  (exists x, q = [x] /\ x < 32) \/
  (exists x y, q = [x; y] /\ 32 <= x < 48 /\ y < 64) \/
  (exists x y z, q = [x; y; z] /\ 48 <= x < 53 /\ y < 64 /\ z < 64).
Proof.
  destruct q as [|x m]; simpl; [tauto|]. intros (H1 & H2 & H3). unfold levels in H3.
  destruct (N.ltb_spec x 32).
  { destruct m; [|simpl in H3; lia]. left. exists x. auto. }
  destruct (N.ltb_spec x 48).
  { destruct m as [|y [|z m]]; try (simpl in H3; lia). right; left. exists x, y.
    inversion H2; subst. auto. }
  destruct m as [|y [|z [|u m]]]; try (simpl in H3; lia). right; right. exists x, y, z.
  inversion H2 as [|? ? ? H4]; subst. inversion H4; subst. auto.
Qed.

Lemma inner_count l : Forall inner l -> NoDup l -> N.of_nat (length l) <= 342.
Proof.
  intros HF HN. rewrite Forall_forall in HF.
  apply (bounded_nodup inner_code); [| |assumption].
  - intros a Ha. destruct (inner_cases a (HF a Ha)) as [->|[(x & -> & H)|(x & y & -> & H & H')]];
      cbn [inner_code]; lia.
  - intros a b Ha Hb.
    destruct (inner_cases a (HF a Ha)) as [->|[(x & -> & H)|(x & y & -> & H & H')]];
    destruct (inner_cases b (HF b Hb)) as [->|[(x2 & -> & H2)|(x2 & y2 & -> & H2 & H2')]];
      cbn [inner_code]; intros E; try lia; try reflexivity.
    + assert (x = x2) by lia. congruence.
    + assert (x = x2) by lia. assert (y = y2) by lia. congruence.
Qed.

Lemma leaf_count l : Forall leafp l -> NoDup l -> N.of_nat (length l) <= 21536.
Proof.
  intros HF HN. rewrite Forall_forall in HF.
  apply (bounded_nodup leaf_code); [| |assumption].
  - intros a Ha.
    destruct (leaf_cases a (HF a Ha)) as [(x & -> & H)|[(x & y & -> & H & H')|(x & y & z & -> & H & H' & H'')]];
      cbn [leaf_code]; lia.
  - intros a b Ha Hb.
    destruct (leaf_cases a (HF a Ha)) as [(x & -> & H)|[(x & y & -> & H & H')|(x & y & z & -> & H & H' & H'')]];
    destruct (leaf_cases b (HF b Hb)) as [(x2 & -> & H2)|[(x2 & y2 & -> & H2 & H2')|(x2 & y2 & z2 & -> & H2 & H2' & H2'')]];
      cbn [leaf_code]; intros E; try lia.
    + congruence.
    + assert (x = x2) by lia. assert (y = y2) by lia. congruence.
    + assert (x = x2) by lia. assert (y = y2) by lia. assert (z = z2) by lia. congruence.
Qed.

(* ---- the invariant *)

Definition entry (inn lef : list (list N)) (q : list N) (e : N) : Prop :=
  (e = 0 /\ ~ In q inn /\ ~ In q lef) \/
  (e <> 0 /\ nth_error inn (N.to_nat e) = Some q) \/
  (2 <= e /\ nth_error lef (N.to_nat (e - 2)) = Some q).

Record Rep (t : tip) (inn lef : list (list N)) (F : list N -> N) : Prop := mkRep {
  r_ilen : alen (rawIndices t) = 64 * N.of_nat (length inn);
  r_plen : alen (rawProps t) = 64 * (N.of_nat (length lef) + 2);
  r_root : nth_error inn 0 = Some [];
  r_inn : NoDup inn;
  r_lef : NoDup lef;
  r_inner : Forall inner inn;
  r_leaf : Forall leafp lef;
  r_closed : forall p x, In (p ++ [x]) inn \/ In (p ++ [x]) lef -> In p inn;
  r_entry : forall b p x, nth_error inn b = Some p -> x < 64 ->
    entry inn lef (p ++ [x]) (aget_raw (rawIndices t) (N.of_nat b * 64 + x));
  r_ascii : forall a, a < 128 -> aget_raw (rawProps t) a = F [a];
  r_vals : forall j q x, nth_error lef j = Some q -> x < 64 ->
    aget_raw (rawProps t) ((N.of_nat j + 2) * 64 + x) = F (q ++ [x]);
  r_supp : forall w, F w <> 0 ->
    (exists a, w = [a] /\ a < 128) \/ (exists q x, In q lef /\ x < 64 /\ w = q ++ [x])
}.

Lemma aget_raw_make n i : aget_raw (amake n) i = 0.
Proof. unfold aget_raw, amake. cbn [adata]. rewrite FMapPositive.PositiveMap.gempty. reflexivity. Qed.

Lemma nodup_app_one {A} (l : list A) a : NoDup l -> ~ In a l -> NoDup (l ++ [a]).
Proof.
  intros H1 H2. apply NoDup_Add with (a := a) (l := l).
  - replace l with (l ++ []) at 1 by apply app_nil_r. apply Add_app.
  - auto.
Qed.

Lemma rep_new : Rep newTreeInProgress [[]] [] (fun _ => 0).
Proof.
  constructor; cbn [newTreeInProgress rawIndices rawProps].
  - reflexivity.
  - reflexivity.
  - reflexivity.
  - apply (nodup_app_one []); [constructor|simpl; tauto].
  - constructor.
  - constructor; [exact I|constructor].
  - constructor.
  - intros p x [H|H]; simpl in H; [|tauto].
    destruct H as [H|H]; [|tauto]. destruct p; discriminate H.
  - intros b p x H Hx. left. rewrite aget_raw_make. split; [reflexivity|].
    split; [|simpl; tauto]. intros [E|[]].
    destruct p; discriminate E.
  - intros. apply aget_raw_make.
  - intros j q x H. destruct j; discriminate H.
  - intros w H. congruence.
Qed.

Lemma entry_mono_inn inn lef q0 q e : q <> q0 -> entry inn lef q e -> entry (inn ++ [q0]) lef q e.
Proof.
  intros Hne [(E & H1 & H2)|[(E & H)|(E & H)]].
  - left. split; [assumption|]. split; [|assumption].
    rewrite in_app_iff. simpl. intros [K|[K|[]]]; [tauto|congruence].
  - right; left. split; [assumption|]. rewrite nth_error_app1; [assumption|].
    apply nth_error_Some. congruence.
  - right; right. auto.
Qed.
Lemma entry_mono_lef inn lef q0 q e : q <> q0 -> entry inn lef q e -> entry inn (lef ++ [q0]) q e.
Proof.
  intros Hne [(E & H1 & H2)|[(E & H)|(E & H)]].
  - left. split; [assumption|]. split; [assumption|].
    rewrite in_app_iff. simpl. intros [K|[K|[]]]; [tauto|congruence].
  - right; left. auto.
  - right; right. split; [assumption|]. rewrite nth_error_app1; [assumption|].
    apply nth_error_Some. congruence.
Qed.

Lemma nth_error_last {A} (l : list A) a : nth_error (l ++ [a]) (length l) = Some a.
Proof. rewrite nth_error_app2 by lia. rewrite Nat.sub_diag. reflexivity. Qed.

Lemma slot_inj (inn : list (list N)) b p x b' p' x' : NoDup inn ->
  nth_error inn b = Some p -> nth_error inn b' = Some p' -> p ++ [x] = p' ++ [x'] -> b = b' /\ x = x'.
Proof.
  intros HN H H' E. apply app_inj_tail in E. destruct E as [-> ->]. split; [|reflexivity].
  apply (proj1 (NoDup_nth_error inn) HN); [apply nth_error_Some; congruence|congruence].
Qed.

Lemma nth_lt {A} (l : list A) i a : nth_error l i = Some a -> (i < length l)%nat.
Proof. intros H. apply nth_error_Some. congruence. Qed.

Lemma nth_in {A} (l : list A) i a : nth_error l i = Some a -> In a l.
Proof. apply nth_error_In. Qed.

Lemma alloc_inner t inn lef F b p x :
  Rep t inn lef F -> nth_error inn b = Some p -> x < 64 ->
  inner (p ++ [x]) -> ~ In (p ++ [x]) inn ->
  Rep (Tip (rawProps t)
           (upd (aappend (rawIndices t) zero_block) (N.of_nat b * 64 + x) (N.of_nat (length inn))))
      (inn ++ [p ++ [x]]) lef F.
Proof.
  intros [R1 R2 R3 R4 R5 R6 R7 R8 R9 R10 R11 R12] Hb Hx Hi Hn.
  pose proof (nth_lt _ _ _ Hb) as Lb.
  constructor; cbn [rawIndices rawProps]; auto.
  - rewrite alen_upd, alen_zero_block, R1, app_length. cbn [length]. lia.
  - rewrite nth_error_app1 by lia. assumption.
  - apply nodup_app_one; assumption.
  - rewrite Forall_app. split; [assumption|]. constructor; [assumption|constructor].
  - intros p' x' [H|H]; rewrite in_app_iff.
    + rewrite in_app_iff in H. destruct H as [H|[H|[]]].
      * left. apply (R8 p' x'). tauto.
      * apply app_inj_tail in H. destruct H as [<- <-]. left. apply nth_in in Hb. assumption.
    + left. apply (R8 p' x'). tauto.
  - intros b' p' x' Hb' Hx'. rewrite upd_get.
    destruct (lt_dec b' (length inn)) as [Lb'|Lb'].
    + rewrite nth_error_app1 in Hb' by assumption.
      destruct (N.eqb_spec (N.of_nat b * 64 + x) (N.of_nat b' * 64 + x')) as [E|E].
      * assert (b = b') by lia. assert (x = x') by lia. subst b' x'.
        assert (p = p') by congruence. subst p'.
        right; left. split; [lia|]. rewrite Nat2N.id. apply nth_error_last.
      * rewrite append_old by lia. apply entry_mono_inn; [|apply R9; assumption].
        intros K. destruct (slot_inj inn b' p' x' b p x R4 Hb' Hb K). subst. lia.
    + assert (b' = length inn) as ->.
      { apply nth_lt in Hb'. rewrite app_length in Hb'. simpl in Hb'. lia. }
      rewrite nth_error_last in Hb'. assert (p' = p ++ [x]) by congruence. subst p'.
      destruct (N.eqb_spec (N.of_nat b * 64 + x) (N.of_nat (length inn) * 64 + x')); [lia|].
      replace (N.of_nat (length inn) * 64 + x') with (alen (rawIndices t) + x') by lia.
      rewrite append_zero_new by assumption. left. split; [reflexivity|].
      assert (forall K, In ((p ++ [x]) ++ [x']) inn \/ K -> K) as HK.
      { intros K [K1|K1]; [|assumption]. exfalso. apply Hn. apply (R8 _ x'). tauto. }
      split.
      * rewrite in_app_iff. intros K. apply HK in K. destruct K as [K|[]].
        apply (f_equal (@length N)) in K. rewrite !app_length in K. simpl in K. lia.
      * intros K. apply Hn. apply (R8 _ x'). tauto.
Qed.

Lemma alloc_leaf t inn lef F b p x :
  Rep t inn lef F -> nth_error inn b = Some p -> x < 64 ->
  leafp (p ++ [x]) -> ~ In (p ++ [x]) lef ->
  Rep (Tip (aappend (rawProps t) zero_block)
           (upd (rawIndices t) (N.of_nat b * 64 + x) (N.of_nat (length lef) + 2)))
      inn (lef ++ [p ++ [x]]) F.
Proof.
  intros [R1 R2 R3 R4 R5 R6 R7 R8 R9 R10 R11 R12] Hb Hx Hi Hn.
  pose proof (nth_lt _ _ _ Hb) as Lb.
  constructor; cbn [rawIndices rawProps]; auto.
  - rewrite alen_zero_block, R2, app_length. cbn [length]. lia.
  - apply nodup_app_one; assumption.
  - rewrite Forall_app. split; [assumption|]. constructor; [assumption|constructor].
  - intros p' x' [H|H].
    + apply (R8 p' x'). tauto.
    + rewrite in_app_iff in H. destruct H as [H|[H|[]]].
      * apply (R8 p' x'). tauto.
      * apply app_inj_tail in H. destruct H as [<- <-]. apply nth_in in Hb. assumption.
  - intros b' p' x' Hb' Hx'. rewrite upd_get.
    destruct (N.eqb_spec (N.of_nat b * 64 + x) (N.of_nat b' * 64 + x')) as [E|E].
    + assert (b = b') by lia. assert (x = x') by lia. subst b' x'.
      assert (p = p') by congruence. subst p'.
      right; right. split; [lia|].
      replace (N.to_nat (N.of_nat (length lef) + 2 - 2)) with (length lef) by lia. apply nth_error_last.
    + apply entry_mono_lef; [|apply R9; assumption].
      intros K. destruct (slot_inj inn b' p' x' b p x R4 Hb' Hb K). subst. lia.
  - intros a Ha. rewrite append_old by lia. apply R10; assumption.
  - intros j q y Hj Hy.
    destruct (lt_dec j (length lef)) as [Lj|Lj].
    + rewrite nth_error_app1 in Hj by assumption. rewrite append_old by lia. apply R11; assumption.
    + assert (j = length lef) as ->.
      { apply nth_lt in Hj. rewrite app_length in Hj. simpl in Hj. lia. }
      rewrite nth_error_last in Hj. assert (q = p ++ [x]) by congruence. subst q.
      replace ((N.of_nat (length lef) + 2) * 64 + y) with (alen (rawProps t) + y) by lia.
      rewrite append_zero_new by assumption.
      destruct (N.eq_dec (F ((p ++ [x]) ++ [y])) 0) as [Z|Z]; [congruence|]. exfalso.
      apply R12 in Z. destruct Z as [(a & Ea & _)|(q & z & Hq & _ & Ez)].
      * apply (f_equal (@length N)) in Ea. rewrite !app_length in Ea. simpl in Ea. lia.
      * apply app_inj_tail in Ez. destruct Ez as [Eq _]. rewrite <- Eq in Hq. tauto.
  - intros w Hw. destruct (R12 w Hw) as [H|(q & z & Hq & H)]; [left; assumption|].
    right. exists q, z. rewrite in_app_iff. tauto.
Qed.

Lemma inner_prefix p x m : inner (p ++ x :: m) -> inner (p ++ [x]).
Proof.
  destruct p as [|y p]; simpl; intros (H1 & H2 & H3).
  - split; [assumption|]. split; [constructor|]. lia.
  - split; [assumption|]. rewrite Forall_app in *. destruct H2 as [H2 H4]. inversion H4; subst.
    split; [split; [assumption|constructor; [assumption|constructor]]|].
    rewrite app_length in *. simpl in *. lia.
Qed.

Definition digits (bs : list byte) : list N := map low6 bs.

Lemma descend_spec F : forall nested t inn lef b p,
  Rep t inn lef F -> nth_error inn b = Some p -> inner (p ++ digits nested) ->
  exists t' inn' b', descend t (N.of_nat b) nested = Ret (t', N.of_nat b') /\
    Rep t' inn' lef F /\ nth_error inn' b' = Some (p ++ digits nested) /\ rawProps t' = rawProps t.
Proof.
  induction nested as [|c nested IH]; intros t inn lef b p R Hb Hi.
  - exists t, inn, b. cbn [digits map] in *. rewrite app_nil_r in *. auto.
  - cbn [digits map] in Hi. cbn [descend].
    pose proof (inner_prefix _ _ _ Hi) as Hi1.
    pose proof (low6_lt c) as Lc. pose proof (nth_lt _ _ _ Hb) as Lb.
    rewrite shl6. rewrite aget_ok by (rewrite (r_ilen _ _ _ _ R); lia). cbn [bind].
    pose proof (r_entry _ _ _ _ R b p (low6 c) Hb Lc) as HE.
    set (e := aget_raw (rawIndices t) (N.of_nat b * 64 + low6 c)) in *.
    replace (p ++ low6 c :: map low6 nested) with ((p ++ [low6 c]) ++ digits nested) in Hi
      by (rewrite <- app_assoc; reflexivity).
    assert (p ++ digits (c :: nested) = (p ++ [low6 c]) ++ digits nested) as -> by (rewrite <- app_assoc; reflexivity).
    destruct HE as [(E & H1 & H2)|[(E & H)|(E & H)]].
    + rewrite E, N.eqb_refl.
      pose proof (alloc_inner _ _ _ _ _ _ _ R Hb Lc Hi1 H1) as R'.
      pose proof (inner_count _ (r_inner _ _ _ _ R') (r_inn _ _ _ _ R')) as HC.
      rewrite app_length in HC. cbn [length] in HC.
      assert (N.shiftr (alen (rawIndices t)) 6 = N.of_nat (length inn)) as EL.
      { rewrite shr6, (r_ilen _ _ _ _ R). lia. }
      rewrite EL. unfold u16. rewrite N.mod_small by lia.
      rewrite aset_ok by (rewrite alen_zero_block, (r_ilen _ _ _ _ R); lia). cbn [bind].
      destruct (IH _ _ _ (length inn) (p ++ [low6 c]) R' (nth_error_last _ _) Hi) as (t' & inn' & b' & D & R2 & N2 & P2).
      exists t', inn', b'. auto.
    + destruct (N.eqb_spec e 0); [tauto|].
      destruct (IH _ _ _ (N.to_nat e) (p ++ [low6 c]) R H Hi) as (t' & inn' & b' & D & R2 & N2 & P2).
      rewrite N2Nat.id in D. exists t', inn', b'. auto.
    + exfalso. apply nth_in in H. pose proof (r_leaf _ _ _ _ R) as HL. rewrite Forall_forall in HL.
      exact (inner_not_leafp _ Hi1 (HL _ H)).
Qed.

(* ---- the path of a rune *)

Definition cpath (c : N) : list N :=
  if c <? 0x80 then [c] else digits (utf8_encode c).

Lemma scalarb_spec c : scalarb c = true <-> scalar c.
Proof. unfold scalarb, scalar. lia. Qed.

Lemma target_scalar r : scalar (target r).
Proof.
  unfold target. destruct (_ && _) eqn:E.
  - apply scalarb_spec. apply andb_true_iff in E. tauto.
  - right. lia.
Qed.

Lemma encode_rune r : EncodeRune r = utf8_encode (target r).
Proof. unfold EncodeRune, target. destruct (_ && _); reflexivity. Qed.

Lemma low6_mkbyte n : n < 256 -> low6 (mkbyte n) = n mod 64.
Proof. intros H. rewrite low6_mod, bval_mkbyte by assumption. reflexivity. Qed.

(* A multi-byte encoding: digits of the parts. *)
Lemma encode_parts c : scalar c -> 0x80 <= c ->
  exists nested pen final, utf8_encode c = nested ++ [pen; final] /\
    leafp (digits nested ++ [low6 pen]) /\ inner (digits nested).
Proof.
  intros Hc H. unfold utf8_encode, scalar in *.
  destruct (N.ltb_spec c 0x80); [lia|].
  destruct (N.ltb_spec c 0x800).
  { exists [], (mkbyte (0xC0 + c / 64)), (mkbyte (0x80 + c mod 64)). split; [reflexivity|].
    cbn [digits map app]. rewrite low6_mkbyte by lia.
    split; [|exact I]. cbn [leafp length]. unfold levels.
    destruct (N.ltb_spec ((192 + c / 64) mod 64) 32); [|lia].
    split; [lia|]. split; [constructor|reflexivity]. }
  destruct (N.ltb_spec c 0x10000).
  { exists [mkbyte (0xE0 + c / 4096)], (mkbyte (0x80 + (c / 64) mod 64)), (mkbyte (0x80 + c mod 64)).
    split; [reflexivity|].
    cbn [digits map app]. rewrite !low6_mkbyte by lia.
    cbn [leafp inner length]. unfold levels.
    destruct (N.ltb_spec ((0xE0 + c / 4096) mod 64) 32); [lia|].
    destruct (N.ltb_spec ((0xE0 + c / 4096) mod 64) 48); [|lia].
    repeat split; try lia; repeat constructor; lia. }
  exists [mkbyte (0xF0 + c / 262144); mkbyte (0x80 + (c / 4096) mod 64)],
    (mkbyte (0x80 + (c / 64) mod 64)), (mkbyte (0x80 + c mod 64)).
  split; [reflexivity|].
  cbn [digits map app]. rewrite !low6_mkbyte by lia.
  cbn [leafp inner length]. unfold levels.
  destruct (N.ltb_spec ((0xF0 + c / 262144) mod 64) 32); [lia|].
  destruct (N.ltb_spec ((0xF0 + c / 262144) mod 64) 48); [lia|].
  repeat split; try lia; repeat constructor; lia.
Qed.

(* where a rune's properties are *)
Definition at_path (lef : list (list N)) (w : list N) (a : N) : Prop :=
  (w = [a] /\ a < 128) \/
  (exists j q x, nth_error lef j = Some q /\ x < 64 /\ w = q ++ [x] /\ a = (N.of_nat j + 2) * 64 + x).

Lemma ensure_spec t inn lef F r : Rep t inn lef F ->
  exists t' inn' lef' a, ensureProps t r = Ret (t', a) /\ Rep t' inn' lef' F /\
    a < alen (rawProps t') /\ at_path lef' (cpath (target r)) a /\
    (forall q, In q lef' <-> In q lef \/ (128 <= target r /\ exists x, cpath (target r) = q ++ [x])).
Proof.
  intros R. unfold ensureProps. rewrite encode_rune. pose proof (target_scalar r) as Hc.
  set (c := target r) in *. unfold cpath.
  destruct (N.ltb_spec c 0x80) as [H|H].
  - unfold utf8_encode. destruct (N.ltb_spec c 0x80); [|lia].
    cbn [length Nat.eqb index nth_error bind].
    rewrite bval_mkbyte by lia.
    rewrite aget_ok by (rewrite (r_plen _ _ _ _ R); lia). cbn [bind].
    exists t, inn, lef, c. split; [reflexivity|]. split; [assumption|].
    split; [rewrite (r_plen _ _ _ _ R); lia|]. split; [left; split; [reflexivity|lia]|].
    intros q. split; [tauto|]. intros [K|[K _]]; [assumption|lia].
  - destruct (encode_parts c Hc H) as (nested & pen & final & E & HL & HI). rewrite E.
    assert (length (nested ++ [pen; final]) = length nested + 2)%nat as EL by (rewrite app_length; reflexivity).
    rewrite EL.
    destruct (Nat.eqb_spec (length nested + 2) 1); [lia|].
    replace (length nested + 2 - 2)%nat with (length nested) by lia.
    replace (length nested + 2 - 1)%nat with (S (length nested)) by lia.
    rewrite slice_to_app. cbn [bind].
    assert (index (nested ++ [pen; final]) (length nested) = Ret pen) as ->.
    { unfold index. rewrite nth_error_app2 by lia. rewrite Nat.sub_diag. reflexivity. }
    assert (index (nested ++ [pen; final]) (S (length nested)) = Ret final) as ->.
    { unfold index. rewrite nth_error_app2 by lia.
      replace (S (length nested) - length nested)%nat with 1%nat by lia. reflexivity. }
    cbn [bind].
    destruct (descend_spec F nested t inn lef 0 [] R (r_root _ _ _ _ R) HI) as (t1 & inn1 & b & D & R1 & N1 & P1).
    change (N.of_nat 0) with 0 in D. rewrite D. cbn [bind]. cbn [app] in N1.
    pose proof (low6_lt pen) as Lp. pose proof (low6_lt final) as Lf. pose proof (nth_lt _ _ _ N1) as Lb.
    rewrite !shl6. rewrite aget_ok by (rewrite (r_ilen _ _ _ _ R1); lia). cbn [bind].
    pose proof (r_entry _ _ _ _ R1 b _ (low6 pen) N1 Lp) as HE.
    set (e := aget_raw (rawIndices t1) (N.of_nat b * 64 + low6 pen)) in *.
    assert (digits (nested ++ [pen; final]) = (digits nested ++ [low6 pen]) ++ [low6 final]) as EP.
    { unfold digits. rewrite map_app, <- app_assoc. reflexivity. }
    rewrite EP.
    destruct HE as [(E0 & H1 & H2)|[(E0 & H1)|(E0 & H1)]].
    + rewrite E0, N.eqb_refl.
      pose proof (alloc_leaf _ _ _ _ _ _ _ R1 N1 Lp HL H2) as R'.
      pose proof (leaf_count _ (r_leaf _ _ _ _ R') (r_lef _ _ _ _ R')) as HC.
      rewrite app_length in HC. cbn [length] in HC.
      assert (N.shiftr (alen (rawProps t1)) 6 = N.of_nat (length lef) + 2) as ES.
      { rewrite shr6, (r_plen _ _ _ _ R1). lia. }
      rewrite ES. unfold u16. rewrite N.mod_small by lia.
      rewrite aset_ok by (rewrite (r_ilen _ _ _ _ R1); lia). cbn [bind rawProps].
      rewrite shl6.
      assert ((N.of_nat (length lef) + 2) * 64 + low6 final < alen (aappend (rawProps t1) zero_block)) as LT.
      { rewrite alen_zero_block, (r_plen _ _ _ _ R1). lia. }
      rewrite aget_ok by exact LT. cbn [bind].
      eexists _, _, _, _. split; [reflexivity|]. split; [exact R'|]. split; [exact LT|].
      split.
      * right. exists (length lef), (digits nested ++ [low6 pen]), (low6 final).
        rewrite nth_error_last. auto.
      * intros q. rewrite in_app_iff. split.
        -- intros [K|[K|[]]]; [tauto|]. right. split; [assumption|]. subst q. eauto.
        -- intros [K|[_ [x K]]]; [tauto|]. apply app_inj_tail in K. destruct K as [K _]. right; left; exact K.
    + exfalso. apply nth_in in H1. pose proof (r_inner _ _ _ _ R1) as HF. rewrite Forall_forall in HF.
      exact (inner_not_leafp _ (HF _ H1) HL).
    + destruct (N.eqb_spec e 0); [lia|]. cbn [bind]. rewrite shl6.
      pose proof (nth_lt _ _ _ H1) as Le.
      assert (e * 64 + low6 final < alen (rawProps t1)) as LT by (rewrite (r_plen _ _ _ _ R1); lia).
      rewrite aget_ok by exact LT. cbn [bind].
      eexists _, _, _, _. split; [reflexivity|]. split; [exact R1|]. split; [exact LT|].
      split.
      * right. exists (N.to_nat (e - 2)), (digits nested ++ [low6 pen]), (low6 final).
        split; [assumption|]. split; [assumption|]. split; [reflexivity|]. lia.
      * intros q. split; [tauto|]. intros [K|[_ [x K]]]; [assumption|].
        apply app_inj_tail in K. destruct K as [<- _]. apply nth_in in H1. exact H1.
Qed.

Definition list_eq (a b : list N) : {a = b} + {a <> b} := list_eq_dec N.eq_dec a b.
Definition fupd (F : list N -> N) (w : list N) (v : N) : list N -> N :=
  fun w' => if list_eq w w' then v else F w'.

Lemma at_path_value t inn lef F w a : Rep t inn lef F -> at_path lef w a -> aget_raw (rawProps t) a = F w.
Proof.
  intros R [[-> H]|(j & q & x & Hj & Hx & -> & ->)].
  - apply (r_ascii _ _ _ _ R); assumption.
  - apply (r_vals _ _ _ _ R); assumption.
Qed.

Lemma leaf_nonempty q : leafp q -> q <> [].
Proof. destruct q; simpl; [tauto|discriminate]. Qed.

Lemma write_spec t inn lef F w a v : Rep t inn lef F -> at_path lef w a ->
  Rep (Tip (upd (rawProps t) a v) (rawIndices t)) inn lef (fupd F w v).
Proof.
  intros [R1 R2 R3 R4 R5 R6 R7 R8 R9 R10 R11 R12] HA.
  assert (forall j q, nth_error lef j = Some q -> q <> []) as HNE.
  { intros j q Hj. rewrite Forall_forall in R7. apply leaf_nonempty, R7, (nth_in _ _ _ Hj). }
  constructor; cbn [rawProps rawIndices]; auto.
  - intros a' Ha'. rewrite upd_get. unfold fupd.
    destruct HA as [[-> H]|(j & q & x & Hj & Hx & -> & ->)].
    + destruct (N.eqb_spec a a') as [->|E].
      * destruct (list_eq _ _); congruence.
      * destruct (list_eq _ _); [congruence|]. apply R10; assumption.
    + destruct (N.eqb_spec ((N.of_nat j + 2) * 64 + x) a'); [lia|].
      destruct (list_eq _ _) as [K|K]; [|apply R10; assumption].
      exfalso. apply (HNE j q Hj). destruct q; [reflexivity|]. destruct q; discriminate K.
  - intros j' q' x' Hj' Hx'. rewrite upd_get. unfold fupd.
    destruct HA as [[-> H]|(j & q & x & Hj & Hx & -> & ->)].
    + destruct (N.eqb_spec a ((N.of_nat j' + 2) * 64 + x')); [lia|].
      destruct (list_eq _ _) as [K|K]; [|apply R11; assumption].
      exfalso. apply (HNE j' q' Hj'). destruct q'; [reflexivity|]. destruct q'; discriminate K.
    + destruct (N.eqb_spec ((N.of_nat j + 2) * 64 + x) ((N.of_nat j' + 2) * 64 + x')) as [E|E].
      * assert (j = j') by lia. assert (x = x') by lia. subst j' x'.
        assert (q = q') by congruence. subst q'. destruct (list_eq _ _); congruence.
      * destruct (list_eq _ _) as [K|K]; [|apply R11; assumption].
        destruct (slot_inj lef j q x j' q' x' R5 Hj Hj' K). subst. lia.
  - intros w' H. unfold fupd in H. destruct (list_eq w w') as [<-|K]; [|apply R12; assumption].
    destruct HA as [[-> HA]|(j & q & x & Hj & Hx & -> & ->)].
    + left. exists a. auto.
    + right. exists q, x. apply nth_in in Hj. auto.
Qed.

Lemma set_spec t inn lef F r v : Rep t inn lef F ->
  (v = 4 /\ F (cpath (target r)) <> 0 /\ Set_ t r v = Panic ConflictingProperties) \/
  (~ (v = 4 /\ F (cpath (target r)) <> 0) /\
   exists t' inn' lef', Set_ t r v = Ret t' /\ Rep t' inn' lef' (fupd F (cpath (target r)) v) /\
     (forall q, In q lef' <-> In q lef \/ (128 <= target r /\ exists x, cpath (target r) = q ++ [x]))).
Proof.
  intros R. unfold Set_.
  destruct (ensure_spec t inn lef F r R) as (t' & inn' & lef' & a & E & R' & La & HA & HL).
  rewrite E. cbn [bind]. rewrite aget_ok by assumption. cbn [bind].
  rewrite (at_path_value _ _ _ _ _ _ R' HA).
  destruct ((v =? 4) && negb (F (cpath (target r)) =? 0)) eqn:C.
  - left. split; [lia|]. split; [lia|reflexivity].
  - right. split; [lia|]. rewrite aset_ok by assumption. cbn [bind].
    eexists _, _, _. split; [reflexivity|]. split; [|exact HL].
    exact (write_spec _ _ _ _ _ _ _ R' HA).
Qed.

Lemma or_spec t inn lef F r v : Rep t inn lef F ->
  exists t' inn' lef', BitwiseOr t r v = Ret t' /\
     Rep t' inn' lef' (fupd F (cpath (target r)) (N.lor (F (cpath (target r))) v)) /\
     (forall q, In q lef' <-> In q lef \/ (128 <= target r /\ exists x, cpath (target r) = q ++ [x])).
Proof.
  intros R. unfold BitwiseOr.
  destruct (ensure_spec t inn lef F r R) as (t' & inn' & lef' & a & E & R' & La & HA & HL).
  rewrite E. cbn [bind]. rewrite aget_ok by assumption. cbn [bind].
  rewrite (at_path_value _ _ _ _ _ _ R' HA).
  rewrite aset_ok by assumption. cbn [bind].
  eexists _, _, _. split; [reflexivity|]. split; [|exact HL].
  exact (write_spec _ _ _ _ _ _ _ R' HA).
Qed.

(* ---- all assignments *)

Lemma cpath_form c : scalar c ->
  cpath c =
  if c <? 0x80 then [c]
  else if c <? 0x800 then [c / 64; c mod 64]
  else if c <? 0x10000 then [32 + c / 4096; (c / 64) mod 64; c mod 64]
  else [48 + c / 262144; (c / 4096) mod 64; (c / 64) mod 64; c mod 64].
Proof.
  intros Hc. unfold scalar in Hc. unfold cpath, utf8_encode.
  destruct (N.ltb_spec c 0x80); [reflexivity|].
  destruct (N.ltb_spec c 0x800).
  { cbn [digits map]. rewrite !low6_mkbyte by lia. f_equal; [lia|]. f_equal. lia. }
  destruct (N.ltb_spec c 0x10000).
  { cbn [digits map]. rewrite !low6_mkbyte by lia. f_equal; [lia|]. f_equal; [lia|]. f_equal. lia. }
  cbn [digits map]. rewrite !low6_mkbyte by lia.
  f_equal; [lia|]. f_equal; [lia|]. f_equal; [lia|]. f_equal. lia.
Qed.

Lemma cpath_inj c d : scalar c -> scalar d -> cpath c = cpath d -> c = d.
Proof.
  intros Hc Hd. rewrite !cpath_form by assumption. unfold scalar in *.
  destruct (N.ltb_spec c 0x80), (N.ltb_spec d 0x80); try (congruence || (destruct (d <? 0x800); [congruence|destruct (d <? 0x10000); congruence]) || (destruct (c <? 0x800); [congruence|destruct (c <? 0x10000); congruence])).
  destruct (N.ltb_spec c 0x800), (N.ltb_spec d 0x800); try (congruence || (destruct (d <? 0x10000); congruence) || (destruct (c <? 0x10000); congruence)).
  { intros E. assert (c / 64 = d / 64) by congruence. assert (c mod 64 = d mod 64) by congruence. lia. }
  destruct (N.ltb_spec c 0x10000), (N.ltb_spec d 0x10000); try congruence.
  { intros E. assert (32 + c / 4096 = 32 + d / 4096) by congruence.
    assert ((c / 64) mod 64 = (d / 64) mod 64) by congruence. assert (c mod 64 = d mod 64) by congruence. lia. }
  intros E. assert (48 + c / 262144 = 48 + d / 262144) by congruence.
  assert ((c / 4096) mod 64 = (d / 4096) mod 64) by congruence.
  assert ((c / 64) mod 64 = (d / 64) mod 64) by congruence. assert (c mod 64 = d mod 64) by congruence. lia.
Qed.

Definition means (F : list N -> N) (ops : list op) : Prop :=
  (forall c, scalar c -> F (cpath c) = value ops c) /\
  (forall w, F w <> 0 -> exists c, scalar c /\ w = cpath c).

Definition leaves (lef : list (list N)) (ops : list op) : Prop :=
  forall q, In q lef <->
    exists o x, In o ops /\ 128 <= target (op_rune o) /\ cpath (target (op_rune o)) = q ++ [x].

Lemma value_snoc ops o c : value (ops ++ [o]) c = assign c (value ops c) o.
Proof. unfold value. rewrite fold_left_app. reflexivity. Qed.

Lemma means_upd F ops o v : means F ops ->
  (forall c old, c = target (op_rune o) -> old = value ops c -> assign c old o = v) ->
  (forall c old, c <> target (op_rune o) -> assign c old o = old) ->
  means (fupd F (cpath (target (op_rune o))) v) (ops ++ [o]).
Proof.
  intros [H1 H2] HA HB. pose proof (target_scalar (op_rune o)) as Ht. split.
  - intros c Hc. rewrite value_snoc. unfold fupd. destruct (list_eq _ _) as [E|E].
    + apply cpath_inj in E; [|assumption|assumption]. symmetry. apply HA; congruence.
    + rewrite HB by congruence. apply H1; assumption.
  - intros w. unfold fupd. destruct (list_eq _ _) as [E|E]; [|apply H2]. eauto.
Qed.

Lemma leaves_upd lef lef' ops o : leaves lef ops ->
  (forall q, In q lef' <-> In q lef \/ (128 <= target (op_rune o) /\ exists x, cpath (target (op_rune o)) = q ++ [x])) ->
  leaves lef' (ops ++ [o]).
Proof.
  intros H1 H2 q. rewrite H2, (H1 q). split.
  - intros [(o' & x & H)|(H & x & E)].
    + exists o', x. rewrite in_app_iff. tauto.
    + exists o, x. rewrite in_app_iff. simpl. tauto.
  - intros (o' & x & H & H' & E). rewrite in_app_iff in H. destruct H as [H|[<-|[]]]; [left|right]; eauto.
Qed.

Lemma run_app ops1 ops2 : forall t, run_ops t (ops1 ++ ops2) = let! t := run_ops t ops1 in run_ops t ops2.
Proof.
  induction ops1 as [|[r v|r v] ops1 IH]; intros t; [reflexivity| |]; cbn [app run_ops].
  - destruct (Set_ t r v); cbn [bind]; auto.
  - destruct (BitwiseOr t r v); cbn [bind]; auto.
Qed.

Theorem run_spec ops :
  (conflict ops /\ run_ops newTreeInProgress ops = Panic ConflictingProperties) \/
  (~ conflict ops /\
   exists t inn lef F, run_ops newTreeInProgress ops = Ret t /\ Rep t inn lef F /\ means F ops /\ leaves lef ops).
Proof.
  induction ops as [|o ops IH] using rev_ind.
  - right. split.
    { intros (b & r & a & E & _). destruct b; discriminate E. }
    exists newTreeInProgress, [[]], [], (fun _ => 0). split; [reflexivity|]. split; [exact rep_new|].
    split.
    + split; [reflexivity|]. congruence.
    + intros q. simpl. split; [tauto|]. intros (o & x & H & _). exact H.
  - rewrite run_app. destruct IH as [[HC E]|(HC & t & inn & lef & F & E & R & HM & HL)]; rewrite E; cbn [bind].
    { left. split; [|reflexivity]. destruct HC as (b & r & a & -> & Hv).
      exists b, r, (a ++ [o]). split; [rewrite <- app_assoc; reflexivity|assumption]. }
    assert (conflict (ops ++ [o]) -> exists r, o = OpSet r 4 /\ value ops (target r) <> 0) as HC'.
    { intros (b & r & a & E' & Hv). destruct a as [|a0 a] using rev_ind.
      - apply app_inj_tail in E'. destruct E' as [-> ->]. eauto.
      - exfalso. apply HC. exists b, r, a. split; [|assumption].
        replace (b ++ OpSet r 4 :: a ++ [a0]) with ((b ++ OpSet r 4 :: a) ++ [a0]) in E'
          by (rewrite <- app_assoc; reflexivity).
        apply app_inj_tail in E'. tauto. }
    destruct o as [r v|r v]; cbn [run_ops].
    + destruct (set_spec t inn lef F r v R) as [(-> & H2 & H3)|(H1 & t' & inn' & lef' & H2 & H3 & H4)].
      * left. rewrite H3. split; [|reflexivity]. exists ops, r, []. split; [reflexivity|].
        rewrite <- (proj1 HM); [assumption|apply target_scalar].
      * right. rewrite H2. cbn [bind]. split.
        { intros K. destruct (HC' K) as (r' & E1 & E2). apply H1.
          assert (r = r') by congruence. assert (v = 4) by congruence. subst r'. split; [assumption|].
          rewrite (proj1 HM); [assumption|apply target_scalar]. }
        exists t', inn', lef', (fupd F (cpath (target r)) v). split; [reflexivity|]. split; [assumption|]. split.
        -- apply (means_upd F ops (OpSet r v) v HM); cbn [op_rune assign].
           ++ intros c old -> _. rewrite N.eqb_refl. reflexivity.
           ++ intros c old Hne. destruct (N.eqb_spec (target r) c); congruence.
        -- apply (leaves_upd lef lef' ops (OpSet r v) HL H4).
    + destruct (or_spec t inn lef F r v R) as (t' & inn' & lef' & H2 & H3 & H4).
      right. rewrite H2. cbn [bind]. split.
      { intros K. destruct (HC' K) as (r' & E1 & E2). discriminate E1. }
      exists t', inn', lef', (fupd F (cpath (target r)) (N.lor (F (cpath (target r))) v)).
      split; [reflexivity|]. split; [assumption|]. split.
      * apply (means_upd F ops (OpOr r v) _ HM); cbn [op_rune assign].
        -- intros c old -> ->. rewrite N.eqb_refl. rewrite (proj1 HM); [reflexivity|apply target_scalar].
        -- intros c old Hne. destruct (N.eqb_spec (target r) c); congruence.
      * apply (leaves_upd lef lef' ops (OpOr r v) HL H4).
Qed.
