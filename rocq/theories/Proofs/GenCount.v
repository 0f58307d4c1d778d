(* How many blocks Compact (gentable/generate.go 173-297) makes, in terms of
   the values: each number stands for one content. *)
From Coq Require Import List NArith ZArith Arith Bool Lia Strings.Byte Logic.FinFun.
From Coq Require Import ZifyBool ZifyNat ZifyN.
From Verif Require Import Spec.Utf8 Spec.Assignments Spec.Limits Model.Base Model.Lookup Model.GenTable.
From Verif Require Import Proofs.Basics Proofs.LookupFacts Proofs.TextFacts Proofs.GenRaw Proofs.GenCompact Proofs.GenFacts.
Import ListNotations.
Ltac Zify.zify_post_hook ::= Z.div_mod_to_equations.
Local Open Scope N_scope.

(* ---- counting *)

Lemma same_count {A B C} (db : forall x y : B, {x = y} + {x <> y}) (dc : forall x y : C, {x = y} + {x <> y})
  (f : A -> B) (g : A -> C) (l : list A) :
  (forall a b, In a l -> In b l -> (f a = f b <-> g a = g b)) ->
  length (nodup db (map f l)) = length (nodup dc (map g l)).
Proof.
  induction l as [|a l IH]; intros H; [reflexivity|]. cbn [map nodup].
  assert (In (f a) (map f l) <-> In (g a) (map g l)) as HI.
  { rewrite !in_map_iff. split; intros (b & E & Hb); exists b; (split; [|assumption]);
      apply H; try assumption; (left; reflexivity) || (right; assumption). }
  specialize (IH (fun x y Hx Hy => H x y (or_intror Hx) (or_intror Hy))).
  destruct (in_dec db (f a) (map f l)), (in_dec dc (g a) (map g l)); try tauto. cbn [length]. congruence.
Qed.

Lemma filter_map_comm {A B} (f : A -> B) (p : B -> bool) l : filter p (map f l) = map f (filter (fun a => p (f a)) l).
Proof. induction l as [|a l IH]; [reflexivity|]. cbn [map filter]. destruct (p (f a)); cbn [map]; congruence. Qed.

Lemma length_le_cover {A} (dec : forall x y : A, {x = y} + {x <> y}) (r a b : list A) :
  NoDup r -> (forall x, In x r -> In x a \/ In x b) -> (length r <= length (nodup dec a) + length (nodup dec b))%nat.
Proof.
  intros HN H. rewrite <- app_length. apply NoDup_incl_length; [assumption|]. intros x Hx.
  rewrite in_app_iff, !nodup_In. auto.
Qed.
Lemma length_ge_cover {A} (dec : forall x y : A, {x = y} + {x <> y}) (r a b : list A) :
  (forall x, In x a \/ In x b -> In x r) -> (forall x, In x a -> In x b -> False) ->
  (length (nodup dec a) + length (nodup dec b) <= length r)%nat.
Proof.
  intros H HD. rewrite <- app_length. apply NoDup_incl_length.
  - assert (forall l m : list A, NoDup l -> NoDup m -> (forall x, In x l -> In x m -> False) -> NoDup (l ++ m)) as K.
    { clear. intros l m Hl Hm D. induction Hl as [|x l Hx Hl IH]; [exact Hm|]. cbn [app]. constructor.
      - rewrite in_app_iff. intros [K|K]; [tauto|]. apply (D x); [left; reflexivity|assumption].
      - apply IH. intros y Hy. apply D. right; assumption. }
    apply K; [apply NoDup_nodup|apply NoDup_nodup|]. intros x. rewrite !nodup_In. apply HD.
  - intros x. rewrite in_app_iff, !nodup_In. apply H.
Qed.

Definition range (a n : nat) : list N := map N.of_nat (seq a n).
Lemma range_nodup a n : NoDup (range a n).
Proof.
  unfold range. apply FinFun.Injective_map_NoDup; [|apply seq_NoDup]. intros x y. apply Nat2N.inj.
Qed.
Lemma range_in a n x : In x (range a n) <-> (N.of_nat a <= x < N.of_nat (a + n)).
Proof.
  unfold range. rewrite in_map_iff. split.
  - intros (i & <- & H). apply in_seq in H. lia.
  - intros H. exists (N.to_nat x). split; [lia|]. apply in_seq. lia.
Qed.
Lemma range_length a n : length (range a n) = n.
Proof. unfold range. rewrite map_length, List.seq_length. reflexivity. Qed.

(* ---- patterns *)

Lemma pattern_eq f n b g m c : n = m ->
  (pattern f n b = pattern g m c <-> forall i, i < n -> f (b * n + i) = g (c * n + i)).
Proof.
  intros <-. unfold pattern. split.
  - intros H i Hi.
    assert (nth (N.to_nat i) (map (fun i => f (b * n + N.of_nat i)) (seq 0 (N.to_nat n))) 0 =
            nth (N.to_nat i) (map (fun i => g (c * n + N.of_nat i)) (seq 0 (N.to_nat n))) 0) as K by congruence.
    rewrite !nth_map_seq in K by lia. rewrite !N2Nat.id in K. exact K.
  - intros H. apply map_ext_in. intros i Hi. apply in_seq in Hi. apply H. lia.
Qed.

Lemma pattern_length f n b : length (pattern f n b) = N.to_nat n.
Proof. unfold pattern. rewrite map_length, List.seq_length. reflexivity. Qed.

Lemma pattern_split f n b c : 0 < n ->
  (pattern f (64 * n) b = pattern f (64 * n) c <->
   forall y, y < 64 -> pattern f n (b * 64 + y) = pattern f n (c * 64 + y)).
Proof.
  intros Hn. rewrite pattern_eq by reflexivity. split.
  - intros H y Hy. apply pattern_eq; [reflexivity|]. intros i Hi.
    assert (y * n + i < 64 * n) as L by nia. specialize (H _ L).
    replace ((b * 64 + y) * n + i) with (b * (64 * n) + (y * n + i)) by nia.
    replace ((c * 64 + y) * n + i) with (c * (64 * n) + (y * n + i)) by nia. exact H.
  - intros H i Hi. pose proof (N.div_mod i n ltac:(lia)) as D. pose proof (N.mod_lt i n ltac:(lia)) as M.
    assert (i / n < 64) as L by (apply N.div_lt_upper_bound; lia).
    specialize (H _ L). rewrite pattern_eq in H by reflexivity. specialize (H _ M).
    set (q := i / n) in *. set (r := i mod n) in *. clearbody q r. subst i.
    replace (b * (64 * n) + (n * q + r)) with ((b * 64 + q) * n + r) by nia.
    replace (c * (64 * n) + (n * q + r)) with ((c * 64 + q) * n + r) by nia. exact H.
Qed.

(* ---- values on paths *)

Lemma F_path F ops q c : means F ops -> (forall d, scalar d -> q = cpath d -> d = c) ->
  F q = if scalarb c && (if list_eq_dec N.eq_dec q (cpath c) then true else false) then value ops c else 0.
Proof.
  intros [HM HS] HI. destruct (scalarb c) eqn:ES; cbn [andb].
  - apply scalarb_spec in ES. destruct (list_eq_dec N.eq_dec q (cpath c)) as [->|E].
    + apply HM; assumption.
    + destruct (N.eq_dec (F q) 0) as [Z|Z]; [exact Z|]. destruct (HS _ Z) as (d & Hd & Ed).
      rewrite (HI d Hd Ed) in Ed. tauto.
  - destruct (N.eq_dec (F q) 0) as [Z|Z]; [exact Z|]. destruct (HS _ Z) as (d & Hd & Ed).
    rewrite (HI d Hd Ed) in Hd. apply scalarb_spec in Hd. congruence.
Qed.

Lemma F_two F ops x z : means F ops -> x < 32 -> z < 64 -> F [x; z] = two ops (x * 64 + z).
Proof.
  intros HM Hx Hz. rewrite (F_path F ops [x; z] (x * 64 + z) HM).
  - unfold two. destruct (scalarb (x * 64 + z)) eqn:ES; cbn [andb].
    + apply scalarb_spec in ES. rewrite cpath_form by assumption.
      destruct (N.ltb_spec (x * 64 + z) 0x80).
      * destruct (list_eq_dec _ _ _) as [E|E]; [discriminate E|].
        destruct (N.leb_spec 0x80 (x * 64 + z)); [lia|]. reflexivity.
      * destruct (N.ltb_spec (x * 64 + z) 0x800); [|lia].
        destruct (N.leb_spec 0x80 (x * 64 + z)); [|lia].
        destruct (list_eq_dec _ _ _) as [E|E]; [reflexivity|]. exfalso. apply E. repeat (f_equal; try lia).
    + rewrite (value_not_scalar ops (x * 64 + z)).
      * destruct (_ && _); reflexivity.
      * intros K. apply scalarb_spec in K. congruence.
  - intros d Hd E. rewrite cpath_form in E by assumption. unfold scalar in Hd.
    destruct (N.ltb_spec d 0x80); [discriminate E|].
    destruct (N.ltb_spec d 0x800).
    + assert (x = d / 64) by congruence. assert (z = d mod 64) by congruence. lia.
    + destruct (d <? 0x10000); discriminate E.
Qed.

Lemma F_three' F ops x y z : means F ops -> 32 <= x < 48 -> y < 64 -> z < 64 ->
  F [x; y; z] = three ops (((x - 32) * 64 + y) * 64 + z).
Proof.
  intros HM Hx Hy Hz. rewrite (F_three F ops) by assumption. unfold three.
  destruct (N.ltb_spec ((x - 32) * 64 + y) 32).
  - destruct (N.leb_spec 0x800 (((x - 32) * 64 + y) * 64 + z)); [lia|reflexivity].
  - destruct (N.leb_spec 0x800 (((x - 32) * 64 + y) * 64 + z)); [|lia].
    destruct (N.ltb_spec (((x - 32) * 64 + y) * 64 + z) 0x10000); [reflexivity|lia].
Qed.

Lemma F_four F ops x y z w : means F ops -> 48 <= x < 64 -> y < 64 -> z < 64 -> w < 64 ->
  F [x; y; z; w] = four ops ((((x - 48) * 64 + y) * 64 + z) * 64 + w).
Proof.
  intros HM Hx Hy Hz Hw. set (c := (((x - 48) * 64 + y) * 64 + z) * 64 + w).
  assert (forall d, scalar d -> [x; y; z; w] = cpath d -> d = c) as HI.
  { intros d Hd E. rewrite cpath_form in E by assumption. unfold scalar in Hd.
    destruct (N.ltb_spec d 0x80); [discriminate E|]. destruct (N.ltb_spec d 0x800); [discriminate E|].
    destruct (N.ltb_spec d 0x10000); [discriminate E|].
    assert (x = 48 + d / 262144) by congruence. assert (y = (d / 4096) mod 64) by congruence.
    assert (z = (d / 64) mod 64) by congruence. assert (w = d mod 64) by congruence. unfold c. lia. }
  rewrite (F_path F ops [x; y; z; w] c HM HI). unfold four.
  destruct (scalarb c) eqn:ES; cbn [andb].
  - apply scalarb_spec in ES. rewrite cpath_form by assumption.
    destruct (N.ltb_spec c 0x80); [destruct (N.leb_spec 0x10000 c); [lia|]; destruct (list_eq_dec _ _ _) as [E|E]; [discriminate E|reflexivity]|].
    destruct (N.ltb_spec c 0x800); [destruct (N.leb_spec 0x10000 c); [lia|]; destruct (list_eq_dec _ _ _) as [E|E]; [discriminate E|reflexivity]|].
    destruct (N.ltb_spec c 0x10000); [destruct (N.leb_spec 0x10000 c); [lia|]; destruct (list_eq_dec _ _ _) as [E|E]; [discriminate E|reflexivity]|].
    destruct (N.leb_spec 0x10000 c); [|lia].
    destruct (list_eq_dec _ _ _) as [E|E]; [reflexivity|]. exfalso. apply E. unfold c. repeat (f_equal; try lia).
  - rewrite (value_not_scalar ops c).
    + destruct (0x10000 <=? c); reflexivity.
    + intros K. apply scalarb_spec in K. congruence.
Qed.

Definition size (st : cstate) : N := alen (c_props st) + alen (c_indices st).
Definition grows (st st' : cstate) : Prop := st' = st \/ size st < size st'.

Lemma grows_trans a b c : grows a b -> grows b c -> grows a c.
Proof. unfold grows. intros [->|H] [->|K]; auto. right. lia. Qed.
Lemma grows_back a b : grows a b -> grows b a -> a = b.
Proof. unfold grows. intros [->|H] [K|K]; auto. lia. Qed.

Lemma place_grows key w fresh add st n st' : (forall st, size st < size (add st)) ->
  place key w fresh add st = (n, st') -> (st' = st /\ map_get (get_map w st) key = Some n) \/ size st < size st'.
Proof.
  intros H. unfold place. destruct (map_get _ _) eqn:E0; intros E.
  - left. split; congruence.
  - assert (st' = set_map w (map_set (get_map w (add st)) key fresh) (add st)) as -> by congruence.
    right. specialize (H st). destruct w; exact H.
Qed.

Lemma append_props_size b st : length b = 64%nat -> size st < size (append_props b st).
Proof. intros H. unfold size, append_props. cbn [c_props c_indices]. rewrite alen_append. lia. Qed.
Lemma append_indices_size b st : length b = 64%nat -> size st < size (append_indices b st).
Proof. intros H. unfold size, append_indices. cbn [c_props c_indices]. rewrite alen_append. lia. Qed.

Lemma prop_key_len b k : propertyBlockKey b = Ret k -> length b = 64%nat /\ k = b.
Proof. unfold propertyBlockKey, blockSize. destruct (Nat.eqb_spec (length b) 64); [|discriminate]. intros H. split; congruence. Qed.
Lemma index_key_len b k : indexBlockKey b = Ret k -> length b = 64%nat /\ k = flat b.
Proof. unfold indexBlockKey, blockSize. destruct (Nat.eqb_spec (length b) 64); [|discriminate]. intros H. split; [assumption|]. unfold flat. congruence. Qed.

Lemma each_grows (f : N -> cstate -> res (N * cstate)) :
  (forall s st n st', f s st = Ret (n, st') -> grows st st') ->
  forall ss st ns st', each f ss st = Ret (ns, st') -> grows st st'.
Proof.
  intros H. induction ss as [|s ss IH]; intros st ns st' E; cbn [each] in E.
  - left. congruence.
  - destruct (f s st) as [[n st1]|] eqn:E0; [|discriminate]. cbn [bind] in E. fold (each f) in E.
    destruct (each f ss st1) as [[ms st2]|] eqn:E1; [|discriminate]. cbn [bind] in E.
    assert (st2 = st') as -> by congruence. eapply grows_trans; [eapply H; eassumption|eapply IH; eassumption].
Qed.

Lemma build_grows t k : forall pm im s st n st', buildCompactedBlocks t k pm im s st = Ret (n, st') -> grows st st'.
Proof.
  induction k as [|k IH]; intros pm im s st n st' H; cbn [buildCompactedBlocks] in H.
  - destruct (if s =? 0 then _ else _) as [b|]; [|discriminate]. cbn [bind] in H.
    destruct (propertyBlockKey b) as [key|] eqn:EK; [|discriminate]. cbn [bind] in H.
    destruct (prop_key_len _ _ EK) as [L ->].
    match type of H with Ret (place ?k ?w ?f ?a ?s0) = _ => destruct (place_grows k w f a s0 n st') as [[-> _]|G] end.
    + intros st2. apply append_props_size; assumption.
    + congruence.
    + left; reflexivity.
    + right; assumption.
  - destruct (if s =? 0 then _ else _) as [b|]; [|discriminate]. cbn [bind] in H.
    destruct (each _ b st) as [[nb st1]|] eqn:E; [|discriminate]. cbn [bind] in H.
    destruct (indexBlockKey nb) as [key|] eqn:EK; [|discriminate]. cbn [bind] in H.
    destruct (index_key_len _ _ EK) as [L ->].
    assert (grows st st1) as G1 by (eapply each_grows; [|exact E]; intros; eapply IH; eassumption).
    eapply grows_trans; [exact G1|].
    match type of H with Ret (place ?k ?w ?f ?a ?s0) = _ => destruct (place_grows k w f a s0 n st') as [[-> _]|G] end.
    + intros st2. apply append_indices_size; assumption.
    + congruence.
    + left; reflexivity.
    + right; assumption.
Qed.

Lemma each_same (f : N -> cstate -> res (N * cstate)) :
  (forall s st n st', f s st = Ret (n, st') -> grows st st') ->
  forall ss st ns, each f ss st = Ret (ns, st) -> Forall2 (fun s n => f s st = Ret (n, st)) ss ns.
Proof.
  intros H. induction ss as [|s ss IH]; intros st ns E; cbn [each] in E.
  - assert (ns = []) as -> by congruence. constructor.
  - destruct (f s st) as [[n st1]|] eqn:E0; [|discriminate]. cbn [bind] in E. fold (each f) in E.
    destruct (each f ss st1) as [[ms st2]|] eqn:E1; [|discriminate]. cbn [bind] in E.
    assert (st2 = st) as -> by congruence. assert (ns = n :: ms) as -> by congruence.
    assert (st = st1) as <-.
    { apply grows_back; [eapply H; eassumption|eapply each_grows; eassumption]. }
    constructor; [assumption|]. apply IH; assumption.
Qed.

Section Count.
Variables (t : tip) (inn lef : list (list N)) (F : list N -> N).
Hypothesis R : Rep t inn lef F.
Hypothesis small : (length lef <= 1021)%nat.
Variables (st : cstate) (V : list visit).
Hypothesis C : cinv t st V.
Hypothesis X0 : ext (st0 t) st.
Hypothesis HX : forall x, x < 64 -> linked t st (levels x) (aget_raw (c_indices st) x) (rawI t x).

Definition I := c_indices st.
Definition P := c_props st.

(* in the final state, block s of the raw tree has number n *)
Definition num (kd k : nat) (s n : N) : Prop := build t kd k s st = Ret (n, st).

Lemma num_fun kd k s n m : num kd k s n -> num kd k s m -> n = m.
Proof. unfold num. intros H K. congruence. Qed.

Lemma num_leaf kd s n : reach t kd 0 s -> num kd 0 s n -> map_get (get_map (pmap kd 0) st) (pblock t s) = Some n.
Proof.
  intros HR H. unfold num, build in H. cbn [buildCompactedBlocks] in H.
  rewrite (read_leaf t inn lef F R small _ _ HR) in H. cbn [bind] in H.
  rewrite prop_key_ok in H by apply pblock_length. cbn [bind] in H.
  match type of H with Ret (place ?k ?w ?f ?a ?s0) = _ => destruct (place_grows k w f a s0 n st) as [[_ G]|G] end.
  - intros st2. apply append_props_size, pblock_length.
  - congruence.
  - exact G.
  - lia.
Qed.

Lemma leaf_num kd s n : reach t kd 0 s -> map_get (get_map (pmap kd 0) st) (pblock t s) = Some n -> num kd 0 s n.
Proof.
  intros HR H. unfold num, build. cbn [buildCompactedBlocks].
  rewrite (read_leaf t inn lef F R small _ _ HR). cbn [bind].
  rewrite prop_key_ok by apply pblock_length. cbn [bind]. unfold place. rewrite H. reflexivity.
Qed.

Lemma num_index kd k s n : reach t kd (S k) s -> num kd (S k) s n ->
  exists ns, length ns = 64%nat /\ map_get (get_map (imap kd (S k)) st) (flat ns) = Some n /\
    (forall y, y < 64 -> num kd k (child t s y) (nth (N.to_nat y) ns 0)) /\ block I n = ns /\
    1 <= n /\ n * 64 + 64 <= alen I /\ Forall (fun v => v < 65536) ns.
Proof.
  intros HR H. unfold num, build in H. cbn [buildCompactedBlocks] in H.
  rewrite (read_inner t inn lef F R _ _ _ HR) in H. cbn [bind] in H.
  destruct (maps_swap lef small kd k (proj1 (reach_le t inn lef F R _ _ _ HR))) as [SW1 SW2].
  rewrite <- SW1, <- SW2 in H.
  destruct (each _ (iblock t s) st) as [[ns st1]|] eqn:E; [|discriminate]. cbn [bind] in H.
  destruct (indexBlockKey ns) as [key|] eqn:EK; [|discriminate]. cbn [bind] in H.
  destruct (index_key_len _ _ EK) as [L ->].
  assert (forall s st n st', buildCompactedBlocks t k (pmap kd k) (imap kd k) s st = Ret (n, st') -> grows st st') as HB
    by (intros; eapply build_grows; eassumption).
  pose proof (each_grows _ HB _ _ _ _ E) as G1.
  assert (st1 = st /\ map_get (get_map (pmap kd k) st1) (flat ns) = Some n) as [-> HM].
  { match type of H with Ret (place ?k ?w ?f ?a ?s0) = _ => destruct (place_grows k w f a s0 n st) as [[G M]|G] end.
    - intros st2. apply append_indices_size; assumption.
    - congruence.
    - split; [congruence|exact M].
    - destruct G1 as [->|G1]; lia. }
  rewrite SW1 in HM. exists ns. split; [assumption|]. split; [exact HM|].
  pose proof (flat_length ns) as FL. rewrite L in FL.
  assert (forall y, y < 64 -> num kd k (child t s y) (nth (N.to_nat y) ns 0)) as HC.
  { intros y Hy. pose proof (each_same _ HB _ _ _ E) as F2.
    rewrite <- (iblock_nth t s y 0) by assumption.
    assert (forall l l' i, Forall2 (fun s n => buildCompactedBlocks t k (pmap kd k) (imap kd k) s st = Ret (n, st)) l l' -> (i < length l)%nat ->
      num kd k (nth i l 0) (nth i l' 0)) as HG.
    { clear. intros l l' i H. revert i. induction H as [|c n l l' H HF IH]; intros i Hi; [simpl in Hi; lia|].
      destruct i; cbn [nth]; [exact H|]. apply IH. simpl in Hi. lia. }
    apply HG; [assumption|]. rewrite iblock_length. lia. }
  split; [exact HC|].
  destruct (ci_ik _ _ _ C _ _ _ HM FL) as (blk & K1 & K2 & K3 & K4 & K5 & K6).
  assert (Forall (fun v => v < 65536) ns) as HS.
  { apply Forall_nth. intros i d Hi. rewrite nth_indep with (d' := 0) by assumption.
    specialize (HC (N.of_nat i) ltac:(lia)). rewrite Nat2N.id in HC.
    set (v := nth i ns 0) in *. clearbody v.
    pose proof (reach_child t kd k s (N.of_nat i) HR ltac:(lia)) as HRc.
    destruct (build_spec t inn lef F R small k kd _ st V C HRc) as (m & st' & V' & B1 & _ & _ & _ & _ & B6).
    assert (v = m) as -> by (unfold num in HC; congruence). eapply resok_small; exact B6. }
  apply flat_inj in K1; [|assumption|assumption]. subst blk.
  split; [exact K6|]. split; [assumption|]. split; [assumption|assumption].
Qed.

(* every block has a number, and the numbers are the entries of the index *)
Lemma num_root x : x < 64 -> num (levels x) (levels x) (rawI t x) (aget_raw I x).
Proof. intros Hx. destruct (HX x Hx) as [H _]. apply (H st). apply (ext_refl lef small). Qed.

Lemma num_child kd k s n y : reach t kd (S k) s -> num kd (S k) s n -> y < 64 ->
  num kd k (child t s y) (aget_raw I (n * 64 + y)) /\ n * 64 + 64 <= alen I.
Proof.
  intros HR H Hy. destruct (num_index _ _ _ _ HR H) as (ns & _ & _ & HC & HB & _ & HL & _).
  split; [|assumption]. rewrite <- (block_nth I n y 0) by assumption. rewrite HB. apply HC; assumption.
Qed.

Lemma num_exists kd k s : reach t kd k s -> exists i, i < alen I /\ num kd k s (aget_raw I i).
Proof.
  induction 1 as [x Hx|kd k s y H (i & Hi & HN) Hy].
  - exists x. split; [pose proof (ci_il _ _ _ C); unfold I; lia|apply num_root; assumption].
  - destruct (num_child _ _ _ _ y H HN Hy) as [K L]. exists (aget_raw I i * 64 + y). split; [lia|assumption].
Qed.

(* and every number is that of a block *)
Lemma prop_number n : 2 <= n -> n * 64 + 64 <= alen P -> exists kd s, reach t kd 0 s /\ num kd 0 s n.
Proof.
  intros H2 HL. destruct (ci_sp _ _ _ C n H2 HL) as (kd & s & HR & HS). exists kd, s. split; [assumption|].
  apply (HS st), (ext_refl lef small).
Qed.
Lemma index_number n : 1 <= n -> n * 64 + 64 <= alen I -> exists kd k s, reach t kd (S k) s /\ num kd (S k) s n.
Proof.
  intros H2 HL. destruct (ci_si _ _ _ C n H2 HL) as (kd & k & s & HR & HS). exists kd, k, s. split; [assumption|].
  apply (HS st), (ext_refl lef small).
Qed.

(* numbers and contents, property blocks *)
Lemma leaf_content kd s n : reach t kd 0 s -> num kd 0 s n -> n * 64 + 64 <= alen P /\ pblock t s = block P n.
Proof.
  intros HR H. apply num_leaf in H; [|assumption].
  destruct (ci_pk _ _ _ C _ _ _ H (pblock_length t s)) as (_ & K2 & K3 & _). split; assumption.
Qed.

Lemma leaf_same kd kd' s s' n n' : reach t kd 0 s -> reach t kd' 0 s' -> num kd 0 s n -> num kd' 0 s' n' ->
  pmap kd 0 = pmap kd' 0 -> (n = n' <-> pblock t s = pblock t s').
Proof.
  intros HR HR' H H' EM. split.
  - intros <-. rewrite (proj2 (leaf_content _ _ _ HR H)), (proj2 (leaf_content _ _ _ HR' H')). reflexivity.
  - intros E. apply num_leaf in H; [|assumption]. apply num_leaf in H'; [|assumption]. rewrite EM, E in H. congruence.
Qed.

Lemma leaf_apart kd kd' s s' n : reach t kd 0 s -> reach t kd' 0 s' -> num kd 0 s n -> num kd' 0 s' n ->
  pmap kd 0 = pmap kd' 0.
Proof.
  intros HR HR' H H'. apply num_leaf in H; [|assumption]. apply num_leaf in H'; [|assumption].
  destruct (pmap kd 0), (pmap kd' 0); try reflexivity; exfalso.
  - eapply (ci_dp _ _ _ C); [exact H|exact H'| |]; apply pblock_length.
  - eapply (ci_dp _ _ _ C); [exact H'|exact H| |]; apply pblock_length.
Qed.

Lemma ascii_block n : n < 2 -> block P n = block (rawProps t) n.
Proof.
  intros H. rewrite <- (st0_block t lef small) by assumption. apply (block_ext lef small). intros x Hx.
  apply (e_p _ _ X0). rewrite st0_len. lia.
Qed.

Lemma leaf_low kd s n : reach t kd 0 s -> num kd 0 s n ->
  (n < 2 <-> pmap kd 0 = PropMap /\ (pblock t s = a0 t \/ pblock t s = a1 t)).
Proof.
  intros HR H. pose proof (num_leaf _ _ _ HR H) as HM.
  assert (map_get (get_map PropMap (st0 t)) (a1 t) = Some 1) as H1.
  { cbn [st0 get_map c_propmap]. apply map_get_set_same. }
  assert (exists m, m < 2 /\ map_get (get_map PropMap (st0 t)) (a0 t) = Some m) as (m0 & Hm0 & H0).
  { destruct (list_eq_dec N.eq_dec (a0 t) (a1 t)) as [E|E].
    - exists 1. split; [lia|]. rewrite E. exact H1.
    - exists 0. split; [lia|]. cbn [st0 get_map c_propmap]. rewrite map_get_set_other by congruence. apply map_get_set_same. }
  apply (e_map _ _ X0) in H1. apply (e_map _ _ X0) in H0.
  split.
  - intros L. assert (pmap kd 0 = PropMap) as E.
    { destruct (pmap kd 0) eqn:E; [reflexivity|]. exfalso.
      destruct (ci_pk _ _ _ C _ _ _ HM (pblock_length t s)) as (_ & _ & _ & K).
      assert (n = 0 \/ n = 1) as [-> | ->] by lia; [destruct K as [K _]; destruct (K eq_refl); discriminate|].
      exact (ci_dp _ _ _ C _ _ _ H1 HM (a1_length t) (pblock_length t s)). }
    split; [assumption|]. rewrite (proj2 (leaf_content _ _ _ HR H)). rewrite ascii_block by assumption.
    assert (n = 0 \/ n = 1) as [-> | ->] by lia; [left|right]; reflexivity.
  - intros (E & [K|K]); rewrite E, K in HM.
    + assert (n = m0) by congruence. lia.
    + assert (n = 1) by congruence. lia.
Qed.

(* index blocks *)
Lemma index_same kd kd' k k' s s' n n' : reach t kd (S k) s -> reach t kd' (S k') s' ->
  num kd (S k) s n -> num kd' (S k') s' n' -> imap kd (S k) = imap kd' (S k') ->
  (n = n' <-> forall y, y < 64 -> forall m m', num kd k (child t s y) m -> num kd' k' (child t s' y) m' -> m = m').
Proof.
  intros HR HR' H H' EM.
  destruct (num_index _ _ _ _ HR H) as (ns & L & HM & HC & HB & _ & _ & _).
  destruct (num_index _ _ _ _ HR' H') as (ns' & L' & HM' & HC' & HB' & _ & _ & _). split.
  - intros <- y Hy m m' K K'. assert (ns = ns') as EN by congruence.
    rewrite (num_fun _ _ _ _ _ K (HC y Hy)), (num_fun _ _ _ _ _ K' (HC' y Hy)), EN. reflexivity.
  - intros K. assert (ns = ns') as ->.
    { apply list64_ext; [assumption|assumption|]. intros x Hx. eapply K; [exact Hx|apply HC; assumption|apply HC'; assumption]. }
    rewrite EM in HM. congruence.
Qed.

Lemma index_apart kd kd' k k' s s' n : reach t kd (S k) s -> reach t kd' (S k') s' ->
  num kd (S k) s n -> num kd' (S k') s' n -> imap kd (S k) = imap kd' (S k').
Proof.
  intros HR HR' H H'.
  destruct (num_index _ _ _ _ HR H) as (ns & L & HM & _).
  destruct (num_index _ _ _ _ HR' H') as (ns' & L' & HM' & _).
  pose proof (flat_length ns) as FL. pose proof (flat_length ns') as FL'. rewrite L in FL. rewrite L' in FL'.
  destruct (imap kd (S k)), (imap kd' (S k')); try reflexivity; exfalso.
  - exact (ci_di _ _ _ C _ _ _ HM HM' FL FL').
  - exact (ci_di _ _ _ C _ _ _ HM' HM FL' FL).
Qed.

(* ---- the blocks and their numbers *)

Variable ops : list op.
Hypothesis HM : means F ops.

Notation ix := (aget_raw (c_indices st)).
Notation nP := (N.to_nat (alen (c_props st) / 64)).
Notation nI := (N.to_nat (alen (c_indices st) / 64)).

Lemma lev0 x : x < 32 -> levels x = 0%nat.
Proof. intros H. unfold levels. destruct (N.ltb_spec x 32); [reflexivity|lia]. Qed.
Lemma lev1 x : 32 <= x < 48 -> levels x = 1%nat.
Proof. intros H. unfold levels. destruct (N.ltb_spec x 32); [lia|]. destruct (N.ltb_spec x 48); [reflexivity|lia]. Qed.
Lemma lev2 x : 48 <= x -> levels x = 2%nat.
Proof. intros H. unfold levels. destruct (N.ltb_spec x 32); [lia|]. destruct (N.ltb_spec x 48); [lia|reflexivity]. Qed.

Definition s2 (b : N) := rawI t b.
Definition m3 (b : N) := rawI t (32 + b).
Definition s3 (b : N) := child t (m3 (b / 64)) (b mod 64).
Definition t4 (b : N) := rawI t (48 + b).
Definition m4 (b : N) := child t (t4 (b / 64)) (b mod 64).
Definition s4 (b : N) := child t (m4 (b / 64)) (b mod 64).

Definition n2 (b : N) := ix b.
Definition k3 (b : N) := ix (32 + b).
Definition n3 (b : N) := ix (k3 (b / 64) * 64 + b mod 64).
Definition j4 (b : N) := ix (48 + b).
Definition k4 (b : N) := ix (j4 (b / 64) * 64 + b mod 64).
Definition n4 (b : N) := ix (k4 (b / 64) * 64 + b mod 64).

Lemma reach_s2 b : b < 32 -> reach t 0 0 (s2 b).
Proof. intros H. rewrite <- (lev0 b H). apply reach_root. lia. Qed.
Lemma reach_m3 b : b < 16 -> reach t 1 1 (m3 b).
Proof. intros H. rewrite <- (lev1 (32 + b)) by lia. apply reach_root. lia. Qed.
Lemma reach_s3 b : b < 1024 -> reach t 1 0 (s3 b).
Proof. intros H. apply reach_child; [apply reach_m3; lia|lia]. Qed.
Lemma reach_t4 b : b < 16 -> reach t 2 2 (t4 b).
Proof. intros H. rewrite <- (lev2 (48 + b)) by lia. apply reach_root. lia. Qed.
Lemma reach_m4 b : b < 1024 -> reach t 2 1 (m4 b).
Proof. intros H. apply reach_child; [apply reach_t4; lia|lia]. Qed.
Lemma reach_s4 b : b < 65536 -> reach t 2 0 (s4 b).
Proof. intros H. apply reach_child; [apply reach_m4; lia|lia]. Qed.

Lemma num_n2 b : b < 32 -> num 0 0 (s2 b) (n2 b).
Proof. intros H. pose proof (num_root b ltac:(lia)) as K. rewrite (lev0 b H) in K. exact K. Qed.
Lemma num_k3 b : b < 16 -> num 1 1 (m3 b) (k3 b).
Proof. intros H. pose proof (num_root (32 + b) ltac:(lia)) as K. rewrite lev1 in K by lia. exact K. Qed.
Lemma num_j4 b : b < 16 -> num 2 2 (t4 b) (j4 b).
Proof. intros H. pose proof (num_root (48 + b) ltac:(lia)) as K. rewrite lev2 in K by lia. exact K. Qed.
Lemma num_n3 b : b < 1024 -> num 1 0 (s3 b) (n3 b).
Proof.
  intros H. apply (num_child _ _ _ _ (b mod 64) (reach_m3 (b / 64) ltac:(lia)) (num_k3 (b / 64) ltac:(lia))). lia.
Qed.
Lemma num_k4 b : b < 1024 -> num 2 1 (m4 b) (k4 b).
Proof.
  intros H. apply (num_child _ _ _ _ (b mod 64) (reach_t4 (b / 64) ltac:(lia)) (num_j4 (b / 64) ltac:(lia))). lia.
Qed.
Lemma num_n4 b : b < 65536 -> num 2 0 (s4 b) (n4 b).
Proof.
  intros H. apply (num_child _ _ _ _ (b mod 64) (reach_m4 (b / 64) ltac:(lia)) (num_k4 (b / 64) ltac:(lia))). lia.
Qed.

(* there are no other blocks *)
Lemma reach_inv kd k s : reach t kd k s ->
  (exists x, x < 64 /\ kd = levels x /\ k = levels x /\ s = rawI t x) \/
  (exists s' y, reach t kd (S k) s' /\ y < 64 /\ s = child t s' y).
Proof. intros H. destruct H as [x Hx|kd k s y H Hy]; [left; exists x; auto|right; exists s, y; auto]. Qed.

Lemma levels_cases x : x < 64 ->
  (x < 32 /\ levels x = 0%nat) \/ (32 <= x < 48 /\ levels x = 1%nat) \/ (48 <= x /\ levels x = 2%nat).
Proof.
  intros H. destruct (N.ltb_spec x 32) as [L|L]; [left; split; [assumption|apply lev0; assumption]|].
  destruct (N.ltb_spec x 48) as [L2|L2]; [right; left; split; [lia|apply lev1; lia]|].
  right; right. split; [assumption|apply lev2; assumption].
Qed.

Lemma reach_top_cases kd s : reach t kd 2 s -> kd = 2%nat /\ exists b, b < 16 /\ s = t4 b.
Proof.
  intros H. destruct (reach_inv _ _ _ H) as [(x & Hx & E1 & E2 & ->)|(s' & y & H' & _)].
  - destruct (levels_cases x Hx) as [[L E]|[[L E]|[L E]]]; try congruence.
    split; [congruence|]. exists (x - 48). split; [lia|]. unfold t4. f_equal. lia.
  - apply (reach_le t inn lef F R) in H'. lia.
Qed.

Lemma reach_mid_cases kd s : reach t kd 1 s ->
  (kd = 1%nat /\ exists b, b < 16 /\ s = m3 b) \/ (kd = 2%nat /\ exists b, b < 1024 /\ s = m4 b).
Proof.
  intros H. destruct (reach_inv _ _ _ H) as [(x & Hx & E1 & E2 & ->)|(s' & y & H' & Hy & ->)].
  - destruct (levels_cases x Hx) as [[L E]|[[L E]|[L E]]]; try congruence.
    left. split; [congruence|]. exists (x - 32). split; [lia|]. unfold m3. f_equal. lia.
  - apply reach_top_cases in H'. destruct H' as (-> & b & Hb & ->). right. split; [reflexivity|].
    exists (b * 64 + y). split; [lia|]. unfold m4. f_equal; [f_equal|]; lia.
Qed.

Lemma reach_leaf_cases kd s : reach t kd 0 s ->
  (kd = 0%nat /\ exists b, b < 32 /\ s = s2 b) \/ (kd = 1%nat /\ exists b, b < 1024 /\ s = s3 b) \/
  (kd = 2%nat /\ exists b, b < 65536 /\ s = s4 b).
Proof.
  intros H. destruct (reach_inv _ _ _ H) as [(x & Hx & E1 & E2 & ->)|(s' & y & H' & Hy & ->)].
  - destruct (levels_cases x Hx) as [[L E]|[[L E]|[L E]]]; try congruence.
    left. split; [congruence|]. exists x. auto.
  - right. apply reach_mid_cases in H'. destruct H' as [(-> & b & Hb & ->)|(-> & b & Hb & ->)].
    + left. split; [reflexivity|]. exists (b * 64 + y). split; [lia|]. unfold s3. f_equal; [f_equal|]; lia.
    + right. split; [reflexivity|]. exists (b * 64 + y). split; [lia|]. unfold s4. f_equal; [f_equal|]; lia.
Qed.

Lemma reach_index_cases kd k s : reach t kd (S k) s ->
  (kd = 1%nat /\ k = 0%nat /\ exists b, b < 16 /\ s = m3 b) \/ (kd = 2%nat /\ k = 0%nat /\ exists b, b < 1024 /\ s = m4 b) \/
  (kd = 2%nat /\ k = 1%nat /\ exists b, b < 16 /\ s = t4 b).
Proof.
  intros H. pose proof (reach_le t inn lef F R _ _ _ H) as L. destruct k as [|[|k]]; [| |lia].
  - apply reach_mid_cases in H. destruct H as [(-> & H)|(-> & H)]; auto.
  - apply reach_top_cases in H. destruct H as (-> & H). auto.
Qed.

(* what is in them *)
Lemma pblock_pattern s f b : (forall x, x < 64 -> content t s x = f (b * 64 + x)) -> pblock t s = pattern f 64 b.
Proof.
  intros H. unfold pblock, pattern. apply map_ext_in. intros j Hj. apply in_seq in Hj. apply H. lia.
Qed.

Lemma content_s2 b : b < 32 -> pblock t (s2 b) = pattern (two ops) 64 b.
Proof.
  intros H. apply pblock_pattern. intros z Hz.
  pose proof (walk_root t inn lef F R b [z]) as K. rewrite lev0 in K by assumption. cbn [walk_src] in K.
  unfold s2. rewrite K; [|lia|reflexivity|repeat constructor; assumption]. apply F_two; assumption.
Qed.
Lemma content_s3 b : b < 1024 -> pblock t (s3 b) = pattern (three ops) 64 b.
Proof.
  intros H. apply pblock_pattern. intros z Hz.
  pose proof (walk_root t inn lef F R (32 + b / 64) [b mod 64; z]) as K. rewrite lev1 in K by lia. cbn [walk_src] in K.
  unfold s3, m3. rewrite K; [|lia|reflexivity|repeat constructor; [lia|assumption]].
  rewrite (F_three' F ops) by (assumption || lia). f_equal. lia.
Qed.
Lemma content_s4 b : b < 65536 -> pblock t (s4 b) = pattern (four ops) 64 b.
Proof.
  intros H. apply pblock_pattern. intros z Hz.
  pose proof (walk_root t inn lef F R (48 + b / 64 / 64) [b / 64 mod 64; b mod 64; z]) as K. rewrite lev2 in K by lia. cbn [walk_src] in K.
  unfold s4, m4, t4. rewrite K; [|lia|reflexivity|repeat constructor; lia].
  rewrite (F_four F ops) by (assumption || lia). f_equal. lia.
Qed.

Lemma content_a0 : a0 t = pattern (value ops) 64 0 /\ a1 t = pattern (value ops) 64 1.
Proof.
  assert (forall x, x < 128 -> aget_raw (rawProps t) x = value ops x) as HA.
  { intros x Hx. rewrite (r_ascii _ _ _ _ R) by assumption.
    destruct HM as [HM1 _]. rewrite <- HM1 by (left; lia).
    rewrite cpath_form by (left; lia). destruct (N.ltb_spec x 128); [reflexivity|lia]. }
  unfold a0, a1, block, pattern. split; apply map_ext_in; intros j Hj; apply in_seq in Hj; apply HA; lia.
Qed.

(* same number, same content *)
Lemma leaf_iff kd s s' n n' f g b c : reach t kd 0 s -> reach t kd 0 s' -> num kd 0 s n -> num kd 0 s' n' ->
  pblock t s = pattern f 64 b -> pblock t s' = pattern g 64 c ->
  (n = n' <-> pattern f 64 b = pattern g 64 c).
Proof.
  intros H1 H2 N1 N2 <- <-. eapply leaf_same; eauto.
Qed.

Definition n24 (x : N + N) : N := match x with inl b => n2 b | inr b => n4 b end.
Definition p24 (x : N + N) : list N := match x with inl b => pattern (two ops) 64 b | inr b => pattern (four ops) 64 b end.
Definition l24 : list (N + N) := map inl (range 0 32) ++ map inr (range 0 (N.to_nat 65536)).

Lemma l24_in x : In x l24 -> match x with inl b => b < 32 | inr b => b < 65536 end.
Proof.
  unfold l24. rewrite in_app_iff, !in_map_iff. intros [(b & <- & H)|(b & <- & H)]; apply range_in in H; lia.
Qed.

Lemma n24_spec x : In x l24 -> exists kd s, (kd = 0%nat \/ kd = 2%nat) /\ reach t kd 0 s /\ num kd 0 s (n24 x) /\ pblock t s = p24 x.
Proof.
  intros H. apply l24_in in H. destruct x as [b|b]; cbn [n24 p24].
  - exists 0%nat, (s2 b). split; [auto|]. split; [apply reach_s2; assumption|]. split; [apply num_n2; assumption|apply content_s2; assumption].
  - exists 2%nat, (s4 b). split; [auto|]. split; [apply reach_s4; assumption|]. split; [apply num_n4; assumption|apply content_s4; assumption].
Qed.

Lemma pmap24 kd : kd = 0%nat \/ kd = 2%nat -> pmap kd 0 = IndexMap.
Proof. intros [-> | ->]; reflexivity. Qed.

Lemma count24 : length (nodup N.eq_dec (map n24 l24)) =
  distinct (patterns (two ops) 64 32 ++ patterns (four ops) 64 65536).
Proof.
  unfold distinct. replace (patterns (two ops) 64 32 ++ patterns (four ops) 64 65536) with (map p24 l24).
  2:{ unfold l24, patterns, range. rewrite map_app, !map_map. reflexivity. }
  apply same_count. intros x y Hx Hy. apply n24_spec in Hx. apply n24_spec in Hy.
  destruct Hx as (kd & s & E & HR & HN & <-). destruct Hy as (kd' & s' & E' & HR' & HN' & <-).
  apply (leaf_same kd kd'); try assumption. rewrite !pmap24 by assumption. reflexivity.
Qed.

Definition l3 : list N := filter (fun b => negb (like_ascii ops (pattern (three ops) 64 b))) (range 0 (N.to_nat 1024)).

Lemma like_ascii_spec p : like_ascii ops p = true <-> p = a0 t \/ p = a1 t.
Proof.
  destruct content_a0 as [-> ->]. unfold like_ascii.
  destruct (list_eq_dec N.eq_dec p (pattern (value ops) 64 0)); [tauto|].
  destruct (list_eq_dec N.eq_dec p (pattern (value ops) 64 1)); [tauto|].
  split; [discriminate|tauto].
Qed.

Lemma l3_in b : In b l3 <-> b < 1024 /\ 2 <= n3 b.
Proof.
  unfold l3. rewrite filter_In, range_in. split; intros [H K].
  - assert (b < 1024) as L by lia. split; [assumption|].
    pose proof (leaf_low 1 _ _ (reach_s3 b L) (num_n3 b L)) as Q.
    rewrite content_s3 in Q by assumption. rewrite <- like_ascii_spec in Q.
    destruct (like_ascii ops (pattern (three ops) 64 b)); [discriminate K|].
    destruct (N.ltb_spec (n3 b) 2) as [J|J]; [|assumption]. apply Q in J. destruct J as [_ J]. discriminate J.
  - split; [lia|].
    pose proof (leaf_low 1 _ _ (reach_s3 b H) (num_n3 b H)) as Q.
    rewrite content_s3 in Q by assumption. rewrite <- like_ascii_spec in Q.
    destruct (like_ascii ops (pattern (three ops) 64 b)); [|reflexivity].
    assert (n3 b < 2); [|lia]. apply Q. split; reflexivity.
Qed.

Lemma count3 : length (nodup N.eq_dec (map n3 l3)) =
  distinct (filter (fun p => negb (like_ascii ops p)) (patterns (three ops) 64 1024)).
Proof.
  unfold distinct. replace (patterns (three ops) 64 1024) with (map (pattern (three ops) 64) (range 0 (N.to_nat 1024))).
  2:{ unfold patterns, range. rewrite map_map. reflexivity. }
  rewrite filter_map_comm. unfold l3. apply same_count. intros a b Ha Hb.
  apply (proj1 (l3_in a)) in Ha. apply (proj1 (l3_in b)) in Hb.
  rewrite <- !content_s3 by tauto.
  apply (leaf_same 1 1); try reflexivity; try (apply reach_s3; tauto); apply num_n3; tauto.
Qed.

Theorem props_count : nP = property_blocks ops.
Proof.
  unfold property_blocks. rewrite <- count24, <- count3.
  pose proof (ci_pl _ _ _ C) as HP.
  set (r := range 2 (nP - 2)).
  assert (length r = (nP - 2)%nat) as LR by apply range_length.
  assert (length r <= length (nodup N.eq_dec (map n24 l24)) + length (nodup N.eq_dec (map n3 l3)))%nat as U.
  { apply length_le_cover; [apply range_nodup|]. intros n Hn. apply range_in in Hn.
    destruct (prop_number n) as (kd & s & HR & HN); [lia|unfold P; lia|].
    destruct (reach_leaf_cases _ _ HR) as [(-> & b & Hb & ->)|[(-> & b & Hb & ->)|(-> & b & Hb & ->)]].
    - left. apply in_map_iff. exists (inl b). split.
      + cbn [n24]. eapply num_fun; [apply num_n2; assumption|exact HN].
      + unfold l24. apply in_app_iff. left. apply in_map. apply range_in. lia.
    - right. assert (n3 b = n) as E by (eapply num_fun; [apply num_n3; assumption|exact HN]).
      apply in_map_iff. exists b. split; [exact E|]. apply l3_in. split; [assumption|lia].
    - left. apply in_map_iff. exists (inr b). split.
      + cbn [n24]. eapply num_fun; [apply num_n4; assumption|exact HN].
      + unfold l24. apply in_app_iff. right. apply in_map. apply range_in. lia. }
  assert (length (nodup N.eq_dec (map n24 l24)) + length (nodup N.eq_dec (map n3 l3)) <= length r)%nat as L.
  { apply length_ge_cover.
    - intros n [H|H]; apply in_map_iff in H; destruct H as (x & <- & Hx); apply range_in.
      + destruct (n24_spec _ Hx) as (kd & s & E & HR & HN & _).
        pose proof (leaf_low _ _ _ HR HN) as Q. rewrite pmap24 in Q by assumption.
        destruct (leaf_content _ _ _ HR HN) as [K _]. unfold P in K.
        destruct (N.ltb_spec (n24 x) 2) as [J|J]; [apply Q in J; destruct J; discriminate|]. lia.
      + apply l3_in in Hx. destruct Hx as [Hb H2].
        destruct (leaf_content _ _ _ (reach_s3 x Hb) (num_n3 x Hb)) as [K _]. unfold P in K. lia.
    - intros n H1 H2. apply in_map_iff in H1. apply in_map_iff in H2.
      destruct H1 as (x & E1 & Hx). destruct H2 as (b & E2 & Hb). apply l3_in in Hb. destruct Hb as [Hb _].
      destruct (n24_spec _ Hx) as (kd & s & E & HR & HN & _).
      pose proof (num_n3 b Hb) as HN3. rewrite E2 in HN3. rewrite E1 in HN.
      pose proof (leaf_apart _ _ _ _ _ HR (reach_s3 b Hb) HN HN3) as Q.
      rewrite pmap24 in Q by assumption. discriminate Q. }
  lia.
Qed.

(* index blocks *)
Lemma same_k3 a b : a < 16 -> b < 16 -> (k3 a = k3 b <-> pattern (three ops) 4096 a = pattern (three ops) 4096 b).
Proof.
  intros Ha Hb. change 4096 with (64 * 64). rewrite pattern_split by lia.
  rewrite (index_same 1 1 0 0 _ _ _ _ (reach_m3 a Ha) (reach_m3 b Hb) (num_k3 a Ha) (num_k3 b Hb) eq_refl).
  assert (forall a y, a < 16 -> y < 64 -> child t (m3 a) y = s3 (a * 64 + y)) as E.
  { intros c y Hc Hy. unfold s3. f_equal; [f_equal|]; lia. }
  split.
  - intros H y Hy. rewrite <- !content_s3 by lia.
    apply (leaf_same 1 1 _ _ (n3 (a * 64 + y)) (n3 (b * 64 + y)));
      [apply reach_s3; lia|apply reach_s3; lia|apply num_n3; lia|apply num_n3; lia|reflexivity|].
    apply (H y Hy); rewrite E by assumption; apply num_n3; lia.
  - intros H y Hy m m' K K'. rewrite E in K, K' by assumption.
    rewrite (num_fun _ _ _ _ _ K (num_n3 (a * 64 + y) ltac:(lia))), (num_fun _ _ _ _ _ K' (num_n3 (b * 64 + y) ltac:(lia))).
    apply (leaf_same 1 1 _ _ _ _ (reach_s3 (a * 64 + y) ltac:(lia)) (reach_s3 (b * 64 + y) ltac:(lia)) (num_n3 (a * 64 + y) ltac:(lia)) (num_n3 (b * 64 + y) ltac:(lia)) eq_refl).
    rewrite !content_s3 by lia. apply H; assumption.
Qed.

Lemma same_k4 a b : a < 1024 -> b < 1024 -> (k4 a = k4 b <-> pattern (four ops) 4096 a = pattern (four ops) 4096 b).
Proof.
  intros Ha Hb. change 4096 with (64 * 64). rewrite pattern_split by lia.
  rewrite (index_same 2 2 0 0 _ _ _ _ (reach_m4 a Ha) (reach_m4 b Hb) (num_k4 a Ha) (num_k4 b Hb) eq_refl).
  assert (forall a y, a < 1024 -> y < 64 -> child t (m4 a) y = s4 (a * 64 + y)) as E.
  { intros c y Hc Hy. unfold s4. f_equal; [f_equal|]; lia. }
  split.
  - intros H y Hy. rewrite <- !content_s4 by lia.
    apply (leaf_same 2 2 _ _ (n4 (a * 64 + y)) (n4 (b * 64 + y)));
      [apply reach_s4; lia|apply reach_s4; lia|apply num_n4; lia|apply num_n4; lia|reflexivity|].
    apply (H y Hy); rewrite E by assumption; apply num_n4; lia.
  - intros H y Hy m m' K K'. rewrite E in K, K' by assumption.
    rewrite (num_fun _ _ _ _ _ K (num_n4 (a * 64 + y) ltac:(lia))), (num_fun _ _ _ _ _ K' (num_n4 (b * 64 + y) ltac:(lia))).
    apply (leaf_same 2 2 _ _ _ _ (reach_s4 (a * 64 + y) ltac:(lia)) (reach_s4 (b * 64 + y) ltac:(lia)) (num_n4 (a * 64 + y) ltac:(lia)) (num_n4 (b * 64 + y) ltac:(lia)) eq_refl).
    rewrite !content_s4 by lia. apply H; assumption.
Qed.

Lemma same_j4 a b : a < 16 -> b < 16 -> (j4 a = j4 b <-> pattern (four ops) 262144 a = pattern (four ops) 262144 b).
Proof.
  intros Ha Hb. change 262144 with (64 * 4096). rewrite pattern_split by lia.
  rewrite (index_same 2 2 1 1 _ _ _ _ (reach_t4 a Ha) (reach_t4 b Hb) (num_j4 a Ha) (num_j4 b Hb) eq_refl).
  assert (forall a y, a < 16 -> y < 64 -> child t (t4 a) y = m4 (a * 64 + y)) as E.
  { intros c y Hc Hy. unfold m4. f_equal; [f_equal|]; lia. }
  split.
  - intros H y Hy. apply same_k4; [lia|lia|]. apply (H y Hy); rewrite E by assumption; apply num_k4; lia.
  - intros H y Hy m m' K K'. rewrite E in K, K' by assumption.
    rewrite (num_fun _ _ _ _ _ K (num_k4 (a * 64 + y) ltac:(lia))), (num_fun _ _ _ _ _ K' (num_k4 (b * 64 + y) ltac:(lia))).
    apply same_k4; [lia|lia|]. apply H; assumption.
Qed.

Lemma count_range (f : N -> N) (g : N -> N) n m :
  (forall a b, a < m -> b < m -> (f a = f b <-> pattern g n a = pattern g n b)) ->
  length (nodup N.eq_dec (map f (range 0 (N.to_nat m)))) = distinct (patterns g n m).
Proof.
  intros H. unfold distinct. replace (patterns g n m) with (map (pattern g n) (range 0 (N.to_nat m))).
  2:{ unfold patterns, range. rewrite map_map. reflexivity. }
  apply same_count. intros a b Ha Hb. apply range_in in Ha. apply range_in in Hb. apply H; lia.
Qed.

Theorem indices_count : (index_blocks_min ops <= nI <= index_blocks_max ops)%nat.
Proof.
  unfold index_blocks_max, index_blocks_min.
  rewrite <- (count_range k3 _ _ 16 same_k3), <- (count_range k4 _ _ 1024 same_k4), <- (count_range j4 _ _ 16 same_j4).
  pose proof (ci_il _ _ _ C) as HI.
  set (r := range 1 (nI - 1)).
  assert (length r = (nI - 1)%nat) as LR by apply range_length.
  set (A := map k3 (range 0 (N.to_nat 16))). set (B := map k4 (range 0 (N.to_nat 1024))). set (T := map j4 (range 0 (N.to_nat 16))).
  assert (length r <= length (nodup N.eq_dec (A ++ B)) + length (nodup N.eq_dec T))%nat as U.
  { apply length_le_cover; [apply range_nodup|]. intros n Hn. apply range_in in Hn.
    destruct (index_number n) as (kd & k & s & HR & HN); [lia|unfold I; lia|].
    rewrite in_app_iff.
    destruct (reach_index_cases _ _ _ HR) as [(-> & -> & b & Hb & ->)|[(-> & -> & b & Hb & ->)|(-> & -> & b & Hb & ->)]].
    - left; left. apply in_map_iff. exists b. split; [eapply num_fun; [apply num_k3; assumption|exact HN]|]. apply range_in. lia.
    - left; right. apply in_map_iff. exists b. split; [eapply num_fun; [apply num_k4; assumption|exact HN]|]. apply range_in. lia.
    - right. apply in_map_iff. exists b. split; [eapply num_fun; [apply num_j4; assumption|exact HN]|]. apply range_in. lia. }
  assert (length (nodup N.eq_dec (A ++ B)) <= length (nodup N.eq_dec A) + length (nodup N.eq_dec B))%nat as U2.
  { apply length_le_cover; [apply NoDup_nodup|]. intros x. rewrite nodup_In. apply in_app_iff. }
  assert (length (nodup N.eq_dec A) + length (nodup N.eq_dec B) <= length r)%nat as L.
  { apply length_ge_cover.
    - intros n [H|H]; apply in_map_iff in H; destruct H as (b & <- & Hb); apply range_in in Hb; apply range_in.
      + destruct (num_index _ _ _ _ (reach_m3 b ltac:(lia)) (num_k3 b ltac:(lia)))
          as (_ & _ & _ & _ & _ & Q1 & Q2 & _). unfold I in Q2. lia.
      + destruct (num_index _ _ _ _ (reach_m4 b ltac:(lia)) (num_k4 b ltac:(lia)))
          as (_ & _ & _ & _ & _ & Q1 & Q2 & _). unfold I in Q2. lia.
    - intros n H1 H2. apply in_map_iff in H1. apply in_map_iff in H2.
      destruct H1 as (a & E1 & Ha). destruct H2 as (b & E2 & Hb). apply range_in in Ha. apply range_in in Hb.
      pose proof (num_k3 a ltac:(lia)) as N1. pose proof (num_k4 b ltac:(lia)) as N2. rewrite E1 in N1. rewrite E2 in N2.
      pose proof (index_apart _ _ _ _ _ _ _ (reach_m3 a ltac:(lia)) (reach_m4 b ltac:(lia)) N1 N2) as Q.
      discriminate Q. }
  lia.
Qed.

(* the entries of the index are these numbers *)
Theorem entries_small i : i < alen (c_indices st) -> (N.to_nat (ix i) < Nat.max nP nI)%nat.
Proof.
  pose proof (ci_il _ _ _ C) as HI.
  assert (forall kd k s n, reach t kd k s -> num kd k s n -> (N.to_nat n < Nat.max nP nI)%nat) as HB.
  { intros kd k s n HR HN. destruct k as [|k].
    - destruct (leaf_content _ _ _ HR HN) as [K _]. unfold P in K. lia.
    - destruct (num_index _ _ _ _ HR HN) as (_ & _ & _ & _ & _ & _ & Q2 & _). unfold I in Q2. lia. }
  intros Hi. destruct (N.ltb_spec i 64) as [L|L].
  - apply (HB _ _ _ _ (reach_root t i L) (num_root i L)).
  - destruct (index_number (i / 64)) as (kd & k & s & HR & HN); [lia|unfold I; lia|].
    destruct (num_child _ _ _ _ (i mod 64) HR HN ltac:(lia)) as [K _].
    replace (i / 64 * 64 + i mod 64) with i in K by lia.
    exact (HB _ _ _ _ (reach_child t _ _ _ (i mod 64) HR ltac:(lia)) K).
Qed.

Theorem entries_all n : (2 <= n < nP)%nat \/ (1 <= n < nI)%nat -> exists i, i < alen (c_indices st) /\ ix i = N.of_nat n.
Proof.
  assert (forall kd k s n, reach t kd k s -> num kd k s n -> exists i, i < alen (c_indices st) /\ ix i = n) as HB.
  { intros kd k s m HR HN. destruct (num_exists _ _ _ HR) as (i & Hi & K).
    exists i. split; [exact Hi|]. eapply num_fun; [exact K|exact HN]. }
  intros [H|H].
  - destruct (prop_number (N.of_nat n)) as (kd & s & HR & HN); [lia|unfold P; lia|]. eauto.
  - destruct (index_number (N.of_nat n)) as (kd & k & s & HR & HN); [lia|unfold I; lia|]. eauto.
Qed.

End Count.
