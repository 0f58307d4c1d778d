(* Property C71: Go's int is a machine word. *)
From Coq Require Import List NArith ZArith Arith Bool Lia Strings.Byte.
From Coq Require Import ZifyBool ZifyNat ZifyN.
From Verif Require Import Spec.Utf8 Spec.Segmentation.
From Verif Require Import Model.Base Model.CharProps Model.Machine Model.Lookup Model.Scan Model.WordInt Data.TableRaw.
From Verif Require Import Proofs.Basics Proofs.LookupFacts Proofs.ScanFacts.
From Verif Require Import Properties.Splitting.
Import ListNotations.

Local Opaque committed.

(* Words of at least 15 bits (Go: 32 or 64) and tables of bytes. *)
Definition bytes_in (a : arr) : Prop := forall i v, aget a i = Ret v -> (v < 256)%N.

Lemma committed_bytes : bytes_in (t_indices committed).
Proof.
  intros i v H. 
  assert (forallb (fun v => v <? 256)%N (concat lookupIndices_blocks) = true) as F by (vm_cast_no_check (eq_refl true)).
  change (t_indices committed) with (arr_of_list (concat lookupIndices_blocks)) in H.
  revert F H. generalize (concat lookupIndices_blocks). intros l F H. rewrite aget_of_list in H.
  rewrite forallb_forall in F.
  destruct (nth_error l (N.to_nat i)) as [x|] eqn:E; [|discriminate].
  apply nth_error_In in E. apply F in E. injection H as <-. lia.
Qed.

(* A number that a word can hold is unchanged. *)
Lemma wrap_id w z : (1 <= w)%Z -> (- 2 ^ (w - 1) <= z < 2 ^ (w - 1))%Z -> wrap w z = z.
Proof.
  intros Hw H. unfold wrap. rewrite Z.mod_small; [lia|].
  replace (2 ^ w)%Z with (2 * 2 ^ (w - 1))%Z; [lia|]. rewrite <- Z.pow_succ_r by lia. f_equal. lia.
Qed.

Lemma wide w : (15 <= w)%Z -> (16384 <= 2 ^ (w - 1))%Z.
Proof. intros H. change 16384%Z with (2 ^ 14)%Z. apply Z.pow_le_mono_r; lia. Qed.

Lemma low6_lt b : (low6 b < 64)%N.
Proof. unfold low6. change 0x3f%N with (N.ones 6). rewrite N.land_ones. apply N.mod_lt. discriminate. Qed.

Lemma entry_ok w v b : (15 <= w)%Z -> (v < 256)%N ->
  int_entry w (Z.of_N v) b = Z.of_N (N.shiftl v 6 + low6 b).
Proof.
  intros Hw Hv. pose proof (wide w Hw). pose proof (low6_lt b). unfold int_entry, int_add, int_shl6.
  rewrite (wrap_id w (Z.of_N v * 64)) by lia. rewrite wrap_id by lia.
  rewrite N.shiftl_mul_pow2. change (2 ^ 6)%N with 64%N. lia.
Qed.

Lemma aget_int a n : int_aget a (Z.of_N n) = aget a n.
Proof. unfold int_aget. destruct (Z.leb_spec 0 (Z.of_N n)); [|lia]. rewrite N2Z.id. reflexivity. Qed.

Lemma index_int {A} (p : list A) n : int_index p (Z.of_nat n) = index p n.
Proof.
  unfold int_index, int_len, index. rewrite Nat2Z.id.
  destruct (nth_error p n) as [x|] eqn:E.
  - assert (n < length p)%nat by (apply nth_error_Some; congruence).
    destruct (Z.leb_spec 0 (Z.of_nat n)); [|lia]. destruct (Z.ltb_spec (Z.of_nat n) (Z.of_nat (length p))); [reflexivity|lia].
  - destruct ((0 <=? Z.of_nat n)%Z && (Z.of_nat n <? Z.of_nat (length p))%Z); reflexivity.
Qed.

Lemma slice_to_int {A} (p : list A) n : (n <= length p)%nat -> int_slice_to p (Z.of_nat n) = slice_to p n.
Proof.
  intros H. rewrite slice_to_ok by assumption. unfold int_slice_to, int_len. rewrite Nat2Z.id.
  destruct (Z.leb_spec 0 (Z.of_nat n)); [|lia]. destruct (Z.leb_spec (Z.of_nat n) (Z.of_nat (length p))); [reflexivity|lia].
Qed.

Lemma slice_from_int {A} (p : list A) n : int_slice_from p (Z.of_nat n) = slice_from p n.
Proof.
  unfold int_slice_from, int_len. rewrite Nat2Z.id. destruct (Nat.le_gt_cases n (length p)) as [H|H].
  - rewrite slice_from_ok by assumption. destruct (Z.leb_spec 0 (Z.of_nat n)); [|lia].
    destruct (Z.leb_spec (Z.of_nat n) (Z.of_nat (length p))); [reflexivity|lia].
  - rewrite slice_from_bad by assumption. destruct (Z.leb_spec (Z.of_nat n) (Z.of_nat (length p))); [lia|].
    rewrite andb_false_r. reflexivity.
Qed.

Lemma empty_int {A} (p : list A) : (int_len p =? 0)%Z = is_empty p.
Proof. destruct p; reflexivity. Qed.

Lemma bad_int w p : (15 <= w)%Z -> forall n i fuel, (n < fuel)%nat -> (i + n <= 4)%nat ->
  int_bad_continuation w fuel p (Z.of_nat i) (Z.of_nat (i + n)) = bad_continuation p i n.
Proof.
  intros Hw. pose proof (wide w Hw).
  induction n as [|n IH]; intros i fuel F L; (destruct fuel as [|fuel]; [lia|]); cbn [int_bad_continuation bad_continuation].
  - destruct (Z.ltb_spec (Z.of_nat i) (Z.of_nat (i + 0))); [lia|reflexivity].
  - destruct (Z.ltb_spec (Z.of_nat i) (Z.of_nat (i + S n))); [|lia]. rewrite index_int.
    destruct (index p i) as [b|e]; [|reflexivity]. cbn [bind].
    destruct (N.land (bval b) 192 =? 128)%N; [|reflexivity].
    unfold int_add. rewrite wrap_id by lia. replace (Z.of_nat i + 1)%Z with (Z.of_nat (S i)) by lia.
    replace (i + S n)%nat with (S i + n)%nat by lia. apply IH; lia.
Qed.

Lemma walk_int w tb p n : (15 <= w)%Z -> bytes_in (t_indices tb) -> int_walk w tb p (Z.of_nat n) = walk tb p n.
Proof.
  intros Hw Hb. unfold int_walk, walk.
  change 0%Z with (Z.of_nat 0). rewrite index_int. destruct (index p 0) as [first|e]; [|reflexivity]. cbn [bind].
  change (1%Z) with (Z.of_nat 1). change (2%Z) with (Z.of_nat 2). change (3%Z) with (Z.of_nat 3). rewrite !index_int, !aget_int.
  assert (forall a b v, aget (t_indices tb) a = Ret v -> int_aget (t_props tb) (int_entry w (Z.of_N v) b) = aget (t_props tb) (N.shiftl v 6 + low6 b)) as EP
    by (intros a b v E; rewrite entry_ok, aget_int by eauto; reflexivity).
  assert (forall a b v, aget (t_indices tb) a = Ret v -> int_aget (t_indices tb) (int_entry w (Z.of_N v) b) = aget (t_indices tb) (N.shiftl v 6 + low6 b)) as EI
    by (intros a b v E; rewrite entry_ok, aget_int by eauto; reflexivity).
  destruct n as [|[|[|[|[|n]]]]]; cbn [Z.of_nat Z.eqb].
  - reflexivity.
  - reflexivity.
  - cbn. destruct (aget (t_indices tb) (low6 first)) eqn:E; [|reflexivity]. cbn [bind].
    destruct (index p 1); [|reflexivity]. cbn [bind]. rewrite (EP _ _ _ E). reflexivity.
  - cbn. destruct (aget (t_indices tb) (low6 first)) eqn:E; [|reflexivity]. cbn [bind].
    destruct (index p 1); [|reflexivity]. cbn [bind]. rewrite (EI _ _ _ E).
    destruct (aget (t_indices tb) (N.shiftl a 6 + low6 a0)) eqn:E1; [|reflexivity]. cbn [bind].
    destruct (index p 2); [|reflexivity]. cbn [bind]. rewrite (EP _ _ _ E1). reflexivity.
  - cbn. destruct (aget (t_indices tb) (low6 first)) eqn:E; [|reflexivity]. cbn [bind].
    destruct (index p 1); [|reflexivity]. cbn [bind]. rewrite (EI _ _ _ E).
    destruct (aget (t_indices tb) (N.shiftl a 6 + low6 a0)) eqn:E1; [|reflexivity]. cbn [bind].
    destruct (index p 2); [|reflexivity]. cbn [bind]. rewrite (EI _ _ _ E1).
    destruct (aget (t_indices tb) (N.shiftl a1 6 + low6 a2)) eqn:E2; [|reflexivity]. cbn [bind].
    destruct (index p 3); [|reflexivity]. cbn [bind]. rewrite (EP _ _ _ E2). reflexivity.
  - repeat match goal with |- (if (?a =? ?b)%positive then _ else _) = _ => destruct (Pos.eqb_spec a b); [exfalso; lia|] end. reflexivity.
Qed.

(* C71. One lookup: the answers of the unbounded model, for any tables of bytes. *)
Theorem C71_lookup : forall w tb p, (15 <= w)%Z -> bytes_in (t_indices tb) ->
  int_lookup_first_char w tb p = let! (props, n) := lookup_first_char tb p in Ret (props, Z.of_nat n).
Proof.
  intros w tb p Hw Hb. unfold int_lookup_first_char, lookup_first_char. rewrite empty_int.
  destruct p as [|first p]; [reflexivity|]. cbn [is_empty]. change 0%Z with (Z.of_nat 0) at 1. rewrite index_int.
  cbn [index nth_error bind].
  assert (forall n, (1 <= n <= 4)%nat ->
    (if (int_len (first :: p) <? Z.of_nat n)%Z then Ret (zeroProperties, 0%Z)
     else let! bad := int_bad_continuation w 5 (first :: p) 1 (Z.of_nat n) in
      if bad then Ret (Error, 1%Z)
      else let! props := int_walk w tb (first :: p) (Z.of_nat n) in Ret (props, Z.of_nat n)) =
    (let! (props, n) :=
       (if len_lt (first :: p) n then Ret (zeroProperties, 0%nat)
        else let! bad := bad_continuation (first :: p) 1 (n - 1) in
         if bad then Ret (Error, 1%nat)
         else let! props := walk tb (first :: p) n in Ret (props, n)) in Ret (props, Z.of_nat n))) as K.
  { intros n Hn. rewrite len_lt_spec. unfold int_len.
    destruct (Nat.ltb_spec (length (first :: p)) n) as [L|L];
      (destruct (Z.ltb_spec (Z.of_nat (length (first :: p))) (Z.of_nat n)); [try lia|try lia]); [reflexivity|].
    replace (Z.of_nat n) with (Z.of_nat (1 + (n - 1))) at 1 by lia. change 1%Z with (Z.of_nat 1) at 1.
    rewrite (bad_int w (first :: p) Hw) by lia.
    destruct (bad_continuation (first :: p) 1 (n - 1)) as [[|]|e]; [reflexivity| |reflexivity]. cbn [bind].
    rewrite walk_int by assumption. destruct (walk tb (first :: p) n); reflexivity. }
  unfold seq_length.
  destruct (bval first <? 128)%N; [apply (K 1%nat); lia|].
  destruct (N.land (bval first) 224 =? 192)%N; [apply (K 2%nat); lia|].
  destruct (N.land (bval first) 240 =? 224)%N; [apply (K 3%nat); lia|].
  destruct (N.land (bval first) 248 =? 240)%N; [apply (K 4%nat); lia|].
  reflexivity.
Qed.

Lemma lookup_int w p : (15 <= w)%Z ->
  int_LookupFirstChar w p = let! (props, n) := LookupFirstChar p in Ret (props, Z.of_nat n).
Proof. intros Hw. unfold int_LookupFirstChar, LookupFirstChar. exact (C71_lookup w committed p Hw committed_bytes). Qed.

(* The same results with the advance as a word. *)
Definition as_words (r : res scan_result) : res int_result :=
  let! (n, token, err) := r in Ret (Z.of_nat n, token, err).

Lemma to_int (data : list byte) n : (n <= length data)%nat ->
  (let! token := int_slice_to data (Z.of_nat n) in Ret (Z.of_nat n, Some token, @None goerror)) =
  as_words (let! token := slice_to data n in Ret (n, Some token, None)).
Proof. intros H. rewrite slice_to_int by assumption. destruct (slice_to data n); reflexivity. Qed.

Lemma zero_int n : (Z.of_nat n =? 0)%Z = (n =? 0)%nat.
Proof. destruct (Nat.eqb_spec n 0), (Z.eqb_spec (Z.of_nat n) 0); auto; lia. Qed.

Lemma loop_int w data atEOF : (15 <= w)%Z -> (Z.of_nat (length data) < 2 ^ (w - 1))%Z ->
  forall fuel remain count state prev, (count + length remain = length data)%nat ->
  int_scan_loop w fuel data atEOF remain (Z.of_nat count) state prev =
  as_words (scan_loop fuel data atEOF remain count state prev).
Proof.
  intros Hw Hl. induction fuel as [|fuel IH]; intros remain count state prev L; [reflexivity|].
  cbn [int_scan_loop scan_loop]. rewrite empty_int.
  destruct (is_empty remain); [destruct atEOF; [apply to_int; lia|reflexivity]|].
  rewrite lookup_int by assumption. destruct (LookupFirstChar remain) as [[next more]|e]; [|reflexivity]. cbn [bind].
  destruct (next =? Error)%N; [apply to_int; lia|]. rewrite zero_int.
  destruct (more =? 0)%nat; [destruct (negb false && atEOF); [apply to_int; lia|reflexivity]|].
  rewrite slice_from_int. destruct (Nat.le_gt_cases more (length remain)) as [H|H].
  - rewrite slice_from_ok by assumption. cbn [bind].
    destruct (Transition state prev next) as [[split st]|e]; [|reflexivity]. cbn [bind].
    destruct split; [apply to_int; lia|]. unfold int_add. rewrite wrap_id by lia. rewrite <- Nat2Z.inj_add. apply IH.
    rewrite skipn_length. lia.
  - rewrite slice_from_bad by assumption. reflexivity.
Qed.

(* C71. With ints of w >= 15 bits (Go has 32 or 64) and data that such an int can
   count, the split function does the same as with unbounded numbers. *)
Theorem C71_scan : forall w data atEOF, (15 <= w)%Z -> (Z.of_nat (length data) < 2 ^ (w - 1))%Z ->
  int_ScanGraphemeClusters w data atEOF =
  let! (n, token, err) := ScanGraphemeClusters data atEOF in Ret (Z.of_nat n, token, err).
Proof.
  intros w data atEOF Hw Hl. change (int_ScanGraphemeClusters w data atEOF = as_words (ScanGraphemeClusters data atEOF)).
  unfold int_ScanGraphemeClusters, ScanGraphemeClusters. rewrite empty_int.
  destruct data as [|b data]; [reflexivity|]. cbn [is_empty]. set (d := b :: data) in *.
  assert (1 <= length d)%nat by (subst d; cbn [length]; lia). rewrite lookup_int by assumption.
  destruct (LookupFirstChar d) as [[props count]|e]; [|reflexivity]. cbn [bind].
  destruct (props =? Error)%N; [apply (to_int d 1); assumption|]. rewrite zero_int.
  replace (Z.of_nat count <? int_len d)%Z with (count <? length d)%nat
    by (unfold int_len; destruct (Nat.ltb_spec count (length d)), (Z.ltb_spec (Z.of_nat count) (Z.of_nat (length d))); auto; lia).
  destruct (count =? 0)%nat;
    [destruct ((count <? length d)%nat && atEOF); [apply (to_int d 1); assumption|reflexivity]|].
  rewrite slice_from_int. destruct (Nat.le_gt_cases count (length d)) as [H'|H'].
  - rewrite slice_from_ok by assumption. cbn [bind]. destruct (Begin props); [|reflexivity]. cbn [bind].
    apply loop_int; [assumption..|]. rewrite skipn_length. lia.
  - rewrite slice_from_bad by assumption. reflexivity.
Qed.

(* So every call returns, with an advance between 0 and len(data), and the token is
   that much of the data. *)
Theorem C71_total : forall w data atEOF, (15 <= w)%Z -> (Z.of_nat (length data) < 2 ^ (w - 1))%Z ->
  exists n token, int_ScanGraphemeClusters w data atEOF = Ret (n, token, None) /\ (0 <= n <= Z.of_nat (length data))%Z /\
    (token = None /\ n = 0%Z \/ token = Some (firstn (Z.to_nat n) data) /\ (0 < n)%Z).
Proof.
  intros w data atEOF Hw Hl. destruct (C01_total data atEOF) as (n & token & S).
  destruct (C02_shape _ _ _ _ _ S) as (_ & K). exists (Z.of_nat n), token. rewrite C71_scan, S by assumption. split; [reflexivity|].
  destruct K as [[-> ->]|[B ->]]; [split; [lia|left; auto]|]. split; [lia|right]. rewrite Nat2Z.id. split; [reflexivity|lia].
Qed.

(* And the tokens of a text are the same. *)
Theorem C71_tokens : forall w data toks, (15 <= w)%Z -> (Z.of_nat (length data) < 2 ^ (w - 1))%Z ->
  int_tokenises w data toks <-> tokenises data toks.
Proof.
  intros w data toks Hw Hl. split; intros H.
  - revert Hl. induction H as [|data n token rest toks S R T IH]; intros Hl; [constructor|].
    rewrite C71_scan in S by assumption. destruct (ScanGraphemeClusters data true) as [[[n' t'] e']|e] eqn:E; [|discriminate S].
    cbn [bind] in S. assert (n = Z.of_nat n' /\ t' = Some token /\ e' = None) as (-> & -> & ->) by (repeat split; congruence).
    destruct (C02_shape _ _ _ _ _ E) as (_ & [[_ F]|[B _]]); [discriminate|].
    rewrite slice_from_int, slice_from_ok in R by lia. assert (rest = skipn n' data) as -> by congruence.
    apply (tokenises_step data n'); [assumption|]. apply IH. rewrite skipn_length. lia.
  - revert Hl. induction H as [|data n token toks S T IH]; intros Hl; [constructor|].
    destruct (C02_shape _ _ _ _ _ S) as (_ & [[_ F]|[B _]]); [discriminate|].
    apply (int_tokenises_step w data (Z.of_nat n) token (skipn n data)).
    + rewrite C71_scan, S by assumption. reflexivity.
    + rewrite slice_from_int. apply slice_from_ok. lia.
    + apply IH. rewrite skipn_length. lia.
Qed.

(* The bounds matter: with words of 8 bits indices would wrap around. *)
Theorem C71_needed : exists data, (Z.of_nat (length data) < 2 ^ (8 - 1))%Z /\
  int_ScanGraphemeClusters 8 data true <>
  let! (n, token, err) := ScanGraphemeClusters data true in Ret (Z.of_nat n, token, err).
Proof. exists [x65; xcc; x81]. split; [reflexivity|]. vm_compute. discriminate. Qed.

Example C71_example :
  int_ScanGraphemeClusters 32 [xf0; x9f; x91; xa9; xf0; x9f; x8f; xbb; xe2; x80; x8d; xf0; x9f; x92; xbb; x21] false
  = Ret (15%Z, Some [xf0; x9f; x91; xa9; xf0; x9f; x8f; xbb; xe2; x80; x8d; xf0; x9f; x92; xbb], None).
Proof. vm_compute. reflexivity. Qed.

Definition all_theorems := (C71_lookup, C71_scan, C71_total, C71_tokens, C71_needed).
Print Assumptions all_theorems.
