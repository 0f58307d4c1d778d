(* Property C61: the work of reading with a bufio.Scanner. *)
From Coq Require Import List NArith ZArith Arith Bool Lia ZifyBool ZifyNat ZifyN Strings.Byte.
From Verif Require Import Spec.Utf8 Spec.Segmentation Spec.Readers.
From Verif Require Import Model.Base Model.Scan Model.Drivers Model.Bufio Model.Work.
From Verif Require Import Proofs.ScanFacts Proofs.TextFacts Proofs.DriverFacts Proofs.BufioFacts Proofs.WorkFacts.
From Verif Require Import Properties.Bufio.
Import ListNotations.
Local Open Scope nat_scope.

(* The counting does not interfere: the runs are those of C23 to C26. *)
Theorem C61_counts : forall R (rd : reader R) r s toks r' s',
  scans ScanGraphemeClusters rd r s toks r' s' <-> exists lookups refills, scans_work rd r s toks r' s' lookups refills.
Proof.
  intros R rd r s toks r' s'. split.
  - induction 1 as [r s r' s' E|r s r1 s1 sl toks r' s' E _ (l' & f' & IH)]; pose proof (work_same rd r s) as K; rewrite E in K;
      destruct K as (l & f & K).
    + exists l, f. constructor. exact K.
    + exists (l + l'), (f + f'). econstructor; eassumption.
  - intros (l & f & W). induction W as [r s r' s' l f E|r s r1 s1 sl toks r' s' l f l' f' E W IH].
    + constructor. eapply work_erase. exact E.
    + econstructor; [eapply work_erase; exact E|exact IH].
Qed.

(* Any reader, any schedule: two lookups per byte, and for each refill as many as
   the longest token has bytes, plus three. *)
Theorem C61_work : forall R (rd : reader R) r s capacity toks r' s' lookups refills longest,
  fresh s capacity -> scans_work rd r s toks r' s' lookups refills -> Err s' <> Some ErrTooLong ->
  Forall (fun t => length t <= longest) toks ->
  lookups <= 2 * length (concat toks) + refills * (longest + 3) /\
  refills <= length (concat toks) + 1.
Proof.
  intros R rd r s cap toks r' s' l f m Hf W He Hm. destruct (fresh_facts s cap Hf) as (I & _ & _ & _ & _).
  destruct (run_bound rd r s toks r' s' l f W I) as (_ & K). destruct (K m Hm) as (A & _).
  assert (s_err s' <> Some ErrTooLong) as He' by (intros Q; apply He; unfold Err; rewrite Q; reflexivity).
  destruct (A He') as (A1 & A2). lia.
Qed.

(* Also when a token is too long, with the capacity for the length. *)
Theorem C61_capacity : forall R (rd : reader R) r s capacity toks r' s' lookups refills,
  fresh s capacity -> scans_work rd r s toks r' s' lookups refills ->
  lookups <= 2 * length (concat toks) + (refills + 1) * (capacity + 3).
Proof.
  intros R rd r s cap toks r' s' l f Hf W. destruct (fresh_facts s cap Hf) as (I & L & _ & _ & _).
  destruct (run_bound rd r s toks r' s' l f W I) as (S1 & K). destruct (K cap) as (_ & B); [|apply B; lia].
  rewrite <- L. apply (scans_fit ScanGraphemeClusters rd good r s toks r' s' I S1).
Qed.

(* A slow reader makes it quadratic: "e" with n combining accents has 2n + 1
   bytes; read one byte at a time it takes at least n*n lookups, while in one go
   it takes no more than 4n + 2 (C37). *)
Theorem C61_quadratic : forall n s capacity toks r' s' lookups refills,
  fresh s capacity -> 2 * n + 2 <= capacity ->
  scans_work one_byte_reader (x65 :: concat (repeat [xcc; x81] n)) s toks r' s' lookups refills -> n * n <= lookups.
Proof.
  intros n s cap toks r' s' l f Hf Hcap W. destruct (fresh_facts s cap Hf) as (I & L & Sm & E0 & D0).
  assert (concat (repeat [xcc; x81] n) = marks n []) as Em.
  { clear. induction n as [|n IH]; [reflexivity|]. cbn [repeat concat marks app]. rewrite IH. reflexivity. }
  rewrite Em in W.
  assert (exists r1 s1 o l1 f1, ScanWork one_byte_reader (x65 :: marks n []) s = Ret (r1, s1, o, l1, f1) /\ l1 <= l) as (r1 & s1 & o & l1 & f1 & E & Hl).
  { inversion W; subst; do 5 eexists; (split; [eassumption|lia]). }
  enough (n * n <= l1) by lia. clear W Hl. unfold ScanWork in E.
  assert (s_start s = s_end s) as Hse.
  { pose proof (data_length s I) as Q. rewrite D0 in Q. cbn [length] in Q. unfold inv in I. lia. }
  change (3 + Nat.max (length (s_buf s)) (s_max s)) with (S (2 + Nat.max (length (s_buf s)) (s_max s))) in E.
  rewrite work_none in E by assumption.
  destruct (more_one x65 (marks n []) s I E0 Sm) as (s2 & E2 & I2 & L2 & M2 & D2 & Er2).
  { rewrite D0. cbn [length]. lia. }
  rewrite E2 in E. cbn [bind] in E. rewrite D0 in D2.
  assert (sane_max s2) as Sm2 by (unfold sane_max in *; rewrite M2; exact Sm).
  pose proof (loop_slow n (2 * n + 1) _ s2 0 1 r1 s1 o l1 f1 1 ltac:(lia) ltac:(lia) I2 Er2 Sm2 ltac:(lia) D2 E) as K.
  pose proof (sum_from_eq (2 * n + 1) 1) as Q. nia.
Qed.

Lemma one_byte_delivers : forall input m, delivers one_byte_reader m input input EOF.
Proof.
  induction input as [|b input IH]; intros m; constructor; intros [|space] Hs; try lia.
  - apply (replies_last _ _ _ _ _ _ [] []); [reflexivity|cbn [length]; lia].
  - apply (replies_some _ _ _ _ [b] input _ input []); [reflexivity|discriminate|cbn [length]; lia|apply IH].
Qed.

(* So there is no linear bound (refuted), not even for readers that deliver the
   input without errors into buffers large enough. *)
Theorem C61_refuted : ~ exists a b, forall R (rd : reader R) r input s capacity toks r' s' lookups refills,
  delivers rd 100 r input EOF -> fresh s capacity -> length input + 4 <= capacity ->
  scans_work rd r s toks r' s' lookups refills ->
  lookups <= a * length input + b.
Proof.
  intros (a & b & H). set (n := 2 * a + a + b + 1). set (input := x65 :: concat (repeat [xcc; x81] n)).
  assert (length input = 2 * n + 1) as HL.
  { unfold input. clear. cbn [length]. induction n as [|n IH]; [reflexivity|]. cbn [repeat concat app length]. lia. }
  set (s := with_buffer (repeat x00 (2 * n + 6)) 0).
  assert (fresh s (2 * n + 6)) as Hf.
  { unfold s. replace (2 * n + 6) with (Nat.max (length (repeat x00 (2 * n + 6))) 0) at 2 by (rewrite repeat_length; lia).
    constructor. lia. }
  destruct (tokenises_total input) as (toks & Ht).
  destruct (C23_scanner _ one_byte_reader input input s (2 * n + 6) toks (one_byte_delivers input 100) Hf Ht) as ((r' & s' & Hs) & _).
  { lia. }
  { apply Forall_forall. intros t Hin. apply in_split in Hin. destruct Hin as (l1 & l2 & E).
    pose proof (tokenises_concat _ _ Ht) as C. rewrite E in C. apply (f_equal (@length byte)) in C.
    rewrite concat_app, app_length in C. cbn [concat] in C. rewrite app_length in C. lia. }
  apply C61_counts in Hs. destruct Hs as (l & f & W).
  pose proof (C61_quadratic n s (2 * n + 6) toks r' s' l f Hf ltac:(lia) W) as Q.
  pose proof (H _ one_byte_reader input input s (2 * n + 6) toks r' s' l f (one_byte_delivers input 100) Hf ltac:(lia) W) as U.
  rewrite HL in U. nia.
Qed.

Lemma token_step {R} (rd : reader R) r s r1 s1 sl t toks r' s' l f l' f' :
  ScanWork rd r s = Ret (r1, s1, Some sl, l, f) -> bytes_of s1 sl = t -> scans_work rd r1 s1 toks r' s' l' f' ->
  scans_work rd r s (t :: toks) r' s' (l + l') (f + f').
Proof. intros E <- W. econstructor; eassumption. Qed.

(* "e" with an accent and "a", one byte at a time: 1 lookup with one byte, 2
   with two, 2 with three, 3 with four, then one more for the "a" that is left,
   and one at the end. *)
Example C61_example : exists r' s',
  scans_work one_byte_reader [x65; xcc; x81; x61] (with_buffer [] 64) [[x65; xcc; x81]; [x61]] r' s' 10 5.
Proof.
  do 2 eexists. change 10 with (8 + (2 + 0)). change 5 with (4 + (1 + 0)).
  eapply token_step; [vm_compute; reflexivity|vm_compute; reflexivity|].
  eapply token_step; [vm_compute; reflexivity|vm_compute; reflexivity|].
  apply work_stop. vm_compute. reflexivity.
Qed.

Definition all_theorems := (C61_counts, C61_work, C61_capacity, C61_quadratic, C61_refuted, C61_example).
Print Assumptions all_theorems.
