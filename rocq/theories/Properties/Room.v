(* Property C60: exactly which clusters a bufio.Scanner delivers, and what a
   caller is given who goes on after it has given up. *)
From Coq Require Import List NArith ZArith Arith Bool Lia ZifyBool ZifyNat ZifyN Strings.Byte.
From Verif Require Import Spec.Utf8 Spec.Readers Spec.Room.
From Verif Require Import Model.Base Model.CharProps Model.Lookup Model.Machine Model.Scan Model.Bufio.
From Verif Require Import Proofs.Basics Proofs.LookupFacts Proofs.ScanFacts Proofs.TextFacts
  Proofs.DriverFacts Proofs.BufioFacts Proofs.KeepFacts Proofs.RoomFacts.
From Verif Require Import Properties.Splitting Properties.Bufio.
Import ListNotations.

Local Opaque committed LookupFirstChar.

(* The cluster t, followed by [after], fits a buffer of the given capacity: there
   is room for the bytes demanded, or the buffer is not full at the end of the
   input. *)
Definition fits (capacity : nat) (t after : list byte) : Prop :=
  exists m, demand t after m /\ (m <= capacity \/ length (t ++ after) < capacity).
(* It does not: the buffer is full, and neither the end of the cluster nor the
   end of the input is in sight. *)
Definition stuck (capacity : nat) (t after : list byte) : Prop :=
  exists m, demand t after m /\ capacity < m /\ capacity < length (t ++ after).
(* What remains has exactly the size of the buffer. *)
Definition edge (capacity : nat) (t after : list byte) : Prop :=
  exists m, demand t after m /\ capacity < m /\ capacity = length (t ++ after).

(* All of the tokens, each with what follows it. *)
Inductive each_fits (capacity : nat) : list (list byte) -> list byte -> Prop :=
| each_none after : each_fits capacity [] after
| each_one t toks after : fits capacity t (concat toks ++ after) -> each_fits capacity toks after ->
    each_fits capacity (t :: toks) after.

(* One of the three applies. *)
Lemma fits_stuck_edge capacity t after : t <> [] -> fits capacity t after \/ stuck capacity t after \/ edge capacity t after.
Proof.
  intros H. destruct (demand_exists t after H) as [m Hm]. unfold fits, stuck, edge.
  destruct (Nat.leb_spec m capacity); [left; exists m; auto|].
  destruct (Nat.lt_trichotomy (length (t ++ after)) capacity) as [K|[K|K]].
  - left. exists m. auto.
  - right; right. exists m. auto.
  - right; left. exists m. auto.
Qed.

Lemma tokenises_inv t toks data : tokenises data (t :: toks) ->
  data = t ++ concat toks /\ ScanGraphemeClusters data true = Ret (length t, Some t, None) /\ tokenises (concat toks) toks.
Proof.
  intros H. pose proof (tokenises_concat _ _ H) as C. cbn [concat] in C.
  inversion H as [|d n t' ts E Hr]; subst. destruct (scan_flush _ _ _ E) as (Hn & _ & Et).
  assert (n = length t) as -> by (rewrite Et, firstn_length_le by exact Hn; reflexivity).
  split; [reflexivity|]. split; [exact E|]. rewrite (tokenises_concat _ _ Hr). exact Hr.
Qed.

Lemma not_both capacity t after d ext :
  ScanGraphemeClusters (t ++ after) true = Ret (length t, Some t, None) -> fits capacity t after ->
  d ++ ext = t ++ after -> ScanGraphemeClusters d false = Ret (0, None, None) -> length d = capacity -> False.
Proof.
  intros Hs (m & Hm & K) E Hd L.
  assert (length d + length ext = length (t ++ after)) as Q by (rewrite <- E, app_length; reflexivity).
  destruct K as [K|K]; [|lia].
  assert (m <= length d) as K' by lia. apply (demand_exact t after m d ext Hs Hm E) in K'. congruence.
Qed.

(* ---- the outcome of scanning, whatever the state *)

Lemma outcome {R} (rd : reader R) e capacity : forall toks r s input,
  inv s -> sane_max s -> limit s = capacity -> 1 <= capacity -> after_input rd r s e input -> tokenises input toks ->
  (exists r' s', scans ScanGraphemeClusters rd r s toks r' s' /\ s_err s' = Some e /\ (inv s' /\ sane_max s' /\ limit s' = capacity /\ data s' = []) /\
     forall pre t post, toks = pre ++ t :: post -> ~ stuck capacity t (concat post)) \/
  (s_err s = None /\ exists toks1 t toks2 r' s', toks = toks1 ++ t :: toks2 /\
     scans ScanGraphemeClusters rd r s toks1 r' s' /\ s_err s' = Some ErrTooLong /\
     inv s' /\ sane_max s' /\ limit s' = capacity /\ data s' = firstn capacity (t ++ concat toks2) /\
     ~ fits capacity t (concat toks2) /\
     forall pre u post, toks1 = pre ++ u :: post -> ~ stuck capacity u (concat (post ++ t :: toks2))).
Proof.
  induction toks as [|t toks IH]; intros r s input I M L L1 Hin Ht;
    destruct (Scan_input_full ScanGraphemeClusters rd r s e input Bufio.good I M Hin) as (r1 & s1 & [sl|] & E & I1 & LL & O).
  - exfalso. inversion Ht; subst. destruct O as (_ & n & K & _). discriminate K.
  - left. exists r1, s1. split; [constructor; exact E|]. inversion Ht; subst input.
    destruct O as [(_ & Er & D1)|(Er & d & ext & X & _ & Ld & _)].
    + split; [exact Er|]. split; [|intros pre t post K; destruct pre; discriminate K].
      destruct (Scan_any ScanGraphemeClusters rd r s Bufio.good I) as (ra & sa & oa & Ea & _ & _ & Ma & _).
      assert (sa = s1) as -> by congruence. split; [exact I1|]. split; [unfold sane_max in *; congruence|].
      split; [congruence|exact D1].
    + destruct d; [|discriminate X]. cbn [length] in Ld. lia.
  - destruct (tokenises_inv _ _ _ Ht) as (-> & Es & Ht').
    destruct O as (M1 & n & En & Ln & Hin1 & Hsee & Hkeep). rewrite Es in En.
    assert (n = length t) as -> by congruence. assert (bytes_of s1 sl = t) as Eb by congruence.
    rewrite skipn_app, skipn_all, Nat.sub_diag in Hin1. cbn [app skipn] in Hin1.
    assert (~ stuck capacity t (concat toks)) as Hns.
    { intros (m & Hm & K1 & K2). rewrite L in Hsee. destruct Hsee as [(d & ext & X & Ed & Ld)|K]; [|lia].
      rewrite Eb in Ed. apply (demand_exact t (concat toks) m d ext Es Hm X) in Ed. lia. }
    assert (t <> []) as Hne by (pose proof (tokenises_nonempty _ _ Ht) as K; inversion K; assumption).
    destruct (IH r1 s1 (concat toks) I1 M1 (eq_trans LL L) L1 Hin1 Ht')
      as [(r2 & s2 & Hs & Er & HF & Hall)|(E1 & toks1 & u & toks2 & r2 & s2 & -> & Hs & Er & I2 & M2 & L2 & D2 & Hnf & Hall)].
    + left. exists r2, s2. split; [rewrite <- Eb; econstructor; eauto|]. split; [exact Er|]. split; [exact HF|].
      intros pre u post K. destruct pre as [|p pre]; cbn [app] in K.
      * assert (u = t) as -> by congruence. assert (post = toks) as -> by congruence. exact Hns.
      * apply (Hall pre). congruence.
    + right. split.
      { destruct Hkeep as [K|K]; [exact K|congruence]. }
      exists (t :: toks1), u, toks2, r2, s2. split; [reflexivity|].
      split; [rewrite <- Eb; econstructor; eauto|]. repeat (split; [assumption|]).
      intros pre w post K. destruct pre as [|p pre]; cbn [app] in K.
      * assert (w = t) as -> by congruence. assert (post = toks1) as -> by congruence. exact Hns.
      * apply (Hall pre). congruence.
  - right. destruct (tokenises_inv _ _ _ Ht) as (-> & Es & Ht').
    assert (t <> []) as Hne by (pose proof (tokenises_nonempty _ _ Ht) as K; inversion K; assumption).
    destruct O as [(K & _)|(Er & d & ext & X & Hd & Ld & D & En & Ms)].
    { destruct t; [congruence|discriminate K]. }
    split; [exact En|]. exists [], t, toks, r1, s1. split; [reflexivity|]. split; [constructor; exact E|].
    repeat (split; [assumption|]). split; [congruence|]. split.
    { rewrite <- X, D. rewrite firstn_app. replace (capacity - length d) with 0 by lia.
      rewrite firstn_O, app_nil_r. symmetry. apply firstn_all2. lia. }
    split; [|intros pre u post K; destruct pre; discriminate K].
    intros K. eapply not_both; [exact Es|exact K|exact X|exact Hd|congruence].
Qed.

(* the data of a scanner that has given up, read to its end *)
Lemma flush {R} (rd : reader R) e capacity r s input toks :
  inv s -> sane_max s -> limit s = capacity -> 1 <= capacity -> s_err s = Some e -> data s = input -> tokenises input toks ->
  exists r' s', scans ScanGraphemeClusters rd r s toks r' s' /\ s_err s' = Some e /\
    inv s' /\ sane_max s' /\ limit s' = capacity /\ data s' = [].
Proof.
  intros I M L L1 Es D Ht.
  destruct (outcome rd e capacity toks r s input I M L L1) as [(r' & s' & Hs & Er & Hq & _)|(K & _)]; auto.
  - right. auto.
  - exists r', s'. auto 10.
  - congruence.
Qed.

Lemma each_fits_at capacity toks after : each_fits capacity toks after ->
  forall pre t post, toks = pre ++ t :: post -> fits capacity t (concat post ++ after).
Proof.
  induction 1 as [|u toks after Hf H IH]; intros pre t post K.
  - destruct pre; discriminate K.
  - destruct pre as [|p pre]; cbn [app] in K.
    + assert (t = u) as -> by congruence. assert (post = toks) as -> by congruence. exact Hf.
    + apply (IH pre). congruence.
Qed.

(* two ways to divide a list *)
Lemma divide {A} (pre : list A) : forall t post toks1 u toks2, pre ++ t :: post = toks1 ++ u :: toks2 ->
  (exists mid, pre = toks1 ++ u :: mid /\ toks2 = mid ++ t :: post) \/
  (pre = toks1 /\ t = u /\ post = toks2) \/
  (exists mid, toks1 = pre ++ t :: mid /\ post = mid ++ u :: toks2).
Proof.
  induction pre as [|p pre IH]; intros t post toks1 u toks2 K; destruct toks1 as [|q toks1]; cbn [app] in K.
  - right; left. split; [reflexivity|]. split; congruence.
  - right; right. exists toks1. cbn [app]. split; congruence.
  - left. exists pre. cbn [app]. split; congruence.
  - assert (p = q) by congruence. subst q. destruct (IH t post toks1 u toks2) as [(mid & -> & ->)|[(-> & -> & ->)|(mid & -> & ->)]];
      [congruence| | |].
    + left. exists mid. auto.
    + right; left. auto.
    + right; right. exists mid. auto.
Qed.

(* ---- the theorems *)

(* Every schedule: if all clusters fit, all are delivered, and then the error the
   reader ends with (nil for EOF). *)
Theorem C60_fits : forall R (rd : reader R) r input e s capacity toks,
  delivers rd 100 r input e -> fresh s capacity -> 1 <= capacity -> tokenises input toks -> each_fits capacity toks [] ->
  exists r' s', scans ScanGraphemeClusters rd r s toks r' s' /\ Err s' = (if goerror_eq_dec e EOF then None else Some e).
Proof.
  intros R rd r input e s cap toks Hd Hf L1 Ht Hall. destruct (fresh_facts s cap Hf) as (I & L & M & E & D).
  destruct (outcome rd e cap toks r s input I M L L1) as [(r' & s' & Hs & Er & _)|(_ & toks1 & t & toks2 & r' & s' & -> & _ & _ & _ & _ & _ & _ & K & _)]; auto.
  - left. split; [exact E|]. exists input. rewrite D. auto.
  - exists r', s'. split; [exact Hs|]. unfold Err. rewrite Er. destruct e; reflexivity.
  - exfalso. apply K. pose proof (each_fits_at _ _ _ Hall toks1 t toks2 eq_refl) as Q. rewrite app_nil_r in Q. exact Q.
Qed.

(* Every schedule: if a cluster is the first that does not fit, those before it
   are delivered and then the error is ErrTooLong.  A caller who nevertheless goes
   on is given the tokens of what the buffer holds, the first bytes of that
   cluster, as if the input ended there, and ErrTooLong again, and then nothing. *)
Theorem C60_stuck : forall R (rd : reader R) r input e s capacity pre t post part,
  delivers rd 100 r input e -> fresh s capacity -> 1 <= capacity -> tokenises input (pre ++ t :: post) ->
  each_fits capacity pre (t ++ concat post) -> stuck capacity t (concat post) ->
  tokenises (firstn capacity (t ++ concat post)) part ->
  exists r1 s1 r2 s2 r3 s3, scans ScanGraphemeClusters rd r s pre r1 s1 /\ Err s1 = Some ErrTooLong /\
    scans ScanGraphemeClusters rd r1 s1 part r2 s2 /\ Err s2 = Some ErrTooLong /\
    scans ScanGraphemeClusters rd r2 s2 [] r3 s3 /\ Err s3 = Some ErrTooLong.
Proof.
  intros R rd r input e s cap pre t post part Hd Hf L1 Ht Hall Hst Hp. destruct (fresh_facts s cap Hf) as (I & L & M & E & D).
  destruct (outcome rd e cap (pre ++ t :: post) r s input I M L L1) as [(r' & s' & Hs & Er & _ & K)|(_ & toks1 & u & toks2 & r' & s' & Et & Hs & Er & I' & M' & L' & D' & Hnf & K)].
  - left. split; [exact E|]. exists input. rewrite D. auto.
  - exact Ht.
  - exfalso. exact (K pre t post eq_refl Hst).
  - assert (toks1 = pre /\ u = t /\ toks2 = post) as (-> & -> & ->).
    { destruct (divide _ _ _ _ _ _ Et) as [(mid & -> & ->)|[(-> & -> & ->)|(mid & -> & ->)]]; [exfalso|auto|exfalso].
      - apply Hnf. pose proof (each_fits_at _ _ _ Hall toks1 u mid eq_refl) as Q.
        rewrite concat_app. cbn [concat]. exact Q.
      - apply (K pre t mid eq_refl). exact Hst. }
    destruct (flush rd ErrTooLong cap r' s' _ part I' M' L' L1 Er D' Hp) as (r2 & s2 & Hs2 & Er2 & I2 & M2 & L2 & D2).
    destruct (flush rd ErrTooLong cap r2 s2 [] [] I2 M2 L2 L1 Er2 D2 tokenises_done) as (r3 & s3 & Hs3 & Er3 & _).
    exists r', s', r2, s2, r3, s3. unfold Err. rewrite Er, Er2, Er3. auto 10.
Qed.

(* If what remains has exactly the size of the buffer, it depends on the reader:
   all tokens are delivered, or the last ones are not. *)
Theorem C60_edge : forall R (rd : reader R) r input e s capacity pre t post,
  delivers rd 100 r input e -> fresh s capacity -> 1 <= capacity -> tokenises input (pre ++ t :: post) ->
  each_fits capacity pre (t ++ concat post) -> edge capacity t (concat post) ->
  exists r' s',
    (scans ScanGraphemeClusters rd r s (pre ++ t :: post) r' s' /\ Err s' = (if goerror_eq_dec e EOF then None else Some e)) \/
    (scans ScanGraphemeClusters rd r s pre r' s' /\ Err s' = Some ErrTooLong).
Proof.
  intros R rd r input e s cap pre t post Hd Hf L1 Ht Hall Hst. destruct (fresh_facts s cap Hf) as (I & L & M & E & D).
  destruct (outcome rd e cap (pre ++ t :: post) r s input I M L L1) as [(r' & s' & Hs & Er & _ & K)|(_ & toks1 & u & toks2 & r' & s' & Et & Hs & Er & I' & M' & L' & D' & Hnf & K)].
  - left. split; [exact E|]. exists input. rewrite D. auto.
  - exact Ht.
  - exists r', s'. left. split; [exact Hs|]. unfold Err. rewrite Er. destruct e; reflexivity.
  - exists r', s'. right. unfold Err. rewrite Er. split; [|reflexivity].
    destruct (divide _ _ _ _ _ _ Et) as [(mid & -> & ->)|[(-> & -> & ->)|(mid & -> & ->)]]; [exfalso|auto|exfalso].
    + apply Hnf. pose proof (each_fits_at _ _ _ Hall toks1 u mid eq_refl) as Q.
      rewrite concat_app. cbn [concat]. exact Q.
    + destruct Hst as (m & _ & _ & K'). apply Hnf.
      assert (u <> []) as Hu.
      { pose proof (tokenises_nonempty _ _ Ht) as Q. rewrite Forall_forall in Q. apply Q.
        rewrite in_app_iff. right. right. rewrite in_app_iff. right; left; reflexivity. }
      assert (t <> []) as Hne.
      { pose proof (tokenises_nonempty _ _ Ht) as Q. rewrite Forall_forall in Q. apply Q.
        rewrite in_app_iff. right. left. reflexivity. }
      destruct (demand_exists u (concat toks2) Hu) as [m' Hm']. exists m'. split; [exact Hm'|]. right.
      rewrite K', concat_app, !app_length. cbn [concat]. rewrite !app_length.
      destruct t; [congruence|]. cbn [length]. lia.
Qed.

(* ---- examples: "e" acute, CR LF, "a"; 4, 3 and 2 bytes demanded *)

Lemma text_tokens : tokenises text [[x65; xcc; x81]; [x0d; x0a]; [x61]].
Proof. repeat (eapply tokenises_step; [vm_compute; reflexivity|]; cbn [skipn]). constructor. Qed.
Lemma starts_ascii b rest : (Byte.to_N b < 128)%N -> starts_seq (b :: rest).
Proof. intros H. exists [b], (bval b), rest. split; [constructor; exact H|reflexivity]. Qed.

(* a buffer of 4 bytes is enough *)
Example C60_example_fits : each_fits 4 [[x65; xcc; x81]; [x0d; x0a]; [x61]] [] /\ fresh (with_buffer [] 4) 4 /\
  delivers (nagging EOF) 100 (true, text) text EOF /\
  run_scanner (nagging EOF) 9 (true, text) (with_buffer [] 4) = Ret ([[x65; xcc; x81]; [x0d; x0a]; [x61]], None).
Proof.
  split; [|split; [apply (fresh_buffer [] 4); lia|split; [apply nagging_delivers; lia|vm_compute; reflexivity]]].
  constructor; [|constructor; [|constructor; [|constructor]]]; cbn [concat app].
  - exists 4. split; [|left; lia]. apply (demand_next [x65; xcc; x81] x0d [x0a; x61]). apply starts_ascii. reflexivity.
  - exists 3. split; [|left; lia]. apply (demand_next [x0d; x0a] x61 []). apply starts_ascii. reflexivity.
  - exists 2. split; [|left; lia]. apply (demand_last [x61]). apply starts_ascii. reflexivity.
Qed.

(* one of 3 is not: the first cluster is not told, although it has 3 bytes; who
   goes on is given it all the same, and nothing after it *)
Example C60_example_stuck : each_fits 3 [] text /\ stuck 3 [x65; xcc; x81] [x0d; x0a; x61] /\
  tokenises (firstn 3 text) [[x65; xcc; x81]] /\ fresh (with_buffer [] 3) 3 /\
  delivers (nagging EOF) 100 (true, text) text EOF /\
  run_scanner (nagging EOF) 9 (true, text) (with_buffer [] 3) = Ret ([], Some ErrTooLong).
Proof.
  split; [constructor|]. split; [|split; [|split; [apply (fresh_buffer [] 3); lia|split; [apply nagging_delivers; lia|vm_compute; reflexivity]]]].
  - exists 4. split; [|cbn [length app]; lia]. apply (demand_next [x65; xcc; x81] x0d [x0a; x61]). apply starts_ascii. reflexivity.
  - cbn [firstn text]. repeat (eapply tokenises_step; [vm_compute; reflexivity|]; cbn [skipn]). constructor.
Qed.

(* and of 2 it is handed out in parts: "e", and the two bytes of the accent are
   one and one that the buffer does not hold *)
Example C60_example_parts : stuck 2 [x65; xcc; x81] [x0d; x0a; x61] /\ tokenises (firstn 2 text) [[x65]; [xcc]].
Proof.
  split.
  - exists 4. split; [|cbn [length app]; lia]. apply (demand_next [x65; xcc; x81] x0d [x0a; x61]). apply starts_ascii. reflexivity.
  - cbn [firstn text]. repeat (eapply tokenises_step; [vm_compute; reflexivity|]; cbn [skipn]). constructor.
Qed.

(* An invalid byte demands the sequence it would have started: F0 alone takes 4
   bytes to be told if enough follow. *)
Example C60_example_invalid : each_fits 4 [[xf0]] [x61; x61; x61; x61] /\ stuck 3 [xf0] [x61; x61; x61; x61] /\
  run_scanner (nagging EOF) 9 (true, [xf0; x61; x61; x61; x61]) (with_buffer [] 4) = Ret ([[xf0]; [x61]; [x61]; [x61]; [x61]], None) /\
  run_scanner (nagging EOF) 9 (true, [xf0; x61; x61; x61; x61]) (with_buffer [] 3) = Ret ([], Some ErrTooLong).
Proof.
  assert (~ starts_seq (xf0 :: [] ++ [x61; x61; x61; x61])) as K.
  { intros (bs & v & rest & H & E). destruct H as [a H|a b H _|a b c H _ _|a b c d _ H _ _]; cbn [app] in E.
    1-3: assert (a = xf0) as -> by congruence; vm_compute in H; first [discriminate H | destruct H; congruence].
    assert (b = x61) as -> by congruence. destruct H as [H _]. vm_compute in H. congruence. }
  split; [|split; [|split; vm_compute; reflexivity]].
  - constructor; [|constructor]. exists 4. split; [|left; lia]. apply (demand_bad xf0 [] _ K).
  - exists 4. split; [apply (demand_bad xf0 [] _ K)|cbn [length app]; lia].
Qed.

(* and of 3 bytes for "e" acute alone: it depends on whether the reader reports
   the end with the last byte or after it *)
Example C60_example_edge : edge 3 [x65; xcc; x81] [] /\ tokenises [x65; xcc; x81] [[x65; xcc; x81]] /\
  delivers (nagging EOF) 100 (true, [x65; xcc; x81]) [x65; xcc; x81] EOF /\
  run_scanner (nagging EOF) 9 (true, [x65; xcc; x81]) (with_buffer [] 3) = Ret ([[x65; xcc; x81]], None) /\
  delivers bytes_reader 100 [x65; xcc; x81] [x65; xcc; x81] EOF /\
  run_scanner bytes_reader 9 [x65; xcc; x81] (with_buffer [] 3) = Ret ([], Some ErrTooLong).
Proof.
  split; [|split; [|split; [apply nagging_delivers; lia|split; [vm_compute; reflexivity|split; [apply bytes_reader_delivers|vm_compute; reflexivity]]]]].
  - exists 4. split; [|cbn [length app]; lia]. apply (demand_last [x65; xcc; x81]). apply starts_ascii. reflexivity.
  - repeat (eapply tokenises_step; [vm_compute; reflexivity|]; cbn [skipn]). constructor.
Qed.

Definition all_theorems := (C60_fits, C60_stuck, C60_edge).
Print Assumptions all_theorems.
