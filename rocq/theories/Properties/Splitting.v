(* Properties C01-C07, C37, C40, C41: the split function as such. *)
From Coq Require Import List NArith Arith Bool Lia Strings.Byte.
From Verif Require Import Spec.Classes Spec.Utf8 Spec.UAX29 Spec.Segmentation.
From Verif Require Import Model.Base Model.CharProps Model.Lookup Model.Machine Model.Scan Model.Drivers.
From Verif Require Import Proofs.Basics Proofs.TableCheck Proofs.LookupFacts Proofs.MachineFacts
  Proofs.ScanFacts Proofs.TextFacts Proofs.TextProps Proofs.DriverFacts.
Import ListNotations.

Local Opaque committed LookupFirstChar.

(* "e" + combining acute + CR LF + family emoji (man ZWJ woman) + stray byte *)
Definition sample : list byte :=
  [x65; xcc; x81; x0d; x0a; xf0; x9f; x91; xa8; xe2; x80; x8d; xf0; x9f; x91; xa9; xff].

(* C01. Every call returns (no panic of any kind, no unbounded loop) and never
   reports an error. *)
Theorem C01_total : forall data atEOF,
  exists advance token, ScanGraphemeClusters data atEOF = Ret (advance, token, None).
Proof. exact scan_ret. Qed.

Example C01_example : ScanGraphemeClusters sample false = Ret (3, Some [x65; xcc; x81], None).
Proof. vm_compute. reflexivity. Qed.

(* C02. A call either asks for more without consuming anything, or returns a
   non-empty prefix of the data together with its length. *)
Theorem C02_shape : forall data atEOF advance token err,
  ScanGraphemeClusters data atEOF = Ret (advance, token, err) ->
  err = None /\
  ((advance = 0 /\ token = None) \/
   (1 <= advance <= length data /\ token = Some (firstn advance data))).
Proof.
  intros data atEOF advance token err H.
  destruct (scan_shape data atEOF) as [[E _]|(n & E & Hn)]; rewrite H in E;
    injection E as -> -> ->; split; auto.
Qed.

Example C02_example_more : ScanGraphemeClusters [x65; xcc] false = Ret (0, None, None).
Proof. vm_compute. reflexivity. Qed.

(* C03. At the end of input there is always progress; empty input never gives
   a token. *)
Theorem C03_progress : forall data,
  (data <> [] ->
   exists advance token, ScanGraphemeClusters data true = Ret (advance, Some token, None) /\
     1 <= advance <= length data /\ token = firstn advance data) /\
  (forall atEOF, ScanGraphemeClusters [] atEOF = Ret (0, None, None)).
Proof.
  intros data. split; [|reflexivity].
  intros H. destruct (scan_progress data H) as (n & E & Hn). exists n, (firstn n data). auto.
Qed.

Example C03_example : ScanGraphemeClusters [xe2; x80] true = Ret (1, Some [xe2], None).
Proof. vm_compute. reflexivity. Qed.

(* C04. One-shot tokenisation ends, loses nothing, and is a function. *)
Theorem C04_lossless : forall data,
  exists toks, tokenises data toks /\
    concat toks = data /\ Forall (fun t => t <> []) toks /\ length toks <= length data /\
    (forall toks', tokenises data toks' -> toks' = toks).
Proof.
  intros data. destruct (tokenises_total data) as [toks H]. exists toks.
  assert (concat toks = data) as Hc by (apply tokenises_concat; exact H).
  assert (Forall (fun t => t <> []) toks) as Hn by (eapply tokenises_nonempty; exact H).
  repeat split; auto.
  - rewrite <- Hc. apply nonempty_count. exact Hn.
  - intros toks' H'. eapply tokenises_unique; eauto.
Qed.

Example C04_example : tokens sample =
  Ret [[x65; xcc; x81]; [x0d; x0a];
       [xf0; x9f; x91; xa8; xe2; x80; x8d; xf0; x9f; x91; xa9]; [xff]].
Proof. vm_compute. reflexivity. Qed.

(* The executable [tokens] computes the relation. *)
Theorem C04_tokens_fn : forall data toks, tokens data = Ret toks <-> tokenises data toks.
Proof.
  assert (H : forall n data, length data < n -> exists toks, tokens_fuel n data = Ret toks /\ tokenises data toks).
  { induction n as [|n IH]; intros data Hn; [lia|].
    destruct data as [|b data]; [exists []; split; [reflexivity|constructor]|].
    cbn [tokens_fuel].
    destruct (scan_progress (b :: data)) as (k & E & Hk); [discriminate|]. rewrite E. cbn [bind].
    destruct (IH (skipn k (b :: data))) as (toks & E2 & Ht).
    { rewrite skipn_length. lia. }
    rewrite E2. cbn [bind]. eexists. split; [reflexivity|]. eapply tokenises_step; eauto. }
  intros data toks. unfold tokens. destruct (H (S (length data)) data) as (toks' & E & Ht); [lia|].
  rewrite E. split.
  - intros K. injection K as <-. exact Ht.
  - intros K. f_equal. eapply tokenises_unique; eauto.
Qed.

(* C05. A token emitted before the end of input is final. *)
Theorem C05_final : forall data advance token ext atEOF,
  ScanGraphemeClusters data false = Ret (advance, Some token, None) ->
  ScanGraphemeClusters (data ++ ext) atEOF = Ret (advance, Some token, None).
Proof. intros. apply scan_stable. assumption. Qed.

Example C05_example :
  ScanGraphemeClusters [x65; xcc; x81; x0d] false = Ret (3, Some [x65; xcc; x81], None).
Proof. vm_compute. reflexivity. Qed.

(* C06. Whatever the chunks and whatever the schedule, incremental driving
   gives exactly the tokens of one-shot tokenisation; and the eager driver,
   which feeds only on request, always gets through. *)
Theorem C06_chunking : forall chunks toks,
  streams [] chunks toks <-> tokenises (concat chunks) toks.
Proof.
  intros chunks toks. split.
  - apply (streams_sound []).
  - apply (streams_complete chunks []).
Qed.

Theorem C06_eager : forall chunks,
  exists toks, streams_eager [] chunks toks /\ tokenises (concat chunks) toks.
Proof.
  intros chunks. destruct (eager_total _ chunks [] (le_n _)) as [toks H].
  exists toks. split; [exact H|]. apply (streams_sound [] chunks). apply eager_streams. exact H.
Qed.

Example C06_example : streams_eager [] [[x65; xcc]; []; [x81; x0d]; [x0a]]
                        [[x65; xcc; x81]; [x0d; x0a]].
Proof.
  apply eager_feed; [reflexivity|]. apply eager_feed; [vm_compute; reflexivity|].
  apply eager_feed; [vm_compute; reflexivity|].
  eapply eager_take; [vm_compute; reflexivity|].
  apply eager_feed; [vm_compute; reflexivity|].
  eapply eager_flush; [vm_compute; reflexivity|vm_compute; reflexivity|]. constructor.
Qed.

(* C07. Four bytes after the cluster are always enough, for the same data and
   for every continuation of it; asking for more consumes nothing. *)
Theorem C07_lookahead : forall data ext atEOF advance token,
  ScanGraphemeClusters data false = Ret (0, None, None) ->
  ScanGraphemeClusters (data ++ ext) atEOF = Ret (advance, Some token, None) ->
  length data < advance + 4.
Proof. exact scan_lookahead. Qed.

Theorem C07_enough : forall data advance token,
  ScanGraphemeClusters data true = Ret (advance, Some token, None) ->
  advance + 4 <= length data ->
  ScanGraphemeClusters data false = Ret (advance, Some token, None).
Proof. exact enough_lookahead. Qed.

(* three bytes are not enough *)
Example C07_tight :
  ScanGraphemeClusters [x61; xf0; x9f; x91] false = Ret (0, None, None) /\
  ScanGraphemeClusters [x61; xf0; x9f; x91; xa8] false = Ret (1, Some [x61], None).
Proof. split; vm_compute; reflexivity. Qed.

(* C37. Work: at most advance + 1 character lookups per token returned, at
   most len(data) for any call, at most 2 len(data) for one-shot
   tokenisation; scan_cost is the instrumented split function. *)
Theorem C37_work :
  (forall data atEOF r, ScanGraphemeClusters data atEOF = Ret r ->
     exists k, scan_cost data atEOF = Ret (r, k) /\ k <= length data) /\
  (forall data atEOF advance token err k,
     scan_cost data atEOF = Ret (advance, Some token, err, k) -> k <= advance + 1) /\
  (forall data, exists total, tokenises_cost data total) /\
  (forall data total, tokenises_cost data total -> total <= 2 * length data).
Proof.
  split; [|split; [|split]].
  - intros data atEOF r H. pose proof (scan_cost_same data atEOF) as K. rewrite H in K.
    destruct K as [k Hk]. exists k. split; [exact Hk|]. destruct r as [[n t] e].
    eapply scan_cost_any. exact Hk.
  - exact scan_cost_bound.
  - intros data. destruct (cost_total data) as (total & H & _). eauto.
  - exact cost_bound.
Qed.

Example C37_example : scan_cost sample true = Ret (3, Some [x65; xcc; x81], None, 3).
Proof. vm_compute. reflexivity. Qed.

(* C41. Exactly when a token is emitted before the end of input: the cluster
   is the one found at EOF, the data does not start with an incomplete
   sequence, and - unless the cluster is an invalid byte - something follows
   the cluster that is not an incomplete sequence. *)
Theorem C41_emission : forall data advance token,
  ScanGraphemeClusters data false = Ret (advance, Some token, None) <->
  ScanGraphemeClusters data true = Ret (advance, Some token, None) /\
  ~ (exists b tl, data = b :: tl /\ length data < lead_len b) /\
  (starts_seq data ->
     skipn advance data <> [] /\
     ~ (exists b tl, skipn advance data = b :: tl /\ length (skipn advance data) < lead_len b)).
Proof. exact emission_exact. Qed.

Example C41_example : ScanGraphemeClusters [xff] false = Ret (1, Some [xff], None).
Proof. vm_compute. reflexivity. Qed.

(* C40 (refuted). The split function does not emit a token as soon as every
   continuation agrees on it: a line feed is always a cluster of its own. *)
Theorem C40_refuted :
  ~ (forall data advance token,
       (forall ext, ScanGraphemeClusters (data ++ ext) true = Ret (advance, Some token, None)) ->
       ScanGraphemeClusters data false = Ret (advance, Some token, None)).
Proof.
  intros H. assert (ScanGraphemeClusters [x0a] false = Ret (1, Some [x0a], None)) as K.
  { apply H. intros ext. destruct (reads_total ext) as [its Hr].
    assert (utf8_seq [x0a] 10) as Hs by (apply (seq1 x0a); reflexivity).
    destruct (tokenises_total ([x0a] ++ ext)) as [toks Ht].
    assert (piece_at toks [] [x0a]) as Hp.
    { apply (lone_control ([x0a] ++ ext) toks [] (Char [x0a] 10) its Ht).
      - constructor; assumption.
      - vm_compute. reflexivity.
      - intros j j1 E. destruct j1; discriminate.
      - intros j j2 _ [E _]. vm_compute in E. discriminate. }
    destruct Hp as (t1 & t2 & E & El).
    pose proof (tokenises_nonempty _ _ Ht) as Hne.
    destruct t1 as [|a t1].
    - simpl in E. subst toks. inversion Ht as [|? n t ts Hscan Hrest]; subst.
      destruct (scan_flush _ _ _ Hscan) as (Hle & _ & Et).
      assert (n = 1) as ->.
      { apply (f_equal (@length _)) in Et. rewrite firstn_length_le in Et by exact Hle.
        simpl in Et. auto. }
      exact Hscan.
    - exfalso. subst toks. inversion Hne; subst. simpl in El. destruct a; [congruence|discriminate]. }
  vm_compute in K. discriminate.
Qed.

(* One traversal for all of them: the axioms of the tuple are those of its parts. *)
Definition all_theorems :=
  (C01_total, C02_shape, C03_progress, C04_lossless, C04_tokens_fn, C05_final, C06_chunking, C06_eager, C07_lookahead, C07_enough, C37_work, C40_refuted, C41_emission).
Print Assumptions all_theorems.
