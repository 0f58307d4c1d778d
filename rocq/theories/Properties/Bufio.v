(* Properties C23-C26, C39: ScanGraphemeClusters as the split function of a
   bufio.Scanner, over any reader. *)
From Coq Require Import List NArith ZArith Arith Bool Lia ZifyBool ZifyNat ZifyN Strings.Byte.
From Verif Require Import Spec.Readers.
From Verif Require Import Model.Base Model.CharProps Model.Lookup Model.Machine Model.Scan Model.Bufio.
From Verif Require Import Proofs.Basics Proofs.TableCheck Proofs.LookupFacts Proofs.ScanFacts Proofs.TextFacts
  Proofs.DriverFacts Proofs.BufioFacts Proofs.KeepFacts.
Import ListNotations.

Local Opaque committed LookupFirstChar.

(* A scanner that has just been set up: NewScanner(r), possibly with
   Buffer(buf, max).  [capacity]: the largest buffer it will use. *)
Inductive fresh : scanner -> nat -> Prop :=
| fresh_default : fresh NewScanner MaxScanTokenSize
| fresh_buffer buf max : (N.of_nat max <= 2 ^ 62)%N -> fresh (with_buffer buf max) (Nat.max (length buf) max).

(* A step of the history of a scanner: one more call of Scan. *)
Inductive reaches {R} (rd : reader R) : R -> scanner -> R -> scanner -> Prop :=
| reaches_here r s : reaches rd r s r s
| reaches_scan r s r1 s1 r2 s2 o :
    reaches rd r s r1 s1 -> Scan ScanGraphemeClusters rd r1 s1 = Ret (r2, s2, o) -> reaches rd r s r2 s2.

Lemma good : good_split ScanGraphemeClusters.
Proof.
  constructor.
  - intros d eof. destruct (scan_shape d eof) as [[E _]|(n & E & Hn)]; [left; exact E|right].
    exists n, (firstn n d). rewrite firstn_length_le by lia. auto.
  - intros d H. destruct (scan_progress d H) as (n & E & _). eauto.
  - reflexivity.
  - intros d n t ext eof. apply scan_stable.
Qed.

Lemma split_tokenises d toks : split_all ScanGraphemeClusters d toks <-> tokenises d toks.
Proof.
  split; induction 1; try constructor; econstructor; eauto.
Qed.

Lemma fresh_facts s cap : fresh s cap ->
  inv s /\ limit s = cap /\ sane_max s /\ s_err s = None /\ data s = [].
Proof.
  unfold inv, limit, sane_max, data, half_maxInt.
  intros [|buf max H]; cbn [NewScanner with_buffer s_start s_end s_buf s_err s_max length].
  - unfold MaxScanTokenSize. repeat split; lia.
  - repeat split; lia.
Qed.

Lemma fresh_scans {R} (rd : reader R) r input e s cap : fresh s cap -> delivers rd 100 r input e ->
  exists toks toks1 r' s', tokenises input toks /\ scans ScanGraphemeClusters rd r s toks1 r' s' /\
    ((toks1 = toks /\ s_err s' = Some e) \/
     (s_err s' = Some ErrTooLong /\
      exists toks2 d ext, toks = toks1 ++ toks2 /\ tokenises (d ++ ext) toks2 /\
        ScanGraphemeClusters d false = Ret (0, None, None) /\ length d = cap)).
Proof.
  intros Hf Hd. destruct (fresh_facts s cap Hf) as (I & L & M & E & D).
  destruct (split_all_total _ good input) as [toks Ht].
  destruct (scans_delivers ScanGraphemeClusters rd good toks r s e I M) as (toks1 & r' & s' & Hs & Hr).
  { left. split; [exact E|]. exists input. rewrite D. auto. }
  exists toks, toks1, r', s'. split; [apply split_tokenises; exact Ht|]. split; [exact Hs|].
  destruct Hr as [Hr|(Er & toks2 & d & ext & Et & Hx & Hn & Hl)]; [left; exact Hr|right].
  split; [exact Er|]. exists toks2, d, ext. split; [exact Et|]. split; [apply split_tokenises; exact Hx|].
  split; [exact Hn|]. congruence.
Qed.

Lemma stuck_cluster d ext toks : ScanGraphemeClusters d false = Ret (0, None, None) ->
  tokenises (d ++ ext) toks -> d <> [] -> exists t rest, toks = t :: rest /\ length d < length t + 4.
Proof.
  intros Hd Ht Hne. inversion Ht as [E|data n t ts E Hr]; subst.
  - destruct d; [congruence|discriminate].
  - exists t, ts. split; [reflexivity|].
    pose proof (scan_lookahead d ext true n t Hd E) as Hl.
    destruct (scan_flush _ _ _ E) as (Hn & _ & Et). subst t.
    rewrite firstn_length_le by exact Hn. exact Hl.
Qed.

(* ---- C23 *)

(* Whatever the reader's schedule, if it delivers the input and then EOF and no
   cluster plus four bytes exceeds the capacity, the loop
   "for scanner.Scan() { ... scanner.Bytes() ... }" ends, sees exactly the
   tokens of the input, and Err() is nil. *)
Theorem C23_scanner : forall R (rd : reader R) r input s capacity toks,
  delivers rd 100 r input EOF -> fresh s capacity -> tokenises input toks ->
  1 <= capacity -> Forall (fun t => length t + 4 <= capacity) toks ->
  (exists r' s', scans ScanGraphemeClusters rd r s toks r' s') /\
  (forall toks' r' s', scans ScanGraphemeClusters rd r s toks' r' s' -> toks' = toks /\ Err s' = None).
Proof.
  intros R rd r input s cap toks Hd Hf Ht Hcap Hfit.
  destruct (fresh_scans rd r input EOF s cap Hf Hd) as (toks0 & toks1 & r1 & s1 & Ht0 & Hs & Hr).
  assert (toks0 = toks) by (eapply tokenises_unique; eauto). subst toks0.
  destruct Hr as [(-> & Er)|(Er & toks2 & d & ext & Et & Hx & Hn & Hl)].
  - split; [eauto|]. intros toks' r' s' H'.
    destruct (scans_unique _ _ _ _ _ _ _ Hs _ _ _ H') as (-> & -> & ->).
    split; [reflexivity|]. unfold Err. rewrite Er. reflexivity.
  - exfalso. destruct (stuck_cluster d ext toks2 Hn Hx) as (t & rest & -> & Hlt).
    { intros ->. cbn [length] in Hl. lia. }
    subst toks. apply Forall_app in Hfit. destruct Hfit as [_ Hfit]. inversion Hfit; subst. lia.
Qed.

(* ---- C24 *)

(* Whatever the reader does, and however often Scan is called (also after it
   has returned false): the call returns, tokens are not empty and fit the
   capacity, and the only errors are those of over-long tokens, of readers
   that misbehave or make no progress, and the reader's own. *)
Theorem C24_guards : forall R (rd : reader R) r0 s0 capacity r s,
  fresh s0 capacity -> reaches rd r0 s0 r s ->
  exists r' s' o, Scan ScanGraphemeClusters rd r s = Ret (r', s', o) /\
    match o with
    | Some token => 1 <= length (bytes_of s' token) <= capacity
    | None => True
    end /\
    (forall e, Err s' = Some e ->
       e = ErrTooLong \/ e = ErrBadReadCount \/ e = ErrNoProgress \/
       (exists r1 space, r_err (snd (rd r1 space)) = Some e)).
Proof.
  intros R rd r0 s0 cap r s Hf Hr.
  destruct (fresh_facts s0 cap Hf) as (I0 & L0 & _ & E0 & _).
  assert (inv s /\ limit s = cap /\ forall e, s_err s = Some e -> scanner_error rd e) as (I & L & Hs).
  { induction Hr as [r s|r s r1 s1 r2 s2 o Hr IH E]; [split; [auto|]; split; [auto|]; intros e He; congruence|].
    destruct (IH Hf I0 L0 E0) as (I & L & Hs).
    destruct (Scan_any ScanGraphemeClusters rd r1 s1 good I) as (r' & s' & o' & E' & I' & L' & _ & Er & _).
    assert (s' = s2) by (rewrite E in E'; injection E'; auto). subst s'.
    split; [exact I'|]. split; [congruence|]. intros e He. destruct (Er e He) as [K|K]; auto. }
  destruct (Scan_any ScanGraphemeClusters rd r s good I) as (r' & s' & o & E & I' & L' & _ & Er & O).
  exists r', s', o. split; [exact E|]. split.
  - destruct o as [sl|]; [|exact Logic.I]. destruct O as (Hlen & d & eof & n & Hd). split; [|lia].
    destruct (scan_shape d eof) as [[K _]|(k & K & Hk)]; rewrite Hd in K; [discriminate|].
    assert (bytes_of s' sl = firstn k d) as -> by congruence. rewrite firstn_length_le by lia. lia.
  - intros e He. assert (s_err s' = Some e) as He'.
    { unfold Err in He. destruct (s_err s') as [[]|]; congruence. }
    destruct (Er e He') as [K|K]; [apply Hs in K|]; exact K.
Qed.

(* in particular *)
Corollary C24_no_bad_advance : forall R (rd : reader R) r0 s0 capacity r s,
  fresh s0 capacity -> reaches rd r0 s0 r s ->
  (forall r1 space e, r_err (snd (rd r1 space)) = Some e -> e <> ErrAdvanceTooFar /\ e <> ErrNegativeAdvance) ->
  Err s <> Some ErrAdvanceTooFar /\ Err s <> Some ErrNegativeAdvance.
Proof.
  intros R rd r0 s0 cap r s Hf Hr Hrd. destruct Hr as [r s|r0 s0 r1 s1 r s o Hr E].
  - destruct (fresh_facts s cap Hf) as (_ & _ & _ & E0 & _). unfold Err. rewrite E0. split; discriminate.
  - destruct (C24_guards R rd r0 s0 cap r1 s1 Hf Hr) as (r' & s' & o' & E' & _ & He).
    assert (s' = s) by (rewrite E in E'; injection E'; auto). subst s'.
    split; intros K; destruct (He _ K) as [X|[X|[X|(rx & sp & X)]]]; try discriminate;
      destruct (Hrd _ _ _ X); congruence.
Qed.

(* ---- C25 *)

(* If scanning stops with ErrTooLong, the tokens seen are the leading clusters,
   and the next cluster plus four bytes exceeds the capacity (or the capacity
   is zero). *)
Theorem C25_too_long : forall R (rd : reader R) r input e s capacity toks r' s',
  delivers rd 100 r input e -> e <> ErrTooLong -> fresh s capacity ->
  scans ScanGraphemeClusters rd r s toks r' s' -> Err s' = Some ErrTooLong ->
  exists rest, tokenises input (toks ++ rest) /\
    (capacity = 0 \/ exists t rest', rest = t :: rest' /\ capacity < length t + 4).
Proof.
  intros R rd r input e s cap toks r' s' Hd He Hf Hs Herr.
  destruct (fresh_scans rd r input e s cap Hf Hd) as (toks0 & toks1 & r1 & s1 & Ht0 & Hs1 & Hr).
  destruct (scans_unique _ _ _ _ _ _ _ Hs1 _ _ _ Hs) as (-> & -> & ->).
  assert (s_err s' = Some ErrTooLong) as Herr'.
  { unfold Err in Herr. destruct (s_err s') as [[]|]; congruence. }
  destruct Hr as [(-> & Er)|(Er & toks2 & d & ext & Et & Hx & Hn & Hl)]; [congruence|].
  exists toks2. split; [congruence|].
  destruct d as [|b d]; [left; cbn [length] in Hl; lia|right].
  destruct (stuck_cluster (b :: d) ext toks2 Hn Hx) as (t & rest & -> & Hlt); [discriminate|].
  exists t, rest. split; [reflexivity|]. lia.
Qed.

(* A cluster that exceeds the capacity is always reported, never split. *)
Theorem C25_reported : forall R (rd : reader R) r input e s capacity toks toks' r' s',
  delivers rd 100 r input e -> fresh s capacity -> tokenises input toks ->
  Exists (fun t => capacity < length t) toks ->
  scans ScanGraphemeClusters rd r s toks' r' s' -> Err s' = Some ErrTooLong.
Proof.
  intros R rd r input e s cap toks toks' r' s' Hd Hf Ht Hlong Hs.
  destruct (fresh_scans rd r input e s cap Hf Hd) as (toks0 & toks1 & r1 & s1 & Ht0 & Hs1 & Hr).
  destruct (scans_unique _ _ _ _ _ _ _ Hs1 _ _ _ Hs) as (-> & -> & ->).
  assert (toks0 = toks) by (eapply tokenises_unique; eauto). subst toks0.
  destruct Hr as [(-> & Er)|(Er & _)]; [exfalso|unfold Err; rewrite Er; reflexivity].
  destruct (fresh_facts s cap Hf) as (I & L & _).
  pose proof (scans_fit _ _ good _ _ _ _ _ I Hs) as Hfit. rewrite L in Hfit.
  apply Exists_exists in Hlong. destruct Hlong as (t & Hin & Hlt).
  rewrite Forall_forall in Hfit. specialize (Hfit t Hin). lia.
Qed.

(* ---- C26 *)

(* If the reader fails with e after delivering some bytes, the tokens seen are
   those of the delivered bytes and then Err() is e. *)
Theorem C26_reader_failure : forall R (rd : reader R) r delivered e s capacity toks,
  delivers rd 100 r delivered e -> e <> EOF -> fresh s capacity -> tokenises delivered toks ->
  1 <= capacity -> Forall (fun t => length t + 4 <= capacity) toks ->
  (exists r' s', scans ScanGraphemeClusters rd r s toks r' s') /\
  (forall toks' r' s', scans ScanGraphemeClusters rd r s toks' r' s' -> toks' = toks /\ Err s' = Some e).
Proof.
  intros R rd r input e s cap toks Hd He Hf Ht Hcap Hfit.
  destruct (fresh_scans rd r input e s cap Hf Hd) as (toks0 & toks1 & r1 & s1 & Ht0 & Hs & Hr).
  assert (toks0 = toks) by (eapply tokenises_unique; eauto). subst toks0.
  destruct Hr as [(-> & Er)|(Er & toks2 & d & ext & Et & Hx & Hn & Hl)].
  - split; [eauto|]. intros toks' r' s' H'.
    destruct (scans_unique _ _ _ _ _ _ _ Hs _ _ _ H') as (-> & -> & ->).
    split; [reflexivity|]. unfold Err. rewrite Er. destruct e; congruence.
  - exfalso. destruct (stuck_cluster d ext toks2 Hn Hx) as (t & rest & -> & Hlt).
    { intros ->. cbn [length] in Hl. lia. }
    subst toks. apply Forall_app in Hfit. destruct Hfit as [_ Hfit]. inversion Hfit; subst. lia.
Qed.

(* ---- readers that meet the hypotheses *)

(* bytes.Reader delivers its contents and then EOF *)
Theorem bytes_reader_delivers : forall input m, delivers bytes_reader m input input EOF.
Proof.
  intros input. remember (length input) as k eqn:Ek. revert input Ek.
  induction k as [k IH] using lt_wf_ind. intros input -> m. constructor. intros space Hs.
  destruct input as [|b input].
  - apply replies_last with (r' := []) (scratch := []); [reflexivity|cbn [length]; lia].
  - rewrite <- (firstn_skipn space (b :: input)) at 2.
    apply replies_some with (r' := skipn space (b :: input)) (scratch := []).
    + rewrite app_nil_r. reflexivity.
    + destruct space; [lia|discriminate].
    + rewrite firstn_length. lia.
    + apply IH with (m := length (skipn space (b :: input))); [|reflexivity].
      rewrite skipn_length. cbn [length]. lia.
Qed.

(* A reader that delivers one byte at a time, alternating with empty reads on
   which it scribbles over the space it was offered, and ends with error e
   together with the last byte. *)
Definition nagging (e : goerror) : reader (bool * list byte) := fun st space =>
  match st with
  | (true, rest) => ((false, rest), Reply 0 (repeat xff space) None)
  | (false, []) => ((true, []), Reply 0 [] (Some e))
  | (false, [b]) => ((true, []), Reply 1 [b] (Some e))
  | (false, b :: rest) => ((true, rest), Reply 1 (b :: repeat xee space) None)
  end.

Theorem nagging_delivers : forall e input m, 1 <= m -> delivers (nagging e) m (true, input) input e.
Proof.
  intros e input. induction input as [|b input IH]; intros m Hm; (destruct m as [|m]; [lia|]);
    constructor; intros space _.
  - eapply replies_none; [reflexivity|]. constructor. intros sp Hsp.
    eapply replies_last with (scratch := []); [reflexivity|cbn [length]; lia].
  - eapply replies_none; [reflexivity|]. constructor. intros sp Hsp. destruct input as [|c input].
    + eapply replies_last with (scratch := []); [reflexivity|cbn [length]; lia].
    + apply (replies_some (nagging e) m _ _ [b] (c :: input) e (true, c :: input) (repeat xee sp));
        [reflexivity|discriminate|cbn [length]; lia|]. apply IH. lia.
Qed.

(* "e" acute, CR LF, "a" *)
Definition text : list byte := [x65; xcc; x81; x0d; x0a; x61].

Definition run_scanner {R} (rd : reader R) := fix run (n : nat) (r : R) (s : scanner) :
    res (list (list byte) * option goerror) :=
  match n with
  | O => Panic OutOfFuel
  | S n' =>
      let! (r', s', o) := Scan ScanGraphemeClusters rd r s in
      match o with
      | None => Ret ([], Err s')
      | Some sl => let! (ts, e) := run n' r' s' in Ret (bytes_of s' sl :: ts, e)
      end
  end.

(* capacity 7: the longest cluster has 3 bytes *)
Example C23_example : run_scanner (nagging EOF) 9 (true, text) (with_buffer [x00; x00] 7) =
  Ret ([[x65; xcc; x81]; [x0d; x0a]; [x61]], None).
Proof. vm_compute. reflexivity. Qed.
Example C23_applies : Forall (fun t => length t + 4 <= 7) [[x65; xcc; x81]; [x0d; x0a]; [x61]] /\
  tokenises text [[x65; xcc; x81]; [x0d; x0a]; [x61]] /\ fresh (with_buffer [x00; x00] 7) 7 /\
  delivers (nagging EOF) 100 (true, text) text EOF.
Proof.
  split; [repeat constructor; cbn [length]; lia|]. split; [|split].
  - repeat (eapply tokenises_step; [vm_compute; reflexivity|]; cbn [skipn]). constructor.
  - apply (fresh_buffer [x00; x00] 7). lia.
  - apply nagging_delivers. lia.
Qed.
Example C25_example : run_scanner (nagging EOF) 9 (true, text) (with_buffer [x00; x00] 2) =
  Ret ([], Some ErrTooLong).
Proof. vm_compute. reflexivity. Qed.
Example C26_example : run_scanner (nagging (ReaderError 5)) 9 (true, [x65; xcc; x81; x0d; x0a; xe2; x80]) (with_buffer [] 9) =
  Ret ([[x65; xcc; x81]; [x0d; x0a]; [xe2]; [x80]], Some (ReaderError 5)).
Proof. vm_compute. reflexivity. Qed.
(* calling Scan again after ErrTooLong hands out parts of the cluster *)
Example C24_example :
  exists r' s', reaches (nagging EOF) (true, text) (with_buffer [x00; x00] 2) r' s' /\ Err s' = Some ErrTooLong /\
  exists r2 s2 sl, Scan ScanGraphemeClusters (nagging EOF) r' s' = Ret (r2, s2, Some sl) /\ bytes_of s2 sl = [x65].
Proof.
  eexists; eexists. split; [|split].
  - eapply reaches_scan; [apply reaches_here|]. vm_compute. reflexivity.
  - reflexivity.
  - eexists; eexists; eexists. split; vm_compute; reflexivity.
Qed.

(* ---- C39 *)

Lemma Scan_fuel {R} (rd : reader R) r s : exists fuel,
  Scan ScanGraphemeClusters rd r s = scan_loop_bufio ScanGraphemeClusters rd (S fuel) r s.
Proof. eexists. reflexivity. Qed.

(* the state after the first read of a small buffer *)
Definition first_state (buf : list byte) : scanner :=
  Scanner [[]] (overwrite (repeat x00 startBufSize) 0 buf) 0 (length buf)
    (match buf with [] => Some EOF | _ => None end) 0 MaxScanTokenSize.

Lemma first_more buf : length buf <= 2049 ->
  more bytes_reader buf NewScanner = Ret ([], first_state buf, true).
Proof.
  intros Hlen. assert (2049 < startBufSize) as Hsize by (apply Nat.ltb_lt; vm_compute; reflexivity).
  unfold more. cbn [NewScanner s_err].
  unfold shift. cbn [NewScanner s_start]. rewrite Nat.ltb_irrefl. cbn [andb bind].
  assert (resize NewScanner = Ret (Some (Scanner [[]] (repeat x00 startBufSize) 0 0 None 0 MaxScanTokenSize))) as ->.
  { unfold resize. cbn [NewScanner s_end s_buf s_start s_max s_old s_err s_empties length Nat.eqb].
    replace ((MaxScanTokenSize <=? 0) || (half_maxInt <? N.of_nat 0)%N) with false by reflexivity.
    change (0 * 2) with 0. cbn [Nat.eqb].
    replace (Nat.min startBufSize MaxScanTokenSize) with startBufSize by (vm_compute; reflexivity).
    unfold held. cbn [NewScanner s_buf s_end s_start slice_to slice_from bind app Nat.sub].
    rewrite overwrite_nil by lia. reflexivity. }
  cbn [bind]. unfold first_state.
  generalize dependent startBufSize. intros size Hsize. generalize maxConsecutiveEmptyReads. intros left.
  destruct buf as [|b buf].
  - rewrite (fill_eof bytes_reader _ [] _ []); [|reflexivity|unfold inv; cbn [s_start s_end s_buf]; lia|reflexivity].
    cbn [s_old s_buf s_start s_end s_err s_empties s_max]. rewrite overwrite_nil by lia. reflexivity.
  - assert (firstn size (b :: buf) = b :: buf) as Hall by (apply firstn_all2; lia).
    assert (skipn size (b :: buf) = []) as Hnone by (apply skipn_all2; lia).
    rewrite (fill_data bytes_reader _ (b :: buf) _ [] (length (b :: buf)) (b :: buf)).
    + cbn [s_old s_buf s_start s_end s_err s_empties s_max]. rewrite Nat.add_0_l. reflexivity.
    + cbn [s_buf s_end]. rewrite repeat_length, Nat.sub_0_r. unfold bytes_reader. rewrite Hall, Hnone. reflexivity.
    + cbn [s_buf s_end]. rewrite repeat_length. cbn [length] in *. lia.
Qed.

Lemma first_settled buf : length buf <= 2049 -> settled_mem (first_state buf).
Proof.
  intros Hlen. assert (length (s_buf (first_state buf)) = startBufSize) as Hb.
  { unfold first_state. cbn [s_buf]. rewrite overwrite_length; rewrite repeat_length; lia. }
  unfold settled_mem, inv. rewrite Hb. cbn [first_state s_start s_end].
  assert (2049 < startBufSize /\ 2049 <= S (startBufSize / 2)) as [H1 H2]
    by (split; apply Nat.leb_le; vm_compute; reflexivity).
  lia.
Qed.

Lemma first_collect buf sls r s : length buf <= 2049 ->
  collects ScanGraphemeClusters bytes_reader buf NewScanner sls r s ->
  scans ScanGraphemeClusters bytes_reader buf NewScanner (map (bytes_of s) sls) r s.
Proof.
  intros Hlen Hc. pose proof (first_more buf Hlen) as Hm. pose proof (first_settled buf Hlen) as S0.
  assert (s_err NewScanner = None /\ s_start NewScanner = s_end NewScanner) as [He Hse] by (split; reflexivity).
  remember NewScanner as s0 eqn:Es0. clear Es0.
  inversion Hc as [r1 s1 r2 s2 E E1 E2|r1 s1 ra sa sl sls' r2 s2 E Hc' E1 E2]; subst.
  - constructor. exact E.
  - pose proof E as E'. destruct (Scan_fuel bytes_reader buf s0) as [fuel Hf]. rewrite Hf in E'.
    rewrite iter_none in E' by assumption. rewrite Hm in E'. cbn [bind] in E'.
    destruct (loop_keeps _ good _ _ _ _ _ S0 E') as (-> & O1 & B1 & S1).
    destruct (collects_keeps _ good _ _ _ _ S1 Hc') as (O2 & B2 & Hs).
    cbn [map]. rewrite (bytes_of_same s sa sl) by congruence. econstructor; eauto.
Qed.

(* For buffers of up to 2049 bytes the allTokens helper returns the tokens. *)
Theorem C39_short : forall buf toks err,
  length buf <= 2049 -> allTokens ScanGraphemeClusters buf toks err ->
  tokenises buf toks /\ err = None.
Proof.
  intros buf toks err Hlen Ha. inversion Ha as [sls r s Hc E1 E2]. subst toks err. clear Ha.
  pose proof (first_collect buf sls r s Hlen Hc) as Hs.
  destruct (tokenises_total buf) as [toks Ht].
  assert (2049 + 4 <= MaxScanTokenSize) as Hm by (apply Nat.leb_le; vm_compute; reflexivity).
  assert (1 <= MaxScanTokenSize) as Hm1 by lia.
  destruct (C23_scanner _ bytes_reader buf buf NewScanner MaxScanTokenSize toks
              (bytes_reader_delivers buf 100) fresh_default Ht Hm1) as (_ & K).
  - pose proof (tokenises_concat _ _ Ht) as Hcat. apply Forall_forall. intros t Hin.
    apply in_split in Hin. destruct Hin as (l1 & l2 & ->).
    rewrite concat_app in Hcat. cbn [concat] in Hcat.
    apply (f_equal (@length _)) in Hcat. rewrite !app_length in Hcat. lia.
  - specialize (K _ _ _ Hs). destruct K as [K K']. rewrite K, K'. auto.
Qed.

(* ... and it always returns *)
Theorem C39_returns : forall buf, exists toks err, allTokens ScanGraphemeClusters buf toks err.
Proof.
  assert (H : forall R (rd : reader R) r s toks r' s', scans ScanGraphemeClusters rd r s toks r' s' ->
    exists sls, collects ScanGraphemeClusters rd r s sls r' s').
  { induction 1 as [r s r' s' E|r s ra sa sl toks r' s' E H [sls IH]].
    - exists []. constructor. exact E.
    - exists (sl :: sls). econstructor; eauto. }
  intros buf.
  destruct (fresh_scans bytes_reader buf buf EOF NewScanner _ fresh_default (bytes_reader_delivers buf 100))
    as (_ & toks & r & s & _ & Hs & _).
  destruct (H _ _ _ _ _ _ _ Hs) as [sls Hc]. eexists; eexists. econstructor. exact Hc.
Qed.

(* One byte more and the helper can be wrong: "a", "b", "c" with 1023 combining
   acute accents, "d" comes out with "d" for the first token. *)
Definition long_text : list byte :=
  [x61; x62; x63] ++ concat (repeat [xcc; x81] 1023) ++ [x64].

Fixpoint collect (n : nat) (r : list byte) (s : scanner) : res (list slice * list byte * scanner) :=
  match n with
  | O => Panic OutOfFuel
  | S n' =>
      let! (r', s', o) := Scan ScanGraphemeClusters bytes_reader r s in
      match o with
      | None => Ret ([], r', s')
      | Some sl => let! (sls, r2, s2) := collect n' r' s' in Ret (sl :: sls, r2, s2)
      end
  end.

Lemma collect_collects : forall n r s sls r' s', collect n r s = Ret (sls, r', s') ->
  collects ScanGraphemeClusters bytes_reader r s sls r' s'.
Proof.
  induction n as [|n IH]; intros r s sls r' s' H; [discriminate|]. cbn [collect] in H.
  destruct (Scan ScanGraphemeClusters bytes_reader r s) as [[[r1 s1] o]|p] eqn:E; [|discriminate].
  cbn [bind] in H. destruct o as [sl|].
  - destruct (collect n r1 s1) as [[[sls1 r2] s2]|p] eqn:E2; [|discriminate]. cbn [bind] in H.
    injection H as <- <- <-. econstructor; eauto.
  - injection H as <- <- <-. constructor. exact E.
Qed.

Definition first_is (toks : list (list byte)) (b : byte) : bool :=
  match toks with [c] :: _ => Byte.eqb b c | _ => false end.

Lemma first_is_cons toks b : first_is toks b = true -> exists toks', toks = [b] :: toks'.
Proof.
  destruct toks as [|[|c [|]] toks]; cbn [first_is]; try discriminate.
  intros H. apply Byte.byte_dec_bl in H. subst. eauto.
Qed.

Lemma long_text_collect : match collect 6 long_text NewScanner with
  | Ret (sls, r, s) => first_is (map (bytes_of s) sls) x64
  | Panic _ => false
  end = true.
Proof. vm_compute. reflexivity. Qed.

Theorem C39_refuted : exists buf toks err,
  length buf = 2050 /\ allTokens ScanGraphemeClusters buf toks err /\ ~ tokenises buf toks.
Proof.
  pose proof long_text_collect as H.
  destruct (collect 6 long_text NewScanner) as [[[sls r] s]|p] eqn:E; [|discriminate].
  exists long_text, (map (bytes_of s) sls), (Err s). split; [vm_compute; reflexivity|]. split.
  - econstructor. eapply collect_collects. exact E.
  - intros Ht. apply tokenises_concat in Ht. destruct (first_is_cons _ _ H) as [toks' Et].
    rewrite Et in Ht. apply (f_equal (@hd_error byte)) in Ht. cbn [concat app hd_error] in Ht.
    assert (hd_error long_text = Some x61) as K by reflexivity. rewrite K in Ht. discriminate.
Qed.

(* Whatever the reader's schedule, and whatever it does to the space beyond the
   bytes it reports: as long as it delivers at most 2048 bytes, keeping the
   slices of a default scanner is safe. *)
Theorem C39_any_reader : forall R (rd : reader R) r input e sls r' s',
  delivers rd 100 r input e -> length input <= 2048 ->
  collects ScanGraphemeClusters rd r NewScanner sls r' s' ->
  tokenises input (map (bytes_of s') sls) /\ Err s' = match e with EOF => None | _ => Some e end.
Proof.
  intros R rd r input e sls r' s' Hd Hlen Hc.
  assert (2048 <= Nat.min startBufSize (s_max NewScanner) / 2 /\ 2048 + 4 <= MaxScanTokenSize) as [H1 H2]
    by (split; apply Nat.leb_le; vm_compute; reflexivity).
  assert (0 < s_max NewScanner) as H0 by (apply Nat.ltb_lt; vm_compute; reflexivity).
  assert (bare NewScanner) as Hb by (split; [|split; [|split]]; reflexivity).
  pose proof (bare_collects _ rd e r NewScanner input sls r' s' good Hb H0 Hd (Nat.le_trans _ _ _ Hlen H1) Hc) as Hs.
  pose proof fresh_default as Hf. remember NewScanner as s0 eqn:Es. clear Es Hb H0 H1 Hc.
  destruct (fresh_scans rd r input e s0 _ Hf Hd) as (toks0 & toks1 & r1 & s1 & Ht0 & Hs1 & Hr).
  destruct (scans_unique _ _ _ _ _ _ _ Hs1 _ _ _ Hs) as (-> & -> & ->).
  destruct Hr as [[-> He]|(_ & toks2 & d & ext & Et & Hx & Hn & Hl)].
  - split; [exact Ht0|]. unfold Err. rewrite He. destruct e; reflexivity.
  - exfalso. apply tokenises_concat in Ht0. apply tokenises_concat in Hx.
    apply (f_equal (@length byte)) in Ht0. rewrite Et, concat_app, app_length, Hx, app_length, Hl in Ht0.
    generalize dependent MaxScanTokenSize. intros. lia.
Qed.

(* The bound is sharp: a reader that delivers 2049 bytes at once and then, with
   io.EOF, leaves something in the space it was offered. *)
Definition edge_text : list byte := [x61; x62] ++ concat (repeat [xcc; x81] 1023) ++ [xff].
Definition messy : reader (list byte) := fun rest k =>
  match rest with
  | [] => ([], Reply 0 (repeat x7a k) (Some EOF))
  | _ => (skipn k rest, Reply (Z.of_nat (length (firstn k rest))) (firstn k rest) None)
  end.

Lemma messy_delivers : forall input m, delivers messy m input input EOF.
Proof.
  intros input. remember (length input) as k eqn:Ek. revert input Ek.
  induction k as [k IH] using lt_wf_ind. intros input -> m. constructor. intros space Hs.
  destruct input as [|b input].
  - apply replies_last with (r' := []) (scratch := repeat x7a space); [reflexivity|cbn [length]; lia].
  - rewrite <- (firstn_skipn space (b :: input)) at 2.
    apply replies_some with (r' := skipn space (b :: input)) (scratch := []).
    + rewrite app_nil_r. reflexivity.
    + destruct space; [lia|discriminate].
    + rewrite firstn_length. lia.
    + apply (IH (length (skipn space (b :: input)))); [|reflexivity]. rewrite skipn_length. cbn [length]. lia.
Qed.

Fixpoint collect_messy (n : nat) (r : list byte) (s : scanner) : res (list slice * list byte * scanner) :=
  match n with
  | O => Panic OutOfFuel
  | S n' =>
      let! (r', s', o) := Scan ScanGraphemeClusters messy r s in
      match o with
      | None => Ret ([], r', s')
      | Some sl => let! (sls, r2, s2) := collect_messy n' r' s' in Ret (sl :: sls, r2, s2)
      end
  end.

Lemma collect_messy_collects : forall n r s sls r' s', collect_messy n r s = Ret (sls, r', s') ->
  collects ScanGraphemeClusters messy r s sls r' s'.
Proof.
  induction n as [|n IH]; intros r s sls r' s' H; [discriminate|]. cbn [collect_messy] in H.
  destruct (Scan ScanGraphemeClusters messy r s) as [[[r1 s1] o]|p] eqn:E; [|discriminate].
  cbn [bind] in H. destruct o as [sl|].
  - destruct (collect_messy n r1 s1) as [[[sls1 r2] s2]|p] eqn:E2; [|discriminate]. cbn [bind] in H.
    injection H as <- <- <-. econstructor; eauto.
  - injection H as <- <- <-. constructor. exact E.
Qed.

Lemma edge_text_collect : match collect_messy 6 edge_text NewScanner with
  | Ret (sls, r, s) => first_is (map (bytes_of s) sls) x7a
  | Panic _ => false
  end = true.
Proof. vm_compute. reflexivity. Qed.

Theorem C39_any_reader_sharp : exists R (rd : reader R) r input sls r' s',
  delivers rd 100 r input EOF /\ length input = 2049 /\
  collects ScanGraphemeClusters rd r NewScanner sls r' s' /\ ~ tokenises input (map (bytes_of s') sls).
Proof.
  pose proof edge_text_collect as H.
  destruct (collect_messy 6 edge_text NewScanner) as [[[sls r] s]|p] eqn:E; [|discriminate].
  exists (list byte), messy, edge_text, edge_text, sls, r, s.
  split; [apply messy_delivers|]. split; [vm_compute; reflexivity|]. split; [eapply collect_messy_collects; exact E|].
  intros Ht. apply tokenises_concat in Ht. destruct (first_is_cons _ _ H) as [toks' Et].
  rewrite Et in Ht. apply (f_equal (@hd_error byte)) in Ht. cbn [concat app hd_error] in Ht.
  assert (hd_error edge_text = Some x61) as K by reflexivity. rewrite K in Ht. discriminate.
Qed.

Definition all_theorems :=
  (C23_scanner, C24_guards, C24_no_bad_advance, C25_too_long, C25_reported, C26_reader_failure,
   bytes_reader_delivers, nagging_delivers, C39_short, C39_returns, C39_refuted, C39_any_reader,
   C39_any_reader_sharp).
Print Assumptions all_theorems.
