(* C77: the source text under bufio.Scanner.  A scanner whose split function is
   ScanGraphemeClusters executed from its source files delivers the clusters of
   UAX #29, over every reader. *)
From Coq Require Import List NArith ZArith Arith Bool Lia Strings.String Strings.Byte.
From Verif Require Import Spec.Classes Spec.Utf8 Spec.UAX29 Spec.UcdRanges Spec.Segmentation Spec.Readers.
From Verif Require Import Model.Base Model.Scan Model.Bufio Model.Drivers Model.GoSyntax Model.GoSemantics Model.GoLibrary Model.GoRuns Model.GoSplit.
From Verif Require Import Proofs.TextFacts Proofs.ScanFacts Proofs.DriverFacts Proofs.BufioFacts.
From Verif Require Import Properties.Splitting Properties.Unicode Properties.Bufio Properties.Source Properties.SourceText.
Import ListNotations.
Local Open Scope list_scope.

Local Notation len := List.length (only parsing).
Local Opaque MaxScanTokenSize.

(* Each call. *)
Theorem C77_split : forall w f data atEOF, exported f -> (16 <= w)%Z -> (Z.of_nat (len data) < 2 ^ (w - 1))%Z ->
  go_split w f data atEOF = ScanGraphemeClusters data atEOF.
Proof.
  intros w f data atEOF Hx Hw Hl. unfold go_split.
  assert (exists n token, ScanGraphemeClusters data atEOF = Ret (n, token, None) /\
    go_call w (len data + 4) 5 f [VBytes data; VBool atEOF] = Ret [go_int n; go_token token; VNil]) as (n & token & E & R).
  { destruct Hx as [-> | ->].
    - exact (C73_scan w (len data + 4) 5 data atEOF Hw Hl (le_n _) (le_S _ _ (le_n _))).
    - exact (C73_autoversion w (len data + 4) 5 data atEOF Hw Hl (le_n _) (le_n _)). }
  rewrite R, E. cbn [bind]. unfold go_int, split_result. rewrite (proj2 (Z.ltb_ge _ _) (Nat2Z.is_nonneg n)), Nat2Z.id.
  destruct token; reflexivity.
Qed.

Section Agree.
Context (f g : splitfunc) (L : nat) (G : good_split g) (agree : forall d eof, len d <= L -> f d eof = g d eof).

Lemma loop_agrees {R} (rd : reader R) : forall fuel r s, inv s -> limit s <= L ->
  scan_loop_bufio f rd fuel r s = scan_loop_bufio g rd fuel r s.
Proof.
  induction fuel as [|fuel IH]; intros r s I Hl; [reflexivity|]. cbn [scan_loop_bufio].
  assert (forall s, inv s -> limit s <= L ->
    (let! (r', s', again) := more rd r s in if again then scan_loop_bufio f rd fuel r' s' else Ret (r', s', None)) =
    (let! (r', s', again) := more rd r s in if again then scan_loop_bufio g rd fuel r' s' else Ret (r', s', None))) as Hm.
  { intros s0 I0 L0. destruct (more_any rd r s0 I0) as (r1 & s1 & again & -> & I1 & L1 & _). cbn [bind].
    destruct again; [|reflexivity]. apply IH; [exact I1|lia]. }
  destruct (_ || _); [|apply Hm; assumption].
  rewrite (held_ok s I). cbn [bind]. rewrite agree by (rewrite data_length by exact I; unfold inv, limit in *; lia).
  destruct (g (data s) _) as [[[adv tok] [e|]]|p]; cbn [bind]; try reflexivity.
  destruct (Nat.ltb _ adv) eqn:A; [reflexivity|]. destruct tok as [t|]; [reflexivity|].
  apply Nat.ltb_ge in A. apply Hm; unfold inv, limit in *; cbn [s_start s_end s_buf s_max]; lia.
Qed.

Lemma Scan_agrees {R} (rd : reader R) r s : inv s -> limit s <= L -> Scan f rd r s = Scan g rd r s.
Proof. apply loop_agrees. Qed.

Lemma Scan_keeps {R} (rd : reader R) r s r' s' o : inv s -> limit s <= L -> Scan g rd r s = Ret (r', s', o) -> inv s' /\ limit s' <= L.
Proof.
  intros I Hl E. destruct (Scan_any g rd r s G I) as (r2 & s2 & o2 & E2 & I2 & L2 & _).
  assert (s2 = s') as -> by (rewrite E in E2; congruence). split; [exact I2|lia].
Qed.

Lemma scans_agree {R} (rd : reader R) r s toks r' s' : inv s -> limit s <= L ->
  scans f rd r s toks r' s' <-> scans g rd r s toks r' s'.
Proof.
  intros I Hl. split; intros H; revert I Hl.
  - induction H as [r s r' s' E|r s r1 s1 sl toks r' s' E H IH]; intros I Hl; rewrite Scan_agrees in E by assumption.
    + constructor. exact E.
    + econstructor; [exact E|]. destruct (Scan_keeps _ _ _ _ _ _ I Hl E). auto.
  - induction H as [r s r' s' E|r s r1 s1 sl toks r' s' E H IH]; intros I Hl.
    + constructor. rewrite Scan_agrees; assumption.
    + destruct (Scan_keeps _ _ _ _ _ _ I Hl E). rewrite <- Scan_agrees in E by assumption. econstructor; [exact E|]. auto.
Qed.

Lemma collects_agree {R} (rd : reader R) r s sls r' s' : inv s -> limit s <= L ->
  collects f rd r s sls r' s' <-> collects g rd r s sls r' s'.
Proof.
  intros I Hl. split; intros H; revert I Hl.
  - induction H as [r s r' s' E|r s r1 s1 sl toks r' s' E H IH]; intros I Hl; rewrite Scan_agrees in E by assumption.
    + constructor. exact E.
    + econstructor; [exact E|]. destruct (Scan_keeps _ _ _ _ _ _ I Hl E). auto.
  - induction H as [r s r' s' E|r s r1 s1 sl toks r' s' E H IH]; intros I Hl.
    + constructor. rewrite Scan_agrees; assumption.
    + destruct (Scan_keeps _ _ _ _ _ _ I Hl E). rewrite <- Scan_agrees in E by assumption. econstructor; [exact E|]. auto.
Qed.
End Agree.

(* [capacity] bytes can be counted by an int. *)
Definition countable (w : Z) (capacity : nat) : Prop := (16 <= w)%Z /\ (Z.of_nat capacity < 2 ^ (w - 1))%Z.

Lemma split_agrees w f capacity : exported f -> countable w capacity ->
  forall d eof, len d <= capacity -> go_split w f d eof = ScanGraphemeClusters d eof.
Proof. intros Hx [Hw Hc] d eof Hl. apply C77_split; [exact Hx|exact Hw|lia]. Qed.

(* Every Scan of every history. *)
Lemma history_reaches w f capacity R (rd : reader R) r0 s0 r s : exported f -> countable w capacity -> fresh s0 capacity ->
  history (go_split w f) rd r0 s0 r s -> inv s /\ limit s = capacity /\ reaches rd r0 s0 r s.
Proof.
  intros Hx Hc Hf H. induction H as [r s|r s r1 s1 r2 s2 o H IH E].
  - destruct (fresh_facts s capacity Hf) as (I & Hl & _). split; [exact I|split; [exact Hl|constructor]].
  - destruct (IH Hf) as (I & Hl & Hr).
    rewrite (Scan_agrees _ _ _ (split_agrees w f capacity Hx Hc)) in E by (assumption || lia).
    destruct (Scan_any ScanGraphemeClusters rd r1 s1 good I) as (r3 & s3 & o3 & E3 & I3 & L3 & _).
    assert (s3 = s2) as -> by (rewrite E in E3; congruence).
    split; [exact I3|split; [lia|]]. econstructor; [exact Hr|exact E].
Qed.

Theorem C77_history : forall w f capacity R (rd : reader R) r0 s0 r s,
  exported f -> countable w capacity -> fresh s0 capacity -> history (go_split w f) rd r0 s0 r s ->
  Scan (go_split w f) rd r s = Scan ScanGraphemeClusters rd r s.
Proof.
  intros w f capacity R rd r0 s0 r s Hx Hc Hf H.
  destruct (history_reaches w f capacity R rd r0 s0 r s Hx Hc Hf H) as (I & Hl & _).
  apply (Scan_agrees _ _ _ (split_agrees w f capacity Hx Hc)); [exact I|lia].
Qed.

(* As C24: whatever the reader does and however often Scan is called, also after it has returned
   false, it returns; tokens are not empty and fit; and the only errors are those of
   over-long tokens, of readers that misbehave, and the reader's own. *)
Theorem C77_guards : forall w f R (rd : reader R) r0 s0 capacity r s,
  exported f -> countable w capacity -> fresh s0 capacity -> history (go_split w f) rd r0 s0 r s ->
  exists r' s' o, Scan (go_split w f) rd r s = Ret (r', s', o) /\
    match o with
    | Some token => 1 <= len (bytes_of s' token) <= capacity
    | None => True
    end /\
    (forall e, Err s' = Some e ->
       e = ErrTooLong \/ e = ErrBadReadCount \/ e = ErrNoProgress \/
       (exists r1 space, r_err (snd (rd r1 space)) = Some e)).
Proof.
  intros w f R rd r0 s0 capacity r s Hx Hc Hf H. rewrite (C77_history w f capacity R rd r0 s0 r s Hx Hc Hf H).
  destruct (history_reaches w f capacity R rd r0 s0 r s Hx Hc Hf H) as (_ & _ & Hr).
  exact (C24_guards R rd r0 s0 capacity r s Hf Hr).
Qed.

(* for scanner.Scan() { ... scanner.Bytes() ... } *)
Lemma go_scans w f capacity R (rd : reader R) r s toks r' s' : exported f -> countable w capacity -> fresh s capacity ->
  scans (go_split w f) rd r s toks r' s' <-> scans ScanGraphemeClusters rd r s toks r' s'.
Proof.
  intros Hx Hc Hf. destruct (fresh_facts s capacity Hf) as (I & Hl & _).
  apply (scans_agree _ _ capacity good (split_agrees w f capacity Hx Hc)); [exact I|lia].
Qed.

(* UAX #29: a text delivered by any reader, in pieces of any sizes.  The loop ends, the
   tokens are the clusters, and Err() is nil, or the error the reader ended with. *)
Theorem C77_unicode : forall w f R (rd : reader R) r cs s capacity e,
  exported f -> countable w capacity -> fresh s capacity -> 1 <= capacity ->
  Forall scalar cs -> delivers rd 100 r (utf8_text cs) e ->
  (forall segs, clusters ucd_class cs segs -> Forall (fun seg => len (utf8_text seg) + 4 <= capacity) segs) ->
  exists segs, clusters ucd_class cs segs /\
    (exists r' s', scans (go_split w f) rd r s (map utf8_text segs) r' s') /\
    (forall toks r' s', scans (go_split w f) rd r s toks r' s' ->
       toks = map utf8_text segs /\ Err s' = match e with EOF => None | _ => Some e end).
Proof.
  intros w f R rd r cs s capacity e Hx Hc Hf H1 Hcs Hd Hfit.
  destruct (tokenises_total (utf8_text cs)) as [toks Ht].
  destruct (proj1 (C08_conformance cs toks Hcs) Ht) as (segs & Hs & ->). exists segs. split; [exact Hs|].
  assert (Forall (fun t => len t + 4 <= capacity) (map utf8_text segs)) as Hfit'.
  { specialize (Hfit segs Hs). clear - Hfit. induction Hfit; constructor; assumption. }
  assert (e = EOF \/ e <> EOF) as [->|He] by (destruct e; (left; reflexivity) || (right; discriminate)).
  - destruct (C23_scanner R rd r _ s capacity _ Hd Hf Ht H1 Hfit') as [(r' & s' & A) B]. split.
    + exists r', s'. exact (proj2 (go_scans w f capacity R rd r s _ r' s' Hx Hc Hf) A).
    + intros t r2 s2 S. exact (B t r2 s2 (proj1 (go_scans w f capacity R rd r s t r2 s2 Hx Hc Hf) S)).
  - destruct (C26_reader_failure R rd r _ e s capacity _ Hd He Hf Ht H1 Hfit') as [(r' & s' & A) B]. split.
    + exists r', s'. exact (proj2 (go_scans w f capacity R rd r s _ r' s' Hx Hc Hf) A).
    + intros t r2 s2 S. destruct (B t r2 s2 (proj1 (go_scans w f capacity R rd r s t r2 s2 Hx Hc Hf) S)) as [-> ->].
      split; [reflexivity|]. destruct e; congruence.
Qed.

(* All bytes: as C09. *)
Theorem C77_bytes : forall w f R (rd : reader R) r input s capacity,
  exported f -> countable w capacity -> fresh s capacity -> 1 <= capacity -> delivers rd 100 r input EOF ->
  exists its segs, reads input its /\ clusters item_class its segs /\
    (Forall (fun seg => len (items_bytes seg) + 4 <= capacity) segs ->
     (exists r' s', scans (go_split w f) rd r s (map items_bytes segs) r' s') /\
     (forall toks r' s', scans (go_split w f) rd r s toks r' s' -> toks = map items_bytes segs /\ Err s' = None)).
Proof.
  intros w f R rd r input s capacity Hx Hc Hf H1 Hd.
  destruct (tokenises_total input) as [toks Ht]. destruct (C09_arbitrary_bytes input) as (its & Hi & _ & T).
  destruct (proj1 (T toks) Ht) as (segs & Hs & ->). exists its, segs. split; [exact Hi|split; [exact Hs|]].
  intros Hfit. assert (Forall (fun t => len t + 4 <= capacity) (map items_bytes segs)) as Hfit'.
  { clear - Hfit. induction Hfit; constructor; assumption. }
  destruct (C23_scanner R rd r _ s capacity _ Hd Hf Ht H1 Hfit') as [(r' & s' & A) B]. split.
  - exists r', s'. exact (proj2 (go_scans w f capacity R rd r s _ r' s' Hx Hc Hf) A).
  - intros t r2 s2 S. exact (B t r2 s2 (proj1 (go_scans w f capacity R rd r s t r2 s2 Hx Hc Hf) S)).
Qed.

(* A cluster that exceeds the capacity is reported, never split, and the tokens before it
   are the leading clusters: as C25. *)
Theorem C77_too_long : forall w f R (rd : reader R) r cs s capacity e,
  exported f -> countable w capacity -> fresh s capacity -> 1 <= capacity ->
  Forall scalar cs -> delivers rd 100 r (utf8_text cs) e -> e <> ErrTooLong ->
  exists segs, clusters ucd_class cs segs /\
    forall toks r' s', scans (go_split w f) rd r s toks r' s' ->
      (Exists (fun seg => capacity < len (utf8_text seg)) segs -> Err s' = Some ErrTooLong) /\
      (Err s' = Some ErrTooLong -> exists segs1 seg segs2, segs = segs1 ++ seg :: segs2 /\
         toks = map utf8_text segs1 /\ capacity < len (utf8_text seg) + 4).
Proof.
  intros w f R rd r cs s capacity e Hx Hc Hf H1 Hcs Hd He.
  destruct (tokenises_total (utf8_text cs)) as [all Ht].
  destruct (proj1 (C08_conformance cs all Hcs) Ht) as (segs & Hs & ->). exists segs. split; [exact Hs|].
  intros toks r' s' S. apply (proj1 (go_scans w f capacity R rd r s toks r' s' Hx Hc Hf)) in S. split.
  - intros Hlong. apply (C25_reported R rd r (utf8_text cs) e s capacity (map utf8_text segs) toks r' s'); try assumption.
    clear - Hlong. induction Hlong; [apply Exists_cons_hd|apply Exists_cons_tl]; assumption.
  - intros Herr. destruct (C25_too_long R rd r (utf8_text cs) e s capacity toks r' s' Hd He Hf S Herr) as (rest & Hr & Hcap).
    destruct Hcap as [->|(t & rest' & -> & Hlt)]; [lia|].
    assert (map utf8_text segs = toks ++ t :: rest') as E by (eapply tokenises_unique; eassumption).
    destruct (map_eq_app _ _ _ _ E) as (segs1 & segs2 & -> & <- & E2).
    destruct segs2 as [|seg segs2]; [discriminate E2|]. cbn [map] in E2.
    exists segs1, seg, segs2. split; [reflexivity|split; [reflexivity|]].
    assert (t = utf8_text seg) as -> by congruence. exact Hlt.
Qed.

(* The default maximum is countable, on every platform Go supports. *)
Lemma default_countable w : (18 <= w)%Z -> countable w MaxScanTokenSize.
Proof.
  intros Hw. split; [lia|]. apply Z.lt_le_trans with (2 ^ 17)%Z; [|apply Z.pow_le_mono_r; lia].
  apply Z.ltb_lt. vm_compute. reflexivity.
Qed.

(* The slices themselves, kept without copying: what a caller of a scanner over the
   executed source can hold is what it can hold over the model. *)
Theorem C77_collects : forall w f capacity R (rd : reader R) r s sls r' s',
  exported f -> countable w capacity -> fresh s capacity ->
  (collects (go_split w f) rd r s sls r' s' <-> collects ScanGraphemeClusters rd r s sls r' s').
Proof.
  intros w f capacity R rd r s sls r' s' Hx Hc Hf. destruct (fresh_facts s capacity Hf) as (I & Hl & _).
  apply (collects_agree _ _ capacity good (split_agrees w f capacity Hx Hc)); [exact I|lia].
Qed.

(* allTokens of at most 2049 bytes (as C39): the clusters. *)
Theorem C77_allTokens : forall w f buf, exported f -> (18 <= w)%Z ->
  (exists toks err, allTokens (go_split w f) buf toks err) /\
  (forall toks err, List.length buf <= 2049 -> allTokens (go_split w f) buf toks err -> go_tokenises w f buf toks /\ err = None).
Proof.
  intros w f buf Hx Hw. pose proof (default_countable w Hw) as Hc.
  assert (forall toks err, allTokens (go_split w f) buf toks err <-> allTokens ScanGraphemeClusters buf toks err) as A.
  { intros toks err. split; intros H; inversion H as [sls r s C E1 E2]; constructor 1 with (r := r).
    - exact (proj1 (C77_collects w f MaxScanTokenSize (list byte) bytes_reader buf NewScanner sls r s Hx Hc fresh_default) C).
    - exact (proj2 (C77_collects w f MaxScanTokenSize (list byte) bytes_reader buf NewScanner sls r s Hx Hc fresh_default) C). }
  split.
  - destruct (C39_returns buf) as (toks & err & H). exists toks, err. exact (proj2 (A toks err) H).
  - intros toks err Hl H. destruct (C39_short buf toks err Hl (proj1 (A toks err) H)) as [T ->]. split; [|reflexivity].
    apply C74_tokens; [exact Hx|lia| |exact T].
    apply Z.lt_le_trans with (2 ^ 17)%Z; [|apply Z.pow_le_mono_r; lia]. lia.
Qed.

(* Two flags and "e" acute, one byte at a time with empty reads in between, through a
   buffer that has to grow: ints of 64 bits. *)
Example C77_example :
  let cs := [0x1F1E6; 0x1F1E9; 0x1F1E6; 0x1F1EA; 0x65; 0x301]%N in
  (exists segs, clusters ucd_class cs segs) /\ Forall scalar cs /\
  delivers (nagging EOF) 100 (true, utf8_text cs) (utf8_text cs) EOF /\
  countable 64 12 /\ fresh (with_buffer [] 12) 12 /\
  forall toks r' s', scans (go_split 64 "autoversion.ScanGraphemeClusters") (nagging EOF) (true, utf8_text cs) (with_buffer [] 12) toks r' s' ->
    toks = [[xf0; x9f; x87; xa6; xf0; x9f; x87; xa9]; [xf0; x9f; x87; xa6; xf0; x9f; x87; xaa]; [x65; xcc; x81]] /\ Err s' = None.
Proof.
  intros cs. assert (Forall scalar cs) as Hs by (repeat (apply Forall_cons; [apply scalarb_spec; reflexivity|]); apply Forall_nil).
  assert (tokenises (utf8_text cs) [[xf0; x9f; x87; xa6; xf0; x9f; x87; xa9]; [xf0; x9f; x87; xa6; xf0; x9f; x87; xaa]; [x65; xcc; x81]]) as T
    by (apply C04_tokens_fn; vm_compute; reflexivity).
  assert (delivers (nagging EOF) 100 (true, utf8_text cs) (utf8_text cs) EOF) as D by (apply nagging_delivers; lia).
  assert (countable 64 12) as Hc by (split; [lia|reflexivity]).
  assert (fresh (with_buffer [] 12) 12) as Hf by (apply (fresh_buffer [] 12); lia).
  split; [|split; [exact Hs|split; [exact D|split; [exact Hc|split; [exact Hf|]]]]].
  - destruct (proj1 (C08_conformance cs _ Hs) T) as (segs & S & _). exists segs. exact S.
  - intros toks r' s' S.
    apply (proj1 (go_scans 64 "autoversion.ScanGraphemeClusters" 12 _ (nagging EOF) _ _ toks r' s' (or_intror eq_refl) Hc Hf)) in S.
    refine (proj2 (C23_scanner _ (nagging EOF) _ _ _ 12 _ D Hf T _ _) toks r' s' S); [lia|].
    repeat (apply Forall_cons; [cbn; lia|]). apply Forall_nil.
Qed.

Definition all_theorems := (C77_split, C77_history, C77_guards, C77_unicode, C77_bytes, C77_too_long, C77_collects, C77_allTokens).
Print Assumptions all_theorems.
