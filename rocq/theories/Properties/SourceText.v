(* C74: the source text itself conforms.  What a caller gets from the library executed
   from its source files is what UAX #29 says, with nothing of the model in between. *)
From Coq Require Import List NArith ZArith Arith Bool Lia Strings.String Strings.Byte.
From Verif Require Import Spec.Classes Spec.Utf8 Spec.UAX29 Spec.UcdRanges Spec.Segmentation.
From Verif Require Import Model.Base Model.Scan Model.Drivers Model.GoSyntax Model.GoSemantics Model.GoLibrary Model.GoRuns.
From Verif Require Import Proofs.TextFacts Proofs.GoFuel Properties.Splitting Properties.Unicode Properties.Source.
Import ListNotations.
Local Open Scope list_scope.

Local Notation len := List.length (only parsing).

(* More iterations and deeper calls never change what a call returns or how it panics;
   so a call returns at most one thing. *)
Theorem C74_more : forall w fuel fuel' depth depth' f vs r,
  go_call w fuel depth f vs = r -> r <> no_answer -> fuel <= fuel' -> depth <= depth' ->
  go_call w fuel' depth' f vs = r.
Proof.
  intros w fuel fuel' depth depth' f vs r E N Hf Hd. rewrite go_call_eq in *.
  match type of E with call _ _ ?g _ _ _ = _ => destruct (call_grows w g fuel fuel' Hf depth depth' Hd f vs) as [F|F] end;
    [destruct N; congruence|congruence].
Qed.

Theorem C74_deterministic : forall w f vs r r', go_returns w f vs r -> go_returns w f vs r' -> r = r'.
Proof.
  intros w f vs r r' (n & d & E) (n' & d' & E').
  pose proof (C74_more w n (Nat.max n n') d (Nat.max d d') f vs _ E ltac:(discriminate) ltac:(lia) ltac:(lia)) as F.
  pose proof (C74_more w n' (Nat.max n n') d' (Nat.max d d') f vs _ E' ltac:(discriminate) ltac:(lia) ltac:(lia)) as F'.
  congruence.
Qed.

(* What the executed source returns is what the model returns. *)
Theorem C74_returns : forall w f data atEOF r, exported f -> (16 <= w)%Z -> (Z.of_nat (len data) < 2 ^ (w - 1))%Z ->
  (go_returns w f [VBytes data; VBool atEOF] r <->
   exists n token, ScanGraphemeClusters data atEOF = Ret (n, token, None) /\ r = [go_int n; go_token token; VNil]).
Proof.
  intros w f data atEOF r Hx Hw Hl.
  assert (exists n token, ScanGraphemeClusters data atEOF = Ret (n, token, None) /\
    go_returns w f [VBytes data; VBool atEOF] [go_int n; go_token token; VNil]) as (n & token & E & R).
  { destruct Hx as [-> | ->].
    - destruct (C73_scan w (len data + 4) 4 data atEOF Hw Hl (le_n _) (le_n _)) as (n & token & E & R).
      exists n, token. split; [exact E|]. exists (len data + 4), 4. exact R.
    - destruct (C73_autoversion w (len data + 4) 5 data atEOF Hw Hl (le_n _) (le_n _)) as (n & token & E & R).
      exists n, token. split; [exact E|]. exists (len data + 4), 5. exact R. }
  split.
  - intros H. exists n, token. split; [exact E|]. exact (C74_deterministic _ _ _ _ _ H R).
  - intros (n' & token' & E' & ->). rewrite E in E'. assert (n' = n /\ token' = token) as [-> ->] by (split; congruence). exact R.
Qed.

Lemma token_iff w f data atEOF n token : exported f -> (16 <= w)%Z -> (Z.of_nat (len data) < 2 ^ (w - 1))%Z ->
  go_gives w f data atEOF n token <-> exists k, n = Z.of_nat k /\ ScanGraphemeClusters data atEOF = Ret (k, Some token, None).
Proof.
  intros Hx Hw Hl. unfold go_gives. rewrite C74_returns by assumption. unfold go_int. split.
  - intros (k & t & E & R). exists k. destruct t as [t|]; cbn [go_token] in R; [|discriminate R].
    assert (n = Z.of_nat k /\ token = t) as [-> ->] by (split; congruence). split; [reflexivity|exact E].
  - intros (k & -> & E). exists k, (Some token). split; [exact E|reflexivity].
Qed.

Lemma more_empty w f : exported f -> (16 <= w)%Z -> go_asks w f [] true.
Proof.
  intros Hx Hw. apply C74_returns; [exact Hx|exact Hw|apply Z.pow_pos_nonneg; lia|]. exists 0, None. split; reflexivity.
Qed.

(* The tokens. *)
Theorem C74_tokens : forall w f data toks, exported f -> (16 <= w)%Z -> (Z.of_nat (len data) < 2 ^ (w - 1))%Z ->
  (go_tokenises w f data toks <-> tokenises data toks).
Proof.
  intros w f data toks Hx Hw Hl. split; intros H.
  - induction H as [_|data n token toks E _ IH]; [constructor|]. apply token_iff in E; [|assumption|assumption|assumption].
    destruct E as (k & -> & E). rewrite Nat2Z.id in IH. apply (tokenises_step data k); [exact E|]. apply IH.
    rewrite skipn_length. lia.
  - induction H as [|data k token toks E _ IH]; [constructor; apply more_empty; assumption|].
    apply (go_tokenises_step w f data (Z.of_nat k)); [apply token_iff; [assumption|assumption|assumption|]; exists k; auto|].
    rewrite Nat2Z.id. apply IH. rewrite skipn_length. lia.
Qed.

(* UAX #29 on texts, as C08, and on all bytes, as C09. *)
Theorem C74_unicode : forall w f cs toks, exported f -> (16 <= w)%Z ->
  Forall scalar cs -> (Z.of_nat (len (utf8_text cs)) < 2 ^ (w - 1))%Z ->
  (go_tokenises w f (utf8_text cs) toks <->
   exists segs, clusters ucd_class cs segs /\ toks = map utf8_text segs).
Proof. intros w f cs toks Hx Hw Hc Hl. rewrite C74_tokens by assumption. exact (C08_conformance cs toks Hc). Qed.

Theorem C74_bytes : forall w f data, exported f -> (16 <= w)%Z -> (Z.of_nat (len data) < 2 ^ (w - 1))%Z ->
  exists its, reads data its /\ (forall its', reads data its' -> its' = its) /\
    forall toks, go_tokenises w f data toks <->
      exists segs, clusters item_class its segs /\ toks = map items_bytes segs.
Proof.
  intros w f data Hx Hw Hl. destruct (C09_arbitrary_bytes data) as (its & R & U & T). exists its.
  split; [exact R|split; [exact U|]]. intros toks. rewrite C74_tokens by assumption. apply T.
Qed.

(* In chunks, whatever the schedule, as C06. *)
Lemma streams_iff w f : exported f -> (16 <= w)%Z -> forall buf chunks toks,
  (Z.of_nat (len (buf ++ List.concat chunks)) < 2 ^ (w - 1))%Z ->
  (go_streams w f buf chunks toks <-> streams buf chunks toks).
Proof.
  intros Hx Hw buf chunks toks Hl.
  assert (forall k (buf : list byte) chunks, (Z.of_nat (len (buf ++ List.concat chunks)) < 2 ^ (w - 1))%Z ->
    (Z.of_nat (len (skipn k buf ++ List.concat chunks)) < 2 ^ (w - 1))%Z) as Hs.
  { intros k b cs. rewrite !app_length, skipn_length. lia. }
  assert (forall (buf : list byte) chunks, (Z.of_nat (len (buf ++ List.concat chunks)) < 2 ^ (w - 1))%Z ->
    (Z.of_nat (len buf) < 2 ^ (w - 1))%Z) as Hb.
  { intros b cs. rewrite app_length. lia. }
  split; intros H.
  - induction H as [buf c chunks toks H IH|buf chunks n t toks E H IH|buf n t toks E H IH|_].
    + constructor. apply IH. cbn [List.concat] in Hl. rewrite <- app_assoc. exact Hl.
    + apply token_iff in E; [|assumption|assumption|exact (Hb _ _ Hl)]. destruct E as (k & -> & E). rewrite Nat2Z.id in *.
      apply (streams_take buf chunks k); [exact E|]. apply IH, Hs, Hl.
    + apply token_iff in E; [|assumption|assumption|exact (Hb _ _ Hl)]. destruct E as (k & -> & E). rewrite Nat2Z.id in *.
      apply (streams_flush buf k); [exact E|]. apply IH, Hs, Hl.
    + constructor.
  - induction H as [buf c chunks toks H IH|buf chunks k t toks E H IH|buf k t toks E H IH|].
    + constructor. apply IH. cbn [List.concat] in Hl. rewrite <- app_assoc. exact Hl.
    + apply (go_streams_take w f buf chunks (Z.of_nat k)); [apply token_iff; [assumption|assumption|exact (Hb _ _ Hl)|exists k; auto]|].
      rewrite Nat2Z.id. apply IH, Hs, Hl.
    + apply (go_streams_flush w f buf (Z.of_nat k)); [apply token_iff; [assumption|assumption|exact (Hb _ _ Hl)|exists k; auto]|].
      rewrite Nat2Z.id. apply IH, Hs, Hl.
    + constructor. apply more_empty; assumption.
Qed.

Theorem C74_chunks : forall w f chunks toks, exported f -> (16 <= w)%Z -> (Z.of_nat (len (List.concat chunks)) < 2 ^ (w - 1))%Z ->
  (go_streams w f [] chunks toks <-> go_tokenises w f (List.concat chunks) toks).
Proof.
  intros w f chunks toks Hx Hw Hl. rewrite (streams_iff w f Hx Hw [] chunks toks Hl).
  rewrite C74_tokens by assumption. apply C06_chunking.
Qed.

(* A family emoji and e with an acute accent: UAX #29 says two clusters, and that is
   what the source text computes. *)
Example C74_example : exists segs,
  clusters ucd_class [0x1F469; 0x200D; 0x1F4BB; 0x65; 0x301]%N segs /\
  go_tokenises 64 "textseg.ScanGraphemeClusters" (utf8_text [0x1F469; 0x200D; 0x1F4BB; 0x65; 0x301]%N) (map utf8_text segs) /\
  map utf8_text segs = [[xf0; x9f; x91; xa9; xe2; x80; x8d; xf0; x9f; x92; xbb]; [x65; xcc; x81]].
Proof.
  set (cs := [0x1F469; 0x200D; 0x1F4BB; 0x65; 0x301]%N).
  assert (Forall scalar cs) as Hc by (repeat (apply Forall_cons; [apply scalarb_spec; reflexivity|]); apply Forall_nil).
  assert (tokenises (utf8_text cs) [[xf0; x9f; x91; xa9; xe2; x80; x8d; xf0; x9f; x92; xbb]; [x65; xcc; x81]]) as T
    by (apply C04_tokens_fn; vm_compute; reflexivity).
  destruct (proj1 (C08_conformance cs _ Hc) T) as (segs & S & E). exists segs. split; [exact S|split; [|symmetry; exact E]].
  rewrite <- E. apply C74_tokens; [left; reflexivity|lia|reflexivity|exact T].
Qed.

Definition all_theorems := (C74_more, C74_deterministic, C74_returns, C74_tokens, C74_unicode, C74_bytes, C74_chunks).
Print Assumptions all_theorems.
