(* Property C70: truncating a text. *)
From Coq Require Import List NArith Arith Bool Lia Strings.Byte.
From Coq Require Import ZArith ZifyBool ZifyNat ZifyN.
From Verif Require Import Spec.Classes Spec.Utf8 Spec.UAX29 Spec.UcdRanges Spec.Segmentation Spec.Truncation.
From Verif Require Import Model.Base Model.CharProps Model.Lookup Model.Machine Model.Scan.
From Verif Require Import Proofs.Basics Proofs.TableCheck Proofs.MachineFacts Proofs.LookupFacts Proofs.ScanFacts
  Proofs.TextFacts Proofs.TextProps Proofs.UnicodeFacts Proofs.BoundaryFacts.
From Verif Require Import Properties.Splitting Properties.Editing Properties.Conformance Properties.Locality Properties.Rearrange.
Import ListNotations.

Local Opaque committed LookupFirstChar fast_class ok1 leads conts.

Lemma fitting_split n toks : exists rest, toks = fitting n toks ++ rest /\ length (concat (fitting n toks)) <= n /\
  match rest with [] => True | t :: _ => n < length (concat (fitting n toks)) + length t end.
Proof.
  revert n. induction toks as [|t toks IH]; intros n; cbn [fitting].
  - exists []. cbn. repeat split. lia.
  - destruct (Nat.leb_spec (length t) n) as [H|H].
    + destruct (IH (n - length t)) as (rest & E & L & K). exists rest. cbn [app concat]. rewrite app_length.
      split; [congruence|]. split; [lia|]. destruct rest; [exact I|]. lia.
    + exists (t :: toks). cbn [app concat length]. repeat split; lia.
Qed.

(* The only beginning of the list that fits and cannot be extended. *)
Lemma fitting_unique n a rest : length (concat a) <= n ->
  match rest with [] => True | t :: _ => n < length (concat a) + length t end -> fitting n (a ++ rest) = a.
Proof.
  revert n. induction a as [|t a IH]; intros n L K; cbn [app fitting].
  - destruct rest as [|t rest]; [reflexivity|]. cbn [concat length] in K. cbn [fitting].
    destruct (Nat.leb_spec (length t) n); [lia|reflexivity].
  - cbn [concat] in L. rewrite app_length in L. destruct (Nat.leb_spec (length t) n); [|lia]. f_equal. apply IH; [lia|].
    destruct rest; [exact I|]. cbn [concat] in K. rewrite app_length in K. lia.
Qed.

(* C70. The first clusters that fit make up the longest beginning of the data that
   fits and does not cut a cluster; by itself it has the same clusters. *)
Theorem C70_truncate : forall data toks n, tokenises data toks ->
  let l := concat (fitting n toks) in
  length l <= n /\ cut toks l /\ (exists r, data = l ++ r) /\
  (forall l', length l' <= n -> cut toks l' -> length l' <= length l) /\
  tokenises l (fitting n toks).
Proof.
  intros data toks n T. cbv zeta. destruct (fitting_split n toks) as (rest & E & L & K).
  pose proof (tokenises_concat _ _ T) as C. split; [assumption|]. split; [exists (fitting n toks), rest; auto|].
  split; [exists (concat rest); rewrite <- C, <- concat_app, <- E; reflexivity|]. split.
  - intros l' L' (b & a & E' & <-). rewrite E in E'. apply app_eq_app in E'. destruct E' as (m & [[-> M]|[-> M]]).
    + rewrite concat_app, app_length. lia.
    + destruct m as [|t m]; [rewrite app_nil_r; lia|]. exfalso. rewrite M in K. cbn [app] in K.
      rewrite concat_app, app_length in L'. cbn [concat] in L'. rewrite app_length in L'. lia.
  - apply (C47_part data [] (fitting n toks) rest). cbn [app]. congruence.
Qed.

(* One token is known once four more bytes are. *)
Lemma token_known d x y t toks toks' : tokenises (d ++ x) (t :: toks) -> tokenises (d ++ y) toks' ->
  length t + 4 <= length d -> exists rest, toks' = t :: rest /\ tokenises (skipn (length t) d ++ x) toks /\ tokenises (skipn (length t) d ++ y) rest.
Proof.
  intros T T' L. inversion T as [|? n ? ? S T2]; subst.
  destruct (C02_shape _ _ _ _ _ S) as (_ & [[_ F]|[B F]]); [discriminate|].
  assert (length t = n) as Ln by (assert (t = firstn n (d ++ x)) as -> by congruence; rewrite firstn_length; lia). subst n.
  destruct (C01_total d false) as (a & tk & S').
  assert (exists a' t', ScanGraphemeClusters d false = Ret (a', Some t', None)) as (a' & t' & S2).
  { destruct (C02_shape _ _ _ _ _ S') as (_ & [[-> ->]|[_ ->]]); [|eauto].
    pose proof (C07_lookahead d x true _ _ S' S). lia. }
  pose proof (C05_final _ _ _ x true S2) as Sx. pose proof (C05_final _ _ _ y true S2) as Sy.
  assert (a' = length t /\ t' = t) as [-> ->] by (split; congruence).
  assert (skipn (length t) (d ++ x) = skipn (length t) d ++ x /\ skipn (length t) (d ++ y) = skipn (length t) d ++ y) as [Ex Ey].
  { split; rewrite skipn_app; replace (length t - length d) with 0 by lia; reflexivity. }
  inversion T' as [E1 E2|? n' ? ? S'' T3]; subst.
  - exfalso. symmetry in E1. apply app_eq_nil in E1. destruct E1 as [-> _]. cbn in L. lia.
  - assert (n' = length t /\ token = t) as [-> ->] by (split; congruence). exists toks0. rewrite <- Ex, <- Ey. auto.
Qed.

(* Tokens that end four bytes before the data known so far are final. *)
Theorem C70_first : forall ts d x y rest toks', tokenises (d ++ x) (ts ++ rest) -> tokenises (d ++ y) toks' ->
  length (concat ts) + 4 <= length d -> exists rest', toks' = ts ++ rest'.
Proof.
  induction ts as [|t ts IH]; intros d x y rest toks' T T' L; [exists toks'; reflexivity|].
  cbn [app concat] in *. rewrite app_length in L.
  destruct (token_known d x y t (ts ++ rest) toks' T T' ltac:(lia)) as (r & -> & T1 & T2).
  destruct (IH (skipn (length t) d) x y rest r T1 T2) as (rest' & ->); [rewrite skipn_length; lia|]. eauto.
Qed.

(* So only n + 4 bytes need to be looked at to truncate to n. *)
Theorem C70_lookahead : forall d x y n toks toks', tokenises (d ++ x) toks -> tokenises (d ++ y) toks' ->
  n + 4 <= length d -> fitting n toks = fitting n toks'.
Proof.
  intros d x y n toks toks' T T' L.
  destruct (fitting_split n toks) as (rest & E & L1 & K). set (ts := fitting n toks) in *. rewrite E in T.
  destruct (C70_first ts d x y rest toks' T T' ltac:(lia)) as (rest' & E').
  rewrite E'. symmetry. apply fitting_unique; [assumption|]. destruct rest' as [|t rest']; [exact I|].
  destruct (Nat.lt_ge_cases n (length (concat ts) + length t)) as [H|H]; [assumption|exfalso].
  rewrite E' in T'. replace (ts ++ t :: rest') with ((ts ++ [t]) ++ rest') in T' by (rewrite <- app_assoc; reflexivity).
  assert (length (concat (ts ++ [t])) = length (concat ts) + length t) as Lt
    by (rewrite concat_app, app_length; cbn [concat]; rewrite app_nil_r; reflexivity).
  destruct (C70_first (ts ++ [t]) d y x rest' (ts ++ rest) T' T ltac:(lia)) as (r & Er).
  rewrite <- app_assoc in Er. apply app_inv_head in Er. subst rest. cbn [app] in K. lia.
Qed.

(* Fewer are not enough. *)
Theorem C70_lookahead_tight : exists d x y n toks toks', tokenises (d ++ x) toks /\ tokenises (d ++ y) toks' /\
  n + 3 = length d /\ fitting n toks <> fitting n toks'.
Proof.
  (* a, and the first three bytes of U+1F600 or of U+1F3FB, a skin tone *)
  exists [x61; xf0; x9f; x8f], [xbb], [x80], 1. do 2 eexists.
  split; [apply C04_tokens_fn; vm_compute; reflexivity|]. split; [apply C04_tokens_fn; vm_compute; reflexivity|].
  split; [reflexivity|]. vm_compute. discriminate.
Qed.

(* Truncating twice is truncating once. *)
Theorem C70_again : forall m n toks, fitting m (fitting n toks) = fitting (Nat.min m n) toks.
Proof.
  intros m n toks. revert m n. induction toks as [|t toks IH]; intros m n; cbn [fitting]; [reflexivity|].
  destruct (Nat.leb_spec (length t) n) as [H|H]; destruct (Nat.leb_spec (length t) (Nat.min m n)) as [H'|H']; cbn [fitting]; try lia; try reflexivity.
  - destruct (Nat.leb_spec (length t) m); [|lia]. rewrite IH. f_equal. f_equal. lia.
  - destruct (Nat.leb_spec (length t) m); [lia|reflexivity].
Qed.

(* Truncated text is text: whole characters. *)
Theorem C70_text : forall cs toks n, Forall scalar cs -> tokenises (utf8_text cs) toks ->
  exists l r, cs = l ++ r /\ concat (fitting n toks) = utf8_text l.
Proof.
  intros cs toks n Hs T. apply (text_clusters cs toks Hs) in T. destruct T as (segs & C & ->).
  destruct (fitting_split n (map utf8_text segs)) as (rest & E & _). apply map_split in E. destruct E as (s1 & s2 & -> & E1 & _).
  exists (concat s1), (concat s2). split; [rewrite <- concat_app; symmetry; apply C|]. rewrite <- E1. clear.
  induction s1 as [|s s1 IH]; [reflexivity|]. cbn [map concat]. unfold utf8_text in *. rewrite flat_map_app, IH. reflexivity.
Qed.

(* A mark of omission after it - or anything that begins with such a character -
   stays a cluster of its own, unless a Prepend character comes before it. *)
Theorem C70_ellipsis : forall data toks n c, tokenises data toks -> scalar c ->
  gcb (ucd_class c) = Other -> extpict (ucd_class c) = false -> incb (ucd_class c) <> InCB_Consonant ->
  (forall its j, reads (concat (fitting n toks)) (its ++ [j]) -> gcb (item_class j) <> Prepend) ->
  tokenises (concat (fitting n toks) ++ utf8_encode c) (fitting n toks ++ [utf8_encode c]).
Proof.
  intros data toks n c T Hc Hg He Hi Hp. destruct (C70_truncate data toks n T) as (_ & _ & _ & _ & Tl).
  set (ts := fitting n toks) in *. clearbody ts. set (l := concat ts) in *.
  assert (tokenises (utf8_encode c) [utf8_encode c]) as T1.
  { assert (reads (utf8_encode c) [char c]) as R1.
    { pose proof (reads_char_app c [] [] Hc reads_nil) as R1. rewrite app_nil_r in R1. exact R1. }
    destruct (tokenises_total (utf8_encode c)) as (tk & Ht).
    destruct (lone_item _ _ [] (char c) [] Ht R1 I I) as (b & a & -> & Eb).
    assert (b = []) as -> by (destruct b as [|x b]; [reflexivity|]; exfalso; apply tokenises_nonempty in Ht; cbn [concat] in Eb;
      apply app_eq_nil in Eb; destruct Eb as [-> _]; inversion Ht; congruence).
    cbn [app] in *. pose proof (tokenises_concat _ _ Ht) as E. cbn [concat] in E. cbn [char item_bytes] in E, Ht.
    rewrite <- (app_nil_r (utf8_encode c)) in E at 2. apply app_inv_head in E.
    destruct a as [|x a]; [exact Ht|]. exfalso. apply tokenises_nonempty in Ht. inversion Ht as [|? ? _ H2]; subst. inversion H2; subst.
    cbn [concat] in E. apply app_eq_nil in E. tauto. }
  destruct (tokenises_total (l ++ utf8_encode c)) as (tk & Ht).
  destruct (context1 l c [] Hc) as (ip & iq & R & Rq & Rl & Eb).
  assert (iq = []) as -> by (exact (reads_unique _ _ _ Rq reads_nil)). rewrite app_nil_r in Rl.
  assert (cut tk l) as C.
  { destruct (exists_last_or ip) as [->|(i1 & j & ->)].
    - cbn in Eb. rewrite <- Eb. exists [], tk. auto.
    - rewrite <- Eb. rewrite <- app_assoc in Rl. cbn [app] in Rl. apply (cut_pos _ _ _ _ _ _ Ht Rl).
      rewrite class_char by assumption. apply plain_splits; auto. exact (Hp i1 j R). }
  pose proof Ht as Ht0. apply (C47_divide _ _ _ Ht) in C. destruct C as (ta & tb & Ha & Hb & ->).
  rewrite (tokenises_unique _ _ _ Ha Tl), (tokenises_unique _ _ _ Hb T1) in Ht0. exact Ht0.
Qed.

(* "e", two accents and a flag cut down to 5, 6 and 13 bytes; an ellipsis after
   the first token. *)
Example C70_example :
  let data := [x65; xcc; x81; xcc; x80; xf0; x9f; x87; xa9; xf0; x9f; x87; xaa] in
  exists toks, tokenises data toks /\ map (@length byte) toks = [5; 8] /\
    map (@length byte) (fitting 4 toks) = [] /\ map (@length byte) (fitting 12 toks) = [5] /\ fitting 13 toks = toks /\
    tokenises ([x65; xcc; x81; xcc; x80] ++ utf8_encode 0x2026) [[x65; xcc; x81; xcc; x80]; [xe2; x80; xa6]] /\
    gcb (ucd_class 0x2026) = Other /\ extpict (ucd_class 0x2026) = false /\ incb (ucd_class 0x2026) = InCB_None.
Proof.
  cbv zeta. eexists. split; [apply C04_tokens_fn; vm_compute; reflexivity|]. repeat (split; [vm_compute; reflexivity|]).
  split; [apply C04_tokens_fn; vm_compute; reflexivity|]. vm_compute. auto.
Qed.

(* After Prepend the ellipsis attaches. *)
Theorem C70_ellipsis_needed : exists data toks n, tokenises data toks /\
  ~ tokenises (concat (fitting n toks) ++ utf8_encode 0x2026) (fitting n toks ++ [utf8_encode 0x2026]).
Proof.
  exists [xd8; x80], [[xd8; x80]], 2. split; [apply C04_tokens_fn; vm_compute; reflexivity|]. intros H.
  apply C04_tokens_fn in H. vm_compute in H. discriminate H.
Qed.

Definition all_theorems := (C70_truncate, C70_first, C70_lookahead, C70_lookahead_tight, C70_again, C70_text, C70_ellipsis, C70_ellipsis_needed).
Print Assumptions all_theorems.
