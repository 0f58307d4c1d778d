(* Entries whose Fields are parts of the scanner's memory (Model/EntryMemory.v). *)
From Coq Require Import List NArith ZArith Arith Bool Lia ZifyBool ZifyNat ZifyN Strings.Byte.
From Verif Require Import Spec.Readers Spec.UcdFile.
From Verif Require Import Model.Base Model.Scan Model.Bufio Model.UcdParse Model.EntryMemory.
From Verif Require Import Proofs.Basics Proofs.BufioFacts Proofs.KeepFacts Proofs.ParseFacts Proofs.UcdFacts.
Import ListNotations.

Lemma part_bytes s sl off len : off + len <= length (bytes_of s sl) ->
  bytes_of s (part sl off len) = firstn len (skipn off (bytes_of s sl)).
Proof.
  intros H. unfold bytes_of, part in *. cbn [sl_buf sl_off sl_len].
  set (m := nth (sl_buf sl) (s_old s ++ [s_buf s]) []) in *.
  rewrite firstn_length, skipn_length in H.
  rewrite skipn_firstn_sub, firstn_firstn, <- skipn_add.
  f_equal. lia.
Qed.

Lemma cut_bytes s sl sep : forall a b f, cut_slice s sl sep = (a, b, f) ->
  Cut sep (bytes_of s sl) = (bytes_of s a, bytes_of s b, f).
Proof.
  intros a b f H. unfold cut_slice in H. destruct (Cut sep (bytes_of s sl)) as [[before after] found] eqn:E.
  destruct found; injection H as <- <- <-.
  - apply Cut_true in E. rewrite !part_bytes; rewrite E, ?app_length; try lia.
    rewrite skipn_O, firstn_app, Nat.sub_diag, firstn_all, firstn_O, app_nil_r.
    rewrite (app_assoc before), <- app_length, skipn_app, skipn_all, Nat.sub_diag, skipn_O. cbn [app].
    rewrite firstn_all. reflexivity.
  - destruct (Cut_false _ _ _ _ E) as (-> & -> & _). unfold bytes_of at 3. reflexivity.
Qed.

Lemma trim_bytes s sl : bytes_of s (trim_slice s sl) = TrimSpace (bytes_of s sl).
Proof.
  unfold trim_slice. set (c := bytes_of s sl).
  destruct (TrimLeft_spec c) as (w & _ & E & _).
  destruct (TrimRight_spec (TrimLeft c)) as (v & _ & E2 & _). fold (TrimSpace c) in E2.
  assert (length c = length w + length (TrimLeft c)) as L by (rewrite E at 1; apply app_length).
  assert (length (TrimLeft c) = length (TrimSpace c) + length v) as L2 by (rewrite E2 at 1; apply app_length).
  rewrite part_bytes by (fold c; lia). fold c. replace (length c - length (TrimLeft c)) with (length w) by lia.
  transitivity (firstn (length (TrimSpace c)) (skipn (length w) (w ++ TrimLeft c))); [rewrite <- E; reflexivity|].
  rewrite skipn_app, skipn_all, Nat.sub_diag, skipn_O. cbn [app].
  transitivity (firstn (length (TrimSpace c)) (TrimSpace c ++ v)); [rewrite <- E2; reflexivity|].
  rewrite firstn_app, Nat.sub_diag, firstn_all, firstn_O, app_nil_r. reflexivity.
Qed.

(* looked at at once, a line gives what the value model says *)
Lemma parse_slice_seen s raw :
  option_map (seen s) (parse_slice s raw) = parse_line (bytes_of s raw).
Proof.
  unfold parse_slice, parse_line.
  destruct (cut_slice s raw commentMarker) as [[raw1 rest1] f1] eqn:E1. rewrite (cut_bytes _ _ _ _ _ _ E1).
  destruct (cut_slice s raw1 fieldSeparator) as [[rng fs] ok] eqn:E2. rewrite (cut_bytes _ _ _ _ _ _ E2).
  destruct ok; [|reflexivity]. cbn [negb].
  rewrite <- !trim_bytes.
  destruct (cut_slice s (trim_slice s rng) rangeSeparator) as [[sh eh] isr] eqn:E3. rewrite (cut_bytes _ _ _ _ _ _ E3).
  cbn [option_map]. f_equal. destruct (ParseUint (bytes_of s sh)) as [n|err]; [|reflexivity].
  destruct isr; [|reflexivity]. destruct (ParseUint (bytes_of s eh)) as [n2|err]; reflexivity.
Qed.

Lemma next_mem_seen {R} (rd : reader R) r s r' s' o : next_mem rd r s r' s' o -> NextEntry rd r s r' s' (seen s' o).
Proof.
  induction 1 as [r s r' s' E|r s r1 s1 raw out E L|r s r1 s1 raw r' s' out E L H IH].
  - constructor. exact E.
  - eapply next_found; [exact E|]. rewrite <- parse_slice_seen, L. reflexivity.
  - eapply next_skip; [exact E| |exact IH]. rewrite <- parse_slice_seen, L. reflexivity.
Qed.

Lemma next_mem_exists {R} (rd : reader R) r s r' s' o : NextEntry rd r s r' s' o ->
  exists m, next_mem rd r s r' s' m /\ o = seen s' m.
Proof.
  unfold NextEntry. induction 1 as [r s r' s' E|r s r1 s1 raw out E L|r s r1 s1 raw r' s' out E L H (m & IH & ->)].
  - exists (inr (no_more s')). split; [constructor; exact E|reflexivity].
  - rewrite <- parse_slice_seen in L. destruct (parse_slice s1 raw) as [m|] eqn:K; [|discriminate].
    cbn [option_map] in L. exists m. split; [eapply mem_found; eassumption|congruence].
  - rewrite <- parse_slice_seen in L. destruct (parse_slice s1 raw) as [m'|] eqn:K; [discriminate|].
    exists m. split; [eapply mem_skip; eassumption|reflexivity].
Qed.

Lemma prompt_calls {R} (rd : reader R) r s outs r' s' :
  prompt rd r s outs r' s' <-> calls (fun raw => Ret (parse_line raw)) rd r s outs r' s'.
Proof.
  split.
  - induction 1 as [|r s r1 s1 o outs r' s' N H IH]; [constructor|]. econstructor; [|exact IH]. apply next_mem_seen. exact N.
  - induction 1 as [|r s r1 s1 o outs r' s' N H IH]; [constructor|].
    destruct (next_mem_exists rd _ _ _ _ _ N) as (m & K & ->). econstructor; eassumption.
Qed.

(* ---- small files *)

(* what is shown of the first k bytes of the current buffer stays *)
Definition same_upto (k : nat) (s s' : scanner) : Prop :=
  s_old s' = s_old s /\ firstn k (s_buf s') = firstn k (s_buf s).
Definition calm {R} (rd : reader R) (r : R) (s : scanner) (e : goerror) (k : nat) : Prop :=
  (roomy rd r s e /\ k <= s_end s) \/ stopped s.

Lemma same_refl k s : same_upto k s s.
Proof. split; reflexivity. Qed.
Lemma same_trans k s1 s2 s3 : same_upto k s1 s2 -> same_upto k s2 s3 -> same_upto k s1 s3.
Proof. intros [A B] [C D]. split; congruence. Qed.
Lemma keeps_same s s' k : keeps s s' -> k <= s_end s -> same_upto k s s'.
Proof.
  intros (A & _ & _ & B) L. split; [exact A|]. apply (f_equal (firstn k)) in B. rewrite !firstn_firstn in B.
  replace (Nat.min k (s_end s)) with k in B by lia. exact B.
Qed.

Lemma same_bytes k s s' sl : same_upto k s s' -> sl_buf sl = length (s_old s) -> sl_off sl + sl_len sl <= k ->
  bytes_of s' sl = bytes_of s sl.
Proof.
  intros [K1 K4] W1 W2. unfold bytes_of. rewrite W1, K1.
  rewrite !app_nth2, !Nat.sub_diag by lia. cbn [nth].
  apply (f_equal (skipn (sl_off sl))) in K4. rewrite !skipn_firstn_sub in K4.
  apply (f_equal (firstn (sl_len sl))) in K4. rewrite !firstn_firstn in K4.
  replace (Nat.min (sl_len sl) (k - sl_off sl)) with (sl_len sl) in K4 by lia. exact K4.
Qed.

Lemma scan_calm {R} (rd : reader R) e r s r1 s1 o k : calm rd r s e k -> Scan ScanLines rd r s = Ret (r1, s1, o) ->
  same_upto k s s1 /\ calm rd r1 s1 e k /\
  match o with Some sl => roomy rd r1 s1 e /\ within s1 sl | None => True end.
Proof.
  intros [[Q L]|T] E.
  - destruct (loop_keeps_any ScanLines rd e good_ScanLines _ _ _ _ _ _ Q E) as (K & N & TK).
    split; [apply keeps_same; assumption|]. destruct o as [sl|].
    + destruct TK as [Q1 W]. split; [left; split; [exact Q1|]|auto]. specialize (N ltac:(discriminate)). lia.
    + split; [right; exact TK|exact I].
  - rewrite (stopped_scan ScanLines rd r s good_ScanLines T) in E.
    assert (r1 = r /\ s1 = s /\ o = None) as (-> & -> & ->) by (split; [|split]; congruence).
    split; [apply same_refl|]. split; [right; exact T|exact I].
Qed.

Lemma part_within s sl off len : within s sl -> off + len <= sl_len sl -> within s (part sl off len).
Proof. intros [A B] L. split; [exact A|]. cbn [part sl_off sl_len]. lia. Qed.

Lemma bytes_of_length s sl : length (bytes_of s sl) <= sl_len sl.
Proof. unfold bytes_of. rewrite firstn_length. lia. Qed.

Lemma cut_within s sl sep a b f : cut_slice s sl sep = (a, b, f) -> within s sl -> within s a /\ within s b.
Proof.
  intros H W. unfold cut_slice in H. destruct (Cut sep (bytes_of s sl)) as [[before after] found] eqn:E.
  pose proof (bytes_of_length s sl) as L.
  destruct found; injection H as <- <- <-.
  - apply Cut_true in E. rewrite E, !app_length in L. split; apply part_within; try exact W; lia.
  - split; [exact W|]. apply part_within; [exact W|lia].
Qed.

Lemma trim_within s sl : within s sl -> within s (trim_slice s sl).
Proof.
  intros W. unfold trim_slice. set (c := bytes_of s sl).
  destruct (TrimLeft_spec c) as (w & _ & E & _).
  destruct (TrimRight_spec (TrimLeft c)) as (v & _ & E2 & _). fold (TrimSpace c) in E2.
  assert (length c = length w + length (TrimLeft c)) as L by (rewrite E at 1; apply app_length).
  assert (length (TrimLeft c) = length (TrimSpace c) + length v) as L2 by (rewrite E2 at 1; apply app_length).
  pose proof (bytes_of_length s sl) as L3. fold c in L3. apply part_within; [exact W|lia].
Qed.

Lemma parse_within s raw e : parse_slice s raw = Some (inl e) -> within s raw -> within s (m_Fields e).
Proof.
  unfold parse_slice. intros H W.
  destruct (cut_slice s raw commentMarker) as [[raw1 rest1] f1] eqn:E1. destruct (cut_within _ _ _ _ _ _ E1 W) as [W1 _].
  destruct (cut_slice s raw1 fieldSeparator) as [[rng fs] ok] eqn:E2. destruct (cut_within _ _ _ _ _ _ E2 W1) as [_ W2].
  destruct ok; [|discriminate]. cbn [negb] in H.
  destruct (cut_slice s (trim_slice s rng) rangeSeparator) as [[sh eh] isr].
  destruct (ParseUint (bytes_of s sh)) as [n|err]; [|discriminate].
  destruct isr.
  - destruct (ParseUint (bytes_of s eh)) as [n2|err]; [|discriminate].
    injection H as <-. cbn [m_Fields]. apply trim_within. exact W2.
  - injection H as <-. cbn [m_Fields]. apply trim_within. exact W2.
Qed.

Definition result_within (s : scanner) (o : result MemEntry) : Prop :=
  match o with inl e => within s (m_Fields e) | inr _ => True end.

Lemma next_calm {R} (rd : reader R) e r s r' s' o : next_mem rd r s r' s' o -> forall k, calm rd r s e k ->
  same_upto k s s' /\ calm rd r' s' e k /\ result_within s' o /\
  ((exists e', o = inl e') -> roomy rd r' s' e).
Proof.
  induction 1 as [r s r' s' E|r s r1 s1 raw out E L|r s r1 s1 raw r' s' out E L H IH]; intros k C;
    destruct (scan_calm rd e _ _ _ _ _ k C E) as (S1 & C1 & T).
  - split; [exact S1|]. split; [exact C1|]. split; [exact I|]. intros [e' K]. discriminate.
  - destruct T as [Q W]. split; [exact S1|]. split; [exact C1|]. split; [|auto].
    destruct out as [e'|]; [|exact I]. eapply parse_within; eassumption.
  - destruct (IH k C1) as (S2 & C2 & W & Q). split; [eapply same_trans; eassumption|]. auto.
Qed.

Lemma kept_same {R} (rd : reader R) e r s outs r' s' : kept rd r s outs r' s' -> forall k, calm rd r s e k ->
  same_upto k s s' /\ prompt rd r s (map (seen s') outs) r' s'.
Proof.
  induction 1 as [r s|r s r1 s1 o outs r' s' N H IH]; intros k C; [split; [apply same_refl|constructor]|].
  destruct (next_calm rd e _ _ _ _ _ N k C) as (S1 & C1 & W & Q).
  destruct (IH k C1) as [S2 P2]. split; [eapply same_trans; eassumption|].
  cbn [map]. replace (seen s' o) with (seen s1 o); [econstructor; eassumption|].
  destruct o as [e'|err]; [|reflexivity]. cbn [seen]. f_equal. f_equal.
  destruct W as [W1 W2]. assert (calm rd r1 s1 e (s_end s1)) as C2 by (left; split; [apply Q; eauto|lia]).
  destruct (IH _ C2) as [S3 _]. symmetry. eapply same_bytes; eassumption.
Qed.

Lemma next_bare {R} (rd : reader R) r s r' s' o e input : bare s -> 0 < s_max s -> delivers rd 100 r input e ->
  length input <= Nat.min startBufSize (s_max s) / 2 -> next_mem rd r s r' s' o ->
  calm rd r' s' e 0 /\ result_within s' o /\ ((exists e', o = inl e') -> roomy rd r' s' e).
Proof.
  intros B M Hd L H. pose proof (allocated_roomy rd r s e input M Hd L) as Q.
  assert (exists fuel, Scan ScanLines rd r s = scan_loop_bufio ScanLines rd (S fuel) r (allocated s)) as [fuel Ef].
  { eexists. unfold Scan. rewrite <- loop_bare by assumption. reflexivity. }
  inversion H as [ra sa rb sb E|ra sa rb sb raw out E K|ra sa rb sb raw rc sc out E K N]; subst;
    rewrite Ef in E; destruct (loop_keeps_any ScanLines rd e good_ScanLines _ _ _ _ _ _ Q E) as (_ & _ & T).
  - split; [right; exact T|]. split; [exact I|]. intros [e' X]. discriminate.
  - destruct T as [Q1 W]. split; [left; split; [exact Q1|lia]|]. split; [|auto].
    destruct o as [e'|]; [|exact I]. eapply parse_within; eassumption.
  - destruct T as [Q1 W]. destruct (next_calm rd e _ _ _ _ _ N 0) as (_ & C2 & W2 & Q2); [left; split; [exact Q1|lia]|]. auto.
Qed.

Lemma kept_prompt_bare {R} (rd : reader R) e r s input outs r' s' : bare s -> 0 < s_max s -> delivers rd 100 r input e ->
  length input <= Nat.min startBufSize (s_max s) / 2 -> kept rd r s outs r' s' ->
  prompt rd r s (map (seen s') outs) r' s'.
Proof.
  intros B M Hd L H. inversion H as [ra sa|ra sa r1 s1 o outs' rb sb N K]; subst; [constructor|].
  destruct (next_bare rd r s r1 s1 o e input B M Hd L N) as (C & W & Q).
  destruct (kept_same rd e _ _ _ _ _ K 0 C) as [_ P]. cbn [map].
  replace (seen s' o) with (seen s1 o); [econstructor; eassumption|].
  destruct o as [e'|err]; [|reflexivity]. cbn [seen]. f_equal. f_equal.
  destruct W as [W1 W2]. assert (calm rd r1 s1 e (s_end s1)) as C2 by (left; split; [apply Q; eauto|lia]).
  destruct (kept_same rd e _ _ _ _ _ K _ C2) as [S3 _]. symmetry. eapply same_bytes; eassumption.
Qed.
