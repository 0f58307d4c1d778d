(* Property C52: the generator command and the file it writes. *)
From Coq Require Import List NArith ZArith Arith Bool Lia Strings.Byte Strings.String.
From Verif Require Import Spec.Utf8 Spec.Assignments Spec.Readers Spec.UcdFile Spec.Generation Spec.AnyFiles Spec.GoSource.
From Verif Require Import Model.Base Model.Lookup Model.Bufio Model.PropNames Model.GenTable Model.UcdParse Model.BuildTree
  Model.Emit Model.GenMain.
From Verif Require Import Proofs.Basics Proofs.BufioFacts Proofs.UcdFacts Proofs.BuildFacts Proofs.FileCheck Proofs.EmitFacts Proofs.AnyFiles.
From Verif Require Import Data.UcdGraphemeBreakProperty Data.UcdEmojiData Data.UcdDerivedCoreProperties Data.TableRaw.
From Verif Require Import Properties.Bufio Properties.Parsing Properties.Generator Properties.Reproduce Properties.Emission Properties.AnyFiles.
Import ListNotations.
Notation length := List.length.

Section run.
Context {R : Type} (open : gostring -> result R) (rd : reader R) (format : list byte -> result (list byte))
  (create : option goerror) (old : content).

(* A run that reports a failure - or panics - has not touched the file. *)
Theorem C52_failure cs st e : main_run open rd format create old cs st e -> st <> Exit 0 -> cs = [old] /\ e = None.
Proof. intros H N. destruct H; try (split; reflexivity). congruence. Qed.

Lemma written_prefix src : forall n cs e, write_steps src n cs e -> n <= length src ->
  Forall (fun c => exists k, c = Some (firstn k src)) cs /\
  (e = None -> last cs (Some (firstn n src)) = Some src) /\
  exists k, last cs (Some (firstn n src)) = Some (firstn k src).
Proof.
  intros n cs e H. induction H as [|n err L|n k cs e L H IH]; intros Hn.
  - split; [constructor|]. split; [intros _; cbn [last]; rewrite firstn_all; reflexivity|exists (length src); reflexivity].
  - split; [constructor|]. split; [discriminate|exists n; reflexivity].
  - destruct IH as (IH1 & IH2 & IH3); [lia|]. split; [constructor; [exists k; reflexivity|exact IH1]|].
    assert (forall d, last (Some (firstn k src) :: cs) d = last cs (Some (firstn k src))) as K.
    { clear. intros d. destruct cs as [|c cs]; [reflexivity|]. cbn [last]. revert c. induction cs as [|c' cs IH]; intros c; [reflexivity|]. apply IH. }
    rewrite K. auto.
Qed.

(* At every moment the file is as it was, or holds a beginning of the new text. *)
Theorem C52_crash cs st e : main_run open rd format create old cs st e ->
  forall c, In c cs -> c = old \/ exists built text src k, BuildFrom open rd built /\ main_text built = Ret (inl text) /\
    format text = inl src /\ c = Some (firstn k src).
Proof.
  intros H c Hc. destruct H as [built p B M|built err B M|built text err B M F|built text src err B M F C|built text src cs e B M F C W];
    try (destruct Hc as [Hc|[]]; left; congruence).
  destruct Hc as [Hc|[Hc|Hc]]; [left; congruence| |].
  - right. exists built, text, src, 0. rewrite <- Hc. auto.
  - right. destruct (written_prefix src 0 cs e W) as (K & _); [lia|]. rewrite Forall_forall in K. destruct (K c Hc) as (k & ->).
    exists built, text, src, k. auto.
Qed.

(* After exit status 0 the file holds the whole text, provided that Write did
   not fail. *)
Theorem C52_success cs : main_run open rd format create old cs (Exit 0) None ->
  exists built text src, BuildFrom open rd built /\ main_text built = Ret (inl text) /\ format text = inl src /\
    last cs old = Some src.
Proof.
  intros H. inversion H as [| | | |built text src cs' e B M F C W]; subst. exists built, text, src.
  split; [exact B|]. split; [exact M|]. split; [exact F|].
  destruct (written_prefix src 0 cs' None W) as (_ & K & _); [lia|]. rewrite <- (K eq_refl). cbn [firstn].
  clear. revert old. destruct cs' as [|c cs]; intros old; [reflexivity|]. cbn [last]. revert c.
  induction cs as [|c' cs IH]; intros c; [reflexivity|]. apply IH.
Qed.

Lemma BuildFrom_fun o o' : BuildFrom open rd o -> BuildFrom open rd o' -> o = o'.
Proof.
  intros H H'. destruct H; inversion H'; subst; try congruence.
  assert (gbpFile = gbpFile0) as -> by congruence. assert (emojiFile = emojiFile0) as -> by congruence.
  assert (dcpFile = dcpFile0) as -> by congruence. eapply build_fun; eassumption.
Qed.

(* Files that can be opened are read with some error at the end (EOF, if nothing
   goes wrong); which error, and which bytes before it, is open. *)
Definition files_deliver : Prop := forall path r, open path = inl r -> exists file e, delivers rd 100 r file e.

(* There is a run, and all runs end with the same status. *)
Theorem C52_status : files_deliver ->
  (exists cs st e, main_run open rd format create old cs st e) /\
  forall cs st e cs' st' e', main_run open rd format create old cs st e -> main_run open rd format create old cs' st' e' -> st = st'.
Proof.
  intros D. split.
  - assert (exists built, BuildFrom open rd built) as (built & B).
    { destruct (open gbpPath) as [r1|err] eqn:E1; [|exists (Ret (inr err)); apply open_fail1; exact E1].
      destruct (open emojiPath) as [r2|err] eqn:E2; [|exists (Ret (inr err)); eapply open_fail2; eassumption].
      destruct (open dcpPath) as [r3|err] eqn:E3; [|exists (Ret (inr err)); eapply open_fail3; eassumption].
      destruct (D _ _ E1) as (f1 & e1 & D1). destruct (D _ _ E2) as (f2 & e2 & D2). destruct (D _ _ E3) as (f3 & e3 & D3).
      destruct (C51_any rd r1 rd r2 rd r3 f1 e1 f2 e2 f3 e3 D1 D2 D3) as (out & B & _).
      exists out. eapply open_all; eassumption. }
    destruct (main_text built) as [[text|err]|p] eqn:M.
    + destruct (format text) as [src|err] eqn:F.
      * destruct create as [err|] eqn:C; [eexists; eexists; eexists; eapply main_no_file; try eassumption; reflexivity|].
        eexists. eexists. eexists. eapply (main_writes open rd format None old built text src (if length src =? 0 then [] else [Some (firstn (length src) src)]) None); try eassumption; [reflexivity|].
        destruct (length src =? 0) eqn:L.
        { apply Nat.eqb_eq in L. rewrite <- L. constructor. }
        apply Nat.eqb_neq in L. apply write_some; [lia|]. constructor.
      * eexists; eexists; eexists; eapply main_no_format; eassumption.
    + eexists; eexists; eexists; eapply main_no_tree; eassumption.
    + eexists; eexists; eexists; eapply main_panic; eassumption.
  - intros cs st e cs' st' e' H H'.
    destruct H as [built p B M|built err B M|built text err B M F|built text src err B M F C|built text src cs e B M F C W];
      inversion H' as [built' p' B' M'|built' err' B' M'|built' text' err' B' M' F'|built' text' src' err' B' M' F' C'|built' text' src' cs2 e2 B' M' F' C' W'];
      subst; pose proof (BuildFrom_fun _ _ B B') as <-; congruence.
Qed.

(* The status is 0 only if the three files can be opened and are read without
   a failure, the assignments they ask for can be put in tables (C29), and the
   text can be formatted and the file created. *)
Theorem C52_zero cs st e : files_deliver -> main_run open rd format create old cs st e -> st = Exit 0 ->
  create = None /\ exists r1 r2 r3 f1 e1 f2 e2 f3 e3 ops tb,
    open gbpPath = inl r1 /\ open emojiPath = inl r2 /\ open dcpPath = inl r3 /\
    delivers rd 100 r1 f1 e1 /\ delivers rd 100 r2 f2 e2 /\ delivers rd 100 r3 f3 e3 /\
    run_asks f1 e1 f2 e2 f3 e3 ops None /\ generate ops = Ret tb /\
    exists text src, format text = inl src /\
      (forall indices props, holds (t_indices tb) indices -> holds (t_props tb) props -> declares_tables text indices props) /\
      (e = None -> last cs old = Some src).
Proof.
  intros D H ->.
  assert (e = None -> exists built text src, BuildFrom open rd built /\ main_text built = Ret (inl text) /\ format text = inl src /\
            last cs old = Some src) as H0 by (intros ->; apply C52_success; exact H).
  inversion H as [| | | |built text src cs' e' B M F C W]; subst. split; [reflexivity|].
  destruct B as [err E|g err E1 E2|g em err E1 E2 E3|r1 r2 r3 out E1 E2 E3 B]; try discriminate M.
  destruct (D _ _ E1) as (f1 & e1 & D1). destruct (D _ _ E2) as (f2 & e2 & D2). destruct (D _ _ E3) as (f3 & e3 & D3).
  destruct (C51_any rd r1 rd r2 rd r3 f1 e1 f2 e2 f3 e3 D1 D2 D3) as (out' & _ & U & ops & failure & HA & HO).
  rewrite (U out B) in M.
  destruct failure as [err|].
  { exfalso. destruct (GenRaw.run_spec ops) as [[HC _]|(HC & _)].
    - rewrite (proj1 HO HC) in M. discriminate M.
    - rewrite (proj2 HO HC) in M. discriminate M. }
  destruct (main_tables out') as [[tb|err]|p] eqn:T.
  2: { exfalso. destruct (generate ops); discriminate HO. }
  2: { exfalso. destruct out' as [[tree|err]|p']; cbn [main_text main_tables bind] in M, T; try discriminate M; try discriminate T.
       destruct (every_array (Indices tree)) as (is & HI), (every_array (Properties tree)) as (ps & HP).
       destruct (C45_text tree is ps HI HP) as [T1 T2]. unfold emit in T. rewrite (holds_read _ _ HI) in T. cbn [bind] in T.
       destruct (forallb (fun v => (v <=? 255)%N) is) eqn:Fa; [discriminate T|].
       rewrite T2 in M; [discriminate M|]. intros Q. apply not_true_iff_false in Fa. apply Fa. apply forallb_forall.
       rewrite Forall_forall in Q. intros v Hv. apply N.leb_le. apply Q. exact Hv. }
  destruct (C45_main out' tb T) as (text' & M' & K). assert (text' = text) as -> by congruence.
  destruct (generate ops) as [tb'|] eqn:G; cbn [bind] in HO; [|discriminate HO].
  assert (tb' = tb) as -> by congruence.
  exists r1, r2, r3, f1, e1, f2, e2, f3, e3, ops, tb. do 7 (split; [assumption|]). split; [exact G|].
  exists text, src. split; [exact F|]. split; [exact K|]. intros Ee.
  destruct (H0 Ee) as (built2 & text2 & src2 & B2 & M2 & F2 & L2).
  assert (built2 = out') as ->.
  { rewrite <- (U out B). eapply BuildFrom_fun; [exact B2|]. eapply open_all; eassumption. }
  assert (text2 = text) as -> by congruence. congruence.
Qed.

(* ... and, conversely, if so whatever the files may be taken to ask for (C51:
   that is open only if one ends in a line of exactly 64 KiB). *)
Theorem C52_good r1 r2 r3 f1 e1 f2 e2 f3 e3 :
  open gbpPath = inl r1 -> open emojiPath = inl r2 -> open dcpPath = inl r3 ->
  delivers rd 100 r1 f1 e1 -> delivers rd 100 r2 f2 e2 -> delivers rd 100 r3 f3 e3 ->
  (forall ops failure, run_asks f1 e1 f2 e2 f3 e3 ops failure -> failure = None /\ exists tb, generate ops = Ret tb) ->
  (forall text, exists src, format text = inl src) -> create = None ->
  forall cs st e, main_run open rd format create old cs st e -> st = Exit 0.
Proof.
  intros E1 E2 E3 D1 D2 D3 HG HF HC cs st e H.
  destruct (C51_any rd r1 rd r2 rd r3 f1 e1 f2 e2 f3 e3 D1 D2 D3) as (out & B & U & ops & failure & HA & HO).
  destruct (HG _ _ HA) as (-> & tb & G). rewrite G in HO. cbn [bind] in HO.
  destruct (C45_main out tb HO) as (text & M & _). destruct (HF text) as (src & F).
  assert (BuildFrom open rd out) as B0 by (eapply open_all; eassumption).
  destruct H as [built' p' B' M'|built' err' B' M'|built' text' err' B' M' F'|built' text' src' err' B' M' F' C'|built' text' src' cs2 e2' B' M' F' C' W'];
    try (pose proof (BuildFrom_fun _ _ B0 B') as <-); congruence.
Qed.

(* The error of Write is not looked at: wherever a run succeeds, there is one
   that also reports success and leaves just a beginning of the text behind. *)
Theorem C52_refuted_write cs src : main_run open rd format create old cs (Exit 0) None -> last cs old = Some src ->
  forall k err, k <= length src ->
  exists cs', main_run open rd format create old cs' (Exit 0) (Some err) /\ last cs' old = Some (firstn k src).
Proof.
  intros H L k err Hk. destruct (C52_success cs H) as (built & text & src' & B & M & F & L').
  assert (src' = src) as -> by congruence.
  assert (create = None) as C by (inversion H; subst; reflexivity).
  destruct k as [|k].
  - exists [old; Some []]. split; [|reflexivity]. eapply main_writes; try eassumption. constructor. lia.
  - exists [old; Some []; Some (firstn (S k) src)]. split; [|reflexivity].
    eapply main_writes; try eassumption. constructor; [lia|]. constructor. lia.
Qed.

(* The file is truncated before it is written: every run that reports success
   goes through a moment where it is empty, whatever it held before. *)
Theorem C52_refuted_crash cs e : main_run open rd format create old cs (Exit 0) e -> In (Some []) cs.
Proof. intros H. inversion H; subst. right. left. reflexivity. Qed.

(* With the published data files, and a formatter that changes white space only,
   the file is the committed one, up to white space. *)
Theorem C52_reproducible r1 r2 r3 :
  open gbpPath = inl r1 -> open emojiPath = inl r2 -> open dcpPath = inl r3 ->
  delivers rd 100 r1 (file_bytes GraphemeBreakProperty_txt) EOF ->
  delivers rd 100 r2 (file_bytes emoji_data_txt) EOF ->
  delivers rd 100 r3 (file_bytes DerivedCoreProperties_txt) EOF ->
  (forall text, exists src, format text = inl src /\ without_white_space src = without_white_space text) ->
  create = None ->
  (exists cs, main_run open rd format create old cs (Exit 0) None) /\
  forall cs st e, main_run open rd format create old cs st e ->
    st = Exit 0 /\
    (e = None -> exists src, last cs old = Some src /\ without_white_space src = without_white_space committed_source).
Proof.
  intros E1 E2 E3 D1 D2 D3 HF HC.
  destruct (C45_reproducible rd r1 rd r2 rd r3 D1 D2 D3) as (out & text & B & U & M & S).
  destruct (HF text) as (src & F & W).
  assert (BuildFrom open rd out) as B0 by (eapply open_all; eassumption).
  split.
  - eexists. eapply (main_writes open rd format create old out text src (if length src =? 0 then [] else [Some (firstn (length src) src)]) None); try eassumption.
    destruct (length src =? 0) eqn:L.
    { apply Nat.eqb_eq in L. rewrite <- L. constructor. }
    apply Nat.eqb_neq in L. apply write_some; [lia|]. constructor.
  - intros cs st e H. split.
    + destruct H as [built' p' B' M'|built' err' B' M'|built' text' err' B' M' F'|built' text' src' err' B' M' F' C'|built' text' src' cs2 e2' B' M' F' C' W'];
        try (pose proof (BuildFrom_fun _ _ B0 B') as <-); congruence.
    + intros ->. assert (st = Exit 0) as ->.
      { destruct H as [built' p' B' M'|built' err' B' M'|built' text' err' B' M' F'|built' text' src' err' B' M' F' C'|built' text' src' cs2 e2' B' M' F' C' W'];
          try (pose proof (BuildFrom_fun _ _ B0 B') as <-); congruence. }
      destruct (C52_success cs H) as (built & text' & src' & B' & M' & F' & L).
      pose proof (BuildFrom_fun _ _ B0 B') as <-. assert (text' = text) as -> by congruence. assert (src' = src) as -> by congruence.
      exists src. split; [exact L|]. congruence.
Qed.
End run.

(* ---- examples *)

(* The directory of the package: the published files, each read as a whole. *)
Definition published (path : gostring) : result (list byte) :=
  if str_eqb path gbpPath then inl (file_bytes GraphemeBreakProperty_txt)
  else if str_eqb path emojiPath then inl (file_bytes emoji_data_txt)
  else if str_eqb path dcpPath then inl (file_bytes DerivedCoreProperties_txt)
  else inr (ReaderError 2).

Example C52_published (old : content) :
  files_deliver published bytes_reader /\
  exists cs src, main_run published bytes_reader inl None old cs (Exit 0) None /\ last cs old = Some src /\
    without_white_space src = without_white_space committed_source.
Proof.
  assert (forall path r, published path = inl r -> delivers bytes_reader 100 r r EOF) as K.
  { intros path r _. apply bytes_reader_delivers. }
  split; [intros path r H; exists r, EOF; eapply K; exact H|].
  assert (published gbpPath = inl (file_bytes GraphemeBreakProperty_txt)) as E1 by reflexivity.
  assert (published emojiPath = inl (file_bytes emoji_data_txt)) as E2 by reflexivity.
  assert (published dcpPath = inl (file_bytes DerivedCoreProperties_txt)) as E3 by reflexivity.
  destruct (C52_reproducible published bytes_reader inl None old _ _ _ E1 E2 E3 (K _ _ E1) (K _ _ E2) (K _ _ E3)) as ((cs & H) & R).
  { intros text. exists text. auto. }
  { reflexivity. }
  destruct (R _ _ _ H) as (_ & Q). destruct (Q eq_refl) as (src & L & W). exists cs, src. auto.
Qed.

(* Without the last of the files: exit status 1, and nothing has been touched. *)
Definition unpublished (path : gostring) : result (list byte) :=
  if str_eqb path dcpPath then inr (ReaderError 2) else published path.

Example C52_missing (old : content) format create :
  main_run unpublished bytes_reader format create old [old] (Exit 1) None /\
  forall cs st e, main_run unpublished bytes_reader format create old cs st e -> cs = [old] /\ st = Exit 1.
Proof.
  assert (main_run unpublished bytes_reader format create old [old] (Exit 1) None) as H.
  { eapply (main_no_tree _ _ _ _ _ (Ret (inr (ReaderError 2)))); [eapply open_fail3; reflexivity|reflexivity]. }
  split; [exact H|]. intros cs st e H'.
  assert (files_deliver unpublished bytes_reader) as D by (intros path r _; exists r, EOF; apply bytes_reader_delivers).
  destruct (C52_status unpublished bytes_reader format create old D) as [_ U].
  assert (st = Exit 1) as -> by (eapply U; eassumption). split; [|reflexivity].
  apply (C52_failure _ _ _ _ _ _ _ _ H'). discriminate.
Qed.

Definition all_theorems :=
  (@C52_failure, @C52_crash, @C52_success, @C52_status, @C52_zero, @C52_good, @C52_refuted_write, @C52_refuted_crash,
   @C52_reproducible, C52_published, C52_missing).
Print Assumptions all_theorems.
