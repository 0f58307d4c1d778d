(* C77: the test programs (grapheme_clusters_test.go), with ucdparse and
   ScanGraphemeClusters executed from their source files. *)
From Coq Require Import List NArith ZArith Arith Bool Lia Strings.String Strings.Byte.
From Verif Require Import Spec.Readers Spec.UcdFile Model.Base Model.Scan Model.Bufio Model.GoRuns Model.GoSplit Model.UcdParse.
From Verif Require Import Model.UcdSyntax Model.UcdSemantics Model.UcdSourceUnit Model.UcdRuns Data.UcdGraphemeBreakTest.
From Verif Require Import Proofs.FileCheck Proofs.TestFile Properties.Bufio Properties.Parsing Properties.Conformance Properties.UcdSource Properties.UcdSourceFiles.
From Verif Require Import Properties.SourceScanner.
Import ListNotations.
Local Open Scope string_scope.
Local Open Scope list_scope.
Local Opaque MaxScanTokenSize.

(* What the test programs check for an input and the segments wanted
   (grapheme_clusters_test.go 35-41, 91-104): the executed source passes. *)
Definition source_passes (w : Z) (f : string) (input : list byte) (want : list (list byte)) : Prop :=
  (exists got err, allTokens (go_split w f) input got err) /\
  (forall got err, allTokens (go_split w f) input got err -> got = want /\ err = None) /\
  (forall R (rd : reader R) r, delivers rd 100 r input EOF ->
     (exists sls r' s', collects (go_split w f) rd r NewScanner sls r' s') /\
     (forall sls r' s', collects (go_split w f) rd r NewScanner sls r' s' -> map (bytes_of s') sls = want /\ Err s' = None)).

Lemma passes_source w f t : exported f -> (18 <= w)%Z -> passes t -> source_passes w f (Input t) (WantSegments t).
Proof.
  intros Hx Hw (_ & A & B). pose proof (default_countable w Hw) as Hc.
  split; [exact (proj1 (C77_allTokens w f (Input t) Hx Hw))|split].
  - intros got err H. apply A. inversion H as [sls r s C E1 E2]. constructor 1 with (r := r).
    exact (proj1 (C77_collects w f MaxScanTokenSize (list byte) bytes_reader (Input t) NewScanner sls r s Hx Hc fresh_default) C).
  - intros R rd r D. split.
    + destruct (fresh_scans rd r (Input t) EOF NewScanner _ fresh_default D) as (_ & toks & r' & s' & _ & S & _).
      assert (exists sls, collects ScanGraphemeClusters rd r NewScanner sls r' s') as [sls C].
      { clear - S. induction S as [r s r' s' E|r s ra sa sl toks r' s' E H [sls IH]].
        - exists []. constructor. exact E.
        - exists (sl :: sls). econstructor; eauto. }
      exists sls, r', s'. exact (proj2 (C77_collects w f MaxScanTokenSize R rd r NewScanner sls r' s' Hx Hc fresh_default) C).
    + intros sls r' s' C. apply (B R rd r sls r' s' D).
      exact (proj1 (C77_collects w f MaxScanTokenSize R rd r NewScanner sls r' s' Hx Hc fresh_default) C).
Qed.

(* However GraphemeBreakTest.txt is delivered, and with whatever error it ends: each
   call of NextEntry, executed, returns an entry that the executed ScanGraphemeClusters
   passes, or that error; the first 766 calls return entries. *)
Theorem C77_test_program : forall w f R (rd : reader R) wd e rs, exported f -> (18 <= w)%Z ->
  delivers rd 100 (w_reader wd) (file_bytes GraphemeBreakTest_txt) e -> test_session rd wd rs ->
  Forall (fun r =>
    (exists input want,
       r = [URecord "TestDataEntry" [("Input", UBytes "" input); ("WantSegments", USlices want)]; UNil] /\
       source_passes w f input want) \/
    (766 < List.length rs /\ r = [URecord "TestDataEntry" [("Input", UBytes "" []); ("WantSegments", USlices [])]; UErr e])) rs.
Proof.
  intros w f R rd wd e rs Hx Hw Hd S. apply C76_test_results in S. destruct S as (outs & T & ->).
  destruct (C46_test_passes rd (w_reader wd) e outs Hd T) as [A B]. rewrite map_length. apply Forall_map.
  assert (forall o, In o outs -> match o with inl _ => True | inr _ => 766 < List.length outs end) as K.
  { intros o Ho. destruct (le_lt_dec (List.length outs) 766) as [L|L].
    - specialize (proj1 (Forall_forall _ _) (B L) o Ho). destruct o; tauto.
    - destruct o; [exact I|exact L]. }
  apply Forall_forall. intros o Ho. specialize (K o Ho). specialize (proj1 (Forall_forall _ _) A o Ho). cbv beta.
  destruct o as [t|err].
  - intros P. left. exists (Input t), (WantSegments t). split; [reflexivity|]. apply passes_source; assumption.
  - intros ->. right. split; [exact K|reflexivity].
Qed.

(* There are sessions of every length, over the readers of the two test programs. *)
Theorem C77_sessions : forall R (rd : reader R) wd e n,
  delivers rd 100 (w_reader wd) (file_bytes GraphemeBreakTest_txt) e -> exists rs, List.length rs = n /\ test_session rd wd rs.
Proof.
  intros R rd wd e n Hd. destruct C46_file as (lines & ms & Hf & Hm & _). destruct (cases lines ms Hf Hm) as [Hshort _].
  pose proof (C76_test_file R rd wd _ e lines ms Hd Hf Hshort Hm n) as (w' & sc & A & H).
  exists (firstn n (map go_test (present ms) ++ repeat (go_test_failure e) n)). split.
  - rewrite firstn_length, app_length, repeat_length. lia.
  - exists w', sc. split; [exact A|]. clear - H.
    generalize dependent (map go_test (present ms) ++ repeat (go_test_failure e) n). intros all H. revert n.
    induction H as [w|w w' r rs E H IH]; intros n; [rewrite firstn_nil; constructor|].
    destruct n; [constructor|]. cbn [firstn]. econstructor; [exact E|apply IH].
Qed.

Example C77_readers : exists (rd : reader (list byte)) wd rs,
  delivers rd 100 (w_reader wd) (file_bytes GraphemeBreakTest_txt) EOF /\ List.length rs = 766 /\ test_session rd wd rs.
Proof.
  set (wd := World (file_bytes GraphemeBreakTest_txt) newLineScan None []).
  assert (delivers dripReader 100 (w_reader wd) (file_bytes GraphemeBreakTest_txt) EOF) as D by apply drip_delivers.
  destruct (C77_sessions _ dripReader wd EOF 766 D) as (rs & L & S). exists dripReader, wd, rs. auto.
Qed.

Definition all_theorems := (C77_test_program, C77_sessions).
Print Assumptions all_theorems.
