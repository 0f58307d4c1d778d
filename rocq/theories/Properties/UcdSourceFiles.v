(* C76: ucdparse, executed from its source text, reads the files as their format says.
   What C31, C32 and C43 say of the model, about runs of the program text
   (Model/UcdRuns.v). *)
From Coq Require Import List NArith ZArith Arith Bool Lia Strings.String Strings.Byte.
From Verif Require Import Spec.Utf8 Spec.Readers Spec.UcdFile Spec.ErrorValues Model.Base Model.Scan Model.Bufio Model.PropNames Model.GenTable Model.UcdParse.
From Verif Require Import Model.UcdSyntax Model.UcdSemantics Model.UcdSourceUnit Model.UcdRuns Proofs.Basics Proofs.ParseFacts Proofs.UcdFacts Proofs.UcdRun.
From Verif Require Import Properties.Bufio Properties.Parsing Properties.UcdSource.
Import ListNotations.
Local Open Scope string_scope.
Local Open Scope list_scope.

Lemma answers_fun {R} (rd : reader R) f vs w w1 r1 w2 r2 : ucd_answers rd f vs w w1 r1 -> ucd_answers rd f vs w w2 r2 -> w1 = w2 /\ r1 = r2.
Proof.
  intros (n & H) (m & K). specialize (H (Nat.max n m) (Nat.max n m) ltac:(lia) ltac:(lia)).
  specialize (K (Nat.max n m) (Nat.max n m) ltac:(lia) ltac:(lia)). rewrite H in K. split; congruence.
Qed.

(* one call *)
Lemma next_iff {R} (rd : reader R) r s line y w' vs :
  ucd_answers rd "Scanner.NextEntry" [go_scanner] (World r s line y) w' vs ->
  exists out, NextEntry rd r s (w_reader w') (w_scanner w') out /\ vs = go_result go_entry (MkEntry 0 0 []) out.
Proof.
  intros (n & H). destruct (C75_next_entry R rd r s line y) as [_ B]. destruct (B n n w' vs (H n n (le_n _) (le_n _))) as (out & N & E & _). eauto.
Qed.
Lemma next_answers {R} (rd : reader R) r s line y r' s' out : NextEntry rd r s r' s' out ->
  exists line', ucd_answers rd "Scanner.NextEntry" [go_scanner] (World r s line y) (World r' s' line' y) (go_result go_entry (MkEntry 0 0 []) out).
Proof.
  intros H. destruct (C75_next_entry R rd r s line y) as [A _]. destruct (A r' s' out H) as (line' & n & K).
  exists line', (S n). intros fuel depth Hf Hd. apply K; lia.
Qed.
Lemma test_iff {R} (rd : reader R) r s line y w' vs :
  ucd_answers rd "TestDataScanner.NextEntry" [go_test_scanner] (World r s line y) w' vs ->
  exists out, NextTestEntry rd r s (w_reader w') (w_scanner w') out /\ vs = go_result go_test_entry (MkTest [] []) out.
Proof.
  intros (n & H). destruct (C75_next_test_entry R rd r s line y) as [_ B]. destruct (B n n w' vs (H n n (le_n _) (le_n _))) as (out & N & E & _). eauto.
Qed.
Lemma test_answers {R} (rd : reader R) r s line y r' s' out : NextTestEntry rd r s r' s' out ->
  exists line', ucd_answers rd "TestDataScanner.NextEntry" [go_test_scanner] (World r s line y) (World r' s' line' y) (go_result go_test_entry (MkTest [] []) out).
Proof.
  intros H. destruct (C75_next_test_entry R rd r s line y) as [A _]. destruct (A r' s' out H) as (line' & n & K).
  exists line', (S n). intros fuel depth Hf Hd. apply K; lia.
Qed.

(* many calls *)
Lemma asked_calls {R} (rd : reader R) w rs : asked rd "Scanner.NextEntry" go_scanner w rs ->
  exists outs r' s', rs = map (go_result go_entry (MkEntry 0 0 [])) outs /\
    calls (fun raw => Ret (parse_line raw)) rd (w_reader w) (w_scanner w) outs r' s'.
Proof.
  induction 1 as [w|w w' r rs H _ (outs & r' & s' & -> & IH)]; [exists [], (w_reader w), (w_scanner w); split; [reflexivity|constructor]|].
  destruct w as [r0 s0 l0 y0]. apply next_iff in H. destruct H as (out & N & ->).
  exists (out :: outs), r', s'. split; [reflexivity|]. econstructor; [exact N|exact IH].
Qed.
Lemma calls_asked {R} (rd : reader R) r s outs r' s' : calls (fun raw => Ret (parse_line raw)) rd r s outs r' s' -> forall line y,
  asked rd "Scanner.NextEntry" go_scanner (World r s line y) (map (go_result go_entry (MkEntry 0 0 [])) outs).
Proof.
  induction 1 as [r s|r s r1 s1 o outs r' s' N _ IH]; intros line y; [constructor|]. cbn [map].
  destruct (next_answers rd r s line y r1 s1 o N) as (line' & A). econstructor; [exact A|apply IH].
Qed.
Lemma asked_test_calls {R} (rd : reader R) w rs : asked rd "TestDataScanner.NextEntry" go_test_scanner w rs ->
  exists outs r' s', rs = map (go_result go_test_entry (MkTest [] [])) outs /\
    calls parse_test_line rd (w_reader w) (w_scanner w) outs r' s'.
Proof.
  induction 1 as [w|w w' r rs H _ (outs & r' & s' & -> & IH)]; [exists [], (w_reader w), (w_scanner w); split; [reflexivity|constructor]|].
  destruct w as [r0 s0 l0 y0]. apply test_iff in H. destruct H as (out & N & ->).
  exists (out :: outs), r', s'. split; [reflexivity|]. econstructor; [exact N|exact IH].
Qed.
Lemma test_calls_asked {R} (rd : reader R) r s outs r' s' : calls parse_test_line rd r s outs r' s' -> forall line y,
  asked rd "TestDataScanner.NextEntry" go_test_scanner (World r s line y) (map (go_result go_test_entry (MkTest [] [])) outs).
Proof.
  induction 1 as [r s|r s r1 s1 o outs r' s' N _ IH]; intros line y; [constructor|]. cbn [map].
  destruct (test_answers rd r s line y r1 s1 o N) as (line' & A). econstructor; [exact A|apply IH].
Qed.

Lemma new_answers {R} (rd : reader R) w :
  ucd_answers rd "NewScanner" [UReader] w (World (w_reader w) newLineScan None (w_yielded w)) [go_scanner] /\
  ucd_answers rd "NewTestDataScanner" [UReader] w (World (w_reader w) newLineScan None (w_yielded w)) [go_test_scanner].
Proof.
  destruct w as [r s line y]. split; exists 1; intros fuel depth Hf Hd; apply (C75_new R rd fuel depth r s line y Hd).
Qed.

(* A session with the program returns what one with the model returns, and nothing else. *)
Theorem C76_results : forall R (rd : reader R) w rs,
  ucd_session rd w rs <->
  exists outs, ucd_results rd (w_reader w) outs /\ rs = map (go_result go_entry (MkEntry 0 0 [])) outs.
Proof.
  intros R rd w rs. destruct (new_answers rd w) as [N _]. split.
  - intros (w' & sc & A & H). destruct (answers_fun _ _ _ _ _ _ _ _ A N) as [-> E]. injection E as ->.
    apply asked_calls in H. destruct H as (outs & r' & s' & -> & C). exists outs. split; [exists r', s'; exact C|reflexivity].
  - intros (outs & (r' & s' & C) & ->). eexists _, _. split; [exact N|]. eapply calls_asked. exact C.
Qed.
Theorem C76_test_results : forall R (rd : reader R) w rs,
  test_session rd w rs <->
  exists outs, Parsing.test_results rd (w_reader w) outs /\ rs = map (go_result go_test_entry (MkTest [] [])) outs.
Proof.
  intros R rd w rs. destruct (new_answers rd w) as [_ N]. split.
  - intros (w' & sc & A & H). destruct (answers_fun _ _ _ _ _ _ _ _ A N) as [-> E]. injection E as ->.
    apply asked_test_calls in H. destruct H as (outs & r' & s' & -> & C). exists outs. split; [exists r', s'; exact C|reflexivity].
  - intros (outs & (r' & s' & C) & ->). eexists _, _. split; [exact N|]. eapply test_calls_asked. exact C.
Qed.

(* There is at most one such session of each length. *)
Lemma asked_fun {R} (rd : reader R) f sc w rs : asked rd f sc w rs -> forall rs', asked rd f sc w rs' -> List.length rs = List.length rs' -> rs = rs'.
Proof.
  induction 1 as [w|w w' r rs H _ IH]; intros rs' H' L; destruct H' as [w|w w2 r2 rs2 H2 K2]; [reflexivity|discriminate L|discriminate L|].
  destruct (answers_fun _ _ _ _ _ _ _ _ H H2) as [<- <-]. f_equal. apply IH; [exact K2|]. injection L as L. exact L.
Qed.
Theorem C76_deterministic : forall R (rd : reader R) w rs rs', List.length rs = List.length rs' ->
  (ucd_session rd w rs -> ucd_session rd w rs' -> rs = rs') /\
  (test_session rd w rs -> test_session rd w rs' -> rs = rs').
Proof.
  intros R rd w rs rs' L. split; intros (w1 & s1 & A & H) (w2 & s2 & B & K);
    destruct (answers_fun _ _ _ _ _ _ _ _ A B) as [<- E]; injection E as <-; exact (asked_fun _ _ _ _ _ H _ K L).
Qed.

(* ---- the fields *)
Lemma iterator_yields e keep remain vals remain' : range_strings keep remain = Ret (vals, remain') ->
  ucd_yields (iterator (Fields e) remain) keep vals (iterator (Fields e) remain').
Proof.
  intros H R rd w. exists (S (List.length remain)). intros fuel Hf. unfold ucd_range. rewrite UcdNext.ucdparse_parses.
  rewrite run_strings by lia. rewrite H. reflexivity.
Qed.
Lemma AllFields_answers e : forall R (rd : reader R) w, ucd_answers rd "Entry.AllFields" [go_entry e] w w [iterator (Fields e) (Fields e)].
Proof.
  intros R rd w. exists 2. intros fuel depth Hf Hd. destruct depth as [|[|d]]; try lia. rewrite ucd_call_eq. exact (call_AllFields rd _ fuel d e w).
Qed.
Lemma FirstField_answers e : first_field_is (go_entry e) (FirstField e).
Proof. intros R rd w. exists 2. intros fuel depth Hf Hd. exact (C75_first_field R rd fuel depth e w Hd). Qed.
Lemma AllFields_are e ts : AllFields e = Ret ts -> all_fields_are (go_entry e) ts.
Proof.
  unfold AllFields. intros H. exists (iterator (Fields e) (Fields e)). split; [apply AllFields_answers|].
  destruct (range_strings (fun _ => true) (Fields e)) as [[vals remain']|x] eqn:E; [|discriminate H]. cbn [bind] in H. injection H as ->.
  eexists. apply iterator_yields. exact E.
Qed.

(* A range over the fields of an entry that is left after k + 1 values, and another one
   over the same iterator: the second one begins with the value the first was left at. *)
Theorem C76_fields : forall e fields k, fields_text (Fields e) fields -> k < List.length fields ->
  first_field_is (go_entry e) (hd [] fields) /\ all_fields_are (go_entry e) fields /\
  exists it it1 it2, (forall R (rd : reader R) w, ucd_answers rd "Entry.AllFields" [go_entry e] w w [it]) /\
    ucd_yields it (fun i => Nat.ltb i k) (firstn (S k) fields) it1 /\
    ucd_yields it1 (fun _ => true) (skipn k fields) it2.
Proof.
  intros e fields k H Hk. destruct (C43_break _ _ _ H Hk) as (rest & after & A & B).
  destruct (C43_second_range _ _ H) as (rest1 & _ & E & _).
  split; [|split].
  - assert (FirstField e = hd [] fields) as <-; [|apply FirstField_answers].
    clear - H. unfold FirstField, fieldSeparator. destruct H as [f t Hf Ht|f t fs ts Hf Ht H].
    + rewrite Cut_absent by (apply absent1; exact Hf). apply TrimSpace_padded. exact Ht.
    + change (f ++ x3b :: fs) with (f ++ [x3b] ++ fs). rewrite Cut_found1 by exact Hf. apply TrimSpace_padded. exact Ht.
  - apply AllFields_are. unfold AllFields. rewrite E. reflexivity.
  - eexists _, _, _. split; [apply AllFields_answers|]. split; apply iterator_yields; [exact A|exact B].
Qed.

(* ---- whole files *)

(* The results of NextEntry for a line that is not ignored. *)
Definition go_answers (m : meaning) (rs : list gval) : Prop :=
  match m with
  | Ignored => False
  | Data first last fields => exists start stop p,
      let e := URecord "Entry" [("Start", URune start); ("End", URune stop); ("Fields", UBytes "Fields" p)] in
      rs = [e; UNil] /\ as_rune first start /\ as_rune (last + 1) stop /\
      first_field_is e (hd [] fields) /\ all_fields_are e fields
  | Malformed f => rs = [URecord "Entry" [("Start", URune 0); ("End", URune 0); ("Fields", UBytes "Fields" [])]; UErr (error_for f)]
  end.
(* the zero entry and an error *)
Definition go_failure (e : goerror) : list gval :=
  [URecord "Entry" [("Start", URune 0); ("End", URune 0); ("Fields", UBytes "Fields" [])]; UErr e].

Lemma answers_go m o : answers m o -> go_answers m (go_result go_entry (MkEntry 0 0 []) o).
Proof.
  destruct m as [|first last fields|f]; cbn [answers go_answers]; [exact (fun x => x)| |intros ->; reflexivity].
  intros (e & -> & H1 & H2 & H3 & H4). exists (Start e), (End e), (Fields e). split; [reflexivity|]. split; [exact H1|]. split; [exact H2|].
  split; [rewrite <- H4; exact (FirstField_answers e)|exact (AllFields_are e fields H3)].
Qed.

Theorem C76_file : forall R (rd : reader R) w file e lines ms,
  delivers rd 100 (w_reader w) file e -> file_lines file lines ->
  Forall (fun l => List.length l < 64 * 1024) lines -> Forall2 line_means lines ms ->
  exists rs, Forall2 go_answers (filter (fun m => negb (ignored m)) ms) rs /\
    forall n, ucd_session rd w (rs ++ repeat (go_failure e) n).
Proof.
  intros R rd w file e lines ms Hd Hf HF Hm. destruct (C31_file rd (w_reader w) file e lines ms Hd Hf HF Hm) as (outs & Ha & K).
  exists (map (go_result go_entry (MkEntry 0 0 [])) outs). split.
  - clear - Ha. induction Ha; cbn [map]; constructor; [apply answers_go; assumption|assumption].
  - intros n. apply C76_results. exists (outs ++ repeat (inr e) n). split; [apply K|]. rewrite map_app. f_equal. clear. induction n as [|n IH]; [reflexivity|].
    cbn [repeat map]. rewrite <- IH. reflexivity.
Qed.

(* The entries of a proper file. *)
Definition go_entry_of (d : N * N * list (list byte)) (rs : list gval) : Prop :=
  let '(first, last, fields) := d in
  exists p, let e := URecord "Entry" [("Start", URune (Z.of_N first)); ("End", URune (Z.of_N last + 1)); ("Fields", UBytes "Fields" p)] in
    rs = [e; UNil] /\ first_field_is e (hd [] fields) /\ all_fields_are e fields.

Theorem C76_code_points : forall R (rd : reader R) w file lines ms ds,
  delivers rd 100 (w_reader w) file EOF -> file_lines file lines ->
  Forall (fun l => List.length l < 64 * 1024) lines -> Forall2 line_means lines ms ->
  filter (fun m => negb (ignored m)) ms = map (fun '(first, last, fields) => Data first last fields) ds ->
  Forall (fun '(first, last, fields) => first <= 0x10FFFF /\ last <= 0x10FFFF)%N ds ->
  exists rs, Forall2 go_entry_of ds rs /\ forall n, ucd_session rd w (rs ++ repeat (go_failure EOF) n).
Proof.
  intros R rd w file lines ms ds Hd Hf HF Hm E Hds.
  destruct (C76_file R rd w file EOF lines ms Hd Hf HF Hm) as (rs & Ha & K). exists rs. split; [|exact K].
  rewrite E in Ha. clear - Ha Hds. revert rs Ha.
  induction Hds as [|[[first last] fields] ds [L1 L2] Hds IH]; intros rs Ha; cbn [map] in Ha; inversion Ha as [|m o ms' os A B]; subst;
    constructor; [|auto].
  destruct A as (start & stop & p & -> & H1 & H2 & H3 & H4). apply as_rune_small in H1; [|lia]. apply as_rune_small in H2; [|lia].
  subst start stop. replace (Z.of_N (last + 1)) with (Z.of_N last + 1)%Z in * by lia. exists p. split; [reflexivity|]. split; assumption.
Qed.

(* Test files: the text and the segments of every line that has some. *)
Definition go_test (clusters : list (list N)) : list gval :=
  [URecord "TestDataEntry" [("Input", UBytes "" (utf8_text (List.concat clusters))); ("WantSegments", USlices (map utf8_text clusters))]; UNil].
Definition go_test_failure (e : goerror) : list gval :=
  [URecord "TestDataEntry" [("Input", UBytes "" []); ("WantSegments", USlices [])]; UErr e].

Theorem C76_test_file : forall R (rd : reader R) w file e lines ms,
  delivers rd 100 (w_reader w) file e -> file_lines file lines ->
  Forall (fun l => List.length l < 64 * 1024) lines -> Forall2 test_meaning lines ms ->
  forall n, test_session rd w (map go_test (present ms) ++ repeat (go_test_failure e) n).
Proof.
  intros R rd w file e lines ms Hd Hf HF Hm n. apply C76_test_results.
  eexists. split; [apply (C32_file rd (w_reader w) file e lines ms Hd Hf HF Hm n)|]. rewrite map_app, map_map. f_equal.
  clear. induction n as [|n IH]; [reflexivity|]. cbn [repeat map]. rewrite <- IH. reflexivity.
Qed.

(* The sample of C31, read in dribs and drabs by the program text: a comment, an empty
   line, two entries, a number that is too large and one that is none. *)
Example C76_example : exists p1 p2,
  ucd_session (nagging EOF) (World (true, ucd_sample) newLineScan None [])
    [ [URecord "Entry" [("Start", URune 0x94D); ("End", URune 0x94F); ("Fields", UBytes "Fields" p1)]; UNil];
      [URecord "Entry" [("Start", URune 0xD); ("End", URune 0xE); ("Fields", UBytes "Fields" p2)]; UNil];
      go_failure (InvalidStart (list_byte_of_string "11000000000") ErrRange);
      go_failure (InvalidStart (list_byte_of_string "zz") ErrSyntax);
      go_failure EOF; go_failure EOF ] /\
  all_fields_are (URecord "Entry" [("Start", URune 0x94D); ("End", URune 0x94F); ("Fields", UBytes "Fields" p1)])
    [list_byte_of_string "InCB"; list_byte_of_string "Linker"].
Proof.
  destruct C31_example as (outs & S & H).
  destruct outs as [|[e1|] [|[e2|] [|o3 [|o4 [|]]]]]; try contradiction H.
  destruct H as (-> & -> & H1 & H2 & H3 & H4 & H5 & _). exists (Fields e1), (Fields e2). split.
  - apply C76_results. eexists. split; [exact S|]. cbn [app map go_result]. unfold go_entry. rewrite H1, H2, H4, H5. reflexivity.
  - pose proof (AllFields_are e1 _ H3) as K. unfold go_entry in K. rewrite H1, H2 in K. exact K.
Qed.

Definition all_theorems := (C76_results, C76_test_results, C76_deterministic, C76_fields, C76_file, C76_code_points, C76_test_file, C76_example).
Print Assumptions all_theorems.
