(* C75: the model of ucdparse is what its source text says.  ucd_scan.go and
   testdata_scan.go are parsed and executed inside Coq (Model/UcdSyntax.v,
   Model/UcdSemantics.v), and for every reader and every input the functions return what
   their models return. *)
From Coq Require Import List NArith ZArith Arith Bool Lia Strings.String Strings.Byte.
From Verif Require Import Spec.Utf8 Model.Base Model.Scan Model.Bufio Model.PropNames Model.GenTable Model.UcdParse.
From Verif Require Import Model.UcdSyntax Model.UcdSemantics Model.UcdSourceUnit Proofs.UcdNext Proofs.UcdRun Properties.Bufio.
Import ListNotations.
Local Open Scope string_scope.
Local Open Scope list_scope.

(* Values of the model as values of Go. *)
Definition go_scanner : gval := URecord "Scanner" [("lineScan", UScanner)].
Definition go_test_scanner : gval := URecord "TestDataScanner" [("lineScan", UScanner)].
Definition go_entry (e : Entry) : gval :=
  URecord "Entry" [("Start", URune (Start e)); ("End", URune (End e)); ("Fields", UBytes "Fields" (Fields e))].
Definition go_test_entry (e : TestDataEntry) : gval :=
  URecord "TestDataEntry" [("Input", UBytes "" (Input e)); ("WantSegments", USlices (WantSegments e))].
(* (entry, nil), or the zero entry and an error *)
Definition go_result {A} (value : A -> gval) (zero : A) (out : result A) : list gval :=
  match out with inl e => [value e; UNil] | inr err => [value zero; UErr err] end.

Lemma ucd_call_eq {R} (rd : reader R) fuel depth f vs w :
  ucd_call rd fuel depth f vs w = invoke rd (fun _ => true) fuel ucd_program depth f vs w.
Proof. unfold ucd_call. rewrite ucdparse_parses. reflexivity. Qed.

Theorem C75_parses : exists u, ucdparse = Some u /\ List.length (u_funs u) = 8 /\ List.length (u_types u) = 5.
Proof. exists ucd_program. split; [apply ucdparse_parses|split; reflexivity]. Qed.

Theorem C75_new : forall R (rd : reader R) fuel depth r s line y, 1 <= depth ->
  ucd_call rd fuel depth "NewScanner" [UReader] (World r s line y) = Ret (World r newLineScan None y, [go_scanner]) /\
  ucd_call rd fuel depth "NewTestDataScanner" [UReader] (World r s line y) = Ret (World r newLineScan None y, [go_test_scanner]).
Proof.
  intros R rd fuel depth r s line y Hd. destruct depth as [|d]; [lia|].
  split; rewrite ucd_call_eq; [exact (call_NewScanner rd _ fuel d _)|exact (call_NewTestDataScanner rd _ fuel d _)].
Qed.

(* NextEntry: whatever the model says it may return, the source returns, whenever it
   runs for long enough, and nothing else, and it leaves the reader and the line scanner
   in the same state. *)
Theorem C75_next_entry : forall R (rd : reader R) r s line y,
  (forall r' s' out, NextEntry rd r s r' s' out ->
     exists line' n, forall fuel depth, n <= fuel -> 1 <= depth ->
       ucd_call rd fuel depth "Scanner.NextEntry" [go_scanner] (World r s line y) =
       Ret (World r' s' line' y, go_result go_entry (MkEntry 0 0 []) out)) /\
  (forall fuel depth w' vs, ucd_call rd fuel depth "Scanner.NextEntry" [go_scanner] (World r s line y) = Ret (w', vs) ->
     exists out, NextEntry rd r s (w_reader w') (w_scanner w') out /\ vs = go_result go_entry (MkEntry 0 0 []) out /\
       w_yielded w' = y).
Proof.
  intros R rd r s line y. split.
  - intros r' s' out H.
    destruct (next_loop_complete rd (fun _ => true) _ _ _ _ _ H line y) as (n & line' & K).
    exists line', n. intros fuel [|d] Hf Hd; [lia|]. rewrite ucd_call_eq. unfold go_scanner. fold sc_value. rewrite call_NextEntry.
    rewrite (K fuel Hf fuel). destruct out; reflexivity.
  - intros fuel depth w' vs. rewrite ucd_call_eq. destruct depth as [|d]; [discriminate|].
    unfold go_scanner. fold sc_value. rewrite call_NextEntry.
    destruct (forever _ _ _ _) as [[w1 a]|x] eqn:E; [|discriminate]. cbn [bind].
    apply next_loop_sound in E. destruct E as (out & H & -> & Y). intros V. injection V as <- <-.
    exists out. split; [exact H|split; [|exact Y]]. destruct out; reflexivity.
Qed.

Theorem C75_next_test_entry : forall R (rd : reader R) r s line y,
  (forall r' s' out, NextTestEntry rd r s r' s' out ->
     exists line' n, forall fuel depth, n <= fuel -> 1 <= depth ->
       ucd_call rd fuel depth "TestDataScanner.NextEntry" [go_test_scanner] (World r s line y) =
       Ret (World r' s' line' y, go_result go_test_entry (MkTest [] []) out)) /\
  (forall fuel depth w' vs, ucd_call rd fuel depth "TestDataScanner.NextEntry" [go_test_scanner] (World r s line y) = Ret (w', vs) ->
     exists out, NextTestEntry rd r s (w_reader w') (w_scanner w') out /\ vs = go_result go_test_entry (MkTest [] []) out /\
       w_yielded w' = y).
Proof.
  intros R rd r s line y. split.
  - intros r' s' out H.
    destruct (test_loop_complete rd (fun _ => true) _ _ _ _ _ H line y) as (n & line' & K).
    exists line', n. intros fuel [|d] Hf Hd; [lia|]. rewrite ucd_call_eq. unfold go_test_scanner. fold test_sc. rewrite call_NextTestEntry.
    destruct (K fuel Hf fuel (invoke rd (fun _ => true) fuel ucd_program d)) as [e E]. rewrite E. destruct out; reflexivity.
  - intros fuel depth w' vs. rewrite ucd_call_eq. destruct depth as [|d]; [discriminate|].
    unfold go_test_scanner. fold test_sc. rewrite call_NextTestEntry.
    destruct (forever _ _ _ _) as [[w1 a]|x] eqn:E; [|discriminate]. cbn [bind].
    apply test_loop_sound in E. destruct E as (out & e & H & -> & Y). intros V. injection V as <- <-.
    exists out. split; [exact H|split; [|exact Y]]. destruct out; reflexivity.
Qed.

(* The fields of an entry. *)
Theorem C75_first_field : forall R (rd : reader R) fuel depth e w, 2 <= depth ->
  ucd_call rd fuel depth "Entry.FirstField" [go_entry e] w = Ret (w, [UStr (FirstField e)]).
Proof.
  intros R rd fuel depth e w Hd. destruct depth as [|[|d]]; try lia. rewrite ucd_call_eq. apply call_FirstField.
Qed.

(* AllFields gives an iterator; a range over it yields what the model says, also when
   the body of the range stops it, and when it is used again afterwards. *)
Theorem C75_all_fields : forall e, exists it : list byte -> gval, forall R (rd : reader R),
  (forall fuel depth w, 2 <= depth -> ucd_call rd fuel depth "Entry.AllFields" [go_entry e] w = Ret (w, [it (Fields e)])) /\
  (forall keep fuel remain w, List.length remain < fuel ->
     ucd_range rd keep fuel (it remain) w = let! (vals, remain') := range_strings keep remain in Ret (vals, it remain')).
Proof.
  intros e. exists (iterator (Fields e)). intros R rd. split.
  - intros fuel depth w Hd. destruct depth as [|[|d]]; try lia. rewrite ucd_call_eq. apply call_AllFields.
  - intros keep fuel remain w Hf. unfold ucd_range. rewrite ucdparse_parses. apply run_strings. exact Hf.
Qed.

(* A file with one line that is only a comment and one that is not. *)
Definition small_file : list byte := list_byte_of_string "# header
094D..094F    ; InCB;  Linker # Mn
".
(* what a caller sees: the entry and what its FirstField is *)
Definition seen_by_caller (x : res (world (bool * list byte) * list gval)) : option (list gval * list gval) :=
  match x with
  | Ret (w, e :: rest) =>
      match ucd_call (nagging EOF) 0 2 "Entry.FirstField" [e] w with
      | Ret (_, vs) => Some (e :: rest, vs)
      | Panic _ => None
      end
  | _ => None
  end.
Example C75_example :
  seen_by_caller (ucd_call (nagging EOF) 5 1 "Scanner.NextEntry" [go_scanner] (World (true, small_file) newLineScan None [])) =
  Some ([go_entry (MkEntry 0x94D 0x950 (list_byte_of_string "InCB;  Linker")); UNil], [UStr (list_byte_of_string "InCB")]) /\
  (exists r s out, NextEntry (nagging EOF) (true, small_file) newLineScan r s out).
Proof.
  assert (seen_by_caller (invoke (nagging EOF) (fun _ => true) 5 ucd_program 1 "Scanner.NextEntry" [go_scanner] (World (true, small_file) newLineScan None [])) =
    Some ([go_entry (MkEntry 0x94D 0x950 (list_byte_of_string "InCB;  Linker")); UNil], [UStr (list_byte_of_string "InCB")])) as E
    by vm_cast_no_check (eq_refl (Some ([go_entry (MkEntry 0x94D 0x950 (list_byte_of_string "InCB;  Linker")); UNil], [UStr (list_byte_of_string "InCB")]))).
  rewrite <- ucd_call_eq in E. split; [exact E|].
  destruct (ucd_call (nagging EOF) 5 1 "Scanner.NextEntry" [go_scanner] (World (true, small_file) newLineScan None [])) as [[w vs]|x] eqn:C; [|discriminate E].
  destruct (C75_next_entry _ (nagging EOF) (true, small_file) newLineScan None []) as [_ B].
  destruct (B _ _ _ _ C) as (out & H & _). eauto.
Qed.

Definition all_theorems := (C75_parses, C75_new, C75_next_entry, C75_next_test_entry, C75_first_field, C75_all_fields, C75_example).
Print Assumptions all_theorems.
