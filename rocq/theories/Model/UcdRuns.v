(* Uses of ucdparse executed from its source text (Model/UcdSourceUnit.v). *)
From Coq Require Import List ZArith Strings.String Strings.Byte.
From Verif Require Import Model.Base Model.Bufio Model.PropNames Model.UcdParse.
From Verif Require Import Model.UcdSyntax Model.UcdSemantics Model.UcdSourceUnit.
Import ListNotations.
Local Open Scope list_scope.

(* The function f of the package (ucd_scan.go, testdata_scan.go), executed from its
   source in the world w for long enough, however long, returns r and leaves the world w'. *)
Definition ucd_answers {R} (rd : reader R) (f : string) (vs : list gval) (w w' : world R) (r : list gval) : Prop :=
  exists n, forall fuel depth, n <= fuel -> n <= depth -> ucd_call rd fuel depth f vs w = Ret (w', r).

(* Calling the method f of sc again and again returns these results, one after the
   other: gentable/generate.go 54-66, property_table_test.go. *)
Inductive asked {R} (rd : reader R) (f : string) (sc : gval) : world R -> list (list gval) -> Prop :=
| asked_none w : asked rd f sc w []
| asked_one w w' r rs : ucd_answers rd f [sc] w w' r -> asked rd f sc w' rs -> asked rd f sc w (r :: rs).

(* NewScanner and then NextEntry again and again: ucd_scan.go 16-60 *)
Definition ucd_session {R} (rd : reader R) (w : world R) (rs : list (list gval)) : Prop :=
  exists w' sc, ucd_answers rd "NewScanner" [UReader] w w' [sc] /\ asked rd "Scanner.NextEntry" sc w' rs.
(* NewTestDataScanner and then NextEntry again and again: testdata_scan.go 16-63 *)
Definition test_session {R} (rd : reader R) (w : world R) (rs : list (list gval)) : Prop :=
  exists w' sc, ucd_answers rd "NewTestDataScanner" [UReader] w w' [sc] /\ asked rd "TestDataScanner.NextEntry" sc w' rs.

(* A range over the iterator it (ucd_scan.go 78-93), whose body goes on after the k-th
   value if keep k: the values it gets; the iterator is it' then. *)
Definition ucd_yields (it : gval) (keep : nat -> bool) (vals : list gostring) (it' : gval) : Prop :=
  forall R (rd : reader R) w, exists n, forall fuel, n <= fuel -> ucd_range rd keep fuel it w = Ret (vals, it').

(* What FirstField of the entry e is (ucd_scan.go 68-70), in any world. *)
Definition first_field_is (e : gval) (t : gostring) : Prop :=
  forall R (rd : reader R) w, ucd_answers rd "Entry.FirstField" [e] w w [UStr t].
(* What a range over AllFields of the entry e gets (ucd_scan.go 72-74). *)
Definition all_fields_are (e : gval) (ts : list gostring) : Prop :=
  exists it, (forall R (rd : reader R) w, ucd_answers rd "Entry.AllFields" [e] w w [it]) /\
    exists it', ucd_yields it (fun _ => true) ts it'.
