(* The package ucdparse as a program in the sense of Model/UcdSemantics.v: its source
   files, as they are in /repo. *)
From Coq Require Import List NArith ZArith Strings.String Strings.Byte.
From Verif Require Import Model.Base Model.Bufio Model.PropNames Model.UcdParse.
From Verif Require Import Model.UcdSyntax Model.UcdSemantics Data.UcdSources.
Import ListNotations.

(* ucd_scan.go, testdata_scan.go *)
Definition ucdparse : option unit_env :=
  match parse_file ucd_scan_go, parse_file testdata_scan_go with
  | Some a, Some b => Some (unit_of [a; b])
  | _, _ => None
  end.

(* What the function f of the package, executed from its source, returns for the
   arguments vs in the world w: with enough fuel (iterations of a loop) and depth (of
   calls). *)
Definition ucd_call {R} (rd : reader R) (fuel depth : nat) (f : string) (vs : list gval) (w : world R) : res (world R * list gval) :=
  match ucdparse with
  | Some u => invoke rd (fun _ => true) fuel u depth f vs w
  | None => stuck
  end.

(* A range over the iterator it, whose body says with keep whether to go on after the
   n-th value (ucd_scan.go 84): what it yields, and the iterator as it is then. *)
Definition ucd_range {R} (rd : reader R) (keep : nat -> bool) (fuel : nat) (it : gval) (w : world R) : res (list gostring * gval) :=
  match ucdparse with
  | Some u =>
      let! (w', it') := run_iterator rd (fun l => keep (List.length l)) fuel u (fun _ _ _ => stuck) it
                          (World (w_reader w) (w_scanner w) (w_line w) []) in
      Ret (w_yielded w', it')
  | None => stuck
  end.
