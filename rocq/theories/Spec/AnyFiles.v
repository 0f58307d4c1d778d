(* What the generator is to make of any three files at all, also of numbers that
   are no code points, malformed lines, lines that are too long and read errors.
   Specification: nothing here comes from the code, except that numbers are kept
   as signed 32-bit integers (the type rune of Go). *)
From Coq Require Import List NArith ZArith Strings.Byte Strings.String.
From Verif Require Import Spec.Utf8 Spec.Assignments Spec.UcdFile Spec.Generation Model.Base Spec.ErrorValues.
Import ListNotations.
Notation length := List.length.

(* ---- one file *)

Definition short (l : list byte) : Prop := length l < 64 * 1024.

(* [file_reads file e ms x]: of a file whose reader ends with the error e, the
   lines that are read mean ms, and then there is the error x.  The third and
   fourth rule both apply to an unterminated last line of exactly 64 KiB. *)
Inductive file_reads (file : list byte) (e : goerror) : list meaning -> goerror -> Prop :=
| reads_all lines ms :
    file_lines file lines -> Forall short lines -> Forall2 line_means lines ms -> file_reads file e ms e
| reads_too_long lines long rest ms :
    file_lines file (lines ++ long :: rest) -> oversize file long rest ->
    Forall short lines -> Forall2 line_means lines ms -> file_reads file e ms ErrTooLong
| reads_edge lines last ms :
    file_lines file (lines ++ [last]) -> length last = 64 * 1024 ->
    Forall short lines -> Forall2 line_means (lines ++ [last]) ms -> file_reads file e ms e
| reads_edge_too_long lines last ms :
    file_lines file (lines ++ [last]) -> length last = 64 * 1024 ->
    Forall short lines -> Forall2 line_means lines ms -> file_reads file e ms ErrTooLong.

(* [uses ms x used failure]: of the lines ms with the error x after them, those
   before the first malformed one are used; reading fails there or with x, unless
   x is the end of the file. *)
Definition well_formed (m : meaning) : Prop := forall f, m <> Malformed f.
Inductive uses : list meaning -> goerror -> list meaning -> option goerror -> Prop :=
| uses_all ms : Forall well_formed ms -> uses ms EOF ms None
| uses_failure ms x : Forall well_formed ms -> x <> EOF -> uses ms x ms (Some x)
| uses_malformed ms f rest x :
    Forall well_formed ms -> uses (ms ++ Malformed f :: rest) x ms (Some (error_for f)).

(* [from_file file e used failure]: the two together. *)
Definition from_file (file : list byte) (e : goerror) (used : list meaning) (failure : option goerror) : Prop :=
  exists ms x, file_reads file e ms x /\ uses ms x used failure.

(* ---- what a line asks for *)

(* n as a signed 32-bit integer *)
Definition signed (n : N) : Z :=
  let m := (n mod 2 ^ 32)%N in if (m <? 2 ^ 31)%N then Z.of_N m else (Z.of_N m - 2 ^ 32)%Z.

(* From first up to, but without, last + 1. *)
Definition asked (first last : N) : list Z :=
  map (fun i => (signed first + Z.of_nat i)%Z) (seq 0 (Z.to_nat (signed (last + 1) - signed first))).

Definition gcb_asks (m : meaning) : list op :=
  match m with
  | Data first last fields => map (fun r => OpSet r (gcb_named (hd [] fields))) (asked first last)
  | _ => []
  end.
Definition emoji_asks (m : meaning) : list op :=
  match m with
  | Data first last fields =>
      if is_name (hd [] fields) "Extended_Pictographic"
      then map (fun r => OpSet r pictographic_number) (asked first last)
      else []
  | _ => []
  end.
Definition incb_asks (m : meaning) : list op :=
  match m with
  | Data first last (name :: value :: _) =>
      if is_name name "InCB" then map (fun r => OpOr r (incb_named value)) (asked first last) else []
  | _ => []
  end.

(* ---- three files *)

(* The assignments asked for before the first failure, and the failure. *)
Inductive run_asks (f1 : list byte) (e1 : goerror) (f2 : list byte) (e2 : goerror) (f3 : list byte) (e3 : goerror) :
  list op -> option goerror -> Prop :=
| asks_one ms1 err :
    from_file f1 e1 ms1 (Some err) -> run_asks f1 e1 f2 e2 f3 e3 (flat_map gcb_asks ms1) (Some err)
| asks_two ms1 ms2 err :
    from_file f1 e1 ms1 None -> from_file f2 e2 ms2 (Some err) ->
    run_asks f1 e1 f2 e2 f3 e3 (flat_map gcb_asks ms1 ++ flat_map emoji_asks ms2) (Some err)
| asks_three ms1 ms2 ms3 failure :
    from_file f1 e1 ms1 None -> from_file f2 e2 ms2 None -> from_file f3 e3 ms3 failure ->
    run_asks f1 e1 f2 e2 f3 e3
      (flat_map gcb_asks ms1 ++ flat_map emoji_asks ms2 ++ flat_map incb_asks ms3) failure.
