(* The error values that stand for the faults of a file.  Specification. *)
From Coq Require Import List Strings.Byte.
From Verif Require Import Spec.UcdFile Model.Base.

(* The errors of package strconv. *)
Definition strconv_error (c : cause) : goerror :=
  match c with NotHex => ErrSyntax | TooBig => ErrRange end.

(* The error names the text at fault and the reason. *)
Definition error_for (f : fault) : goerror :=
  match f with
  | BadStart text c => InvalidStart text (strconv_error c)
  | BadEnd text c => InvalidEnd text (strconv_error c)
  end.
