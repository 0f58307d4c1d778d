(* The source text as a split function: what bufio.Scanner (Model/Bufio.v) calls when
   ScanGraphemeClusters (grapheme_clusters.go 17, unicode17.go 12) is executed from its
   source (Model/GoLibrary.v).  README.md "Usage". *)
From Coq Require Import List NArith ZArith Arith Bool Strings.String Strings.Byte.
From Verif Require Import Model.Base Model.Scan Model.Bufio Model.GoSyntax Model.GoSemantics Model.GoLibrary.
Import ListNotations.
Local Open Scope list_scope.

(* The results (int, []byte, error) of a function of type bufio.SplitFunc.  bufio reports a
   negative advance as the error ErrNegativeAdvance (scan.go, Scanner.advance); other
   values are not results of a function of that type or errors that are not nil, which
   grapheme_clusters.go 17-79 never returns (C73): they have no answer here. *)
Definition split_result (vs : list value) : res scan_result :=
  match vs with
  | [VInt _ n; token; VNil] =>
      if (n <? 0)%Z then Ret (0, None, Some ErrNegativeAdvance)
      else match token with
           | VBytes t => Ret (Z.to_nat n, Some t, None)
           | VNil => Ret (Z.to_nat n, None, None)
           | _ => no_answer
           end
  | _ => no_answer
  end.

(* grapheme_clusters.go 17, executed with ints of w bits: a loop gets at most four iterations more than
   there are bytes, and calls are at most five deep. *)
Definition go_split (w : Z) (f : string) : splitfunc := fun data atEOF =>
  let! vs := go_call w (List.length data + 4) 5 f [VBytes data; VBool atEOF] in split_result vs.

(* The history of a scanner: any number of calls of Scan (README.md "Usage"). *)
Inductive history {R} (split : splitfunc) (rd : reader R) : R -> scanner -> R -> scanner -> Prop :=
| history_start r s : history split rd r s r s
| history_scan r s r1 s1 r2 s2 o :
    history split rd r s r1 s1 -> Scan split rd r1 s1 = Ret (r2, s2, o) -> history split rd r s r2 s2.
