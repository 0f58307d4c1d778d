(* What an io.Reader does that delivers given bytes and then ends with a given
   error (io.EOF at the end of the data, anything else for a failure).  This is
   the io.Reader contract: any portioning, which may depend on the space
   offered, data together with the error or before it, scratch use of the space
   beyond the reported count, and empty reads - at most 100 in a row, which is
   what bufio.Scanner tolerates.
   Specification; the types are those of Model/Bufio.v. *)
From Coq Require Import List ZArith Strings.Byte.
From Verif Require Import Model.Base Model.Bufio.
Import ListNotations.

(* m: how many more empty reads in a row may happen *)
Inductive delivers {R} (rd : reader R) : nat -> R -> list byte -> goerror -> Prop :=
| delivers_any m r input e :
    (forall space, 0 < space -> replies rd m r space input e) ->
    delivers rd m r input e
with replies {R} (rd : reader R) : nat -> R -> nat -> list byte -> goerror -> Prop :=
| replies_last m r space input e r' scratch :
    rd r space = (r', Reply (Z.of_nat (length input)) (input ++ scratch) (Some e)) ->
    length input <= space ->
    replies rd m r space input e
| replies_some m r space chunk rest e r' scratch :
    rd r space = (r', Reply (Z.of_nat (length chunk)) (chunk ++ scratch) None) ->
    chunk <> [] -> length chunk <= space ->
    delivers rd 100 r' rest e ->
    replies rd m r space (chunk ++ rest) e
| replies_none m r space input e r' scratch :
    rd r space = (r', Reply 0 scratch None) ->
    delivers rd m r' input e ->
    replies rd (S m) r space input e.
