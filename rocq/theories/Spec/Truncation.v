(* Cutting a text down to a number of bytes, without cutting a cluster.
   Specification: nothing here comes from the code. *)
From Coq Require Import List Arith Strings.Byte.
Import ListNotations.

(* As many of the first pieces as fit into n bytes. *)
Fixpoint fitting (n : nat) (pieces : list (list byte)) : list (list byte) :=
  match pieces with
  | [] => []
  | t :: rest => if length t <=? n then t :: fitting (n - length t) rest else []
  end.
