(* How many bytes a cluster takes to be recognised.  Specification. *)
From Coq Require Import List NArith Arith Strings.Byte.
From Verif Require Import Spec.Utf8.
Import ListNotations.

(* A character has to be read completely to be told: the number of bytes its
   first byte announces; 1 for a byte that starts none. *)
Definition span (b : byte) : nat := Nat.max 1 (lead_len b).

(* The number of bytes to be seen before one can tell that a text starts with
   the cluster t, if [after] follows it.  For a cluster of characters: the
   cluster and one character more (or one byte more, if nothing follows: there
   could be another accent).  For an invalid byte: the sequence that it would
   have started. *)
Inductive demand : list byte -> list byte -> nat -> Prop :=
| demand_bad b t after : ~ starts_seq (b :: t ++ after) -> demand (b :: t) after (span b)
| demand_last t : starts_seq t -> demand t [] (length t + 1)
| demand_next t b after : starts_seq (t ++ b :: after) -> demand t (b :: after) (length t + span b).
