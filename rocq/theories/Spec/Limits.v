(* How many different blocks of values there are: what decides whether tables
   with indices of one byte can hold the values.  Specification. *)
From Coq Require Import List NArith Bool.
From Verif Require Import Spec.Assignments.
Import ListNotations.
Local Open Scope N_scope.

(* What a UTF-8 sequence of two, three, four bytes has to be looked up as, if
   its bits spell the number c: overlong ones and those above U+10FFFF have no
   value. *)
Definition two (ops : list op) (c : N) : N := if (0x80 <=? c) && (c <? 0x800) then value ops c else 0.
Definition three (ops : list op) (c : N) : N := if (0x800 <=? c) && (c <? 0x10000) then value ops c else 0.
Definition four (ops : list op) (c : N) : N := if 0x10000 <=? c then value ops c else 0.

(* The b-th block of n values, and the first m such blocks. *)
Definition pattern (f : N -> N) (n b : N) : list N :=
  map (fun i => f (b * n + N.of_nat i)) (seq 0 (N.to_nat n)).
Definition patterns (f : N -> N) (n m : N) : list (list N) :=
  map (fun b => pattern f n (N.of_nat b)) (seq 0 (N.to_nat m)).

(* How many different ones. *)
Definition distinct (l : list (list N)) : nat := length (nodup (list_eq_dec N.eq_dec) l).

(* Has the block the values of one of the two ASCII blocks? *)
Definition like_ascii (ops : list op) (p : list N) : bool :=
  if list_eq_dec N.eq_dec p (pattern (value ops) 64 0) then true
  else if list_eq_dec N.eq_dec p (pattern (value ops) 64 1) then true else false.

(* The number of property blocks: the two of ASCII; each content once that
   sequences of three bytes need and ASCII has not; and each content once that
   sequences of two or four bytes need (these are never shared with the
   former). *)
Definition property_blocks (ops : list op) : nat :=
  2 + distinct (patterns (two ops) 64 32 ++ patterns (four ops) 64 65536)
    + distinct (filter (fun p => negb (like_ascii ops p)) (patterns (three ops) 64 1024)).

(* The number of index blocks lies between these: the root; one per different
   block of 4096 values; and at most one per different block of 262144 values
   (such an index block may happen to consist of the same numbers as one of a
   block of 4096 values, and is then shared with it). *)
Definition index_blocks_min (ops : list op) : nat :=
  1 + distinct (patterns (three ops) 4096 16) + distinct (patterns (four ops) 4096 1024).
Definition index_blocks_max (ops : list op) : nat :=
  index_blocks_min ops + distinct (patterns (four ops) 262144 16).
