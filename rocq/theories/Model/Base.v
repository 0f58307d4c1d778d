(* Go semantics used by the model: panics as values, bounds-checked indexing
   and slicing, errors. *)
From Coq Require Import List NArith Arith Bool FMapPositive Strings.Byte.
Import ListNotations.

(* Why a Go program stopped abnormally.  [OutOfFuel] is not a Go panic: it is
   what the model returns if a loop that Go runs without bound has not ended
   within the iterations the model allows. *)
Inductive panic :=
| IndexOutOfRange
| SliceOutOfRange
| Unreachable          (* property_table.go 64: panic("unreachable") *)
| InvalidState         (* state.go 194: panic("invalid state") *)
| ConflictingProperties (* gentable/generate.go 118 *)
| InvalidInitialIndex  (* gentable/generate.go 218 *)
| ZeroIndexEntry       (* gentable/generate.go 228 *)
| BadBlockSize         (* gentable/generate.go 301, 313 *)
| TooManyIndices       (* charprops/generate.go 43 *)
| TooManyEmptyTokens   (* bufio/scan.go: panic("bufio.Scan: too many empty tokens without progressing") *)
| OutOfFuel.

(* Result of a computation that may panic: how the model represents Go's panics
   and run-time errors; no definition in /repo corresponds to it. *)
Inductive res (A : Type) :=
| Ret (a : A)
| Panic (p : panic).
Arguments Ret {A} a.
Arguments Panic {A} p.

(* Go statements one after the other, any of which may panic; no definition in
   /repo corresponds to it. *)
Definition bind {A B} (x : res A) (f : A -> res B) : res B :=
  match x with Ret a => f a | Panic p => Panic p end.

Notation "'let!' x ':=' e 'in' k" := (bind e (fun x => k))
  (at level 200, x pattern, e at level 100, k at level 200).

(* Go error values that occur (grapheme_clusters.go 17, ucd_scan.go 25-28, 42,
   48, testdata_scan.go 25-28, 49). *)
Inductive goerror :=
| EOF                   (* io.EOF *)
| ErrTooLong | ErrNegativeAdvance | ErrAdvanceTooFar | ErrBadReadCount (* bufio *)
| ErrNoProgress         (* io.ErrNoProgress *)
| ErrSyntax | ErrRange  (* the Err of a strconv.NumError *)
(* fmt.Errorf("invalid start of character range %q: %s", startHex, err),
   ucd_scan.go 42: the quoted text, and the Err of err; its Func is ParseUint and
   its Num the same text.  Here and below the rendering is not modelled. *)
| InvalidStart (startHex : list byte) (err : goerror)
(* "invalid end of character range %q: %s", ucd_scan.go 48 *)
| InvalidEnd (endHex : list byte) (err : goerror)
(* "invalid character reference %q", testdata_scan.go 49 *)
| InvalidReference (charHexStr : list byte)
| ReaderError (code : N) (* any other error an io.Reader may return *).

(* err == io.EOF, gentable/generate.go 47, 60, 76 *)
Definition goerror_eq_dec (a b : goerror) : {a = b} + {a <> b}.
Proof. decide equality; first [apply N.eq_dec | apply list_eq_dec; apply Byte.byte_eq_dec]. Defined.

(* len(p) == 0, property_table.go 18, grapheme_clusters.go 18, 39 *)
Definition is_empty {A} (p : list A) : bool :=
  match p with [] => true | _ => false end.

(* len(p) < n, without walking all of p; property_table.go 36 *)
Fixpoint len_lt {A} (p : list A) (n : nat) : bool :=
  match n, p with
  | O, _ => false
  | S _, [] => true
  | S n', _ :: p' => len_lt p' n'
  end.

(* p[i], property_table.go 22, 43, 53-62, with the bounds check *)
Definition index {A} (p : list A) (i : nat) : res A :=
  match nth_error p i with Some b => Ret b | None => Panic IndexOutOfRange end.

(* p[n:], grapheme_clusters.go 34, 67, with the bounds check *)
Fixpoint slice_from {A} (p : list A) (n : nat) : res (list A) :=
  match n, p with
  | O, _ => Ret p
  | S _, [] => Panic SliceOutOfRange
  | S n', _ :: p' => slice_from p' n'
  end.

(* p[:n] (grapheme_clusters.go 24, 30, 43, 55, 63, 73) for n <= cap(p); the slices sliced this way here never have n
   between len and cap, and the model rejects that. *)
Fixpoint slice_to {A} (p : list A) (n : nat) : res (list A) :=
  match n, p with
  | O, _ => Ret []
  | S _, [] => Panic SliceOutOfRange
  | S n', x :: p' => let! t := slice_to p' n' in Ret (x :: t)
  end.

(* Go arrays / slices of unsigned integers that are indexed randomly: a length
   and the elements; elements never stored are zero, as Go's make leaves them
   (property_table_raw.go; gentable/generate.go 96-99). *)
Record arr := Arr { alen : N; adata : PositiveMap.t N }.

(* The element without the bounds check; only used inside aget and in proofs. *)
Definition aget_raw (a : arr) (i : N) : N :=
  match PositiveMap.find (N.succ_pos i) (adata a) with Some v => v | None => 0%N end.

(* a[i], property_table.go 50-62, gentable/generate.go 136-170, with the bounds
   check *)
Definition aget (a : arr) (i : N) : res N :=
  if (i <? alen a)%N then Ret (aget_raw a i) else Panic IndexOutOfRange.

(* a[i] = v, gentable/generate.go 120, 125, 155, 167, 269, 296 *)
Definition aset (a : arr) (i : N) (v : N) : res arr :=
  if (i <? alen a)%N
  then Ret (Arr (alen a) (PositiveMap.add (N.succ_pos i) v (adata a)))
  else Panic IndexOutOfRange.

(* make([]T, n), gentable/generate.go 105, 111, 193 *)
Definition amake (n : N) : arr := Arr n (PositiveMap.empty N).

(* append(a, v); gentable/generate.go 154, 166, 183, 266, 293 append several at
   once *)
Definition apush (a : arr) (v : N) : arr :=
  Arr (N.succ (alen a)) (PositiveMap.add (N.succ_pos (alen a)) v (adata a)).

(* append(a, vs...), gentable/generate.go 154, 166, 183, 266, 293 *)
Definition aappend (a : arr) (vs : list N) : arr := fold_left apush vs a.

(* [...]uint8{...}, [...]CharProperties{...}: property_table_raw.go *)
Definition arr_of_list (vs : list N) : arr := aappend (amake 0) vs.

(* a[i : i+n] as a list, for slices that are only read: gentable/generate.go 181,
   182, 195, 250, 284, charprops/generate.go 38, 56 *)
Fixpoint aread (a : arr) (i : N) (n : nat) : res (list N) :=
  match n with
  | O => Ret []
  | S n' => let! v := aget a i in let! vs := aread a (N.succ i) n' in Ret (v :: vs)
  end.
