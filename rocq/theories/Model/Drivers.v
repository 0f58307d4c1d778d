(* How callers drive the split function without bufio: incremental feeding.
   (README.md "Usage"; the contract is the one of bufio.SplitFunc that
   grapheme_clusters.go 9-16 refers to.) *)
From Coq Require Import List NArith Arith Bool Strings.Byte.
From Verif Require Import Model.Base Model.Scan.
Import ListNotations.

(* Calls of grapheme_clusters.go 17.  [streams buf chunks toks]: with buf buffered and the chunks still to arrive,
   the caller may obtain toks.  The caller may at any time receive the next
   chunk or take a token; when no chunk is left it flushes with atEOF = true.
   All schedules are allowed. *)
Inductive streams : list byte -> list (list byte) -> list (list byte) -> Prop :=
| streams_feed buf c chunks toks :
    streams (buf ++ c) chunks toks -> streams buf (c :: chunks) toks
| streams_take buf chunks n t toks :
    ScanGraphemeClusters buf false = Ret (n, Some t, None) ->
    streams (skipn n buf) chunks toks -> streams buf chunks (t :: toks)
| streams_flush buf n t toks :
    ScanGraphemeClusters buf true = Ret (n, Some t, None) ->
    streams (skipn n buf) [] toks -> streams buf [] (t :: toks)
| streams_done : streams [] [] [].

(* The same (grapheme_clusters.go 17), but the caller receives a chunk only when the split function asks
   for more data, and flushes only after that. *)
Inductive streams_eager : list byte -> list (list byte) -> list (list byte) -> Prop :=
| eager_feed buf c chunks toks :
    ScanGraphemeClusters buf false = Ret (0, None, None) ->
    streams_eager (buf ++ c) chunks toks -> streams_eager buf (c :: chunks) toks
| eager_take buf chunks n t toks :
    ScanGraphemeClusters buf false = Ret (n, Some t, None) ->
    streams_eager (skipn n buf) chunks toks -> streams_eager buf chunks (t :: toks)
| eager_flush buf n t toks :
    ScanGraphemeClusters buf false = Ret (0, None, None) ->
    ScanGraphemeClusters buf true = Ret (n, Some t, None) ->
    streams_eager (skipn n buf) [] toks -> streams_eager buf [] (t :: toks)
| eager_done : streams_eager [] [] [].

(* ---- work *)

(* One-shot tokenisation that counts the character lookups: instrumented copy
   of Model/Scan.v; every call of LookupFirstChar adds one. *)
From Verif Require Import Model.CharProps Model.Lookup Model.Machine.

(* grapheme_clusters.go 38-78, instrumented *)
Fixpoint scan_loop_cost (fuel : nat) (data : list byte) (atEOF : bool)
    (remain : list byte) (count : nat) (state : State) (prev : CharProperties) (cost : nat)
  : res (scan_result * nat) :=
  match fuel with
  | O => Panic OutOfFuel
  | S fuel' =>
      if is_empty remain then
        if atEOF then let! token := slice_to data count in Ret (count, Some token, None, cost)
        else Ret (0, None, None, cost)
      else
        let! (next, moreCount) := LookupFirstChar remain in
        let cost := S cost in
        if (next =? Error)%N then
          let! token := slice_to data count in Ret (count, Some token, None, cost)
        else if moreCount =? 0 then
          if negb (is_empty remain) && atEOF then
            let! token := slice_to data count in Ret (count, Some token, None, cost)
          else Ret (0, None, None, cost)
        else
          let! remain' := slice_from remain moreCount in
          let! (split, nextSt) := Transition state prev next in
          if split then let! token := slice_to data count in Ret (count, Some token, None, cost)
          else scan_loop_cost fuel' data atEOF remain' (count + moreCount) nextSt next cost
  end.

(* grapheme_clusters.go 17-79, instrumented *)
Definition scan_cost (data : list byte) (atEOF : bool) : res (scan_result * nat) :=
  if is_empty data then Ret (0, None, None, 0)
  else
    let! (properties, count) := LookupFirstChar data in
    if (properties =? Error)%N then
      let! token := slice_to data 1 in Ret (1, Some token, None, 1)
    else if count =? 0 then
      if (count <? length data) && atEOF then
        let! token := slice_to data 1 in Ret (1, Some token, None, 1)
      else Ret (0, None, None, 1)
    else
      let! remain := slice_from data count in
      let! state := Begin properties in
      scan_loop_cost (S (length remain)) data atEOF remain count state properties 1.

(* Lookups (grapheme_clusters.go 22, 51) performed by one-shot tokenisation. *)
Inductive tokenises_cost : list byte -> nat -> Prop :=
| cost_done : tokenises_cost [] 0
| cost_step data n token k total :
    scan_cost data true = Ret (n, Some token, None, k) ->
    tokenises_cost (skipn n data) total ->
    tokenises_cost data (k + total).

(* ---- the state machine driven directly, state.go 56-71 (doc comments of
   Begin and Transition) *)

(* As ScanGraphemeClusters does it (grapheme_clusters.go 36, 70-77): the machine is restarted with Begin at
   every split. *)
Fixpoint drive (s : State) (prev : CharProperties) (ps : list CharProperties) : res (list bool) :=
  match ps with
  | [] => Ret []
  | x :: ps' =>
      let! (split, s') := Transition s prev x in
      let! s'' := if split then Begin x else Ret s' in
      let! ds := drive s'' x ps' in
      Ret (split :: ds)
  end.
(* state.go 56-62: Begin with the first character; then as above *)
Definition decisions (ps : list CharProperties) : res (list bool) :=
  match ps with [] => Ret [] | x :: ps' => let! s := Begin x in drive s x ps' end.

(* As the doc comment of Transition says (state.go 64-71): "... and which state should be used
   for the next transition". *)
Fixpoint drive_on (s : State) (prev : CharProperties) (ps : list CharProperties) : res (list bool) :=
  match ps with
  | [] => Ret []
  | x :: ps' =>
      let! (split, s') := Transition s prev x in
      let! ds := drive_on s' x ps' in
      Ret (split :: ds)
  end.
(* state.go 56-71: the same for drive_on *)
Definition decisions_on (ps : list CharProperties) : res (list bool) :=
  match ps with [] => Ret [] | x :: ps' => let! s := Begin x in drive_on s x ps' end.
