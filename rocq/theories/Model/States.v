(* The state that the machine of textseg/internal/machine/state.go is in after a
   text, for both ways of driving it (Model/Drivers.v: drive and drive_on). *)
From Coq Require Import List NArith Bool.
From Verif Require Import Model.Base Model.CharProps Model.Machine.
Import ListNotations.

(* state.go 56-73, doc comments of Begin and Transition.  restart: Begin is
   called again after every split, as grapheme_clusters.go 72-76 in effect does
   (the next call of ScanGraphemeClusters begins with line 36); otherwise the
   state that Transition returns is used on. *)
Fixpoint state_from (restart : bool) (s : State) (prev : CharProperties) (ps : list CharProperties) : res State :=
  match ps with
  | [] => Ret s
  | x :: ps' =>
      let! (split, s') := Transition s prev x in
      let! s'' := if restart && split then Begin x else Ret s' in
      state_from restart s'' x ps'
  end.
(* state.go 56-62: Begin with the first character *)
Definition state_after (restart : bool) (ps : list CharProperties) : res State :=
  match ps with [] => Ret StateBase | x :: ps' => let! s := Begin x in state_from restart s x ps' end.
