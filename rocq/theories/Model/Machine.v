(* Model of textseg/internal/machine/state.go. *)
From Coq Require Import NArith Bool.
From Verif Require Import Model.Base Model.CharProps.
Local Open Scope N_scope.

(* state.go 23-54: type State int with iota constants. *)
Definition State := N.
Definition StateBase : State := 0. (* state.go 28 *)
Definition StateAwaitEmojiFlag : State := 1. (* state.go 34 *)
Definition StateGB11BeforeZWJ : State := 2. (* state.go 40 *)
Definition StateGB11AfterZWJ : State := 3. (* state.go 44 *)
Definition StateGB9cConsonant : State := 4. (* state.go 48 *)
Definition StateGB9cLinker : State := 5. (* state.go 53 *)

(* state.go 144-196: func (s State) nextState *)
Definition nextState (s : State) (next : CharProperties) : res State :=
  if GCBProperty next =? GCBExtendedPictographic then Ret StateGB11BeforeZWJ
  else if InCBProperty next =? InCBConsonant then Ret StateGB9cConsonant
  else
    let gcbProp := GCBProperty next in
    let incbProp := InCBProperty next in
    if s =? StateBase then
      (if gcbProp =? GCBRegionalIndicator then Ret StateAwaitEmojiFlag else Ret StateBase)
    else if s =? StateAwaitEmojiFlag then Ret StateBase
    else if s =? StateGB11BeforeZWJ then
      (if gcbProp =? GCBZWJ then Ret StateGB11AfterZWJ
       else if gcbProp =? GCBExtend then Ret StateGB11BeforeZWJ
       else Ret StateBase)
    else if s =? StateGB11AfterZWJ then Ret StateBase
    else if s =? StateGB9cConsonant then
      (if incbProp =? InCBLinker then Ret StateGB9cLinker
       else if incbProp =? InCBExtend then Ret StateGB9cConsonant
       else Ret StateBase)
    else if s =? StateGB9cLinker then
      (if (incbProp =? InCBLinker) || (incbProp =? InCBExtend) then Ret StateGB9cLinker
       else Ret StateBase)
    else Panic InvalidState.

(* state.go 60-62 *)
Definition Begin (first : CharProperties) : res State := nextState StateBase first.

(* state.go 198-211 *)
Definition gb9cActive (s : State) : bool := s =? StateGB9cLinker.
Definition gb11Active (s : State) : bool := s =? StateGB11AfterZWJ. (* state.go 203-206 *)
Definition gb13Active (s : State) : bool := s =? StateAwaitEmojiFlag. (* state.go 208-211 *)

(* state.go 78-142: the decision part of Transition, in source order. *)
Definition is_split (s : State) (prev next : CharProperties) : bool :=
  let prevC := GCBProperty prev in
  let nextC := GCBProperty next in
  (* GB3 *)
  if (prevC =? GCBCR) && (nextC =? GCBLF) then false
  (* GB4, GB5 *)
  else if IsAnyControl prevC || IsAnyControl nextC then true
  (* GB6 *)
  else if (prevC =? GCBL) &&
     ((nextC =? GCBL) || (nextC =? GCBV) || (nextC =? GCBLV) || (nextC =? GCBLVT)) then false
  (* GB7 *)
  else if ((prevC =? GCBLV) || (prevC =? GCBV)) && ((nextC =? GCBV) || (nextC =? GCBT)) then false
  (* GB8 *)
  else if ((prevC =? GCBLVT) || (prevC =? GCBT)) && (nextC =? GCBT) then false
  (* GB9 *)
  else if (nextC =? GCBExtend) || (nextC =? GCBZWJ) then false
  (* GB9a *)
  else if nextC =? GCBSpacingMark then false
  (* GB9b (commented GB9a in the source) *)
  else if prevC =? GCBPrepend then false
  (* GB9c *)
  else if gb9cActive s &&
     (((InCBProperty prev =? InCBLinker) || (InCBProperty prev =? InCBExtend))
      && (InCBProperty next =? InCBConsonant)) then false
  (* GB11 *)
  else if gb11Active s && ((prevC =? GCBZWJ) && (nextC =? GCBExtendedPictographic)) then false
  (* GB12, GB13 *)
  else if gb13Active s && ((prevC =? GCBRegionalIndicator) && (nextC =? GCBRegionalIndicator))
  then false
  (* GB999 *)
  else true.

(* state.go 72-142: func (s State) Transition *)
Definition Transition (s : State) (prev next : CharProperties) : res (bool * State) :=
  let! nextS := nextState s next in Ret (is_split s prev next, nextS).
