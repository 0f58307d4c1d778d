(* The canonical decomposition of Hangul syllables, The Unicode Standard,
   section 3.12.2 (the arithmetic one).
   Specification: nothing here comes from the code. *)
From Coq Require Import List NArith Bool.
Import ListNotations.
Open Scope N_scope.

Definition SBase := 0xAC00.
Definition LBase := 0x1100.
Definition VBase := 0x1161.
Definition TBase := 0x11A7.
Definition LCount := 19.
Definition VCount := 21.
Definition TCount := 28.
Definition NCount := VCount * TCount.
Definition SCount := LCount * NCount.

Definition syllable (c : N) : bool := (SBase <=? c) && (c <? SBase + SCount).

(* A precomposed syllable is a leading consonant, a vowel and, unless the third
   index is 0, a trailing consonant. *)
Definition decompose (c : N) : list N :=
  if syllable c then
    let s := c - SBase in
    let l := LBase + s / NCount in
    let v := VBase + (s mod NCount) / TCount in
    let t := TBase + s mod TCount in
    if s mod TCount =? 0 then [l; v] else [l; v; t]
  else [c].

(* All syllables of a text decomposed. *)
Definition decomposed (cs : list N) : list N := flat_map decompose cs.
