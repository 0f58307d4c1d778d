(* Model of textseg/grapheme_clusters.go. *)
From Coq Require Import List NArith Arith Bool Strings.Byte.
From Verif Require Import Model.Base Model.CharProps Model.Lookup Model.Machine.
Import ListNotations.

(* grapheme_clusters.go 17: (advance, token, err); a nil token is None. *)
Definition scan_result := (nat * option (list byte) * option goerror)%type.

(* grapheme_clusters.go 38-78: the for loop.  [fuel] bounds the iterations. *)
Fixpoint scan_loop (fuel : nat) (data : list byte) (atEOF : bool)
    (remain : list byte) (count : nat) (state : State) (prev : CharProperties)
  : res scan_result :=
  match fuel with
  | O => Panic OutOfFuel
  | S fuel' =>
      if is_empty remain then
        if atEOF then let! token := slice_to data count in Ret (count, Some token, None)
        else Ret (0, None, None)
      else
        let! (next, moreCount) := LookupFirstChar remain in
        if (next =? Error)%N then
          let! token := slice_to data count in Ret (count, Some token, None)
        else if moreCount =? 0 then
          if negb (is_empty remain) && atEOF then
            let! token := slice_to data count in Ret (count, Some token, None)
          else Ret (0, None, None)
        else
          let! remain' := slice_from remain moreCount in
          let! (split, nextSt) := Transition state prev next in
          if split then let! token := slice_to data count in Ret (count, Some token, None)
          else scan_loop fuel' data atEOF remain' (count + moreCount) nextSt next
  end.

(* grapheme_clusters.go 17-79: ScanGraphemeClusters *)
Definition ScanGraphemeClusters (data : list byte) (atEOF : bool) : res scan_result :=
  if is_empty data then Ret (0, None, None)
  else
    let! (properties, count) := LookupFirstChar data in
    if (properties =? Error)%N then
      let! token := slice_to data 1 in Ret (1, Some token, None)
    else if count =? 0 then
      (* len(data) > count && atEOF *)
      if (count <? length data) && atEOF then
        let! token := slice_to data 1 in Ret (1, Some token, None)
      else Ret (0, None, None)
    else
      let! remain := slice_from data count in
      let! state := Begin properties in
      scan_loop (S (length remain)) data atEOF remain count state properties.

(* What a caller observes by calling the split function (grapheme_clusters.go 17)
   with atEOF = true on
   what is left, until nothing is left (README "Usage"). *)
Inductive tokenises : list byte -> list (list byte) -> Prop :=
| tokenises_done : tokenises [] []
| tokenises_step data n token toks :
    ScanGraphemeClusters data true = Ret (n, Some token, None) ->
    tokenises (skipn n data) toks ->
    tokenises data (token :: toks).

(* The same (README "Usage") as a function, for execution. *)
Fixpoint tokens_fuel (fuel : nat) (data : list byte) : res (list (list byte)) :=
  match fuel with
  | O => Panic OutOfFuel
  | S fuel' =>
      match data with
      | [] => Ret []
      | _ =>
          let! (n, tok, err) := ScanGraphemeClusters data true in
          match tok with
          | Some t => let! ts := tokens_fuel fuel' (skipn n data) in Ret (t :: ts)
          | None => Ret []
          end
      end
  end.
(* The same with a sufficient bound; C04 shows that it agrees with the relation. *)
Definition tokens (data : list byte) : res (list (list byte)) :=
  tokens_fuel (S (length data)) data.
