(* grapheme_clusters.go compiled with another property_table_raw.go, as after
   running the generator (charprops/generate.go) on other versions of the data
   files: the same code as in Model/Scan.v, over given tables. *)
From Coq Require Import List NArith Arith Bool Strings.Byte.
From Verif Require Import Model.Base Model.CharProps Model.Lookup Model.Machine Model.Scan.
Import ListNotations.

(* grapheme_clusters.go 38-78: the for loop. *)
Fixpoint scan_loop_with (tb : tables) (fuel : nat) (data : list byte) (atEOF : bool)
    (remain : list byte) (count : nat) (state : State) (prev : CharProperties)
  : res scan_result :=
  match fuel with
  | O => Panic OutOfFuel
  | S fuel' =>
      if is_empty remain then
        if atEOF then let! token := slice_to data count in Ret (count, Some token, None)
        else Ret (0, None, None)
      else
        let! (next, moreCount) := lookup_first_char tb remain in
        if (next =? Error)%N then
          let! token := slice_to data count in Ret (count, Some token, None)
        else if moreCount =? 0 then
          if negb (is_empty remain) && atEOF then
            let! token := slice_to data count in Ret (count, Some token, None)
          else Ret (0, None, None)
        else
          let! remain' := slice_from remain moreCount in
          let! (split, nextSt) := Transition state prev next in
          if split then let! token := slice_to data count in Ret (count, Some token, None)
          else scan_loop_with tb fuel' data atEOF remain' (count + moreCount) nextSt next
  end.

(* grapheme_clusters.go 17-79: ScanGraphemeClusters *)
Definition ScanGraphemeClusters_with (tb : tables) (data : list byte) (atEOF : bool) : res scan_result :=
  if is_empty data then Ret (0, None, None)
  else
    let! (properties, count) := lookup_first_char tb data in
    if (properties =? Error)%N then
      let! token := slice_to data 1 in Ret (1, Some token, None)
    else if count =? 0 then
      (* len(data) > count && atEOF *)
      if (count <? length data) && atEOF then
        let! token := slice_to data 1 in Ret (1, Some token, None)
      else Ret (0, None, None)
    else
      let! remain := slice_from data count in
      let! state := Begin properties in
      scan_loop_with tb (S (length remain)) data atEOF remain count state properties.

(* Calling it with atEOF = true on what is left, until nothing is left (README
   "Usage", grapheme_clusters.go 17), as in Model/Scan.v. *)
Inductive tokenises_with (tb : tables) : list byte -> list (list byte) -> Prop :=
| tokenises_with_done : tokenises_with tb [] []
| tokenises_with_step data n token toks :
    ScanGraphemeClusters_with tb data true = Ret (n, Some token, None) ->
    tokenises_with tb (skipn n data) toks ->
    tokenises_with tb data (token :: toks).
