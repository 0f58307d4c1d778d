(* How much work reading with a bufio.Scanner is: instrumented copy of the loop
   of Model/Bufio.v with ScanGraphemeClusters as the split function.  Counted
   are the character lookups (Model/Drivers.v, scan_cost) and the refills, that
   is, how often the Scanner turned to its reader for more. *)
From Coq Require Import List NArith ZArith Arith Bool Strings.Byte.
From Verif Require Import Model.Base Model.Scan Model.Drivers Model.Bufio.
Import ListNotations.

(* scan.go: func (s *Scanner) Scan, the loop, with grapheme_clusters.go 17-79 as
   s.split; instrumented *)
Fixpoint work_loop {R} (rd : reader R) (fuel : nat) (r : R) (s : scanner) (lookups refills : nat)
  : res (R * scanner * option slice * nat * nat) :=
  match fuel with
  | O => Panic OutOfFuel
  | S fuel' =>
      let go_on r s lookups :=
        let! (r', s', again) := more rd r s in
        if again then work_loop rd fuel' r' s' lookups (S refills) else Ret (r', s', None, lookups, refills) in
      let at_eof := match s_err s with None => false | Some _ => true end in
      if (s_start s <? s_end s) || at_eof then
        let! data := held s in
        let! (advance, token, err, k) := scan_cost data at_eof in
        let lookups := lookups + k in
        match err with
        | Some e => Ret (r, setErr s e, None, lookups, refills)
        | None =>
            if s_end s - s_start s <? advance then Ret (r, setErr s ErrAdvanceTooFar, None, lookups, refills)
            else
              let s' := Scanner (s_old s) (s_buf s) (s_start s + advance) (s_end s) (s_err s)
                                (s_empties s) (s_max s) in
              match token with
              | Some t =>
                  let sl := Slice (length (s_old s)) (s_start s) (length t) in
                  if negb at_eof || (0 <? advance) then
                    Ret (r, Scanner (s_old s) (s_buf s) (s_start s + advance) (s_end s) (s_err s)
                                    0 (s_max s), Some sl, lookups, refills)
                  else
                    let e' := S (s_empties s) in
                    if maxConsecutiveEmptyReads <? e' then Panic TooManyEmptyTokens
                    else Ret (r, Scanner (s_old s) (s_buf s) (s_start s + advance) (s_end s) (s_err s)
                                         e' (s_max s), Some sl, lookups, refills)
              | None => go_on r s' lookups
              end
        end
      else go_on r s lookups
  end.

(* scan.go: func (s *Scanner) Scan, instrumented *)
Definition ScanWork {R} (rd : reader R) (r : R) (s : scanner) : res (R * scanner * option slice * nat * nat) :=
  work_loop rd (3 + Nat.max (length (s_buf s)) (s_max s)) r s 0 0.

(* README.md "Usage": for scanner.Scan() { ... }, instrumented *)
Inductive scans_work {R} (rd : reader R) :
  R -> scanner -> list (list byte) -> R -> scanner -> nat -> nat -> Prop :=
| work_stop r s r' s' l f :
    ScanWork rd r s = Ret (r', s', None, l, f) -> scans_work rd r s [] r' s' l f
| work_token r s r1 s1 sl toks r' s' l f l' f' :
    ScanWork rd r s = Ret (r1, s1, Some sl, l, f) ->
    scans_work rd r1 s1 toks r' s' l' f' ->
    scans_work rd r s (bytes_of s1 sl :: toks) r' s' (l + l') (f + f').

(* testing/iotest, OneByteReader over a bytes.Reader: every Read with room for it
   delivers one byte. *)
Definition one_byte_reader : reader (list byte) := fun rest k =>
  match rest, k with
  | _, O => (rest, Reply 0 [] None)
  | [], _ => ([], Reply 0 [] (Some EOF))
  | b :: rest', _ => (rest', Reply 1 [b] None)
  end.
