(* Model of bufio.Scanner (Go standard library, src/bufio/scan.go) driving a
   split function over an arbitrary io.Reader, of bytes.Reader, and of the
   allTokens helper (textseg/all_tokens_test.go 15-23).

   This is the environment in which ScanGraphemeClusters is documented to be
   used (grapheme_clusters.go 9-16, README.md "Usage"); the standard library is
   not part of /repo, the model follows its published source.

   Buffers are modelled with their identity: s.buf is the newest of the buffers
   that were allocated, older ones stay in memory unchanged.  A token is a slice
   of the buffer that was current when it was found, as the split functions
   return a prefix of their argument.  Not modelled: ErrFinalToken (no split
   function here returns it) and negative advances (advances are nat); a
   negative maximum token size behaves like 0. *)
From Coq Require Import List NArith ZArith Arith Bool Strings.Byte.
From Verif Require Import Model.Base Model.Scan.
Import ListNotations.

(* io.Reader: what a call Read(p) with len(p) = k does.  r_n and r_err are the
   results; r_p is what was written to p, from its start (bytes beyond len(p)
   are ignored, a shorter r_p leaves the rest of p as it was; a reader may write
   more than the r_n bytes it reports). *)
Record read_reply := Reply { r_n : Z; r_p : list byte; r_err : option goerror }.
(* io.Reader: a call changes the state of the reader and has a reply *)
Definition reader (R : Type) := R -> nat -> R * read_reply.

(* bytes.Reader.Read: the state is what has not been read *)
Definition bytes_reader : reader (list byte) := fun rest k =>
  match rest with
  | [] => ([], Reply 0 [] (Some EOF))
  | _ => (skipn k rest, Reply (Z.of_nat (length (firstn k rest))) (firstn k rest) None)
  end.

(* scan.go: type Scanner struct *)
Record scanner := Scanner {
  s_old : list (list byte);      (* buffers replaced by larger ones, oldest first *)
  s_buf : list byte;
  s_start : nat;
  s_end : nat;
  s_err : option goerror;
  s_empties : nat;
  s_max : nat                    (* maxTokenSize *)
}.

(* scan.go: const MaxScanTokenSize, startBufSize; bufio.go: maxConsecutiveEmptyReads *)
Definition MaxScanTokenSize : nat := 64 * 1024.
(* scan.go: const startBufSize *)
Definition startBufSize : nat := 4096.
(* scan.go, bufio.go: maxConsecutiveEmptyReads *)
Definition maxConsecutiveEmptyReads : nat := 100.
(* const maxInt = int(^uint(0) >> 1), 64-bit int; maxInt/2 *)
Definition half_maxInt : N := 4611686018427387903.

(* scan.go: NewScanner(r); Split(f) (ucd_scan.go 18, testdata_scan.go 18,
   all_tokens_test.go 16-17) *)
Definition NewScanner : scanner := Scanner [] [] 0 0 None 0 MaxScanTokenSize.
(* Buffer(buf, max): s.buf = buf[0:cap(buf)] *)
Definition with_buffer (buf : list byte) (max : nat) : scanner := Scanner [] buf 0 0 None 0 max.

(* scan.go, setErr: records the first error encountered *)
Definition setErr (s : scanner) (e : goerror) : scanner :=
  match s_err s with
  | None | Some EOF => Scanner (s_old s) (s_buf s) (s_start s) (s_end s) (Some e) (s_empties s) (s_max s)
  | Some _ => s
  end.

(* scan.go: Err() (ucd_scan.go 25, testdata_scan.go 25) *)
Definition Err (s : scanner) : option goerror :=
  match s_err s with Some EOF => None | e => e end.

(* scan.go: s.buf[s.start:s.end] *)
Definition held (s : scanner) : res (list byte) :=
  let! upto := slice_to (s_buf s) (s_end s) in slice_from upto (s_start s).

(* copy(dst[at:], src), as in scan.go: at most what fits *)
Definition overwrite (dst : list byte) (pos : nat) (src : list byte) : list byte :=
  let src := firstn (length dst - pos) src in
  firstn pos dst ++ src ++ skipn (pos + length src) dst.

(* scan.go, "First, shift data to beginning of buffer if there's lots of empty space or
   space is needed." *)
Definition shift (s : scanner) : res scanner :=
  if (0 <? s_start s) && ((s_end s =? length (s_buf s)) || (length (s_buf s) / 2 <? s_start s)) then
    let! data := held s in
    Ret (Scanner (s_old s) (overwrite (s_buf s) 0 data) 0 (s_end s - s_start s)
                 (s_err s) (s_empties s) (s_max s))
  else Ret s.

(* scan.go, "Is the buffer full? If so, resize."  None: the token is too long. *)
Definition resize (s : scanner) : res (option scanner) :=
  if s_end s =? length (s_buf s) then
    if (s_max s <=? length (s_buf s)) || (half_maxInt <? N.of_nat (length (s_buf s)))%N then Ret None
    else
      let newSize := length (s_buf s) * 2 in
      let newSize := if newSize =? 0 then startBufSize else newSize in
      let newSize := Nat.min newSize (s_max s) in
      let! data := held s in
      Ret (Some (Scanner (s_old s ++ [s_buf s]) (overwrite (repeat x00 newSize) 0 data) 0
                         (s_end s - s_start s) (s_err s) (s_empties s) (s_max s)))
  else Ret (Some s).

(* for loop := 0; ; { n, err := s.r.Read(s.buf[s.end:len(s.buf)]) ... };
   [left] is the number of further empty reads tolerated. *)
Fixpoint fill {R} (rd : reader R) (left : nat) (r : R) (s : scanner) : R * scanner :=
  let k := length (s_buf s) - s_end s in
  let '(r', rep) := rd r k in
  let buf' := overwrite (s_buf s) (s_end s) (r_p rep) in
  if ((r_n rep <? 0) || (Z.of_nat k <? r_n rep))%Z then
    (r', setErr (Scanner (s_old s) buf' (s_start s) (s_end s) (s_err s) (s_empties s) (s_max s)) ErrBadReadCount)
  else
    let n := Z.to_nat (r_n rep) in
    let s' := Scanner (s_old s) buf' (s_start s) (s_end s + n) (s_err s) (s_empties s) (s_max s) in
    match r_err rep with
    | Some e => (r', setErr s' e)
    | None =>
        if 0 <? n then
          (r', Scanner (s_old s) buf' (s_start s) (s_end s + n) (s_err s) 0 (s_max s))
        else
          match left with
          | O => (r', setErr s' ErrNoProgress)
          | S left' => fill rd left' r' s'
          end
    end.

(* scan.go, Scanner.token: a slice of one of the allocated buffers. *)
Record slice := Slice { sl_buf : nat; sl_off : nat; sl_len : nat }.

(* The bytes a slice currently shows. *)
Definition bytes_of (s : scanner) (sl : slice) : list byte :=
  firstn (sl_len sl) (skipn (sl_off sl) (nth (sl_buf sl) (s_old s ++ [s_buf s]) [])).

(* scan.go: type SplitFunc; grapheme_clusters.go 17 has this type *)
Definition splitfunc := list byte -> bool -> res scan_result.

(* What follows when no token is available: scan.go, from "We cannot generate a
   token with what we are holding" to the end of the loop body.  The result is
   None if Scan returns false. *)
Definition more {R} (rd : reader R) (r : R) (s : scanner) : res (R * scanner * bool) :=
  match s_err s with
  | Some _ => Ret (r, Scanner (s_old s) (s_buf s) 0 0 (s_err s) (s_empties s) (s_max s), false)
  | None =>
      let! s1 := shift s in
      let! rs := resize s1 in
      match rs with
      | None => Ret (r, setErr s1 ErrTooLong, false)
      | Some s2 => let '(r', s3) := fill rd maxConsecutiveEmptyReads r s2 in Ret (r', s3, true)
      end
  end.

(* scan.go: func (s *Scanner) Scan; the loop, with a bound on its iterations.
   Some token: Scan returns true and Bytes() is the token. *)
Fixpoint scan_loop_bufio {R} (split : splitfunc) (rd : reader R) (fuel : nat) (r : R) (s : scanner)
  : res (R * scanner * option slice) :=
  match fuel with
  | O => Panic OutOfFuel
  | S fuel' =>
      let go_on r s :=
        let! (r', s', again) := more rd r s in
        if again then scan_loop_bufio split rd fuel' r' s' else Ret (r', s', None) in
      let at_eof := match s_err s with None => false | Some _ => true end in
      if (s_start s <? s_end s) || at_eof then
        let! data := held s in
        let! (advance, token, err) := split data at_eof in
        match err with
        | Some e => Ret (r, setErr s e, None)
        | None =>
            if s_end s - s_start s <? advance then Ret (r, setErr s ErrAdvanceTooFar, None)
            else
              let s' := Scanner (s_old s) (s_buf s) (s_start s + advance) (s_end s) (s_err s)
                                (s_empties s) (s_max s) in
              match token with
              | Some t =>
                  let sl := Slice (length (s_old s)) (s_start s) (length t) in
                  if negb at_eof || (0 <? advance) then
                    Ret (r, Scanner (s_old s) (s_buf s) (s_start s + advance) (s_end s) (s_err s)
                                    0 (s_max s), Some sl)
                  else
                    let e' := S (s_empties s) in
                    if maxConsecutiveEmptyReads <? e' then Panic TooManyEmptyTokens
                    else Ret (r, Scanner (s_old s) (s_buf s) (s_start s + advance) (s_end s) (s_err s)
                                         e' (s_max s), Some sl)
              | None => go_on r s'
              end
        end
      else go_on r s
  end.

(* Every iteration that goes on has read at least one byte or an error, so this
   bound is never reached (C24). *)
Definition Scan {R} (split : splitfunc) (rd : reader R) (r : R) (s : scanner)
  : res (R * scanner * option slice) :=
  scan_loop_bufio split rd (3 + Nat.max (length (s_buf s)) (s_max s)) r s.

(* README.md "Usage": for scanner.Scan() { use a copy of scanner.Bytes() } *)
Inductive scans {R} (split : splitfunc) (rd : reader R) :
  R -> scanner -> list (list byte) -> R -> scanner -> Prop :=
| scans_stop r s r' s' :
    Scan split rd r s = Ret (r', s', None) -> scans split rd r s [] r' s'
| scans_token r s r1 s1 sl toks r' s' :
    Scan split rd r s = Ret (r1, s1, Some sl) ->
    scans split rd r1 s1 toks r' s' ->
    scans split rd r s (bytes_of s1 sl :: toks) r' s'.

(* all_tokens_test.go 19-21: for scanner.Scan() { ret = append(ret, scanner.Bytes()) }: the slices are
   kept, and show whatever their memory holds when they are looked at. *)
Inductive collects {R} (split : splitfunc) (rd : reader R) :
  R -> scanner -> list slice -> R -> scanner -> Prop :=
| collects_stop r s r' s' :
    Scan split rd r s = Ret (r', s', None) -> collects split rd r s [] r' s'
| collects_token r s r1 s1 sl sls r' s' :
    Scan split rd r s = Ret (r1, s1, Some sl) ->
    collects split rd r1 s1 sls r' s' ->
    collects split rd r s (sl :: sls) r' s'.

(* all_tokens_test.go 15-23: allTokens(buf, splitFunc), as seen by its caller *)
Inductive allTokens (split : splitfunc) (buf : list byte) : list (list byte) -> option goerror -> Prop :=
| allTokens_result sls r s :
    collects split bytes_reader buf NewScanner sls r s ->
    allTokens split buf (map (bytes_of s) sls) (Err s).
