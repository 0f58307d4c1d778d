(* Callers that write to the tokens they receive.  A token is a part of the
   argument of ScanGraphemeClusters (grapheme_clusters.go 24, 30, 43, 55, 63, 73:
   data[:count]), with the capacity of the argument; with a bufio.Scanner it is a
   part of the Scanner's buffer (scan.go: Bytes).  So token[i] = b changes that
   memory, and so does append(token, ...) when the capacity suffices. *)
From Coq Require Import List NArith Arith Bool Strings.Byte.
From Verif Require Import Model.Base Model.Scan Model.Memory Model.Bufio.
Import ListNotations.

(* ---- a caller that cuts up a slice: grapheme_clusters.go 17 called in the loop
     for len(data) > 0 {
       advance, token, _ := ScanGraphemeClusters(data, true)
       ...
       data = data[advance:]
     }
   with statements that change memory in between.  The tokens are noted as they
   are when they are received. *)

(* grapheme_clusters.go 24, ...: the bytes a token shows *)
Definition m_bytes (m : memory) (s : bslice) : list byte :=
  map (fun i => m_heap m (b_base s + N.of_nat i)%N) (seq 0 (b_len s)).

(* [between m token rest m']: what the statements of the caller may do *)
Inductive cuts_up (between : memory -> bslice -> bslice -> memory -> Prop) : memory -> bslice -> list (list byte) -> Prop :=
| cuts_end m data : b_len data = 0 -> cuts_up between m data []
| cuts_token m data tr m1 advance token rest m2 toks :
    0 < b_len data ->
    interleaves (fun _ _ => False) m [m_ScanGraphemeClusters data true] tr m1 [Done (advance, Some token, None)] ->
    m_slice_from data advance = Done rest ->
    between m1 token rest m2 ->
    cuts_up between m2 rest toks ->
    cuts_up between m data (m_bytes m1 token :: toks).

(* token[i] = b, any number of times (of a token of grapheme_clusters.go 24, ...) *)
Inductive m_writes (token : bslice) : memory -> memory -> Prop :=
| m_writes_none m : m_writes token m m
| m_writes_byte m i b m' :
    i < b_len token -> m_writes token (set_heap m (b_base token + N.of_nat i)%N b) m' -> m_writes token m m'.

(* append(token, b), Go: in place if the capacity suffices, otherwise in new memory
   (of a token of grapheme_clusters.go 24, ...) *)
Definition m_append (m : memory) (token : bslice) (b : byte) : memory :=
  if b_len token <? b_cap token then set_heap m (b_base token + N.of_nat (b_len token))%N b else m.

(* ---- a caller of a bufio.Scanner: README.md "Usage", with statements that change
   memory between two calls of Scan *)

(* scan.go: a byte of a buffer that s.buf was earlier is changed *)
Fixpoint poke_old (old : list (list byte)) (buf pos : nat) (b : byte) : list (list byte) :=
  match old, buf with
  | [], _ => []
  | o :: old', O => overwrite o pos [b] :: old'
  | o :: old', S buf' => o :: poke_old old' buf' pos b
  end.

(* scan.go: a byte of s.buf, or of an earlier buffer, is changed *)
Definition poke (s : scanner) (buf pos : nat) (b : byte) : scanner :=
  if buf =? length (s_old s) then
    Scanner (s_old s) (overwrite (s_buf s) pos [b]) (s_start s) (s_end s) (s_err s) (s_empties s) (s_max s)
  else
    Scanner (poke_old (s_old s) buf pos b) (s_buf s) (s_start s) (s_end s) (s_err s) (s_empties s) (s_max s).

(* token[i] = b, any number of times, for any of the tokens (scan.go: Bytes) *)
Inductive writes (tokens : list slice) : scanner -> scanner -> Prop :=
| writes_none s : writes tokens s s
| writes_byte s token i b s' :
    In token tokens -> i < sl_len token ->
    writes tokens (poke s (sl_buf token) (sl_off token + i) b) s' -> writes tokens s s'.

(* append(token, b): the capacity of a token reaches to the end of its buffer
   (scan.go: the split function is given s.buf[s.start:s.end]) *)
Definition append_token (s : scanner) (token : slice) (b : byte) : scanner :=
  if sl_off token + sl_len token <? length (nth (sl_buf token) (s_old s ++ [s_buf s]) []) then
    poke s (sl_buf token) (sl_off token + sl_len token) b
  else s.

(* README.md "Usage": for scanner.Scan() { ... }, the statements doing to the
   memory of the scanner what [between earlier token s s'] permits; earlier are
   the tokens received before, latest first.  The tokens are noted as they are
   when Scan returns. *)
Inductive scribbles {R} (split : splitfunc) (rd : reader R) (between : list slice -> slice -> scanner -> scanner -> Prop) :
  list slice -> R -> scanner -> list (list byte) -> R -> scanner -> Prop :=
| scribbles_stop earlier r s r' s' :
    Scan split rd r s = Ret (r', s', None) -> scribbles split rd between earlier r s [] r' s'
| scribbles_token earlier r s r1 s1 sl s2 toks r' s' :
    Scan split rd r s = Ret (r1, s1, Some sl) ->
    between earlier sl s1 s2 ->
    scribbles split rd between (sl :: earlier) r1 s2 toks r' s' ->
    scribbles split rd between earlier r s (bytes_of s1 sl :: toks) r' s'.
