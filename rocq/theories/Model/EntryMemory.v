(* ucd_scan.go 22-76 with slices for slices: Entry.Fields is not a copy but a
   part of the memory of the bufio.Scanner (line 30: raw is lineScan.Bytes();
   lines 31-37: bytes.Cut and bytes.TrimSpace return parts of their argument;
   line 57: Fields(fieldsRaw) converts without copying). *)
From Coq Require Import List NArith ZArith Arith Bool Strings.Byte.
From Verif Require Import Model.Base Model.Scan Model.Bufio Model.UcdParse.
Import ListNotations.

(* ucd_scan.go 62-66 *)
Record MemEntry := MkMemEntry { m_Start : Z; m_End : Z; m_Fields : slice }.

(* sl[off : off+len], as ucd_scan.go 31-38 make them *)
Definition part (sl : slice) (off len : nat) : slice := Slice (sl_buf sl) (sl_off sl + off) len.

(* bytes.Cut, ucd_scan.go 31, 32, 38: s[:i], s[i+len(sep):], true, or s, nil, false *)
Definition cut_slice (s : scanner) (sl : slice) (sep : list byte) : slice * slice * bool :=
  let '(before, after, found) := Cut sep (bytes_of s sl) in
  if found then (part sl 0 (length before), part sl (length before + length sep) (length after), true)
  else (sl, part sl 0 0, false).

(* bytes.TrimSpace, ucd_scan.go 36, 37: the part that is left (of an all-blank slice nil or an
   empty part, which show the same) *)
Definition trim_slice (s : scanner) (sl : slice) : slice :=
  let c := bytes_of s sl in
  part sl (length c - length (TrimLeft c)) (length (TrimSpace c)).

(* ucd_scan.go 30-58: the body of the loop for one line; None is "continue".
   The conversions string(startHex), string(endHex) copy, and so does the
   formatting of the error. *)
Definition parse_slice (s : scanner) (raw : slice) : option (result MemEntry) :=
  let '(raw, _, _) := cut_slice s raw commentMarker in
  let '(rng, fieldsRaw, ok) := cut_slice s raw fieldSeparator in
  if negb ok then None
  else
    let rng := trim_slice s rng in
    let fieldsRaw := trim_slice s fieldsRaw in
    let '(startHex, endHex, isRange) := cut_slice s rng rangeSeparator in
    Some
      match ParseUint (bytes_of s startHex) with
      | inr err => inr (InvalidStart (bytes_of s startHex) err)
      | inl startInt =>
          let start := int32 (Z.of_N startInt) in
          match (if isRange then
                   match ParseUint (bytes_of s endHex) with
                   | inr err => inr (InvalidEnd (bytes_of s endHex) err)
                   | inl endInt => inl (int32 (Z.of_N endInt))
                   end
                 else inl start) with
          | inr err => inr err
          | inl end_ => inl (MkMemEntry start (int32 (end_ + 1)) fieldsRaw)
          end
      end.

(* ucd_scan.go 22-60: NextEntry *)
Inductive next_mem {R} (rd : reader R) : R -> scanner -> R -> scanner -> result MemEntry -> Prop :=
| mem_stop r s r' s' :
    Scan ScanLines rd r s = Ret (r', s', None) -> next_mem rd r s r' s' (inr (no_more s'))
| mem_found r s r1 s1 raw out :
    Scan ScanLines rd r s = Ret (r1, s1, Some raw) -> parse_slice s1 raw = Some out ->
    next_mem rd r s r1 s1 out
| mem_skip r s r1 s1 raw r' s' out :
    Scan ScanLines rd r s = Ret (r1, s1, Some raw) -> parse_slice s1 raw = None ->
    next_mem rd r1 s1 r' s' out -> next_mem rd r s r' s' out.

(* ucd_scan.go 62-66, what the program sees in a result while the scanner's memory is that of s. *)
Definition seen (s : scanner) (o : result MemEntry) : result Entry :=
  match o with
  | inl e => inl (MkEntry (m_Start e) (m_End e) (bytes_of s (m_Fields e)))
  | inr err => inr err
  end.

(* Successive calls of NextEntry (ucd_scan.go 22) on one Scanner; each result is looked at before the next
   call. *)
Inductive prompt {R} (rd : reader R) : R -> scanner -> list (result Entry) -> R -> scanner -> Prop :=
| prompt_none r s : prompt rd r s [] r s
| prompt_one r s r1 s1 o outs r' s' :
    next_mem rd r s r1 s1 o -> prompt rd r1 s1 outs r' s' -> prompt rd r s (seen s1 o :: outs) r' s'.

(* The same (ucd_scan.go 22), but the entries are kept and looked at later. *)
Inductive kept {R} (rd : reader R) : R -> scanner -> list (result MemEntry) -> R -> scanner -> Prop :=
| kept_none r s : kept rd r s [] r s
| kept_one r s r1 s1 o outs r' s' :
    next_mem rd r s r1 s1 o -> kept rd r1 s1 outs r' s' -> kept rd r s (o :: outs) r' s'.
