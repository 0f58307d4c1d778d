(* Model of textseg/internal/charprops/ucdparse (ucd_scan.go, testdata_scan.go)
   and of the standard-library functions it uses (bytes.Cut, bytes.Split,
   bytes.TrimSpace, strconv.ParseUint, strconv.ParseInt, bufio.ScanLines), after
   their published source. *)
From Coq Require Import List NArith ZArith Arith Bool Strings.Byte Strings.String.
From Verif Require Import Spec.Utf8 Model.Base Model.Scan Model.Bufio Model.PropNames Model.GenTable.
Import ListNotations.

Notation length := List.length.

(* ---- standard library *)

(* bytes.HasPrefix(s, p), inside bytes.Cut: what follows p *)
Fixpoint after_prefix (p s : list byte) : option (list byte) :=
  match p, s with
  | [], _ => Some s
  | x :: p', y :: s' => if Byte.eqb x y then after_prefix p' s' else None
  | _ :: _, [] => None
  end.

(* bytes.Cut(s, sep), ucd_scan.go 31, 32, 38, 82, 96, testdata_scan.go 31: cuts at the first instance of sep; without one the
   result is s, nil, false *)
Fixpoint Cut (sep s : list byte) : list byte * list byte * bool :=
  match after_prefix sep s with
  | Some after => ([], after, true)
  | None =>
      match s with
      | [] => ([], [], false)
      | b :: s' => let '(before, after, found) := Cut sep s' in (b :: before, after, found)
      end
  end.

(* bytes.Split(s, sep), testdata_scan.go 36, 40, for a non-empty sep: the subslices between the
   instances of sep.  Every round consumes sep, so the bound is not reached. *)
Fixpoint split_rounds (fuel : nat) (sep s : list byte) : res (list (list byte)) :=
  match fuel with
  | O => Panic OutOfFuel
  | S fuel' =>
      let '(before, after, found) := Cut sep s in
      if found then let! rest := split_rounds fuel' sep after in Ret (before :: rest)
      else Ret [before]
  end.
(* bytes.Split, testdata_scan.go 36, 40 *)
Definition Split (s sep : list byte) : res (list (list byte)) := split_rounds (S (length s)) sep s.

(* asciiSpace of package bytes, used by bytes.TrimSpace (ucd_scan.go 36) *)
Definition asciiSpace (b : byte) : bool :=
  match b with x09 | x0a | x0b | x0c | x0d | x20 => true | _ => false end.

(* unicode.IsSpace beyond ASCII, encoded; used by bytes.TrimSpace (ucd_scan.go 36) *)
Definition wide_spaces : list (list byte) :=
  map utf8_encode
    [0x85; 0xA0; 0x1680; 0x2000; 0x2001; 0x2002; 0x2003; 0x2004; 0x2005; 0x2006; 0x2007; 0x2008;
     0x2009; 0x200A; 0x2028; 0x2029; 0x202F; 0x205F; 0x3000]%N.

(* the width of the first of the given encodings that starts s, used for
   unicode.IsSpace in bytes.TrimSpace *)
Fixpoint prefix_width (prefixes : list (list byte)) (s : list byte) : nat :=
  match prefixes with
  | [] => 0
  | p :: prefixes' =>
      match after_prefix p s with Some _ => length p | None => prefix_width prefixes' s end
  end.

(* The number of bytes of the white-space character that starts s, 0 if none
   does: utf8.DecodeRune and unicode.IsSpace *)
Definition space_width (s : list byte) : nat :=
  match s with
  | [] => 0
  | b :: _ =>
      if (bval b <? 0x80)%N then if asciiSpace b then 1 else 0
      else prefix_width wide_spaces s
  end.

(* The same for the character that ends a slice, given in reverse:
   utf8.DecodeLastRune and unicode.IsSpace *)
Definition space_width_rev (s : list byte) : nat :=
  match s with
  | [] => 0
  | b :: _ =>
      if (bval b <? 0x80)%N then if asciiSpace b then 1 else 0
      else prefix_width (map (fun p => rev' p) wide_spaces) s
  end.

(* bytes.TrimLeftFunc, in bytes.TrimSpace: drop spaces from the front as long as there are any; the first argument
   bounds the rounds *)
Fixpoint drop_spaces (width : list byte -> nat) (rounds : nat) (s : list byte) : list byte :=
  match rounds, width s with
  | S rounds', S w => drop_spaces width rounds' (skipn (S w) s)
  | _, _ => s
  end.

(* bytes.TrimSpace: TrimRightFunc(TrimLeftFunc(s, IsSpace), IsSpace).  The
   source's ASCII fast path computes the same. *)
Definition TrimLeft (s : list byte) : list byte := drop_spaces space_width (length s) s.
(* bytes.TrimRightFunc(s, unicode.IsSpace) *)
Definition TrimRight (s : list byte) : list byte :=
  rev' (drop_spaces space_width_rev (length s) (rev' s)).
(* bytes.TrimSpace, ucd_scan.go 36, 37, 83, 97, testdata_scan.go 32, 43 *)
Definition TrimSpace (s : list byte) : list byte := TrimRight (TrimLeft s).

(* strconv.ParseUint: the value of a digit, with lower(c) = c | 0x20; base 16 *)
Definition digit (c : byte) : option N :=
  let n := bval c in
  let l := N.lor n 0x20 in
  (if (0x30 <=? n) && (n <=? 0x39) then Some (n - 0x30)
   else if (0x61 <=? l) && (l <=? 0x7A) then
     let d := l - 0x61 + 10 in if d <? 16 then Some d else None
   else None)%N.

(* (Entry, error), ucd_scan.go 22, and the like: the error is non-nil, or the
   value counts *)
Definition result (A : Type) : Type := A + goerror.

(* The loop of ParseUint with base 16; maxVal = 2^32-1.  The overflow tests of
   the 64-bit accumulator cannot fire, it never exceeds maxVal. *)
Fixpoint parse_digits (n : N) (s : list byte) : result N :=
  match s with
  | [] => inl n
  | c :: s' =>
      match digit c with
      | None => inr ErrSyntax
      | Some d =>
          let n1 := (n * 16 + d)%N in
          if (0xFFFFFFFF <? n1)%N then inr ErrRange else parse_digits n1 s'
      end
  end.

(* strconv.ParseUint(s, 16, 32), ucd_scan.go 40, 46 *)
Definition ParseUint (s : gostring) : result N :=
  match s with [] => inr ErrSyntax | _ => parse_digits 0 s end.

(* strconv.ParseInt(s, 16, 32), testdata_scan.go 47: on ErrRange ParseUint returned 2^32-1 *)
Definition ParseInt (s : gostring) : result Z :=
  match s with
  | [] => inr ErrSyntax
  | c :: s' =>
      let neg := Byte.eqb c x2d in
      let digits := if Byte.eqb c x2b || neg then s' else s in
      let un := match ParseUint digits with
                | inl n => inl n
                | inr ErrRange => inl 0xFFFFFFFF%N
                | inr e => inr e
                end in
      match un with
      | inr e => inr e
      | inl un =>
          if negb neg && (0x80000000 <=? un)%N then inr ErrRange
          else if neg && (0x80000000 <? un)%N then inr ErrRange
          else inl (if neg then - Z.of_N un else Z.of_N un)%Z
      end
  end.

(* conversion of an integer to int32: rune(startInt), rune(endInt), end + 1,
   ucd_scan.go 44, 50, 56 *)
Definition int32 (z : Z) : Z := ((z + 2147483648) mod 4294967296 - 2147483648)%Z.

(* bytes.IndexByte(data, '\n'), in bufio.ScanLines *)
Fixpoint index_newline (data : list byte) : option nat :=
  match data with
  | [] => None
  | b :: data' => if Byte.eqb b x0a then Some 0 else option_map S (index_newline data')
  end.

(* dropCR of package bufio, in ScanLines *)
Definition dropCR (data : list byte) : list byte :=
  match rev' data with x0d :: d' => rev' d' | _ => data end.

(* bufio.ScanLines, the default split function of a Scanner (ucd_scan.go 18,
   testdata_scan.go 18) *)
Definition ScanLines : splitfunc := fun data atEOF =>
  if atEOF && is_empty data then Ret (0, None, None)
  else
    match index_newline data with
    | Some i => Ret (i + 1, Some (dropCR (firstn i data)), None)
    | None => if atEOF then Ret (length data, Some (dropCR data), None) else Ret (0, None, None)
    end.

(* ---- ucd_scan.go *)

(* ucd_scan.go 62-66: Entry.  Fields is a slice of the scanner's buffer; here
   its content while the entry is current (Fields76: ucd_scan.go 76). *)
Record Entry := MkEntry { Start : Z; End : Z; Fields : list byte }.

(* ucd_scan.go 100-102 *)
Definition commentMarker : list byte := [x23].
(* ucd_scan.go 101 *)
Definition fieldSeparator : list byte := [x3b].
(* ucd_scan.go 102 *)
Definition rangeSeparator : list byte := [x2e; x2e].

(* ucd_scan.go 30-58: the body of the loop for one line; None is "continue". *)
Definition parse_line (raw : list byte) : option (result Entry) :=
  let '(raw, _, _) := Cut commentMarker raw in
  let '(rng, fieldsRaw, ok) := Cut fieldSeparator raw in
  if negb ok then None
  else
    let rng := TrimSpace rng in
    let fieldsRaw := TrimSpace fieldsRaw in
    let '(startHex, endHex, isRange) := Cut rangeSeparator rng in
    Some
      match ParseUint startHex with
      | inr err => inr (InvalidStart startHex err)
      | inl startInt =>
          let start := int32 (Z.of_N startInt) in
          match (if isRange then
                   match ParseUint endHex with
                   | inr err => inr (InvalidEnd endHex err)
                   | inl endInt => inl (int32 (Z.of_N endInt))
                   end
                 else inl start) with
          | inr err => inr err
          | inl end_ => inl (MkEntry start (int32 (end_ + 1)) fieldsRaw)
          end
      end.

(* What a scanner method returns when there are no more lines:
   ucd_scan.go 24-29, testdata_scan.go 24-29 *)
Definition no_more (s : scanner) : goerror :=
  match Err s with Some err => err | None => EOF end.

(* ucd_scan.go 22-60: NextEntry, over an arbitrary reader; big-step, as the loop
   has no bound of its own.  testdata_scan.go 22-63 has the same loop, so the
   treatment of a line is a parameter. *)
Inductive next_entry {R A} (line : list byte -> res (option (result A))) (rd : reader R) :
  R -> scanner -> R -> scanner -> result A -> Prop :=
| next_stop r s r' s' :
    Scan ScanLines rd r s = Ret (r', s', None) ->
    next_entry line rd r s r' s' (inr (no_more s'))
| next_found r s r1 s1 raw out :
    Scan ScanLines rd r s = Ret (r1, s1, Some raw) ->
    line (bytes_of s1 raw) = Ret (Some out) ->
    next_entry line rd r s r1 s1 out
| next_skip r s r1 s1 raw r' s' out :
    Scan ScanLines rd r s = Ret (r1, s1, Some raw) ->
    line (bytes_of s1 raw) = Ret None ->
    next_entry line rd r1 s1 r' s' out ->
    next_entry line rd r s r' s' out.

(* ucd_scan.go 22-60: NextEntry *)
Definition NextEntry {R} : reader R -> R -> scanner -> R -> scanner -> result Entry -> Prop :=
  next_entry (fun raw => Ret (parse_line raw)).

(* ucd_scan.go 16-20, testdata_scan.go 16-20: NewScanner, NewTestDataScanner *)
Definition newLineScan : scanner := NewScanner.

(* ucd_scan.go 78-93: Fields.Strings.  The returned function keeps its position
   in the captured variable remain; [keep n] tells whether the n-th call of
   yield returns true.  Result: what was yielded, and remain afterwards.  The
   bound on the rounds is never reached, every round consumes a separator. *)
Fixpoint strings_rounds (fuel : nat) (keep : nat -> bool) (n : nat) (remain : list byte)
  : res (list gostring * list byte) :=
  match fuel with
  | O => Panic OutOfFuel
  | S fuel' =>
      let '(before, after, foundSep) := Cut fieldSeparator remain in
      let val := TrimSpace before in
      if negb (keep n) then Ret ([val], remain)
      else if negb foundSep then Ret ([val], remain)
      else
        let! (vals, remain) := strings_rounds fuel' keep (S n) after in
        Ret (val :: vals, remain)
  end.
(* gentable/generate.go 81: one "range" over the sequence of ucd_scan.go 80-92, starting with the given remain *)
Definition range_strings (keep : nat -> bool) (remain : list byte) : res (list gostring * list byte) :=
  strings_rounds (S (length remain)) keep 0 remain.

(* slices.Collect(e.AllFields()): ucd_scan.go 72-74 and 78-93 *)
Definition AllFields (e : Entry) : res (list gostring) :=
  let! (vals, _) := range_strings (fun _ => true) (Fields e) in Ret vals.

(* ucd_scan.go 68-70, 95-98: FirstField, FirstString *)
Definition FirstField (e : Entry) : gostring :=
  let '(before, _, _) := Cut fieldSeparator (Fields e) in TrimSpace before.

(* ---- testdata_scan.go *)

(* testdata_scan.go 65-68 *)
Record TestDataEntry := MkTest { Input : list byte; WantSegments : list (list byte) }.

(* testdata_scan.go 70-71: the UTF-8 encodings of U+00F7 and U+00D7 *)
Definition splitMarker : list byte := [xc3; xb7].
(* testdata_scan.go 71 *)
Definition nonsplitMarker : list byte := [xc3; x97].

(* testdata_scan.go 42-56: for _, charHex := range charsHex *)
Fixpoint test_chars (charsHex : list (list byte)) (entryInput currentSeg : list byte)
  : result (list byte * list byte) :=
  match charsHex with
  | [] => inl (entryInput, currentSeg)
  | charHex :: rest =>
      let charHexStr := TrimSpace charHex in
      if is_empty charHexStr then test_chars rest entryInput currentSeg
      else
        match ParseInt charHexStr with
        | inr _ => inr (InvalidReference charHexStr)
        | inl charInt =>
            let buf := EncodeRune charInt in
            test_chars rest (entryInput ++ buf) (currentSeg ++ buf)
        end
  end.

(* testdata_scan.go 39-60: for _, wantSeg := range wantSegs *)
Fixpoint test_segs (wantSegs : list (list byte)) (entry : TestDataEntry) : res (result TestDataEntry) :=
  match wantSegs with
  | [] => Ret (inl entry)
  | wantSeg :: rest =>
      let! charsHex := Split wantSeg nonsplitMarker in
      match test_chars charsHex (Input entry) [] with
      | inr err => Ret (inr err)
      | inl (input, currentSeg) =>
          test_segs rest
            (MkTest input (if is_empty currentSeg then WantSegments entry
                           else WantSegments entry ++ [currentSeg]))
      end
  end.

(* testdata_scan.go 30-62: one line *)
Definition parse_test_line (raw : list byte) : res (option (result TestDataEntry)) :=
  let '(raw, _, _) := Cut commentMarker raw in
  let raw := TrimSpace raw in
  if is_empty raw then Ret None
  else
    let! wantSegs := Split raw splitMarker in
    let! out := test_segs wantSegs (MkTest [] []) in
    Ret (Some out).

(* testdata_scan.go 22-63: NextEntry *)
Definition NextTestEntry {R} : reader R -> R -> scanner -> R -> scanner -> result TestDataEntry -> Prop :=
  next_entry parse_test_line.
