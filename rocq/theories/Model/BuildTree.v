(* Model of BuildRawPropertyTree (gentable/generate.go 22-94) and of the
   generator command (charprops/generate.go 16-78), from the three data files to
   the two tables.  Not modelled: the text of error messages.  In other files:
   opening the data files and writing the result (Model/GenMain.v), the textual
   form of the tables (Model/Emit.v). *)
From Coq Require Import List NArith ZArith Arith Bool Strings.Byte Strings.String.
From Verif Require Import Spec.Utf8 Spec.Assignments Model.Base Model.CharProps Model.Lookup Model.Bufio.
From Verif Require Import Model.PropNames Model.GenTable Model.UcdParse.
Import ListNotations.

(* gentable/generate.go 54, 70, 87: for r := entry.Start; r < entry.End; r++ *)
Definition runes (start end_ : Z) : list Z :=
  map (fun i => (start + Z.of_nat i)%Z) (seq 0 (Z.to_nat (end_ - start))).

(* gentable/generate.go 52-56 *)
Definition gcb_entry (t : tip) (e : Entry) : res tip :=
  let propName := FirstField e in
  let prop := LookupGCBProperty propName in
  run_ops t (map (fun r => OpSet r prop) (runes (Start e) (End e))).

(* gentable/generate.go 65-72 *)
Definition emoji_entry (t : tip) (e : Entry) : res tip :=
  let propName := FirstField e in
  let prop := LookupEmojiProperty propName in
  if (prop =? 0)%N then Ret t
  else run_ops t (map (fun r => OpSet r prop) (runes (Start e) (End e))).

(* gentable/generate.go 81-89 *)
Definition incb_entry (t : tip) (e : Entry) : res tip :=
  let! fields := AllFields e in
  match fields with
  | f0 :: f1 :: _ =>
      if negb (str_eqb f0 (str "InCB"%string)) then Ret t
      else
        let prop := LookupInCBProperty f1 in
        run_ops t (map (fun r => OpOr r prop) (runes (Start e) (End e)))
  | _ => Ret t
  end.

(* gentable/generate.go 45-57, 58-73, 74-90:
   for { entry, err := sc.NextEntry(); if err == io.EOF { break }
         else if err != nil { return ret, ... }; body } *)
Inductive read_loop {R} (rd : reader R) (body : tip -> Entry -> res tip) :
  R -> scanner -> tip -> res (result tip) -> Prop :=
| loop_eof r s r' s' t :
    NextEntry rd r s r' s' (inr EOF) -> read_loop rd body r s t (Ret (inl t))
| loop_err r s r' s' t err :
    NextEntry rd r s r' s' (inr err) -> err <> EOF -> read_loop rd body r s t (Ret (inr err))
| loop_panic r s r' s' t e p :
    NextEntry rd r s r' s' (inl e) -> body t e = Panic p -> read_loop rd body r s t (Panic p)
| loop_next r s r' s' t e t' out :
    NextEntry rd r s r' s' (inl e) -> body t e = Ret t' ->
    read_loop rd body r' s' t' out -> read_loop rd body r s t out.

(* gentable/generate.go 22-94; the arguments are the readers of the three open files *)
Inductive BuildRawPropertyTree {R1 R2 R3} (rd1 : reader R1) (gbpFile : R1) (rd2 : reader R2) (emojiFile : R2)
  (rd3 : reader R3) (dcpFile : R3) : res (result RawPropertyTree) -> Prop :=
| build_stop1 p :
    read_loop rd1 gcb_entry gbpFile newLineScan newTreeInProgress (Panic p) ->
    BuildRawPropertyTree rd1 gbpFile rd2 emojiFile rd3 dcpFile (Panic p)
| build_fail1 err :
    read_loop rd1 gcb_entry gbpFile newLineScan newTreeInProgress (Ret (inr err)) ->
    BuildRawPropertyTree rd1 gbpFile rd2 emojiFile rd3 dcpFile (Ret (inr err))
| build_stop2 t1 p :
    read_loop rd1 gcb_entry gbpFile newLineScan newTreeInProgress (Ret (inl t1)) ->
    read_loop rd2 emoji_entry emojiFile newLineScan t1 (Panic p) ->
    BuildRawPropertyTree rd1 gbpFile rd2 emojiFile rd3 dcpFile (Panic p)
| build_fail2 t1 err :
    read_loop rd1 gcb_entry gbpFile newLineScan newTreeInProgress (Ret (inl t1)) ->
    read_loop rd2 emoji_entry emojiFile newLineScan t1 (Ret (inr err)) ->
    BuildRawPropertyTree rd1 gbpFile rd2 emojiFile rd3 dcpFile (Ret (inr err))
| build_stop3 t1 t2 p :
    read_loop rd1 gcb_entry gbpFile newLineScan newTreeInProgress (Ret (inl t1)) ->
    read_loop rd2 emoji_entry emojiFile newLineScan t1 (Ret (inl t2)) ->
    read_loop rd3 incb_entry dcpFile newLineScan t2 (Panic p) ->
    BuildRawPropertyTree rd1 gbpFile rd2 emojiFile rd3 dcpFile (Panic p)
| build_fail3 t1 t2 err :
    read_loop rd1 gcb_entry gbpFile newLineScan newTreeInProgress (Ret (inl t1)) ->
    read_loop rd2 emoji_entry emojiFile newLineScan t1 (Ret (inl t2)) ->
    read_loop rd3 incb_entry dcpFile newLineScan t2 (Ret (inr err)) ->
    BuildRawPropertyTree rd1 gbpFile rd2 emojiFile rd3 dcpFile (Ret (inr err))
| build_done t1 t2 t3 :
    read_loop rd1 gcb_entry gbpFile newLineScan newTreeInProgress (Ret (inl t1)) ->
    read_loop rd2 emoji_entry emojiFile newLineScan t1 (Ret (inl t2)) ->
    read_loop rd3 incb_entry dcpFile newLineScan t2 (Ret (inl t3)) ->
    BuildRawPropertyTree rd1 gbpFile rd2 emojiFile rd3 dcpFile
      (let! tree := Compact t3 in Ret (inl tree)).

(* charprops/generate.go 16-64: the tables written, or the error reported *)
Definition main_tables (built : res (result RawPropertyTree)) : res (result tables) :=
  let! out := built in
  match out with
  | inr err => Ret (inr err)
  | inl tree => let! tb := emit tree in Ret (inl tb)
  end.
