(* Property C50: what the test-data parser makes of any file at all. *)
From Coq Require Import List NArith ZArith Arith Bool Lia Strings.Byte Strings.String.
From Verif Require Import Spec.Utf8 Spec.Readers Spec.UcdFile Spec.TestReading.
From Verif Require Import Model.Base Model.Scan Model.Bufio Model.UcdParse.
From Verif Require Import Proofs.Basics Proofs.BufioFacts Proofs.ParseFacts Proofs.UcdFacts Proofs.TestDataFacts
  Proofs.TestReading.
From Verif Require Import Properties.Bufio Properties.Parsing.
Import ListNotations.
Notation length := List.length.

(* Every line has exactly one reading: the next theorem covers every file whose
   lines fit the scanner. *)
Theorem C50_reading l : exists m, line_reads l m /\ forall m', line_reads l m' -> m' = m.
Proof.
  exists (reading_of l). split; [apply line_reads_iff; reflexivity|]. intros m' H. apply line_reads_iff in H. exact H.
Qed.

(* What NextEntry returns for a line: nothing if it is skipped.  The error names
   the first text that is neither blank nor a number in range. *)
Definition answer (m : reading) : list (result TestDataEntry) :=
  match m with
  | Skipped => []
  | Case segs => [inl (MkTest (List.concat segs) segs)]
  | Bad text => [inr (InvalidReference text)]
  end.

Lemma reads_outcomes lines ms : Forall2 line_reads lines ms -> outcomes parse_test_line lines (flat_map answer ms).
Proof.
  induction 1 as [|l m lines ms Hl Hm IH]; [constructor|].
  pose proof (parse_reads l m Hl) as K. destruct m as [|segs|t]; cbn [flat_map answer app];
    (constructor; [rewrite parse_test_line_dropCR; exact K|exact IH]).
Qed.

(* The calls return the answers of the lines, in order - an error does not stop
   the scanner - and then the reader's error. *)
Theorem C50_file {R} (rd : reader R) r file e lines ms :
  delivers rd 100 r file e -> file_lines file lines ->
  Forall (fun l => length l < 64 * 1024) lines -> Forall2 line_reads lines ms ->
  forall n, test_results rd r (flat_map answer ms ++ repeat (inr e) n).
Proof.
  intros Hd Hf HF Hm n. destruct (new_scanner rd r file e Hd) as (I & M & L & A).
  eapply calls_lines; try eassumption. apply reads_outcomes. exact Hm.
Qed.

(* A line that does not fit: the answers of the lines before it, then ErrTooLong,
   and for a caller who goes on the answer to its first 64 KiB as if they were a
   line, and ErrTooLong for ever. *)
Theorem C50_too_long {R} (rd : reader R) r file e lines long rest ms m :
  delivers rd 100 r file e -> file_lines file (lines ++ long :: rest) -> oversize file long rest ->
  Forall (fun l => length l < 64 * 1024) lines -> Forall2 line_reads lines ms ->
  line_reads (firstn (64 * 1024) long) m ->
  forall n, test_results rd r (flat_map answer ms ++ inr ErrTooLong :: answer m ++ repeat (inr ErrTooLong) n).
Proof.
  intros Hd Hf Hl HF Hm Hp n. destruct (new_scanner rd r file e Hd) as (I & M & L & A).
  assert (outcomes parse_test_line [firstn (64 * 1024) long] (answer m)) as Ho.
  { rewrite <- (app_nil_r (answer m)). apply (reads_outcomes _ [m]). constructor; [exact Hp|constructor]. }
  eapply calls_too_long; try eassumption. apply reads_outcomes. exact Hm.
Qed.

(* The remaining case, an unterminated last line of exactly 64 KiB. *)
Theorem C50_edge {R} (rd : reader R) r file e lines last ms m :
  delivers rd 100 r file e -> file_lines file (lines ++ [last]) -> length last = 64 * 1024 ->
  Forall (fun l => length l < 64 * 1024) lines -> Forall2 line_reads lines ms -> line_reads last m ->
  forall n, test_results rd r (flat_map answer ms ++ answer m ++ repeat (inr e) (S n)) \/
            test_results rd r (flat_map answer ms ++ inr ErrTooLong :: answer m ++ repeat (inr ErrTooLong) n).
Proof.
  intros Hd Hf Hl HF Hm Hp n. destruct (new_scanner rd r file e Hd) as (I & M & L & A).
  assert (outcomes parse_test_line [last] (answer m)) as Ho.
  { rewrite <- (app_nil_r (answer m)). apply (reads_outcomes _ [m]). constructor; [exact Hp|constructor]. }
  destruct (calls_edge parse_test_line rd e lines (flat_map answer ms) last (answer m) n r newLineScan file
              (reads_outcomes _ _ Hm) HF I M L Hl Ho A Hf) as (r' & s' & [C|C]); [left|right]; exists r', s'; exact C.
Qed.

(* The lines of the published format (C32) are among the cases. *)
Theorem C50_published l clusters : test_line l clusters -> Forall (Forall scalar) clusters ->
  line_reads l (Case (map utf8_text clusters)).
Proof.
  intros Hl Hs. pose proof (parse_test_line_ok l clusters Hl Hs) as K.
  destruct (C50_reading l) as (m & Hm & _). pose proof (parse_reads l m Hm) as Q. destruct m as [|segs|].
  - rewrite Q in K. discriminate.
  - rewrite Q in K. assert (segs = map utf8_text clusters) as <- by congruence. exact Hm.
  - rewrite Q in K. discriminate.
Qed.

(* ---- cases *)

(* A line nobody would publish: no sign at the start, empty texts, a surrogate,
   numbers with a sign and one beyond U+10FFFF. *)
Example C50_odd : line_reads (list_byte_of_string "41 × ÷ D800 × -1÷÷ +42 × 7fffffff # ÷ zz")
  (Case [[x41]; [xef; xbf; xbd; xef; xbf; xbd]; [x42; xef; xbf; xbd]]).
Proof. apply line_reads_iff. vm_compute. reflexivity. Qed.

Example C50_bad : line_reads (list_byte_of_string "÷ 0020 × 80000000 ÷") (Bad (list_byte_of_string "80000000")) /\
  line_reads (list_byte_of_string "÷ 0020 0308 ÷ zz") (Bad (list_byte_of_string "0020 0308")) /\
  line_reads (list_byte_of_string "÷ U+0020 ÷") (Bad (list_byte_of_string "U+0020")).
Proof. repeat split; apply line_reads_iff; vm_compute; reflexivity. Qed.

Example C50_skipped : line_reads (list_byte_of_string "   # ÷ 0020 ÷") Skipped.
Proof. apply line_reads_iff. vm_compute. reflexivity. Qed.

(* signs without characters: an entry without segments, not a skipped line *)
Example C50_empty : line_reads (list_byte_of_string "÷") (Case []).
Proof. apply line_reads_iff. vm_compute. reflexivity. Qed.

Definition odd_file : list byte := list_byte_of_string ("÷ 0020 ÷" ++ nl ++ "÷ zz ÷" ++ nl ++ "#" ++ nl ++ "÷ 0041 ÷").
Example C50_example : test_results (nagging EOF) (true, odd_file)
  [inl (MkTest [x20] [[x20]]); inr (InvalidReference (list_byte_of_string "zz")); inl (MkTest [x41] [[x41]]); inr EOF].
Proof.
  assert (file_lines odd_file (map list_byte_of_string ["÷ 0020 ÷"; "÷ zz ÷"; "#"; "÷ 0041 ÷"]%string)) as Hf.
  { assert (forall l, existsb (Byte.eqb x0a) l = false -> ~ In x0a l) as K.
    { intros l H HI. enough (existsb (Byte.eqb x0a) l = true) by congruence. apply existsb_exists. exists x0a. auto. }
    unfold odd_file, nl. cbn [map].
    repeat (match goal with |- file_lines _ (?l :: _ :: _) =>
      apply (lines_more l); [apply K; vm_compute; reflexivity|] end).
    apply lines_last; [apply K; vm_compute; reflexivity|discriminate]. }
  refine (C50_file (nagging EOF) (true, odd_file) odd_file EOF _
    [Case [[x20]]; Bad (list_byte_of_string "zz"); Skipped; Case [[x41]]] (nagging_delivers EOF odd_file 100 ltac:(lia)) Hf _ _ 1).
  - apply fits_short. vm_compute. reflexivity.
  - cbn [map]. repeat constructor; apply line_reads_iff; vm_compute; reflexivity.
Qed.

Definition all_theorems := (@C50_reading, @C50_file, @C50_too_long, @C50_edge, @C50_published).
Print Assumptions all_theorems.
