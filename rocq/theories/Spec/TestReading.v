(* What any line at all of a test-data file stands for, including lines the
   published file does not contain.  Specification: nothing here comes from the
   code. *)
From Coq Require Import List NArith ZArith Strings.Byte.
From Verif Require Import Spec.Utf8 Spec.UcdFile.
Import ListNotations.

(* The parts of s between the occurrences of sep. *)
Inductive divided (sep : list byte) : list byte -> list (list byte) -> Prop :=
| divided_one s : without sep s -> divided sep s [s]
| divided_more p rest ps :
    without sep p -> divided sep rest ps -> divided sep (p ++ sep ++ rest) (p :: ps).

(* The encoding of the character with a given number, or of U+FFFD if there is
   none. *)
Inductive rune_bytes : Z -> list byte -> Prop :=
| rune_scalar c : scalar c -> rune_bytes (Z.of_N c) (utf8_encode c)
| rune_other z : (forall c, scalar c -> z <> Z.of_N c) -> rune_bytes z (utf8_encode 0xFFFD).

(* A text between two signs is blank or the number of a character. *)
Inductive text_bytes : list byte -> list byte -> Prop :=
| text_blank y : blanks y -> text_bytes y []
| text_char y t z bs : padded y t -> int_text t z -> rune_bytes z bs -> text_bytes y bs.

(* A segment: texts with multiplication signs between them. *)
Definition segment_bytes (g bs : list byte) : Prop :=
  exists texts outs, divided multiplication_sign g texts /\ Forall2 text_bytes texts outs /\ bs = concat outs.

(* The first text of a segment that is neither blank nor a number in range,
   without the blanks around it. *)
Definition bad_segment (g t : list byte) : Prop :=
  exists before outs y after, divided multiplication_sign g (before ++ y :: after) /\ Forall2 text_bytes before outs /\
    padded y t /\ t <> [] /\ forall z, ~ int_text t z.

(* Bad: with the first such text of the line *)
Inductive reading := Skipped | Case (segments : list (list byte)) | Bad (text : list byte).

Definition nonempty (bs : list byte) : bool := match bs with [] => false | _ => true end.

Inductive line_reads : list byte -> reading -> Prop :=
| reads_skipped l a : content l a -> blanks a -> line_reads l Skipped
| reads_case l a segs outs :
    content l a -> ~ blanks a -> divided division_sign a segs -> Forall2 segment_bytes segs outs ->
    line_reads l (Case (filter nonempty outs))
| reads_bad l a before outs g after t :
    content l a -> divided division_sign a (before ++ g :: after) -> Forall2 segment_bytes before outs ->
    bad_segment g t -> line_reads l (Bad t).
