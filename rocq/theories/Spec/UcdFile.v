(* The formats of the data files the generator and the tests read, independently
   of how they are parsed: lines, the "Unicode Character Database" line format
   (code point or range; fields # comment), and the line format of
   GraphemeBreakTest.txt.  Specification: nothing here comes from the code. *)
From Coq Require Import List NArith ZArith Strings.Byte.
From Verif Require Import Spec.Utf8.
Import ListNotations.

(* ---- lines *)

(* The lines of a file, without their line feeds; a last line may lack its own. *)
Inductive file_lines : list byte -> list (list byte) -> Prop :=
| lines_none : file_lines [] []
| lines_more l rest ls :
    ~ In x0a l -> file_lines rest ls -> file_lines (l ++ x0a :: rest) (l :: ls)
| lines_last l :
    ~ In x0a l -> l <> [] -> file_lines l [l].

(* A line of the file that does not fit 64 KiB together with its line feed, if
   it has one; rest: the lines after it. *)
Definition oversize (file long : list byte) (rest : list (list byte)) : Prop :=
  64 * 1024 < length long \/
  (length long = 64 * 1024 /\ (rest <> [] \/ exists before, file = before ++ [x0a])).

(* ---- blanks *)

(* The characters with the Unicode property White_Space. *)
Definition white_space (c : N) : Prop :=
  (0x9 <= c <= 0xD \/ c = 0x20 \/ c = 0x85 \/ c = 0xA0 \/ c = 0x1680 \/ 0x2000 <= c <= 0x200A \/
   c = 0x2028 \/ c = 0x2029 \/ c = 0x202F \/ c = 0x205F \/ c = 0x3000)%N.

Inductive blanks : list byte -> Prop :=
| blanks_none : blanks []
| blanks_more c w : white_space c -> blanks w -> blanks (utf8_encode c ++ w).

(* No white space at either end. *)
Definition trimmed (t : list byte) : Prop :=
  forall c u, white_space c -> t <> utf8_encode c ++ u /\ t <> u ++ utf8_encode c.

(* s is t with blanks around it. *)
Definition padded (s t : list byte) : Prop :=
  exists w1 w2, blanks w1 /\ blanks w2 /\ trimmed t /\ s = w1 ++ t ++ w2.

(* ---- numbers *)

(* c is a hexadecimal digit with value d *)
Definition digit_value (c : byte) (d : N) : Prop :=
  ((d < 10 /\ bval c = 0x30 + d) \/
   (10 <= d < 16 /\ (bval c = 0x41 + (d - 10) \/ bval c = 0x61 + (d - 10))))%N.

Inductive hex_value : list byte -> N -> Prop :=
| hex_one c d : digit_value c d -> hex_value [c] d
| hex_more s n c d : hex_value s n -> digit_value c d -> hex_value (s ++ [c]) (n * 16 + d).

(* Why a text is not a hexadecimal number below 2^32: read from the left, it meets
   a character that is no digit (or has no digits at all), or the number gets too
   big, whichever comes first. *)
Inductive cause := NotHex | TooBig.
Inductive not_number : list byte -> cause -> Prop :=
| no_digits : not_number [] NotHex
| first_no_digit c rest : (forall d, ~ digit_value c d) -> not_number (c :: rest) NotHex
| later_no_digit h n c rest :
    hex_value h n -> (n < 2 ^ 32)%N -> (forall d, ~ digit_value c d) -> not_number (h ++ c :: rest) NotHex
| too_big h n rest : hex_value h n -> (2 ^ 32 <= n)%N -> not_number (h ++ rest) TooBig.

(* ---- UCD lines *)

(* The part of a line before the comment. *)
Inductive content : list byte -> list byte -> Prop :=
| content_all l : ~ In x23 l -> content l l
| content_comment a c : ~ In x23 a -> content (a ++ x23 :: c) a.

(* A code point or a range, both ends included. *)
Inductive range_text : list byte -> N -> N -> Prop :=
| range_single h n : hex_value h n -> range_text h n n
| range_two h1 n1 h2 n2 :
    hex_value h1 n1 -> hex_value h2 n2 -> range_text (h1 ++ [x2e; x2e] ++ h2) n1 n2.

(* Fields separated by semicolons, with blanks around them. *)
Inductive fields_text : list byte -> list (list byte) -> Prop :=
| fields_one f t : ~ In x3b f -> padded f t -> fields_text f [t]
| fields_more f t fs ts :
    ~ In x3b f -> padded f t -> fields_text fs ts -> fields_text (f ++ x3b :: fs) (t :: ts).

(* A text up to its first two dots, and what follows them, if there are any. *)
Definition without (sep s : list byte) : Prop := forall a b, s <> a ++ sep ++ b.
Inductive at_dots : list byte -> list byte -> option (list byte) -> Prop :=
| no_dots r : without [x2e; x2e] r -> at_dots r r None
| first_dots a b : without [x2e; x2e] (a ++ [x2e]) -> at_dots (a ++ [x2e; x2e] ++ b) a (Some b).

(* What is wrong with a range: the start, or the end of one with a proper start. *)
Inductive fault :=
| BadStart (text : list byte) (c : cause)
| BadEnd (text : list byte) (c : cause).

Inductive meaning :=
| Ignored                                          (* no data on this line *)
| Data (first last : N) (fields : list (list byte))
| Malformed (f : fault).                           (* a data line without a proper range *)

Inductive line_means : list byte -> meaning -> Prop :=
| means_ignored l a : content l a -> ~ In x3b a -> line_means l Ignored
| means_data l rng r fs first last fields :
    content l (rng ++ x3b :: fs) -> ~ In x3b rng ->
    padded rng r -> range_text r first last -> (first < 2 ^ 32)%N -> (last < 2 ^ 32)%N ->
    fields_text fs fields ->
    line_means l (Data first last fields)
| means_bad_start l rng r fs start rest c :
    content l (rng ++ x3b :: fs) -> ~ In x3b rng -> padded rng r -> at_dots r start rest ->
    not_number start c ->
    line_means l (Malformed (BadStart start c))
| means_bad_end l rng r fs start end_ n c :
    content l (rng ++ x3b :: fs) -> ~ In x3b rng -> padded rng r -> at_dots r start (Some end_) ->
    hex_value start n -> (n < 2 ^ 32)%N -> not_number end_ c ->
    line_means l (Malformed (BadEnd end_ c)).

(* ---- lines of GraphemeBreakTest.txt: U+00F7 between clusters, U+00D7 between
   the characters of one *)

Definition division_sign : list byte := utf8_encode 0xF7.
Definition multiplication_sign : list byte := utf8_encode 0xD7.

(* a code point in hexadecimal with blanks around it *)
Definition char_text (s : list byte) (c : N) : Prop :=
  exists h, padded s h /\ hex_value h c.

Inductive cluster_text : list byte -> list N -> Prop :=
| cluster_one s c : char_text s c -> cluster_text s [c]
| cluster_more s c rest cs :
    char_text s c -> cluster_text rest cs ->
    cluster_text (s ++ multiplication_sign ++ rest) (c :: cs).

(* clusters, each preceded by a division sign, and one more at the end *)
Inductive test_text : list byte -> list (list N) -> Prop :=
| test_end w : blanks w -> test_text (division_sign ++ w) []
| test_cluster s cs rest clusters :
    cluster_text s cs -> test_text rest clusters ->
    test_text (division_sign ++ s ++ rest) (cs :: clusters).

(* A line: blanks, clusters, and possibly a comment. *)
Definition test_line (l : list byte) (clusters : list (list N)) : Prop :=
  exists w text, blanks w /\ test_text text clusters /\ content l (w ++ text).

(* The texts between the signs of a line (before the comment): y stands
   between two signs, or a sign and the end of the line. *)
Definition sign (m : list byte) : Prop := m = division_sign \/ m = multiplication_sign.
Definition no_sign (y : list byte) : Prop := forall m a b, sign m -> y <> a ++ m ++ b.
Definition between_signs (a y : list byte) : Prop :=
  exists x z, a = x ++ y ++ z /\ no_sign y /\
    (x = [] \/ exists x' m, sign m /\ x = x' ++ m) /\
    (z = [] \/ exists m z', sign m /\ z = m ++ z').

(* Numbers in range for a signed 32-bit integer; a sign is tolerated. *)
Inductive int_text : list byte -> Z -> Prop :=
| int_plain h n : hex_value h n -> (n < 2 ^ 31)%N -> int_text h (Z.of_N n)
| int_plus h n : hex_value h n -> (n < 2 ^ 31)%N -> int_text (x2b :: h) (Z.of_N n)
| int_minus h n : hex_value h n -> (n <= 2 ^ 31)%N -> int_text (x2d :: h) (- Z.of_N n).
