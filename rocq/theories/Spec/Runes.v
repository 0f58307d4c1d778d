(* Converting bytes to characters and back, as Go's conversions between strings
   and runes do: what is not the UTF-8 encoding of a character is replaced byte
   by byte by U+FFFD.  Specification: nothing here comes from the code. *)
From Coq Require Import List NArith Strings.Byte.
From Verif Require Import Spec.Utf8.
Import ListNotations.

(* The parts of the data, each with the character it is converted to. *)
Inductive converts : list byte -> list (list byte * N) -> Prop :=
| converts_nil : converts [] []
| converts_char c rest parts :
    scalar c -> converts rest parts -> converts (utf8_encode c ++ rest) ((utf8_encode c, c) :: parts)
| converts_invalid b rest parts :
    (forall c rest', scalar c -> b :: rest <> utf8_encode c ++ rest') ->
    converts rest parts -> converts (b :: rest) (([b], 0xFFFD%N) :: parts).

(* The data up to and including these parts, and what it is converted to. *)
Definition original (parts : list (list byte * N)) : list byte := concat (map fst parts).
Definition converted (parts : list (list byte * N)) : list byte := utf8_text (map snd parts).

(* A part that the conversion keeps. *)
Definition kept_part (part : list byte * N) : Prop := scalar (snd part) /\ fst part = utf8_encode (snd part).

(* Tokens with a separator between them. *)
Fixpoint separated (separator : list byte) (toks : list (list byte)) : list (list byte) :=
  match toks with
  | [] => []
  | t :: rest => match rest with [] => [t] | _ => t :: separator :: separated separator rest end
  end.
