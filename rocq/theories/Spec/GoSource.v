(* As much of the Go programming language as a file needs that declares arrays
   of integers: how source text is cut into tokens (The Go Programming Language
   Specification, "Lexical elements") and what an array declaration looks like.
   Specification: nothing here comes from the code.

   Simplified: only line comments, no string or rune literals, every operator
   character is a token of its own, and only ASCII letters in words. *)
From Coq Require Import List NArith Bool Strings.Byte Strings.String.
From Verif Require Import Spec.Utf8 Spec.UcdFile.
Import ListNotations.

Inductive token :=
| Word (w : list byte)      (* identifier, keyword or number *)
| Punct (b : byte)
| Semi.                     (* inserted at the end of a line *)

Definition word_byte (b : byte) : bool :=
  let n := bval b in
  ((0x30 <=? n) && (n <=? 0x39) || (0x41 <=? n) && (n <=? 0x5A) || (0x61 <=? n) && (n <=? 0x7A) || (n =? 0x5F))%N.

(* "When the input is broken into tokens, a semicolon is automatically inserted
   [...] after a line's final token if that token is an identifier, [...] a
   literal, [...] or one of [...] ), ] or }".  (No keyword ends a line here.) *)
Definition closing (b : byte) : bool := match b with x29 | x5d | x7d => true | _ => false end.

(* [word]: the word read so far, in reverse; [ends]: whether a line may end
   after the last token; [comment]: inside a line comment. *)
Fixpoint lex_from (word : list byte) (ends comment : bool) (s : list byte) : list token :=
  let flush := match word with [] => [] | _ => [Word (rev word)] end in
  let ends' := match word with [] => ends | _ => true end in
  match s with
  | [] => flush
  | b :: s' =>
      if Byte.eqb b x0a then flush ++ (if ends' then [Semi] else []) ++ lex_from [] false false s'
      else if comment then lex_from word ends true s'
      else if word_byte b then lex_from (b :: word) ends false s'
      else if Byte.eqb b x20 || Byte.eqb b x09 then flush ++ lex_from [] ends' false s'
      else if Byte.eqb b x2f && match s' with x2f :: _ => true | _ => false end
           then flush ++ lex_from [] ends' true s'
      else flush ++ Punct b :: lex_from [] (closing b) false s'
  end.
Definition lex (s : list byte) : list token := lex_from [] false false s.

Definition word (s : string) : token := Word (list_byte_of_string s).

(* package name *)
Definition package_clause (name : string) : list token := [word "package"; word name; Semi].

(* var name = [...]type{e1, e2, ..., en,} *)
Definition array_declaration (name type : string) (elements : list (list byte)) : list token :=
  [word "var"; word name; Punct x3d; Punct x5b; Punct x2e; Punct x2e; Punct x2e; Punct x5d; word type; Punct x7b]
  ++ flat_map (fun e => [Word e; Punct x2c]) elements
  ++ [Punct x7d; Semi].

(* A hexadecimal integer literal and its value. *)
Definition literal (w : list byte) (v : N) : Prop :=
  exists h, w = [x30; x78] ++ h /\ hex_value h v.

(* The text declares the two arrays with these values, and nothing else. *)
Definition declares_tables (text : list byte) (indices props : list N) : Prop :=
  exists ws1 ws2,
    lex text = package_clause "charprops" ++ array_declaration "lookupIndices" "uint8" ws1
               ++ array_declaration "lookupProps" "CharProperties" ws2 /\
    Forall2 literal ws1 indices /\ Forall2 literal ws2 props.

(* All but spaces, tabs and line feeds: what gofmt leaves as it is. *)
Definition without_white_space (text : list byte) : list byte :=
  filter (fun b => negb (Byte.eqb b x20 || Byte.eqb b x09 || Byte.eqb b x0a)) text.
