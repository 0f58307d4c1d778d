(* UTF-8, as specified by RFC 3629 / Unicode chapter 3, plus the purely
   structural notion of a "complete sequence" that the documentation of
   LookupFirstChar uses.  Specification: nothing here comes from the code. *)
From Coq Require Import List NArith Bool Strings.Byte.
Import ListNotations.
Local Open Scope N_scope.

(* The numeric value of a byte. *)
Definition bval (b : byte) : N := Byte.to_N b.

(* The byte with a given value (values above 255 are never used). *)
Definition mkbyte (n : N) : byte :=
  match Byte.of_N n with Some b => b | None => x00 end.

(* Unicode scalar values: all code points except surrogates. *)
Definition scalar (c : N) : Prop := c < 0xD800 \/ 0xE000 <= c < 0x110000.
Definition scalarb (c : N) : bool := (c <? 0xD800) || ((0xE000 <=? c) && (c <? 0x110000)).

(* The UTF-8 encoding of a scalar value. *)
Definition utf8_encode (c : N) : list byte :=
  if c <? 0x80 then [mkbyte c]
  else if c <? 0x800 then [mkbyte (0xC0 + c / 64); mkbyte (0x80 + c mod 64)]
  else if c <? 0x10000 then
    [mkbyte (0xE0 + c / 4096); mkbyte (0x80 + (c / 64) mod 64); mkbyte (0x80 + c mod 64)]
  else
    [mkbyte (0xF0 + c / 262144); mkbyte (0x80 + (c / 4096) mod 64);
     mkbyte (0x80 + (c / 64) mod 64); mkbyte (0x80 + c mod 64)].

(* The UTF-8 encoding of a text. *)
Definition utf8_text (cs : list N) : list byte := flat_map utf8_encode cs.

(* Continuation bytes 10xxxxxx. *)
Definition is_cont (b : byte) : Prop := 0x80 <= bval b < 0xC0.

(* [utf8_seq bs v]: bs is structurally one complete UTF-8 sequence whose
   payload bits give v.  This includes overlong forms, surrogates and values
   above U+10FFFF (up to 0x1FFFFF). *)
Inductive utf8_seq : list byte -> N -> Prop :=
| seq1 a : bval a < 0x80 -> utf8_seq [a] (bval a)
| seq2 a b : 0xC0 <= bval a < 0xE0 -> is_cont b ->
    utf8_seq [a; b] ((bval a - 0xC0) * 64 + (bval b - 0x80))
| seq3 a b c : 0xE0 <= bval a < 0xF0 -> is_cont b -> is_cont c ->
    utf8_seq [a; b; c]
      ((bval a - 0xE0) * 4096 + (bval b - 0x80) * 64 + (bval c - 0x80))
| seq4 a b c d : 0xF0 <= bval a < 0xF8 -> is_cont b -> is_cont c -> is_cont d ->
    utf8_seq [a; b; c; d]
      ((bval a - 0xF0) * 262144 + (bval b - 0x80) * 4096
       + (bval c - 0x80) * 64 + (bval d - 0x80)).

(* A complete sequence is canonical if it is the UTF-8 encoding of a scalar
   value, i.e. neither overlong nor a surrogate nor out of range. *)
Definition canonical (bs : list byte) (v : N) : Prop := scalar v /\ bs = utf8_encode v.

(* Reading arbitrary bytes: complete sequences are characters, every byte at
   which no complete sequence starts is a bad byte. *)
Inductive item :=
| Char (bs : list byte) (v : N)
| Bad (b : byte).

Definition item_bytes (i : item) : list byte :=
  match i with Char bs _ => bs | Bad b => [b] end.

Definition items_bytes (its : list item) : list byte := flat_map item_bytes its.

(* A complete sequence starts the given bytes. *)
Definition starts_seq (data : list byte) : Prop :=
  exists bs v rest, utf8_seq bs v /\ data = bs ++ rest.

Inductive reads : list byte -> list item -> Prop :=
| reads_nil : reads [] []
| reads_char bs v rest its :
    utf8_seq bs v -> reads rest its -> reads (bs ++ rest) (Char bs v :: its)
| reads_bad b rest its :
    ~ starts_seq (b :: rest) -> reads rest its -> reads (b :: rest) (Bad b :: its).

(* The length of sequence that a byte announces as a first byte: 0 if it
   cannot be a first byte. *)
Definition lead_len (b : byte) : nat :=
  if bval b <? 0x80 then 1
  else if bval b <? 0xC0 then 0
  else if bval b <? 0xE0 then 2
  else if bval b <? 0xF0 then 3
  else if bval b <? 0xF8 then 4
  else 0.
