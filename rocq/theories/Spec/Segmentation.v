(* What it means to segment a text into extended grapheme clusters, and the
   character classes assigned by the Unicode 17 data files.
   Specification: nothing here comes from the code. *)
From Coq Require Import List NArith Bool Strings.Byte.
From Verif Require Import Spec.Classes Spec.UAX29 Spec.Utf8 Spec.UcdRanges.
Import ListNotations.

(* segs cuts the text exactly at the grapheme cluster boundaries; cl gives the
   class of each character. *)
Record clusters {A} (cl : A -> cls) (txt : list A) (segs : list (list A)) : Prop := {
  clusters_concat : concat segs = txt;
  clusters_nonempty : Forall (fun s => s <> []) segs;
  clusters_cuts : forall l r, txt = l ++ r -> txt <> [] ->
    ((exists s1 s2, segs = s1 ++ s2 /\ concat s1 = l) <-> boundary (map cl l) (map cl r))
}.

(* The value listed for code point c; the data files list each at most once
   (see Proofs), the first one counts. *)
Fixpoint listed {V} (c : N) (rs : list (N * N * V)) : option V :=
  match rs with
  | [] => None
  | (lo, hi, v) :: rs' => if ((lo <=? c) && (c <=? hi))%N then Some v else listed c rs'
  end.

(* Class of a code point according to the data files; the defaults are those
   of the files' @missing lines: Other, No, None. *)
Definition ucd_class (c : N) : cls :=
  Cls (match listed c gcb_ranges with Some g => g | None => Other end)
      (match listed c extpict_ranges with Some tt => true | None => false end)
      (match listed c incb_ranges with Some i => i | None => InCB_None end).

Definition bytes_eqb (a b : list byte) : bool :=
  if list_eq_dec Byte.byte_eq_dec a b then true else false.

(* Class of an item of arbitrary input: canonical sequences have the class of
   the scalar value they encode, other complete sequences no properties, and
   bad bytes behave like control characters. *)
Definition item_class (i : item) : cls :=
  match i with
  | Char bs v => if scalarb v && bytes_eqb bs (utf8_encode v) then ucd_class v else plain
  | Bad _ => control
  end.

(* The pieces have a cut after the initial part l of what they are pieces of. *)
Definition cut {A} (pieces : list (list A)) (l : list A) : Prop :=
  exists before after, pieces = before ++ after /\ concat before = l.

(* x is one of the pieces, and l is what precedes it. *)
Definition piece_at {A} (pieces : list (list A)) (l x : list A) : Prop :=
  exists before after, pieces = before ++ x :: after /\ concat before = l.

(* Characters around which there is always a boundary, except inside CR LF. *)
Definition controlling (i : item) : Prop :=
  gcb (item_class i) = CR \/ gcb (item_class i) = LF \/ gcb (item_class i) = Control.

(* The expected tokens of ASCII text: single bytes, except CR LF. *)
Fixpoint ascii_tokens (data : list byte) : list (list byte) :=
  match data with
  | [] => []
  | b :: rest =>
      match rest with
      | [] => [[b]]
      | c :: rest' =>
          if Byte.eqb b x0d && Byte.eqb c x0a then [b; c] :: ascii_tokens rest'
          else [b] :: ascii_tokens rest
      end
  end.
