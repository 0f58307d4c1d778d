(* What the generator is to do with the lines of the three data files: which
   values it assigns to which code points, in which order.  Specification:
   nothing here comes from the code except the numbers of the property values
   (properties.go 60-81, 200-210), which the tables are to contain. *)
From Coq Require Import List NArith ZArith Strings.Byte Strings.String.
From Verif Require Import Spec.Classes Spec.Utf8 Spec.PropNames Spec.Assignments Spec.UcdFile.
Import ListNotations.

(* Is the text this name? *)
Definition is_name (text : list byte) (name : string) : bool :=
  if list_eq_dec Byte.byte_eq_dec text (list_byte_of_string name) then true else false.

(* The number of a Grapheme_Cluster_Break value, and of the value with a given
   name; unknown names count as no value. *)
Definition gcb_number (g : GCB) : N :=
  match g with
  | Other => 0 | CR => 1 | Control => 2 | Extend => 3 | L => 5 | LF => 6 | LV => 7 | LVT => 8
  | Prepend => 9 | Regional_Indicator => 10 | SpacingMark => 11 | T => 12 | V => 13 | ZWJ => 14
  end%N.
Definition all_gcb : list GCB :=
  [CR; Control; Extend; L; LF; LV; LVT; Prepend; Regional_Indicator; SpacingMark; T; V; ZWJ].
Definition gcb_named (text : list byte) : N :=
  match find (fun g => is_name text (gcb_name g)) all_gcb with Some g => gcb_number g | None => 0%N end.

(* The number of Extended_Pictographic. *)
Definition pictographic_number : N := 4%N.

(* The same for Indic_Conjunct_Break. *)
Definition incb_number (i : InCB) : N :=
  match i with InCB_None => 0 | InCB_Consonant => 16 | InCB_Extend => 32 | InCB_Linker => 48 end%N.
Definition all_incb : list InCB := [InCB_Consonant; InCB_Extend; InCB_Linker].
Definition incb_named (text : list byte) : N :=
  match find (fun i => is_name text (incb_name i)) all_incb with Some i => incb_number i | None => 0%N end.

(* The code points first, ..., last. *)
Definition code_points (first last : N) : list Z :=
  map (fun i => (Z.of_N first + Z.of_nat i)%Z) (seq 0 (N.to_nat (last + 1 - first))).

(* GraphemeBreakProperty.txt: the first field is the value. *)
Definition gcb_assignments (m : meaning) : list op :=
  match m with
  | Data first last fields =>
      map (fun r => OpSet r (gcb_named (hd [] fields))) (code_points first last)
  | _ => []
  end.

(* emoji-data.txt: only the property Extended_Pictographic matters. *)
Definition emoji_assignments (m : meaning) : list op :=
  match m with
  | Data first last fields =>
      if is_name (hd [] fields) "Extended_Pictographic"
      then map (fun r => OpSet r pictographic_number) (code_points first last)
      else []
  | _ => []
  end.

(* DerivedCoreProperties.txt: only lines "InCB; value" matter. *)
Definition incb_assignments (m : meaning) : list op :=
  match m with
  | Data first last (name :: value :: _) =>
      if is_name name "InCB"
      then map (fun r => OpOr r (incb_named value)) (code_points first last)
      else []
  | _ => []
  end.

Definition assignments (gbp emoji dcp : list meaning) : list op :=
  flat_map gcb_assignments gbp ++ flat_map emoji_assignments emoji ++ flat_map incb_assignments dcp.

(* A line the generator can use: ignored, or data about code points. *)
Definition proper (m : meaning) : Prop :=
  match m with
  | Ignored => True
  | Data first last _ => (first <= 0x10FFFF /\ last <= 0x10FFFF)%N
  | Malformed _ => False
  end.
