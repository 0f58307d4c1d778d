(* Names of the property values in the Unicode Character Database
   (PropertyValueAliases.txt, long names as used in the data files).
   Specification: nothing here comes from the code. *)
From Coq Require Import List Arith Strings.String Strings.Byte.
From Verif Require Import Spec.Classes.
Import ListNotations.
Local Open Scope string_scope.

Definition gcb_name (g : GCB) : string :=
  match g with
  | Other => "Other" | CR => "CR" | LF => "LF" | Control => "Control" | Extend => "Extend"
  | ZWJ => "ZWJ" | Regional_Indicator => "Regional_Indicator" | Prepend => "Prepend"
  | SpacingMark => "SpacingMark" | L => "L" | V => "V" | T => "T" | LV => "LV" | LVT => "LVT"
  end.

Definition incb_name (i : InCB) : string :=
  match i with
  | InCB_None => "None" | InCB_Consonant => "Consonant" | InCB_Extend => "Extend"
  | InCB_Linker => "Linker"
  end.

(* An 8-bit value in hexadecimal, as in 0x1c. *)
Definition hex_byte (n : nat) : string :=
  "0x" ++ substring (n / 16) 1 "0123456789abcdef" ++ substring (n mod 16) 1 "0123456789abcdef".
