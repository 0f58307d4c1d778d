(* Model of the name functions of textseg/internal/charprops/properties.go.
   A Go string is its list of bytes. *)
From Coq Require Import List NArith Bool Strings.Byte Strings.String.
From Verif Require Import Spec.Utf8 Model.Base Model.CharProps.
Import ListNotations.
Local Open Scope N_scope.

(* string, properties.go 26, 85, 128, 146, 214, 227 *)
Definition gostring := list byte.

(* a string literal, properties.go 87-114, 130, 216-220 *)
Definition str (s : string) : gostring := list_byte_of_string s.

(* == on strings, as in the switches of properties.go 86, 129, 215 *)
Fixpoint str_eqb (a b : gostring) : bool :=
  match a, b with
  | [], [] => true
  | x :: a', y :: b' => if Byte.eqb x y then str_eqb a' b' else false
  | _, _ => false
  end.

(* switch name { case c1: return v1 ... default: return d } *)
Fixpoint switch {A B} (eqb : A -> A -> bool) (x : A) (cases : list (A * B)) (default : B) : B :=
  match cases with
  | [] => default
  | (c, v) :: rest => if eqb x c then v else switch eqb x rest default
  end.

(* properties.go 85-116: LookupGCBProperty *)
Definition LookupGCBProperty (name : gostring) : GCBProperty_t :=
  switch str_eqb name
    [ (str "CR", GCBCR); (str "Control", GCBControl); (str "Extend", GCBExtend);
      (str "L", GCBL); (str "LF", GCBLF); (str "LV", GCBLV); (str "LVT", GCBLVT);
      (str "Prepend", GCBPrepend); (str "Regional_Indicator", GCBRegionalIndicator);
      (str "SpacingMark", GCBSpacingMark); (str "T", GCBT); (str "V", GCBV);
      (str "ZWJ", GCBZWJ) ]
    GCBNone.

(* properties.go 128-135: LookupEmojiProperty *)
Definition LookupEmojiProperty (name : gostring) : GCBProperty_t :=
  switch str_eqb name
    [ (str "Extended_Pictographic", GCBExtendedPictographic) ] GCBNone.

(* properties.go 214-225: LookupInCBProperty *)
Definition LookupInCBProperty (name : gostring) : InCBProperty_t :=
  switch str_eqb name
    [ (str "Consonant", InCBConsonant); (str "Extend", InCBExtend); (str "Linker", InCBLinker) ]
    InCBNone.

(* fmt.Sprintf("0x%02x", uint8(p)): two lower-case hexadecimal digits *)
Definition hex_digit (n : N) : byte :=
  mkbyte (if n <? 10 then 0x30 + n else 0x61 + (n - 10)).
(* properties.go 181, 236: fmt.Sprintf("0x%02x", uint8(p)) *)
Definition sprintf_0x02x (p : N) : gostring :=
  str "0x" ++ [hex_digit (p / 16); hex_digit (p mod 16)].

(* properties.go 146-183: GCBProperty.String *)
Definition GCBProperty_String (p : GCBProperty_t) : gostring :=
  switch N.eqb p
    [ (GCBCR, str "CR"); (GCBControl, str "Control"); (GCBExtend, str "Extend");
      (GCBL, str "L"); (GCBLF, str "LF"); (GCBLV, str "LV"); (GCBLVT, str "LVT");
      (GCBPrepend, str "Prepend"); (GCBRegionalIndicator, str "Regional_Indicator");
      (GCBSpacingMark, str "SpacingMark"); (GCBT, str "T"); (GCBV, str "V");
      (GCBZWJ, str "ZWJ"); (GCBExtendedPictographic, str "Extended_Pictographic");
      (GCBNone, str "None"); (GCBError, str "Error") ]
    (sprintf_0x02x p).

(* properties.go 227-238: InCBProperty.String *)
Definition InCBProperty_String (p : InCBProperty_t) : gostring :=
  switch N.eqb p
    [ (InCBConsonant, str "Consonant"); (InCBExtend, str "Extend"); (InCBLinker, str "Linker") ]
    (sprintf_0x02x p).

(* properties.go 26-43: CharProperties.String *)
Definition CharProperties_String (cp : CharProperties) : gostring :=
  if cp =? 0 then str "None"
  else if cp =? Error then str "Error"
  else
    let gcbP := GCBProperty cp in
    let inCBP := InCBProperty cp in
    if inCBP =? InCBNone then GCBProperty_String gcbP
    else if gcbP =? GCBNone then str "InCB=" ++ InCBProperty_String inCBP
    else (* fmt.Sprintf("%s|InCB=%s", gcbP, inCBP) *)
      GCBProperty_String gcbP ++ str "|InCB=" ++ InCBProperty_String inCBP.
