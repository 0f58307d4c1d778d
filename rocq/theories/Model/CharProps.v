(* Model of textseg/internal/charprops/properties.go (values; the String and
   Lookup...Property functions are in Model/PropNames.v). *)
From Coq Require Import NArith Bool.
Local Open Scope N_scope.

(* properties.go 10, 58, 198: CharProperties, GCBProperty, InCBProperty are
   uint8.  The model uses N; every value the model builds stays below 256. *)
Definition CharProperties := N.
Definition GCBProperty_t := N. (* properties.go 58 *)
Definition InCBProperty_t := N. (* properties.go 198 *)

(* properties.go 60-81 *)
Definition GCBNone := 0x00.
Definition GCBCR := 0x01. (* properties.go 62 *)
Definition GCBControl := 0x02. (* properties.go 63 *)
Definition GCBExtend := 0x03. (* properties.go 64 *)
Definition GCBExtendedPictographic := 0x04. (* properties.go 65 *)
Definition GCBL := 0x05. (* properties.go 66 *)
Definition GCBLF := 0x06. (* properties.go 67 *)
Definition GCBLV := 0x07. (* properties.go 68 *)
Definition GCBLVT := 0x08. (* properties.go 69 *)
Definition GCBPrepend := 0x09. (* properties.go 70 *)
Definition GCBRegionalIndicator := 0x0a. (* properties.go 71 *)
Definition GCBSpacingMark := 0x0b. (* properties.go 72 *)
Definition GCBT := 0x0c. (* properties.go 73 *)
Definition GCBV := 0x0d. (* properties.go 74 *)
Definition GCBZWJ := 0x0e. (* properties.go 75 *)
Definition GCBError := 0x0f. (* properties.go 80 *)

(* properties.go 200-210 *)
Definition InCBNone := 0x00.
Definition InCBConsonant := 0x10. (* properties.go 202 *)
Definition InCBExtend := 0x20. (* properties.go 203 *)
Definition InCBLinker := 0x30. (* properties.go 204 *)
Definition InCBError := 0xf0. (* properties.go 209 *)

(* properties.go 12: const Error *)
Definition Error : CharProperties := N.lor GCBError InCBError.

(* properties.go 14-16 *)
Definition MakeCharProperties (gcpProp emojiProp : GCBProperty_t) (inCBProp : InCBProperty_t)
  : CharProperties := N.lor (N.lor gcpProp emojiProp) inCBProp.

(* properties.go 18-20 *)
Definition GCBProperty (cp : CharProperties) : GCBProperty_t := N.land cp 0x0f.

(* properties.go 22-24 *)
Definition InCBProperty (cp : CharProperties) : InCBProperty_t := N.land cp 0xf0.

(* properties.go 137-144 *)
Definition IsAnyControl (p : GCBProperty_t) : bool :=
  (p =? GCBLF) || (p =? GCBCR) || (p =? GCBControl).
