(* The library with the text of its tables replaced: what "go generate" leaves behind. *)
From Coq Require Import List NArith ZArith Strings.String Strings.Byte.
From Verif Require Import Model.Base Model.GoSyntax Model.GoSemantics Model.GoLibrary Data.GoSources.
Import ListNotations.
Local Open Scope string_scope.

(* generate.go 66-78: property_table_raw.go is overwritten with the text; the other
   sources stay (Model/GoLibrary.v [sources]).  Simplified: format.Source, which only
   moves white space, is left out, so the file is the text of Model/Emit.v as printed. *)
Definition sources_with (raw : string) : list (string * string * string) :=
  [ ("textseg", module_path ++ "/textseg", grapheme_clusters_go);
    ("machine", module_path ++ "/textseg/internal/machine", state_go);
    ("charprops", module_path ++ "/textseg/internal/charprops", property_table_go);
    ("charprops", module_path ++ "/textseg/internal/charprops", properties_go);
    ("charprops", module_path ++ "/textseg/internal/charprops", raw);
    ("autoversion", "github.com/apparentlymart/go-textseg/autoversion/textseg", unicode17_go) ].

(* generate.go 66-78; compare Model/GoLibrary.v [library] *)
Definition library_of (raw : string) : option program := parse_all (sources_with raw).

(* generate.go 66-78; what the function f of the library p, executed from its source,
   returns for the arguments vs (compare Model/GoLibrary.v [go_call]).  Simplified: that
   the constants fit the element types is not checked; both arrays are of bytes
   (property_table_raw.go 5, 232). *)
Definition go_call_in (w : Z) (fuel depth : nat) (p : option program) (f : string) (vs : list value) : Base.res (list value) :=
  match p with
  | Some p => call w fuel (declarations w p) depth f vs
  | None => no_answer
  end.

(* generate.go 66-78: the library whose tables are this text *)
Definition go_call_with (w : Z) (fuel depth : nat) (text : list byte) (f : string) (vs : list value) : Base.res (list value) :=
  go_call_in w fuel depth (library_of (string_of_list_byte text)) f vs.
