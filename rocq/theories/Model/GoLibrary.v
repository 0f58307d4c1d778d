(* The library as a program in the sense of Model/GoSemantics.v: its source files,
   as they are in /repo. *)
From Coq Require Import List NArith ZArith Strings.String.
From Verif Require Import Model.Base Model.GoSyntax Model.GoSemantics Data.GoSources Data.TableRawGo.
Import ListNotations.
Local Open Scope string_scope.

(* go.mod 1 *)
Definition module_path : string := "github.com/apparentlymart/go-textseg/v17".

(* Package identifier, import path, source: textseg/grapheme_clusters.go,
   internal/machine/state.go, and the files of internal/charprops that are
   compiled (generate.go is not: its first line excludes it); and the file of the
   module autoversion that goes with it (go1.27; Model/AutoVersion.v). *)
Definition sources : list (string * string * string) :=
  [ ("textseg", module_path ++ "/textseg", grapheme_clusters_go);
    ("machine", module_path ++ "/textseg/internal/machine", state_go);
    ("charprops", module_path ++ "/textseg/internal/charprops", property_table_go);
    ("charprops", module_path ++ "/textseg/internal/charprops", properties_go);
    ("charprops", module_path ++ "/textseg/internal/charprops", String.concat "" property_table_raw_go);
    ("autoversion", "github.com/apparentlymart/go-textseg/autoversion/textseg", unicode17_go) ].

Fixpoint parse_all (l : list (string * string * string)) : option program :=
  match l with
  | nil => Some nil
  | cons (id, path, s) l =>
      match parse s, parse_all l with
      | Some f, Some p => Some (cons (id, path, f) p)
      | _, _ => None
      end
  end.
Definition library : option program := parse_all sources.

(* What the function f of the library, executed from its source, returns for the
   arguments vs: with ints of w bits, and enough fuel (iterations of a loop) and
   depth (of calls). *)
Definition go_call (w : Z) (fuel depth : nat) (f : string) (vs : list value) : Base.res (list value) :=
  match library with
  | Some p => call w fuel (declarations w p) depth f vs
  | None => no_answer
  end.
