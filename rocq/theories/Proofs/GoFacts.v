(* What the functions of the library, as parsed from their sources, compute. *)
From Coq Require Import List NArith ZArith Arith Bool Lia Strings.String Strings.Ascii Strings.Byte.
From Coq Require Import ZifyBool ZifyNat ZifyN.
From Verif Require Import Spec.Utf8 Model.Base Model.CharProps Model.Machine Model.Lookup Model.WordInt.
From Verif Require Import Model.GoSyntax Model.GoSemantics Model.GoLibrary Data.GoSources Data.TableRawGo Data.TableRaw.
Import ListNotations.
Local Open Scope string_scope.
Local Open Scope list_scope.

Definition scan_file := Eval vm_compute in parse grapheme_clusters_go.
Definition state_file := Eval vm_compute in parse state_go.
Definition lookup_file := Eval vm_compute in parse property_table_go.
Definition unicode17_file := Eval vm_compute in parse unicode17_go.
Definition properties_file := Eval vm_compute in parse properties_go.

Definition get (o : option file) : file := match o with Some f => f | None => File "" [] [] end.
(* property_table_raw.go, with any tables *)
Definition tables_file (idx props : list N) : file :=
  File "charprops" [] [DTable "lookupIndices" (TName "uint8") idx; DTable "lookupProps" (TName "CharProperties") props].
Definition library_with (idx props : list N) : program :=
  Eval cbv in
  [ ("textseg", "github.com/apparentlymart/go-textseg/v17/textseg", get scan_file);
    ("machine", "github.com/apparentlymart/go-textseg/v17/textseg/internal/machine", get state_file);
    ("charprops", "github.com/apparentlymart/go-textseg/v17/textseg/internal/charprops", get lookup_file);
    ("charprops", "github.com/apparentlymart/go-textseg/v17/textseg/internal/charprops", get properties_file);
    ("charprops", "github.com/apparentlymart/go-textseg/v17/textseg/internal/charprops", tables_file idx props);
    ("autoversion", "github.com/apparentlymart/go-textseg/autoversion/textseg", get unicode17_file) ].

Lemma raw_parses : parse (String.concat "" property_table_raw_go) =
  Some (tables_file (List.concat lookupIndices_blocks) (List.concat lookupProps_blocks)).
Proof. vm_cast_no_check (eq_refl (Some (tables_file (List.concat lookupIndices_blocks) (List.concat lookupProps_blocks)))). Qed.

Lemma library_parses : library = Some (library_with (List.concat lookupIndices_blocks) (List.concat lookupProps_blocks)).
Proof.
  unfold library, sources. cbn [parse_all]. rewrite raw_parses.
  assert (parse grapheme_clusters_go = scan_file) as -> by (vm_cast_no_check (eq_refl scan_file)).
  assert (parse state_go = state_file) as -> by (vm_cast_no_check (eq_refl state_file)).
  assert (parse property_table_go = lookup_file) as -> by (vm_cast_no_check (eq_refl lookup_file)).
  assert (parse properties_go = properties_file) as -> by (vm_cast_no_check (eq_refl properties_file)).
  assert (parse unicode17_go = unicode17_file) as -> by (vm_cast_no_check (eq_refl unicode17_file)).
  generalize (List.concat lookupIndices_blocks) (List.concat lookupProps_blocks). intros idx props. reflexivity.
Qed.

(* The declarations, with any arrays as tables. *)
Definition declared_with (ia pa : arr) : genv :=
  Eval cbv in
  let g := declarations 32 (library_with [] []) in
  Genv (g_types g)
    (map (fun v => if String.eqb (fst v) "charprops.lookupIndices" then (fst v, VTable "uint8" ia)
                   else if String.eqb (fst v) "charprops.lookupProps" then (fst v, VTable "charprops.CharProperties" pa)
                   else v) (g_values g))
    (g_funs g).

Lemma declarations_with w idx props : declarations w (library_with idx props) = declared_with (arr_of_list idx) (arr_of_list props).
Proof. lazy -[arr_of_list]. reflexivity. Qed.
