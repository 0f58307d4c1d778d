(* C73: the model is what the source text says.  The Go files of the library are parsed
   and executed inside Coq (Model/GoSyntax.v, Model/GoSemantics.v, Model/GoLibrary.v),
   and for all arguments every function returns what its model returns. *)
From Coq Require Import List NArith ZArith Arith Bool Lia Strings.String Strings.Byte.
From Verif Require Import Spec.Utf8 Model.Base Model.CharProps Model.PropNames Model.Machine Model.Lookup Model.Scan Model.WordInt.
From Verif Require Import Model.GoSyntax Model.GoSemantics Model.GoLibrary Data.TableRaw.
From Verif Require Import Proofs.GoFacts Proofs.GoSymbolic Proofs.GoMachine Proofs.GoLookup Proofs.GoScan Proofs.GoNames.
From Verif Require Import Properties.Splitting Properties.WordInt.
Import ListNotations.
Local Open Scope string_scope.
Local Open Scope list_scope.

(* Values of the model as values of Go. *)
Definition go_properties (n : CharProperties) : value := VByte "charprops.CharProperties" n.
Definition go_gcb (n : GCBProperty_t) : value := VByte "charprops.GCBProperty" n.
Definition go_incb (n : InCBProperty_t) : value := VByte "charprops.InCBProperty" n.
Definition go_state (s : State) : value := VInt "machine.State" (Z.of_N s).
Definition go_int (n : nat) : value := VInt "int" (Z.of_nat n).
Definition go_string (s : gostring) : value := VStr (string_of_list_byte s).
Definition go_token (t : option (list byte)) : value := match t with Some t => VBytes t | None => VNil end.

Lemma go_call_eq w fuel depth f vs :
  go_call w fuel depth f vs = call w fuel (declared_with (t_indices committed) (t_props committed)) depth f vs.
Proof.
  unfold go_call. rewrite library_parses. rewrite declarations_with. reflexivity.
Qed.

(* The files are in the subset. *)
Theorem C73_parses : exists p, library = Some p /\ List.length p = 6.
Proof. eexists. split; [apply library_parses|reflexivity]. Qed.

Theorem C73_scan : forall w fuel depth data atEOF,
  (16 <= w)%Z -> (Z.of_nat (List.length data) < 2 ^ (w - 1))%Z -> List.length data + 4 <= fuel -> 4 <= depth ->
  exists n token, ScanGraphemeClusters data atEOF = Ret (n, token, None) /\
    go_call w fuel depth "textseg.ScanGraphemeClusters" [VBytes data; VBool atEOF] = Ret [go_int n; go_token token; VNil].
Proof.
  intros w fuel depth data atEOF Hw Hl Hf Hd. destruct (C01_total data atEOF) as (n & token & E). exists n, token. split; [exact E|].
  rewrite go_call_eq. destruct depth as [|[|[|[|d]]]]; try lia.
  assert (int_ScanGraphemeClusters w data atEOF = Ret (Z.of_nat n, token, None)) as R by (rewrite C71_scan, E by lia; reflexivity).
  rewrite call_ScanGraphemeClusters; [rewrite R; destruct token; reflexivity| |lia|exact Hf|eexists; exact R].
  intros p. reflexivity.
Qed.

Theorem C73_autoversion : forall w fuel depth data atEOF,
  (16 <= w)%Z -> (Z.of_nat (List.length data) < 2 ^ (w - 1))%Z -> List.length data + 4 <= fuel -> 5 <= depth ->
  exists n token, ScanGraphemeClusters data atEOF = Ret (n, token, None) /\
    go_call w fuel depth "autoversion.ScanGraphemeClusters" [VBytes data; VBool atEOF] = Ret [go_int n; go_token token; VNil].
Proof.
  intros w fuel depth data atEOF Hw Hl Hf Hd. destruct depth as [|depth]; [lia|].
  destruct (C73_scan w fuel depth data atEOF Hw Hl Hf ltac:(lia)) as (n & token & E & R). exists n, token. split; [exact E|].
  rewrite go_call_eq in *. apply call_autoversion; [|exact R].
  destruct token as [t|]; [right; exists t; reflexivity|left; reflexivity].
Qed.

Theorem C73_lookup : forall w fuel depth p, (16 <= w)%Z -> 4 <= fuel -> 1 <= depth ->
  go_call w fuel depth "charprops.LookupFirstChar" [VBytes p] =
  let! (props, n) := LookupFirstChar p in Ret [go_properties props; go_int n].
Proof.
  intros w fuel depth p Hw Hf Hd. destruct depth as [|d]; [lia|]. rewrite go_call_eq, call_LookupFirstChar by lia.
  pose proof (lookup_int w p ltac:(lia)) as E. unfold int_LookupFirstChar in E.
  change (Tables (t_indices committed) (t_props committed)) with committed. rewrite E.
  destruct (LookupFirstChar p) as [[props n]|x]; reflexivity.
Qed.

Theorem C73_begin : forall w fuel depth first, 3 <= depth ->
  go_call w fuel depth "machine.Begin" [go_properties first] = let! s := Begin first in Ret [go_state s].
Proof.
  intros w fuel depth first Hd. destruct depth as [|[|[|d]]]; try lia. rewrite go_call_eq. exact (call_Begin _ _ _ _ _ _).
Qed.

Theorem C73_transition : forall w fuel depth s prev next, 3 <= depth ->
  go_call w fuel depth "machine.State.Transition" [go_state s; go_properties prev; go_properties next] =
  let! (split, s') := Transition s prev next in Ret [VBool split; go_state s'].
Proof.
  intros w fuel depth s prev next Hd. destruct depth as [|[|[|d]]]; try lia. rewrite go_call_eq. exact (call_Transition _ _ _ _ _ _ _ _).
Qed.

Theorem C73_properties : forall w fuel depth, 1 <= depth ->
  (forall cp, go_call w fuel depth "charprops.CharProperties.GCBProperty" [go_properties cp] = Ret [go_gcb (GCBProperty cp)]) /\
  (forall cp, go_call w fuel depth "charprops.CharProperties.InCBProperty" [go_properties cp] = Ret [go_incb (InCBProperty cp)]) /\
  (forall p, go_call w fuel depth "charprops.GCBProperty.IsAnyControl" [go_gcb p] = Ret [VBool (IsAnyControl p)]) /\
  (forall a b c, go_call w fuel depth "charprops.MakeCharProperties" [go_gcb a; go_gcb b; go_incb c] =
     Ret [go_properties (MakeCharProperties a b c)]).
Proof.
  intros w fuel depth Hd. destruct depth as [|d]; [lia|]. split; [|split; [|split]]; intros; rewrite go_call_eq.
  - exact (call_GCBProperty _ _ _ _ _ _).
  - exact (call_InCBProperty _ _ _ _ _ _).
  - exact (call_IsAnyControl _ _ _ _ _ _).
  - exact (call_MakeCharProperties _ _ _ _ _ _ _ _).
Qed.

Theorem C73_names : forall w fuel depth name, 1 <= depth ->
  go_call w fuel depth "charprops.LookupGCBProperty" [go_string name] = Ret [go_gcb (LookupGCBProperty name)] /\
  go_call w fuel depth "charprops.LookupEmojiProperty" [go_string name] = Ret [go_gcb (LookupEmojiProperty name)] /\
  go_call w fuel depth "charprops.LookupInCBProperty" [go_string name] = Ret [go_incb (LookupInCBProperty name)].
Proof.
  intros w fuel depth name Hd. destruct depth as [|d]; [lia|]. split; [|split]; rewrite go_call_eq.
  - exact (call_LookupGCBProperty _ _ _ _ _ _).
  - exact (call_LookupEmojiProperty _ _ _ _ _ _).
  - exact (call_LookupInCBProperty _ _ _ _ _ _).
Qed.

Theorem C73_strings : forall w fuel depth p, (p < 256)%N -> 2 <= depth ->
  go_call w fuel depth "charprops.GCBProperty.String" [go_gcb p] = Ret [go_string (GCBProperty_String p)] /\
  go_call w fuel depth "charprops.InCBProperty.String" [go_incb p] = Ret [go_string (InCBProperty_String p)] /\
  go_call w fuel depth "charprops.CharProperties.String" [go_properties p] = Ret [go_string (CharProperties_String p)].
Proof.
  intros w fuel depth p Hp Hd. destruct depth as [|[|d]]; try lia. split; [|split]; rewrite go_call_eq.
  - exact (call_GCB_String _ _ _ _ _ _ Hp).
  - exact (call_InCB_String _ _ _ _ _ _ Hp).
  - exact (call_CharProperties_String _ _ _ _ _ _).
Qed.

(* A family emoji and a letter, on a 64-bit machine. *)
Example C73_example :
  go_call 64 40 4 "textseg.ScanGraphemeClusters"
    [VBytes [xf0; x9f; x91; xa9; xe2; x80; x8d; xf0; x9f; x92; xbb; x65; xcc; x81; x66]; VBool false] =
  Ret [go_int 11; VBytes [xf0; x9f; x91; xa9; xe2; x80; x8d; xf0; x9f; x92; xbb]; VNil].
Proof.
  match goal with |- go_call ?w ?f ?d ?k [VBytes ?data; VBool ?e] = _ =>
    destruct (C73_scan w f d data e ltac:(lia) ltac:(reflexivity) ltac:(cbn; lia) ltac:(lia)) as (n & token & E & ->) end.
  assert (ScanGraphemeClusters [xf0; x9f; x91; xa9; xe2; x80; x8d; xf0; x9f; x92; xbb; x65; xcc; x81; x66] false =
    Ret (11, Some [xf0; x9f; x91; xa9; xe2; x80; x8d; xf0; x9f; x92; xbb], None)) as F by (vm_compute; reflexivity).
  rewrite F in E. injection E as <- <-. reflexivity.
Qed.

Definition all_theorems := (C73_parses, C73_scan, C73_autoversion, C73_lookup, C73_begin, C73_transition, C73_properties, C73_names, C73_strings).
Print Assumptions all_theorems.
