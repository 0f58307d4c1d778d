(* ScanGraphemeClusters of grapheme_clusters.go, as parsed. *)
From Coq Require Import List NArith ZArith Arith Bool Lia Strings.String Strings.Ascii Strings.Byte.
From Coq Require Import ZifyBool ZifyNat ZifyN.
From Verif Require Import Spec.Utf8 Model.Base Model.CharProps Model.Machine Model.Lookup Model.WordInt.
From Verif Require Import Model.GoSyntax Model.GoSemantics Model.GoLibrary Proofs.GoFacts Proofs.GoSymbolic Proofs.GoMachine Proofs.GoLookup.
Import ListNotations.
Local Open Scope string_scope.
Local Open Scope list_scope.

Definition scan_body : list stmt := Eval cbv in
  match assoc (g_funs (declared_with (arr_of_list []) (arr_of_list []))) "textseg.ScanGraphemeClusters" with
  | Some (_, f) => f_body f
  | None => []
  end.
Definition scan_for : stmt := Eval cbv in last scan_body (SBlock []).
Definition scan_for_body : list stmt := Eval cbv in match scan_for with SFor _ _ _ b => b | _ => [] end.
Definition scan_context : context := Eval cbv in
  match assoc (g_funs (declared_with (arr_of_list []) (arr_of_list []))) "textseg.ScanGraphemeClusters" with
  | Some (c, _) => c
  | None => Context "" []
  end.

(* The result of the function as values. *)
Definition of_scan (r : res int_result) : res (list value) :=
  let! x := r in
  match x with
  | (n, Some t, None) => Ret [VInt "int" n; VBytes t; VNil]
  | (n, None, None) => Ret [VInt "int" n; VNil; VNil]
  | (_, _, Some _) => no_answer
  end.

Section Scan.
Variable w : Z.
Variable fuel : nat.
Variables ia pa : arr.
Notation G := (declared_with ia pa).
Notation c := (Context "textseg" [("charprops", "charprops"); ("machine", "machine")]).

Definition finish_scan (r : res outcome) : res (list value) :=
  let! o := r in
  match o with
  | Return vs => let! l := bind_params G c [("", TName "int"); ("", TSlice (TName "byte")); ("", TName "error")] vs in Ret (map snd l)
  | Next _ => no_answer
  end.

(* The scopes of the body of the function, in the loop. *)
Definition scan_variables (data : list byte) (atEOF : bool) (remain : list byte) (first : N) (count : Z) (state prev : N) : env :=
  [[("prev", P prev); ("state", St (byte_to_int state)); ("remain", VBytes remain); ("count", VInt "int" count);
    ("properties", P first); ("data", VBytes data); ("atEOF", VBool atEOF)]].

Variable C : string -> list value -> res (list value).
Hypothesis HL : forall p, C "charprops.LookupFirstChar" [VBytes p] = of_lookup (int_LookupFirstChar w p).
Hypothesis HT : forall s p n, C "machine.State.Transition" [St (byte_to_int s); P p; P n] = of_transition (Transition s p n).
Hypothesis HB : forall n, C "machine.Begin" [P n] = of_state (Begin n).

Ltac known := repeat match goal with
  | E : int_slice_from _ _ = _ |- _ => rewrite E
  | E : int_slice_to _ _ = _ |- _ => rewrite E
  | E : C _ _ = _ |- _ => rewrite E
  | E : int_eq _ _ = _ |- _ => rewrite E
  end.

Lemma scan_for_eq data atEOF first n : forall remain count state prev,
  finish_scan (loop n (fun s => Ret true) (in_scope (block w fuel G C c scan_for_body)) (block w fuel G C c [])
    ([] :: scan_variables data atEOF remain first count state prev)) =
  of_scan (int_scan_loop w n data atEOF remain count state prev).
Proof.
  unfold scan_variables. induction n as [|n IH]; intros remain count state prev; [reflexivity|].
  cbn [loop int_scan_loop bind]. unfold in_scope at 1. unfold finish_scan. unfold scan_for_body at 1.
  pose proof (HL remain) as H1.
  remember (int_slice_to data count) as r eqn:S1. symmetry in S1.
  Ltac leaf r := repeat (sym known || finish); destruct r; cbn [bind next]; repeat (sym known || finish); try reflexivity.
  sym known.
  change (int_len remain =? 0)%Z with (int_eq (int_len remain) 0); destruct (int_eq (int_len remain) 0) eqn:E0.
  { sym known; sym known; branch; leaf r. }
  sym known. sym known. 
  destruct (int_LookupFirstChar w remain) as [[next more]|x]; cbn [of_lookup bind] in *; [|sym known; reflexivity].
  sym known. sym known. branch; [leaf r|].
  repeat sym known. branch.
  { repeat sym known. cbn [negb andb]. branch; leaf r. }
  sym known. sym known.
  destruct (int_slice_from remain more) as [remain'|x] eqn:S2; cbn [bind]; [|sym known; reflexivity].
  pose proof (HT state prev next) as H2.
  destruct (Transition state prev next) as [[split s']|x]; cbn [of_transition bind] in *; [|repeat sym known; reflexivity].
  repeat sym known. branch; [leaf r|].
  repeat sym known. exact (IH remain' (int_add w count more) s' next).
Qed.

Lemma scan_eq data atEOF :
  finish_scan (block w fuel G C c scan_body [[("data", VBytes data); ("atEOF", VBool atEOF)]]) =
  of_scan (if int_len data =? 0 then Ret (0, None, None)
  else
    let! (properties, count) := int_LookupFirstChar w data in
    if (properties =? Error)%N then
      let! token := int_slice_to data 1 in Ret (1, Some token, None)
    else if count =? 0 then
      if (count <? int_len data) && atEOF then
        let! token := int_slice_to data 1 in Ret (1, Some token, None)
      else Ret (0, None, None)
    else
      let! remain := int_slice_from data count in
      let! state := Begin properties in
      int_scan_loop w fuel data atEOF remain count state properties)%Z.
Proof.
  pose proof (HL data) as H1. unfold finish_scan. unfold scan_body.
  remember (int_slice_to data 1) as r eqn:S1. symmetry in S1.
  sym known. branch; [leaf r|]. sym known. sym known.
  destruct (int_LookupFirstChar w data) as [[first count]|x]; cbn [of_lookup bind] in *; [|sym known; reflexivity].
  sym known. sym known. branch; [leaf r|].
  repeat sym known. branch.
  { repeat sym known. branch; leaf r. }
  sym known. sym known.
  destruct (int_slice_from data count) as [remain|x] eqn:S2; cbn [bind]; [|sym known; reflexivity].
  pose proof (HB first) as H2.
  destruct (Begin first) as [s|x]; cbn [of_state bind] in *; [|repeat sym known; reflexivity].
  sym known. sym known. sym known.
  pose proof (scan_for_eq data atEOF first fuel remain count s first) as H. unfold scan_variables in H.
  rewrite block_cons, exec_for.
  rewrite <- H. unfold in_scope at 1.
  match goal with |- context [block w fuel G C c [] ?s] => change (block w fuel G C c [] s) with (Ret (Next s)) end. cbn [bind next].
  unfold finish_scan, scan_for_body.
  match goal with |- context [loop fuel ?a ?b ?p ?s] => destruct (loop fuel a b p s) as [[|]|] end; reflexivity.
Qed.
End Scan.

Lemma scan_loop_more w data atEOF n : forall k remain count state prev r,
  int_scan_loop w n data atEOF remain count state prev = Ret r ->
  int_scan_loop w (n + k) data atEOF remain count state prev = Ret r.
Proof.
  induction n as [|n IH]; intros k remain count state prev r H; [discriminate H|].
  cbn [int_scan_loop Nat.add] in *. destruct (int_len remain =? 0)%Z; [exact H|].
  destruct (int_LookupFirstChar w remain) as [[next more]|x]; cbn [bind] in *; [|discriminate H].
  destruct (next =? Error)%N; [exact H|]. destruct (more =? 0)%Z; [exact H|].
  destruct (int_slice_from remain more) as [remain'|x]; cbn [bind] in *; [|discriminate H].
  destruct (Transition state prev next) as [[[|] s']|x]; cbn [bind] in *; [exact H| |discriminate H].
  apply IH. exact H.
Qed.

Lemma call_ScanGraphemeClusters w fuel d ia pa data atEOF :
  (forall p, int_lookup_first_char w (Tables ia pa) p = int_LookupFirstChar w p) ->
  (15 <= w)%Z -> (List.length data + 4 <= fuel)%nat ->
  (exists r, int_ScanGraphemeClusters w data atEOF = Ret r) ->
  call w fuel (declared_with ia pa) (S (S (S (S d)))) "textseg.ScanGraphemeClusters" [VBytes data; VBool atEOF] =
  of_scan (int_ScanGraphemeClusters w data atEOF).
Proof.
  intros E Hw Hf (r & R). start.
  etransitivity; [apply (scan_eq w fuel ia pa (call w fuel (declared_with ia pa) (S (S (S d)))))|].
  - intros p. rewrite call_LookupFirstChar by lia. rewrite E. reflexivity.
  - intros s p n. apply call_Transition.
  - intros n. apply call_Begin.
  - f_equal. unfold int_ScanGraphemeClusters in *. destruct (int_len data =? 0)%Z; [reflexivity|].
    destruct (int_LookupFirstChar w data) as [[first count]|x]; cbn [bind] in *; [|discriminate R].
    destruct (first =? Error)%N; [reflexivity|]. destruct (count =? 0)%Z; [reflexivity|].
    unfold int_slice_from in *. destruct ((0 <=? count)%Z && (count <=? int_len data)%Z); cbn [bind] in *; [|discriminate R].
    destruct (Begin first) as [s|x]; cbn [bind] in *; [|discriminate R]. rewrite R.
    replace fuel with (S (List.length (skipn (Z.to_nat count) data)) + (fuel - S (List.length (skipn (Z.to_nat count) data)))) by (rewrite skipn_length; lia).
    apply scan_loop_more. exact R.
Qed.
