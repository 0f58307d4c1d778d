(* Symbolic execution of programs of Model/GoSemantics.v: equations for statements, and
   tactics that evaluate expressions with unknown numbers in them. *)
From Coq Require Import List NArith ZArith Arith Bool Lia Strings.String Strings.Ascii Strings.Byte.
From Coq Require Import ZifyBool ZifyNat ZifyN.
From Verif Require Import Spec.Utf8 Model.Base Model.CharProps Model.Machine Model.Lookup Model.WordInt.
From Verif Require Import Model.GoSyntax Model.GoSemantics Model.GoLibrary Proofs.GoFacts.
Import ListNotations.
Local Open Scope string_scope.
Local Open Scope list_scope.

Declare Reduction go := cbv -[str_eq str_append hex2 int_plus int_minus int_times int_shift int_eq int_lt int_le byte_plus byte_and byte_or byte_eq byte_lt byte_le
  bval int_LookupFirstChar IsAnyControl gb9cActive gb11Active gb13Active byte_to_int int_to_byte int_index int_aget int_slice_from int_slice_to int_len].

Section Equations.
Variables (w : Z) (fuel : nat) (g : genv) (C : string -> list value -> res (list value)) (c : context).
Section Clauses.
Variables (s : env) (u : option value).
Fixpoint clauses (cs : list (option (list expr) * list stmt)) (otherwise : res outcome) : res outcome :=
  match cs with
  | [] => otherwise
  | (None, b) :: cs => clauses cs (in_scope (block w fuel g C c b) s)
  | (Some es, b) :: cs =>
      let! x := applies w g C c s u es in
      if x then in_scope (block w fuel g C c b) s else clauses cs otherwise
  end.
End Clauses.
Lemma block_cons st b s : block w fuel g C c (st :: b) s = let! o := exec w fuel g C c st s in next (block w fuel g C c b) o.
Proof. reflexivity. Qed.
Lemma exec_if e a b s : exec w fuel g C c (SIf e a b) s =
  let! v := eval1 w g C c s e in let! x := truth v in
  if x then in_scope (block w fuel g C c a) s else in_scope (block w fuel g C c b) s.
Proof. reflexivity. Qed.
Lemma exec_switch e cs s : exec w fuel g C c (SSwitch (Some e) cs) s =
  let! v := eval1 w g C c s e in clauses s (Some v) cs (Ret (Next s)).
Proof. cbn [exec]. destruct (eval1 w g C c s e) as [v|]; [|reflexivity]. cbn [bind]. reflexivity. Qed.
Lemma exec_switch_none cs s : exec w fuel g C c (SSwitch None cs) s = clauses s None cs (Ret (Next s)).
Proof. reflexivity. Qed.
Lemma clauses_some s u es b cs o : clauses s u ((Some es, b) :: cs) o =
  let! x := applies w g C c s u es in
      if x then in_scope (block w fuel g C c b) s else clauses s u cs o.
Proof. reflexivity. Qed.
End Equations.
Lemma and_ret (x y : bool) : (if x then Ret [VBool y] else Ret [VBool false]) = Ret [VBool (if x then y else false)].
Proof. destruct x; reflexivity. Qed.
Lemma or_ret (x y : bool) : (if x then Ret [VBool true] else Ret [VBool y]) = Ret [VBool (if x then true else y)].
Proof. destruct x; reflexivity. Qed.
Lemma applies_ret (x y : bool) : (if x then Ret true else Ret y) = Ret (if x then true else y).
Proof. destruct x; reflexivity. Qed.

Lemma bool_id (x : bool) : (if x then true else false) = x.
Proof. destruct x; reflexivity. Qed.

Ltac go := match goal with |- ?L = _ => let L' := eval go in L in change L with L' end.
(* evaluates an expression or a simple statement *)
Ltac ev rules := repeat progress (go; rules; rewrite ?and_ret, ?or_ret, ?applies_ret, ?bool_id); reflexivity.
Ltac sym rules :=
  match goal with
  | |- context [block ?w ?fuel ?g ?C ?c (?st :: ?b) ?s] =>
      rewrite (block_cons w fuel g C c st b s);
      match st with
      | SIf ?e ?x ?y =>
          rewrite (exec_if w fuel g C c e x y s);
          let H := fresh in eassert (eval1 w g C c s e = Ret (VBool _)) as H by (ev rules); rewrite H; clear H; cbn [bind truth]
      | SSwitch (Some ?e) ?cs =>
          rewrite (exec_switch w fuel g C c e cs s);
          let H := fresh in eassert (eval1 w g C c s e = Ret _) as H by (ev rules); rewrite H; clear H; cbn [bind]
      | SSwitch None ?cs => rewrite (exec_switch_none w fuel g C c cs s)
      | SReturn ?es =>
          let H := fresh in eassert (exec w fuel g C c st s = _) as H by (ev rules); rewrite H; clear H; cbn [bind next]
      | SExpr (ECall (EVar "panic") _) =>
          let H := fresh in eassert (exec w fuel g C c st s = _) as H by (ev rules); rewrite H; clear H; cbn [bind next]
      | _ =>
          let H := fresh in eassert (exec w fuel g C c st s = _) as H by (ev rules); rewrite H; clear H; cbn [bind next]
      end
  | |- context [block ?w ?fuel ?g ?C ?c [] ?s] => change (block w fuel g C c [] s) with (Ret (Next s)); cbn [bind next tl]
  | |- context [clauses ?w ?fuel ?g ?C ?c ?s ?u ((Some ?es, ?b) :: ?cs) ?o] =>
      rewrite (clauses_some w fuel g C c s u es b cs o);
      let H := fresh in eassert (applies w g C c s u es = Ret _) as H by (ev rules); rewrite H; clear H; cbn [bind]
  | |- context [clauses ?w ?fuel ?g ?C ?c ?s ?u ((None, ?b) :: ?cs) ?o] =>
      change (clauses w fuel g C c s u ((None, b) :: cs) o) with (clauses w fuel g C c s u cs (in_scope (block w fuel g C c b) s))
  | |- context [clauses ?w ?fuel ?g ?C ?c ?s ?u [] ?o] => change (clauses w fuel g C c s u [] o) with o
  | |- context [in_scope (block ?w ?fuel ?g ?C ?c ?b) ?s] =>
      lazymatch goal with |- context [if _ then in_scope _ _ else _] => fail | _ => unfold in_scope at 1; cbn [bind] end
  end.
Ltac branch := match goal with |- ?L = ?R => match L with context [if ?x then in_scope ?f ?s else ?k] =>
   match R with context [if ?b then _ else _] => change x with b; destruct b end end end.


Notation P n := (VByte "charprops.CharProperties" n).
Notation GCB n := (VByte "charprops.GCBProperty" n).
Notation InCB n := (VByte "charprops.InCBProperty" n).
Notation St n := (VInt "machine.State" n).

Lemma call_S w fuel G d key vs : call w fuel G (S d) key vs =
  match assoc (g_funs G) key with
  | Some (c, f) => run w fuel G (call w fuel G d) c f vs
  | None => no_answer
  end.
Proof. reflexivity. Qed.

(* what a call of a function is: its body with its parameters *)
Ltac start := rewrite call_S; 
  match goal with |- context [assoc (g_funs ?G) ?k] => let x := eval cbv in (assoc (g_funs G) k) in change (assoc (g_funs G) k) with x end;
  cbv beta iota; unfold run; cbn [f_recv f_params f_results f_body];
  match goal with |- context [bind_params ?G ?c ?ps ?vs] => let H := fresh in eassert (bind_params G c ps vs = Ret _) as H by (go; reflexivity); rewrite H; clear H; cbn [bind] end;
  match goal with |- context [result_vars ?G ?c ?ps] => let H := fresh in eassert (result_vars G c ps = Ret _) as H by (go; reflexivity); rewrite H; clear H; cbn [bind app] end.

Ltac finish := match goal with
  | |- (let! l := bind_params _ _ _ _ in _) = _ => cbn [bind]; go; reflexivity
  | |- Panic _ = _ => reflexivity
  end.
Ltac syms rules := repeat (branch || sym rules || finish).
