(* LookupFirstChar of property_table.go, as parsed. *)
From Coq Require Import List NArith ZArith Arith Bool Lia Strings.String Strings.Ascii Strings.Byte.
From Coq Require Import ZifyBool ZifyNat ZifyN.
From Verif Require Import Spec.Utf8 Model.Base Model.CharProps Model.Machine Model.Lookup Model.WordInt Properties.WordInt.
From Verif Require Import Model.GoSyntax Model.GoSemantics Model.GoLibrary Proofs.GoFacts Proofs.GoSymbolic.
Import ListNotations.
Local Open Scope string_scope.
Local Open Scope list_scope.

Section For.
Variables (w : Z) (fuel : nat) (g : genv) (C : string -> list value -> res (list value)) (c : context).
Lemma exec_for init e post b s : exec w fuel g C c (SFor init e post b) s =
  in_scope (fun s => let! o := block w fuel g C c init s in
    next (loop fuel (fun s => match e with Some e => let! v := eval1 w g C c s e in truth v | None => Ret true end)
      (in_scope (block w fuel g C c b)) (block w fuel g C c post)) o) s.
Proof. reflexivity. Qed.
End For.

Definition lookup_body : list stmt := Eval cbv in
  match assoc (g_funs (declared_with (arr_of_list []) (arr_of_list []))) "charprops.LookupFirstChar" with
  | Some (_, f) => f_body f
  | None => []
  end.
Definition lookup_rest : list stmt := Eval cbv in skipn 3 lookup_body.
Definition check_loop : stmt := Eval cbv in nth 1 lookup_rest (SBlock []).
Definition check_body : list stmt := Eval cbv in match check_loop with SFor _ _ _ b => b | _ => [] end.

Section Lookup.
Variable w : Z.
Variable fuel : nat.
Variables ia pa : arr.
Notation G := (declared_with ia pa).
Notation c := (Context "charprops" []).

(* The scopes of the body of the function. *)
Definition variables (p : list byte) (f : byte) (l : Z) : env :=
  [[("first", VByte "uint8" (bval f)); ("p", VBytes p); ("props", P 0); ("length", VInt "int" l)]].

Ltac known := repeat match goal with
  | E : int_index _ _ = _ |- _ => rewrite E
  | E : int_aget _ _ = _ |- _ => rewrite E
  end.

Lemma check_for C e l p f (E : e = variables p f l) n : forall i, exists i',
  loop n (fun s => let! v := eval1 w G C c s (EBin Lt (EVar "i") (EVar "length")) in truth v)
    (in_scope (block w fuel G C c check_body)) (block w fuel G C c [SUpdate Add "i" (ENum 1)])
    ([("i", VInt "int" i)] :: e) =
  match int_bad_continuation w n p i l with
  | Ret true => Ret (Return [P 255; VConst 1])
  | Ret false => Ret (Next ([("i", VInt "int" i')] :: e))
  | Panic x => Panic x
  end.
Proof.
  subst e. unfold variables. induction n as [|n IH]; intros i; [exists 0%Z; reflexivity|].
  cbn [loop int_bad_continuation].
  match goal with |- context [eval1 w G C c ?s ?e] => eassert (eval1 w G C c s e = Ret (VBool _)) as -> by (ev known) end.
  cbn [bind truth]. change (int_lt i l) with (i <? l)%Z. destruct (i <? l)%Z; [|exists i; reflexivity].
  unfold in_scope at 1. unfold check_body at 1. rewrite block_cons. rewrite exec_if.
  destruct (int_index p i) as [b|x] eqn:E.
  2:{ exists 0%Z. match goal with |- context [eval1 w G C c ?s ?e] => eassert (eval1 w G C c s e = Panic x) as -> by (ev known) end. reflexivity. }
  cbn [bind].
  match goal with |- context [eval1 w G C c ?s ?e] => eassert (eval1 w G C c s e = Ret (VBool _)) as -> by (ev known) end.
  cbn [bind truth]. 
  match goal with |- context [if if byte_eq ?x ?y then false else true then _ else _] => change (byte_eq x y) with (N.land (bval b) 0xc0 =? 0x80)%N end.
  destruct (N.land (bval b) 192 =? 128)%N.
  - destruct (IH (int_add w i 1)) as (i' & H). exists i'. rewrite <- H. clear H. sym known. sym known. cbn [bind next].
    sym known. cbn [bind next]. sym known. sym known. reflexivity.
  - exists 0%Z. sym known. sym known. reflexivity.
Qed.

Definition finish_lookup (r : res outcome) : res (list value) :=
  let! o := r in
  match o with
  | Return vs => let! l := bind_params G c [("props", TName "CharProperties"); ("length", TName "int")] vs in Ret (map snd l)
  | Next _ => no_answer
  end.
Definition of_lookup (r : res (CharProperties * Z)) : res (list value) :=
  let! (props, n) := r in Ret [P props; VInt "int" n].

Lemma entry_eq v b : int_entry w (Z.of_N v) b = int_plus w (int_shift w (byte_to_int v) 6) (byte_to_int (byte_and (bval b) 63)).
Proof. reflexivity. Qed.

Lemma rest_eq C p f n : (15 <= w)%Z -> (n < fuel)%nat -> (n <= 3)%nat -> int_index p 0 = Ret f ->
  finish_lookup (block w fuel G C c lookup_rest (variables p f (Z.of_nat (1 + n)))) =
  of_lookup (if (int_len p <? Z.of_nat (1 + n))%Z then Ret (zeroProperties, 0%Z)
      else
        let! bad := int_bad_continuation w 5 p 1 (Z.of_nat (1 + n)) in
        if bad then Ret (Error, 1%Z)
        else let! props := int_walk w (Tables ia pa) p (Z.of_nat (1 + n)) in Ret (props, Z.of_nat (1 + n))).
Proof.
  intros Hw Hf Hn H0. unfold lookup_rest. remember (Z.of_nat (1 + n)) as l eqn:El. unfold variables. unfold finish_lookup.
  sym known. branch; [sym known; sym known; finish|].
  sym known. sym known. rewrite block_cons, exec_for.
  unfold in_scope at 1. cbn [bind]. sym known. sym known.
  destruct (check_for C (variables p f l) l p f eq_refl fuel 1) as (i' & H). unfold variables, check_body in H. rewrite H. clear H.
  assert (int_bad_continuation w fuel p 1 l = int_bad_continuation w 5 p 1 l) as ->.
  { change 1%Z with (Z.of_nat 1). rewrite El, !bad_int by lia. reflexivity. }
  destruct (int_bad_continuation w 5 p 1 l) as [[|]|x]; [| |reflexivity].
  { cbn [bind next]. finish. }
  cbn [bind next tl]. subst l. unfold int_walk. rewrite H0. cbn [bind].
  assert (Z.of_nat (1 + n) = 1 \/ Z.of_nat (1 + n) = 2 \/ Z.of_nat (1 + n) = 3 \/ Z.of_nat (1 + n) = 4)%Z as E by lia.
  destruct E as [-> | [-> | [-> | ->]]]; cbn [Z.eqb Pos.eqb].
  all: cbn [t_props t_indices]; change (Z.of_N (low6 f)) with (byte_to_int (byte_and (bval f) 63)); change (Z.of_N (bval f)) with (byte_to_int (bval f)).
  all: repeat match goal with
    | |- context [int_entry w (Z.of_N ?v) ?b] => rewrite (entry_eq v b)
    | |- context [int_aget ?a ?i] => destruct (int_aget a i) eqn:?; cbn [bind of_lookup]
    | |- context [int_index ?q ?i] => destruct (int_index q i) eqn:?; cbn [bind of_lookup]
    end.
  all: repeat (first [ match goal with |- context [int_eq ?x ?y] => let b := eval cbv in (int_eq x y) in change (int_eq x y) with b; cbv iota end
    | sym known | finish ]).
Qed.

Lemma call_LookupFirstChar d p : (15 <= w)%Z -> (4 <= fuel)%nat ->
  call w fuel G (S d) "charprops.LookupFirstChar" [VBytes p] = of_lookup (int_lookup_first_char w (Tables ia pa) p).
Proof.
  intros Hw Hf. start. generalize (call w fuel G d). intros C'. unfold int_lookup_first_char.
  sym known. branch; [sym known; sym known; finish|].
  sym known. sym known.
  destruct (int_index p 0) as [f|e] eqn:H0.
  2:{ sym known. reflexivity. }
  sym known. cbv beta zeta. cbn [bind].
  match goal with |- context [block w fuel G C' c (?st :: ?r) ?s] => change r with lookup_rest end.
  pose proof (rest_eq C' p f 0 Hw ltac:(lia) ltac:(lia) H0) as K1.
  pose proof (rest_eq C' p f 1 Hw ltac:(lia) ltac:(lia) H0) as K2.
  pose proof (rest_eq C' p f 2 Hw ltac:(lia) ltac:(lia) H0) as K3.
  pose proof (rest_eq C' p f 3 Hw ltac:(lia) ltac:(lia) H0) as K4.
  repeat (first [ match goal with |- context [block w fuel G C' c lookup_rest ?s] =>
        match s with context [VInt "int" 1] => exact K1 | context [VInt "int" 2] => exact K2
          | context [VInt "int" 3] => exact K3 | context [VInt "int" 4] => exact K4 end end
    | match goal with |- ?L = ?R => match L with context [if ?x then in_scope ?g ?s else ?k] =>
        match R with of_lookup (if ?b then _ else _) => change x with b; destruct b end end end
    | sym known | finish ]).
Qed.
End Lookup.
