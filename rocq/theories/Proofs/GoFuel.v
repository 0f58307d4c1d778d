(* More fuel and more depth never change an answer of Model/GoSemantics.v. *)
From Coq Require Import List NArith ZArith Arith Bool Lia Strings.String Strings.Byte.
From Verif Require Import Model.Base Model.WordInt Model.GoSyntax Model.GoSemantics.
Import ListNotations.
Local Open Scope list_scope.

(* The same answer, or none before. *)
Definition grows {A} (a b : res A) : Prop := a = no_answer \/ a = b.

Lemma grows_refl {A} (a : res A) : grows a a.
Proof. right; reflexivity. Qed.
Lemma grows_none {A} (b : res A) : grows no_answer b.
Proof. left; reflexivity. Qed.
Lemma grows_bind {A B} (a b : res A) (f g : A -> res B) :
  grows a b -> (forall x, grows (f x) (g x)) -> grows (bind a f) (bind b g).
Proof.
  intros [->| ->] H; [left; reflexivity|]. destruct b as [x|x]; [apply H|right; reflexivity].
Qed.
Lemma grows_ret {A} (a b : res A) r : grows a b -> a = Ret r -> b = Ret r.
Proof. intros [->| ->] E; [discriminate E|exact E]. Qed.
#[local] Hint Resolve grows_refl grows_none : core.

Ltac gr :=
  repeat first
    [ assumption | apply grows_refl | apply grows_none
    | apply grows_bind; [|intros]
    | progress cbv beta iota
    | match goal with
      | |- grows (match ?x with _ => _ end) _ => destruct x
      end ].

Section Expr.
Variable w : Z.
Variable g : genv.
Variable call1 call2 : string -> list value -> res (list value).
Hypothesis Hcall : forall f vs, grows (call1 f vs) (call2 f vs).
Variable c : context.

Lemma one_grows a b : grows a b -> grows (one a) (one b).
Proof. intros H. unfold one. gr. Qed.

Lemma call_name_grows f vs : grows (call_name g call1 c f vs) (call_name g call2 c f vs).
Proof. unfold call_name. gr; auto. Qed.

Lemma format_s_grows v : grows (format_s call1 v) (format_s call2 v).
Proof. unfold format_s. destruct (type_name v); gr; apply Hcall. Qed.

Lemma sprintf_grows : forall f vs, grows (sprintf call1 f vs) (sprintf call2 f vs).
Proof.
  fix IH 1. intros f vs. destruct f as [|a f]; [apply grows_refl|]. cbn [sprintf].
  repeat first
    [ apply grows_refl | apply grows_none
    | apply grows_bind; [first [apply IH | apply format_s_grows]|intros]
    | match goal with
      | |- grows (match ?x with _ => _ end) _ => destruct x
      end ].
Qed.

Lemma call_fmt_grows f vs : grows (call_fmt call1 f vs) (call_fmt call2 f vs).
Proof. unfold call_fmt. gr. apply sprintf_grows. Qed.

Lemma call_imported_grows pkg f vs : grows (call_imported g call1 pkg f vs) (call_imported g call2 pkg f vs).
Proof. unfold call_imported. gr; auto using call_fmt_grows. Qed.

Lemma call_method_grows v m vs : grows (call_method call1 v m vs) (call_method call2 v m vs).
Proof. unfold call_method. gr; auto. Qed.

Lemma eval_grows s : forall e, grows (eval w g call1 c s e) (eval w g call2 c s e).
Proof.
  fix IH 1. intros e.
  assert (forall l, (fix all (l : list expr) := match l with [] => True | e :: l => grows (eval w g call1 c s e) (eval w g call2 c s e) /\ all l end) l ->
    grows ((fix evals (es : list expr) : res (list value) :=
      match es with
      | [] => Ret []
      | e :: es => let! v := one (eval w g call1 c s e) in let! vs := evals es in Ret (v :: vs)
      end) l)
    ((fix evals (es : list expr) : res (list value) :=
      match es with
      | [] => Ret []
      | e :: es => let! v := one (eval w g call2 c s e) in let! vs := evals es in Ret (v :: vs)
      end) l)) as E.
  { clear IH. induction l as [|e' l IHl]; [intros; apply grows_refl|]. intros [H K].
    apply grows_bind; [apply one_grows, H|intros]. apply grows_bind; [apply IHl, K|intros; apply grows_refl]. }
  destruct e as [x|e x|n|t|a|o a b|f args|a i|a lo hi]; cbn [eval].
  - apply grows_refl.
  - apply grows_refl.
  - apply grows_refl.
  - apply grows_refl.
  - pose proof (one_grows _ _ (IH a)). gr.
  - pose proof (one_grows _ _ (IH a)). pose proof (one_grows _ _ (IH b)). gr.
  - assert (grows ((fix evals (es : list expr) : res (list value) :=
      match es with
      | [] => Ret []
      | e :: es => let! v := one (eval w g call1 c s e) in let! vs := evals es in Ret (v :: vs)
      end) args)
    ((fix evals (es : list expr) : res (list value) :=
      match es with
      | [] => Ret []
      | e :: es => let! v := one (eval w g call2 c s e) in let! vs := evals es in Ret (v :: vs)
      end) args)) as A.
    { apply E. clear E. induction args as [|e l IHl]; [exact I|]. split; [apply IH|exact IHl]. }
    clear E. destruct f as [x|a m| | | | | | | ]; try apply grows_none.
    + clear IH. gr; auto using call_name_grows.
    + pose proof (one_grows _ _ (IH a)). clear IH. destruct a; gr; auto using call_imported_grows, call_method_grows.
  - pose proof (one_grows _ _ (IH a)). pose proof (one_grows _ _ (IH i)). gr.
  - pose proof (one_grows _ _ (IH a)). apply grows_bind; [assumption|intros].
    apply grows_bind; [destruct lo as [e|]; [apply grows_bind; [apply one_grows, IH|intros]|]; apply grows_refl|intros].
    apply grows_bind; [destruct hi as [e|]; [apply grows_bind; [apply one_grows, IH|intros]|]; apply grows_refl|intros].
    apply grows_refl.
Qed.

Lemma eval1_grows s e : grows (eval1 w g call1 c s e) (eval1 w g call2 c s e).
Proof. apply one_grows, eval_grows. Qed.

Lemma evals_grows s es : grows (evals w g call1 c s es) (evals w g call2 c s es).
Proof.
  induction es as [|e es IH]; [apply grows_refl|]. cbn [evals].
  apply grows_bind; [apply eval1_grows|intros]. apply grows_bind; [exact IH|intros; apply grows_refl].
Qed.

Lemma values_grows s es : grows (values w g call1 c s es) (values w g call2 c s es).
Proof. destruct es as [|e [|e' es]]; [apply evals_grows|apply eval_grows|apply evals_grows]. Qed.

Lemma applies_grows s tag es : grows (applies w g call1 c s tag es) (applies w g call2 c s tag es).
Proof.
  induction es as [|e es IH]; [apply grows_refl|]. cbn [applies].
  apply grows_bind; [apply eval1_grows|intros]. gr.
Qed.

Lemma in_scope_grows f1 f2 s : (forall s, grows (f1 s) (f2 s)) -> grows (in_scope f1 s) (in_scope f2 s).
Proof. intros H. unfold in_scope. apply grows_bind; [apply H|intros; apply grows_refl]. Qed.

Lemma next_grows f1 f2 o : (forall s, grows (f1 s) (f2 s)) -> grows (next f1 o) (next f2 o).
Proof. intros H. destruct o; [apply H|apply grows_refl]. Qed.

Lemma loop_grows n1 n2 c1 c2 b1 b2 p1 p2 : n1 <= n2 ->
  (forall s, grows (c1 s) (c2 s)) -> (forall s, grows (b1 s) (b2 s)) -> (forall s, grows (p1 s) (p2 s)) ->
  forall s, grows (loop n1 c1 b1 p1 s) (loop n2 c2 b2 p2 s).
Proof.
  intros Hn Hc Hb Hp. revert n2 Hn. induction n1 as [|n1 IH]; intros n2 Hn s; [apply grows_none|].
  destruct n2 as [|n2]; [lia|]. cbn [loop]. apply grows_bind; [apply Hc|intros []; [|apply grows_refl]].
  apply grows_bind; [apply Hb|intros o]. apply next_grows. intros s'.
  apply grows_bind; [apply Hp|intros o']. apply next_grows. intros s''. apply IH. lia.
Qed.

Variable n1 n2 : nat.
Hypothesis Hn : n1 <= n2.

Lemma exec_grows : forall st s, grows (exec w n1 g call1 c st s) (exec w n2 g call2 c st s).
Proof.
  fix IH 1.
  assert (forall b, (fix all (b : list stmt) := match b with [] => True
      | st :: b => (forall s, grows (exec w n1 g call1 c st s) (exec w n2 g call2 c st s)) /\ all b end) b ->
    forall s, grows ((fix block (b : list stmt) (s : env) : res outcome :=
      match b with [] => Ret (Next s) | st :: b => let! o := exec w n1 g call1 c st s in next (block b) o end) b s)
    ((fix block (b : list stmt) (s : env) : res outcome :=
      match b with [] => Ret (Next s) | st :: b => let! o := exec w n2 g call2 c st s in next (block b) o end) b s)) as E.
  { clear IH. induction b as [|st b IHb]; [intros; apply grows_refl|]. intros [H K] s.
    apply grows_bind; [apply H|intros o]. apply next_grows. exact (IHb K). }
  intros st s.
  assert (forall b, (fix all (b : list stmt) := match b with [] => True
      | st :: b => (forall s, grows (exec w n1 g call1 c st s) (exec w n2 g call2 c st s)) /\ all b end) b ->
      forall s,
      grows (in_scope ((fix block (b : list stmt) (s : env) : res outcome :=
      match b with [] => Ret (Next s) | st :: b => let! o := exec w n1 g call1 c st s in next (block b) o end) b) s)
    (in_scope ((fix block (b : list stmt) (s : env) : res outcome :=
      match b with [] => Ret (Next s) | st :: b => let! o := exec w n2 g call2 c st s in next (block b) o end) b) s)) as F.
  { intros b H s'. apply in_scope_grows. exact (E b H). }
  destruct st as [xs es|xs es|o x e|e|es|b|e a b|init e post b|tag cs]; cbn [exec].
  - apply grows_bind; [apply values_grows|intros; apply grows_refl].
  - apply grows_bind; [apply values_grows|intros; apply grows_refl].
  - apply grows_bind; [apply eval1_grows|intros]. apply grows_bind; [apply eval1_grows|intros; apply grows_refl].
  - apply grows_bind; [apply eval_grows|intros; apply grows_refl].
  - apply grows_bind; [apply values_grows|intros; apply grows_refl].
  - apply F. clear E F. induction b as [|st b IHb]; [exact I|split; [exact (IH st)|exact IHb]].
  - apply grows_bind; [apply eval1_grows|intros v]. apply grows_bind; [apply grows_refl|intros []].
    + apply F. clear E F. induction a as [|st a' IHb]; [exact I|split; [exact (IH st)|exact IHb]].
    + apply F. clear E F. induction b as [|st b IHb]; [exact I|split; [exact (IH st)|exact IHb]].
  - apply in_scope_grows. intros s'. apply grows_bind.
    + apply E. clear E F. induction init as [|st init' IHb]; [exact I|split; [exact (IH st)|exact IHb]].
    + intros o. apply next_grows. apply loop_grows; [exact Hn| | |].
      * intros s''. destruct e; [|apply grows_refl]. apply grows_bind; [apply eval1_grows|intros; apply grows_refl].
      * apply F. clear E F. induction b as [|st b IHb]; [exact I|split; [exact (IH st)|exact IHb]].
      * apply E. clear E F. induction post as [|st post' IHb]; [exact I|split; [exact (IH st)|exact IHb]].
  - apply grows_bind.
    + destruct tag; [|apply grows_refl]. apply grows_bind; [apply eval1_grows|intros; apply grows_refl].
    + intros u. generalize (@grows_refl outcome (Ret (Next s))).
      generalize (@Ret outcome (Next s)) at 1 3 as o1. generalize (@Ret outcome (Next s)) as o2.
      clear tag. induction cs as [|[[es|] b] cs IHcs]; intros o2 o1 O; [exact O| |].
      * apply grows_bind; [apply applies_grows|intros []].
        -- apply F. clear E F IHcs. induction b as [|st b IHb]; [exact I|split; [exact (IH st)|exact IHb]].
        -- apply IHcs. exact O.
      * apply IHcs. apply F. clear E F IHcs. induction b as [|st b IHb]; [exact I|split; [exact (IH st)|exact IHb]].
Qed.

Lemma block_grows b : forall s, grows (block w n1 g call1 c b s) (block w n2 g call2 c b s).
Proof.
  induction b as [|st b IH]; intros s; [apply grows_refl|]. cbn [block].
  apply grows_bind; [apply exec_grows|intros o]. apply next_grows. exact IH.
Qed.

Lemma run_grows f vs : grows (run w n1 g call1 c f vs) (run w n2 g call2 c f vs).
Proof.
  unfold run. apply grows_bind; [apply grows_refl|intros]. apply grows_bind; [apply grows_refl|intros].
  apply grows_bind; [apply block_grows|intros; apply grows_refl].
Qed.
End Expr.

Lemma call_grows w g n1 n2 : n1 <= n2 -> forall d1 d2, d1 <= d2 -> forall f vs,
  grows (call w n1 g d1 f vs) (call w n2 g d2 f vs).
Proof.
  intros Hn. induction d1 as [|d1 IH]; intros d2 Hd f vs; [apply grows_none|]. destruct d2 as [|d2]; [lia|]. cbn [call].
  destruct (assoc (g_funs g) f) as [[c0 h]|]; [|apply grows_none].
  apply run_grows; [|exact Hn]. intros f' vs'. apply IH. lia.
Qed.
