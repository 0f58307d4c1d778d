(* The loop of ucdparse.Scanner.NextEntry, executed from its source (C75). *)
From Coq Require Import List NArith ZArith Arith Bool Lia Strings.String Strings.Byte.
From Verif Require Import Model.Base Model.Scan Model.Bufio Model.PropNames Model.GenTable Model.UcdParse.
From Verif Require Import Spec.Utf8 Proofs.Basics.
From Verif Require Import Model.GoSyntax Model.UcdSyntax Model.UcdSemantics Model.UcdSourceUnit.
Import ListNotations.
Local Open Scope list_scope.

(* the program *)
Definition ucd_types := Eval vm_compute in match ucdparse with Some u => u_types u | None => [] end.
Definition ucd_funs := Eval vm_compute in match ucdparse with Some u => u_funs u | None => [] end.
Definition ucd_vars := Eval vm_compute in match ucdparse with Some u => u_vars u | None => [] end.
Definition ucd_program : unit_env := UnitEnv ucd_types ucd_funs ucd_vars.
Lemma ucdparse_parses : ucdparse = Some ucd_program.
Proof. vm_cast_no_check (eq_refl (Some ucd_program)). Qed.

(* values of the model *)
Definition sc_value : gval := URecord "Scanner" [("lineScan", UScanner)]%string.
Definition entry_value (e : Entry) : gval :=
  URecord "Entry" [("Start", URune (Start e)); ("End", URune (End e)); ("Fields", UBytes "Fields" (Fields e))]%string.
Definition no_entry : Entry := MkEntry 0 0 [].
Definition entry_results (out : result Entry) : list gval :=
  match out with inl e => [entry_value e; UNil] | inr err => [entry_value no_entry; UErr err] end.

(* the body of a function; of the loop of a function *)
Definition body_of (k : string) : gfunc := match find_in (u_funs ucd_program) k with Some f => f | None => GFunc None "" [] [] end.
Definition loop_body (b : list cmd) : list cmd := match b with [CFor b] => b | _ => [] end.

Definition next_body : list cmd := Eval cbv in loop_body (fn_body (body_of "Scanner.NextEntry")).

(* evaluates a program with unknown values in it *)
Ltac ucd := cbv -[Scan ScanLines Cut TrimSpace Split ParseUint ParseInt EncodeRune int32 bytes_of Err Z.of_N Z.add app uint_on_error ucd_funs].
(* the statements of a body: the n-th and what comes after it, under names *)
Definition stmt (l : list cmd) (n : nat) : cmd := nth n l CContinue.
Definition from (l : list cmd) (n : nat) : list cmd := skipn n l.
Lemma from_runs {R} (rd : reader R) keep fuel u I l n s (w : world R) : n < List.length l ->
  run_seq rd keep fuel u I (from l n) s w =
  let! (w, a) := run_cmd rd keep fuel u I (stmt l n) s w in andthen (run_seq rd keep fuel u I (from l (S n))) w a.
Proof.
  intros H. assert (from l n = stmt l n :: from l (S n)) as ->; [|reflexivity]. unfold from, stmt. revert n H.
  induction l as [|c l IH]; intros [|n] H; cbn [List.length] in H; [lia|lia|reflexivity|]. cbn [skipn nth]. apply IH. lia.
Qed.
(* the statement if isRange { ... } else { ... } *)
Definition then_body : list cmd := Eval cbv in match stmt next_body 12 with CIf _ _ a _ => a | _ => [] end.
Definition else_body : list cmd := Eval cbv in match stmt next_body 12 with CIf _ _ _ b => b | _ => [] end.
Lemma if_runs {R} (rd : reader R) keep fuel u I s (w : world R) x : find_var s "isRange" = Some (UBool x) ->
  run_cmd rd keep fuel u I (stmt next_body 12) s w =
  let! (w, a) := (if x then run_seq rd keep fuel u I (from then_body 0) ([] :: [] :: s) w
                  else run_seq rd keep fuel u I (from else_body 0) ([] :: [] :: s) w) in Ret (w, drop_scope (drop_scope a)).
Proof.
  intros H. change (stmt next_body 12) with (CIf [] (XVar "isRange") then_body else_body).
  transitivity (scoped (fun s w => let! (w, v) := value1 rd keep u I s (XVar "isRange") w in
     match v with
     | UBool x => if x then scoped (run_seq rd keep fuel u I then_body) [] s w else scoped (run_seq rd keep fuel u I else_body) [] s w
     | _ => stuck
     end) [] s w); [reflexivity|].
  unfold scoped, value1. cbn [value_of]. unfold variable. cbn [find_var find_in]. rewrite H. cbn [bind single].
  change (from then_body 0) with then_body. change (from else_body 0) with else_body.
  destruct x; match goal with |- bind (bind ?y _) _ = _ => destruct y as [[w1 a]|p] end; reflexivity.
Qed.

(* one statement *)
Ltac stuck_on x := lazymatch x with context [match _ with _ => _ end] => fail | _ =>
  first [match goal with H : x = _ |- _ => rewrite H end | is_var x; destruct x | lazymatch x with Scan _ _ _ _ => idtac | Cut _ _ => idtac | ParseUint _ => idtac | Err _ => idtac end; let E := fresh "E" in destruct x eqn:E] end.
Ltac step :=
  match goal with |- context [run_seq ?rd ?k ?f ?u ?I (from ?l ?n) ?s ?w] =>
    rewrite (from_runs rd k f u I l n s w) by (apply Nat.ltb_lt; reflexivity);
    lazymatch constr:((l, n)) with
    | (next_body, 12) => erewrite if_runs by reflexivity
    | _ => let H := fresh in eassert (run_cmd rd k f u I (stmt l n) s w = _) as H by (ucd; reflexivity); rewrite H; clear H
    end
  end;
  repeat (cbn [bind andthen drop_scope tl negb]; match goal with |- context [match ?x with _ => _ end] => stuck_on x end); cbn [bind andthen drop_scope tl negb].
(* the end of a body *)
Ltac last := match goal with |- context [run_seq ?rd ?k ?f ?u ?I (from ?l ?n) ?s ?w] =>
  change (run_seq rd k f u I (from l n) s w) with (Ret (w, Onward s)) end; cbn [bind andthen drop_scope tl negb].

Section Run.
Context {R : Type}.
Variable rd : reader R.
Variable keep : list gostring -> bool.
Variable fuel : nat.
Variable I : string -> list gval -> world R -> res (world R * list gval).

Lemma next_body_runs r s line y :
  scoped (run_seq rd keep fuel ucd_program I next_body) [] [[("sc", sc_value)]]%string (World r s line y) =
  let! (r', s', tok) := Scan ScanLines rd r s in
  match tok with
  | None => Ret (World r' s' None y, Done [[("sc", sc_value)]]%string (entry_results (inr (no_more s'))))
  | Some raw =>
      match parse_line (bytes_of s' raw) with
      | None => Ret (World r' s' (Some raw) y, Again [[("sc", sc_value)]]%string)
      | Some out => Ret (World r' s' (Some raw) y, Done [[("sc", sc_value)]]%string (entry_results out))
      end
  end.
Proof.
  unfold no_more, scoped, parse_line. change next_body with (from next_body 0). unfold commentMarker, fieldSeparator, rangeSeparator.
  repeat first [step | last]. all: reflexivity.
Qed.

(* The loop of NextEntry. *)
Lemma next_loop_sound n : forall r s line y w' a,
  forever n (scoped (run_seq rd keep fuel ucd_program I next_body) []) [[("sc", sc_value)]]%string (World r s line y) = Ret (w', a) ->
  exists out, NextEntry rd r s (w_reader w') (w_scanner w') out /\ a = Done [[("sc", sc_value)]]%string (entry_results out) /\ w_yielded w' = y.
Proof.
  induction n as [|n IH]; intros r s line y w' a; [discriminate|]. cbn [forever]. rewrite next_body_runs.
  destruct (Scan ScanLines rd r s) as [[[r1 s1] [raw|]]|x] eqn:E; [| |discriminate]; cbn [bind].
  - destruct (parse_line (bytes_of s1 raw)) as [out|] eqn:L; cbn [bind].
    + intros H. injection H as <- <-. exists out. split; [|split; reflexivity]. cbn [w_reader w_scanner].
      eapply next_found; [exact E|]. rewrite L. reflexivity.
    + intros H. apply IH in H. destruct H as (out & H & K). exists out. split; [|exact K].
      eapply next_skip; [exact E| |exact H]. rewrite L. reflexivity.
  - intros H. injection H as <- <-. exists (inr (no_more s1)). split; [|split; reflexivity]. apply next_stop. exact E.
Qed.
End Run.

Lemma next_loop_complete {R} (rd : reader R) keep r s r' s' out : NextEntry rd r s r' s' out -> forall line y,
  exists n line', forall n', n <= n' -> forall fuel I,
  forever n' (scoped (run_seq rd keep fuel ucd_program I next_body) []) [[("sc", sc_value)]]%string (World r s line y) =
  Ret (World r' s' line' y, Done [[("sc", sc_value)]]%string (entry_results out)).
Proof.
  unfold NextEntry. intros H. induction H as [r s r' s' E|r s r1 s1 raw out E L|r s r1 s1 raw r' s' out E L H IH]; intros line y.
  - exists 1, None. intros [|n'] Hn fuel I; [lia|]. cbn [forever]. rewrite next_body_runs, E. reflexivity.
  - exists 1, (Some raw). intros [|n'] Hn fuel I; [lia|]. cbn [forever]. rewrite next_body_runs, E. cbn [bind].
    assert (parse_line (bytes_of s1 raw) = Some out) as -> by congruence. reflexivity.
  - destruct (IH (Some raw) y) as (n & line' & K). exists (S n), line'. intros [|n'] Hn fuel I; [lia|].
    cbn [forever]. rewrite next_body_runs, E. cbn [bind].
    assert (parse_line (bytes_of s1 raw) = None) as -> by congruence. cbn [bind]. apply K. lia.
Qed.

