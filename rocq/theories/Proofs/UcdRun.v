(* The functions of ucdparse, executed from their source (C75). *)
From Coq Require Import List NArith ZArith Arith Bool Lia Strings.String Strings.Byte.
From Verif Require Import Model.Base Model.Scan Model.Bufio Model.PropNames Model.GenTable Model.UcdParse.
From Verif Require Import Spec.Utf8 Proofs.Basics.
From Verif Require Import Model.GoSyntax Model.UcdSyntax Model.UcdSemantics Model.UcdSourceUnit Proofs.UcdNext.
Import ListNotations.
Local Open Scope list_scope.

Lemma invoke_S {R} (rd : reader R) keep fuel u d key vs (w : world R) : invoke rd keep fuel u (S d) key vs w =
  match find_in (u_funs u) key with
  | Some f => run_fn rd keep fuel u (invoke rd keep fuel u d) f vs w
  | None => stuck
  end.
Proof. reflexivity. Qed.
Ltac function := rewrite invoke_S;
  match goal with |- context [find_in (u_funs ?G) ?k] => let x := eval cbv in (find_in (u_funs G) k) in change (find_in (u_funs G) k) with x end;
  cbv beta iota.

(* Functions without loops. *)
Lemma call_NewScanner {R} (rd : reader R) keep fuel d (w : world R) :
  invoke rd keep fuel ucd_program (S d) "NewScanner" [UReader] w =
  Ret (World (w_reader w) newLineScan None (w_yielded w), [sc_value]).
Proof. function. destruct w. cbv -[NewScanner newLineScan]. unfold newLineScan. reflexivity. Qed.
Lemma call_FirstString {R} (rd : reader R) keep fuel d t f (w : world R) :
  invoke rd keep fuel ucd_program (S d) "Fields.FirstString" [UBytes t f] w =
  Ret (w, [UStr (let '(before, _, _) := Cut fieldSeparator f in TrimSpace before)]).
Proof.
  function. generalize (invoke rd keep fuel ucd_program d). intros I. destruct w.
  cbv -[Cut TrimSpace]. destruct (Cut [x3b] f) as [[p q] b]. reflexivity.
Qed.
Lemma call_FirstField {R} (rd : reader R) keep fuel d e (w : world R) :
  invoke rd keep fuel ucd_program (S (S d)) "Entry.FirstField" [entry_value e] w = Ret (w, [UStr (FirstField e)]).
Proof.
  function. destruct e as [s t f]. pose proof (call_FirstString rd keep fuel d "Fields" f w) as E.
  revert E. generalize (invoke rd keep fuel ucd_program (S d)). intros I E.
  unfold run_fn. cbn [fn_recv fn_params fn_body with_args option_map].
  cbv [run_seq run_cmd results value_of andthen single bind method_call variable find_var find_in String.eqb Ascii.eqb Bool.eqb entry_value String.append Start End Fields].
  rewrite E. reflexivity.
Qed.

(* NextEntry. *)
Lemma call_NextEntry {R} (rd : reader R) keep fuel d (w : world R) :
  invoke rd keep fuel ucd_program (S d) "Scanner.NextEntry" [sc_value] w =
  let! (w', a) := forever fuel (scoped (run_seq rd keep fuel ucd_program (invoke rd keep fuel ucd_program d) next_body) [])
                    [[("sc", sc_value)]]%string w in
  match a with Done _ vs => Ret (w', vs) | Onward _ => Ret (w', []) | Again _ => stuck end.
Proof.
  function. unfold run_fn. cbn [fn_recv fn_params fn_body with_args option_map run_seq].
  match goal with |- context [run_cmd ?a ?b ?c ?u ?i (CFor ?bd) ?s ?v] =>
    change (run_cmd a b c u i (CFor bd) s v) with (forever c (scoped (run_seq a b c u i next_body) []) s v) end.
  destruct (forever _ _ _ _) as [[w' a]|x]; [|reflexivity]. destruct a; reflexivity.
Qed.

(* The iterator of the fields. *)
Definition strings_fn : gfunc := Eval cbv in body_of "Fields.Strings".
Definition iterator (f remain : list byte) : gval :=
  match fn_body strings_fn with
  | [_; CReturn [XFunc ps b]] => UClosure [[("remain", UBytes "" remain); ("f", UBytes "Fields" f)]]%string ps b
  | _ => UNil
  end.
Lemma call_Strings {R} (rd : reader R) keep fuel d f (w : world R) :
  invoke rd keep fuel ucd_program (S d) "Fields.Strings" [UBytes "Fields" f] w = Ret (w, [iterator f f]).
Proof. function. reflexivity. Qed.
Lemma call_AllFields {R} (rd : reader R) keep fuel d e (w : world R) :
  invoke rd keep fuel ucd_program (S (S d)) "Entry.AllFields" [entry_value e] w = Ret (w, [iterator (Fields e) (Fields e)]).
Proof.
  function. destruct e as [s t f]. pose proof (call_Strings rd keep fuel d f w) as E.
  revert E. generalize (invoke rd keep fuel ucd_program (S d)). intros I E.
  unfold run_fn. cbn [fn_recv fn_params fn_body with_args option_map].
  cbv [run_seq run_cmd results value_of andthen single bind method_call variable find_var find_in String.eqb Ascii.eqb Bool.eqb entry_value String.append Start End Fields].
  rewrite E. reflexivity.
Qed.

Definition strings_body : list cmd := Eval cbv in
  match fn_body strings_fn with [_; CReturn [XFunc _ b]] => loop_body b | _ => [] end.
Notation strings_env f remain := ([[("yield", UYield)]; [("remain", UBytes "" remain); ("f", UBytes "Fields" f)]]%string) (only parsing).

Section Strings.
Context {R : Type}.
Variable rd : reader R.
Variable keep : nat -> bool.
Variable fuel : nat.
Variable I : string -> list gval -> world R -> res (world R * list gval).
Notation body := (scoped (run_seq rd (fun l => keep (List.length l)) fuel ucd_program I strings_body) []).

Lemma strings_body_runs f remain r s line y :
  body (strings_env f remain) (World r s line y) =
  let '(before, after, foundSep) := Cut fieldSeparator remain in
  let w := World r s line (y ++ [TrimSpace before]) in
  if negb (keep (List.length y)) then Ret (w, Done (strings_env f remain) [])
  else if negb foundSep then Ret (w, Done (strings_env f remain) [])
  else Ret (w, Onward (strings_env f after)).
Proof.
  cbv -[Cut TrimSpace List.length app gostring]. destruct (Cut [x3b] remain) as [[before after] []]; destruct (keep (List.length y)); reflexivity.
Qed.

Lemma strings_loop n : forall remain y r s line f, List.length remain < n ->
  forall m, List.length remain < m ->
  forever n body (strings_env f remain) (World r s line y) =
  let! (vals, remain') := strings_rounds m keep (List.length y) remain in
  Ret (World r s line (y ++ vals), Done (strings_env f remain') []).
Proof.
  induction n as [|n IH]; [lia|]. intros remain y r s line f Hn m Hm. destruct m as [|m]; [lia|].
  cbn [forever]. rewrite strings_body_runs. cbn [strings_rounds].
  destruct (Cut fieldSeparator remain) as [[before after] found] eqn:E.
  destruct (negb (keep (List.length y))); [reflexivity|]. destruct found; cbn [negb]; [|reflexivity]. cbn [bind].
  assert (List.length after < List.length remain) as L.
  { clear - E. revert before E. induction remain as [|b l IH]; intros before E; [discriminate E|].
    cbn [Cut after_prefix fieldSeparator] in E. cbn [List.length].
    destruct (Byte.eqb x3b b).
    - injection E as _ <-. lia.
    - change [x3b] with fieldSeparator in E.
      destruct (Cut fieldSeparator l) as [[p q] fnd]. assert (q = after /\ fnd = true) as [-> ->] by (split; congruence).
      specialize (IH p eq_refl). lia. }
  rewrite (IH after _ r s line f ltac:(lia) m ltac:(lia)). rewrite app_length. cbn [List.length]. rewrite Nat.add_1_r.
  destruct (strings_rounds m keep (S (List.length y)) after) as [[vals rem]|x]; [|reflexivity]. cbn [bind]. rewrite <- app_assoc. reflexivity.
Qed.

Lemma run_strings f remain w : List.length remain < fuel ->
  (let! (w', it) := run_iterator rd (fun l => keep (List.length l)) fuel ucd_program I (iterator f remain)
     (World (w_reader w) (w_scanner w) (w_line w) []) in Ret (w_yielded w', it)) =
  let! (vals, remain') := range_strings keep remain in Ret (vals, iterator f remain').
Proof.
  intros H. unfold run_iterator, iterator. cbn [strings_fn fn_body with_args option_map run_seq].
  match goal with |- context [run_cmd ?a ?b ?c ?u ?i (CFor ?bd) ?s ?v] =>
    change (run_cmd a b c u i (CFor bd) s v) with (forever c body s v) end.
  rewrite (strings_loop fuel remain [] _ _ _ f H (S (List.length remain)) ltac:(lia)). unfold range_strings. cbn [List.length].
  destruct (strings_rounds (S (List.length remain)) keep 0 remain) as [[vals rem]|x]; reflexivity.
Qed.
End Strings.

(* ---- testdata_scan.go *)

Lemma EncodeRune_length z : List.length (EncodeRune z) <= 4.
Proof.
  unfold EncodeRune. destruct ((0 <=? z)%Z && scalarb (Z.to_N z)); [|vm_compute; lia].
  generalize (Z.to_N z). intros n. unfold utf8_encode. repeat (match goal with |- context [if ?b then _ else _] => destruct b end); cbn; lia.
Qed.
Lemma slice_encoded (e q : list byte) : slice_to (e ++ q) (Z.to_nat (Z.of_nat (List.length e))) = Ret e.
Proof.
  rewrite Nat2Z.id. rewrite slice_to_ok by (rewrite app_length; lia). f_equal. rewrite firstn_app, Nat.sub_diag, firstn_all. cbn. apply app_nil_r.
Qed.
Lemma ParseInt_int32 s z : ParseInt s = inl z -> int32 z = z.
Proof.
  intros H. assert (-2147483648 <= z < 2147483648)%Z as B.
  { destruct s as [|c s]; [discriminate H|]. cbn [ParseInt] in H.
    destruct (match ParseUint _ with inl n => inl n | inr ErrRange => inl 0xFFFFFFFF%N | inr e => inr e end) as [un|e]; [|discriminate H].
    destruct (Byte.eqb c x2d); cbn [negb andb] in H.
    - destruct (0x80000000 <? un)%N eqn:E; [discriminate H|]. injection H as <-. apply N.ltb_ge in E. lia.
    - destruct (0x80000000 <=? un)%N eqn:E; [discriminate H|]. injection H as <-. apply N.leb_gt in E. lia. }
  unfold int32. rewrite Z.mod_small by lia. lia.
Qed.
Lemma len_is_zero {A} (p : list A) : (Z.of_nat (List.length p) =? 0)%Z = is_empty p.
Proof. destruct p; reflexivity. Qed.

Definition test_sc : gval := URecord "TestDataScanner" [("lineScan", UScanner)]%string.
Definition test_value (e : TestDataEntry) : gval :=
  URecord "TestDataEntry" [("Input", UBytes "" (Input e)); ("WantSegments", USlices (WantSegments e))]%string.
Definition test_results (out : result TestDataEntry) : list gval :=
  match out with inl e => [test_value e; UNil] | inr err => [test_value (MkTest [] []); UErr err] end.

Definition test_body : list cmd := Eval cbv in loop_body (fn_body (body_of "TestDataScanner.NextEntry")).
Definition range_body (b : list cmd) : list cmd :=
  match find (fun c => match c with CRange _ _ _ => true | _ => false end) b with Some (CRange _ _ b) => b | _ => [] end.
Definition segs_body : list cmd := Eval cbv in range_body test_body.
Definition chars_body : list cmd := Eval cbv in range_body segs_body.

(* one statement, evaluated by ev *)
Ltac one ev := match goal with |- context [run_seq ?rd ?k ?f ?u ?I (from ?l ?n) ?s ?w] =>
    rewrite (from_runs rd k f u I l n s w) by (apply Nat.ltb_lt; reflexivity);
    let H := fresh in eassert (run_cmd rd k f u I (stmt l n) s w = _) as H by (ev; reflexivity); rewrite H; clear H
  end; cbn [bind andthen drop_scope tl negb].
Ltac chars := cbv -[TrimSpace ParseInt EncodeRune int32 app List.length Z.of_nat Z.eqb Z.to_nat repeat Nat.leb slice_to skipn].
Ltac before := cbv -[Scan ScanLines Cut TrimSpace Split bytes_of Err is_empty List.length Z.of_nat Z.eqb].

Section Test.
Context {R : Type}.
Variable rd : reader R.
Variable keep : list gostring -> bool.
Variable fuel : nat.
Variable I : string -> list gval -> world R -> res (world R * list gval).
Notation run := (run_seq rd keep fuel ucd_program I).

Section Env.
Variables (raw : list byte) (segs : list (list byte)).
Definition outer_env (e : TestDataEntry) : scopes :=
  [[("entry", test_value e); ("wantSegs", USlices segs); ("raw", UBytes "" raw)]; [("sc", test_sc)]]%string.
Definition inner_env (chars : list (list byte)) (seg : list byte) (cur input : list byte) (ws : list (list byte)) : scopes :=
  [("currentSeg", UBytes "" cur); ("charsHex", USlices chars); ("wantSeg", UBytes "" seg)]%string :: outer_env (MkTest input ws).

Lemma chars_body_runs p chars seg cur input ws (w : world R) :
  scoped (run chars_body) [("charHex", UBytes "" p)]%string (inner_env chars seg cur input ws) w =
  if is_empty (TrimSpace p) then Ret (w, Again (inner_env chars seg cur input ws))
  else match ParseInt (TrimSpace p) with
  | inr _ => Ret (w, Done (inner_env chars seg cur input ws) (test_results (inr (InvalidReference (TrimSpace p)))))
  | inl z => Ret (w, Onward (inner_env chars seg (cur ++ EncodeRune z) (input ++ EncodeRune z) ws))
  end.
Proof.
  rewrite <- (len_is_zero (TrimSpace p)). unfold scoped. change chars_body with (from chars_body 0).
  one ltac:(chars). one ltac:(chars).
  destruct (Z.of_nat (List.length (TrimSpace p)) =? 0)%Z; [reflexivity|]. cbn [bind andthen drop_scope tl negb].
  one ltac:(chars). destruct (ParseInt (TrimSpace p)) as [z|e] eqn:E; cbn [bind andthen drop_scope tl negb]; one ltac:(chars); [|reflexivity].
  apply ParseInt_int32 in E.
  one ltac:(chars). one ltac:(chars). rewrite E.
  assert (Nat.leb (List.length (EncodeRune z)) (List.length (repeat x00 (Z.to_nat 4))) = true) as ->.
  { apply Nat.leb_le. exact (EncodeRune_length z). }
  cbn [bind andthen drop_scope tl negb]. one ltac:(chars). rewrite slice_encoded. cbn [bind andthen drop_scope tl negb].
  one ltac:(chars). one ltac:(chars). reflexivity.
Qed.

Lemma chars_loop chars seg ws l : forall cur input w,
  match test_chars l input cur with
  | inl (input', cur') =>
      each "charHex" l (scoped (run chars_body)) (inner_env chars seg cur input ws) w = Ret (w, Onward (inner_env chars seg cur' input' ws))
  | inr err =>
      exists s, each "charHex" l (scoped (run chars_body)) (inner_env chars seg cur input ws) w =
        Ret (w, Done s (test_results (inr err)))
  end.
Proof.
  induction l as [|p l IH]; intros cur input w; [reflexivity|]. cbn [test_chars each]. rewrite chars_body_runs.
  destruct (is_empty (TrimSpace p)); [exact (IH cur input w)|].
  destruct (ParseInt (TrimSpace p)) as [z|e]; cbn [bind]; [exact (IH (cur ++ EncodeRune z) (input ++ EncodeRune z) w)|].
  eexists. reflexivity.
Qed.

Definition segs_before : list cmd := Eval cbv in firstn 2 segs_body.
Definition segs_after : list cmd := Eval cbv in skipn 3 segs_body.
Lemma seq_app a b s (w : world R) : run (a ++ b) s w = let! (w, o) := run a s w in andthen (run b) w o.
Proof.
  revert s w. induction a as [|c a IH]; intros s w; [reflexivity|]. cbn [app run_seq].
  destruct (run_cmd rd keep fuel ucd_program I c s w) as [[w1 o]|x]; [|reflexivity]. cbn [bind]. destruct o; [apply IH|reflexivity|reflexivity].
Qed.

Lemma segs_body_runs p e (w : world R) :
  match Split p nonsplitMarker with
  | Panic x => scoped (run segs_body) [("wantSeg", UBytes "" p)]%string (outer_env e) w = Panic x
  | Ret chars =>
      match test_chars chars (Input e) [] with
      | inr err => exists s, scoped (run segs_body) [("wantSeg", UBytes "" p)]%string (outer_env e) w = Ret (w, Done s (test_results (inr err)))
      | inl (input, cur) =>
          scoped (run segs_body) [("wantSeg", UBytes "" p)]%string (outer_env e) w =
          Ret (w, Onward (outer_env (MkTest input (if is_empty cur then WantSegments e else WantSegments e ++ [cur]))))
      end
  end.
Proof.
  unfold scoped. change segs_body with (segs_before ++ (CRange "charHex" (XVar "charsHex") chars_body :: segs_after)).
  rewrite seq_app.
  assert (run segs_before ([("wantSeg", UBytes "" p)]%string :: outer_env e) w =
    let! chars := Split p nonsplitMarker in Ret (w, Onward (inner_env chars p [] (Input e) (WantSegments e)))) as ->.
  { destruct e as [input ws]. cbv -[Split app]. destruct (Split p [xc3; x97]); reflexivity. }
  destruct (Split p nonsplitMarker) as [chars|x]; [|reflexivity]. cbn [bind andthen run_seq].
  assert (run_cmd rd keep fuel ucd_program I (CRange "charHex" (XVar "charsHex") chars_body) (inner_env chars p [] (Input e) (WantSegments e)) w =
    each "charHex" chars (scoped (run chars_body)) (inner_env chars p [] (Input e) (WantSegments e)) w) as -> by reflexivity.
  pose proof (chars_loop chars p (WantSegments e) chars [] (Input e) w) as L.
  destruct (test_chars chars (Input e) []) as [[input cur]|err].
  - rewrite L. cbn [bind andthen]. rewrite <- len_is_zero.
    cbv -[app List.length Z.of_nat Z.eqb]. destruct (Z.of_nat (List.length cur) =? 0)%Z; reflexivity.
  - destruct L as [s ->]. eexists. reflexivity.
Qed.

Lemma segs_loop l : forall e w,
  match test_segs l e with
  | Panic x => each "wantSeg" l (scoped (run segs_body)) (outer_env e) w = Panic x
  | Ret (inl e') => each "wantSeg" l (scoped (run segs_body)) (outer_env e) w = Ret (w, Onward (outer_env e'))
  | Ret (inr err) => exists s, each "wantSeg" l (scoped (run segs_body)) (outer_env e) w = Ret (w, Done s (test_results (inr err)))
  end.
Proof.
  induction l as [|p l IH]; intros e w; [reflexivity|]. cbn [test_segs each]. pose proof (segs_body_runs p e w) as B.
  destruct (Split p nonsplitMarker) as [chars|x]; [|rewrite B; reflexivity]. cbn [bind].
  destruct (test_chars chars (Input e) []) as [[input cur]|err].
  - rewrite B. cbn [bind]. apply IH.
  - destruct B as [s ->]. eexists. reflexivity.
Qed.
End Env.

Definition test_before : list cmd := Eval cbv in firstn 7 test_body.
Definition test_after : list cmd := Eval cbv in skipn 8 test_body.

(* The part of the body before the loops: the line, or an answer already. *)
Lemma test_before_runs r s line y :
  run test_before [[]; [("sc", test_sc)]]%string (World r s line y) =
  let! (r', s', tok) := Scan ScanLines rd r s in
  match tok with
  | None => Ret (World r' s' None y, Done [[]; [("sc", test_sc)]]%string (test_results (inr (no_more s'))))
  | Some sl =>
      let '(p, _, _) := Cut commentMarker (bytes_of s' sl) in
      let raw := TrimSpace p in
      let w := World r' s' (Some sl) y in
      if is_empty raw then Ret (w, Again [[("raw", UBytes "" raw)]; [("sc", test_sc)]]%string)
      else let! segs := Split raw splitMarker in Ret (w, Onward (outer_env raw segs (MkTest [] [])))
  end.
Proof.
  unfold no_more. change test_before with (from test_before 0). one ltac:(before).
  destruct (Scan ScanLines rd r s) as [[[r' s'] [raw|]]|x]; cbn [bind andthen drop_scope tl negb];
    [|destruct (Err s'); reflexivity|reflexivity].
  one ltac:(before). one ltac:(before).
  change [x23] with commentMarker. destruct (Cut commentMarker (bytes_of s' raw)) as [[p q] f]. cbn [bind andthen drop_scope tl negb].
  one ltac:(before). one ltac:(before). rewrite <- len_is_zero.
  destruct (Z.of_nat (List.length (TrimSpace p)) =? 0)%Z; [reflexivity|]. cbn [bind andthen drop_scope tl negb].
  one ltac:(before). change [xc3; xb7] with splitMarker. destruct (Split (TrimSpace p) splitMarker); [|reflexivity]. cbn [bind andthen drop_scope tl negb].
  one ltac:(before). reflexivity.
Qed.

Lemma test_body_runs r s line y :
  match Scan ScanLines rd r s with
  | Panic x => scoped (run test_body) [] [[("sc", test_sc)]]%string (World r s line y) = Panic x
  | Ret (r', s', None) => exists e,
      scoped (run test_body) [] [[("sc", test_sc)]]%string (World r s line y) =
      Ret (World r' s' None y, Done e (test_results (inr (no_more s'))))
  | Ret (r', s', Some sl) =>
      match parse_test_line (bytes_of s' sl) with
      | Panic x => scoped (run test_body) [] [[("sc", test_sc)]]%string (World r s line y) = Panic x
      | Ret None => scoped (run test_body) [] [[("sc", test_sc)]]%string (World r s line y) =
          Ret (World r' s' (Some sl) y, Again [[("sc", test_sc)]]%string)
      | Ret (Some out) => exists e,
          scoped (run test_body) [] [[("sc", test_sc)]]%string (World r s line y) = Ret (World r' s' (Some sl) y, Done e (test_results out))
      end
  end.
Proof.
  unfold scoped. change test_body with (test_before ++ (CRange "wantSeg" (XVar "wantSegs") segs_body :: test_after)).
  rewrite seq_app, test_before_runs.
  destruct (Scan ScanLines rd r s) as [[[r' s'] [sl|]]|x]; [| |reflexivity]; cbn [bind]; [|eexists; reflexivity].
  unfold parse_test_line. destruct (Cut commentMarker (bytes_of s' sl)) as [[p q] f].
  destruct (is_empty (TrimSpace p)); [reflexivity|].
  destruct (Split (TrimSpace p) splitMarker) as [segs|x]; [|reflexivity]. cbn [bind andthen run_seq].
  assert (forall w, run_cmd rd keep fuel ucd_program I (CRange "wantSeg" (XVar "wantSegs") segs_body) (outer_env (TrimSpace p) segs (MkTest [] [])) w =
    each "wantSeg" segs (scoped (run segs_body)) (outer_env (TrimSpace p) segs (MkTest [] [])) w) as E by reflexivity.
  rewrite E. clear E. pose proof (segs_loop (TrimSpace p) segs segs (MkTest [] []) (World r' s' (Some sl) y)) as L.
  destruct (test_segs segs (MkTest [] [])) as [[e|err]|x].
  - rewrite L. eexists. destruct e. reflexivity.
  - destruct L as [e ->]. eexists. reflexivity.
  - rewrite L. reflexivity.
Qed.
End Test.

Lemma test_loop_sound {R} (rd : reader R) keep fuel I n : forall r s line y w' a,
  forever n (scoped (run_seq rd keep fuel ucd_program I test_body) []) [[("sc", test_sc)]]%string (World r s line y) = Ret (w', a) ->
  exists out e, NextTestEntry rd r s (w_reader w') (w_scanner w') out /\ a = Done e (test_results out) /\ w_yielded w' = y.
Proof.
  induction n as [|n IH]; intros r s line y w' a; [discriminate|]. cbn [forever].
  pose proof (test_body_runs rd keep fuel I r s line y) as B.
  destruct (Scan ScanLines rd r s) as [[[r1 s1] [raw|]]|x] eqn:E.
  - destruct (parse_test_line (bytes_of s1 raw)) as [[out|]|x] eqn:L.
    + destruct B as [e ->]. cbn [bind]. intros H. injection H as <- <-. exists out, e. split; [|split; reflexivity].
      eapply next_found; [exact E|exact L].
    + rewrite B. cbn [bind]. intros H. apply IH in H. destruct H as (out & e & H & K). exists out, e. split; [|exact K].
      eapply next_skip; [exact E|exact L|exact H].
    + rewrite B. discriminate.
  - destruct B as [e ->]. cbn [bind]. intros H. injection H as <- <-. exists (inr (no_more s1)), e.
    split; [|split; reflexivity]. apply next_stop. exact E.
  - rewrite B. discriminate.
Qed.

Lemma test_loop_complete {R} (rd : reader R) keep r s r' s' out : NextTestEntry rd r s r' s' out -> forall line y,
  exists n line', forall n', n <= n' -> forall fuel I, exists e,
  forever n' (scoped (run_seq rd keep fuel ucd_program I test_body) []) [[("sc", test_sc)]]%string (World r s line y) =
  Ret (World r' s' line' y, Done e (test_results out)).
Proof.
  unfold NextTestEntry. intros H. induction H as [r s r' s' E|r s r1 s1 raw out E L|r s r1 s1 raw r' s' out E L H IH]; intros line y.
  - exists 1, None. intros [|n'] Hn fuel I; [lia|]. cbn [forever]. pose proof (test_body_runs rd keep fuel I r s line y) as B.
    rewrite E in B. destruct B as [e ->]. exists e. reflexivity.
  - exists 1, (Some raw). intros [|n'] Hn fuel I; [lia|]. cbn [forever]. pose proof (test_body_runs rd keep fuel I r s line y) as B.
    rewrite E, L in B. destruct B as [e ->]. exists e. reflexivity.
  - destruct (IH (Some raw) y) as (n & line' & K). exists (S n), line'. intros [|n'] Hn fuel I; [lia|].
    cbn [forever]. pose proof (test_body_runs rd keep fuel I r s line y) as B. rewrite E, L in B. rewrite B. cbn [bind]. apply K. lia.
Qed.

Lemma call_NextTestEntry {R} (rd : reader R) keep fuel d (w : world R) :
  invoke rd keep fuel ucd_program (S d) "TestDataScanner.NextEntry" [test_sc] w =
  let! (w', a) := forever fuel (scoped (run_seq rd keep fuel ucd_program (invoke rd keep fuel ucd_program d) test_body) [])
                    [[("sc", test_sc)]]%string w in
  match a with Done _ vs => Ret (w', vs) | Onward _ => Ret (w', []) | Again _ => stuck end.
Proof.
  function. unfold run_fn. cbn [fn_recv fn_params fn_body with_args option_map run_seq].
  match goal with |- context [run_cmd ?a ?b ?c ?u ?i (CFor ?bd) ?s ?v] =>
    change (run_cmd a b c u i (CFor bd) s v) with (forever c (scoped (run_seq a b c u i test_body) []) s v) end.
  destruct (forever _ _ _ _) as [[w' a]|x]; [|reflexivity]. destruct a; reflexivity.
Qed.
Lemma call_NewTestDataScanner {R} (rd : reader R) keep fuel d (w : world R) :
  invoke rd keep fuel ucd_program (S d) "NewTestDataScanner" [UReader] w =
  Ret (World (w_reader w) newLineScan None (w_yielded w), [test_sc]).
Proof. function. destruct w. cbv -[NewScanner newLineScan]. unfold newLineScan. reflexivity. Qed.
