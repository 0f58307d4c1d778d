(* Property C51: what the generator makes of any three files at all. *)
From Coq Require Import List NArith ZArith Arith Bool Lia Strings.Byte Strings.String.
From Coq Require Import ZifyBool ZifyNat ZifyN.
From Verif Require Import Spec.Utf8 Spec.Assignments Spec.Readers Spec.UcdFile Spec.Generation Spec.ErrorValues Spec.AnyFiles.
From Verif Require Import Model.Base Model.CharProps Model.Lookup Model.Bufio Model.GenTable Model.UcdParse Model.BuildTree.
From Verif Require Import Proofs.Basics Proofs.BufioFacts Proofs.ParseFacts Proofs.UcdFacts Proofs.BuildFacts Proofs.GenRaw
  Proofs.AnyFiles.
From Verif Require Import Properties.Bufio Properties.Parsing Properties.Generator.
Import ListNotations.
Notation length := List.length.
Ltac Zify.zify_post_hook ::= Z.div_mod_to_equations.

(* Whatever the three files hold, however long their lines are, with whatever
   error each of them ends, and whatever the schedules of the readers: the run
   has exactly one outcome, and it is that of the assignments asked for before
   the first failure - a panic if they conflict, otherwise the failure, otherwise
   that of the generator for these assignments (C28, C29). *)
Theorem C51_any {R1 R2 R3} (rd1 : reader R1) r1 (rd2 : reader R2) r2 (rd3 : reader R3) r3 f1 e1 f2 e2 f3 e3 :
  delivers rd1 100 r1 f1 e1 -> delivers rd2 100 r2 f2 e2 -> delivers rd3 100 r3 f3 e3 ->
  exists out, BuildRawPropertyTree rd1 r1 rd2 r2 rd3 r3 out /\
    (forall out', BuildRawPropertyTree rd1 r1 rd2 r2 rd3 r3 out' -> out' = out) /\
    exists ops failure, run_asks f1 e1 f2 e2 f3 e3 ops failure /\
      match failure with
      | Some err => (conflict ops -> out = Panic ConflictingProperties) /\ (~ conflict ops -> out = Ret (inr err))
      | None => main_tables out = (let! tb := generate ops in Ret (inl tb))
      end.
Proof.
  intros D1 D2 D3. destruct (build_any rd1 r1 rd2 r2 rd3 r3 f1 e1 f2 e2 f3 e3 D1 D2 D3) as (ops & failure & HA & B).
  exists (run_ends ops failure). split; [exact B|]. split; [intros out' B'; eapply build_fun; eassumption|].
  exists ops, failure. split; [exact HA|]. unfold run_ends. destruct failure as [err|].
  - destruct (run_spec ops) as [[HC E]|(HC & t & inn & lef & F & E & _)]; rewrite E; cbn [bind]; split; tauto.
  - unfold generate, build_tree, main_tables. destruct (run_ops newTreeInProgress ops) as [t|p]; cbn [bind]; [|reflexivity].
    destruct (Compact t) as [tree|p]; cbn [bind]; [|reflexivity]. destruct (emit tree); reflexivity.
Qed.

(* So the tables, if any are written, hold for every character what was asked
   for; what is asked for a number that is no scalar value goes to U+FFFD. *)
Theorem C51_lookup {R1 R2 R3} (rd1 : reader R1) r1 (rd2 : reader R2) r2 (rd3 : reader R3) r3 f1 e1 f2 e2 f3 e3 out tb :
  delivers rd1 100 r1 f1 e1 -> delivers rd2 100 r2 f2 e2 -> delivers rd3 100 r3 f3 e3 ->
  BuildRawPropertyTree rd1 r1 rd2 r2 rd3 r3 out -> main_tables out = Ret (inl tb) ->
  exists ops, run_asks f1 e1 f2 e2 f3 e3 ops None /\
    forall c rest, scalar c -> lookup_first_char tb (utf8_encode c ++ rest) = Ret (value ops c, length (utf8_encode c)).
Proof.
  intros D1 D2 D3 B E.
  destruct (C51_any rd1 r1 rd2 r2 rd3 r3 f1 e1 f2 e2 f3 e3 D1 D2 D3) as (out' & _ & H1 & ops & failure & HA & H2).
  rewrite (H1 out B) in E. destruct failure as [err|].
  - exfalso. destruct (run_spec ops) as [[HC _]|(HC & _)].
    + rewrite (proj1 H2 HC) in E. discriminate E.
    + rewrite (proj2 H2 HC) in E. discriminate E.
  - exists ops. split; [exact HA|]. rewrite H2 in E. destruct (generate ops) as [tb'|] eqn:G; cbn [bind] in E; [|discriminate].
    assert (tb' = tb) as -> by congruence. intros c rest Hc. apply (C28_generated _ _ G). exact Hc.
Qed.

(* When all lines are shorter than 64 KiB, the assignments, and the failure if
   there is one, are determined by the files. *)
Definition lines_short (file : list byte) : Prop := forall lines, file_lines file lines -> Forall short lines.

Lemma means_fun ls ms : Forall2 line_means ls ms -> forall ms', Forall2 line_means ls ms' -> ms = ms'.
Proof.
  induction 1 as [|l m ls ms Hl H IH]; intros ms' H'; inversion H' as [|? m' ? ms2 Hl' H2]; subst; [reflexivity|].
  f_equal; [|auto]. apply meaning_of_iff in Hl, Hl'. congruence.
Qed.

Lemma reads_short file e ms x : lines_short file -> file_reads file e ms x ->
  x = e /\ exists lines, file_lines file lines /\ Forall2 line_means lines ms.
Proof.
  intros S H.
  assert (forall lines long rest, file_lines file (lines ++ long :: rest) -> 64 * 1024 <= length long -> False) as No.
  { intros lines long rest Hf Hl. specialize (S _ Hf). apply Forall_app in S. destruct S as [_ S].
    inversion S as [|? ? K _]; subst. unfold short in K. apply (Nat.lt_irrefl (length long)). eapply Nat.lt_le_trans; eassumption. }
  destruct H as [lines ms Hf HF Hm|lines long rest ms Hf Ho HF Hm|lines last ms Hf Hl HF Hm|lines last ms Hf Hl HF Hm].
  - split; [reflexivity|]. exists lines. auto.
  - exfalso. apply (No _ _ _ Hf). destruct Ho as [K|[K _]]; [apply Nat.lt_le_incl; exact K|rewrite K; apply Nat.le_refl].
  - exfalso. apply (No _ _ _ Hf). rewrite Hl. apply Nat.le_refl.
  - exfalso. apply (No _ _ _ Hf). rewrite Hl. apply Nat.le_refl.
Qed.

Lemma not_well_formed a f b : ~ Forall well_formed (a ++ Malformed f :: b).
Proof.
  intros H. apply Forall_app in H. destruct H as [_ H]. inversion H as [|? ? W _]; subst. exact (W f eq_refl).
Qed.

Lemma first_malformed (a a' : list meaning) f f' b b' : a ++ Malformed f :: b = a' ++ Malformed f' :: b' ->
  Forall well_formed a -> Forall well_formed a' -> a = a' /\ f = f'.
Proof.
  revert a'. induction a as [|m a IH]; intros [|m' a'] E N N'.
  - cbn [app] in E. split; [reflexivity|congruence].
  - cbn [app] in E. exfalso. apply (not_well_formed [] f a'). cbn [app]. replace (Malformed f) with m' by congruence. exact N'.
  - cbn [app] in E. exfalso. apply (not_well_formed [] f' a). cbn [app]. replace (Malformed f') with m by congruence. exact N.
  - cbn [app] in E. inversion N; inversion N'; subst. destruct (IH a') as [-> ->]; [congruence|assumption|assumption|]. split; [|reflexivity].
    f_equal. congruence.
Qed.

Lemma from_fun file e u x u' x' : lines_short file -> from_file file e u x -> from_file file e u' x' -> u = u' /\ x = x'.
Proof.
  intros S (ms & y & Hr & Hu) (ms' & y' & Hr' & Hu').
  destruct (reads_short _ _ _ _ S Hr) as (-> & lines & Hf & Hm). destruct (reads_short _ _ _ _ S Hr') as (-> & lines' & Hf' & Hm').
  pose proof (file_lines_fun _ _ Hf _ Hf') as <-. pose proof (means_fun _ _ Hm _ Hm') as <-. clear - Hu Hu'.
  inversion Hu as [ms0 N|ms0 x0 N D|ms0 f rest x0 N]; subst;
    inversion Hu' as [ms1 N1|ms1 x1 N1 D1|ms1 f1 rest1 x1 N1]; subst;
    try (exfalso; eapply not_well_formed; eassumption); try congruence; try (split; reflexivity).
  match goal with E : _ ++ Malformed _ :: _ = _ ++ Malformed _ :: _ |- _ => destruct (first_malformed _ _ _ _ _ _ E) as [Q1 Q2]; try assumption end.
  split; congruence.
Qed.

Theorem C51_determined f1 e1 f2 e2 f3 e3 ops x ops' x' :
  lines_short f1 -> lines_short f2 -> lines_short f3 ->
  run_asks f1 e1 f2 e2 f3 e3 ops x -> run_asks f1 e1 f2 e2 f3 e3 ops' x' -> ops = ops' /\ x = x'.
Proof.
  intros S1 S2 S3 H H'.
  assert (forall f e m m' err, lines_short f -> from_file f e m (Some err) -> from_file f e m' None -> False) as No.
  { intros f e m m' err S A B. destruct (from_fun f e m (Some err) m' None S A B) as [_ K]. discriminate K. }
  inversion H as [a err A|a b err A B|a b c fl A B C]; subst; inversion H' as [a' err' A'|a' b' err' A' B'|a' b' c' fl' A' B' C']; subst;
    try (exfalso; eapply No; [exact S1|eassumption|eassumption]; fail);
    try (exfalso; eapply No; [exact S2|eassumption|eassumption]; fail).
  - destruct (from_fun _ _ _ _ _ _ S1 A A') as [-> K]. auto.
  - destruct (from_fun _ _ _ _ _ _ S1 A A') as [-> _]. destruct (from_fun _ _ _ _ _ _ S2 B B') as [-> K]. auto.
  - destruct (from_fun _ _ _ _ _ _ S1 A A') as [-> _]. destruct (from_fun _ _ _ _ _ _ S2 B B') as [-> _].
    destruct (from_fun _ _ _ _ _ _ S3 C C') as [-> K]. auto.
Qed.

(* For lines about code points this is what C44 says. *)
Theorem C51_proper ms1 ms2 ms3 : Forall proper ms1 -> Forall proper ms2 -> Forall proper ms3 ->
  flat_map gcb_asks ms1 ++ flat_map emoji_asks ms2 ++ flat_map incb_asks ms3 = assignments ms1 ms2 ms3.
Proof.
  assert (forall first last, (first <= 0x10FFFF)%N -> (last <= 0x10FFFF)%N -> asked first last = code_points first last) as A.
  { intros first last L1 L2. unfold asked, code_points. rewrite !signed_int32, !int32_small by lia. f_equal. f_equal. lia. }
  assert (forall f g ms, Forall proper ms -> (forall m, proper m -> f m = g m) -> flat_map f ms = flat_map g ms :> list op) as E.
  { intros f g ms H K. induction H as [|m ms Hm H IH]; [reflexivity|]. cbn [flat_map]. rewrite IH, K by exact Hm. reflexivity. }
  intros P1 P2 P3. unfold assignments. f_equal; [|f_equal]; (apply E; [assumption|]);
    intros [|first last fields|]; cbn [proper]; try reflexivity; intros [L1 L2].
  - cbn [gcb_asks gcb_assignments]. rewrite A by assumption. reflexivity.
  - cbn [emoji_asks emoji_assignments]. rewrite A by assumption. reflexivity.
  - destruct fields as [|n [|v fs]]; cbn [incb_asks incb_assignments]; try reflexivity. rewrite A by assumption. reflexivity.
Qed.

(* ---- cases *)

Lemma short_file f ls : file_lines f ls -> forallb (fun l => length l <? 100) ls = true -> Forall short ls.
Proof.
  intros _ H. apply Forall_forall. intros l Hl. rewrite forallb_forall in H. specialize (H l Hl). apply Nat.ltb_lt in H.
  unfold short. eapply Nat.lt_trans; [exact H|]. apply Nat.ltb_lt. vm_compute. reflexivity.
Qed.

(* A number that is no code point: its value goes to U+FFFD.  A number of 32 bits
   with the highest one set is negative; a range up to 7FFFFFFF is empty. *)
Definition wild : list byte := list_byte_of_string ("110000;CR" ++ nl ++ "80000000;LF" ++ nl ++ "0..7FFFFFFF;ZWJ").
Example C51_wild : exists ops, run_asks wild EOF [] EOF [] EOF ops None /\
  ops = [OpSet 0x110000 1; OpSet (- 2 ^ 31) 6] /\ value ops 0xFFFD = 6%N /\ ~ conflict ops.
Proof.
  assert (file_lines wild (map list_byte_of_string ["110000;CR"; "80000000;LF"; "0..7FFFFFFF;ZWJ"]%string)) as Hf.
  { assert (forall l, existsb (Byte.eqb x0a) l = false -> ~ In x0a l) as K.
    { intros l H HI. enough (existsb (Byte.eqb x0a) l = true) by congruence. apply existsb_exists. exists x0a. auto. }
    unfold wild, nl. cbn [map].
    repeat (match goal with |- file_lines _ (?l :: _ :: _) =>
      apply (lines_more l); [apply K; vm_compute; reflexivity|] end).
    apply lines_last; [apply K; vm_compute; reflexivity|discriminate]. }
  assert (from_file wild EOF [Data 0x110000 0x110000 [list_byte_of_string "CR"]; Data 0x80000000 0x80000000 [list_byte_of_string "LF"];
                              Data 0 0x7FFFFFFF [list_byte_of_string "ZWJ"]] None) as F1.
  { eexists. eexists. split; [eapply reads_all; [exact Hf|eapply short_file; [exact Hf|vm_compute; reflexivity]|]|].
    - cbn [map]. repeat constructor; apply meaning_of_iff; vm_compute; reflexivity.
    - apply uses_all. repeat (constructor; [intros f; discriminate|]). constructor. }
  assert (from_file [] EOF [] None) as F0.
  { exists [], EOF. split; [eapply reads_all; [apply lines_none|constructor|constructor]|apply uses_all; constructor]. }
  eexists. split; [eapply asks_three; [exact F1|exact F0|exact F0]|]. split; [vm_compute; reflexivity|].
  split; [vm_compute; reflexivity|]. intros (before & r & after & E & _).
  assert (In (OpSet r 4) (before ++ OpSet r 4 :: after)) as Q by (apply in_or_app; right; left; reflexivity).
  rewrite <- E in Q. vm_compute in Q. repeat (destruct Q as [Q|Q]; [discriminate Q|]). exact Q.
Qed.

(* A malformed line in the second file: nothing after it counts. *)
Definition half : list byte := list_byte_of_string ("A9;Extended_Pictographic" ++ nl ++ "xyz;Extended_Pictographic" ++ nl ++ "A9;Extended_Pictographic").
Example C51_half f3 e3 : run_asks [] EOF half EOF f3 e3 [OpSet 0xA9 4] (Some (InvalidStart (list_byte_of_string "xyz") ErrSyntax)).
Proof.
  assert (file_lines half (map list_byte_of_string ["A9;Extended_Pictographic"; "xyz;Extended_Pictographic"; "A9;Extended_Pictographic"]%string)) as Hf.
  { assert (forall l, existsb (Byte.eqb x0a) l = false -> ~ In x0a l) as K.
    { intros l H HI. enough (existsb (Byte.eqb x0a) l = true) by congruence. apply existsb_exists. exists x0a. auto. }
    unfold half, nl. cbn [map].
    repeat (match goal with |- file_lines _ (?l :: _ :: _) =>
      apply (lines_more l); [apply K; vm_compute; reflexivity|] end).
    apply lines_last; [apply K; vm_compute; reflexivity|discriminate]. }
  assert (from_file half EOF [Data 0xA9 0xA9 [list_byte_of_string "Extended_Pictographic"]] (Some (error_for (BadStart (list_byte_of_string "xyz") NotHex)))) as F2.
  { eexists. eexists. split; [eapply reads_all; [exact Hf|eapply short_file; [exact Hf|vm_compute; reflexivity]|]|].
    - cbn [map]. repeat constructor; apply meaning_of_iff; vm_compute; reflexivity.
    - apply (uses_malformed [_]). constructor; [intros f; discriminate|constructor]. }
  assert (from_file [] EOF [] None) as F0.
  { exists [], EOF. split; [eapply reads_all; [apply lines_none|constructor|constructor]|apply uses_all; constructor]. }
  pose proof (asks_two [] EOF half EOF f3 e3 _ _ _ F0 F2) as Q. vm_compute in Q. exact Q.
Qed.

Definition all_theorems := (@C51_any, @C51_lookup, C51_determined, C51_proper, C51_wild, C51_half).
Print Assumptions all_theorems.
