(* From the lines of the three files to the assignments. *)
From Coq Require Import List NArith ZArith Arith Bool Lia Strings.Byte Strings.String.
From Coq Require Import ZifyBool ZifyNat ZifyN.
From Verif Require Import Spec.Utf8 Spec.Assignments Spec.Readers Spec.UcdFile Spec.Generation.
From Verif Require Import Model.Base Model.CharProps Model.Lookup Model.Bufio Model.PropNames Model.GenTable.
From Verif Require Import Model.UcdParse Model.BuildTree.
From Verif Require Import Proofs.Basics Proofs.BufioFacts Proofs.ParseFacts Proofs.UcdFacts.
Import ListNotations.
Notation length := List.length.
Ltac Zify.zify_post_hook ::= Z.div_mod_to_equations.

Lemma int32_small z : (0 <= z < 2 ^ 31)%Z -> int32 z = z.
Proof. unfold int32. lia. Qed.

Lemma runes_points first last e : (first <= 0x10FFFF)%N -> (last <= 0x10FFFF)%N ->
  Start e = int32 (Z.of_N first) -> End e = int32 (Z.of_N last + 1) ->
  runes (Start e) (End e) = code_points first last.
Proof.
  intros L1 L2 -> ->. rewrite !int32_small by lia. unfold runes, code_points. f_equal. f_equal. lia.
Qed.

Lemma str_eqb_true a b : str_eqb a b = true <-> a = b.
Proof.
  revert b. induction a as [|x a IH]; intros [|y b]; cbn [str_eqb]; try (split; [discriminate|discriminate]); [tauto|].
  destruct (byte_eqb_spec x y) as [->|N].
  - rewrite IH. split; [intros ->; reflexivity|congruence].
  - split; [discriminate|congruence].
Qed.

Lemma is_name_eqb a n : is_name a n = str_eqb a (str n).
Proof.
  unfold is_name, str. destruct (list_eq_dec Byte.byte_eq_dec a (list_byte_of_string n)) as [->|N].
  - symmetry. apply str_eqb_true. reflexivity.
  - destruct (str_eqb a (list_byte_of_string n)) eqn:E; [|reflexivity]. apply str_eqb_true in E. congruence.
Qed.

Lemma gcb_named_eq name : LookupGCBProperty name = gcb_named name.
Proof.
  unfold LookupGCBProperty, gcb_named, all_gcb. cbn [switch find]. rewrite !is_name_eqb. cbn [PropNames.gcb_name].
  repeat match goal with |- (if ?b then _ else _) = _ => destruct b; [reflexivity|] end. reflexivity.
Qed.
Lemma incb_named_eq name : LookupInCBProperty name = incb_named name.
Proof.
  unfold LookupInCBProperty, incb_named, all_incb. cbn [switch find]. rewrite !is_name_eqb. cbn [PropNames.incb_name].
  repeat match goal with |- (if ?b then _ else _) = _ => destruct b; [reflexivity|] end. reflexivity.
Qed.
Lemma emoji_named_eq name : LookupEmojiProperty name = if is_name name "Extended_Pictographic" then 4%N else 0%N.
Proof. unfold LookupEmojiProperty. cbn [switch]. rewrite is_name_eqb. reflexivity. Qed.

Lemma gcb_body m e t : reports m (inl e) -> proper m -> gcb_entry t e = run_ops t (gcb_assignments m).
Proof.
  destruct m as [|first last fields|]; cbn [reports proper]; try tauto.
  intros (H1 & H2 & H3 & H4) [L1 L2]. unfold gcb_entry. rewrite H3, gcb_named_eq.
  rewrite (runes_points first last) by assumption. reflexivity.
Qed.

Lemma emoji_body m e t : reports m (inl e) -> proper m -> emoji_entry t e = run_ops t (emoji_assignments m).
Proof.
  destruct m as [|first last fields|]; cbn [reports proper]; try tauto.
  intros (H1 & H2 & H3 & H4) [L1 L2]. unfold emoji_entry. rewrite H3, emoji_named_eq.
  rewrite (runes_points first last) by assumption. cbn [emoji_assignments].
  destruct (is_name _ "Extended_Pictographic"); reflexivity.
Qed.

Lemma incb_body m e t : reports m (inl e) -> proper m -> incb_entry t e = run_ops t (incb_assignments m).
Proof.
  destruct m as [|first last fields|]; cbn [reports proper]; try tauto.
  intros (H1 & H2 & H3 & H4) [L1 L2]. unfold incb_entry. rewrite H4. cbn [bind].
  destruct fields as [|f0 [|f1 fs]]; [reflexivity|reflexivity|].
  rewrite (runes_points first last) by assumption. cbn [incb_assignments]. rewrite is_name_eqb, incb_named_eq.
  destruct (str_eqb f0 (str "InCB")); reflexivity.
Qed.

Lemma run_ops_app a b : forall t, run_ops t (a ++ b) = let! t := run_ops t a in run_ops t b.
Proof.
  induction a as [|[r v|r v] a IH]; intros t; cbn [app run_ops]; [reflexivity| |].
  - destruct (Set_ t r v); cbn [bind]; [apply IH|reflexivity].
  - destruct (BitwiseOr t r v); cbn [bind]; [apply IH|reflexivity].
Qed.

(* the loop, when the calls are known *)
Definition loop_result (x : res tip) : res (result tip) := let! t := x in Ret (inl t).

Lemma loop_calls {R} (rd : reader R) body ops : (forall m e t, reports m (inl e) -> proper m -> body t e = run_ops t (ops m)) ->
  forall ms outs r s r' s' t,
  Forall2 reports ms outs -> Forall proper ms ->
  calls (fun raw => Ret (parse_line raw)) rd r s (outs ++ [inr EOF]) r' s' ->
  read_loop rd body r s t (loop_result (run_ops t (flat_map ops ms))).
Proof.
  intros Hb. induction ms as [|m ms IH]; intros outs r s r' s' t F P C.
  - inversion F; subst. cbn [app] in C. inversion C as [|? ? r1 s1 ? ? ? ? N C']; subst.
    cbn [flat_map run_ops]. eapply loop_eof. exact N.
  - inversion F as [|? o ? os Ho Hos]; subst. inversion P as [|? ? Pm Pms]; subst. cbn [app] in C.
    inversion C as [|? ? r1 s1 ? ? ? ? N C']; subst.
    destruct o as [e|err]; [|destruct m; cbn in Ho, Pm; tauto].
    cbn [flat_map]. rewrite run_ops_app. rewrite <- (Hb m e t Ho Pm).
    destruct (body t e) as [t1|p] eqn:E; cbn [bind].
    + eapply loop_next; [exact N|exact E|]. eapply IH; eassumption.
    + eapply loop_panic; [exact N|exact E].
Qed.

Lemma next_entry_unique {R} (rd : reader R) r s r1 s1 o r2 s2 o2 :
  NextEntry rd r s r1 s1 o -> NextEntry rd r s r2 s2 o2 -> r1 = r2 /\ s1 = s2 /\ o = o2.
Proof. intros H1 H2. eapply next_entry_fun; eassumption. Qed.

Lemma read_loop_fun {R} (rd : reader R) body r s t o : read_loop rd body r s t o ->
  forall o', read_loop rd body r s t o' -> o = o'.
Proof.
  induction 1 as [r s r' s' t N|r s r' s' t err N D|r s r' s' t e p N B|r s r' s' t e t' out N B H IH]; intros o' H';
    inversion H' as [? ? ra sa ? N'|? ? ra sa ? err' N' D'|? ? ra sa ? e' p' N' B'|? ? ra sa ? e' t2 ? N' B' H2]; subst;
    destruct (next_entry_unique _ _ _ _ _ _ _ _ _ N N') as (? & ? & E); try discriminate E; try congruence.
  subst. assert (e = e') by congruence. subst e'. assert (t' = t2) by congruence. subst t2. auto.
Qed.

Lemma outcomes_reports lines ms : Forall2 line_means lines ms ->
  exists outs, outcomes (fun raw => Ret (parse_line raw)) lines outs /\
    Forall2 reports (filter (fun m => match m with Ignored => false | _ => true end) ms) outs.
Proof.
  induction 1 as [|l m lines ms Hl H (outs & IH1 & IH2)]; [exists []; split; constructor|].
  pose proof (parse_line_ok l m Hl) as K. destruct m; cbn [filter].
  - exists outs. split; [|assumption]. constructor; [|assumption]. rewrite parse_line_dropCR, K. reflexivity.
  - destruct K as (o & K & Ho). exists (o :: outs). split; [apply outcomes_found; [rewrite parse_line_dropCR, K; reflexivity|assumption]|constructor; assumption].
  - destruct K as (o & K & Ho). exists (o :: outs). split; [apply outcomes_found; [rewrite parse_line_dropCR, K; reflexivity|assumption]|constructor; assumption].
Qed.

Lemma filter_flat_map {A B} (f : A -> list B) p l : (forall a, p a = false -> f a = []) -> flat_map f (filter p l) = flat_map f l.
Proof.
  intros H. induction l as [|a l IH]; [reflexivity|]. cbn [filter flat_map].
  destruct (p a) eqn:E; cbn [flat_map]; rewrite IH; [reflexivity|]. rewrite (H a E). reflexivity.
Qed.

Lemma Forall_filter {A} (P : A -> Prop) p l : Forall P l -> Forall P (filter p l).
Proof. induction 1; cbn [filter]; [constructor|]. destruct (p x); [constructor|]; assumption. Qed.

(* a file the generator can use *)
Definition usable (file : list byte) (ms : list meaning) : Prop :=
  exists lines, file_lines file lines /\ Forall (fun l => length l < 64 * 1024) lines /\
    Forall2 line_means lines ms /\ Forall proper ms.

Lemma loop_file {R} (rd : reader R) body ops r file ms t :
  (forall m e t, reports m (inl e) -> proper m -> body t e = run_ops t (ops m)) -> ops Ignored = [] ->
  delivers rd 100 r file EOF -> usable file ms ->
  read_loop rd body r newLineScan t (loop_result (run_ops t (flat_map ops ms))).
Proof.
  intros Hb H0 Hd (lines & Hf & HF & Hm & Hp).
  destruct (outcomes_reports lines ms Hm) as (outs & Ho & Ha).
  destruct (new_scanner rd r file EOF Hd) as (I & M & L & A).
  destruct (calls_lines (fun raw => Ret (parse_line raw)) rd EOF lines outs Ho HF 1 r newLineScan file I M L A Hf) as (r' & s' & C).
  rewrite <- (filter_flat_map ops (fun m => match m with Ignored => false | _ => true end) ms).
  2: { clear - H0. intros [| |] K; [exact H0|discriminate K|discriminate K]. }
  eapply loop_calls; try eassumption. apply Forall_filter. exact Hp.
Qed.

Section build.
Context {R1 R2 R3 : Type} (rd1 : reader R1) (r1 : R1) (rd2 : reader R2) (r2 : R2) (rd3 : reader R3) (r3 : R3).

Lemma build_fun o o' : BuildRawPropertyTree rd1 r1 rd2 r2 rd3 r3 o -> BuildRawPropertyTree rd1 r1 rd2 r2 rd3 r3 o' -> o = o'.
Proof.
  intros H H'.
  destruct H; inversion H'; subst;
    repeat match goal with
    | A : read_loop ?rd ?b ?r ?s ?t ?o, B : read_loop ?rd ?b ?r ?s ?t ?o' |- _ =>
        let E := fresh in pose proof (read_loop_fun _ _ _ _ _ _ A _ B) as E; clear B;
        try discriminate E; try (injection E as E; try subst)
    end; try reflexivity; try congruence.
Qed.

Lemma build_files f1 f2 f3 ms1 ms2 ms3 :
  delivers rd1 100 r1 f1 EOF -> delivers rd2 100 r2 f2 EOF -> delivers rd3 100 r3 f3 EOF ->
  usable f1 ms1 -> usable f2 ms2 -> usable f3 ms3 ->
  BuildRawPropertyTree rd1 r1 rd2 r2 rd3 r3 (let! tree := build_tree (assignments ms1 ms2 ms3) in Ret (inl tree)).
Proof.
  intros D1 D2 D3 U1 U2 U3.
  pose proof (loop_file rd1 gcb_entry gcb_assignments r1 f1 ms1 newTreeInProgress gcb_body eq_refl D1 U1) as L1.
  unfold assignments, build_tree. rewrite run_ops_app.
  destruct (run_ops newTreeInProgress (flat_map gcb_assignments ms1)) as [t1|p]; cbn [bind loop_result] in *.
  2: { apply build_stop1. exact L1. }
  pose proof (loop_file rd2 emoji_entry emoji_assignments r2 f2 ms2 t1 emoji_body eq_refl D2 U2) as L2.
  rewrite run_ops_app. destruct (run_ops t1 (flat_map emoji_assignments ms2)) as [t2|p]; cbn [bind loop_result] in *.
  2: { eapply build_stop2; eassumption. }
  pose proof (loop_file rd3 incb_entry incb_assignments r3 f3 ms3 t2 incb_body eq_refl D3 U3) as L3.
  destruct (run_ops t2 (flat_map incb_assignments ms3)) as [t3|p]; cbn [bind loop_result] in *.
  2: { eapply build_stop3; eassumption. }
  apply (build_done rd1 r1 rd2 r2 rd3 r3 t1 t2 t3); assumption.
Qed.
End build.

(* ---- a loop that ends well has read the file to its end without an error *)

Lemma loop_inv {R} (rd : reader R) body r s t o : read_loop rd body r s t o -> forall t', o = Ret (inl t') ->
  exists es r' s', calls (fun raw => Ret (parse_line raw)) rd r s (map inl es ++ [inr EOF]) r' s'.
Proof.
  induction 1 as [r s r' s' t N|r s r' s' t err N D|r s r' s' t e p N B|r s r' s' t e t' out N B H IH]; intros t0 E; try discriminate E.
  - exists [], r', s'. econstructor; [exact N|constructor].
  - destruct (IH t0 E) as (es & ra & sa & C). exists (e :: es), ra, sa. cbn [map app]. econstructor; eassumption.
Qed.

Lemma calls_split {R A} (line : list byte -> res (option (result A))) (rd : reader R) a b : forall r s r' s',
  calls line rd r s (a ++ b) r' s' -> exists r1 s1, calls line rd r s a r1 s1.
Proof.
  induction a as [|o a IH]; intros r s r' s' C; [exists r, s; constructor|].
  cbn [app] in C. inversion C as [|? ? r1 s1 ? ? ? ? N C']; subst. destruct (IH _ _ _ _ C') as (r2 & s2 & K).
  exists r2, s2. econstructor; eassumption.
Qed.

(* the first error of the calls is not EOF: the loop fails *)
Lemma loop_error {R} (rd : reader R) body r s t pre err r' s' :
  calls (fun raw => Ret (parse_line raw)) rd r s (pre ++ [inr err]) r' s' -> ~ In (inr EOF) (pre ++ [inr err]) ->
  forall t', ~ read_loop rd body r s t (Ret (inl t')).
Proof.
  intros C HN t' L. destruct (loop_inv _ _ _ _ _ _ L t' eq_refl) as (es & ra & sa & C2).
  remember (pre ++ [inr err]) as a eqn:Ea. remember (map inl es ++ [inr EOF]) as b eqn:Eb.
  destruct (Nat.le_gt_cases (length b) (length a)) as [K|K].
  - rewrite <- (firstn_skipn (length b) a) in C.
    apply calls_split in C. destruct C as (rb & sb & C).
    destruct (calls_fun _ _ _ _ _ _ _ C _ _ _ C2) as (E & _); [apply firstn_length_le; exact K|].
    apply HN. rewrite <- (firstn_skipn (length b) a). apply in_or_app. left. rewrite E, Eb.
    apply in_or_app. right. left. reflexivity.
  - rewrite <- (firstn_skipn (length a) b) in C2.
    apply calls_split in C2. destruct C2 as (rb & sb & C2).
    destruct (calls_fun _ _ _ _ _ _ _ C _ _ _ C2) as (E & _); [symmetry; apply firstn_length_le; apply Nat.lt_le_incl; exact K|].
    assert (In (inr err) (firstn (length a) b)) as Q
      by (rewrite <- E, Ea; apply in_or_app; right; left; reflexivity).
    rewrite Eb, firstn_app in Q. rewrite Eb, app_length in K. cbn [List.length] in K.
    apply in_app_or in Q. destruct Q as [Q|Q].
    + assert (In (inr err) (map (@inl Entry goerror) es)) as Q'
        by (rewrite <- (firstn_skipn (length a) (map inl es)); apply in_or_app; left; exact Q).
      apply in_map_iff in Q'. destruct Q' as (x & Q' & _). discriminate Q'.
    + assert (length a - length (map (@inl Entry goerror) es) = 0) as Z by (apply Nat.sub_0_le; unfold result in *; lia).
      rewrite Z in Q. destruct Q.
Qed.
