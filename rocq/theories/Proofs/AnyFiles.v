(* From any three files to the assignments. *)
From Coq Require Import List NArith ZArith Arith Bool Lia Strings.Byte Strings.String.
From Coq Require Import ZifyBool ZifyNat ZifyN.
From Verif Require Import Spec.Utf8 Spec.Assignments Spec.Readers Spec.UcdFile Spec.Generation Spec.ErrorValues Spec.AnyFiles.
From Verif Require Import Model.Base Model.CharProps Model.Lookup Model.Bufio Model.PropNames Model.GenTable.
From Verif Require Import Model.UcdParse Model.BuildTree.
From Verif Require Import Proofs.Basics Proofs.BufioFacts Proofs.ParseFacts Proofs.UcdFacts Proofs.BuildFacts Proofs.GenRaw.
Import ListNotations.
Notation length := List.length.
Ltac Zify.zify_post_hook ::= Z.div_mod_to_equations.

Lemma signed_int32 n : signed n = int32 (Z.of_N n).
Proof. unfold signed, int32. destruct (N.ltb_spec (n mod 2 ^ 32) (2 ^ 31)); lia. Qed.

Lemma runes_asked first last e : Start e = int32 (Z.of_N first) -> End e = int32 (Z.of_N last + 1) ->
  runes (Start e) (End e) = asked first last.
Proof.
  intros -> ->. unfold runes, asked. rewrite !signed_int32.
  replace (Z.of_N (last + 1)) with (Z.of_N last + 1)%Z by lia. reflexivity.
Qed.

Lemma gcb_any m e t : reports m (inl e) -> gcb_entry t e = run_ops t (gcb_asks m).
Proof.
  destruct m as [|first last fields|]; cbn [reports]; try tauto.
  intros (H1 & H2 & H3 & H4). unfold gcb_entry. rewrite H3, gcb_named_eq, (runes_asked first last) by assumption. reflexivity.
Qed.
Lemma emoji_any m e t : reports m (inl e) -> emoji_entry t e = run_ops t (emoji_asks m).
Proof.
  destruct m as [|first last fields|]; cbn [reports]; try tauto.
  intros (H1 & H2 & H3 & H4). unfold emoji_entry. rewrite H3, emoji_named_eq, (runes_asked first last) by assumption.
  cbn [emoji_asks]. destruct (is_name _ "Extended_Pictographic"); reflexivity.
Qed.
Lemma incb_any m e t : reports m (inl e) -> incb_entry t e = run_ops t (incb_asks m).
Proof.
  destruct m as [|first last fields|]; cbn [reports]; try tauto.
  intros (H1 & H2 & H3 & H4). unfold incb_entry. rewrite H4. cbn [bind].
  destruct fields as [|f0 [|f1 fs]]; [reflexivity|reflexivity|].
  rewrite (runes_asked first last) by assumption. cbn [incb_asks]. rewrite is_name_eqb, incb_named_eq.
  destruct (str_eqb f0 (str "InCB")); reflexivity.
Qed.

(* how a loop ends *)
Definition loop_ends (x : res tip) (failure : option goerror) : res (result tip) :=
  let! t := x in Ret (match failure with None => inl t | Some err => inr err end).

Lemma loop_calls_any {R} (rd : reader R) body ops : (forall m e t, reports m (inl e) -> body t e = run_ops t (ops m)) ->
  forall ms outs x r s r' s' t,
  Forall2 reports ms outs -> Forall well_formed ms ->
  calls (fun raw => Ret (parse_line raw)) rd r s (outs ++ [inr x]) r' s' ->
  read_loop rd body r s t
    (loop_ends (run_ops t (flat_map ops ms)) (if goerror_eq_dec x EOF then None else Some x)).
Proof.
  intros Hb. induction ms as [|m ms IH]; intros outs x r s r' s' t F P C.
  - inversion F; subst. cbn [app] in C. inversion C as [|? ? r1 s1 ? ? ? ? N C']; subst.
    cbn [flat_map run_ops loop_ends bind]. destruct (goerror_eq_dec x EOF) as [->|D].
    + eapply loop_eof. exact N.
    + eapply loop_err; [exact N|exact D].
  - inversion F as [|? o ? os Ho Hos]; subst. cbn [app] in C.
    inversion C as [|? ? r1 s1 ? ? ? ? N C']; subst.
    destruct o as [e|err].
    2: { exfalso. destruct m as [| |f]; cbn in Ho; try tauto. inversion P as [|? ? W _]; subst. exact (W f eq_refl). }
    cbn [flat_map]. rewrite run_ops_app. rewrite <- (Hb m e t Ho).
    destruct (body t e) as [t1|p] eqn:E; cbn [bind loop_ends].
    + eapply loop_next; [exact N|exact E|]. eapply IH; [exact Hos| |exact C']. inversion P; assumption.
    + eapply loop_panic; [exact N|exact E].
Qed.

Definition is_data_line (m : meaning) : bool := match m with Ignored => false | _ => true end.

(* the calls for a file: the answers of its lines, then the error *)
Lemma file_calls {R} (rd : reader R) r file e : delivers rd 100 r file e ->
  exists ms x outs, file_reads file e ms x /\ Forall2 reports (filter is_data_line ms) outs /\
    exists r' s', calls (fun raw => Ret (parse_line raw)) rd r newLineScan (outs ++ [inr x]) r' s'.
Proof.
  intros Hd. destruct (new_scanner rd r file e Hd) as (I & M & L & A).
  destruct (file_lines_total file) as (all & Hf).
  (* the first line that is not short *)
  assert (Forall short all \/ exists lines long rest, all = lines ++ long :: rest /\ Forall short lines /\ ~ short long) as S.
  { clear. induction all as [|l all [IH|(ls & lg & rs & -> & F & N)]]; [left; constructor| |].
    - destruct (le_lt_dec (64 * 1024) (length l)) as [K|K].
      + right. exists [], l, all. split; [reflexivity|]. split; [constructor|]. intros Q. apply (Nat.lt_irrefl (length l)).
        eapply Nat.lt_le_trans; [exact Q|exact K].
      + left. constructor; [exact K|exact IH].
    - destruct (le_lt_dec (64 * 1024) (length l)) as [K|K].
      + right. exists [], l, (ls ++ lg :: rs). split; [reflexivity|]. split; [constructor|]. intros Q. apply (Nat.lt_irrefl (length l)).
        eapply Nat.lt_le_trans; [exact Q|exact K].
      + right. exists (l :: ls), lg, rs. split; [reflexivity|]. split; [constructor; [exact K|exact F]|exact N]. }
  assert (forall ls, exists ms, Forall2 line_means ls ms) as HM.
  { clear. induction ls as [|l ls (ms & IH)]; [exists []; constructor|].
    exists (meaning_of l :: ms). constructor; [apply meaning_of_iff; reflexivity|exact IH]. }
  destruct S as [S|(lines & long & rest & -> & F & N)].
  - destruct (HM all) as (ms & Hm). destruct (outcomes_reports all ms Hm) as (outs & Ho & Ha).
    destruct (calls_lines (fun raw => Ret (parse_line raw)) rd e all outs Ho S 1 r newLineScan file I M L A Hf) as (r' & s' & C).
    exists ms, e, outs. split; [eapply reads_all; eassumption|]. split; [exact Ha|]. exists r', s'. exact C.
  - destruct (HM lines) as (ms & Hm). destruct (outcomes_reports lines ms Hm) as (outs & Ho & Ha).
    destruct (HM [firstn MaxScanTokenSize long]) as (msp & Hmp). destruct (outcomes_reports _ _ Hmp) as (part & Hop & _).
    assert (oversize file long rest -> exists ms x outs, file_reads file e ms x /\
      Forall2 reports (filter is_data_line ms) outs /\
      exists r' s', calls (fun raw => Ret (parse_line raw)) rd r newLineScan (outs ++ [inr x]) r' s') as Big.
    { intros O. destruct (calls_too_long (fun raw => Ret (parse_line raw)) rd e lines outs long rest part 0 r newLineScan file Ho F I M L O Hop A Hf)
        as (r' & s' & C).
      exists ms, ErrTooLong, outs. split; [eapply reads_too_long; eassumption|]. split; [exact Ha|].
      change (inr ErrTooLong :: part ++ repeat (inr ErrTooLong) 0) with ([@inr Entry goerror ErrTooLong] ++ (part ++ [])) in C.
      rewrite app_assoc in C. apply calls_split in C. exact C. }
    destruct (le_lt_dec (length long) (64 * 1024)) as [K|K]; [|apply Big; left; exact K].
    assert (length long = 64 * 1024) as El.
    { apply Nat.le_antisymm; [exact K|]. destruct (le_lt_dec (64 * 1024) (length long)) as [Q|Q]; [exact Q|]. exfalso. apply N. exact Q. }
    destruct rest as [|l2 rest]; [|apply Big; right; split; [exact El|left; discriminate]].
    destruct (HM [long]) as (msl & Hml). destruct (outcomes_reports _ _ Hml) as (last & Hol & Hal).
    destruct (calls_edge (fun raw => Ret (parse_line raw)) rd e lines outs long last 0 r newLineScan file Ho F I M L El Hol A Hf)
      as (r' & s' & [C|C]).
    + exists (ms ++ msl), e, (outs ++ last). split; [eapply reads_edge; try eassumption; apply Forall2_app; assumption|].
      split; [unfold is_data_line; rewrite filter_app; apply Forall2_app; assumption|]. exists r', s'. rewrite <- app_assoc. exact C.
    + exists ms, ErrTooLong, outs. split; [eapply reads_edge_too_long; eassumption|]. split; [exact Ha|].
      change (inr ErrTooLong :: last ++ repeat (inr ErrTooLong) 0) with ([@inr Entry goerror ErrTooLong] ++ (last ++ [])) in C.
      rewrite app_assoc in C. apply calls_split in C. exact C.
Qed.

Lemma loop_any_file {R} (rd : reader R) body ops r file e t :
  (forall m e t, reports m (inl e) -> body t e = run_ops t (ops m)) -> ops Ignored = [] ->
  delivers rd 100 r file e ->
  exists used failure, from_file file e used failure /\
    read_loop rd body r newLineScan t (loop_ends (run_ops t (flat_map ops used)) failure).
Proof.
  intros Hb H0 Hd. destruct (file_calls rd r file e Hd) as (ms & x & outs & Hr & Ha & r' & s' & C).
  assert (forall ms, flat_map ops (filter is_data_line ms) = flat_map ops ms) as FM.
  { intros l. apply filter_flat_map. intros [| |] K; [exact H0|discriminate K|discriminate K]. }
  assert (forall l, Forall well_formed l -> Forall well_formed (filter is_data_line l)) as NF.
  { intros l K. apply Forall_forall. intros m Hm. apply filter_In in Hm. rewrite Forall_forall in K. apply K. apply Hm. }
  assert (Forall well_formed ms \/ exists a f b, ms = a ++ Malformed f :: b /\ Forall well_formed a) as [K|(a & f & b & -> & Na)].
  { clear. induction ms as [|m ms [IH|(a & f & b & -> & Na)]]; [left; constructor| |].
    - destruct m as [|x y fs|f]; [left|left|right]; try (constructor; [intros g; discriminate|exact IH]).
      exists [], f, ms. split; [reflexivity|constructor].
    - destruct m as [|x y fs|g].
      + right. exists (Ignored :: a), f, b. split; [reflexivity|]. constructor; [intros h; discriminate|exact Na].
      + right. exists (Data x y fs :: a), f, b. split; [reflexivity|]. constructor; [intros h; discriminate|exact Na].
      + right. exists [], g, (a ++ Malformed f :: b). split; [reflexivity|constructor]. }
  2: {
    rewrite filter_app in Ha. cbn [filter is_data_line] in Ha. apply Forall2_app_inv_l in Ha.
    destruct Ha as (outs1 & outs2 & Ha1 & Ha2 & ->). inversion Ha2 as [|? o ? os Ho Hos]; subst.
    destruct o as [en|err]; cbn [reports] in Ho; [tauto|].
    exists a, (Some (error_for f)). split; [exists (a ++ Malformed f :: b), x; split; [exact Hr|constructor; assumption]|].
    rewrite <- app_assoc in C. cbn [app] in C.
    change (inr err :: os ++ [inr x]) with ([@inr Entry goerror err] ++ (os ++ [inr x])) in C. rewrite app_assoc in C.
    apply calls_split in C. destruct C as (r1 & s1 & C).
    pose proof (loop_calls_any rd body ops Hb (filter is_data_line a) outs1 err r newLineScan r1 s1 t Ha1 (NF _ Na) C) as Q.
    rewrite FM in Q. destruct (goerror_eq_dec err EOF) as [D|D]; [destruct f; rewrite D in Ho; discriminate Ho|]. rewrite <- Ho. exact Q. }
  pose proof (loop_calls_any rd body ops Hb _ outs x r newLineScan r' s' t Ha (NF _ K) C) as Q. rewrite FM in Q.
    exists ms. destruct (goerror_eq_dec x EOF) as [->|D].
    + exists None. split; [exists ms, EOF; split; [exact Hr|constructor; exact K]|exact Q].
    + exists (Some x). split; [exists ms, x; split; [exact Hr|constructor; assumption]|exact Q].
Qed.

Section build.
Context {R1 R2 R3 : Type} (rd1 : reader R1) (r1 : R1) (rd2 : reader R2) (r2 : R2) (rd3 : reader R3) (r3 : R3).

(* the outcome of a run in which the assignments ops are made and then, without
   a conflict, there is the failure *)
Definition run_ends (ops : list op) (failure : option goerror) : res (result RawPropertyTree) :=
  let! t := run_ops newTreeInProgress ops in
  match failure with None => let! tree := Compact t in Ret (inl tree) | Some err => Ret (inr err) end.

(* A panic in one of the first two files comes before whatever the later files
   hold, so the assignments may be those up to the end of that file. *)
Lemma build_any f1 e1 f2 e2 f3 e3 :
  delivers rd1 100 r1 f1 e1 -> delivers rd2 100 r2 f2 e2 -> delivers rd3 100 r3 f3 e3 ->
  exists ops failure, run_asks f1 e1 f2 e2 f3 e3 ops failure /\
    BuildRawPropertyTree rd1 r1 rd2 r2 rd3 r3 (run_ends ops failure).
Proof.
  intros D1 D2 D3. unfold run_ends.
  destruct (loop_any_file rd1 gcb_entry gcb_asks r1 f1 e1 newTreeInProgress gcb_any eq_refl D1) as (m1 & x1 & F1 & L1).
  destruct x1 as [err1|].
  { exists (flat_map gcb_asks m1), (Some err1). split; [apply asks_one; exact F1|].
    destruct (run_ops newTreeInProgress (flat_map gcb_asks m1)) as [t1|p]; cbn [bind loop_ends] in *;
      [apply build_fail1|apply build_stop1]; exact L1. }
  destruct (run_ops newTreeInProgress (flat_map gcb_asks m1)) as [t1|p] eqn:E1; cbn [bind loop_ends] in *.
  2: { destruct (loop_any_file rd2 emoji_entry emoji_asks r2 f2 e2 newTreeInProgress emoji_any eq_refl D2) as (m2 & [err2|] & F2 & _).
       - exists (flat_map gcb_asks m1 ++ flat_map emoji_asks m2), (Some err2). split; [apply asks_two; assumption|].
         rewrite run_ops_app, E1. apply build_stop1. exact L1.
       - destruct (loop_any_file rd3 incb_entry incb_asks r3 f3 e3 newTreeInProgress incb_any eq_refl D3) as (m3 & x3 & F3 & _).
         exists (flat_map gcb_asks m1 ++ flat_map emoji_asks m2 ++ flat_map incb_asks m3), x3.
         split; [apply asks_three; assumption|]. rewrite run_ops_app, E1. apply build_stop1. exact L1. }
  destruct (loop_any_file rd2 emoji_entry emoji_asks r2 f2 e2 t1 emoji_any eq_refl D2) as (m2 & x2 & F2 & L2).
  destruct x2 as [err2|].
  { exists (flat_map gcb_asks m1 ++ flat_map emoji_asks m2), (Some err2). split; [apply asks_two; assumption|].
    rewrite run_ops_app, E1. cbn [bind].
    destruct (run_ops t1 (flat_map emoji_asks m2)) as [t2|p]; cbn [bind loop_ends] in *;
      [eapply build_fail2|eapply build_stop2]; eassumption. }
  destruct (run_ops t1 (flat_map emoji_asks m2)) as [t2|p] eqn:E2; cbn [bind loop_ends] in *.
  2: { destruct (loop_any_file rd3 incb_entry incb_asks r3 f3 e3 newTreeInProgress incb_any eq_refl D3) as (m3 & x3 & F3 & _).
       exists (flat_map gcb_asks m1 ++ flat_map emoji_asks m2 ++ flat_map incb_asks m3), x3.
       split; [apply asks_three; assumption|]. rewrite run_ops_app, E1. cbn [bind]. rewrite run_ops_app, E2.
       eapply build_stop2; eassumption. }
  destruct (loop_any_file rd3 incb_entry incb_asks r3 f3 e3 t2 incb_any eq_refl D3) as (m3 & x3 & F3 & L3).
  exists (flat_map gcb_asks m1 ++ flat_map emoji_asks m2 ++ flat_map incb_asks m3), x3.
  split; [apply asks_three; assumption|]. rewrite run_ops_app, E1. cbn [bind]. rewrite run_ops_app, E2. cbn [bind].
  destruct (run_ops t2 (flat_map incb_asks m3)) as [t3|p] eqn:E3; cbn [bind loop_ends] in *.
  - destruct x3 as [err3|]; [eapply build_fail3; eassumption|eapply build_done; eassumption].
  - eapply build_stop3; eassumption.
Qed.
End build.
