(* Property C46: the published conformance test, GraphemeBreakTest.txt. *)
From Coq Require Import List NArith ZArith Arith Bool Lia Strings.Byte Strings.String.
From Coq Require Import ZifyBool ZifyNat ZifyN.
From Verif Require Import Spec.Classes Spec.Utf8 Spec.UAX29 Spec.UcdRanges Spec.Segmentation Spec.Readers Spec.UcdFile.
From Verif Require Import Model.Base Model.Scan Model.Bufio Model.UcdParse.
From Verif Require Import Data.UcdGraphemeBreakTest.
From Verif Require Import Proofs.Basics Proofs.BufioFacts Proofs.ParseFacts Proofs.UcdFacts Proofs.TestDataFacts
  Proofs.LookupFacts Proofs.ScanFacts Proofs.DriverFacts Proofs.TextFacts Proofs.UnicodeFacts Proofs.FileCheck Proofs.TestFile Proofs.BuildFacts.
From Verif Require Import Properties.Splitting Properties.Bufio Properties.Parsing.
Import ListNotations.
Notation length := List.length.

(* grapheme_clusters_test.go 262-276: dripReader, one byte at a time *)
Definition dripReader : reader (list byte) := fun remain k =>
  match remain with
  | [] => ([], Reply 0 [] (Some EOF))
  | b :: rest => match k with O => (remain, Reply 0 [] None) | S _ => (rest, Reply 1 [b] None) end
  end.

Lemma drip_delivers : forall input m, delivers dripReader m input input EOF.
Proof.
  induction input as [|b input IH]; intros m; constructor; intros space Hs.
  - apply replies_last with (r' := []) (scratch := []); [reflexivity|cbn [List.length]; lia].
  - apply (replies_some dripReader m (b :: input) space [b] input EOF input []).
    + destruct space; [lia|]. reflexivity.
    + discriminate.
    + cbn [List.length]. lia.
    + apply IH.
Qed.

(* ---- a line asks for one thing only *)

Lemma char_inj a b : char a = char b -> a = b.
Proof. unfold char. congruence. Qed.

Lemma utf8_text_inj a b : Forall scalar a -> Forall scalar b -> utf8_text a = utf8_text b -> a = b.
Proof.
  intros Ha Hb E. pose proof (reads_utf8_text a Ha) as Ra. pose proof (reads_utf8_text b Hb) as Rb. rewrite E in Ra.
  pose proof (reads_unique _ _ _ Ra Rb) as K. clear - K. revert b K.
  induction a as [|x a IH]; intros [|y b] K; cbn [map] in K; try discriminate K; [reflexivity|].
  f_equal; [apply char_inj; congruence|apply IH; congruence].
Qed.

Lemma utf8_texts_inj a : forall b, Forall (Forall scalar) a -> Forall (Forall scalar) b ->
  map utf8_text a = map utf8_text b -> a = b.
Proof.
  induction a as [|x a IH]; intros [|y b] Ha Hb E; cbn [map] in E; try discriminate E; [reflexivity|].
  inversion Ha; inversion Hb; subst. f_equal; [apply utf8_text_inj; try assumption; congruence|apply IH; try assumption; congruence].
Qed.

Lemma test_meaning_parse l m : test_meaning l m ->
  parse_test_line l = Ret (option_map (fun cs => inl (test_entry cs)) m).
Proof.
  intros [l' a Hc Hb|l' clusters Ht Hs]; cbn [option_map].
  - eapply parse_test_line_blank; eassumption.
  - apply parse_test_line_ok; assumption.
Qed.

Theorem C46_meaning_unique l m m' : test_meaning l m -> test_meaning l m' -> m = m'.
Proof.
  intros H H'. pose proof (test_meaning_parse l m H) as E. pose proof (test_meaning_parse l m' H') as E'. rewrite E in E'.
  inversion H as [? a Hc Hb|? cs Ht Hs]; inversion H' as [? a' Hc' Hb'|? cs' Ht' Hs']; subst; try reflexivity; try discriminate E'.
  cbn [option_map] in E'. unfold test_entry in E'. f_equal. apply utf8_texts_inj; try assumption. congruence.
Qed.

Lemma test_meanings_unique lines ms : Forall2 test_meaning lines ms -> forall ms', Forall2 test_meaning lines ms' -> ms = ms'.
Proof.
  induction 1 as [|l m lines ms Hl H IH]; intros ms' H'; inversion H'; subst; [reflexivity|].
  f_equal; [eapply C46_meaning_unique; eassumption|auto].
Qed.

(* ---- the file, by computation *)

Fixpoint tests_of (ls : list (list byte)) : option (list (option (list (list N)))) :=
  match ls with
  | [] => Some []
  | l :: ls' =>
      if short l then
        match test_of l, tests_of ls' with
        | Some t, Some ts => Some (t :: ts)
        | _, _ => None
        end
      else None
  end.

Fixpoint file_tests (pieces : list string) : option (list (option (list (list N)))) :=
  match pieces with
  | [] => Some []
  | p :: pieces' =>
      match piece_lines [] (list_byte_of_string p) with
      | None => None
      | Some ls =>
          match tests_of ls, file_tests pieces' with
          | Some a, Some b => Some (a ++ b)
          | _, _ => None
          end
      end
  end.

Lemma tests_of_ok ls : forall ms, tests_of ls = Some ms ->
  Forall (fun l => length l < 64 * 1024) ls /\ Forall2 test_meaning ls ms.
Proof.
  induction ls as [|l ls IH]; intros ms H; cbn [tests_of] in H.
  - injection H as <-. split; constructor.
  - destruct (short l) eqn:E1; [|discriminate]. destruct (test_of l) as [t|] eqn:E2; [|discriminate].
    destruct (tests_of ls) as [ts|]; [|discriminate]. injection H as <-. destruct (IH ts eq_refl) as [H1 H2].
    split; [constructor; [apply short_ok; exact E1|exact H1]|]. constructor; [|exact H2].
    destruct t as [cs|].
    + apply test_of_data in E2. destruct E2. apply test_data; assumption.
    + apply test_of_blank in E2. destruct E2 as (a & A1 & A2). eapply test_blank; eassumption.
Qed.

Lemma file_tests_ok pieces : forall ms, file_tests pieces = Some ms ->
  exists lines, file_lines (file_bytes pieces) lines /\ Forall (fun l => length l < 64 * 1024) lines /\
    Forall2 test_meaning lines ms.
Proof.
  induction pieces as [|p pieces IH]; intros ms H; cbn [file_tests] in H.
  - injection H as <-. exists []. split; [constructor|]. split; constructor.
  - destruct (piece_lines [] (list_byte_of_string p)) as [ls|] eqn:E; [|discriminate].
    destruct (tests_of ls) as [a|] eqn:E1; [|discriminate].
    destruct (file_tests pieces) as [b|]; [|discriminate]. injection H as <-.
    destruct (IH b eq_refl) as (lines & F1 & F2 & F3).
    apply tests_of_ok in E1. destruct E1 as [G1 G2]. exists (ls ++ lines). split; [|split].
    + unfold file_bytes. cbn [flat_map]. apply (piece_lines_ok _ [] ls _ lines E); [intros []|exact F1].
    + apply Forall_app. auto.
    + apply Forall2_app; assumption.
Qed.

(* one case: it is short, and the tokens are the expected ones *)
Definition case_ok (cs : list (list N)) : bool :=
  forallb (forallb scalarb) cs && (length (utf8_text (List.concat cs)) <=? 2048) &&
  match tokens (utf8_text (List.concat cs)) with
  | Ret toks => fields_eqb toks (map utf8_text cs)
  | Panic _ => false
  end.

Definition cases_ok (x : option (list (option (list (list N))))) : bool :=
  match x with
  | Some ms => (length (present ms) =? 766) && forallb case_ok (present ms)
  | None => false
  end.

Lemma file_check : cases_ok (file_tests GraphemeBreakTest_txt) = true.
Proof. vm_cast_no_check (eq_refl true). Qed.

(* ---- C46 *)

(* What a case of the published test expects: its clusters are the grapheme
   clusters of its text by the rules of UAX #29 (this is about the
   specification alone), and the tokens. *)
Definition conforms (cs : list (list N)) : Prop :=
  Forall (Forall scalar) cs /\ clusters ucd_class (List.concat cs) cs /\
  tokenises (utf8_text (List.concat cs)) (map utf8_text cs).

Lemma case_conforms cs : case_ok cs = true -> conforms cs /\ length (utf8_text (List.concat cs)) <= 2048.
Proof.
  unfold case_ok. rewrite !andb_true_iff. intros [[H1 H2] H3]. apply Nat.leb_le in H2.
  destruct (tokens (utf8_text (List.concat cs))) as [toks|] eqn:E; [|discriminate].
  apply fields_eqb_ok in H3. subst toks. apply C04_tokens_fn in E.
  assert (Forall (Forall scalar) cs) as Hs.
  { rewrite forallb_forall in H1. apply Forall_forall. intros x Hx. specialize (H1 x Hx). rewrite forallb_forall in H1.
    apply Forall_forall. intros y Hy. apply scalarb_spec. auto. }
  assert (Forall scalar (List.concat cs)) as Hc.
  { clear - Hs. induction Hs; cbn [List.concat]; [constructor|]. apply Forall_app. auto. }
  split; [|exact H2]. split; [exact Hs|]. split; [|exact E].
  apply (text_clusters _ _ Hc) in E. destruct E as (segs & K & Em).
  assert (Forall (Forall scalar) segs) as Hs'.
  { destruct K as [K _ _]. rewrite <- K in Hc. clear - Hc. induction segs as [|x segs IH]; [constructor|].
    cbn [List.concat] in Hc. apply Forall_app in Hc. destruct Hc. constructor; auto. }
  rewrite (utf8_texts_inj cs segs Hs Hs' Em) at 2. exact K.
Qed.

(* The file has exactly one reading, with 766 cases, and they all conform. *)
Theorem C46_file : exists lines ms,
  file_lines (file_bytes GraphemeBreakTest_txt) lines /\ Forall2 test_meaning lines ms /\ length (present ms) = 766.
Proof.
  pose proof file_check as H. destruct (file_tests GraphemeBreakTest_txt) as [ms|] eqn:E; [|discriminate].
  destruct (file_tests_ok _ ms E) as (lines & F1 & _ & F3). exists lines, ms. split; [exact F1|]. split; [exact F3|].
  unfold cases_ok in H. apply andb_true_iff in H. destruct H as [H _]. apply Nat.eqb_eq in H. exact H.
Qed.

Lemma cases lines ms : file_lines (file_bytes GraphemeBreakTest_txt) lines -> Forall2 test_meaning lines ms ->
  Forall (fun l => length l < 64 * 1024) lines /\
  Forall (fun cs => conforms cs /\ length (utf8_text (List.concat cs)) <= 2048) (present ms).
Proof.
  intros Hf Hm. pose proof file_check as H. destruct (file_tests GraphemeBreakTest_txt) as [ms'|] eqn:E; [|discriminate].
  destruct (file_tests_ok _ ms' E) as (lines' & F1 & F2 & F3).
  assert (lines = lines') by (eapply file_lines_fun; eassumption). subst lines'.
  assert (ms = ms') by (eapply test_meanings_unique; eassumption). subst ms'. split; [exact F2|].
  unfold cases_ok in H. apply andb_true_iff in H. destruct H as [_ H]. rewrite forallb_forall in H.
  apply Forall_forall. intros x Hx. apply case_conforms. auto.
Qed.

Theorem C46_conformance lines ms :
  file_lines (file_bytes GraphemeBreakTest_txt) lines -> Forall2 test_meaning lines ms -> Forall conforms (present ms).
Proof.
  intros Hf Hm. destruct (cases lines ms Hf Hm) as [_ H]. eapply Forall_impl; [|exact H]. cbv beta. tauto.
Qed.

(* The test programs pass, however the file is delivered.  What the body of the
   loop checks for an entry: collecting the tokens without copying (allTokens
   over the whole input; a scanner over dripReader; any other reader that
   delivers the input) ends, with exactly the expected segments and no error. *)
Definition passes (t : TestDataEntry) : Prop :=
  (exists got err, allTokens ScanGraphemeClusters (Input t) got err) /\
  (forall got err, allTokens ScanGraphemeClusters (Input t) got err -> got = WantSegments t /\ err = None) /\
  (forall R (rd : reader R) r sls r' s', delivers rd 100 r (Input t) EOF ->
     collects ScanGraphemeClusters rd r NewScanner sls r' s' ->
     map (bytes_of s') sls = WantSegments t /\ Err s' = None).

Lemma calls_prefix {R A} (line : list byte -> res (option (result A))) (rd : reader R) r s outs r1 s1 :
  calls line rd r s outs r1 s1 -> forall outs2 r2 s2, calls line rd r s outs2 r2 s2 ->
  length outs2 <= length outs -> exists rest, outs = outs2 ++ rest.
Proof.
  induction 1 as [r s|r s ra sa o outs r' s' N H IH]; intros outs2 r2 s2 H2 L;
    inversion H2 as [|? ? rb sb o2 outs3 ? ? N2 H3]; subst; cbn [List.length] in L.
  - exists []. reflexivity.
  - lia.
  - exists (o :: outs). reflexivity.
  - destruct (next_entry_fun _ _ _ _ _ _ _ N _ _ _ N2) as (-> & -> & ->).
    destruct (IH _ _ _ H3) as (rest & ->); [lia|]. exists rest. reflexivity.
Qed.

Lemma conforms_passes cs : conforms cs -> length (utf8_text (List.concat cs)) <= 2048 -> passes (test_entry cs).
Proof.
  intros (Hs & Hc & Ht) Hl. unfold passes, test_entry. cbn [Input WantSegments]. split; [|split].
  - apply C39_returns.
  - intros got err Ha. destruct (C39_short _ got err (Nat.le_trans _ _ _ Hl (Nat.le_succ_diag_r 2048)) Ha) as [K ->]. split; [|reflexivity].
    eapply tokenises_unique; eassumption.
  - intros R rd r sls r' s' Hd Hcs. destruct (C39_any_reader R rd r _ EOF sls r' s' Hd Hl Hcs) as [K E].
    split; [|exact E]. eapply tokenises_unique; eassumption.
Qed.

Theorem C46_test_passes {R} (rd : reader R) r e outs :
  delivers rd 100 r (file_bytes GraphemeBreakTest_txt) e -> test_results rd r outs ->
  Forall (fun o => match o with inl t => passes t | inr err => err = e end) outs /\
  (length outs <= 766 -> Forall (fun o => match o with inl _ => True | inr _ => False end) outs).
Proof.
  intros Hd (r1 & s1 & Ho). destruct C46_file as (lines & ms & Hf & Hm & Hn).
  destruct (cases lines ms Hf Hm) as [Hshort Hcases].
  destruct (C32_file rd r _ e lines ms Hd Hf Hshort Hm (length outs)) as (r2 & s2 & Hall).
  destruct (calls_prefix _ _ _ _ _ _ _ Hall _ _ _ Ho) as (rest & E).
  { rewrite app_length, repeat_length. apply Nat.le_add_l. }
  assert (Forall (fun o : result TestDataEntry => match o with inl t => passes t | inr err => err = e end)
    (map (fun cs => inl (test_entry cs)) (present ms) ++ repeat (inr e) (length outs))) as HF.
  { apply Forall_app. split.
    - apply Forall_map. eapply Forall_impl; [|exact Hcases]. intros cs [K1 K2]. apply conforms_passes; assumption.
    - apply Forall_forall. intros o Hin. apply repeat_spec in Hin. subst o. reflexivity. }
  rewrite E in HF. apply Forall_app in HF. split; [apply HF|]. intros Hlen.
  assert (outs = firstn (length outs) (map (fun cs => inl (test_entry cs)) (present ms))) as K.
  { apply (f_equal (firstn (length outs))) in E.
    rewrite (firstn_app (length outs) outs rest), Nat.sub_diag, firstn_O, app_nil_r, firstn_all in E.
    rewrite <- E at 1. rewrite firstn_app, map_length.
    replace (length outs - length (present ms)) with 0 by (clear - Hlen Hn; unfold result in *; lia). rewrite firstn_O, app_nil_r. reflexivity. }
  rewrite K. clear. apply Forall_forall. intros o Hin.
  assert (In o (map (fun cs => inl (test_entry cs)) (present ms))) as Hin'
    by (rewrite <- (firstn_skipn (length outs) (map _ (present ms))); apply in_or_app; left; exact Hin).
  apply in_map_iff in Hin'. destruct Hin' as (cs & <- & _). exact I.
Qed.

(* the readers of the two test programs are among those covered *)
Example C46_readers input : delivers bytes_reader 100 input input EOF /\ delivers dripReader 100 input input EOF.
Proof. split; [apply bytes_reader_delivers|apply drip_delivers]. Qed.

Definition all_theorems := (C46_meaning_unique, C46_file, C46_conformance, @C46_test_passes, C46_readers).
Print Assumptions all_theorems.
