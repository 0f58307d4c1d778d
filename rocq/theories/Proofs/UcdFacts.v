(* The line parser of ucdparse and the loops around it. *)
From Coq Require Import List NArith ZArith Arith Bool Lia Strings.Byte Strings.String.
From Coq Require Import ZifyBool ZifyNat ZifyN.
From Verif Require Import Spec.Utf8 Spec.UcdFile Spec.ErrorValues Spec.Readers Model.Base Model.Scan Model.Bufio Model.PropNames Model.UcdParse.
From Verif Require Import Proofs.ParseFacts Proofs.BufioFacts.
Import ListNotations.
Notation length := List.length.

(* ---- one line *)

Lemma content_iff l a : content l a <-> exists c f, Cut commentMarker l = (a, c, f).
Proof.
  unfold commentMarker. split.
  - intros [l' H|a' c H].
    + destruct (Cut1 x23 l') as [[_ ->]|(b & a' & -> & _)]; [eauto|]. exfalso. apply H. apply in_or_app. right. left. reflexivity.
    + pose proof (Cut_found1 x23 [] a' c H) as K. cbn [app] in K. rewrite K. eauto.
  - intros (c & f & E). destruct (Cut1 x23 l) as [[H E']|(b & a' & -> & H & E')]; rewrite E in E'.
    + assert (a = l) as -> by congruence. constructor. exact H.
    + assert (a = b) as -> by congruence. constructor. exact H.
Qed.

Lemma content_fun l a a' : content l a -> content l a' -> a = a'.
Proof. rewrite !content_iff. intros (c & f & E) (c' & f' & E'). congruence. Qed.

Lemma content_total l : exists a, content l a.
Proof. destruct (Cut commentMarker l) as [[a c] f] eqn:E. exists a. apply content_iff. eauto. Qed.

Definition range_of (r : list byte) : option (N * N) :=
  let '(h1, h2, isRange) := Cut rangeSeparator r in
  match ParseUint h1 with
  | inl a => if isRange then match ParseUint h2 with inl b => Some (a, b) | inr _ => None end else Some (a, a)
  | inr _ => None
  end.

Lemma hex_no_dots h n : hex_value h n -> ~ In x2e h.
Proof. intros H K. pose proof (hex_chars _ _ _ H K) as Q. vm_compute in Q. intuition congruence. Qed.

Lemma no_dot_absent h : ~ In x2e h -> absent rangeSeparator h.
Proof. intros H a b ->. apply H. apply in_or_app. right. left. reflexivity. Qed.

Lemma range_of_iff r a b : range_of r = Some (a, b) <-> range_text r a b /\ (a < 2 ^ 32 /\ b < 2 ^ 32)%N.
Proof.
  unfold range_of. split.
  - destruct (Cut rangeSeparator r) as [[h1 h2] isr] eqn:C.
    destruct (ParseUint h1) as [x|] eqn:P1; [|discriminate]. apply ParseUint_iff in P1. destruct P1 as [V1 L1].
    destruct isr.
    + destruct (ParseUint h2) as [y|] eqn:P2; [|discriminate]. apply ParseUint_iff in P2. destruct P2 as [V2 L2].
      intros E. assert (x = a) as -> by congruence. assert (y = b) as -> by congruence.
      apply Cut_true in C. subst r. split; [|split; assumption]. unfold rangeSeparator. constructor; assumption.
    + intros E. assert (x = a) as -> by congruence. assert (a = b) as <- by congruence.
      apply Cut_false in C. destruct C as (-> & _). split; [constructor; assumption|split; assumption].
  - intros [[h n V|h1 n1 h2 n2 V1 V2] [L1 L2]].
    + rewrite Cut_absent by (apply no_dot_absent; eapply hex_no_dots; eassumption).
      assert (ParseUint h = inl n) as -> by (apply ParseUint_iff; auto). reflexivity.
    + change [x2e; x2e] with rangeSeparator. unfold rangeSeparator.
      rewrite Cut_found1 by (eapply hex_no_dots; eassumption).
      assert (ParseUint h1 = inl n1) as -> by (apply ParseUint_iff; auto).
      assert (ParseUint h2 = inl n2) as -> by (apply ParseUint_iff; auto). reflexivity.
Qed.

(* blanks around a text do not matter *)
Lemma Trim_left w s : blanks w -> TrimSpace (w ++ s) = TrimSpace s.
Proof. intros H. unfold TrimSpace. rewrite TrimLeft_blanks by assumption. reflexivity. Qed.

Lemma Trim_right w s : blanks w -> TrimSpace (s ++ w) = TrimSpace s.
Proof.
  intros H. destruct (padded_exists s) as [t Ht]. assert (TrimSpace s = t) as -> by (apply TrimSpace_padded; exact Ht).
  apply TrimSpace_padded. destruct Ht as (w1 & w2 & H1 & H2 & Ht & ->).
  exists w1, (w2 ++ w). rewrite <- !app_assoc. repeat split; auto using blanks_app; apply Ht; assumption.
Qed.

Lemma Trim_idem s : TrimSpace (TrimSpace s) = TrimSpace s.
Proof.
  destruct (padded_exists s) as [t Ht]. pose proof Ht as K. apply TrimSpace_padded in K. rewrite K.
  apply TrimSpace_padded. destruct Ht as (w1 & w2 & H1 & H2 & Ht & ->).
  exists [], []. rewrite app_nil_r. repeat split; try constructor; apply Ht; assumption.
Qed.

Lemma blanks_no c w : blanks w -> (0x21 <= bval c < 0x80)%N -> ~ In c w.
Proof.
  induction 1 as [|a w Ha Hw IH]; intros Hc K; [contradiction|].
  apply in_app_or in K. destruct K as [K|K]; [|tauto].
  assert (forallb (fun a => forallb (fun b => (bval b <? 0x21) || (0x80 <=? bval b))%N (utf8_encode a)) spaces = true) as Q
    by (vm_compute; reflexivity).
  rewrite forallb_forall in Q. apply white_space_list in Ha. specialize (Q a Ha). rewrite forallb_forall in Q.
  specialize (Q c K). lia.
Qed.

Lemma semicolon_blanks w : blanks w -> ~ In x3b w.
Proof. intros H. apply blanks_no; [assumption|]. vm_compute. split; congruence. Qed.

(* ---- fields *)

Lemma fields_rounds fs ts : fields_text fs ts -> forall fuel n, length fs < fuel ->
  exists last, strings_rounds fuel (fun _ => true) n fs = Ret (ts, last) /\ ~ In x3b last /\
    padded last (List.last ts []).
Proof.
  induction 1 as [f t Hf Ht|f t fs ts Hf Ht H IH]; intros fuel n L; destruct fuel as [|fuel]; try lia; cbn [strings_rounds].
  - unfold fieldSeparator. rewrite Cut_absent by (apply absent1; exact Hf). cbn [negb].
    exists f. apply TrimSpace_padded in Ht as Et. rewrite Et. split; [reflexivity|]. auto.
  - unfold fieldSeparator. change (f ++ x3b :: fs) with (f ++ [x3b] ++ fs). rewrite Cut_found1 by exact Hf. cbn [negb].
    destruct (IH fuel (S n)) as (last & E & K1 & K2); [rewrite app_length in L; cbn [length] in L; lia|].
    rewrite E. cbn [bind]. apply TrimSpace_padded in Ht. rewrite Ht. exists last. split; [reflexivity|]. split; [exact K1|].
    destruct ts as [|t' ts']; [inversion H|]. exact K2.
Qed.

Lemma fields_total fs : exists ts, fields_text fs ts.
Proof.
  remember (length fs) as k eqn:Ek. revert fs Ek. induction k as [k IH] using lt_wf_ind. intros fs ->.
  destruct (padded_exists fs) as [t0 Ht0].
  destruct (in_dec Byte.byte_eq_dec x3b fs) as [H|H]; [|exists [t0]; constructor; assumption].
  destruct (first_occurrence _ _ H) as (b & a & -> & Hb). destruct (padded_exists b) as [t Ht].
  destruct (IH (length a)) with (fs := a) as [ts Hts]; [rewrite app_length; cbn [length]; lia|reflexivity|].
  exists (t :: ts). constructor; assumption.
Qed.

Lemma fields_fun fs ts ts' : fields_text fs ts -> fields_text fs ts' -> ts = ts'.
Proof.
  intros H H'. destruct (fields_rounds fs ts H (S (length fs)) 0) as (l & E & _); [lia|].
  destruct (fields_rounds fs ts' H' (S (length fs)) 0) as (l' & E' & _); [lia|]. congruence.
Qed.

Lemma fields_left w fs ts : blanks w -> fields_text (w ++ fs) ts -> fields_text fs ts.
Proof.
  intros Hw H. remember (w ++ fs) as s eqn:E. destruct H as [f t Hf Ht|f t fs' ts Hf Ht H].
  - subst f. constructor; [intros K; apply Hf; apply in_or_app; auto|].
    apply TrimSpace_padded in Ht. rewrite Trim_left in Ht by assumption. apply TrimSpace_padded. exact Ht.
  - assert (In x3b fs) as K.
    { assert (In x3b (w ++ fs)) as K by (rewrite <- E; apply in_or_app; right; left; reflexivity).
      apply in_app_or in K. destruct K as [K|K]; [exfalso; eapply semicolon_blanks; eassumption|exact K]. }
    destruct (first_occurrence _ _ K) as (b & a & -> & Hb).
    assert (f = w ++ b /\ fs' = a) as [-> ->].
    { apply first_occurrence_unique with (c := x3b); [rewrite <- app_assoc; exact E|exact Hf|].
      intros Q. apply in_app_or in Q. destruct Q as [Q|Q]; [eapply semicolon_blanks; eassumption|tauto]. }
    constructor; [exact Hb| |exact H].
    apply TrimSpace_padded in Ht. rewrite Trim_left in Ht by assumption. apply TrimSpace_padded. exact Ht.
Qed.

Lemma fields_right w fs ts : blanks w -> fields_text (fs ++ w) ts -> fields_text fs ts.
Proof.
  intros Hw H. remember (fs ++ w) as s eqn:E. revert fs E. induction H as [f t Hf Ht|f t fs' ts Hf Ht H IH]; intros fs E.
  - subst f. constructor; [intros K; apply Hf; apply in_or_app; auto|].
    apply TrimSpace_padded in Ht. rewrite Trim_right in Ht by assumption. apply TrimSpace_padded. exact Ht.
  - assert (In x3b fs) as K.
    { assert (In x3b (fs ++ w)) as K by (rewrite <- E; apply in_or_app; right; left; reflexivity).
      apply in_app_or in K. destruct K as [K|K]; [exact K|exfalso; eapply semicolon_blanks; eassumption]. }
    destruct (first_occurrence _ _ K) as (b & a & -> & Hb).
    assert (f = b /\ fs' = a ++ w) as [-> ->].
    { apply first_occurrence_unique with (c := x3b); [rewrite <- app_assoc in E; exact E|exact Hf|exact Hb]. }
    constructor; [exact Hb|exact Ht|]. apply IH. reflexivity.
Qed.

Lemma fields_trim fs ts : fields_text fs ts -> fields_text (TrimSpace fs) ts.
Proof.
  intros H. destruct (padded_exists fs) as [t Ht]. pose proof Ht as K. apply TrimSpace_padded in K. rewrite K.
  destruct Ht as (w1 & w2 & H1 & H2 & _ & ->). apply fields_left in H; [|assumption].
  eapply fields_right; eassumption.
Qed.

Lemma AllFields_ok e fs ts : Fields e = TrimSpace fs -> fields_text fs ts -> AllFields e = Ret ts.
Proof.
  intros E H. unfold AllFields, range_strings. rewrite E. apply fields_trim in H.
  destruct (fields_rounds _ _ H (S (length (TrimSpace fs))) 0) as (l & -> & _); [lia|]. reflexivity.
Qed.

Lemma FirstField_ok e fs ts : Fields e = TrimSpace fs -> fields_text fs ts -> FirstField e = hd [] ts.
Proof.
  intros E H. unfold FirstField. rewrite E. apply fields_trim in H. unfold fieldSeparator.
  destruct H as [f t Hf Ht|f t fs' ts Hf Ht H].
  - rewrite Cut_absent by (apply absent1; exact Hf). apply TrimSpace_padded. exact Ht.
  - change (f ++ x3b :: fs') with (f ++ [x3b] ++ fs'). rewrite Cut_found1 by exact Hf. apply TrimSpace_padded. exact Ht.
Qed.

(* ---- the meaning of a line, as a function *)

Definition fields_of (fs : list byte) : list (list byte) :=
  match strings_rounds (S (length fs)) (fun _ => true) 0 fs with Ret (ts, _) => ts | Panic _ => [] end.

Lemma fields_of_iff fs ts : fields_text fs ts <-> ts = fields_of fs.
Proof.
  assert (forall ts, fields_text fs ts -> ts = fields_of fs) as K.
  { intros t H. unfold fields_of. destruct (fields_rounds _ _ H (S (length fs)) 0) as (l & -> & _); [lia|]. reflexivity. }
  split; [apply K|]. intros ->. destruct (fields_total fs) as [t H]. rewrite <- (K t H). exact H.
Qed.

(* what is wrong with a range that is not one *)
Definition cause_of (e : goerror) : cause := match e with ErrRange => TooBig | _ => NotHex end.
Lemma cause_of_error c : cause_of (strconv_error c) = c.
Proof. destruct c; reflexivity. Qed.
Definition fault_of (r : list byte) : fault :=
  let '(h1, h2, _) := Cut rangeSeparator r in
  match ParseUint h1 with
  | inr e => BadStart h1 (cause_of e)
  | inl _ => match ParseUint h2 with inr e => BadEnd h2 (cause_of e) | inl _ => BadEnd h2 NotHex end
  end.

Definition meaning_of (l : list byte) : meaning :=
  let '(a, _, _) := Cut commentMarker l in
  let '(rng, fs, ok) := Cut fieldSeparator a in
  if ok then
    match range_of (TrimSpace rng) with
    | Some (first, last) => Data first last (fields_of fs)
    | None => Malformed (fault_of (TrimSpace rng))
    end
  else Ignored.

Theorem meaning_of_iff l m : line_means l m <-> m = meaning_of l.
Proof.
  unfold meaning_of. destruct (Cut commentMarker l) as [[a c] f] eqn:C.
  assert (content l a) as Ha by (apply content_iff; eauto).
  unfold fieldSeparator. split.
  - intros H; inversion H as [l' a' Hc Hs|l' rng r fs first last fields Hc Hs Hp Hr L1 L2 Hf|l' rng r fs st rest0 c0 Hc Hs Hp Hd Hn|l' rng r fs st en n c0 Hc Hs Hp Hd Hh L Hn];
      subst; pose proof (content_fun _ _ _ Ha Hc) as ->.
    + rewrite Cut_absent by (apply absent1; exact Hs). reflexivity.
    + pose proof (Cut_found1 x3b [] rng fs Hs) as K. cbn [app] in K. rewrite K.
      apply TrimSpace_padded in Hp. rewrite Hp.
      assert (range_of r = Some (first, last)) as -> by (apply range_of_iff; auto).
      f_equal. apply fields_of_iff. exact Hf.
    + pose proof (Cut_found1 x3b [] rng fs Hs) as K. cbn [app] in K. rewrite K.
      apply TrimSpace_padded in Hp. rewrite Hp.
      apply at_dots_iff in Hd. pose proof (proj2 (ParseUint_why st _) (ex_intro _ c0 (conj Hn eq_refl))) as P.
      unfold range_of, fault_of. rewrite Hd. destruct rest0; cbn zeta iota; rewrite P, cause_of_error; reflexivity.
    + pose proof (Cut_found1 x3b [] rng fs Hs) as K. cbn [app] in K. rewrite K.
      apply TrimSpace_padded in Hp. rewrite Hp.
      apply at_dots_iff in Hd. pose proof (proj2 (ParseUint_why en _) (ex_intro _ c0 (conj Hn eq_refl))) as P.
      assert (ParseUint st = inl n) as Q by (apply ParseUint_iff; auto).
      unfold range_of, fault_of. rewrite Hd, Q, P, cause_of_error. reflexivity.
  - intros ->. destruct (Cut1 x3b a) as [[H ->]|(b & a' & -> & Hb & ->)].
    + econstructor; eassumption.
    + destruct (range_of (TrimSpace b)) as [[x y]|] eqn:E.
      * apply range_of_iff in E. destruct E as (E & L1 & L2).
        econstructor; try eassumption; [apply TrimSpace_padded; reflexivity|apply fields_of_iff; reflexivity].
      * assert (padded b (TrimSpace b)) as Hp by (apply TrimSpace_padded; reflexivity).
        revert E. unfold range_of, fault_of.
        destruct (Cut rangeSeparator (TrimSpace b)) as [[h1 h2] isr] eqn:D.
        destruct (ParseUint h1) as [n|e1] eqn:P1.
        -- destruct isr; [|discriminate]. destruct (ParseUint h2) as [m2|e2] eqn:P2; [discriminate|]. intros _.
           apply ParseUint_iff in P1. apply ParseUint_why in P2. destruct P2 as (c2 & Hn & ->). rewrite cause_of_error.
           eapply means_bad_end; try eassumption; [|apply P1|apply P1]. apply at_dots_iff. exact D.
        -- intros _. apply ParseUint_why in P1. destruct P1 as (c2 & Hn & ->). rewrite cause_of_error.
           eapply (means_bad_start _ _ _ _ h1 (if isr then Some h2 else None)); try eassumption.
           apply at_dots_iff. destruct isr; [exact D|]. rewrite D. apply Cut_false in D. destruct D as (_ & -> & _). reflexivity.
Qed.

(* what a call of NextEntry reports for a line, in terms of the API *)
Definition reports (m : meaning) (o : result Entry) : Prop :=
  match m, o with
  | Data first last fields, inl e =>
      Start e = int32 (Z.of_N first) /\ End e = int32 (Z.of_N last + 1) /\
      FirstField e = hd [] fields /\ AllFields e = Ret fields
  | Malformed f, inr err => err = error_for f
  | _, _ => False
  end.

Lemma int32_add z : int32 (int32 z + 1) = int32 (z + 1).
Proof.
  unfold int32. f_equal.
  replace ((z + 2147483648) mod 4294967296 - 2147483648 + 1 + 2147483648)%Z
    with ((z + 2147483648) mod 4294967296 + 1)%Z by lia.
  rewrite Zplus_mod_idemp_l. f_equal. lia.
Qed.

Theorem parse_line_ok l m : line_means l m ->
  match m with
  | Ignored => parse_line l = None
  | _ => exists o, parse_line l = Some o /\ reports m o
  end.
Proof.
  intros H. apply meaning_of_iff in H. subst m. unfold meaning_of, parse_line.
  destruct (Cut commentMarker l) as [[a c] f]. unfold fieldSeparator.
  destruct (Cut1 x3b a) as [[H ->]|(rng & fs & -> & Hb & ->)]; cbn [negb]; [reflexivity|].
  unfold range_of, fault_of. destruct (Cut rangeSeparator (TrimSpace rng)) as [[h1 h2] isr].
  destruct (ParseUint h1) as [x|e1] eqn:P1.
  - destruct isr; [destruct (ParseUint h2) as [y|e2] eqn:P2|].
    + eexists. split; [reflexivity|]. cbn [reports Start End]. rewrite int32_add. split; [reflexivity|]. split; [reflexivity|].
      pose proof (proj2 (fields_of_iff fs _) eq_refl) as Hf.
      split; [eapply FirstField_ok|eapply AllFields_ok]; try exact Hf; reflexivity.
    + eexists. split; [reflexivity|]. cbn [reports]. apply ParseUint_why in P2. destruct P2 as (c2 & _ & ->).
      rewrite cause_of_error. reflexivity.
    + eexists. split; [reflexivity|]. cbn [reports Start End]. rewrite int32_add. split; [reflexivity|]. split; [reflexivity|].
      pose proof (proj2 (fields_of_iff fs _) eq_refl) as Hf.
      split; [eapply FirstField_ok|eapply AllFields_ok]; try exact Hf; reflexivity.
  - eexists. split; [reflexivity|]. cbn [reports]. apply ParseUint_why in P1. destruct P1 as (c2 & _ & ->).
    rewrite cause_of_error. reflexivity.
Qed.

(* a carriage return before the line feed does not matter *)
Lemma cr_blank : blanks [x0d].
Proof. apply (blanks_one 0xD). unfold white_space. lia. Qed.

Lemma parse_line_cr l : parse_line (l ++ [x0d]) = parse_line l.
Proof.
  unfold parse_line, commentMarker, fieldSeparator.
  destruct (Cut1 x23 l) as [[H ->]|(a & c & -> & H & ->)].
  - rewrite (Cut_absent [x23] (l ++ [x0d])).
    2: { apply absent1. intros K. apply in_app_or in K. destruct K as [K|[K|[]]]; [tauto|discriminate]. }
    destruct (Cut1 x3b l) as [[H3 ->]|(rng & fs & -> & Hb & ->)].
    + rewrite (Cut_absent [x3b] (l ++ [x0d])); [reflexivity|].
      apply absent1. intros K. apply in_app_or in K. destruct K as [K|[K|[]]]; [tauto|discriminate].
    + rewrite <- app_assoc. cbn [app]. pose proof (Cut_found1 x3b [] rng (fs ++ [x0d]) Hb) as K. cbn [app] in K. rewrite K.
      rewrite Trim_right by apply cr_blank. reflexivity.
  - rewrite <- app_assoc. cbn [app].
    pose proof (Cut_found1 x23 [] a (c ++ [x0d]) H) as K. cbn [app] in K. rewrite K. reflexivity.
Qed.

Lemma dropCR_cases l : dropCR l = l \/ l = dropCR l ++ [x0d].
Proof.
  unfold dropCR. rewrite rev'_rev. destruct (rev l) as [|b r] eqn:E; [left; reflexivity|].
  destruct b; try (left; reflexivity). right. rewrite rev'_rev.
  rewrite <- (rev_involutive l), E. reflexivity.
Qed.

Lemma parse_line_dropCR l : parse_line (dropCR l) = parse_line l.
Proof. destruct (dropCR_cases l) as [->|E]; [reflexivity|]. rewrite E at 2. rewrite parse_line_cr. reflexivity. Qed.

(* ---- ScanLines *)

Lemma index_newline_some d i : index_newline d = Some i ->
  exists a b, d = a ++ x0a :: b /\ ~ In x0a a /\ length a = i.
Proof.
  revert i. induction d as [|x d IH]; intros i; cbn [index_newline]; [discriminate|].
  destruct (byte_eqb_spec x x0a) as [->|N].
  - intros E. injection E as <-. exists [], d. cbn. tauto.
  - destruct (index_newline d) as [j|]; [|discriminate]. cbn [option_map]. intros E. injection E as <-.
    destruct (IH j eq_refl) as (a & b & -> & H & <-). exists (x :: a), b. split; [reflexivity|]. split; [|reflexivity].
    intros [K|K]; [congruence|tauto].
Qed.

Lemma index_newline_none d : index_newline d = None -> ~ In x0a d.
Proof.
  induction d as [|x d IH]; cbn [index_newline]; [tauto|].
  destruct (byte_eqb_spec x x0a) as [->|N]; [discriminate|].
  destruct (index_newline d); [discriminate|]. intros _ [K|K]; [congruence|]. apply IH; auto.
Qed.

Lemma index_newline_found a b : ~ In x0a a -> index_newline (a ++ x0a :: b) = Some (length a).
Proof.
  induction a as [|x a IH]; intros H; cbn [app index_newline length]; [reflexivity|].
  destruct (byte_eqb_spec x x0a) as [->|N]; [exfalso; apply H; left; reflexivity|].
  rewrite IH; [reflexivity|]. intros K. apply H. right. exact K.
Qed.

Lemma index_newline_absent a : ~ In x0a a -> index_newline a = None.
Proof.
  intros H. destruct (index_newline a) as [i|] eqn:E; [|reflexivity].
  destruct (index_newline_some _ _ E) as (b & c & -> & _). exfalso. apply H. apply in_or_app. right. left. reflexivity.
Qed.

Lemma dropCR_prefix l : length (dropCR l) <= length l /\ dropCR l = firstn (length (dropCR l)) l.
Proof.
  destruct (dropCR_cases l) as [E|E].
  - rewrite E. split; [lia|]. symmetry. apply firstn_all.
  - split; [rewrite E at 2; rewrite app_length; lia|].
    rewrite E at 3. rewrite firstn_app, Nat.sub_diag, firstn_all. cbn [firstn]. rewrite app_nil_r. reflexivity.
Qed.

Lemma good_ScanLines : good_split ScanLines.
Proof.
  constructor.
  - intros d eof. unfold ScanLines. destruct (eof && is_empty d) eqn:E0; [left; reflexivity|].
    destruct (index_newline d) as [i|] eqn:E.
    + right. destruct (index_newline_some _ _ E) as (a & b & -> & _ & <-).
      rewrite firstn_app, Nat.sub_diag, firstn_all. cbn [firstn]. rewrite app_nil_r.
      exists (length a + 1), (dropCR a). destruct (dropCR_prefix a) as [L P].
      split; [reflexivity|]. rewrite app_length. cbn [length]. split; [lia|]. split; [lia|].
      rewrite firstn_app. replace (length (dropCR a) - length a) with 0 by lia. cbn [firstn]. rewrite app_nil_r. exact P.
    + destruct eof; [|left; reflexivity]. right. exists (length d), (dropCR d). destruct (dropCR_prefix d) as [L P].
      split; [reflexivity|]. split; [|auto]. destruct d; [discriminate E0|cbn [length]; lia].
  - intros d H. unfold ScanLines. destruct d as [|b d]; [congruence|]. cbn [andb is_empty].
    destruct (index_newline (b :: d)); eauto.
  - reflexivity.
  - intros d n t ext eof. unfold ScanLines. cbn [andb].
    destruct (index_newline d) as [i|] eqn:E; [|discriminate]. intros H.
    destruct (index_newline_some _ _ E) as (a & b & -> & Ha & <-).
    rewrite <- app_assoc. cbn [app]. rewrite index_newline_found by assumption.
    rewrite firstn_app, Nat.sub_diag, firstn_all in H. rewrite firstn_app, Nat.sub_diag, firstn_all.
    cbn [firstn] in *. rewrite app_nil_r in *.
    destruct (a ++ x0a :: b ++ ext) eqn:K; [destruct a; discriminate|]. cbn [is_empty].
    rewrite andb_false_r. exact H.
Qed.

Lemma file_lines_scan input l ls n t : file_lines input (l :: ls) -> ScanLines input true = Ret (n, Some t, None) ->
  t = dropCR l /\ file_lines (skipn n input) ls /\ length l <= n.
Proof.
  intros H E. inversion H as [|l' rest ls' Hl Hr|l' Hl Hne]; subst.
  - unfold ScanLines in E. rewrite index_newline_found in E by assumption.
    assert (is_empty (l ++ x0a :: rest) = false) as Z by (destruct l; reflexivity). rewrite Z in E. cbn [andb] in E.
    assert (n = length l + 1) as -> by congruence. split.
    + rewrite firstn_app, Nat.sub_diag, firstn_all in E. cbn [firstn] in E. rewrite app_nil_r in E. congruence.
    + split; [|lia]. rewrite skipn_app, skipn_all2 by lia. replace (length l + 1 - length l) with 1 by lia.
      cbn [app skipn]. assumption.
  - unfold ScanLines in E. rewrite index_newline_absent in E by assumption.
    destruct l as [|b l]; [congruence|]. cbn [is_empty andb] in E.
    assert (n = length (b :: l)) as -> by congruence. split; [congruence|]. rewrite skipn_all. split; [constructor|lia].
Qed.

Lemma file_lines_nil input : file_lines input [] -> input = [].
Proof. inversion 1; reflexivity. Qed.

Lemma file_lines_cons_ne input l ls : file_lines input (l :: ls) -> input <> [].
Proof. inversion 1; subst; [destruct l; discriminate|assumption]. Qed.

Lemma file_lines_total input : exists ls, file_lines input ls.
Proof.
  remember (length input) as k eqn:Ek. revert input Ek. induction k as [k IH] using lt_wf_ind. intros s ->.
  destruct (in_dec Byte.byte_eq_dec x0a s) as [H|H].
  - destruct (first_occurrence _ _ H) as (b & a & -> & Hb).
    destruct (IH (length a)) with (input := a) as [ls Hls]; [rewrite app_length; cbn [length]; lia|reflexivity|].
    exists (b :: ls). constructor; assumption.
  - destruct s as [|x s]; [exists []; constructor|]. exists [x :: s]. constructor; [exact H|discriminate].
Qed.

Lemma file_lines_fun input ls : file_lines input ls -> forall ls', file_lines input ls' -> ls = ls'.
Proof.
  induction 1 as [|l rest ls Hl H IH|l Hl Hne]; intros ls' H'.
  - inversion H'; subst; [reflexivity|destruct l; discriminate|congruence].
  - inversion H' as [K|l' rest' ls2 Hl' Hr' K|l' Hl' Hne' K]; subst.
    + destruct l; discriminate.
    + destruct (first_occurrence_unique _ _ _ _ _ K Hl' Hl) as [-> ->]. f_equal. auto.
    + exfalso. apply Hl'. apply in_or_app. right. left. reflexivity.
  - inversion H' as [K|l' rest' ls2 Hl' Hr' K|l' Hl' Hne' K]; subst.
    + congruence.
    + exfalso. apply Hl. apply in_or_app. right. left. reflexivity.
    + reflexivity.
Qed.

Lemma too_long_line input l ls d ext : file_lines input (l :: ls) -> d ++ ext = input ->
  ScanLines d false = Ret (0, None, None) -> length d <= length l.
Proof.
  intros H E Hd. unfold ScanLines in Hd. cbn [andb] in Hd.
  destruct (index_newline d) as [i|] eqn:K.
  { assert (i + 1 = 0) by congruence. lia. }
  apply index_newline_none in K. inversion H as [|l' rest ls' Hl Hr E'|l' Hl Hne]; subst.
  - destruct (Nat.le_gt_cases (length d) (length l)) as [L|L]; [exact L|]. exfalso. apply K.
    assert (nth_error (d ++ ext) (length l) = Some x0a) as Q.
    { rewrite <- E', nth_error_app2, Nat.sub_diag by lia. reflexivity. }
    rewrite nth_error_app1 in Q by lia. eapply nth_error_In; eassumption.
  - rewrite app_length. lia.
Qed.

(* ---- sequences of calls *)

(* the results of successive calls of NextEntry *)
Inductive calls {R A} (line : list byte -> res (option (result A))) (rd : reader R) :
  R -> scanner -> list (result A) -> R -> scanner -> Prop :=
| calls_none r s : calls line rd r s [] r s
| calls_one r s r1 s1 o outs r' s' :
    next_entry line rd r s r1 s1 o -> calls line rd r1 s1 outs r' s' -> calls line rd r s (o :: outs) r' s'.

Lemma next_entry_fun {R A} (line : list byte -> res (option (result A))) (rd : reader R) r s r1 s1 o :
  next_entry line rd r s r1 s1 o -> forall r2 s2 o2, next_entry line rd r s r2 s2 o2 -> r1 = r2 /\ s1 = s2 /\ o = o2.
Proof.
  induction 1 as [r s r' s' E|r s r1 s1 raw out E L|r s r1 s1 raw r' s' out E L H IH]; intros r2 s2 o2 H2;
    inversion H2 as [? ? ? ? E2|? ? ? ? raw2 ? E2 L2|? ? ra sa raw2 ? ? ? E2 L2 H3]; subst; rewrite E in E2; try discriminate E2.
  - injection E2 as <- <-. auto.
  - injection E2 as <- <- <-. split; [reflexivity|]. split; [reflexivity|]. congruence.
  - injection E2 as <- <- <-. congruence.
  - injection E2 as <- <- <-. congruence.
  - injection E2 as <- <- <-. apply IH. exact H3.
Qed.

Lemma calls_fun {R A} (line : list byte -> res (option (result A))) (rd : reader R) r s outs r1 s1 :
  calls line rd r s outs r1 s1 -> forall outs2 r2 s2, calls line rd r s outs2 r2 s2 ->
  length outs = length outs2 -> outs = outs2 /\ r1 = r2 /\ s1 = s2.
Proof.
  induction 1 as [r s|r s ra sa o outs r' s' N H IH]; intros outs2 r2 s2 H2 L;
    inversion H2 as [|? ? rb sb o2 outs3 ? ? N2 H3]; subst; cbn [length] in L; try lia; auto.
  destruct (next_entry_fun _ _ _ _ _ _ _ N _ _ _ N2) as (-> & -> & ->).
  destruct (IH _ _ _ H3) as (-> & -> & ->); [lia|]. auto.
Qed.

(* what the lines give *)
Inductive outcomes {A} (line : list byte -> res (option (result A))) : list (list byte) -> list (result A) -> Prop :=
| outcomes_nil : outcomes line [] []
| outcomes_skip l ls outs : line (dropCR l) = Ret None -> outcomes line ls outs -> outcomes line (l :: ls) outs
| outcomes_found l ls o outs : line (dropCR l) = Ret (Some o) -> outcomes line ls outs -> outcomes line (l :: ls) (o :: outs).

Lemma no_more_err s e : s_err s = Some e -> no_more s = e.
Proof. unfold no_more, Err. intros ->. destruct e; reflexivity. Qed.

Lemma ends {R A} (line : list byte -> res (option (result A))) (rd : reader R) e : forall n r s,
  inv s -> sane_max s -> limit s = MaxScanTokenSize -> after_input rd r s e [] ->
  exists r' s', calls line rd r s (repeat (inr e) n) r' s'.
Proof.
  induction n as [|n IH]; intros r s I M L H; [exists r, s; constructor|].
  destruct (Scan_input ScanLines rd r s e [] good_ScanLines I M H) as (r' & s' & o & E & I' & L' & O).
  destruct o as [sl|].
  - destruct O as (_ & k & K & _). discriminate K.
  - destruct O as [(_ & Er & D)|(_ & d & ext & X & _ & Ld & _)].
    + destruct (IH r' s') as (r2 & s2 & C); auto; try congruence.
      * assert (s_max s' = s_max s) as Ms.
        { pose proof (Scan_any ScanLines rd r s good_ScanLines I) as (ra & sa & oa & Ea & _ & _ & Ma & _).
          rewrite E in Ea. assert (sa = s') as -> by congruence. exact Ma. }
        unfold sane_max in *. congruence.
      * right. auto.
      * exists r2, s2. cbn [repeat]. econstructor; [|exact C].
        rewrite <- (no_more_err s' e Er). constructor. exact E.
    + destruct d; [|discriminate]. cbn [length] in Ld. exfalso. rewrite L in Ld. unfold MaxScanTokenSize in Ld. lia.
Qed.

Lemma calls_lines {R A} (line : list byte -> res (option (result A))) (rd : reader R) e lines outs :
  outcomes line lines outs -> Forall (fun l => length l < MaxScanTokenSize) lines ->
  forall n r s input, inv s -> sane_max s -> limit s = MaxScanTokenSize ->
  after_input rd r s e input -> file_lines input lines ->
  exists r' s', calls line rd r s (outs ++ repeat (inr e) n) r' s'.
Proof.
  induction 1 as [|l ls outs El H IH|l ls o outs El H IH]; intros F n r s input I M L Hin Hf.
  - apply file_lines_nil in Hf. subst input. cbn [app]. apply ends; assumption.
  - inversion F as [|? ? Fl Fs]; subst.
    destruct (Scan_input ScanLines rd r s e input good_ScanLines I M Hin) as (r1 & s1 & [sl|] & E & I1 & L1 & O).
    + destruct O as (M1 & k & K & _ & Hin1). destruct (file_lines_scan _ _ _ _ _ Hf K) as (Et & Hf1 & _).
      destruct (IH Fs n r1 s1 _ I1 M1 (eq_trans L1 L) Hin1 Hf1) as (r2 & s2 & C).
      inversion C as [ra sa Eo|ra sa rb sb o1 outs1 rc sc N C1 Eo]; subst.
      * exists r, s. constructor.
      * exists r2, s2. econstructor; [|eassumption]. eapply next_skip; [exact E|rewrite Et; exact El|exact N].
    + destruct O as [(-> & _)|(_ & d & ext & X & Hd & Ld & _)].
      * exfalso. apply file_lines_cons_ne in Hf. congruence.
      * exfalso. pose proof (too_long_line _ _ _ _ _ Hf X Hd). lia.
  - inversion F as [|? ? Fl Fs]; subst.
    destruct (Scan_input ScanLines rd r s e input good_ScanLines I M Hin) as (r1 & s1 & [sl|] & E & I1 & L1 & O).
    + destruct O as (M1 & k & K & _ & Hin1). destruct (file_lines_scan _ _ _ _ _ Hf K) as (Et & Hf1 & _).
      destruct (IH Fs n r1 s1 _ I1 M1 (eq_trans L1 L) Hin1 Hf1) as (r2 & s2 & C).
      exists r2, s2. cbn [app]. econstructor; [|exact C]. eapply next_found; [exact E|rewrite Et; exact El].
    + destruct O as [(-> & _)|(_ & d & ext & X & Hd & Ld & _)].
      * exfalso. apply file_lines_cons_ne in Hf. congruence.
      * exfalso. pose proof (too_long_line _ _ _ _ _ Hf X Hd). lia.
Qed.

(* with an error recorded, what is held is one more line *)
Lemma held_line {R} (rd : reader R) r s e : inv s -> s_err s = Some e -> data s <> [] -> ~ In x0a (data s) ->
  exists s' sl, Scan ScanLines rd r s = Ret (r, s', Some sl) /\ bytes_of s' sl = dropCR (data s) /\
    inv s' /\ s_err s' = Some e /\ data s' = [] /\ limit s' = limit s /\ s_max s' = s_max s.
Proof.
  intros I He Hne Hn.
  assert (exists fuel, Scan ScanLines rd r s = scan_loop_bufio ScanLines rd (S fuel) r s) as (fuel & ->) by (eexists; reflexivity).
  destruct (iter_split ScanLines rd fuel r s good_ScanLines I) as [(n & t & E & Hn' & -> & Hb)|(E & _)].
  - rewrite He. apply orb_true_r.
  - rewrite He in E. unfold ScanLines in E. rewrite index_newline_absent in E by exact Hn.
    destruct (data s) as [|b d] eqn:Ed; [congruence|]. cbn [is_empty andb] in E.
    assert (n = length (b :: d)) as -> by congruence. assert (t = dropCR (b :: d)) as -> by congruence.
    eexists. eexists. split; [reflexivity|]. split; [exact Hb|].
    assert (data (advanced s (length (b :: d))) = []) as D.
    { rewrite advanced_data by (auto; rewrite Ed; lia). rewrite Ed. apply skipn_all. }
    pose proof (data_length s I) as Q. rewrite Ed in Q.
    split; [unfold inv, advanced in *; cbn [s_start s_end s_buf]; lia|].
    split; [exact He|]. split; [exact D|]. split; reflexivity.
  - rewrite He in E. unfold ScanLines in E. rewrite index_newline_absent in E by exact Hn.
    destruct (data s); [congruence|]. discriminate E.
Qed.

Lemma calls_held {R A} (line : list byte -> res (option (result A))) (rd : reader R) r s e last n :
  inv s -> sane_max s -> limit s = MaxScanTokenSize -> s_err s = Some e -> data s <> [] -> ~ In x0a (data s) ->
  outcomes line [data s] last ->
  exists r' s', calls line rd r s (last ++ repeat (inr e) n) r' s'.
Proof.
  intros I M L He Hne Hn Ho. destruct (held_line rd r s e I He Hne Hn) as (s1 & sl & E & Hb & I1 & E1 & D1 & L1 & M1).
  assert (forall k, exists r' s', calls line rd r s1 (repeat (inr e) k) r' s') as K.
  { intros k. apply ends; auto; [unfold sane_max in *; congruence|congruence|]. right. auto. }
  inversion Ho as [|l ls outs El H|l ls o outs El H]; subst; inversion H; subst; cbn [app].
  - destruct n as [|n]; [exists r, s; constructor|]. destruct (K (S n)) as (r2 & s2 & C). cbn [repeat] in *.
    inversion C as [|ra sa rb sb o1 outs1 rc sc N C1]; subst. exists r2, s2. econstructor; [|exact C1].
    eapply next_skip; [exact E|rewrite Hb; exact El|exact N].
  - destruct (K n) as (r2 & s2 & C). exists r2, s2. econstructor; [|exact C].
    eapply next_found; [exact E|rewrite Hb; exact El].
Qed.

Lemma oversize_end file long rest n t : file_lines file (long :: rest) -> oversize file long rest ->
  ScanLines file true = Ret (n, Some t, None) -> 64 * 1024 < n.
Proof.
  intros H O E. inversion H as [|l' inp ls' Hl Hr|l' Hl Hne]; subst.
  - unfold ScanLines in E. rewrite index_newline_found in E by assumption.
    assert (is_empty (long ++ x0a :: inp) = false) as Z by (destruct long; reflexivity). rewrite Z in E. cbn [andb] in E.
    assert (n = length long + 1) as -> by congruence. destruct O as [O|[O _]]; [lia|]. rewrite O. lia.
  - unfold ScanLines in E. rewrite index_newline_absent in E by assumption.
    destruct long as [|b l]; [congruence|]. cbn [is_empty andb] in E.
    assert (n = length (b :: l)) as -> by congruence. destruct O as [O|[_ [O|(before & O)]]]; [exact O|congruence|].
    exfalso. apply Hl. rewrite O. apply in_or_app. right. left. reflexivity.
Qed.

Lemma oversize_skipn file n long rest : oversize file long rest -> skipn n file <> [] -> oversize (skipn n file) long rest.
Proof.
  intros [O|[O [O'|(before & ->)]]] Hne; [left; exact O|right; auto|]. right. split; [exact O|]. right.
  rewrite skipn_app in *. destruct (Nat.le_gt_cases n (length before)) as [L|L].
  - replace (n - length before) with 0 by lia. eexists. reflexivity.
  - exfalso. apply Hne. rewrite skipn_all2 by lia. destruct (n - length before) as [|m] eqn:Em; [lia|]. destruct m; reflexivity.
Qed.

(* the lines before some line that may not fit *)
Lemma calls_prefix {R A} (line : list byte -> res (option (result A))) (rd : reader R) e lines outs :
  outcomes line lines outs -> Forall (fun l => length l < MaxScanTokenSize) lines ->
  forall l0 rest r s input, inv s -> sane_max s -> limit s = MaxScanTokenSize ->
  after_input rd r s e input -> file_lines input (lines ++ l0 :: rest) ->
  exists r1 s1 k, inv s1 /\ sane_max s1 /\ limit s1 = MaxScanTokenSize /\
    after_input rd r1 s1 e (skipn k input) /\ file_lines (skipn k input) (l0 :: rest) /\
    forall o more r' s', calls line rd r1 s1 (o :: more) r' s' -> calls line rd r s (outs ++ o :: more) r' s'.
Proof.
  induction 1 as [|l ls outs El H IH|l ls o outs El H IH]; intros F l0 rest r s input I M L Hin Hf; cbn [app] in *.
  - exists r, s, 0. cbn [skipn]. auto 10.
  - inversion F as [|? ? Fl Fs]; subst.
    destruct (Scan_input ScanLines rd r s e input good_ScanLines I M Hin) as (r1 & s1 & [sl|] & E & I1 & L1 & O).
    + destruct O as (M1 & k & K & _ & Hin1). destruct (file_lines_scan _ _ _ _ _ Hf K) as (Et & Hf1 & _).
      destruct (IH Fs l0 rest r1 s1 _ I1 M1 (eq_trans L1 L) Hin1 Hf1) as (r2 & s2 & k2 & I2 & M2 & L2 & Hin2 & Hf2 & C).
      rewrite <- skipn_add in *. exists r2, s2, (k + k2). repeat (split; [assumption|]).
      intros o more r' s' C'. specialize (C o more r' s' C').
      inversion C as [ra sa Eo|ra sa rb sb o1 outs1 rc sc N C1 Eo]; subst.
      * destruct outs; discriminate.
      * econstructor; [|eassumption]. eapply next_skip; [exact E|rewrite Et; exact El|exact N].
    + destruct O as [(-> & _)|(_ & d & ext & X & Hd & Ld & _)].
      * exfalso. apply file_lines_cons_ne in Hf. congruence.
      * exfalso. pose proof (too_long_line _ _ _ _ _ Hf X Hd). lia.
  - inversion F as [|? ? Fl Fs]; subst.
    destruct (Scan_input ScanLines rd r s e input good_ScanLines I M Hin) as (r1 & s1 & [sl|] & E & I1 & L1 & O).
    + destruct O as (M1 & k & K & _ & Hin1). destruct (file_lines_scan _ _ _ _ _ Hf K) as (Et & Hf1 & _).
      destruct (IH Fs l0 rest r1 s1 _ I1 M1 (eq_trans L1 L) Hin1 Hf1) as (r2 & s2 & k2 & I2 & M2 & L2 & Hin2 & Hf2 & C).
      rewrite <- skipn_add in *. exists r2, s2, (k + k2). repeat (split; [assumption|]).
      intros o' more r' s' C'. specialize (C o' more r' s' C').
      econstructor; [|exact C]. eapply next_found; [exact E|rewrite Et; exact El].
    + destruct O as [(-> & _)|(_ & d & ext & X & Hd & Ld & _)].
      * exfalso. apply file_lines_cons_ne in Hf. congruence.
      * exfalso. pose proof (too_long_line _ _ _ _ _ Hf X Hd). lia.
Qed.

(* ErrTooLong, and - if the caller goes on - the part of the line that did fit *)
Lemma refused {R A} (line : list byte -> res (option (result A))) (rd : reader R) r s input long rest r1 s1 d ext last n :
  inv s -> sane_max s -> limit s = MaxScanTokenSize -> file_lines input (long :: rest) ->
  Scan ScanLines rd r s = Ret (r1, s1, None) -> inv s1 -> limit s1 = limit s ->
  s_err s1 = Some ErrTooLong -> d ++ ext = input ->
  ScanLines d false = Ret (0, None, None) -> length d = limit s -> data s1 = d ->
  outcomes line [firstn MaxScanTokenSize long] last ->
  exists r' s', calls line rd r s (inr ErrTooLong :: last ++ repeat (inr ErrTooLong) n) r' s'.
Proof.
  intros I M L Hf E I1 L1 Er X Hd Ld D1 Ho.
  pose proof (too_long_line _ _ _ _ _ Hf X Hd) as Q.
  assert (d = firstn MaxScanTokenSize long) as Ed.
  { rewrite <- L, <- Ld. assert (exists tl, input = long ++ tl) as (tl & Et).
    { inversion Hf; subst; [eexists; reflexivity|exists []; rewrite app_nil_r; reflexivity]. }
    assert (firstn (length d) (d ++ ext) = firstn (length d) (long ++ tl)) as P by congruence.
    rewrite !firstn_app, firstn_all, Nat.sub_diag in P. cbn [firstn] in P. rewrite app_nil_r in P.
    replace (length d - length long) with 0 in P by lia. cbn [firstn] in P. rewrite app_nil_r in P. exact P. }
  destruct (calls_held line rd r1 s1 ErrTooLong last n) as (r2 & s2 & C); auto.
  - assert (s_max s1 = s_max s) as Ms.
    { pose proof (Scan_any ScanLines rd r s good_ScanLines I) as (ra & sa & oa & Ea & _ & _ & Ma & _).
      rewrite E in Ea. assert (sa = s1) as -> by congruence. exact Ma. }
    unfold sane_max in *. congruence.
  - congruence.
  - rewrite D1. intros ->. cbn [length] in Ld. rewrite L in Ld. discriminate Ld.
  - rewrite D1. unfold ScanLines in Hd. cbn [andb] in Hd. destruct (index_newline d) as [i|] eqn:K.
    { assert (i + 1 = 0) by congruence. lia. }
    apply index_newline_none in K. exact K.
  - rewrite D1, Ed. exact Ho.
  - exists r2, s2. econstructor; [|exact C]. rewrite <- (no_more_err s1 _ Er). constructor. exact E.
Qed.

Lemma calls_too_long {R A} (line : list byte -> res (option (result A))) (rd : reader R) e lines outs long rest last n r s input :
  outcomes line lines outs -> Forall (fun l => length l < MaxScanTokenSize) lines ->
  inv s -> sane_max s -> limit s = MaxScanTokenSize -> oversize input long rest ->
  outcomes line [firstn MaxScanTokenSize long] last ->
  after_input rd r s e input -> file_lines input (lines ++ long :: rest) ->
  exists r' s', calls line rd r s (outs ++ inr ErrTooLong :: last ++ repeat (inr ErrTooLong) n) r' s'.
Proof.
  intros H F I M L Hl Ho Hin Hf.
  destruct (calls_prefix line rd e lines outs H F long rest r s input I M L Hin Hf)
    as (r1 & s1 & k & I1 & M1 & L1 & Hin1 & Hf1 & C).
  assert (oversize (skipn k input) long rest) as Hl1
    by (apply oversize_skipn; [exact Hl|eapply file_lines_cons_ne; exact Hf1]).
  destruct (Scan_input ScanLines rd r1 s1 e _ good_ScanLines I1 M1 Hin1) as (r2 & s2 & [sl|] & E & I2 & L2 & O).
  - destruct O as (M2 & k2 & K & Lk & Hin2). pose proof (oversize_end _ _ _ _ _ Hf1 Hl1 K) as Q. exfalso.
    rewrite L1 in Lk. unfold MaxScanTokenSize in Lk. apply (Nat.lt_irrefl k2). eapply Nat.le_lt_trans; eassumption.
  - destruct O as [(E0 & _)|(Er & d & ext & X & Hd & Ld & D1)].
    + exfalso. apply file_lines_cons_ne in Hf1. congruence.
    + destruct (refused line rd r1 s1 _ long rest r2 s2 d ext last n I1 M1 L1 Hf1 E I2 L2 Er X Hd Ld D1 Ho) as (r' & s' & C').
      exists r', s'. apply C. exact C'.
Qed.

(* a last line of exactly the limit, without a line feed: it depends on the reader *)
Lemma calls_edge {R A} (line : list byte -> res (option (result A))) (rd : reader R) e lines outs long last n r s input :
  outcomes line lines outs -> Forall (fun l => length l < MaxScanTokenSize) lines ->
  inv s -> sane_max s -> limit s = MaxScanTokenSize -> length long = MaxScanTokenSize ->
  outcomes line [long] last ->
  after_input rd r s e input -> file_lines input (lines ++ [long]) ->
  exists r' s', calls line rd r s (outs ++ last ++ repeat (inr e) (S n)) r' s' \/
    calls line rd r s (outs ++ inr ErrTooLong :: last ++ repeat (inr ErrTooLong) n) r' s'.
Proof.
  intros H F I M L Hl Ho Hin Hf.
  destruct (calls_prefix line rd e lines outs H F long [] r s input I M L Hin Hf)
    as (r1 & s1 & k & I1 & M1 & L1 & Hin1 & Hf1 & C).
  destruct (Scan_input ScanLines rd r1 s1 e _ good_ScanLines I1 M1 Hin1) as (r2 & s2 & [sl|] & E & I2 & L2 & O).
  - destruct O as (M2 & k2 & K & Lk & Hin2). destruct (file_lines_scan _ _ _ _ _ Hf1 K) as (Et & Hf2 & _).
    apply file_lines_nil in Hf2. rewrite Hf2 in Hin2.
    inversion Ho as [|l ls os El H'|l ls o os El H']; subst; inversion H'; subst; cbn [app].
    + destruct (ends line rd e (S n) r2 s2 I2 M2 (eq_trans L2 L1) Hin2) as (r' & s' & C'). exists r', s'. left.
      cbn [repeat] in *. apply C. inversion C' as [|? ? ? ? ? ? ? ? N C1]; subst. econstructor; [|exact C1].
      eapply next_skip; [exact E|rewrite Et; exact El|exact N].
    + destruct (ends line rd e (S n) r2 s2 I2 M2 (eq_trans L2 L1) Hin2) as (r' & s' & C'). exists r', s'. left.
      apply C. econstructor; [|exact C']. eapply next_found; [exact E|rewrite Et; exact El].
  - destruct O as [(E0 & _)|(Er & d & ext & X & Hd & Ld & D1)].
    + exfalso. apply file_lines_cons_ne in Hf1. congruence.
    + assert (outcomes line [firstn MaxScanTokenSize long] last) as Ho' by (rewrite <- Hl, firstn_all; exact Ho).
      destruct (refused line rd r1 s1 _ long [] r2 s2 d ext last n I1 M1 L1 Hf1 E I2 L2 Er X Hd Ld D1 Ho') as (r' & s' & C').
      exists r', s'. right. apply C. exact C'.
Qed.

Lemma new_scanner {R} (rd : reader R) r file e : delivers rd 100 r file e ->
  inv newLineScan /\ sane_max newLineScan /\ limit newLineScan = MaxScanTokenSize /\
  after_input rd r newLineScan e file.
Proof.
  intros H. unfold newLineScan, inv, sane_max, limit, after_input, data, half_maxInt.
  cbn [NewScanner s_start s_end s_buf s_err s_max length]. unfold MaxScanTokenSize. repeat split; try lia.
  left. split; [reflexivity|]. exists file. auto.
Qed.
