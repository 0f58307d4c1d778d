(* Every line of a test-data file has exactly one reading, and the parser finds
   it. *)
From Coq Require Import List NArith ZArith Arith Bool Lia Strings.Byte.
From Coq Require Import ZifyBool ZifyNat ZifyN.
From Verif Require Import Spec.Utf8 Spec.UcdFile Spec.TestReading.
From Verif Require Import Model.Base Model.Scan Model.Bufio Model.GenTable Model.UcdParse.
From Verif Require Import Proofs.Basics Proofs.ParseFacts Proofs.UcdFacts Proofs.TextFacts Proofs.TestDataFacts.
Import ListNotations.

(* the first occurrence is found *)
Lemma Cut_before sep s : sep <> [] -> forall b a, Cut sep s = (b, a, true) -> without sep b.
Proof.
  intros N. induction s as [|x s IH]; intros b a C; cbn [Cut] in C.
  - destruct (after_prefix sep []) eqn:E; [|discriminate]. injection C as <- <-. intros c d K.
    destruct c; [|discriminate]. destruct sep; [congruence|discriminate].
  - destruct (after_prefix sep (x :: s)) eqn:E.
    + injection C as <- <-. intros c d K. destruct c; [|discriminate]. destruct sep; [congruence|discriminate].
    + destruct (Cut sep s) as [[b' a'] f] eqn:C'. injection C as <- <- ->. intros c d K. destruct c as [|y c].
      * apply Cut_true in C'. cbn [app] in K. assert (x :: s = sep ++ d ++ sep ++ a') as Q.
        { rewrite C'. change (x :: b' ++ sep ++ a') with ((x :: b') ++ sep ++ a'). rewrite K, <- !app_assoc. reflexivity. }
        assert (after_prefix sep (x :: s) = Some (d ++ sep ++ a')) as P by (apply after_prefix_some; exact Q). congruence.
      * cbn [app] in K. injection K as _ K. exact (IH _ _ eq_refl _ _ K).
Qed.

Lemma divided_pieces m s ps : marker m -> divided m s ps <-> ps = pieces s m.
Proof.
  intros Hm. split.
  - induction 1 as [s H|p rest ps H Hd IH]; [symmetry; apply pieces_absent; exact H|].
    rewrite (pieces_found m p rest _ Hm (Cut_marker_self m p rest Hm H)). congruence.
  - intros ->. remember (length s) as k eqn:Ek. revert s Ek. induction k as [k IH] using lt_wf_ind. intros s ->.
    destruct (Cut m s) as [[b a] f] eqn:C. destruct f.
    + rewrite (pieces_found m b a s Hm C). apply Cut_true in C as C'. subst s. apply divided_more.
      * eapply Cut_before; [apply marker_ne; exact Hm|exact C].
      * apply (IH (length a)); [|reflexivity]. rewrite !app_length. pose proof (marker_ne m Hm). destruct m; [congruence|]. cbn [length]. lia.
    + destruct (Cut_false _ _ _ _ C) as (_ & _ & A). rewrite (pieces_absent m s A). constructor. exact A.
Qed.

(* the value of a text, or the text if it has none *)
Definition text_value (t : list byte) : list byte + list byte :=
  if is_empty t then inl []
  else match ParseInt t with inl z => inl (EncodeRune z) | inr _ => inr t end.

(* all values, or the first that is none *)
Fixpoint sequence {A} (xs : list (A + list byte)) : list A + list byte :=
  match xs with
  | [] => inl []
  | inr t :: _ => inr t
  | inl x :: xs' => match sequence xs' with inl l => inl (x :: l) | inr t => inr t end
  end.

Lemma test_chars_value ps : forall i g,
  match sequence (map (fun p => text_value (TrimSpace p)) ps) with
  | inl outs => test_chars ps i g = inl (i ++ concat outs, g ++ concat outs)
  | inr t => test_chars ps i g = inr (InvalidReference t)
  end.
Proof.
  induction ps as [|p ps IH]; intros i g; cbn [map sequence test_chars].
  - cbn [concat]. rewrite !app_nil_r. reflexivity.
  - unfold text_value at 1. destruct (is_empty (TrimSpace p)).
    + specialize (IH i g). destruct (sequence _) as [outs|]; [|exact IH]. cbn [concat app]. exact IH.
    + destruct (ParseInt (TrimSpace p)) as [z|err]; [|reflexivity].
      specialize (IH (i ++ EncodeRune z) (g ++ EncodeRune z)). destruct (sequence _) as [outs|]; [|exact IH].
      rewrite IH. cbn [concat]. rewrite <- !app_assoc. reflexivity.
Qed.

Definition seg_value (g : list (list byte)) : list byte + list byte :=
  match sequence (map text_value g) with inl outs => inl (concat outs) | inr t => inr t end.

(* the trimmed texts of a line *)
Definition trimmed_texts (a : list byte) : list (list (list byte)) :=
  map (fun g => map TrimSpace (pieces g nonsplitMarker)) (pieces a splitMarker).

Lemma test_segs_value segs : forall e,
  match sequence (map (fun g => seg_value (map TrimSpace (pieces g nonsplitMarker))) segs) with
  | inl outs => test_segs segs e = Ret (inl (MkTest (Input e ++ concat outs) (WantSegments e ++ filter nonempty outs)))
  | inr t => test_segs segs e = Ret (inr (InvalidReference t))
  end.
Proof.
  induction segs as [|g segs IH]; intros e; cbn [map sequence test_segs].
  - cbn [concat filter]. rewrite !app_nil_r. destruct e; reflexivity.
  - rewrite (Split_pieces g nonsplitMarker m2). cbn [bind].
    pose proof (test_chars_value (pieces g nonsplitMarker) (Input e) []) as K.
    unfold seg_value at 1. rewrite map_map.
    destruct (sequence (map (fun p => text_value (TrimSpace p)) (pieces g nonsplitMarker))) as [outs|].
    + rewrite K. cbn [app].
      specialize (IH (MkTest (Input e ++ concat outs) (if is_empty (concat outs) then WantSegments e else WantSegments e ++ [concat outs]))).
      destruct (sequence _) as [outs'|]; [|exact IH]. rewrite IH. cbn [Input WantSegments concat filter].
      rewrite <- app_assoc. destruct (concat outs); cbn [is_empty nonempty app]; [reflexivity|].
      rewrite <- app_assoc. reflexivity.
    + rewrite K. reflexivity.
Qed.

Lemma trimmed_texts_trim a : trimmed_texts (TrimSpace a) = trimmed_texts a.
Proof.
  destruct (padded_exists a) as [t Ht]. pose proof Ht as K. apply TrimSpace_padded in K. rewrite K.
  destruct Ht as (w1 & w2 & H1 & H2 & _ & ->).
  transitivity (trimmed_texts (t ++ w2)).
  - unfold trimmed_texts. destruct (pieces_right splitMarker w2 t m1 H2) as (ps & p & -> & ->).
    rewrite !map_app. f_equal. cbn [map]. f_equal.
    destruct (pieces_right nonsplitMarker w2 p m2 H2) as (ps' & p' & -> & ->).
    rewrite !map_app. f_equal. cbn [map]. rewrite Trim_right by assumption. reflexivity.
  - generalize (t ++ w2). intros s. unfold trimmed_texts. destruct (pieces_left splitMarker w1 s m1 H1) as (p & ps & -> & ->).
    cbn [map]. f_equal.
    destruct (pieces_left nonsplitMarker w1 p m2 H1) as (p' & ps' & -> & ->).
    cbn [map]. rewrite Trim_left by assumption. reflexivity.
Qed.

Definition line_value (a : list byte) : list (list byte) + list byte := sequence (map seg_value (trimmed_texts a)).

Lemma parse_test_line_value l a : content l a ->
  if is_empty (TrimSpace a) then parse_test_line l = Ret None
  else match line_value a with
       | inl outs => parse_test_line l = Ret (Some (inl (MkTest (concat outs) (filter nonempty outs))))
       | inr t => parse_test_line l = Ret (Some (inr (InvalidReference t)))
       end.
Proof.
  intros Hc. apply content_iff in Hc. destruct Hc as (c & f & C). unfold parse_test_line. rewrite C.
  destruct (is_empty (TrimSpace a)) eqn:E; [reflexivity|].
  rewrite (Split_pieces _ splitMarker m1). cbn [bind].
  unfold line_value. rewrite <- trimmed_texts_trim. unfold trimmed_texts. rewrite map_map.
  pose proof (test_segs_value (pieces (TrimSpace a) splitMarker) (MkTest [] [])) as K.
  destruct (sequence _) as [outs|].
  - rewrite K. reflexivity.
  - rewrite K. reflexivity.
Qed.

(* ---- the values are those of the specification *)

Lemma rune_bytes_iff z bs : rune_bytes z bs <-> bs = EncodeRune z.
Proof.
  unfold EncodeRune. split.
  - intros [c H|z' H].
    + rewrite N2Z.id. apply scalarb_spec in H. rewrite H. destruct (Z.leb_spec 0 (Z.of_N c)); [reflexivity|lia].
    + destruct (Z.leb_spec 0 z') as [P|P]; [|reflexivity]. cbn [andb].
      destruct (scalarb (Z.to_N z')) eqn:S; [|reflexivity]. apply scalarb_spec in S. exfalso. apply (H _ S). lia.
  - intros ->. destruct (Z.leb_spec 0 z) as [P|P]; cbn [andb].
    + destruct (scalarb (Z.to_N z)) eqn:S.
      * rewrite <- (Z2N.id z P) at 1. constructor. apply scalarb_spec. exact S.
      * constructor. intros c Hc ->. rewrite N2Z.id in S. apply scalarb_spec in Hc. congruence.
    + constructor. intros c _. lia.
Qed.

Lemma blank_iff y : blanks y <-> TrimSpace y = [].
Proof.
  split; [apply blanks_trim|]. intros E. apply TrimSpace_padded in E. destruct E as (w1 & w2 & H1 & H2 & _ & ->).
  cbn [app]. apply blanks_app; assumption.
Qed.

Lemma int_text_ne t z : int_text t z -> t <> [].
Proof. intros [h n H _|h n _ _|h n _ _]; try discriminate. destruct H; [discriminate|]. destruct s; discriminate. Qed.

Lemma text_bytes_iff y bs : text_bytes y bs <-> text_value (TrimSpace y) = inl bs.
Proof.
  unfold text_value. split.
  - intros [y' H|y' t z bs' Hp Hi Hr].
    + apply blank_iff in H. rewrite H. reflexivity.
    + apply TrimSpace_padded in Hp. rewrite Hp. pose proof (int_text_ne _ _ Hi) as N.
      destruct t as [|c t]; [congruence|]. cbn [is_empty]. apply int_text_iff in Hi. rewrite Hi.
      apply rune_bytes_iff in Hr. congruence.
  - destruct (TrimSpace y) as [|c t] eqn:E; cbn [is_empty].
    + intros H. injection H as <-. constructor. apply blank_iff. exact E.
    + destruct (ParseInt (c :: t)) as [z|] eqn:P; [|discriminate]. intros H.
      eapply text_char; [apply TrimSpace_padded; exact E|apply int_text_iff; exact P|].
      apply rune_bytes_iff. congruence.
Qed.

Lemma sequence_some {A} (xs : list (A + list byte)) l : sequence xs = inl l <-> xs = map inl l.
Proof.
  revert l. induction xs as [|[x|t] xs IH]; intros l; cbn [sequence].
  - split; [intros H; injection H as <-; reflexivity|destruct l; [reflexivity|discriminate]].
  - destruct (sequence xs) as [l'|t] eqn:E.
    + split; [intros H; injection H as <-; cbn [map]; f_equal; apply IH; reflexivity|].
      destruct l as [|y l]; [discriminate|]. cbn [map]. intros H. injection H as -> H. apply IH in H. congruence.
    + split; [discriminate|]. destruct l as [|y l]; [discriminate|]. cbn [map]. intros H. injection H as -> H. apply IH in H. discriminate.
  - split; [discriminate|destruct l; discriminate].
Qed.

Lemma sequence_bad {A} (xs : list (A + list byte)) t :
  sequence xs = inr t <-> exists before after, xs = map inl before ++ inr t :: after.
Proof.
  induction xs as [|[x|u] xs IH]; cbn [sequence].
  - split; [discriminate|]. intros (b & a & E). destruct b; discriminate E.
  - destruct (sequence xs) as [l|u].
    + split; [discriminate|]. intros (b & a & E). destruct b as [|y b]; [discriminate E|]. cbn [map app] in E.
      assert (xs = map inl b ++ inr t :: a) as E' by congruence.
      assert (@inl (list A) (list byte) l = inr t) as K by (apply IH; eauto). discriminate K.
    + split.
      * intros E. assert (u = t) as -> by congruence. destruct (proj1 IH eq_refl) as (b & a & ->). exists (x :: b), a. reflexivity.
      * intros (b & a & E). destruct b as [|y b]; [discriminate E|]. cbn [map app] in E.
        assert (xs = map inl b ++ inr t :: a) as E' by congruence. apply IH. eauto.
  - split.
    + intros E. exists [], xs. cbn [map app]. congruence.
    + intros (b & a & E). destruct b as [|y b]; [|discriminate E]. cbn [map app] in E. congruence.
Qed.

Lemma Forall2_map_some {A B} (P : A -> B -> Prop) (f : A -> B + list byte) : (forall a b, P a b <-> f a = inl b) ->
  forall la lb, Forall2 P la lb <-> map f la = map inl lb.
Proof.
  intros H. induction la as [|a la IH]; intros [|b lb]; cbn [map]; split; intros K; try inversion K; subst; try constructor; try discriminate; auto.
  - f_equal; [apply H; assumption|apply IH; assumption].
  - apply H. assumption.
  - apply IH. assumption.
Qed.

(* the first that has no value, in the list the values are taken of *)
Lemma map_first_bad {A B} (f : A -> B + list byte) (xs : list A) before t after :
  map f xs = map inl before ++ inr t :: after ->
  exists xb x xa, xs = xb ++ x :: xa /\ map f xb = map inl before /\ f x = inr t.
Proof.
  revert xs. induction before as [|b before IH]; intros [|x xs] E; cbn [map app] in E; try discriminate E.
  - exists [], x, xs. split; [reflexivity|]. split; [reflexivity|]. congruence.
  - destruct (IH xs) as (xb & y & xa & -> & E1 & E2); [congruence|]. exists (x :: xb), y, xa. split; [reflexivity|].
    split; [cbn [map]; congruence|exact E2].
Qed.

Lemma segment_bytes_iff g bs : segment_bytes g bs <-> seg_value (map TrimSpace (pieces g nonsplitMarker)) = inl bs.
Proof.
  unfold segment_bytes, seg_value. rewrite map_map. split.
  - intros (texts & outs & Hd & HF & ->). apply (divided_pieces nonsplitMarker g texts m2) in Hd. subst texts.
    apply (Forall2_map_some _ (fun p => text_value (TrimSpace p)) text_bytes_iff) in HF. rewrite HF.
    assert (sequence (map inl outs) = inl outs) as -> by (apply sequence_some; reflexivity). reflexivity.
  - destruct (sequence _) as [outs|] eqn:E; [|discriminate]. intros H. injection H as <-.
    apply sequence_some in E. exists (pieces g nonsplitMarker), outs.
    split; [apply (divided_pieces nonsplitMarker g _ m2); reflexivity|]. split; [|reflexivity].
    apply (Forall2_map_some _ (fun p => text_value (TrimSpace p)) text_bytes_iff). exact E.
Qed.

Lemma bad_segment_iff g t : bad_segment g t <-> seg_value (map TrimSpace (pieces g nonsplitMarker)) = inr t.
Proof.
  unfold bad_segment, seg_value. rewrite map_map.
  transitivity (sequence (map (fun p => text_value (TrimSpace p)) (pieces g nonsplitMarker)) = inr t);
    [|destruct (sequence _); split; intros H; congruence].
  rewrite sequence_bad. split.
  - intros (before & outs & y & after & Hd & HF & Hp & Ht & Hz).
    apply (divided_pieces nonsplitMarker g _ m2) in Hd. rewrite <- Hd.
    exists outs, (map (fun p => text_value (TrimSpace p)) after). rewrite map_app. cbn [map]. f_equal.
    + apply (Forall2_map_some _ (fun p => text_value (TrimSpace p)) text_bytes_iff). exact HF.
    + f_equal. apply TrimSpace_padded in Hp. rewrite Hp. unfold text_value.
      destruct t as [|c t]; [congruence|]. cbn [is_empty]. destruct (ParseInt (c :: t)) as [z|] eqn:P; [|reflexivity].
      exfalso. apply (Hz z). apply int_text_iff. exact P.
  - intros (outs & after & E). destruct (map_first_bad _ _ _ _ _ E) as (xb & y & xa & Ep & E1 & E2).
    exists xb, outs, y, xa. split; [apply (divided_pieces nonsplitMarker g _ m2); congruence|].
    split; [apply (Forall2_map_some _ (fun p => text_value (TrimSpace p)) text_bytes_iff); exact E1|].
    unfold text_value in E2. destruct (TrimSpace y) as [|c u] eqn:T; [discriminate E2|]. cbn [is_empty] in E2.
    destruct (ParseInt (c :: u)) as [z|e] eqn:P; [discriminate E2|]. assert (t = c :: u) as -> by congruence.
    split; [apply TrimSpace_padded; exact T|]. split; [discriminate|].
    intros z Hz. apply int_text_iff in Hz. congruence.
Qed.

Definition reading_of (l : list byte) : reading :=
  let '(a, _, _) := Cut commentMarker l in
  if is_empty (TrimSpace a) then Skipped
  else match line_value a with inl outs => Case (filter nonempty outs) | inr t => Bad t end.

Lemma line_value_some a outs : line_value a = inl outs <->
  exists segs, divided division_sign a segs /\ Forall2 segment_bytes segs outs.
Proof.
  change division_sign with splitMarker.
  unfold line_value, trimmed_texts. rewrite map_map, sequence_some. split.
  - intros H. exists (pieces a splitMarker). split; [apply (divided_pieces splitMarker a _ m1); reflexivity|].
    apply (Forall2_map_some _ (fun g => seg_value (map TrimSpace (pieces g nonsplitMarker))) segment_bytes_iff). exact H.
  - intros (segs & Hd & HF). apply (divided_pieces splitMarker a segs m1) in Hd. subst segs.
    apply (Forall2_map_some _ (fun g => seg_value (map TrimSpace (pieces g nonsplitMarker))) segment_bytes_iff). exact HF.
Qed.

Lemma line_value_bad a t : line_value a = inr t <->
  exists before outs g after, divided division_sign a (before ++ g :: after) /\ Forall2 segment_bytes before outs /\ bad_segment g t.
Proof.
  change division_sign with splitMarker.
  unfold line_value, trimmed_texts. rewrite map_map, sequence_bad. split.
  - intros (outs & after & E). destruct (map_first_bad _ _ _ _ _ E) as (xb & g & xa & Ep & E1 & E2).
    exists xb, outs, g, xa. split; [apply (divided_pieces splitMarker a _ m1); congruence|].
    split; [apply (Forall2_map_some _ (fun g => seg_value (map TrimSpace (pieces g nonsplitMarker))) segment_bytes_iff); exact E1|].
    apply bad_segment_iff. exact E2.
  - intros (before & outs & g & after & Hd & HF & Hb). apply (divided_pieces splitMarker a _ m1) in Hd. rewrite <- Hd.
    exists outs, (map (fun g => seg_value (map TrimSpace (pieces g nonsplitMarker))) after). rewrite map_app. cbn [map]. f_equal.
    + apply (Forall2_map_some _ (fun g => seg_value (map TrimSpace (pieces g nonsplitMarker))) segment_bytes_iff). exact HF.
    + f_equal. apply bad_segment_iff. exact Hb.
Qed.

Lemma blank_line_value a : blanks a -> line_value a = inl [[]].
Proof.
  intros H. apply blank_iff in H. unfold line_value. rewrite <- trimmed_texts_trim, H. reflexivity.
Qed.

Theorem line_reads_iff l m : line_reads l m <-> m = reading_of l.
Proof.
  unfold reading_of. split.
  - intros [l' a Hc Hb|l' a segs outs Hc Hb Hd HF|l' a before outs g after t Hc Hd HF Hb];
      apply content_iff in Hc; destruct Hc as (c & f & ->).
    + apply blank_iff in Hb. rewrite Hb. reflexivity.
    + destruct (TrimSpace a) as [|x t] eqn:E; [exfalso; apply Hb; apply blank_iff; exact E|]. cbn [is_empty].
      assert (line_value a = inl outs) as -> by (apply line_value_some; eauto). reflexivity.
    + assert (line_value a = inr t) as E by (apply line_value_bad; exists before, outs, g, after; auto).
      destruct (TrimSpace a) as [|x u] eqn:T; [apply blank_iff in T; apply blank_line_value in T; congruence|].
      cbn [is_empty]. rewrite E. reflexivity.
  - intros ->. destruct (Cut commentMarker l) as [[a c] f] eqn:C. assert (content l a) as Hc by (apply content_iff; eauto).
    destruct (is_empty (TrimSpace a)) eqn:E.
    + apply reads_skipped with a; [exact Hc|]. apply blank_iff. destruct (TrimSpace a); [reflexivity|discriminate].
    + destruct (line_value a) as [outs|t] eqn:V.
      * apply line_value_some in V. destruct V as (segs & Hd & HF). eapply reads_case; try eassumption.
        intros Hb. apply blank_iff in Hb. rewrite Hb in E. discriminate.
      * apply line_value_bad in V. destruct V as (before & outs & g & after & Hd & HF & Hb). eapply reads_bad; eassumption.
Qed.

Lemma concat_nonempty outs : concat (filter nonempty outs) = concat outs.
Proof.
  induction outs as [|o outs IH]; [reflexivity|]. cbn [filter concat]. destruct o; cbn [nonempty]; [exact IH|].
  cbn [concat]. rewrite IH. reflexivity.
Qed.

Theorem parse_reads l m : line_reads l m ->
  match m with
  | Skipped => parse_test_line l = Ret None
  | Case segs => parse_test_line l = Ret (Some (inl (MkTest (concat segs) segs)))
  | Bad t => parse_test_line l = Ret (Some (inr (InvalidReference t)))
  end.
Proof.
  intros H. apply line_reads_iff in H. subst m. unfold reading_of.
  destruct (Cut commentMarker l) as [[a c] f] eqn:C. assert (content l a) as Hc by (apply content_iff; eauto).
  pose proof (parse_test_line_value l a Hc) as K. destruct (is_empty (TrimSpace a)); [exact K|].
  destruct (line_value a) as [outs|t].
  - rewrite K, concat_nonempty. reflexivity.
  - exact K.
Qed.
