(* The break-test line parser. *)
From Coq Require Import List NArith ZArith Arith Bool Lia Strings.Byte Strings.String.
From Coq Require Import ZifyBool ZifyNat ZifyN.
From Verif Require Import Spec.Utf8 Spec.UcdFile Model.Base Model.PropNames Model.GenTable Model.UcdParse.
From Verif Require Import Proofs.ParseFacts Proofs.UcdFacts.
Import ListNotations.
Notation length := List.length.

(* ---- Split *)

Lemma split_rounds_total sep : sep <> [] -> forall fuel s, length s < fuel -> exists ps, split_rounds fuel sep s = Ret ps.
Proof.
  intros Hs. induction fuel as [|fuel IH]; intros s L; [lia|]. cbn [split_rounds].
  destruct (Cut sep s) as [[b a] f] eqn:C. destruct f; [|eauto].
  apply Cut_true in C. destruct (IH a) as [ps ->]; [|cbn [bind]; eauto].
  subst s. rewrite !app_length in L. destruct sep; [congruence|]. cbn [length] in L. lia.
Qed.

Lemma split_rounds_fuel sep : sep <> [] -> forall fuel s ps, split_rounds fuel sep s = Ret ps ->
  forall fuel', length s < fuel' -> split_rounds fuel' sep s = Ret ps.
Proof.
  intros Hs. induction fuel as [|fuel IH]; intros s ps H fuel' L; [discriminate|].
  destruct fuel' as [|fuel']; [lia|]. cbn [split_rounds] in *.
  destruct (Cut sep s) as [[b a] f] eqn:C. destruct f; [|exact H].
  destruct (split_rounds fuel sep a) as [ps'|] eqn:E; [|discriminate].
  rewrite (IH _ _ E); [exact H|]. apply Cut_true in C. subst s. rewrite !app_length in L. destruct sep; [congruence|].
  cbn [length] in L. lia.
Qed.

Lemma Split_total s sep : sep <> [] -> exists ps, Split s sep = Ret ps.
Proof. intros H. apply split_rounds_total; [assumption|lia]. Qed.

Lemma Split_step s sep b a : sep <> [] -> Cut sep s = (b, a, true) ->
  Split s sep = let! ps := Split a sep in Ret (b :: ps).
Proof.
  intros Hs C. unfold Split at 1. cbn [split_rounds]. rewrite C.
  destruct (Split_total a sep Hs) as [ps E]. rewrite E. unfold Split in E.
  rewrite (split_rounds_fuel sep Hs _ _ _ E); [reflexivity|].
  apply Cut_true in C. subst s. rewrite !app_length. destruct sep; [congruence|]. cbn [length]. lia.
Qed.

Lemma Split_last s sep b a : Cut sep s = (b, a, false) -> Split s sep = Ret [s].
Proof. intros C. unfold Split. cbn [split_rounds]. rewrite C. apply Cut_false in C. destruct C as (-> & _). reflexivity. Qed.

(* two-byte separators *)
Lemma Cut_found2 x y b a : ~ In y b -> x <> y -> Cut [x; y] (b ++ [x; y] ++ a) = (b, a, true).
Proof.
  intros H N. apply Cut_found. intros b1 b2 -> Hb.
  destruct (after_prefix [x; y] (b2 ++ [x; y] ++ a)) as [u|] eqn:E; [|reflexivity]. exfalso.
  apply after_prefix_some in E. destruct b2 as [|p [|q b2]]; [congruence| |]; cbn [app] in E.
  - injection E. congruence.
  - injection E as _ -> _. apply H. apply in_or_app. right. right. left. reflexivity.
Qed.

Lemma absent2 x y s : ~ In y s -> absent [x; y] s.
Proof. intros H a b ->. apply H. apply in_or_app. right. right. left. reflexivity. Qed.

Lemma Split_found2 x y b a : ~ In y b -> x <> y ->
  Split (b ++ [x; y] ++ a) [x; y] = let! ps := Split a [x; y] in Ret (b :: ps).
Proof. intros H N. apply Split_step; [discriminate|]. apply Cut_found2; assumption. Qed.

Lemma Split_absent2 x y s : ~ In y s -> Split s [x; y] = Ret [s].
Proof. intros H. eapply Split_last. apply Cut_absent. apply absent2. exact H. Qed.

(* ---- shape of the result, for every line *)

Lemma test_chars_seg cs : forall input seg input' seg',
  test_chars cs input seg = inl (input', seg') -> exists more, input' = input ++ more /\ seg' = seg ++ more.
Proof.
  induction cs as [|c cs IH]; intros input seg input' seg' H; cbn [test_chars] in H.
  - injection H as <- <-. exists []. rewrite !app_nil_r. auto.
  - destruct (is_empty (TrimSpace c)); [apply IH; exact H|].
    destruct (ParseInt (TrimSpace c)) as [z|]; [|discriminate].
    destruct (IH _ _ _ _ H) as (more & -> & ->). exists (EncodeRune z ++ more). rewrite !app_assoc. auto.
Qed.

Definition whole (e : TestDataEntry) : Prop :=
  Input e = List.concat (WantSegments e) /\ Forall (fun s => s <> []) (WantSegments e).

Lemma test_segs_shape segs : forall e, whole e ->
  exists o, test_segs segs e = Ret o /\
    match o with inl e' => whole e' | inr err => exists t, err = InvalidReference t end.
Proof.
  induction segs as [|s segs IH]; intros e W; cbn [test_segs]; [eauto|].
  destruct (Split_total s nonsplitMarker) as [cs ->]; [discriminate|]. cbn [bind].
  destruct (test_chars cs (Input e) []) as [[input seg]|err] eqn:E.
  - apply test_chars_seg in E. destruct E as (more & -> & ->). cbn [app]. apply IH. destruct W as [W1 W2]. split; cbn [Input WantSegments].
    + rewrite W1. destruct more; cbn [is_empty]; [rewrite app_nil_r; reflexivity|].
      rewrite concat_app. cbn [List.concat]. rewrite app_nil_r. reflexivity.
    + destruct more; cbn [is_empty]; [assumption|]. apply Forall_app. split; [assumption|]. constructor; [discriminate|constructor].
  - exists (inr err). split; [reflexivity|].
    clear - E. revert E. generalize (Input e), (@nil byte). induction cs as [|c cs IH]; intros i g H; cbn [test_chars] in H; [discriminate|].
    destruct (is_empty (TrimSpace c)); [eapply IH; exact H|].
    destruct (ParseInt (TrimSpace c)) as [z|e'] eqn:P; [eapply IH; exact H|].
    exists (TrimSpace c). congruence.
Qed.

Theorem parse_test_line_shape l : exists o, parse_test_line l = Ret o /\
  match o with
  | None => exists a, content l a /\ blanks a
  | Some (inl e) => whole e
  | Some (inr err) => exists t, err = InvalidReference t
  end.
Proof.
  unfold parse_test_line. destruct (Cut commentMarker l) as [[a c] f] eqn:C.
  destruct (is_empty (TrimSpace a)) eqn:E.
  - exists None. split; [reflexivity|]. exists a. split; [apply content_iff; eauto|].
    destruct (TrimSpace a) as [|] eqn:T; [|discriminate]. apply TrimSpace_padded in T.
    destruct T as (w1 & w2 & H1 & H2 & _ & ->). cbn [app]. apply blanks_app; assumption.
  - destruct (Split_total (TrimSpace a) splitMarker) as [ps ->]; [discriminate|]. cbn [bind].
    destruct (test_segs_shape ps (MkTest [] [])) as (o & -> & H); [split; [reflexivity|constructor]|].
    cbn [bind]. exists (Some o). auto.
Qed.

Lemma blanks_trim w : blanks w -> TrimSpace w = [].
Proof. intros H. rewrite <- (app_nil_r w). rewrite Trim_left by assumption. reflexivity. Qed.

Lemma parse_test_line_blank l a : content l a -> blanks a -> parse_test_line l = Ret None.
Proof.
  intros Hc Hb. apply content_iff in Hc. destruct Hc as (c & f & C). unfold parse_test_line. rewrite C.
  rewrite blanks_trim by assumption. reflexivity.
Qed.

Lemma parse_test_line_cr l : parse_test_line (l ++ [x0d]) = parse_test_line l.
Proof.
  unfold parse_test_line, commentMarker.
  destruct (Cut1 x23 l) as [[H ->]|(a & c & -> & H & ->)].
  - rewrite (Cut_absent [x23] (l ++ [x0d])).
    2: { apply absent1. intros K. apply in_app_or in K. destruct K as [K|[K|[]]]; [tauto|discriminate]. }
    rewrite Trim_right by apply cr_blank. reflexivity.
  - rewrite <- app_assoc. cbn [app].
    pose proof (Cut_found1 x23 [] a (c ++ [x0d]) H) as K. cbn [app] in K. rewrite K. reflexivity.
Qed.

Lemma parse_test_line_dropCR l : parse_test_line (dropCR l) = parse_test_line l.
Proof. destruct (dropCR_cases l) as [->|E]; [reflexivity|]. rewrite E at 2. rewrite parse_test_line_cr. reflexivity. Qed.

(* ---- well-formed lines *)

Lemma ParseInt_hex h n : hex_value h n -> (n < 2 ^ 31)%N -> ParseInt h = inl (Z.of_N n).
Proof.
  intros H L. assert (ParseUint h = inl n) as U by (apply ParseUint_iff; split; [assumption|lia]).
  destruct h as [|c h]; [apply hex_value_acc in H; destruct H; congruence|].
  pose proof (hex_chars _ _ c H (or_introl eq_refl)) as Hc. unfold ParseInt.
  assert (Byte.eqb c x2d = false) as -> by (destruct (byte_eqb_spec c x2d) as [->|]; [vm_compute in Hc; intuition congruence|reflexivity]).
  assert (Byte.eqb c x2b = false) as -> by (destruct (byte_eqb_spec c x2b) as [->|]; [vm_compute in Hc; intuition congruence|reflexivity]).
  cbn [orb]. rewrite U. cbn [negb andb]. destruct (N.leb_spec 0x80000000 n); [lia|]. reflexivity.
Qed.

(* the bytes that occur *)
Definition plain (b : byte) : Prop := b <> x23 /\ b <> xb7 /\ b <> x97.

Lemma blanks_plain w : blanks w -> Forall plain w.
Proof.
  induction 1 as [|c w Hc Hw IH]; [constructor|]. apply Forall_app. split; [|assumption].
  assert (forallb (fun a => forallb (fun b => negb (Byte.eqb b x23) && negb (Byte.eqb b xb7) && negb (Byte.eqb b x97)) (utf8_encode a)) spaces = true) as Q
    by (vm_compute; reflexivity).
  rewrite forallb_forall in Q. apply white_space_list in Hc. specialize (Q c Hc). rewrite forallb_forall in Q.
  apply Forall_forall. intros b Hb. specialize (Q b Hb). unfold plain.
  repeat split; intros ->; discriminate Q.
Qed.

Lemma hex_plain h n : hex_value h n -> Forall plain h.
Proof.
  intros H. apply Forall_forall. intros b Hb. pose proof (hex_chars _ _ _ H Hb) as Q.
  repeat split; intros ->; vm_compute in Q; intuition congruence.
Qed.

Lemma char_plain s c : char_text s c -> Forall plain s.
Proof.
  intros (h & (w1 & w2 & H1 & H2 & _ & ->) & H). apply Forall_app. split; [apply blanks_plain; assumption|].
  apply Forall_app. split; [eapply hex_plain; eassumption|apply blanks_plain; assumption].
Qed.

Lemma plain_not b s : Forall plain s -> b = xb7 \/ b = x97 \/ b = x23 -> ~ In b s.
Proof. intros H Hb K. rewrite Forall_forall in H. destruct (H b K) as (A & B & C). intuition congruence. Qed.

Lemma cluster_split s cs : cluster_text s cs -> exists ps, Split s nonsplitMarker = Ret ps /\ Forall2 char_text ps cs.
Proof.
  induction 1 as [s c H|s c rest cs H Hr (ps & E & F)].
  - exists [s]. split; [|constructor; [assumption|constructor]]. apply Split_absent2. eapply plain_not; [eapply char_plain; eassumption|tauto].
  - exists (s :: ps). split; [|constructor; assumption].
    change multiplication_sign with [xc3; x97]. unfold nonsplitMarker in *. rewrite Split_found2.
    + rewrite E. reflexivity.
    + eapply plain_not; [eapply char_plain; eassumption|tauto].
    + discriminate.
Qed.

Lemma EncodeRune_scalar c : scalar c -> EncodeRune (Z.of_N c) = utf8_encode c.
Proof.
  intros H. unfold EncodeRune. rewrite N2Z.id.
  assert (scalarb c = true) as -> by (unfold scalar, scalarb in *; lia).
  destruct (Z.leb_spec 0 (Z.of_N c)); [reflexivity|lia].
Qed.

Lemma test_chars_ok ps cs : Forall2 char_text ps cs -> Forall scalar cs -> forall i g,
  test_chars ps i g = inl (i ++ utf8_text cs, g ++ utf8_text cs).
Proof.
  induction 1 as [|p c ps cs H F IH]; intros S i g; cbn [test_chars utf8_text flat_map].
  - rewrite !app_nil_r. reflexivity.
  - inversion S as [|? ? Sc Ss]; subst. destruct H as (h & Hp & Hh). apply TrimSpace_padded in Hp. rewrite Hp.
    assert (is_empty h = false) as -> by (destruct h; [apply hex_value_acc in Hh; destruct Hh; congruence|reflexivity]).
    rewrite (ParseInt_hex h c) by (try assumption; unfold scalar in Sc; lia).
    rewrite EncodeRune_scalar by assumption. rewrite IH by assumption. rewrite <- !app_assoc. reflexivity.
Qed.

Lemma utf8_text_ne cs : cs <> [] -> is_empty (utf8_text cs) = false.
Proof.
  destruct cs as [|c cs]; [congruence|]. intros _. cbn [utf8_text flat_map].
  pose proof (encode_pos c). destruct (utf8_encode c); [cbn [length] in *; lia|reflexivity].
Qed.

Lemma cluster_ne s cs : cluster_text s cs -> cs <> [].
Proof. destruct 1; discriminate. Qed.

Lemma test_segs_ok segs clusters : Forall2 cluster_text segs clusters -> Forall (Forall scalar) clusters ->
  forall e tail, test_segs (segs ++ tail) e =
    test_segs tail (MkTest (Input e ++ utf8_text (List.concat clusters)) (WantSegments e ++ map utf8_text clusters)).
Proof.
  induction 1 as [|s cs segs clusters H F IH]; intros S e tail; cbn [app List.concat map].
  - cbn [utf8_text flat_map]. rewrite !app_nil_r. destruct e. reflexivity.
  - inversion S as [|? ? Sc Ss]; subst. cbn [test_segs].
    destruct (cluster_split s cs H) as (ps & -> & Fp). cbn [bind].
    rewrite (test_chars_ok ps cs Fp Sc). cbn [app]. rewrite utf8_text_ne by (eapply cluster_ne; eassumption).
    rewrite IH by assumption. cbn [Input WantSegments]. rewrite <- !app_assoc. cbn [app].
    unfold utf8_text. rewrite flat_map_app. reflexivity.
Qed.

Lemma cluster_bytes s cs : cluster_text s cs -> ~ In xb7 s /\ ~ In x23 s.
Proof.
  induction 1 as [s c H|s c rest cs H Hr IH].
  - split; eapply plain_not; try (eapply char_plain; eassumption); tauto.
  - change multiplication_sign with [xc3; x97].
    split; intros K; apply in_app_or in K; destruct K as [K|K];
      try (eapply plain_not in K; [exact K|eapply char_plain; eassumption|tauto]);
      destruct K as [K|[K|K]]; try discriminate; tauto.
Qed.

Lemma test_text_split text clusters : test_text text clusters ->
  exists core w segs, text = core ++ w /\ blanks w /\
    (exists mid, core = mid ++ splitMarker) /\ (exists tl, core = splitMarker ++ tl) /\
    Split core splitMarker = Ret ([] :: segs ++ [[]]) /\
    Forall2 cluster_text segs clusters /\ ~ In x23 core.
Proof.
  change division_sign with splitMarker. 
  induction 1 as [w Hw|s cs rest clusters H Hr IH].
  - exists splitMarker, w, []. split; [reflexivity|]. split; [assumption|]. split; [exists []; reflexivity|].
    split; [exists []; reflexivity|]. split; [reflexivity|]. split; [constructor|]. intros [K|[K|[]]]; discriminate.
  - destruct IH as (core & w & segs & -> & Hw & (mid & Em) & (tl & Et) & E & F & N).
    destruct (cluster_bytes s cs H) as [Nb Nh].
    exists (splitMarker ++ s ++ core), w, (s :: segs).
    split; [rewrite <- !app_assoc; reflexivity|]. split; [assumption|].
    split; [exists (splitMarker ++ s ++ mid); rewrite Em, <- !app_assoc; reflexivity|].
    split; [eexists; reflexivity|]. split; [|split; [constructor; assumption|]].
    + unfold splitMarker in *. pose proof (Split_found2 xc3 xb7 [] (s ++ core)) as K. cbn [app] in K. cbn [app]. rewrite K by (try discriminate; tauto).
      rewrite Et in E |- *. cbn [app] in E. cbn [app]. pose proof (Split_found2 xc3 xb7 s tl Nb) as K2. cbn [app] in K2. rewrite K2 by discriminate.
      pose proof (Split_found2 xc3 xb7 [] tl) as K3. cbn [app] in K3. rewrite K3 in E by (try discriminate; tauto).
      destruct (Split tl [xc3; xb7]) as [ps|]; [|discriminate]. cbn [bind] in *. assert (ps = segs ++ [[]]) as -> by congruence. reflexivity.
    + intros K. apply in_app_or in K. destruct K as [[K|[K|[]]]|K]; try discriminate.
      apply in_app_or in K. tauto.
Qed.

Lemma core_trimmed core : (exists mid, core = mid ++ splitMarker) -> (exists tl, core = splitMarker ++ tl) -> trimmed core.
Proof.
  intros [mid Em] [tl Et]. apply trimmed_iff. split; [rewrite Et; reflexivity|].
  rewrite Em, rev_app_distr. reflexivity.
Qed.

Theorem parse_test_line_ok l clusters : test_line l clusters -> Forall (Forall scalar) clusters ->
  parse_test_line l =
    Ret (Some (inl (MkTest (utf8_text (List.concat clusters)) (map utf8_text clusters)))).
Proof.
  intros (w & text & Hw & Ht & Hc) S. apply content_iff in Hc. destruct Hc as (c & f & C).
  destruct (test_text_split text clusters Ht) as (core & w' & segs & -> & Hw' & Hm & Htl & E & F & N).
  unfold parse_test_line. rewrite C.
  assert (TrimSpace (w ++ core ++ w') = core) as ->.
  { apply TrimSpace_padded. exists w, w'. repeat split; try assumption; apply (core_trimmed core Hm Htl); assumption. }
  assert (is_empty core = false) as -> by (destruct Htl as [tl ->]; reflexivity).
  rewrite E. cbn [bind]. cbn [test_segs].
  change (Split [] nonsplitMarker) with (@Ret (list (list byte)) [[]]). cbn [bind test_chars].
  change (TrimSpace []) with (@nil byte). cbn [is_empty].
  rewrite (test_segs_ok segs clusters F S). cbn [Input WantSegments app test_segs].
  change (Split [] nonsplitMarker) with (@Ret (list (list byte)) [[]]). cbn [bind test_chars].
  change (TrimSpace []) with (@nil byte). cbn [is_empty test_segs bind Input WantSegments]. reflexivity.
Qed.

(* ---- malformed lines *)

(* what strconv.ParseInt(t, 16, 32) accepts *)
Lemma ParseInt_iff t z : ParseInt t = inl z <->
  (exists n, hex_value t n /\ (n < 2 ^ 31)%N /\ z = Z.of_N n) \/
  (exists h n, t = x2b :: h /\ hex_value h n /\ (n < 2 ^ 31)%N /\ z = Z.of_N n) \/
  (exists h n, t = x2d :: h /\ hex_value h n /\ (n <= 2 ^ 31)%N /\ z = (- Z.of_N n)%Z).
Proof.
  assert (forall h n, hex_value (x2b :: h) n -> False) as NP.
  { intros h n H. pose proof (hex_chars _ _ x2b H (or_introl eq_refl)) as Q. vm_compute in Q. intuition congruence. }
  assert (forall h n, hex_value (x2d :: h) n -> False) as NM.
  { intros h n H. pose proof (hex_chars _ _ x2d H (or_introl eq_refl)) as Q. vm_compute in Q. intuition congruence. }
  split.
  - unfold ParseInt. destruct t as [|c t]; [discriminate|].
    destruct (byte_eqb_spec c x2d) as [->|N1]; [|destruct (byte_eqb_spec c x2b) as [->|N2]]; rewrite ?orb_true_r; cbn [orb negb andb].
    + destruct (ParseUint t) as [n|err] eqn:U.
      * destruct (N.ltb_spec 0x80000000 n); [intros E; discriminate E|]. intros E. right. right. apply ParseUint_iff in U.
        exists t, n. destruct U. repeat split; try assumption; try lia. congruence.
      * pose proof (ParseUint_err _ _ U) as [-> | ->]; intros E; vm_compute in E; discriminate E.
    + destruct (ParseUint t) as [n|err] eqn:U.
      * destruct (N.leb_spec 0x80000000 n); [intros E; discriminate E|]. intros E. right. left. apply ParseUint_iff in U.
        exists t, n. destruct U. repeat split; try assumption; try lia. congruence.
      * pose proof (ParseUint_err _ _ U) as [-> | ->]; intros E; vm_compute in E; discriminate E.
    + destruct (ParseUint (c :: t)) as [n|err] eqn:U.
      * destruct (N.leb_spec 0x80000000 n); [intros E; discriminate E|]. intros E. left. apply ParseUint_iff in U.
        exists n. destruct U. repeat split; try assumption; try lia. congruence.
      * pose proof (ParseUint_err _ _ U) as [-> | ->]; intros E; vm_compute in E; discriminate E.
  - intros [(n & H & L & ->)|[(h & n & -> & H & L & ->)|(h & n & -> & H & L & ->)]].
    + apply ParseInt_hex; assumption.
    + unfold ParseInt. cbn [Byte.eqb orb negb andb]. assert (ParseUint h = inl n) as U by (apply ParseUint_iff; split; [assumption|lia]).
      change (Byte.eqb x2b x2d) with false. change (Byte.eqb x2b x2b) with true. cbn [orb negb andb]. rewrite U.
      destruct (N.leb_spec 0x80000000 n); [lia|reflexivity].
    + unfold ParseInt. assert (ParseUint h = inl n) as U by (apply ParseUint_iff; split; [assumption|lia]).
      change (Byte.eqb x2d x2d) with true. cbn [orb negb andb]. rewrite orb_true_r. rewrite U.
      destruct (N.ltb_spec 0x80000000 n); [lia|reflexivity].
Qed.

Lemma int_text_iff t z : int_text t z <-> ParseInt t = inl z.
Proof.
  rewrite ParseInt_iff. split.
  - intros [h n H L|h n H L|h n H L]; [left|right; left|right; right]; eauto 8.
  - intros [(n & H & L & ->)|[(h & n & -> & H & L & ->)|(h & n & -> & H & L & ->)]]; constructor; assumption.
Qed.

(* Cut, with something put after *)
Lemma after_prefix_app p : forall s u t, after_prefix p s = Some u -> after_prefix p (s ++ t) = Some (u ++ t).
Proof.
  intros s u t H. apply after_prefix_some in H. subst s. apply after_prefix_some. rewrite app_assoc. reflexivity.
Qed.

Lemma after_prefix_none p : forall s t, after_prefix p s = None -> length p <= length s -> after_prefix p (s ++ t) = None.
Proof.
  induction p as [|x p IH]; intros [|y s] t H L; cbn [after_prefix app length] in *; try discriminate; try lia.
  destruct (Byte.eqb x y); [|reflexivity]. apply IH; [assumption|lia].
Qed.

Lemma Cut_app sep s b a t : Cut sep s = (b, a, true) -> Cut sep (s ++ t) = (b, a ++ t, true).
Proof.
  revert b a. induction s as [|x s IH]; intros b a; cbn [Cut app].
  - destruct (after_prefix sep []) as [u|] eqn:E; [|discriminate]. intros H. injection H as <- <-.
    pose proof (after_prefix_app _ _ _ t E) as K. cbn [app] in K. destruct t; cbn [Cut]; rewrite K; reflexivity.
  - destruct (after_prefix sep (x :: s)) as [u|] eqn:E.
    + intros H. injection H as <- <-. pose proof (after_prefix_app _ _ _ t E) as K. cbn [app] in K. rewrite K. reflexivity.
    + destruct (Cut sep s) as [[b' a'] f] eqn:C. intros H. injection H as <- <- ->.
      assert (length sep <= length s) as L.
      { apply Cut_true in C. subst s. rewrite !app_length. lia. }
      pose proof (after_prefix_none _ _ t E ltac:(cbn [length]; lia)) as K. cbn [app] in K. rewrite K.
      rewrite (IH b' a' eq_refl). reflexivity.
Qed.

(* something put before that cannot begin the separator *)
Lemma Cut_prepend c sep w s b a f : ~ In c w -> Cut (c :: sep) s = (b, a, f) -> Cut (c :: sep) (w ++ s) = (w ++ b, a, f).
Proof.
  intros H C. induction w as [|x w IH]; [exact C|]. cbn [app Cut after_prefix].
  destruct (byte_eqb_spec c x) as [->|N]; [exfalso; apply H; left; reflexivity|].
  rewrite IH; [reflexivity|]. intros K. apply H. right. exact K.
Qed.

Definition marker (m : list byte) : Prop := m = splitMarker \/ m = nonsplitMarker.

(* a marker after a text without markers ends it *)
Lemma Cut_marker_self m x z : marker m -> absent m x -> Cut m (x ++ m ++ z) = (x, z, true).
Proof.
  intros Hm Ha. apply Cut_found. intros b1 b2 -> Hb.
  destruct (after_prefix m (b2 ++ m ++ z)) as [u|] eqn:E; [|reflexivity]. exfalso.
  apply after_prefix_some in E.
  destruct Hm as [-> | ->]; unfold splitMarker, nonsplitMarker in *;
    (destruct b2 as [|p [|q b2]]; [congruence| |]; cbn [app] in E; [discriminate|];
     injection E as -> -> _; apply (Ha b1 b2); reflexivity).
Qed.

(* the other marker does not interfere *)
Lemma Cut_marker_other m m' x b a f z : marker m -> marker m' -> m <> m' -> Cut m z = (b, a, f) -> absent m x ->
  Cut m (x ++ m' ++ z) = (x ++ m' ++ b, a, f).
Proof.
  intros Hm Hm' N C. induction x as [|p x IH]; intros Ha.
  - cbn [app]. destruct Hm as [-> | ->], Hm' as [-> | ->]; try congruence;
      unfold splitMarker, nonsplitMarker in *; cbn [app Cut after_prefix Byte.eqb] ; cbv [Byte.eqb Byte.to_bits Bool.eqb andb];
      rewrite C; reflexivity.
  - cbn [app Cut].
    assert (after_prefix m (p :: x ++ m' ++ z) = None) as ->.
    { destruct (after_prefix m (p :: x ++ m' ++ z)) as [u|] eqn:E; [|reflexivity]. exfalso.
      apply after_prefix_some in E. destruct x as [|q x].
      - destruct Hm as [-> | ->], Hm' as [-> | ->]; try congruence; cbn in E; discriminate.
      - destruct Hm as [-> | ->]; cbn [app splitMarker nonsplitMarker] in E; injection E as -> -> _;
          apply (Ha [] x); reflexivity. }
    rewrite IH; [reflexivity|]. intros c d ->. apply (Ha (p :: c) d). reflexivity.
Qed.

Lemma marker_ne m : marker m -> m <> [].
Proof. intros [-> | ->]; discriminate. Qed.

Lemma Split_ne s sep ps : Split s sep = Ret ps -> ps <> [].
Proof.
  unfold Split. cbn [split_rounds]. destruct (Cut sep s) as [[b a] f]. destruct f; [|intros H; injection H as <-; discriminate].
  destruct (split_rounds _ _ _); [|discriminate]. cbn [bind]. intros H; injection H as <-; discriminate.
Qed.

Definition pieces (s m : list byte) : list (list byte) := match Split s m with Ret ps => ps | Panic _ => [] end.

Lemma Split_pieces s m : marker m -> Split s m = Ret (pieces s m).
Proof. intros H. unfold pieces. destruct (Split_total s m (marker_ne m H)) as [ps ->]. reflexivity. Qed.

Lemma pieces_found m b a s : marker m -> Cut m s = (b, a, true) -> pieces s m = b :: pieces a m.
Proof.
  intros H C. unfold pieces. rewrite (Split_step s m b a (marker_ne m H) C). rewrite (Split_pieces a m H).
  cbn [bind]. reflexivity.
Qed.

Lemma pieces_absent m s : absent m s -> pieces s m = [s].
Proof. intros H. unfold pieces. rewrite (Split_last s m _ _ (Cut_absent m s H)). reflexivity. Qed.

Lemma pieces_self m x z : marker m -> pieces (x ++ m ++ z) m = pieces x m ++ pieces z m.
Proof.
  intros H. remember (length x) as k eqn:Ek. revert x Ek. induction k as [k IH] using lt_wf_ind. intros x ->.
  destruct (Cut m x) as [[b a] [|]] eqn:C.
  - rewrite (pieces_found m b (a ++ m ++ z)) by (try assumption; apply Cut_app; assumption).
    rewrite (pieces_found m b a x H C). cbn [app]. f_equal. apply (IH (length a)); [|reflexivity].
    apply Cut_true in C. subst x. rewrite !app_length. pose proof (marker_ne m H). destruct m; [congruence|]. cbn [length]. lia.
  - apply Cut_false in C. destruct C as (_ & _ & A).
    rewrite (pieces_found m x z) by (try assumption; apply Cut_marker_self; assumption).
    rewrite (pieces_absent m x A). reflexivity.
Qed.

Lemma pieces_other m m' x z : marker m -> marker m' -> m <> m' ->
  exists P l f Q, pieces x m = P ++ [l] /\ pieces z m = f :: Q /\ pieces (x ++ m' ++ z) m = P ++ (l ++ m' ++ f) :: Q.
Proof.
  intros H H' N. remember (length x) as k eqn:Ek. revert x Ek. induction k as [k IH] using lt_wf_ind. intros x ->.
  destruct (Cut m x) as [[b a] [|]] eqn:C.
  - destruct (IH (length a)) with (x := a) as (P & l & f & Q & E1 & E2 & E3); [|reflexivity|].
    { apply Cut_true in C. subst x. rewrite !app_length. pose proof (marker_ne m H). destruct m; [congruence|]. cbn [length]. lia. }
    exists (b :: P), l, f, Q. split; [rewrite (pieces_found m b a x H C), E1; reflexivity|]. split; [exact E2|].
    rewrite (pieces_found m b (a ++ m' ++ z)) by (try assumption; apply Cut_app; assumption). rewrite E3. reflexivity.
  - apply Cut_false in C. destruct C as (_ & _ & A).
    destruct (Cut m z) as [[bz az] fz] eqn:Cz. pose proof (Cut_marker_other m m' x bz az fz z H H' N Cz A) as K.
    destruct fz.
    + exists [], x, bz, (pieces az m). split; [apply pieces_absent; exact A|].
      split; [apply pieces_found; assumption|]. rewrite (pieces_found m _ _ _ H K). reflexivity.
    + apply Cut_false in Cz as Cz'. destruct Cz' as (-> & -> & Az). exists [], x, z, [].
      split; [apply pieces_absent; exact A|]. split; [apply pieces_absent; exact Az|].
      apply Cut_false in K. destruct K as (_ & _ & K). apply pieces_absent. exact K.
Qed.

(* all character texts of a line *)
Definition cuts (s : list byte) : list (list byte) :=
  flat_map (fun g => pieces g nonsplitMarker) (pieces s splitMarker).

Lemma m1 : marker splitMarker. Proof. left. reflexivity. Qed.
Lemma m2 : marker nonsplitMarker. Proof. right. reflexivity. Qed.
Lemma m12 : splitMarker <> nonsplitMarker. Proof. discriminate. Qed.

Lemma cuts_app m x z : marker m -> cuts (x ++ m ++ z) = cuts x ++ cuts z.
Proof.
  unfold cuts. intros [-> | ->].
  - rewrite pieces_self by apply m1. apply flat_map_app.
  - destruct (pieces_other splitMarker nonsplitMarker x z m1 m2 m12) as (P & l & f & Q & -> & -> & ->).
    rewrite !flat_map_app. cbn [flat_map]. rewrite app_nil_r, (pieces_self nonsplitMarker l f m2), <- !app_assoc. reflexivity.
Qed.

Lemma cuts_plain y : absent splitMarker y -> absent nonsplitMarker y -> cuts y = [y].
Proof.
  intros H1 H2. unfold cuts. rewrite (pieces_absent splitMarker y H1). cbn [flat_map].
  rewrite (pieces_absent nonsplitMarker y H2). reflexivity.
Qed.

Lemma cuts_between a y : between_signs a y -> In y (cuts a).
Proof.
  intros (x & z & -> & N & Hx & Hz).
  assert (cuts y = [y]) as Ey.
  { apply cuts_plain; intros c d E; eapply N; try exact E; unfold sign; [left|right]; reflexivity. }
  assert (In y (cuts (y ++ z))) as K.
  { destruct Hz as [->|(m & z' & Hm & ->)]; [rewrite app_nil_r, Ey; left; reflexivity|].
    rewrite cuts_app by (destruct Hm as [-> | ->]; [left|right]; reflexivity). rewrite Ey. left. reflexivity. }
  destruct Hx as [->|(x' & m & Hm & ->)]; [exact K|]. rewrite <- app_assoc.
  rewrite cuts_app by (destruct Hm as [-> | ->]; [left|right]; reflexivity). apply in_or_app. right. exact K.
Qed.

(* blanks at the ends *)
Lemma blanks_no_c3 w : blanks w -> ~ In xc3 w.
Proof.
  induction 1 as [|a w Ha Hw IH]; intros K; [contradiction|].
  apply in_app_or in K. destruct K as [K|K]; [|tauto].
  assert (forallb (fun a => forallb (fun b => negb (Byte.eqb b xc3)) (utf8_encode a)) spaces = true) as Q
    by (vm_compute; reflexivity).
  rewrite forallb_forall in Q. apply white_space_list in Ha. specialize (Q a Ha). rewrite forallb_forall in Q.
  specialize (Q xc3 K). discriminate.
Qed.

Lemma pieces_left m w s : marker m -> blanks w -> exists p ps, pieces s m = p :: ps /\ pieces (w ++ s) m = (w ++ p) :: ps.
Proof.
  intros H Hw. destruct (Cut m s) as [[b a] f] eqn:C.
  assert (Cut m (w ++ s) = (w ++ b, a, f)) as K.
  { destruct H as [-> | ->]; apply Cut_prepend; try assumption; apply blanks_no_c3; assumption. }
  destruct f.
  - exists b, (pieces a m). split; apply pieces_found; assumption.
  - apply Cut_false in C. destruct C as (-> & -> & A). apply Cut_false in K. destruct K as (_ & _ & A').
    exists s, []. split; apply pieces_absent; assumption.
Qed.

Lemma absent_right m s w : marker m -> blanks w -> absent m s -> absent m (s ++ w).
Proof.
  intros H Hw A c d E. pose proof (blanks_plain w Hw) as Hp.
  assert (exists y, m = [xc3; y] /\ (y = xb7 \/ y = x97)) as (y & -> & Hy) by (destruct H as [-> | ->]; eexists; (split; [reflexivity|]); tauto).
  cbn [app] in E.
  (* position of y *)
  assert (length c + 1 < length s) as L.
  { destruct (Nat.le_gt_cases (length s) (length c + 1)) as [L|L]; [|lia]. exfalso.
    assert (nth_error (s ++ w) (length c + 1) = Some y) as Q.
    { rewrite E, nth_error_app2 by lia. replace (length c + 1 - length c) with 1 by lia. reflexivity. }
    rewrite nth_error_app2 in Q by lia. apply nth_error_In in Q. eapply plain_not; [exact Hp| |exact Q]. tauto. }
  apply (A c (firstn (length s - length c - 2) d)).
  assert (firstn (length s) (s ++ w) = firstn (length s) (c ++ xc3 :: y :: d)) as F by (rewrite E; reflexivity).
  rewrite firstn_app, Nat.sub_diag, firstn_all in F. cbn [firstn] in F. rewrite app_nil_r in F.
  rewrite F at 1. rewrite firstn_app, firstn_all2 by lia. f_equal.
  destruct (length s - length c) as [|[|k]] eqn:K; [lia|lia|]. cbn [firstn app Nat.sub]. rewrite Nat.sub_0_r. reflexivity.
Qed.

Lemma pieces_right m w s : marker m -> blanks w -> exists ps p, pieces s m = ps ++ [p] /\ pieces (s ++ w) m = ps ++ [p ++ w].
Proof.
  intros H Hw. remember (length s) as k eqn:Ek. revert s Ek. induction k as [k IH] using lt_wf_ind. intros s ->.
  destruct (Cut m s) as [[b a] [|]] eqn:C.
  - destruct (IH (length a)) with (s := a) as (ps & p & E1 & E2); [|reflexivity|].
    { apply Cut_true in C. subst s. rewrite !app_length. pose proof (marker_ne m H). destruct m; [congruence|]. cbn [length]. lia. }
    exists (b :: ps), p. split; [rewrite (pieces_found m b a s H C), E1; reflexivity|].
    rewrite (pieces_found m b (a ++ w)) by (try assumption; apply Cut_app; assumption). rewrite E2. reflexivity.
  - apply Cut_false in C. destruct C as (_ & _ & A). exists [], s.
    split; [apply pieces_absent; exact A|]. apply pieces_absent. apply absent_right; assumption.
Qed.

Lemma cuts_trim a : map TrimSpace (cuts (TrimSpace a)) = map TrimSpace (cuts a).
Proof.
  destruct (padded_exists a) as [t Ht]. pose proof Ht as K. apply TrimSpace_padded in K. rewrite K.
  destruct Ht as (w1 & w2 & H1 & H2 & _ & ->).
  transitivity (map TrimSpace (cuts (t ++ w2))).
  - unfold cuts. destruct (pieces_right splitMarker w2 t m1 H2) as (ps & p & -> & ->).
    rewrite !flat_map_app, !map_app. f_equal. cbn [flat_map]. rewrite !app_nil_r.
    destruct (pieces_right nonsplitMarker w2 p m2 H2) as (ps' & p' & -> & ->).
    rewrite !map_app. f_equal. cbn [map]. rewrite Trim_right by assumption. reflexivity.
  - generalize (t ++ w2). intros s. unfold cuts. destruct (pieces_left splitMarker w1 s m1 H1) as (p & ps & -> & ->).
    cbn [flat_map]. rewrite !map_app. f_equal.
    destruct (pieces_left nonsplitMarker w1 p m2 H1) as (p' & ps' & -> & ->).
    cbn [map]. rewrite Trim_left by assumption. reflexivity.
Qed.

(* a bad text stops the parse *)
Definition bad_text (t : list byte) : Prop := t <> [] /\ forall z, ~ int_text t z.

Lemma test_chars_bad ps : (exists p, In p ps /\ bad_text (TrimSpace p)) -> forall i g r, test_chars ps i g <> inl r.
Proof.
  induction ps as [|q ps IH]; intros (p & Hp & Hne & Hz) i g r; [contradiction|]. cbn [test_chars].
  destruct Hp as [->|Hp].
  - destruct (TrimSpace p) as [|c t] eqn:T; [congruence|]. cbn [is_empty].
    destruct (ParseInt (c :: t)) as [z|] eqn:P; [|discriminate]. exfalso. apply (Hz z). apply int_text_iff. exact P.
  - destruct (is_empty (TrimSpace q)); [apply IH; exists p; split; [assumption|split; assumption]|].
    destruct (ParseInt (TrimSpace q)); [apply IH; exists p; split; [assumption|split; assumption]|discriminate].
Qed.

Lemma test_segs_bad segs : (exists p, In p (flat_map (fun g => pieces g nonsplitMarker) segs) /\ bad_text (TrimSpace p)) ->
  forall e e', test_segs segs e <> Ret (inl e').
Proof.
  induction segs as [|s segs IH]; intros (p & Hp & Hb) e e'; [contradiction|]. cbn [flat_map] in Hp. cbn [test_segs].
  rewrite (Split_pieces s nonsplitMarker m2). cbn [bind].
  destruct (test_chars (pieces s nonsplitMarker) (Input e) []) as [[i g]|] eqn:E; [|discriminate].
  apply in_app_or in Hp. destruct Hp as [Hp|Hp].
  - exfalso. eapply test_chars_bad; [|exact E]. eauto.
  - apply IH. eauto.
Qed.

Theorem parse_test_line_bad l a y t : content l a -> between_signs a y -> padded y t -> bad_text t ->
  exists err, parse_test_line l = Ret (Some (inr err)).
Proof.
  intros Hc Hb Hp Ht. destruct (parse_test_line_shape l) as (o & E & H).
  apply content_iff in Hc as Hc'. destruct Hc' as (c & f & C).
  apply cuts_between in Hb. apply TrimSpace_padded in Hp.
  assert (In t (map TrimSpace (cuts (TrimSpace a)))) as K.
  { rewrite cuts_trim. apply in_map_iff. eauto. }
  apply in_map_iff in K. destruct K as (p & Ep & K).
  destruct o as [[e|err]|]; [exfalso| |exfalso].
  - unfold parse_test_line in E. rewrite C in E. destruct (is_empty (TrimSpace a)); [discriminate|].
    rewrite (Split_pieces _ splitMarker m1) in E. cbn [bind] in E.
    destruct (test_segs (pieces (TrimSpace a) splitMarker) (MkTest [] [])) as [o|] eqn:T; [|discriminate]. cbn [bind] in E.
    assert (o = inl e) as -> by congruence. eapply test_segs_bad; [|exact T]. exists p. split; [exact K|]. rewrite Ep. exact Ht.
  - eauto.
  - destruct H as (a' & Ha' & Hbl). pose proof (content_fun _ _ _ Hc Ha') as <-.
    rewrite (blanks_trim a Hbl) in K. cbn in K. destruct K as [<-|[]]. destruct Ht as [Ht _]. apply Ht. rewrite <- Ep. reflexivity.
Qed.
