(* Property C65: what the tests of the tables establish. *)
From Coq Require Import List NArith ZArith Arith Bool Lia Strings.Byte Strings.String.
From Coq Require Import ZifyBool ZifyNat ZifyN.
From Verif Require Import Spec.Classes Spec.Utf8 Spec.PropNames Spec.UcdRanges Spec.Assignments Spec.Readers Spec.UcdFile Spec.Generation Spec.TableTests.
From Verif Require Import Model.Base Model.CharProps Model.Lookup Model.Bufio Model.PropNames Model.GenTable.
From Verif Require Import Model.UcdParse Model.BuildTree Model.TableTests.
From Verif Require Import Data.TableRaw Data.UcdGraphemeBreakProperty Data.UcdEmojiData Data.UcdDerivedCoreProperties.
From Verif Require Import Proofs.Basics Proofs.TextFacts Proofs.BufioFacts Proofs.ParseFacts Proofs.UcdFacts Proofs.GenRaw Proofs.BuildFacts Proofs.FileCheck.
From Verif Require Import Properties.Bufio Properties.Parsing Properties.Reproduce.
Import ListNotations.
Notation length := List.length.

(* Looking the bytes up in the tables finds the properties, and all of the bytes. *)
Definition found_in (tb : tables) (bytes : list byte) (props : N) : Prop :=
  lookup_first_char tb bytes = Ret (props, length bytes).

Lemma encode_point c : EncodeRune (Z.of_N c) = encoding c.
Proof.
  unfold EncodeRune, encoding, spelled. rewrite N2Z.id. assert ((0 <=? Z.of_N c)%Z = true) as -> by lia. cbn [andb].
  destruct (scalarb c); reflexivity.
Qed.

Lemma subtests_true tb got want rs : subtests tb got want rs = Ret true <->
  forall r, In r rs -> exists p, lookup_first_char tb (EncodeRune r) = Ret (p, length (EncodeRune r)) /\ got p = want.
Proof.
  induction rs as [|r rs IH]; cbn [subtests In]; [split; [intros _ r []|reflexivity]|].
  unfold subtest. destruct (lookup_first_char tb (EncodeRune r)) as [[p n]|e] eqn:E; cbn [bind].
  - destruct (subtests tb got want rs) as [[|]|e]; cbn [bind].
    + rewrite andb_true_r. split.
      * intros H x [<-|Hx]; [|apply IH; [reflexivity|exact Hx]].
        assert ((got p =? want)%N && (n =? length (EncodeRune r)) = true) as K by congruence.
        apply andb_true_iff in K. destruct K as [K1 K2]. apply N.eqb_eq in K1. apply Nat.eqb_eq in K2. subst n. eauto.
      * intros H. destruct (H r) as (q & K1 & K2); [auto|]. rewrite E in K1. assert (p = q) as <- by congruence.
        assert (n = length (EncodeRune r)) as -> by congruence. rewrite K2, N.eqb_refl, Nat.eqb_refl. reflexivity.
    + rewrite andb_false_r. split; [discriminate|]. intros H. exfalso.
      assert (@Ret bool false = Ret true) as K by (apply IH; intros x Hx; apply H; auto). discriminate K.
    + split; [discriminate|]. intros H. exfalso.
      assert (@Panic bool e = Ret true) as K by (apply IH; intros x Hx; apply H; auto). discriminate K.
  - split; [discriminate|]. intros H. destruct (H r) as (q & K1 & _); [auto|]. rewrite E in K1. discriminate K1.
Qed.

Lemma subtests_points tb got want first last : subtests tb got want (code_points first last) = Ret true <->
  forall c, (first <= c <= last)%N -> exists p, found_in tb (encoding c) p /\ got p = want.
Proof.
  rewrite subtests_true. unfold found_in, code_points. split.
  - intros H c Hc. destruct (H (Z.of_N c)) as (p & K1 & K2).
    + apply in_map_iff. exists (N.to_nat (c - first)). split; [lia|]. apply in_seq. lia.
    + rewrite encode_point in K1. eauto.
  - intros H r Hr. apply in_map_iff in Hr. destruct Hr as (i & <- & Hi). apply in_seq in Hi.
    destruct (H (first + N.of_nat i)%N) as (p & K1 & K2); [lia|].
    replace (Z.of_N first + Z.of_nat i)%Z with (Z.of_N (first + N.of_nat i)) by lia. rewrite encode_point. eauto.
Qed.

(* the loop over the entries, when the calls are known *)
Fixpoint all_tests (tests : list (res bool)) : res bool :=
  match tests with
  | [] => Ret true
  | t :: ts => match t with Panic p => Panic p | Ret ok => let! rest := all_tests ts in Ret (ok && rest) end
  end.

Lemma all_tests_true ts : all_tests ts = Ret true <-> Forall (fun t => t = Ret true) ts.
Proof.
  induction ts as [|t ts IH]; cbn [all_tests]; [split; [constructor|reflexivity]|].
  split.
  - destruct t as [ok|p]; [|discriminate]. destruct (all_tests ts) as [b|p]; cbn [bind]; [|discriminate]. intros H.
    assert (ok && b = true) as K by congruence. apply andb_true_iff in K. destruct K as [-> ->]. constructor; [reflexivity|]. apply IH. reflexivity.
  - intros H. inversion H; subst. rewrite (proj2 IH) by assumption. reflexivity.
Qed.

Lemma loop_tests {R} (rd : reader R) entry test : (forall m e, reports m (inl e) -> proper m -> entry e = test m) ->
  forall ms outs r s r' s', Forall2 reports ms outs -> Forall proper ms ->
  calls (fun raw => Ret (parse_line raw)) rd r s (outs ++ [inr EOF]) r' s' ->
  test_loop rd entry r s (all_tests (map test ms)).
Proof.
  intros Hb. induction ms as [|m ms IH]; intros outs r s r' s' F P C.
  - inversion F; subst. cbn [app] in C. inversion C as [|? ? r1 s1 ? ? ? ? N C']; subst. eapply test_eof. exact N.
  - inversion F as [|? o ? os Ho Hos]; subst. inversion P as [|? ? Pm Pms]; subst. cbn [app] in C.
    inversion C as [|? ? r1 s1 ? ? ? ? N C']; subst.
    destruct o as [e|err]; [|destruct m; cbn in Ho, Pm; tauto].
    cbn [map all_tests]. destruct (test m) as [ok|p] eqn:E.
    + eapply test_next; [exact N|rewrite (Hb m e Ho Pm); exact E|]. eapply IH; eassumption.
    + eapply test_panic; [exact N|]. rewrite (Hb m e Ho Pm). exact E.
Qed.

Lemma test_loop_fun {R} (rd : reader R) entry r s o : test_loop rd entry r s o -> forall o', test_loop rd entry r s o' -> o' = o.
Proof.
  induction 1 as [r s r' s' N|r s r' s' err N D|r s r' s' e p N B|r s r' s' e ok out N B H IH]; intros o' H';
    inversion H' as [? ? ra sa N'|? ? ra sa err' N' D'|? ? ra sa e' p' N' B'|? ? ra sa e' ok' o2 N' B' H2]; subst;
    destruct (next_entry_unique _ _ _ _ _ _ _ _ _ N N') as (? & ? & E); try discriminate E; try congruence.
  subst. assert (e = e') by congruence. subst e'. assert (ok = ok') by congruence. subst ok'. rewrite (IH _ H2). reflexivity.
Qed.

Lemma test_file {R} (rd : reader R) entry test r file ms :
  (forall m e, reports m (inl e) -> proper m -> entry e = test m) -> test Ignored = Ret true ->
  delivers rd 100 r file EOF -> usable file ms ->
  exists out, test_loop rd entry r newLineScan out /\ (forall out', test_loop rd entry r newLineScan out' -> out' = out) /\
    (out = Ret true <-> forall m, In m ms -> test m = Ret true).
Proof.
  intros Hb H0 Hd (lines & Hf & HF & Hm & Hp).
  destruct (outcomes_reports lines ms Hm) as (outs & Ho & Ha).
  destruct (new_scanner rd r file EOF Hd) as (I & M & L & A).
  destruct (calls_lines (fun raw => Ret (parse_line raw)) rd EOF lines outs Ho HF 1 r newLineScan file I M L A Hf) as (r' & s' & C).
  assert (test_loop rd entry r newLineScan (all_tests (map test (filter (fun m => match m with Ignored => false | _ => true end) ms)))) as T.
  { eapply loop_tests; try eassumption. apply Forall_filter. exact Hp. }
  eexists. split; [exact T|]. split; [intros out'; apply test_loop_fun; exact T|].
  rewrite all_tests_true, Forall_forall. split.
  - intros K m Hin. destruct m as [|f l fs|f]; [exact H0| |];
      (apply K; apply in_map; apply filter_In; split; [exact Hin|reflexivity]).
  - intros K t Ht. apply in_map_iff in Ht. destruct Ht as (m & <- & Hin). apply K. apply filter_In in Hin. tauto.
Qed.

(* The tests of any tables against any usable file, however it is read, have one
   outcome, and pass exactly if the tables have what the lines ask for. *)
Theorem C65_gcb {R} tb (rd : reader R) r file ms : delivers rd 100 r file EOF -> usable file ms ->
  exists out, TestGraphemeBreakProperty tb rd r out /\ (forall out', TestGraphemeBreakProperty tb rd r out' -> out' = out) /\
    (out = Ret true <-> gcb_asks (found_in tb) ms).
Proof.
  intros Hd Hu.
  pose (test := fun m => match m with Data first last fields => subtests tb GCBProperty (gcb_named (hd [] fields)) (code_points first last) | _ => Ret true end).
  destruct (test_file rd (gcb_test_entry tb) test r file ms) as (out & T & U & K); [|reflexivity|exact Hd|exact Hu|].
  - intros [|first last fields|] e; cbn [reports proper]; try tauto. intros (H1 & H2 & H3 & H4) [L1 L2].
    unfold gcb_test_entry. rewrite H3, gcb_named_eq, (runes_points first last) by assumption. reflexivity.
  - exists out. split; [exact T|]. split; [exact U|]. rewrite K. unfold gcb_asks. split.
    + intros A first last fields c Hin Hc. specialize (A _ Hin). cbn [test] in A. apply subtests_points with (1 := A). exact Hc.
    + intros A [|first last fields|f] Hin; try reflexivity. cbn [test]. apply subtests_points. intros c Hc. apply (A first last fields c Hin Hc).
Qed.

Theorem C65_emoji {R} tb (rd : reader R) r file ms : delivers rd 100 r file EOF -> usable file ms ->
  exists out, TestEmojiExtendedPictographic tb rd r out /\ (forall out', TestEmojiExtendedPictographic tb rd r out' -> out' = out) /\
    (out = Ret true <-> emoji_asks (found_in tb) ms).
Proof.
  intros Hd Hu.
  pose (test := fun m => match m with
    | Data first last fields => if is_name (hd [] fields) "Extended_Pictographic" then subtests tb GCBProperty 4 (code_points first last) else Ret true
    | _ => Ret true end).
  destruct (test_file rd (emoji_test_entry tb) test r file ms) as (out & T & U & K); [|reflexivity|exact Hd|exact Hu|].
  - intros [|first last fields|] e; cbn [reports proper]; try tauto. intros (H1 & H2 & H3 & H4) [L1 L2].
    unfold emoji_test_entry. rewrite H3, emoji_named_eq, (runes_points first last) by assumption. cbn [test].
    destruct (is_name _ _); reflexivity.
  - exists out. split; [exact T|]. split; [exact U|]. rewrite K. unfold emoji_asks. split.
    + intros A first last fields c Hin Hc Hn. specialize (A _ Hin). cbn [test] in A. rewrite Hn in A. apply subtests_points with (1 := A). exact Hc.
    + intros A [|first last fields|f] Hin; try reflexivity. cbn [test]. destruct (is_name _ _) eqn:Hn; [|reflexivity].
      apply subtests_points. intros c Hc. apply (A first last fields c Hin Hc Hn).
Qed.

Theorem C65_incb {R} tb (rd : reader R) r file ms : delivers rd 100 r file EOF -> usable file ms ->
  exists out, TestIndicConjunctBreakProperty tb rd r out /\ (forall out', TestIndicConjunctBreakProperty tb rd r out' -> out' = out) /\
    (out = Ret true <-> incb_asks (found_in tb) ms).
Proof.
  intros Hd Hu.
  pose (test := fun m => match m with
    | Data first last (name :: value :: _) => if is_name name "InCB" then subtests tb InCBProperty (incb_named value) (code_points first last) else Ret true
    | _ => Ret true end).
  destruct (test_file rd (incb_test_entry tb) test r file ms) as (out & T & U & K); [|reflexivity|exact Hd|exact Hu|].
  - intros [|first last fields|] e; cbn [reports proper]; try tauto. intros (H1 & H2 & H3 & H4) [L1 L2].
    unfold incb_test_entry. rewrite H4. cbn [bind]. destruct fields as [|f0 [|f1 fs]]; [reflexivity|reflexivity|].
    rewrite (runes_points first last) by assumption. cbn [test]. rewrite is_name_eqb, incb_named_eq. destruct (str_eqb f0 (str "InCB")); reflexivity.
  - exists out. split; [exact T|]. split; [exact U|]. rewrite K. unfold incb_asks. split.
    + intros A first last name value more c Hin Hc Hn. specialize (A _ Hin). cbn [test] in A. rewrite Hn in A. apply subtests_points with (1 := A). exact Hc.
    + intros A [|first last [|name [|value more]]|f] Hin; try reflexivity. cbn [test]. destruct (is_name _ _) eqn:Hn; [|reflexivity].
      apply subtests_points. intros c Hc. apply (A first last name value more c Hin Hc Hn).
Qed.

(* ---- the committed files *)

Definition gcb_check (tb : tables) : bool :=
  forallb (fun '(a, b, g) => match subtests tb GCBProperty (gcb_named (list_byte_of_string (gcb_name g))) (code_points a b) with
                             | Ret true => true | _ => false end) gcb_ranges.
Definition emoji_check_tb (tb : tables) : bool :=
  forallb (fun '(a, b, _) => match subtests tb GCBProperty 4 (code_points a b) with Ret true => true | _ => false end) extpict_ranges.
Definition incb_check (tb : tables) : bool :=
  forallb (fun '(a, b, i) => match subtests tb InCBProperty (incb_named (list_byte_of_string (incb_name i))) (code_points a b) with
                             | Ret true => true | _ => false end) incb_ranges.

Lemma gcb_checked tb : gcb_check tb = true -> exists ms, usable (file_bytes GraphemeBreakProperty_txt) ms /\ gcb_asks (found_in tb) ms.
Proof.
  intros H. destruct (selects_ok _ _ _ gbp_check) as (ms & U & E). exists ms. split; [exact U|].
  intros first last fields c Hin Hc.
  assert (In (Data first last fields) (filter is_data ms)) as K by (apply filter_In; auto). rewrite E in K. clear E U.
  unfold gcb_lines in K. apply in_map_iff in K. destruct K as ([[a b] g] & Eq & K).
  unfold gcb_check in H. rewrite forallb_forall in H. specialize (H _ K). cbv beta iota in H.
  assert (a = first) as -> by congruence. assert (b = last) as -> by congruence. assert (fields = [list_byte_of_string (gcb_name g)]) as -> by congruence.
  cbn [hd]. destruct (subtests tb GCBProperty (gcb_named (list_byte_of_string (gcb_name g))) (code_points first last)) as [[|]|] eqn:S; try discriminate H.
  apply subtests_points with (1 := S). exact Hc.
Qed.

Lemma emoji_checked tb : emoji_check_tb tb = true -> exists ms, usable (file_bytes emoji_data_txt) ms /\ emoji_asks (found_in tb) ms.
Proof.
  intros H. destruct (selects_ok _ _ _ emoji_check) as (ms & U & E). exists ms. split; [exact U|].
  intros first last fields c Hin Hc Hn.
  assert (In (Data first last fields) (filter (about "Extended_Pictographic") ms)) as K.
  { apply filter_In. split; [exact Hin|]. cbn [about]. rewrite is_name_eqb in Hn. exact Hn. }
  rewrite E in K. clear E U. unfold extpict_lines in K. apply in_map_iff in K. destruct K as ([[a b] g] & Eq & K).
  unfold emoji_check_tb in H. rewrite forallb_forall in H. specialize (H _ K). cbv beta iota in H.
  assert (a = first) as -> by congruence. assert (b = last) as -> by congruence.
  destruct (subtests tb GCBProperty 4 (code_points first last)) as [[|]|] eqn:S; try discriminate H.
  apply subtests_points with (1 := S). exact Hc.
Qed.

Lemma incb_checked tb : incb_check tb = true -> exists ms, usable (file_bytes DerivedCoreProperties_txt) ms /\ incb_asks (found_in tb) ms.
Proof.
  intros H. destruct (selects_ok _ _ _ dcp_check) as (ms & U & E). exists ms. split; [exact U|].
  intros first last name value more c Hin Hc Hn.
  assert (In (Data first last (name :: value :: more)) (filter (about "InCB") ms)) as K.
  { apply filter_In. split; [exact Hin|]. cbn [about hd]. rewrite is_name_eqb in Hn. exact Hn. }
  rewrite E in K. clear E U. unfold incb_lines in K. apply in_map_iff in K. destruct K as ([[a b] i] & Eq & K).
  unfold incb_check in H. rewrite forallb_forall in H. specialize (H _ K). cbv beta iota in H.
  assert (a = first) as -> by congruence. assert (b = last) as -> by congruence. assert (value = list_byte_of_string (incb_name i)) as -> by congruence.
  destruct (subtests tb InCBProperty (incb_named (list_byte_of_string (incb_name i))) (code_points first last)) as [[|]|] eqn:S; try discriminate H.
  apply subtests_points with (1 := S). exact Hc.
Qed.

(* all three tests pass, however the files are read *)
Definition all_pass (tb : tables) : Prop := forall R (rd : reader R) r out,
  (delivers rd 100 r (file_bytes GraphemeBreakProperty_txt) EOF -> TestGraphemeBreakProperty tb rd r out -> out = Ret true) /\
  (delivers rd 100 r (file_bytes emoji_data_txt) EOF -> TestEmojiExtendedPictographic tb rd r out -> out = Ret true) /\
  (delivers rd 100 r (file_bytes DerivedCoreProperties_txt) EOF -> TestIndicConjunctBreakProperty tb rd r out -> out = Ret true).

Lemma pass_checked tb : gcb_check tb = true -> emoji_check_tb tb = true -> incb_check tb = true -> all_pass tb.
Proof.
  intros H1 H2 H3 R rd r out. split; [|split]; intros Hd T.
  - destruct (gcb_checked tb H1) as (ms & U & A). destruct (C65_gcb tb rd r _ ms Hd U) as (o & _ & Hu & K). rewrite (Hu _ T). apply K. exact A.
  - destruct (emoji_checked tb H2) as (ms & U & A). destruct (C65_emoji tb rd r _ ms Hd U) as (o & _ & Hu & K). rewrite (Hu _ T). apply K. exact A.
  - destruct (incb_checked tb H3) as (ms & U & A). destruct (C65_incb tb rd r _ ms Hd U) as (o & _ & Hu & K). rewrite (Hu _ T). apply K. exact A.
Qed.

(* The tests pass for the committed tables. *)
Lemma committed_checks : gcb_check committed = true /\ emoji_check_tb committed = true /\ incb_check committed = true.
Proof. split; [|split]; vm_cast_no_check (eq_refl true). Qed.
Theorem C65_committed : all_pass committed.
Proof. destruct committed_checks as (H1 & H2 & H3). exact (pass_checked committed H1 H2 H3). Qed.

(* But they do not look at characters that the files do not list: tables in which
   "a" is of class Prepend pass as well. *)
Theorem C65_blind : exists tb, all_pass tb /\ lookup_first_char tb [x61] = Ret (GCBPrepend, 1) /\
  LookupFirstChar [x61] = Ret (zeroProperties, 1).
Proof.
  exists (Tables (t_indices committed) (Arr (alen (t_props committed)) (FMapPositive.PositiveMap.add (N.succ_pos 0x61) GCBPrepend (adata (t_props committed))))).
  split; [|split].
  - apply pass_checked; vm_cast_no_check (eq_refl true).
  - vm_compute. reflexivity.
  - vm_compute. reflexivity.
Qed.

(* ---- tables generated from the files that the tests read *)

Lemma spelled_scalar c : scalar (spelled c).
Proof. unfold spelled. destruct (scalarb c) eqn:E; [apply scalarb_spec; exact E|unfold scalar; lia]. Qed.

Lemma lists_covers m d : scalar d -> lists m d <-> covers m d = true.
Proof.
  intros S. destruct m as [|first last fields|f]; cbn [lists]; [split; [tauto|discriminate]| |split; [tauto|discriminate]].
  rewrite <- (covered first last fields d S), existsb_exists. split.
  - intros (c & H & E). exists (Z.of_N c). split; [apply in_code_points; lia|]. unfold target. rewrite N2Z.id.
    assert ((0 <=? Z.of_N c)%Z = true) as -> by lia. cbn [andb]. apply N.eqb_eq. exact E.
  - intros (z & H & E). apply in_code_points in H. exists (Z.to_N z). split; [lia|]. apply N.eqb_eq in E. revert E. unfold target.
    assert ((0 <=? z)%Z = true) as -> by lia. cbn [andb]. unfold spelled. tauto.
Qed.

Lemma lists_scalar m d : lists m d -> scalar d.
Proof. destruct m as [|first last fields|f]; cbn [lists]; try tauto. intros (c & _ & <-). apply spelled_scalar. Qed.

Lemma first_field_0 m : first_field m = field 0 m.
Proof. destruct m as [|a b [|f fs]|]; reflexivity. Qed.

Lemma named_small l : (N.land (gcb_named l) 0x0F = gcb_named l)%N /\ (N.land (gcb_named l) 0xF0 = 0)%N.
Proof. unfold gcb_named. destruct (find _ _) as [[]|]; split; reflexivity. Qed.
Lemma incb_named_small l : (N.land (incb_named l) 0xF0 = incb_named l)%N /\ (N.land (incb_named l) 0x0F = 0)%N.
Proof. unfold incb_named. destruct (find _ _) as [[]|]; split; reflexivity. Qed.

Lemma fold_lor_land mask k vs : (forall v, In v vs -> N.land v mask = if k : bool then v else 0)%N ->
  (N.land (fold_left N.lor vs 0) mask = if k then fold_left N.lor vs 0 else 0)%N.
Proof.
  induction vs as [|v vs IH]; intros H; [destruct k; reflexivity|]. cbn [fold_left]. rewrite N.lor_0_l, lor_fold, N.land_lor_distr_l.
  rewrite IH by (intros x Hx; apply H; right; exact Hx). rewrite (H v) by (left; reflexivity). destruct k; reflexivity.
Qed.

Lemma incb_by_small ms c : (N.land (incb_by ms c) 0xF0 = incb_by ms c)%N /\ (N.land (incb_by ms c) 0x0F = 0)%N.
Proof.
  unfold incb_by. split; [apply (fold_lor_land _ true)|apply (fold_lor_land _ false)];
    intros v Hv; apply in_map_iff in Hv; destruct Hv as (m & <- & _); apply incb_named_small.
Qed.

Lemma gcb_by_small ms c : (N.land (gcb_by ms c) 0x0F = gcb_by ms c)%N /\ (N.land (gcb_by ms c) 0xF0 = 0)%N.
Proof. unfold gcb_by. destruct (rev _); [split; reflexivity|apply named_small]. Qed.

Lemma gcb_by_unique ms c m : In m ms -> covers m c = true ->
  (forall m', In m' ms -> covers m' c = true -> gcb_named (field 0 m') = gcb_named (field 0 m)) -> gcb_by ms c = gcb_named (field 0 m).
Proof.
  intros Hin Hc H. unfold gcb_by. destruct (rev (filter (fun m => covers m c) ms)) as [|x xs] eqn:E.
  - exfalso. assert (In m (rev (filter (fun m => covers m c) ms))) as K by (apply -> in_rev; apply filter_In; auto). rewrite E in K. destruct K.
  - assert (In x (filter (fun m => covers m c) ms)) as K by (apply in_rev; rewrite E; left; reflexivity).
    apply filter_In in K. apply H; tauto.
Qed.

Lemma fold_lor_same w vs : vs <> [] -> (forall v, In v vs -> v = w) -> fold_left N.lor vs 0%N = w.
Proof.
  intros Hn H. destruct vs as [|v vs]; [congruence|]. cbn [fold_left]. rewrite N.lor_0_l, (H v) by (left; reflexivity). clear Hn.
  assert (forall v, In v vs -> v = w) as K by (intros x Hx; apply H; right; exact Hx). clear H v.
  induction vs as [|v vs IH]; [reflexivity|]. cbn [fold_left]. rewrite (K v), N.lor_diag by (left; reflexivity).
  apply IH. intros x Hx. apply K. right. exact Hx.
Qed.

(* Of tables generated from the files the emoji test passes always, and the others
   exactly if the files do not contradict themselves. *)
Theorem C65_regenerated {R1 R2 R3 T1 T2 T3} (rd1 : reader R1) r1 (rd2 : reader R2) r2 (rd3 : reader R3) r3
  (td1 : reader T1) t1 (td2 : reader T2) t2 (td3 : reader T3) t3 f1 f2 f3 ms1 ms2 ms3 out tb out1 out2 out3 :
  delivers rd1 100 r1 f1 EOF -> delivers rd2 100 r2 f2 EOF -> delivers rd3 100 r3 f3 EOF ->
  usable f1 ms1 -> usable f2 ms2 -> usable f3 ms3 ->
  BuildRawPropertyTree rd1 r1 rd2 r2 rd3 r3 out -> main_tables out = Ret (inl tb) ->
  delivers td1 100 t1 f1 EOF -> delivers td2 100 t2 f2 EOF -> delivers td3 100 t3 f3 EOF ->
  TestGraphemeBreakProperty tb td1 t1 out1 -> TestEmojiExtendedPictographic tb td2 t2 out2 ->
  TestIndicConjunctBreakProperty tb td3 t3 out3 ->
  (out1 = Ret true <-> gcb_agree ms1 ms2) /\ out2 = Ret true /\ (out3 = Ret true <-> incb_agree ms3).
Proof.
  intros D1 D2 D3 U1 U2 U3 B E E1 E2 E3 H1 H2 H3.
  pose proof (C44_lookup rd1 r1 rd2 r2 rd3 r3 f1 f2 f3 ms1 ms2 ms3 out tb D1 D2 D3 U1 U2 U3 B E) as LK. clear D1 D2 D3 B E.
  assert (forall c p, found_in tb (encoding c) p <->
    p = N.lor (if pictographic_by ms2 (spelled c) then 4%N else gcb_by ms1 (spelled c)) (incb_by ms3 (spelled c))) as FI.
  { intros c p. unfold found_in, encoding. specialize (LK (spelled c) [] (spelled_scalar c)). rewrite app_nil_r in LK.
    rewrite LK, C44_value by apply spelled_scalar. split; [congruence|intros ->; reflexivity]. }
  assert (forall c p, found_in tb (encoding c) p -> N.land p 0x0F = if pictographic_by ms2 (spelled c) then 4%N else gcb_by ms1 (spelled c)) as FG.
  { intros c p K. apply FI in K. subst p. rewrite N.land_lor_distr_l, (proj2 (incb_by_small _ _)), N.lor_0_r.
    destruct (pictographic_by ms2 (spelled c)); [reflexivity|apply gcb_by_small]. }
  assert (forall c p, found_in tb (encoding c) p -> N.land p 0xF0 = incb_by ms3 (spelled c)) as FC.
  { intros c p K. apply FI in K. subst p. rewrite N.land_lor_distr_l, (proj1 (incb_by_small _ _)).
    destruct (pictographic_by ms2 (spelled c)); [reflexivity|rewrite (proj2 (gcb_by_small _ _)); reflexivity]. }
  split; [|split].
  - destruct (C65_gcb tb td1 t1 f1 ms1 E1 U1) as (o & _ & Hu & K). rewrite (Hu _ H1), K. clear o Hu K. unfold gcb_asks. split.
    + intros A.
      assert (forall m d, In m ms1 -> lists m d -> pictographic_by ms2 d = false /\ gcb_by ms1 d = gcb_named (first_field m)) as Q.
      { intros m d Hin HL. destruct m as [|first last fields|f]; cbn [lists] in HL; try tauto. destruct HL as (c & Hc & <-).
        destruct (A first last fields c Hin Hc) as (p & F & G). rewrite (FG _ _ F) in G.
        destruct (pictographic_by ms2 (spelled c)).
        - exfalso. revert G. unfold gcb_named. destruct (find _ _) as [[]|]; discriminate.
        - split; [reflexivity|]. rewrite G. destruct fields; reflexivity. }
      split.
      * intros m m' d I1 I2 L1 L2. destruct (Q m d I1 L1) as [_ Q1]. destruct (Q m' d I2 L2) as [_ Q2]. congruence.
      * intros m m' d I1 I2 L1 L2. destruct (Q m d I1 L1) as [Q1 _].
        destruct (is_name (first_field m') "Extended_Pictographic") eqn:Hn; [|reflexivity]. exfalso.
        enough (pictographic_by ms2 d = true) by congruence. unfold pictographic_by. apply existsb_exists. exists m'.
        split; [exact I2|]. apply andb_true_iff. split; [apply lists_covers; [eapply lists_scalar; exact L2|exact L2]|].
        rewrite <- first_field_0. exact Hn.
    + intros [A1 A2] first last fields c Hin Hc. eexists. split; [apply FI; reflexivity|].
      rewrite N.land_lor_distr_l, (proj2 (incb_by_small _ _)), N.lor_0_r.
      assert (lists (Data first last fields) (spelled c)) as HL by (cbn [lists]; eauto).
      destruct (pictographic_by ms2 (spelled c)) eqn:P.
      * exfalso. unfold pictographic_by in P. apply existsb_exists in P. destruct P as (m' & I2 & P).
        apply andb_true_iff in P. destruct P as [P1 P2]. apply lists_covers in P1; [|apply spelled_scalar].
        rewrite <- first_field_0, (A2 _ m' _ Hin I2 HL P1) in P2. discriminate P2.
      * rewrite (proj1 (gcb_by_small _ _)). rewrite (gcb_by_unique ms1 (spelled c) (Data first last fields)).
        -- cbn [field]. rewrite <- hd_nth. reflexivity.
        -- exact Hin.
        -- apply lists_covers; [apply spelled_scalar|exact HL].
        -- intros m' I2 C2. apply lists_covers in C2; [|apply spelled_scalar]. rewrite <- !first_field_0.
           symmetry. eapply A1; [exact Hin|exact I2|exact HL|exact C2].
  - destruct (C65_emoji tb td2 t2 f2 ms2 E2 U2) as (o & _ & Hu & K). rewrite (Hu _ H2). apply K. clear o Hu K.
    intros first last fields c Hin Hc Hn. eexists. split; [apply FI; reflexivity|].
    rewrite N.land_lor_distr_l, (proj2 (incb_by_small _ _)), N.lor_0_r.
    assert (pictographic_by ms2 (spelled c) = true) as ->; [|reflexivity].
    unfold pictographic_by. apply existsb_exists. eexists. split; [exact Hin|]. apply andb_true_iff. split.
    + apply lists_covers; [apply spelled_scalar|]. cbn [lists]. eauto.
    + cbn [field]. rewrite <- hd_nth. exact Hn.
  - destruct (C65_incb tb td3 t3 f3 ms3 E3 U3) as (o & _ & Hu & K). rewrite (Hu _ H3), K. clear o Hu K. unfold incb_asks. split.
    + intros A.
      assert (forall m v d, In m ms3 -> incb_line m v -> lists m d -> incb_by ms3 d = incb_named v) as Q.
      { intros m v d Hin (first & last & name & more & -> & Hn) HL. cbn [lists] in HL. destruct HL as (c & Hc & <-).
        destruct (A first last name v more c Hin Hc Hn) as (p & F & G). rewrite (FC _ _ F) in G. exact G. }
      intros m m' v v' d I1 I2 V1 V2 L1 L2. rewrite <- (Q m v d), <- (Q m' v' d) by assumption. reflexivity.
    + intros A first last name v more c Hin Hc Hn. eexists. split; [apply FI; reflexivity|].
      rewrite N.land_lor_distr_l, (proj1 (incb_by_small _ _)).
      assert ((N.land (if pictographic_by ms2 (spelled c) then 4 else gcb_by ms1 (spelled c)) 0xF0 = 0)%N) as ->
        by (destruct (pictographic_by ms2 (spelled c)); [reflexivity|apply gcb_by_small]).
      rewrite N.lor_0_l. unfold incb_by. apply fold_lor_same.
      * intros K. apply map_eq_nil in K.
        assert (In (Data first last (name :: v :: more)) (@nil meaning)) as []. rewrite <- K. apply filter_In. split; [exact Hin|].
        cbn [field has_field nth List.length Nat.ltb Nat.leb]. rewrite Hn, !andb_true_r. apply lists_covers; [apply spelled_scalar|]. cbn [lists]. eauto.
      * intros w Hw. apply in_map_iff in Hw. destruct Hw as (m' & <- & I2). apply filter_In in I2. destruct I2 as [I2 C2].
        rewrite !andb_true_iff in C2. destruct C2 as [[C2 N2] F2]. apply lists_covers in C2; [|apply spelled_scalar].
        destruct m' as [|first' last' [|name' [|v' more']]|f]; try discriminate F2. cbn [field nth] in N2 |- *.
        apply (A (Data first' last' (name' :: v' :: more')) (Data first last (name :: v :: more)) v' v (spelled c)); try assumption.
        -- do 4 eexists. split; [reflexivity|exact N2].
        -- do 4 eexists. split; [reflexivity|exact Hn].
        -- cbn [lists]. eauto.
Qed.

(* The hypotheses are met: tests that pass, and tests that fail. *)
Example C65_readers : exists out1 out2 out3,
  TestGraphemeBreakProperty committed bytes_reader (file_bytes GraphemeBreakProperty_txt) out1 /\
  TestEmojiExtendedPictographic committed bytes_reader (file_bytes emoji_data_txt) out2 /\
  TestIndicConjunctBreakProperty committed bytes_reader (file_bytes DerivedCoreProperties_txt) out3 /\
  out1 = Ret true /\ out2 = Ret true /\ out3 = Ret true.
Proof.
  destruct committed_checks as (A1 & A2 & A3).
  destruct (gcb_checked committed A1) as (ms1 & U1 & _).
  destruct (emoji_checked committed A2) as (ms2 & U2 & _).
  destruct (incb_checked committed A3) as (ms3 & U3 & _).
  destruct (C65_gcb committed bytes_reader _ _ _ (bytes_reader_delivers _ 100) U1) as (o1 & H1 & _).
  destruct (C65_emoji committed bytes_reader _ _ _ (bytes_reader_delivers _ 100) U2) as (o2 & H2 & _).
  destruct (C65_incb committed bytes_reader _ _ _ (bytes_reader_delivers _ 100) U3) as (o3 & H3 & _).
  exists o1, o2, o3. split; [exact H1|]. split; [exact H2|]. split; [exact H3|].
  destruct (C65_committed _ bytes_reader (file_bytes GraphemeBreakProperty_txt) o1) as (K1 & _ & _).
  destruct (C65_committed _ bytes_reader (file_bytes emoji_data_txt) o2) as (_ & K2 & _).
  destruct (C65_committed _ bytes_reader (file_bytes DerivedCoreProperties_txt) o3) as (_ & _ & K3).
  split; [apply K1|split; [apply K2|apply K3]]; first [apply bytes_reader_delivers|assumption].
Qed.

Example C65_fails : let file := list_byte_of_string "0061; Prepend
" in
  exists out, TestGraphemeBreakProperty committed bytes_reader file out /\ out <> Ret true.
Proof.
  intros file. pose (ms := [Data 0x61 0x61 [list_byte_of_string "Prepend"]]).
  assert (usable file ms) as U.
  { exists [list_byte_of_string "0061; Prepend"]. split; [|split; [|split]].
    - apply (lines_more (list_byte_of_string "0061; Prepend")); [|constructor].
      intros H. cbn in H. repeat (destruct H as [H|H]; [discriminate H|]). exact H.
    - constructor; [|constructor]. apply Nat.ltb_lt. vm_compute. reflexivity.
    - constructor; [apply meaning_of_iff; reflexivity|constructor].
    - constructor; [cbn; lia|constructor]. }
  destruct (C65_gcb committed bytes_reader file file ms (bytes_reader_delivers _ 100) U) as (out & H & _ & K).
  exists out. split; [exact H|]. intros E. apply (proj1 K) in E. unfold gcb_asks in E.
  destruct (E 0x61%N 0x61%N [list_byte_of_string "Prepend"] 0x61%N) as (p & F & G); [left; reflexivity|lia|].
  assert (found_in committed (encoding 0x61) 0%N) as F0 by (vm_compute; reflexivity).
  unfold found_in in F, F0. rewrite F0 in F. assert (p = 0%N) as -> by congruence. vm_compute in G. discriminate G.
Qed.

Definition all_theorems := (@C65_gcb, @C65_emoji, @C65_incb, C65_committed, C65_blind, @C65_regenerated, C65_readers, C65_fails).
Print Assumptions all_theorems.
