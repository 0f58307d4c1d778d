(* Properties C30 and C44: from the data files to the tables. *)
From Coq Require Import List NArith ZArith Arith Bool Lia Strings.Byte Strings.String.
From Coq Require Import ZifyBool ZifyNat ZifyN.
From Verif Require Import Spec.Classes Spec.Utf8 Spec.PropNames Spec.UcdRanges Spec.Assignments Spec.Readers Spec.UcdFile Spec.Generation.
From Verif Require Import Model.Base Model.CharProps Model.Lookup Model.Bufio Model.PropNames Model.GenTable.
From Verif Require Import Model.UcdParse Model.BuildTree.
From Verif Require Import Data.TableRaw Data.UcdGraphemeBreakProperty Data.UcdEmojiData Data.UcdDerivedCoreProperties.
From Verif Require Import Proofs.Basics Proofs.BufioFacts Proofs.ParseFacts Proofs.UcdFacts Proofs.GenRaw Proofs.GenCompact Proofs.GenFacts.
From Verif Require Import Proofs.BuildFacts Proofs.FileCheck Properties.Bufio Properties.Parsing Properties.Generator.
Import ListNotations.
Notation length := List.length.
Ltac Zify.zify_post_hook ::= Z.div_mod_to_equations.

(* ---- C44: any data files *)

(* Whatever the schedules of the three readers: if the files are usable - all
   lines short, no malformed data line, code points only - the run has exactly
   one outcome, and it is that of the assignments the lines ask for. *)
Theorem C44_end_to_end {R1 R2 R3} (rd1 : reader R1) r1 (rd2 : reader R2) r2 (rd3 : reader R3) r3 f1 f2 f3 ms1 ms2 ms3 :
  delivers rd1 100 r1 f1 EOF -> delivers rd2 100 r2 f2 EOF -> delivers rd3 100 r3 f3 EOF ->
  usable f1 ms1 -> usable f2 ms2 -> usable f3 ms3 ->
  exists out, BuildRawPropertyTree rd1 r1 rd2 r2 rd3 r3 out /\
    (forall out', BuildRawPropertyTree rd1 r1 rd2 r2 rd3 r3 out' -> out' = out) /\
    main_tables out = (let! tb := generate (assignments ms1 ms2 ms3) in Ret (inl tb)).
Proof.
  intros D1 D2 D3 U1 U2 U3. eexists. split; [eapply build_files; eassumption|]. split.
  - intros out' H. eapply build_fun; [exact H|]. eapply build_files; eassumption.
  - unfold main_tables, generate. destruct (build_tree (assignments ms1 ms2 ms3)) as [tree|]; cbn [bind]; [|reflexivity].
    destruct (emit tree); reflexivity.
Qed.

(* So the tables, if any are written, hold for every character what the lines
   assign to it. *)
Theorem C44_lookup {R1 R2 R3} (rd1 : reader R1) r1 (rd2 : reader R2) r2 (rd3 : reader R3) r3 f1 f2 f3 ms1 ms2 ms3 out tb :
  delivers rd1 100 r1 f1 EOF -> delivers rd2 100 r2 f2 EOF -> delivers rd3 100 r3 f3 EOF ->
  usable f1 ms1 -> usable f2 ms2 -> usable f3 ms3 ->
  BuildRawPropertyTree rd1 r1 rd2 r2 rd3 r3 out -> main_tables out = Ret (inl tb) ->
  forall c rest, scalar c ->
    lookup_first_char tb (utf8_encode c ++ rest) = Ret (value (assignments ms1 ms2 ms3) c, length (utf8_encode c)).
Proof.
  intros D1 D2 D3 U1 U2 U3 B E. 
  destruct (C44_end_to_end rd1 r1 rd2 r2 rd3 r3 f1 f2 f3 ms1 ms2 ms3 D1 D2 D3 U1 U2 U3) as (out' & _ & H1 & H2).
  rewrite (H1 out B) in E. rewrite H2 in E.
  destruct (generate (assignments ms1 ms2 ms3)) as [tb'|] eqn:G; cbn [bind] in E; [|discriminate].
  assert (tb' = tb) as -> by congruence. intros c rest Hc. apply (C28_generated _ _ G). exact Hc.
Qed.

(* What the lines assign, said directly.  A line covers c if c is in its
   range; U+FFFD is also covered by lines about surrogates (and would be by
   numbers beyond Unicode), which have no encoding of their own. *)
Definition covers (m : meaning) (c : N) : bool :=
  match m with
  | Data first last _ =>
      ((first <=? c) && (c <=? last) ||
       (c =? 0xFFFD) && (first <=? last) && ((first <=? 0xDFFF) && (0xD800 <=? last) || (0x10FFFF <? last)))%N
  | _ => false
  end.
Definition field (i : nat) (m : meaning) : list byte :=
  match m with Data _ _ fields => nth i fields [] | _ => [] end.
Definition has_field (i : nat) (m : meaning) : bool :=
  match m with Data _ _ fields => Nat.ltb i (length fields) | _ => false end.
(* the last of the lines that cover c decides *)
Definition gcb_by (ms : list meaning) (c : N) : N :=
  match rev (filter (fun m => covers m c) ms) with
  | m :: _ => gcb_named (field 0 m)
  | [] => 0
  end.
Definition pictographic_by (ms : list meaning) (c : N) : bool :=
  existsb (fun m => covers m c && is_name (field 0 m) "Extended_Pictographic") ms.
Definition incb_by (ms : list meaning) (c : N) : N :=
  fold_left N.lor
    (map (fun m => incb_named (field 1 m))
      (filter (fun m => covers m c && is_name (field 0 m) "InCB" && has_field 1 m) ms)) 0%N.

Lemma in_code_points first last z : In z (code_points first last) <-> (Z.of_N first <= z <= Z.of_N last)%Z.
Proof.
  unfold code_points. rewrite in_map_iff. split.
  - intros (i & <- & Hi). apply in_seq in Hi. lia.
  - intros H. exists (Z.to_nat (z - Z.of_N first)). split; [lia|]. apply in_seq. lia.
Qed.

Lemma fold_set c v ps old :
  fold_left (assign c) (map (fun r => OpSet r v) ps) old = if existsb (fun z => target z =? c)%N ps then v else old.
Proof.
  revert old. induction ps as [|z ps IH]; intros old; cbn [map fold_left existsb]; [reflexivity|].
  rewrite IH. cbn [assign]. destruct (N.eqb_spec (target z) c) as [E|E]; [|reflexivity].
  cbn [orb]. destruct (existsb _ ps); reflexivity.
Qed.

Lemma fold_or c v ps old :
  fold_left (assign c) (map (fun r => OpOr r v) ps) old = if existsb (fun z => target z =? c)%N ps then N.lor old v else old.
Proof.
  revert old. induction ps as [|z ps IH]; intros old; cbn [map fold_left existsb]; [reflexivity|].
  rewrite IH. cbn [assign]. destruct (N.eqb_spec (target z) c) as [E|E]; [|reflexivity].
  cbn [orb]. destruct (existsb _ ps); [|reflexivity]. rewrite <- N.lor_assoc, N.lor_diag. reflexivity.
Qed.

Lemma covered first last fields c : scalar c ->
  existsb (fun z => target z =? c)%N (code_points first last) = covers (Data first last fields) c.
Proof.
  intros S. cbn [covers]. apply eq_true_iff_eq.
  rewrite existsb_exists, orb_true_iff, !andb_true_iff, orb_true_iff, andb_true_iff, !N.leb_le, N.ltb_lt, N.eqb_eq. split.
  - intros (z & Hz & E). apply N.eqb_eq in E. apply in_code_points in Hz. unfold target in E.
    destruct (Z.leb_spec 0 z); cbn [andb] in E; [|lia]. destruct (scalarb (Z.to_N z)) eqn:Sz; [lia|].
    right. assert (~ scalar (Z.to_N z)) as Nz by (rewrite <- scalarb_spec; congruence).
    unfold scalar in Nz. lia.
  - intros [H|[[-> H] K]].
    + exists (Z.of_N c). split; [apply in_code_points; lia|]. apply N.eqb_eq. unfold target.
      rewrite N2Z.id. assert (scalarb c = true) as -> by (apply scalarb_spec; exact S).
      destruct (Z.leb_spec 0 (Z.of_N c)); [reflexivity|lia].
    + assert (exists z, (Z.of_N first <= z <= Z.of_N last)%Z /\ (0 <= z)%Z /\ ~ scalar (Z.to_N z)) as (z & Hz & H0 & Nz).
      { destruct K as [[K1 K2]|K].
        - exists (Z.max (Z.of_N first) 0xD800). unfold scalar. lia.
        - exists (Z.of_N last). unfold scalar. lia. }
      exists z. split; [apply in_code_points; exact Hz|]. apply N.eqb_eq. unfold target.
      destruct (scalarb (Z.to_N z)) eqn:Sz; [apply scalarb_spec in Sz; contradiction|]. rewrite andb_false_r. reflexivity.
Qed.

Lemma hd_nth {A} (l : list A) d : hd d l = nth 0 l d.
Proof. destruct l; reflexivity. Qed.

Lemma gcb_step ms c : forall old, scalar c ->
  fold_left (assign c) (flat_map gcb_assignments ms) old =
  match rev (filter (fun m => covers m c) ms) with m :: _ => gcb_named (field 0 m) | [] => old end.
Proof.
  induction ms as [|m ms IH]; intros old S; [reflexivity|]. cbn [flat_map filter]. rewrite fold_left_app, IH by assumption.
  destruct m as [|first last fields|]; cbn [gcb_assignments]; try reflexivity.
  rewrite fold_set, (covered first last fields c) by exact S.
  destruct (covers (Data first last fields) c); [|reflexivity]. cbn [rev].
  destruct (rev (filter (fun m => covers m c) ms)) as [|m' ms']; cbn [app]; [|reflexivity].
  cbn [field]. rewrite hd_nth. reflexivity.
Qed.

Lemma emoji_step ms c : forall old, scalar c ->
  fold_left (assign c) (flat_map emoji_assignments ms) old = if pictographic_by ms c then 4%N else old.
Proof.
  unfold pictographic_by. induction ms as [|m ms IH]; intros old S; [reflexivity|].
  cbn [flat_map existsb]. rewrite fold_left_app, IH by assumption.
  destruct m as [|first last fields|]; cbn [emoji_assignments andb orb fold_left]; try reflexivity.
  cbn [field]. rewrite hd_nth. unfold pictographic_number.
  destruct (is_name (nth 0 fields []) "Extended_Pictographic").
  - rewrite fold_set, (covered first last fields c) by exact S.
    rewrite andb_true_r.
    destruct (covers (Data first last fields) c); cbn [orb]; [|reflexivity]. destruct (existsb _ ms); reflexivity.
  - rewrite andb_false_r. reflexivity.
Qed.

Lemma lor_fold vs : forall a, fold_left N.lor vs a = N.lor a (fold_left N.lor vs 0%N).
Proof.
  induction vs as [|v vs IH]; intros a; cbn [fold_left]; [rewrite N.lor_0_r; reflexivity|].
  rewrite IH, (IH (N.lor 0 v)), N.lor_0_l, N.lor_assoc. reflexivity.
Qed.

Lemma incb_step ms c : forall old, scalar c ->
  fold_left (assign c) (flat_map incb_assignments ms) old = N.lor old (incb_by ms c).
Proof.
  unfold incb_by. induction ms as [|m ms IH]; intros old S; [cbn; rewrite N.lor_0_r; reflexivity|].
  cbn [flat_map filter]. rewrite fold_left_app, IH by assumption.
  destruct m as [|first last fields|]; cbn [incb_assignments andb fold_left]; try reflexivity.
  cbn [field has_field]. destruct fields as [|f0 [|f1 fs]]; cbn [nth List.length Nat.ltb Nat.leb];
    rewrite ?andb_false_r; try reflexivity.
  destruct (is_name f0 "InCB").
  - rewrite !andb_true_r.
    rewrite fold_or, (covered first last (f0 :: f1 :: fs) c) by exact S.
    destruct (covers (Data first last (f0 :: f1 :: fs)) c); [|reflexivity]. cbn [map fold_left field nth].
    rewrite N.lor_0_l, (lor_fold _ (incb_named f1)), N.lor_assoc. reflexivity.
  - rewrite andb_false_r. reflexivity.
Qed.

Theorem C44_value ms1 ms2 ms3 c : scalar c ->
  value (assignments ms1 ms2 ms3) c =
  N.lor (if pictographic_by ms2 c then 4%N else gcb_by ms1 c) (incb_by ms3 c).
Proof.
  intros S. unfold value, assignments. rewrite !fold_left_app, gcb_step, emoji_step, incb_step by assumption. reflexivity.
Qed.

(* So a line about surrogates, as in the files of earlier Unicode versions, would
   make the replacement character a control. *)
Example C44_surrogates :
  value (assignments [Data 0xD800 0xDFFF [list_byte_of_string "Control"]] [] []) 0xFFFD = 2%N /\
  value (assignments [Data 0xD7B0 0xD7C6 [list_byte_of_string "V"]] [] []) 0xFFFD = 0%N.
Proof. rewrite !C44_value by (unfold scalar; lia). split; reflexivity. Qed.

(* A malformed data line, an overlong line or a read error in any of the files:
   no tree is returned, whatever the other files hold. *)
Definition broken {R} (rd : reader R) (r : R) : Prop :=
  exists file e lines ms, delivers rd 100 r file e /\
    ((file_lines file lines /\ Forall (fun l => length l < 64 * 1024) lines /\
      Forall2 line_means lines ms /\ ((exists f, In (Malformed f) ms) \/ e <> EOF)) \/
     (exists long rest, file_lines file (lines ++ long :: rest) /\ oversize file long rest /\
      Forall (fun l => length l < 64 * 1024) lines /\ Forall2 line_means lines ms)).

Lemma answers_not_eof ms outs : Forall2 answers ms outs -> ~ In (inr EOF) outs.
Proof.
  induction 1 as [|m o ms outs A F IH]; [intros []|]. intros [K|K]; [|tauto]. subst o.
  destruct m as [| |f]; cbn [answers] in A; [exact A|destruct A as (e & A & _); discriminate A|destruct f; discriminate A].
Qed.

Lemma broken_loop {R} (rd : reader R) r body : broken rd r -> forall t t', ~ read_loop rd body r newLineScan t (Ret (inl t')).
Proof.
  intros (file & e & lines & ms & Hd & [(Hf & HF & Hm & K)|(long & rest & Hf & Hl & HF & Hm)]) t t'.
  - destruct (C31_file rd r file e lines ms Hd Hf HF Hm) as (outs & Ha & H).
    pose proof (answers_not_eof _ _ Ha) as Hn. destruct K as [[f K]|K].
    + assert (exists err, In (inr err) outs) as (err & Herr).
      { assert (In (Malformed f) (filter (fun m => negb (ignored m)) ms)) as K' by (apply filter_In; split; [exact K|reflexivity]).
        clear - Ha K'. induction Ha as [|m o ms' outs A F IH]; [contradiction|]. destruct K' as [->|K'].
        - cbn [answers] in A. rewrite A. eexists; left; reflexivity.
        - destruct (IH K') as (err & H). exists err. right. exact H. }
      apply in_split in Herr. destruct Herr as (pre & post & ->).
      destruct (H 0) as (r' & s' & C). cbn [repeat] in C. rewrite app_nil_r in C.
      change (inr err :: post) with ([inr err] ++ post) in C. rewrite app_assoc in C.
      apply calls_split in C. destruct C as (r1 & s1 & C). eapply loop_error; [exact C|].
      intros Q. apply Hn. apply in_app_or in Q. apply in_or_app. destruct Q as [Q|[Q|[]]]; [left; exact Q|right; left; exact Q].
    + destruct (H 1) as (r' & s' & C). eapply loop_error; [exact C|].
      intros Q. apply in_app_or in Q. destruct Q as [Q|[Q|[]]]; [tauto|congruence].
  - destruct (C31_meaning_exists (firstn (64 * 1024) long)) as (m & Hp & _).
    destruct (C31_too_long rd r file e lines long rest ms m Hd Hf Hl HF Hm Hp) as (outs & part & Ha & _ & K).
    destruct (K 0) as (r' & s' & C).
    change (inr ErrTooLong :: part ++ repeat (inr ErrTooLong) 0) with ([@inr Entry goerror ErrTooLong] ++ (part ++ [])) in C.
    rewrite app_assoc in C. apply calls_split in C. destruct C as (r2 & s2 & C).
    eapply loop_error; [exact C|]. intros Q. apply in_app_or in Q.
    destruct Q as [Q|[Q|[]]]; [eapply answers_not_eof; eassumption|discriminate Q].
Qed.

Theorem C44_broken {R1 R2 R3} (rd1 : reader R1) r1 (rd2 : reader R2) r2 (rd3 : reader R3) r3 :
  broken rd1 r1 \/ broken rd2 r2 \/ broken rd3 r3 ->
  forall tree, ~ BuildRawPropertyTree rd1 r1 rd2 r2 rd3 r3 (Ret (inl tree)).
Proof.
  intros H tree B.
  remember (Ret (inl tree)) as out eqn:E.
  destruct B as [| | | | | |t1 t2 t3 L1 L2 L3]; try discriminate E.
  destruct H as [H|[H|H]]; eapply broken_loop; eassumption.
Qed.

(* ---- C30: the files of the repository *)

(* What the lines of the files in the repository say is exactly what the
   specification of the property values (Spec/UcdRanges.v) lists. *)
Theorem C30_grapheme_break_property : exists ms, usable (file_bytes GraphemeBreakProperty_txt) ms /\
  filter is_data ms = map (fun '(a, b, g) => Data a b [list_byte_of_string (gcb_name g)]) gcb_ranges.
Proof. apply selects_ok, gbp_check. Qed.

Theorem C30_emoji_data : exists ms, usable (file_bytes emoji_data_txt) ms /\
  filter (about "Extended_Pictographic") ms =
    map (fun '(a, b, _) => Data a b [list_byte_of_string "Extended_Pictographic"]) extpict_ranges.
Proof. apply selects_ok, emoji_check. Qed.

Theorem C30_derived_core_properties : exists ms, usable (file_bytes DerivedCoreProperties_txt) ms /\
  filter (about "InCB") ms =
    map (fun '(a, b, i) => Data a b [list_byte_of_string "InCB"; list_byte_of_string (incb_name i)]) incb_ranges.
Proof. apply selects_ok, dcp_check. Qed.

Definition holds (a : arr) (vs : list N) : Prop :=
  alen a = N.of_nat (length vs) /\ forall i, aget a (N.of_nat i) = match nth_error vs i with Some v => Ret v | None => Panic IndexOutOfRange end.

Lemma key_eqb_true a : forall b, key_eqb a b = true -> a = b.
Proof.
  induction a as [|x a IH]; intros [|y b] H; cbn [key_eqb] in H; try discriminate; [reflexivity|].
  destruct (N.eqb_spec x y) as [->|]; [|discriminate]. f_equal. auto.
Qed.

Lemma contents_ok a vs : contents_eqb a vs = true -> holds a vs.
Proof.
  unfold contents_eqb. rewrite aread_ok by lia. intros H. apply key_eqb_true in H. subst vs. unfold holds.
  rewrite map_length, List.seq_length. split; [lia|]. intros i. unfold aget.
  destruct (N.ltb_spec (N.of_nat i) (alen a)) as [K|K].
  - rewrite nth_error_map. rewrite (nth_error_nth' _ 0) by (rewrite List.seq_length; lia). cbn [option_map].
    rewrite seq_nth by lia. reflexivity.
  - destruct (nth_error _ i) eqn:E; [|reflexivity]. assert (i < N.to_nat (alen a)) as Q.
    { rewrite <- (List.seq_length (N.to_nat (alen a)) 0), <- (map_length (fun j => aget_raw a (0 + N.of_nat j))).
      apply nth_error_Some. rewrite E. discriminate. }
    lia.
Qed.

Lemma emoji_all ms expected : filter (about "Extended_Pictographic") ms = expected ->
  flat_map emoji_assignments ms = flat_map emoji_assignments expected.
Proof.
  intros <-. symmetry. apply filter_flat_map. intros [|first last fields|] H; cbn [about] in H; try reflexivity.
  cbn [emoji_assignments]. rewrite is_name_eqb. unfold str. rewrite H. reflexivity.
Qed.

Lemma incb_all ms expected : filter (about "InCB") ms = expected ->
  flat_map incb_assignments ms = flat_map incb_assignments expected.
Proof.
  intros <-. symmetry. apply filter_flat_map. intros [|first last [|f0 [|f1 fs]]|] H; cbn [about] in H; try reflexivity.
  cbn [incb_assignments]. rewrite is_name_eqb. unfold str. cbn [hd] in H. rewrite H. reflexivity.
Qed.

Lemma gcb_all ms expected : filter is_data ms = expected ->
  flat_map gcb_assignments ms = flat_map gcb_assignments expected.
Proof. intros <-. symmetry. apply filter_flat_map. intros [|first last fields|] H; try reflexivity. discriminate H. Qed.

Lemma repository_files : exists ms1 ms2 ms3, usable (file_bytes GraphemeBreakProperty_txt) ms1 /\
  usable (file_bytes emoji_data_txt) ms2 /\ usable (file_bytes DerivedCoreProperties_txt) ms3 /\
  assignments ms1 ms2 ms3 = all_assignments.
Proof.
  destruct C30_grapheme_break_property as (ms1 & U1 & E1).
  destruct C30_emoji_data as (ms2 & U2 & E2). destruct C30_derived_core_properties as (ms3 & U3 & E3).
  exists ms1, ms2, ms3. repeat (split; [assumption|]).
  unfold assignments, all_assignments.
  rewrite (gcb_all ms1 _ E1), (emoji_all ms2 _ E2), (incb_all ms3 _ E3). reflexivity.
Qed.

(* Running the generator on them - with whatever schedule the files are read -
   succeeds, has only this outcome, and yields exactly the committed arrays. *)
Theorem C30_reproducible {R1 R2 R3} (rd1 : reader R1) r1 (rd2 : reader R2) r2 (rd3 : reader R3) r3 :
  delivers rd1 100 r1 (file_bytes GraphemeBreakProperty_txt) EOF ->
  delivers rd2 100 r2 (file_bytes emoji_data_txt) EOF ->
  delivers rd3 100 r3 (file_bytes DerivedCoreProperties_txt) EOF ->
  exists out tb, BuildRawPropertyTree rd1 r1 rd2 r2 rd3 r3 out /\
    (forall out', BuildRawPropertyTree rd1 r1 rd2 r2 rd3 r3 out' -> out' = out) /\
    main_tables out = Ret (inl tb) /\
    holds (t_indices tb) (List.concat lookupIndices_blocks) /\
    holds (t_props tb) (List.concat lookupProps_blocks).
Proof.
  intros D1 D2 D3. destruct repository_files as (ms1 & ms2 & ms3 & U1 & U2 & U3 & E).
  destruct (C44_end_to_end rd1 r1 rd2 r2 rd3 r3 _ _ _ ms1 ms2 ms3 D1 D2 D3 U1 U2 U3) as (out & B & BU & M).
  rewrite E in M. pose proof generate_check as G.
  destruct (generate all_assignments) as [tb|p]; [|discriminate G]. cbn [same_tables] in G.
  apply andb_true_iff in G. destruct G as [G1 G2].
  exists out, tb. split; [exact B|]. split; [exact BU|]. split; [exact M|].
  split; apply contents_ok; assumption.
Qed.

(* Looking characters up in them is looking them up in the committed tables. *)
Lemma holds_get a vs : holds a vs -> forall i, aget a i = aget (arr_of_list vs) i.
Proof.
  intros [HL H] i. rewrite aget_of_list. specialize (H (N.to_nat i)). rewrite N2Nat.id in H. rewrite H. reflexivity.
Qed.

Theorem C30_same_lookup tb : holds (t_indices tb) (List.concat lookupIndices_blocks) ->
  holds (t_props tb) (List.concat lookupProps_blocks) ->
  forall p, lookup_first_char tb p = LookupFirstChar p.
Proof.
  intros HI HP p. unfold LookupFirstChar, lookup_first_char. destruct p as [|a p]; [reflexivity|].
  destruct (seq_length a) as [n|]; [|reflexivity]. destruct (len_lt (a :: p) n); [reflexivity|].
  destruct (bad_continuation (a :: p) 1 (n - 1)) as [[|]|]; cbn [bind]; try reflexivity.
  assert (walk tb (a :: p) n = walk committed (a :: p) n) as ->; [|reflexivity].
  pose proof (holds_get _ _ HI) as GI. pose proof (holds_get _ _ HP) as GP.
  change (arr_of_list (List.concat lookupIndices_blocks)) with (t_indices committed) in GI.
  change (arr_of_list (List.concat lookupProps_blocks)) with (t_props committed) in GP.
  clear HI HP. destruct tb as [I P]. cbn [t_indices t_props] in GI, GP. generalize dependent committed. intros cm GI GP.
  unfold walk. cbn [t_indices t_props].
  destruct (index (a :: p) 0); [cbn [bind]|reflexivity].
  destruct n as [|[|[|[|[|n]]]]]; try reflexivity; repeat (rewrite ?GI, ?GP; match goal with
    | |- context [bind ?x _] => destruct x; cbn [bind]; try reflexivity
    end); rewrite ?GP; reflexivity.
Qed.

(* readers that meet the hypotheses: bytes.Reader *)
Example C30_readers :
  delivers bytes_reader 100 (file_bytes GraphemeBreakProperty_txt) (file_bytes GraphemeBreakProperty_txt) EOF /\
  delivers bytes_reader 100 (file_bytes emoji_data_txt) (file_bytes emoji_data_txt) EOF /\
  delivers bytes_reader 100 (file_bytes DerivedCoreProperties_txt) (file_bytes DerivedCoreProperties_txt) EOF.
Proof. split; [|split]; apply bytes_reader_delivers. Qed.

(* a broken file: a malformed line *)
Example C44_broken_example : broken bytes_reader (list_byte_of_string "00AD; Control
xyz ; Control
").
Proof.
  exists (list_byte_of_string "00AD; Control
xyz ; Control
"), EOF, [list_byte_of_string "00AD; Control"; list_byte_of_string "xyz ; Control"],
    (map meaning_of [list_byte_of_string "00AD; Control"; list_byte_of_string "xyz ; Control"]).
  split; [apply bytes_reader_delivers|]. left. split; [|split; [|split]].
  - assert (forall l, existsb (Byte.eqb x0a) l = false -> ~ In x0a l) as K.
    { intros l H HI. enough (existsb (Byte.eqb x0a) l = true) by congruence. apply existsb_exists. exists x0a. auto. }
    apply (lines_more (list_byte_of_string "00AD; Control")); [apply K; reflexivity|].
    apply (lines_more (list_byte_of_string "xyz ; Control")); [apply K; reflexivity|]. constructor.
  - apply fits_short. reflexivity.
  - constructor; [apply meaning_of_iff; reflexivity|]. constructor; [apply meaning_of_iff; reflexivity|constructor].
  - left. exists (BadStart (list_byte_of_string "xyz") NotHex). right. left. vm_compute. reflexivity.
Qed.

(* small files from which tables are generated; the last line of the second
   file and the range of the third show what is ignored *)
Definition small_gbp : string := "000D; CR # x
00AD ;Control
".
Definition small_emoji : string := "1F600..1F601; Extended_Pictographic
1F600; Emoji
".
Definition small_dcp : string := "0041..005A; Alphabetic
0915..0916; InCB; Consonant
".
Example C44_example : exists ms1 ms2 ms3 tb,
  usable (file_bytes [small_gbp]) ms1 /\ usable (file_bytes [small_emoji]) ms2 /\ usable (file_bytes [small_dcp]) ms3 /\
  generate (assignments ms1 ms2 ms3) = Ret tb /\
  map (value (assignments ms1 ms2 ms3)) [13; 0xAD; 0x1F600; 0x1F601; 0x915; 0x917; 0x41]%N = [1; 2; 4; 4; 16; 0; 0]%N.
Proof.
  assert (forall p ms, file_select (fun _ => true) [p] = Some ms -> usable (file_bytes [p]) ms) as K.
  { intros p ms H. apply file_select_ok in H. destruct H as (ms' & U & E).
    assert (ms' = ms) as <-; [|exact U]. rewrite <- E. clear. induction ms' as [|m ms' IH]; [reflexivity|].
    cbn [filter]. rewrite <- IH. reflexivity. }
  destruct (file_select (fun _ => true) [small_gbp]) as [ms1|] eqn:E1; [|vm_compute in E1; discriminate E1].
  destruct (file_select (fun _ => true) [small_emoji]) as [ms2|] eqn:E2; [|vm_compute in E2; discriminate E2].
  destruct (file_select (fun _ => true) [small_dcp]) as [ms3|] eqn:E3; [|vm_compute in E3; discriminate E3].
  pose proof (K _ _ E1) as U1. pose proof (K _ _ E2) as U2. pose proof (K _ _ E3) as U3.
  vm_compute in E1, E2, E3. injection E1 as E1. injection E2 as E2. injection E3 as E3.
  destruct (generate (assignments ms1 ms2 ms3)) as [tb|p] eqn:G.
  - exists ms1, ms2, ms3, tb. repeat (split; [assumption|]).
    rewrite <- E1, <- E2, <- E3. vm_compute. reflexivity.
  - exfalso. rewrite <- E1, <- E2, <- E3 in G.
    match type of G with generate ?o = _ =>
      assert ((if generate o then true else false) = true) as Q by (vm_compute; reflexivity) end.
    rewrite G in Q. discriminate Q.
Qed.

Definition all_theorems :=
  (@C44_end_to_end, @C44_lookup, C44_value, C44_surrogates, @C44_broken, C30_grapheme_break_property, C30_emoji_data,
   C30_derived_core_properties, @C30_reproducible, C30_same_lookup, C30_readers, C44_broken_example, C44_example).
Print Assumptions all_theorems.
