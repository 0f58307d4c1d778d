(* Property C78: the library compiled with the tables the generator has written. *)
From Coq Require Import List NArith ZArith Arith Bool Lia Strings.Byte Strings.String.
From Coq Require Import ZifyBool ZifyNat ZifyN.
From Verif Require Import Spec.Utf8 Spec.Assignments Spec.Readers Spec.UcdFile Spec.Generation Spec.ErrorValues Spec.AnyFiles Spec.GoSource.
From Verif Require Import Model.Base Model.CharProps Model.Lookup Model.Bufio Model.GenTable Model.UcdParse Model.BuildTree Model.Emit
  Model.WordInt Model.GoSyntax Model.GoSemantics Model.GoLibrary Model.GoRegenerated.
From Verif Require Import Data.TableRaw Data.TableRawGo Data.GoSources.
From Verif Require Import Data.UcdGraphemeBreakProperty Data.UcdEmojiData Data.UcdDerivedCoreProperties.
From Verif Require Import Proofs.Basics Proofs.FileCheck Proofs.EmitFacts Proofs.EmitParse Proofs.GoFacts Proofs.GoSymbolic Proofs.GoLookup.
From Verif Require Import Properties.Parsing Properties.Generator Properties.Reproduce Properties.Emission Properties.AnyFiles
  Properties.WordInt Properties.Source.
Import ListNotations.
Local Open Scope string_scope.
Local Open Scope list_scope.
Notation len := List.length.

Notation file_of indices props :=
  (File "charprops" [] [DTable "lookupIndices" (TName "uint8") indices; DTable "lookupProps" (TName "CharProperties") props]).

(* Whatever tree the generator was given: the text it writes is a Go file that declares
   exactly the two arrays of the tree, and nothing else. *)
Theorem C78_parses : forall tree text, emit_text tree = Ret text ->
  exists indices props, holds (Indices tree) indices /\ holds (Properties tree) props /\
    parse (string_of_list_byte text) = Some (file_of indices props).
Proof.
  intros tree text E. destruct (every_array (Indices tree)) as (is & HI), (every_array (Properties tree)) as (ps & HP).
  exists is, ps. split; [exact HI|]. split; [exact HP|]. unfold emit_text in E.
  rewrite (holds_read _ _ HI), (holds_read _ _ HP) in E. cbn [bind] in E. exact (emitted_parses is ps text E).
Qed.

Lemma parse_with raw is ps : parse raw = Some (tables_file is ps) ->
  parse_all (sources_with raw) = Some (library_with is ps).
Proof.
  intros E. unfold sources_with. cbn [parse_all]. rewrite E.
  assert (parse grapheme_clusters_go = scan_file) as -> by (vm_cast_no_check (eq_refl scan_file)).
  assert (parse state_go = state_file) as -> by (vm_cast_no_check (eq_refl state_file)).
  assert (parse property_table_go = lookup_file) as -> by (vm_cast_no_check (eq_refl lookup_file)).
  assert (parse properties_go = properties_file) as -> by (vm_cast_no_check (eq_refl properties_file)).
  assert (parse unicode17_go = unicode17_file) as -> by (vm_cast_no_check (eq_refl unicode17_file)).
  reflexivity.
Qed.

Lemma with_eq w fuel depth raw is ps f vs : parse (string_of_list_byte raw) = Some (tables_file is ps) ->
  go_call_with w fuel depth raw f vs = call w fuel (declared_with (arr_of_list is) (arr_of_list ps)) depth f vs.
Proof. intros E. unfold go_call_with, library_of. rewrite (parse_with _ _ _ E). unfold go_call_in. rewrite declarations_with. reflexivity. Qed.

(* Lookups read the tables only through their elements. *)
Lemma lookup_ext tb tb' p : (forall i, aget (t_indices tb) i = aget (t_indices tb') i) ->
  (forall i, aget (t_props tb) i = aget (t_props tb') i) -> lookup_first_char tb p = lookup_first_char tb' p.
Proof.
  intros GI GP. unfold lookup_first_char. destruct p as [|a p]; [reflexivity|].
  destruct (seq_length a) as [n|]; [|reflexivity]. destruct (len_lt (a :: p) n); [reflexivity|].
  destruct (bad_continuation (a :: p) 1 (n - 1)) as [[|]|]; cbn [bind]; try reflexivity.
  assert (walk tb (a :: p) n = walk tb' (a :: p) n) as ->; [|reflexivity].
  destruct tb as [I P], tb' as [I' P']. cbn [t_indices t_props] in GI, GP. unfold walk. cbn [t_indices t_props].
  destruct (index (a :: p) 0); [cbn [bind]|reflexivity].
  destruct n as [|[|[|[|[|n]]]]]; try reflexivity; repeat (rewrite ?GI, ?GP; match goal with
    | |- context [bind ?x _] => destruct x; cbn [bind]; try reflexivity
    end); rewrite ?GP; reflexivity.
Qed.

Lemma emitted_small tree text is : emit_text tree = Ret text -> holds (Indices tree) is -> Forall (fun v => v <= 255)%N is.
Proof.
  intros E HI. destruct (every_array (Properties tree)) as (ps & HP). destruct (C45_text tree is ps HI HP) as [_ N].
  destruct (forallb (fun v => v <=? 255)%N is) eqn:F.
  - rewrite Forall_forall. rewrite forallb_forall in F. intros v Hv. specialize (F v Hv). lia.
  - exfalso. rewrite N in E; [discriminate E|]. intros H. rewrite Forall_forall in H.
    assert (forallb (fun v => v <=? 255)%N is = true) as K; [|congruence].
    apply forallb_forall. intros v Hv. specialize (H v Hv). lia.
Qed.

(* The library with the written file looks up, for every byte string, in the tables of
   the tree. *)
Theorem C78_executed : forall tree text, emit_text tree = Ret text ->
  forall w fuel depth p, (15 <= w)%Z -> 4 <= fuel -> 1 <= depth ->
  go_call_with w fuel depth text "charprops.LookupFirstChar" [VBytes p] =
  let! (props, n) := lookup_first_char (Tables (Indices tree) (Properties tree)) p in Ret [go_properties props; go_int n].
Proof.
  intros tree text E w fuel depth p Hw Hf Hd. destruct (C78_parses tree text E) as (is & ps & HI & HP & K).
  refine (eq_trans (with_eq w fuel depth text is ps _ _ K) _). destruct depth as [|d]; [lia|].
  rewrite call_LookupFirstChar by lia. rewrite C71_lookup; [|exact Hw|].
  - rewrite (lookup_ext (Tables (arr_of_list is) (arr_of_list ps)) (Tables (Indices tree) (Properties tree))).
    + destruct (lookup_first_char _ p) as [[props n]|x]; reflexivity.
    + intros i. symmetry. exact (holds_get _ _ HI i).
    + intros i. symmetry. exact (holds_get _ _ HP i).
  - intros i v G. cbn [t_indices] in G. rewrite <- (holds_get _ _ HI) in G.
    pose proof (emitted_small _ _ _ E HI) as F. destruct HI as [_ H]. specialize (H (N.to_nat i)). rewrite N2Nat.id in H.
    rewrite G in H. destruct (nth_error is (N.to_nat i)) as [x|] eqn:X; [|discriminate H].
    rewrite Forall_forall in F. apply nth_error_In in X. apply F in X. injection H as ->. lia.
Qed.

(* From three data files, whatever they hold and however they are read, to the answers of
   the library compiled with the result: every character has the value that the lines of
   the files assign to it. *)
Theorem C78_lookup {R1 R2 R3} (rd1 : reader R1) r1 (rd2 : reader R2) r2 (rd3 : reader R3) r3 f1 e1 f2 e2 f3 e3 out text :
  delivers rd1 100 r1 f1 e1 -> delivers rd2 100 r2 f2 e2 -> delivers rd3 100 r3 f3 e3 ->
  BuildRawPropertyTree rd1 r1 rd2 r2 rd3 r3 out -> main_text out = Ret (inl text) ->
  exists ops, run_asks f1 e1 f2 e2 f3 e3 ops None /\
    forall w fuel depth c rest, (15 <= w)%Z -> 4 <= fuel -> 1 <= depth -> scalar c ->
    go_call_with w fuel depth text "charprops.LookupFirstChar" [VBytes (utf8_encode c ++ rest)] =
    Ret [go_properties (Assignments.value ops c); go_int (len (utf8_encode c))].
Proof.
  intros D1 D2 D3 B M. destruct out as [[tree|err]|]; cbn [main_text bind] in M; try discriminate M.
  destruct (emit_text tree) as [text'|] eqn:E; cbn [bind] in M; [|discriminate M].
  assert (text' = text) as -> by congruence.
  assert (main_tables (Ret (inl tree)) = Ret (inl (Tables (Indices tree) (Properties tree)))) as MT.
  { unfold main_tables. cbn [bind]. unfold emit. destruct (every_array (Indices tree)) as (is & HI).
    rewrite (holds_read _ _ HI). cbn [bind]. pose proof (emitted_small _ _ _ E HI) as F.
    assert (forallb (fun v => (v <=? 255)%N) is = true) as ->; [|reflexivity].
    apply forallb_forall. intros v Hv. rewrite Forall_forall in F. specialize (F v Hv). lia. }
  destruct (C51_lookup rd1 r1 rd2 r2 rd3 r3 f1 e1 f2 e2 f3 e3 _ _ D1 D2 D3 B MT) as (ops & HA & L).
  exists ops. split; [exact HA|]. intros w fuel depth c rest Hw Hf Hd Hc.
  refine (eq_trans (C78_executed tree text E w fuel depth _ Hw Hf Hd) _). rewrite (L c rest Hc). reflexivity.
Qed.

(* Run on the data files of the repository, the generator leaves the library as it was:
   every function returns what it returned before, for all arguments. *)
Theorem C78_reproducible {R1 R2 R3} (rd1 : reader R1) r1 (rd2 : reader R2) r2 (rd3 : reader R3) r3 :
  delivers rd1 100 r1 (file_bytes GraphemeBreakProperty_txt) EOF ->
  delivers rd2 100 r2 (file_bytes emoji_data_txt) EOF ->
  delivers rd3 100 r3 (file_bytes DerivedCoreProperties_txt) EOF ->
  exists out text, BuildRawPropertyTree rd1 r1 rd2 r2 rd3 r3 out /\
    (forall out', BuildRawPropertyTree rd1 r1 rd2 r2 rd3 r3 out' -> out' = out) /\
    main_text out = Ret (inl text) /\
    forall w fuel depth f vs, go_call_with w fuel depth text f vs = go_call w fuel depth f vs.
Proof.
  intros D1 D2 D3. destruct (C30_reproducible rd1 r1 rd2 r2 rd3 r3 D1 D2 D3) as (out & tb & B & BU & M & HI & HP).
  destruct (C45_main out tb M) as (text & MT & _). exists out, text. split; [exact B|]. split; [exact BU|]. split; [exact MT|].
  destruct out as [[tree|err]|]; cbn [main_text bind] in MT; try discriminate MT.
  destruct (emit_text tree) as [text'|] eqn:E; cbn [bind] in MT; [|discriminate MT].
  assert (text' = text) as -> by congruence.
  destruct (C78_parses tree text E) as (is & ps & HI' & HP' & K).
  cbn [main_tables bind] in M. unfold emit in M.
  destruct (aread (Indices tree) 0 _) as [all|]; cbn [bind] in M; [|discriminate M].
  destruct (forallb _ all); cbn [bind] in M; [|discriminate M].
  assert (tb = Tables (Indices tree) (Properties tree)) as -> by congruence. cbn [t_indices t_props] in HI, HP.
  pose proof (holds_read _ _ HI) as A1. rewrite (holds_read _ _ HI') in A1.
  pose proof (holds_read _ _ HP) as A2. rewrite (holds_read _ _ HP') in A2.
  assert (is = List.concat lookupIndices_blocks) as -> by congruence.
  assert (ps = List.concat lookupProps_blocks) as -> by congruence.
  intros w fuel depth f vs. refine (eq_trans (with_eq w fuel depth text _ _ f vs K) _).
  exact (eq_sym (go_call_eq w fuel depth f vs)).
Qed.

(* A small tree.  Only its blocks for U+0000 to U+003F are complete. *)
Definition small_tree : RawPropertyTree :=
  Tree (arr_of_list (repeat 1 64)%N) (arr_of_list (repeat 0 64 ++ repeat 5 64)%N).
Example C78_example : exists text, emit_text small_tree = Ret text /\
  go_call_with 64 4 1 text "charprops.LookupFirstChar" [VBytes [x41; x42]] = Ret [go_properties 5%N; go_int 1].
Proof.
  destruct (emit_text small_tree) as [text|] eqn:E; [|vm_compute in E; discriminate E].
  exists text. split; [reflexivity|]. refine (eq_trans (C78_executed _ _ E 64 4 1 [x41; x42] ltac:(lia) ltac:(lia) ltac:(lia)) _). vm_compute. reflexivity.
Qed.

Definition all_theorems := (C78_parses, C78_executed, @C78_lookup, @C78_reproducible, C78_example).
Print Assumptions all_theorems.
