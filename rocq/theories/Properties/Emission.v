(* Property C45: the source text of the tables. *)
From Coq Require Import List NArith ZArith Arith Bool Lia Strings.Byte Strings.String.
From Coq Require Import ZifyBool ZifyNat ZifyN.
From Verif Require Import Spec.Utf8 Spec.Readers Spec.UcdFile Spec.GoSource.
From Verif Require Import Model.Base Model.Lookup Model.Bufio Model.PropNames Model.GenTable Model.UcdParse Model.BuildTree Model.Emit.
From Verif Require Import Data.TableRaw Data.TableRawGo Data.UcdGraphemeBreakProperty Data.UcdEmojiData Data.UcdDerivedCoreProperties.
From Verif Require Import Proofs.Basics Proofs.ParseFacts Proofs.UcdFacts Proofs.GenCompact Proofs.BuildFacts Proofs.FileCheck Proofs.EmitFacts.
From Verif Require Import Properties.Reproduce.
Import ListNotations.
Notation length := List.length.
Ltac Zify.zify_post_hook ::= Z.div_mod_to_equations.

(* What the text declares is unambiguous. *)
Lemma elements_read ws : forall ws' a b, flat_map (fun e => [Word e; Punct x2c]) ws ++ Punct x7d :: a =
  flat_map (fun e => [Word e; Punct x2c]) ws' ++ Punct x7d :: b -> ws = ws' /\ a = b.
Proof.
  induction ws as [|w ws IH]; intros [|w' ws'] a b H; cbn [flat_map app] in H; try discriminate.
  - split; congruence.
  - injection H as H1 H2. apply IH in H2. destruct H2. split; congruence.
Qed.

Lemma literals_values ws : forall vs vs', Forall2 literal ws vs -> Forall2 literal ws vs' -> vs = vs'.
Proof.
  induction ws as [|w ws IH]; intros vs vs' H H'; inversion H as [|? v ? vs1 L F]; inversion H' as [|? v' ? vs2 L' F']; subst; [reflexivity|].
  f_equal; [|auto]. destruct L as (h & E & K), L' as (h' & E' & K').
  assert (h = h') as <- by (rewrite E in E'; apply app_inv_head in E'; exact E').
  eapply hex_value_fun; eassumption.
Qed.

Theorem C45_unambiguous text is ps is' ps' :
  declares_tables text is ps -> declares_tables text is' ps' -> is = is' /\ ps = ps'.
Proof.
  intros (w1 & w2 & E & F1 & F2) (w1' & w2' & E' & F1' & F2'). rewrite E in E'. unfold array_declaration in E'.
  apply app_inv_head in E'. rewrite <- !app_assoc in E'. apply app_inv_head in E'. cbn [app] in E'.
  apply elements_read in E'. destruct E' as [-> E']. injection E' as E'.
  apply elements_read in E'. destruct E' as [-> _]. split; eapply literals_values; eassumption.
Qed.

Lemma nth_error_ext {A} (l l' : list A) : (forall i, nth_error l i = nth_error l' i) -> l = l'.
Proof.
  revert l'. induction l as [|x l IH]; intros [|y l'] H; [reflexivity|discriminate (H 0)|discriminate (H 0)|].
  f_equal; [specialize (H 0); cbn in H; congruence|]. apply IH. intros i. exact (H (S i)).
Qed.

Lemma holds_read a vs : holds a vs -> aread a 0 (N.to_nat (alen a)) = Ret vs.
Proof.
  intros [HL H]. rewrite aread_ok by lia. f_equal. apply nth_error_ext. intros i. specialize (H i).
  rewrite nth_error_map. unfold aget in H. destruct (N.ltb_spec (N.of_nat i) (alen a)) as [K|K].
  - rewrite (nth_error_nth' _ 0) by (rewrite List.seq_length; lia). rewrite seq_nth by lia. cbn [option_map].
    destruct (nth_error vs i); [|discriminate]. f_equal. cbn [N.add Nat.add]. congruence.
  - assert (nth_error (seq 0 (N.to_nat (alen a))) i = None) as -> by (apply nth_error_None; rewrite List.seq_length; lia).
    destruct (nth_error vs i); [discriminate|reflexivity].
Qed.

(* For every tree: a text is written exactly if the indices fit a byte, and it
   declares exactly the elements of the tree. *)
Theorem C45_text tree indices props : holds (Indices tree) indices -> holds (Properties tree) props ->
  (Forall (fun v => v <= 255)%N indices ->
     exists text, emit_text tree = Ret text /\ declares_tables text indices props) /\
  (~ Forall (fun v => v <= 255)%N indices -> emit_text tree = Panic TooManyIndices).
Proof.
  intros HI HP. unfold emit_text. rewrite (holds_read _ _ HI), (holds_read _ _ HP). cbn [bind].
  destruct (source_when indices props) as [S1 S2]. split; [|exact S2].
  intros H. destruct (S1 H) as (text & E). exists text. split; [exact E|].
  exists (map element indices), (map element props). split; [apply source_ok; exact E|]. split; apply elements_literal.
Qed.

Lemma every_array a : exists vs, holds a vs.
Proof.
  exists (map (aget_raw a) (map N.of_nat (seq 0 (N.to_nat (alen a))))). unfold holds. rewrite !map_length, List.seq_length.
  split; [lia|]. intros i. rewrite !nth_error_map. unfold aget. destruct (N.ltb_spec (N.of_nat i) (alen a)) as [K|K].
  - rewrite (nth_error_nth' _ 0) by (rewrite List.seq_length; lia). rewrite seq_nth by lia. reflexivity.
  - assert (nth_error (seq 0 (N.to_nat (alen a))) i = None) as -> by (apply nth_error_None; rewrite List.seq_length; lia). reflexivity.
Qed.

(* So the text is that of the tables of C28, C29, C30 and C44. *)
Theorem C45_main out tb : main_tables out = Ret (inl tb) ->
  exists text, main_text out = Ret (inl text) /\
    forall indices props, holds (t_indices tb) indices -> holds (t_props tb) props -> declares_tables text indices props.
Proof.
  unfold main_tables, main_text. destruct out as [[tree|err]|]; cbn [bind]; try discriminate. unfold emit.
  destruct (every_array (Indices tree)) as (is & HI), (every_array (Properties tree)) as (ps & HP).
  rewrite (holds_read _ _ HI). cbn [bind]. destruct (forallb (fun v => (v <=? 255)%N) is) eqn:F; cbn [bind]; [|discriminate].
  intros E. assert (tb = Tables (Indices tree) (Properties tree)) as -> by congruence.
  destruct (C45_text tree is ps HI HP) as [T _]. destruct T as (text & E1 & E2).
  { apply Forall_forall. intros v Hv. rewrite forallb_forall in F. specialize (F v Hv). lia. }
  exists text. rewrite E1. split; [reflexivity|]. cbn [t_indices t_props]. intros is' ps' HI' HP'.
  apply holds_read in HI, HP, HI', HP'. assert (is' = is) as -> by congruence. assert (ps' = ps) as -> by congruence. exact E2.
Qed.

(* ---- the committed file *)

Definition committed_source : list byte := file_bytes property_table_raw_go.

Fixpoint tokens_eqb (a b : list token) : bool :=
  match a, b with
  | [], [] => true
  | Word x :: a', Word y :: b' => str_eqb x y && tokens_eqb a' b'
  | Punct x :: a', Punct y :: b' => Byte.eqb x y && tokens_eqb a' b'
  | Semi :: a', Semi :: b' => tokens_eqb a' b'
  | _, _ => false
  end.
Lemma tokens_eqb_ok a : forall b, tokens_eqb a b = true -> a = b.
Proof.
  induction a as [|x a IH]; intros [|y b] H; cbn [tokens_eqb] in H; try discriminate; [reflexivity|destruct x; discriminate|].
  destruct x as [w|p|], y as [w'|p'|]; try discriminate; [| |f_equal; auto]; apply andb_true_iff in H; destruct H as [H1 H2]; f_equal; auto; f_equal.
  - apply str_eqb_true. exact H1.
  - destruct (byte_eqb_spec p p'); congruence.
Qed.

Definition committed_tokens : list token :=
  package_clause "charprops" ++ array_declaration "lookupIndices" "uint8" (map element (List.concat lookupIndices_blocks))
  ++ array_declaration "lookupProps" "CharProperties" (map element (List.concat lookupProps_blocks)).

Lemma committed_check : tokens_eqb (lex committed_source) committed_tokens = true.
Proof. vm_cast_no_check (eq_refl true). Qed.

(* property_table_raw.go declares the arrays the model uses. *)
Theorem C45_committed :
  declares_tables committed_source (List.concat lookupIndices_blocks) (List.concat lookupProps_blocks).
Proof.
  exists (map element (List.concat lookupIndices_blocks)), (map element (List.concat lookupProps_blocks)).
  split; [apply tokens_eqb_ok, committed_check|]. split; apply elements_literal.
Qed.

Definition same_text (x : res (list byte)) (file : list byte) : bool :=
  match x with
  | Ret text => str_eqb (without_white_space text) (without_white_space file)
  | Panic _ => false
  end.
Lemma text_check :
  same_text (source_text (List.concat lookupIndices_blocks) (List.concat lookupProps_blocks)) committed_source = true.
Proof. vm_cast_no_check (eq_refl true). Qed.

(* Running the generator on the data files of the repository writes this file,
   up to white space, whatever the read schedules. *)
Theorem C45_reproducible {R1 R2 R3} (rd1 : reader R1) r1 (rd2 : reader R2) r2 (rd3 : reader R3) r3 :
  delivers rd1 100 r1 (file_bytes GraphemeBreakProperty_txt) EOF ->
  delivers rd2 100 r2 (file_bytes emoji_data_txt) EOF ->
  delivers rd3 100 r3 (file_bytes DerivedCoreProperties_txt) EOF ->
  exists out text, BuildRawPropertyTree rd1 r1 rd2 r2 rd3 r3 out /\
    (forall out', BuildRawPropertyTree rd1 r1 rd2 r2 rd3 r3 out' -> out' = out) /\
    main_text out = Ret (inl text) /\
    without_white_space text = without_white_space committed_source.
Proof.
  intros D1 D2 D3. destruct (C30_reproducible rd1 r1 rd2 r2 rd3 r3 D1 D2 D3) as (out & tb & B & BU & M & HI & HP).
  destruct out as [[tree|err]|]; cbn [main_tables bind] in M; try discriminate M. unfold emit in M.
  destruct (aread (Indices tree) 0 _) as [all|]; cbn [bind] in M; [|discriminate M].
  destruct (forallb _ all); cbn [bind] in M; [|discriminate M].
  assert (tb = Tables (Indices tree) (Properties tree)) as -> by congruence. cbn [t_indices t_props] in HI, HP.
  pose proof text_check as T.
  destruct (source_text (List.concat lookupIndices_blocks) (List.concat lookupProps_blocks)) as [text|] eqn:S; [|discriminate T].
  cbn [same_text] in T. exists (Ret (inl tree)), text. split; [exact B|]. split; [exact BU|]. split.
  - cbn [main_text bind]. unfold emit_text. rewrite (holds_read _ _ HI), (holds_read _ _ HP). cbn [bind]. rewrite S. reflexivity.
  - apply str_eqb_true. exact T.
Qed.

(* a small tree *)
Example C45_example :
  emit_text (Tree (arr_of_list [2; 255]%N) (arr_of_list [0; 16; 4]%N)) = Ret (list_byte_of_string
"// Generated by generate.go. DO NOT EDIT!

package charprops

var lookupIndices = [...]uint8{
  // block 0x0000
	0x02,0xff,
}
var lookupProps = [...]CharProperties{
  // block 0x0000
	0x00,0x10,0x04,
}
").
Proof. vm_compute. reflexivity. Qed.
Example C45_too_large : emit_text (Tree (arr_of_list [2; 256]%N) (arr_of_list [0]%N)) = Panic TooManyIndices.
Proof. vm_compute. reflexivity. Qed.

Print Assumptions C45_text.
