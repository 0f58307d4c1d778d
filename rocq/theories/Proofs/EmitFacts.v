(* The text of the generated file. *)
From Coq Require Import List NArith ZArith Arith Bool Lia Strings.Byte Strings.String.
From Coq Require Import ZifyBool ZifyNat ZifyN.
From Verif Require Import Spec.Utf8 Spec.UcdFile Spec.GoSource.
From Verif Require Import Model.Base Model.Lookup Model.PropNames Model.GenTable Model.UcdParse Model.BuildTree Model.Emit.
From Verif Require Import Proofs.Basics Proofs.ParseFacts.
Import ListNotations.
Notation length := List.length.
Ltac Zify.zify_post_hook ::= Z.div_mod_to_equations.

Lemma Ret_inj {A} (a b : A) : Ret a = Ret b -> a = b.
Proof. congruence. Qed.

(* ---- digits *)

Definition hexd (b : byte) : Prop := word_byte b = true /\ b <> x0a.

Lemma small_cases (P : N -> Prop) : P 0%N -> P 1%N -> P 2%N -> P 3%N -> P 4%N -> P 5%N -> P 6%N -> P 7%N ->
  P 8%N -> P 9%N -> P 10%N -> P 11%N -> P 12%N -> P 13%N -> P 14%N -> P 15%N -> forall d, (d < 16)%N -> P d.
Proof.
  intros. destruct d as [|p]; [assumption|].
  do 16 (destruct p as [p|p|]; try assumption; try lia).
Qed.

Lemma hex_digit_ok d : (d < 16)%N -> hexd (hex_digit d) /\ digit_value (hex_digit d) d.
Proof.
  revert d. apply small_cases; (split; [split; [vm_compute; reflexivity|vm_compute; discriminate]|]);
    unfold digit_value; vm_compute hex_digit; vm_compute bval; lia.
Qed.

Lemma hex_digits_ok fuel : forall n acc, (n < 16 ^ N.of_nat fuel)%N -> fuel <> 0 ->
  exists ds, hex_digits fuel n acc = ds ++ acc /\ hex_value ds n /\ Forall hexd ds.
Proof.
  induction fuel as [|fuel IH]; intros n acc H H0; [congruence|]. cbn [hex_digits].
  destruct (hex_digit_ok (n mod 16)%N) as [K1 K2]; [apply N.mod_lt; discriminate|].
  destruct (N.eqb_spec (n / 16) 0) as [E|E].
  - exists [hex_digit (n mod 16)]. split; [reflexivity|]. split; [|constructor; [assumption|constructor]].
    replace n with (n mod 16)%N at 2 by lia. constructor. exact K2.
  - destruct fuel as [|fuel].
    { exfalso. apply E. apply N.div_small. exact H. }
    destruct (IH (n / 16)%N (hex_digit (n mod 16) :: acc)) as (ds & E1 & E2 & E3); [|discriminate|].
    { apply N.div_lt_upper_bound; [discriminate|]. replace (N.of_nat (S (S fuel))) with (N.succ (N.of_nat (S fuel))) in H by lia.
      rewrite N.pow_succ_r' in H. exact H. }
    exists (ds ++ [hex_digit (n mod 16)]). split; [rewrite E1, <- app_assoc; reflexivity|]. split.
    + replace n with (n / 16 * 16 + n mod 16)%N at 2 by lia. constructor; assumption.
    + apply Forall_app. split; [assumption|constructor; [assumption|constructor]].
Qed.

Lemma size_bound n : (n < 16 ^ N.of_nat (S (N.size_nat n)))%N.
Proof.
  assert (forall p, (N.pos p < 2 ^ N.of_nat (Pos.size_nat p))%N) as A.
  { induction p as [p IH|p IH|]; cbn [Pos.size_nat]; [| |reflexivity];
      rewrite Nat2N.inj_succ, N.pow_succ_r'; lia. }
  assert (n < 2 ^ N.of_nat (N.size_nat n))%N as B by (destruct n; [reflexivity|apply A]).
  eapply N.lt_le_trans; [exact B|]. etransitivity; [apply N.pow_le_mono_l with (b := 16%N); lia|].
  apply N.pow_le_mono_r; lia.
Qed.

Lemma hex_zero ds n : hex_value ds n -> hex_value (x30 :: ds) n.
Proof.
  assert (hex_value [x30] 0) as Z by (constructor; left; split; [lia|reflexivity]).
  induction 1 as [c d H|s n c d H IH K].
  - exact (hex_more [x30] 0 c d Z H).
  - exact (hex_more (x30 :: s) n c d IH K).
Qed.

Lemma fmt_x_ok width n : hex_value (fmt_x width n) n /\ Forall hexd (fmt_x width n).
Proof.
  unfold fmt_x. destruct (hex_digits_ok (S (N.size_nat n)) n []) as (ds & E & H & F); [apply size_bound|discriminate|].
  rewrite E, app_nil_r. generalize (width - length ds)%nat as k. induction k as [|k [IH1 IH2]]; [split; assumption|].
  cbn [repeat app]. split; [apply hex_zero; exact IH1|constructor; [|exact IH2]].
  split; [reflexivity|discriminate].
Qed.

Definition element (v : N) : list byte := [x30; x78] ++ fmt_x 2 v.
Lemma element_literal v : literal (element v) v.
Proof. exists (fmt_x 2 v). split; [reflexivity|]. apply fmt_x_ok. Qed.
Lemma elements_literal vs : Forall2 literal (map element vs) vs.
Proof. induction vs; cbn [map]; constructor; [apply element_literal|assumption]. Qed.
Lemma element_words v : Forall hexd (element v).
Proof.
  unfold element. apply Forall_app. split; [|apply fmt_x_ok].
  constructor; [split; [reflexivity|discriminate]|]. constructor; [split; [reflexivity|discriminate]|constructor].
Qed.

(* ---- lexing *)

Lemma lex_word w : forall acc ends s, Forall hexd w ->
  lex_from acc ends false (w ++ s) = lex_from (rev w ++ acc) ends false s.
Proof.
  induction w as [|b w IH]; intros acc ends s F; [reflexivity|]. inversion F as [|? ? [W N] F']; subst.
  cbn [app lex_from rev]. destruct (byte_eqb_spec b x0a) as [->|_]; [congruence|]. rewrite W, IH, <- app_assoc by assumption. reflexivity.
Qed.

Lemma lex_item v ends s : lex_from [] ends false (element v ++ x2c :: s) =
  Word (element v) :: Punct x2c :: lex_from [] false false s.
Proof.
  rewrite lex_word by apply element_words. rewrite app_nil_r.
  assert (rev (rev (element v)) = element v) as E by apply rev_involutive.
  destruct (rev (element v)) as [|b w] eqn:R.
  { cbn in E. unfold element in E. discriminate E. }
  cbn [lex_from]. change (Byte.eqb x2c x0a) with false. change (word_byte x2c) with false. cbn [orb andb]. rewrite E. reflexivity.
Qed.

Lemma lex_comment w : forall ends s, ~ In x0a w ->
  lex_from [] ends true (w ++ x0a :: s) = (if ends then [Semi] else []) ++ lex_from [] false false s.
Proof.
  induction w as [|b w IH]; intros ends s H; cbn [app lex_from].
  - reflexivity.
  - destruct (byte_eqb_spec b x0a) as [->|_]; [exfalso; apply H; left; reflexivity|].
    apply IH. intros K. apply H. right. exact K.
Qed.

Definition item_tokens (vs : list N) : list token := flat_map (fun e => [Word e; Punct x2c]) (map element vs).

Lemma items_ok check items : forall out, fprint_items check items = Ret out -> forall s,
  lex_from [] false false (out ++ s) = item_tokens items ++ lex_from [] false false s.
Proof.
  induction items as [|v items IH]; intros out H s; cbn [fprint_items] in H.
  - injection H as <-. reflexivity.
  - destruct (check && (255 <? v)%N); [discriminate|].
    destruct (fprint_items check items) as [rest|]; [|discriminate]. cbn [bind] in H.
    assert (out = element v ++ x2c :: rest) as -> by (injection H as <-; reflexivity).
    rewrite <- app_assoc. cbn [app]. rewrite lex_item. unfold item_tokens. cbn [map flat_map app]. 
    f_equal. f_equal. apply IH. reflexivity.
Qed.

Lemma rows_ok check fuel : forall i rest out, fprint_rows fuel check i rest = Ret out -> forall s,
  lex_from [] false false (out ++ s) = item_tokens rest ++ lex_from [] false false s.
Proof.
  induction fuel as [|fuel IH]; intros i rest out H s; cbn [fprint_rows] in H; [discriminate|].
  destruct rest as [|v rest0]; [injection H as <-; reflexivity|]. remember (v :: rest0) as rest eqn:Er.
  destruct (fprint_items check _) as [row|] eqn:E1; [|discriminate]. cbn [bind] in H.
  destruct (fprint_rows fuel check (i + 8) (skipn 8 rest)) as [more|] eqn:E2; [|discriminate]. cbn [bind] in H.
  assert (firstn (Nat.min (length rest) 8) rest = firstn 8 rest) as E3.
  { destruct (Nat.min_dec (length rest) 8) as [K|K]; rewrite K; [|reflexivity].
    rewrite firstn_all. symmetry. apply firstn_all2. lia. }
  rewrite E3 in E1. clear E3.
  assert (forall s, lex_from [] false false (([x09] ++ row ++ [x0a] ++ more) ++ s) = item_tokens rest ++ lex_from [] false false s) as A.
  { intros s'. rewrite <- !app_assoc. cbn [app]. cbn [lex_from].
    change (Byte.eqb x09 x0a) with false. change (word_byte x09) with false. change (Byte.eqb x09 x20 || Byte.eqb x09 x09) with true.
    cbn [app]. rewrite (items_ok _ _ _ E1). cbn [lex_from]. change (Byte.eqb x0a x0a) with true. cbn [app].
    rewrite (IH _ _ _ E2). rewrite app_assoc. f_equal. unfold item_tokens. rewrite <- flat_map_app, <- map_app, firstn_skipn. reflexivity. }
  destruct (i mod 64 =? 0)%N; [|apply Ret_inj in H; subst out; apply A].
  assert (out ++ s = x20 :: x20 :: x2f :: (x2f :: x20 :: str "block 0x" ++ fmt_x 4 (N.shiftr i 6)) ++ x0a :: ([x09] ++ row ++ [x0a] ++ more) ++ s) as ->.
  { apply Ret_inj in H. subst out. change (str "  // block 0x") with (x20 :: x20 :: x2f :: x2f :: x20 :: str "block 0x").
    cbn [app]. rewrite <- !app_assoc. cbn [app]. rewrite <- ?app_assoc. reflexivity. }
  remember (x20 :: str "block 0x" ++ fmt_x 4 (N.shiftr i 6)) as w eqn:Ew.
  cbn [lex_from].
  change (Byte.eqb x20 x0a) with false. change (Byte.eqb x2f x0a) with false. change (word_byte x20) with false. change (word_byte x2f) with false.
  change (Byte.eqb x20 x20 || Byte.eqb x20 x09) with true. change (Byte.eqb x2f x20 || Byte.eqb x2f x09) with false.
  change (Byte.eqb x2f x2f) with true. cbn [app andb].
  etransitivity; [apply (lex_comment (x2f :: w) false)|apply A]. subst w.
  destruct (fmt_x_ok 4 (N.shiftr i 6)) as [_ F]. rewrite Forall_forall in F.
  intros [K|[K|K]]; [discriminate K|discriminate K|]. apply in_app_or in K. destruct K as [K|K]; [|apply F in K; destruct K; congruence].
  vm_compute in K. repeat (destruct K as [K|K]; [discriminate K|]). exact K.
Qed.

(* a piece of text without a comment that is lexed by computation *)
Lemma source_ok indices props text : source_text indices props = Ret text ->
  lex text = package_clause "charprops" ++ array_declaration "lookupIndices" "uint8" (map element indices)
             ++ array_declaration "lookupProps" "CharProperties" (map element props).
Proof.
  unfold source_text. destruct (fprint_rows (S (length indices)) true 0 indices) as [rows1|] eqn:E1; [|discriminate]. cbn [bind].
  destruct (fprint_rows (S (length props)) false 0 props) as [rows2|] eqn:E2; [|discriminate]. cbn [bind].
  intros H. apply Ret_inj in H. subst text. unfold lex, array_declaration.
  fold (item_tokens indices). fold (item_tokens props).
  assert (forall s, lex_from [] false false (str "// Generated by generate.go. DO NOT EDIT!" ++ x0a :: x0a ::
    str "package charprops" ++ x0a :: x0a :: str "var lookupIndices = [...]uint8{" ++ x0a :: s) =
    package_clause "charprops" ++ [word "var"; word "lookupIndices"; Punct x3d; Punct x5b; Punct x2e; Punct x2e; Punct x2e; Punct x5d; word "uint8"; Punct x7b]
     ++ lex_from [] false false s) as A by (intros; reflexivity).
  assert (forall s, lex_from [] false false (str "}" ++ x0a :: str "var lookupProps = [...]CharProperties{" ++ x0a :: s) =
    [Punct x7d; Semi] ++ [word "var"; word "lookupProps"; Punct x3d; Punct x5b; Punct x2e; Punct x2e; Punct x2e; Punct x5d; word "CharProperties"; Punct x7b]
     ++ lex_from [] false false s) as B by (intros; reflexivity).
  rewrite A. f_equal.
  match goal with |- ?x ++ _ = (?x ++ ?y) ++ ?z => transitivity (x ++ (y ++ z)); [|symmetry; rewrite <- app_assoc; reflexivity] end.
  f_equal. rewrite (rows_ok _ _ _ _ _ E1). rewrite <- app_assoc. f_equal. rewrite B. f_equal. f_equal.
  rewrite (rows_ok _ _ _ _ _ E2). reflexivity.
Qed.

(* ---- when there is a text *)

Lemma items_when check items : (check = false \/ Forall (fun v => v <= 255)%N items -> exists out, fprint_items check items = Ret out) /\
  (check = true /\ ~ Forall (fun v => v <= 255)%N items -> fprint_items check items = Panic TooManyIndices).
Proof.
  induction items as [|v items [IH1 IH2]]; cbn [fprint_items].
  - split; [intros _; eexists; reflexivity|]. intros [_ H]. exfalso. apply H. constructor.
  - split.
    + intros H. assert (check && (255 <? v)%N = false) as ->.
      { destruct H as [->|H]; [reflexivity|]. inversion H; subst. apply andb_false_iff. right. lia. }
      destruct IH1 as (out & ->); [|eexists; reflexivity]. destruct H as [H|H]; [left; exact H|right; inversion H; assumption].
    + intros [-> H]. cbn [andb]. destruct (N.ltb_spec 255 v) as [K|K]; [reflexivity|]. rewrite IH2; [reflexivity|].
      split; [reflexivity|]. intros F. apply H. constructor; assumption.
Qed.

Lemma rows_when check fuel : forall i rest, length rest < fuel ->
  (check = false \/ Forall (fun v => v <= 255)%N rest -> exists out, fprint_rows fuel check i rest = Ret out) /\
  (check = true /\ ~ Forall (fun v => v <= 255)%N rest -> fprint_rows fuel check i rest = Panic TooManyIndices).
Proof.
  induction fuel as [|fuel IH]; intros i rest HL; [lia|]. cbn [fprint_rows].
  destruct rest as [|v rest0].
  { split; [intros _; eexists; reflexivity|]. intros [_ H]. exfalso. apply H. constructor. }
  remember (v :: rest0) as rest eqn:Er.
  assert (firstn (Nat.min (length rest) 8) rest = firstn 8 rest) as ->.
  { destruct (Nat.min_dec (length rest) 8) as [K|K]; rewrite K; [|reflexivity].
    rewrite firstn_all. symmetry. apply firstn_all2. lia. }
  destruct (items_when check (firstn 8 rest)) as [I1 I2].
  destruct (IH (i + 8)%N (skipn 8 rest)) as [J1 J2]; [rewrite skipn_length; subst rest; cbn [List.length] in *; lia|].
  assert (Forall (fun v => v <= 255)%N rest <-> Forall (fun v => v <= 255)%N (firstn 8 rest) /\ Forall (fun v => v <= 255)%N (skipn 8 rest)) as F.
  { rewrite <- Forall_app, firstn_skipn. reflexivity. }
  split.
  - intros H. destruct I1 as (row & ->); [tauto|]. cbn [bind]. destruct J1 as (more & ->); [tauto|]. eexists; reflexivity.
  - intros [-> H]. destruct (Forall_dec (fun v => v <= 255)%N) with (l := firstn 8 rest) as [D|D].
    { intros x. destruct (N.leb x 255) eqn:K; [left; lia|right; lia]. }
    + destruct I1 as (row & ->); [tauto|]. cbn [bind]. rewrite J2 by tauto. reflexivity.
    + rewrite I2 by tauto. reflexivity.
Qed.

Lemma source_when indices props : (Forall (fun v => v <= 255)%N indices -> exists text, source_text indices props = Ret text) /\
  (~ Forall (fun v => v <= 255)%N indices -> source_text indices props = Panic TooManyIndices).
Proof.
  unfold source_text. destruct (rows_when true (S (length indices)) 0 indices) as [I1 I2]; [lia|].
  destruct (rows_when false (S (length props)) 0 props) as [J1 _]; [lia|]. split.
  - intros H. destruct I1 as (a & ->); [tauto|]. cbn [bind]. destruct J1 as (b & ->); [tauto|]. eexists; reflexivity.
  - intros H. rewrite I2 by tauto. reflexivity.
Qed.
