(* Characterisation of LookupFirstChar on arbitrary bytes. *)
From Coq Require Import List NArith Arith Bool Lia Strings.Byte.
From Coq Require Import ZArith ZifyBool ZifyNat ZifyN.
From Verif Require Import Spec.Classes Spec.Utf8 Spec.Segmentation.
From Verif Require Import Model.Base Model.CharProps Model.Lookup Proofs.Basics Proofs.TableCheck.
Import ListNotations.
Ltac Zify.zify_post_hook ::= Z.div_mod_to_equations.
Local Open Scope N_scope.

(* ---- bytes *)

Definition seq_length_spec (a : byte) : option nat :=
  if bval a <? 0x80 then Some 1%nat
  else if bval a <? 0xC0 then None
  else if bval a <? 0xE0 then Some 2%nat
  else if bval a <? 0xF0 then Some 3%nat
  else if bval a <? 0xF8 then Some 4%nat
  else None.

Definition eqb_optnat (a b : option nat) : bool :=
  match a, b with
  | Some x, Some y => Nat.eqb x y | None, None => true | _, _ => false
  end.

Lemma seq_length_ok a : seq_length a = seq_length_spec a.
Proof.
  assert (eqb_optnat (seq_length a) (seq_length_spec a) = true) as H.
  { revert a. apply byte_sweep. vm_compute. reflexivity. }
  destruct (seq_length a), (seq_length_spec a); simpl in H; try congruence.
  apply Nat.eqb_eq in H. congruence.
Qed.

Definition is_contb (b : byte) : bool := (0x80 <=? bval b) && (bval b <? 0xC0).

Lemma is_contb_spec b : is_contb b = true <-> is_cont b.
Proof. unfold is_contb, is_cont. lia. Qed.

Lemma cont_mask b : (N.land (bval b) 0xc0 =? 0x80) = is_contb b.
Proof.
  apply eqb_prop. revert b. apply byte_sweep. vm_compute. reflexivity.
Qed.

(* ---- canonical sequences *)

Lemma mk_eq n b : n = bval b -> mkbyte n = b.
Proof. intros ->. apply mkbyte_bval. Qed.

Lemma bytes_eqb_true a b : a = b -> bytes_eqb a b = true.
Proof. unfold bytes_eqb. destruct (list_eq_dec _ a b); congruence. Qed.

Lemma bytes_eqb_false a b : a <> b -> bytes_eqb a b = false.
Proof. unfold bytes_eqb. destruct (list_eq_dec _ a b); congruence. Qed.

Lemma length_encode v :
  length (utf8_encode v) =
  if v <? 0x80 then 1%nat else if v <? 0x800 then 2%nat else if v <? 0x10000 then 3%nat else 4%nat.
Proof. unfold utf8_encode. destruct (v <? 0x80), (v <? 0x800), (v <? 0x10000); reflexivity. Qed.

Definition canonb (n : nat) (v : N) : bool :=
  match n with
  | 1%nat => true
  | 2%nat => canon2 v
  | 3%nat => canon3 v
  | _ => canon4 v
  end.

Lemma canon_seq bs v :
  utf8_seq bs v ->
  scalarb v && bytes_eqb bs (utf8_encode v) = canonb (length bs) v.
Proof.
  intros H. unfold is_cont in *.
  assert (forall n, length bs = n ->
            length (utf8_encode v) <> n -> bytes_eqb bs (utf8_encode v) = false) as Hlen.
  { intros n H1 H2. apply bytes_eqb_false. intros E. congruence. }
  assert (HB : forall x : byte, bval x < 256) by apply bval_lt.
  rewrite length_encode in Hlen.
  destruct H as [a Ha|a b Ha Hb|a b c Ha Hb Hc|a b c d Ha Hb Hc Hd]; unfold is_cont in *;
    cbn [length canonb].
  - rewrite bytes_eqb_true; [unfold scalarb; lia|].
    unfold utf8_encode. replace (bval a <? 0x80) with true by lia.
    rewrite mkbyte_bval. reflexivity.
  - set (v := (bval a - 0xC0) * 64 + (bval b - 0x80)) in *.
    destruct (canon2 v) eqn:Ec; unfold canon2 in Ec.
    + rewrite bytes_eqb_true; [unfold scalarb; lia|].
      unfold utf8_encode. replace (v <? 0x80) with false by lia.
      replace (v <? 0x800) with true by lia.
      rewrite (mk_eq _ a), (mk_eq _ b) by lia. reflexivity.
    + rewrite (Hlen 2%nat eq_refl), andb_false_r; [reflexivity|].
      replace (v <? 0x80) with true by lia. lia.
  - set (v := (bval a - 0xE0) * 4096 + (bval b - 0x80) * 64 + (bval c - 0x80)) in *.
    destruct (0x800 <=? v) eqn:Ec.
    + rewrite bytes_eqb_true; [unfold scalarb, canon3; lia|].
      unfold utf8_encode. replace (v <? 0x80) with false by lia.
      replace (v <? 0x800) with false by lia. replace (v <? 0x10000) with true by lia.
      rewrite (mk_eq _ a), (mk_eq _ b), (mk_eq _ c) by lia. reflexivity.
    + rewrite (Hlen 3%nat eq_refl), andb_false_r; [unfold canon3; lia|].
      destruct (v <? 0x80); [lia|]. replace (v <? 0x800) with true by lia. lia.
  - set (v := (bval a - 0xF0) * 262144 + (bval b - 0x80) * 4096
              + (bval c - 0x80) * 64 + (bval d - 0x80)) in *.
    destruct (0x10000 <=? v) eqn:Ec.
    + rewrite bytes_eqb_true; [unfold scalarb, canon4; lia|].
      unfold utf8_encode. replace (v <? 0x80) with false by lia.
      replace (v <? 0x800) with false by lia. replace (v <? 0x10000) with false by lia.
      rewrite (mk_eq _ a), (mk_eq _ b), (mk_eq _ c), (mk_eq _ d) by lia. reflexivity.
    + rewrite (Hlen 4%nat eq_refl), andb_false_r; [unfold canon4; lia|].
      destruct (v <? 0x80); [lia|]. destruct (v <? 0x800); [lia|].
      replace (v <? 0x10000) with true by lia. lia.
Qed.

Lemma item_class_char bs v :
  utf8_seq bs v -> item_class (Char bs v) = expect (canonb (length bs) v) v.
Proof.
  intros H. unfold item_class, expect. rewrite (canon_seq bs v H), fast_class_ok. reflexivity.
Qed.

(* ---- the table walk *)

Lemma ok1_ret r c : ok1 r c = true -> good c /\ r = Ret (enc c).
Proof.
  unfold ok1. intros H. apply andb_true_iff in H. destruct H as [H1 H2].
  split; [apply goodb_good; exact H1|].
  destruct r as [x|]; [|discriminate]. apply N.eqb_eq in H2. rewrite H2. reflexivity.
Qed.

Local Opaque committed fast_class ok1 leads conts.

Lemma walk_seq bs v rest :
  utf8_seq bs v ->
  good (item_class (Char bs v)) /\
  walk committed (bs ++ rest) (length bs) = Ret (enc (item_class (Char bs v))).
Proof.
  intros H.
  assert (walk committed (bs ++ rest) (length bs) = walk committed bs (length bs)) as ->.
  { destruct H; reflexivity. }
  rewrite (item_class_char bs v H).
  apply ok1_ret.
  destruct H as [a Ha|a b Ha Hb|a b c Ha Hb Hc|a b c d Ha Hb Hc Hd]; cbn [length canonb expect].
  - pose proof check1_ok as K. unfold check1 in K. rewrite forallb_forall in K.
    specialize (K a (in_leads a 0 128 ltac:(lia))). exact K.
  - pose proof check2_ok as K. unfold check2 in K. rewrite forallb_forall in K.
    specialize (K a (in_leads a 0xC0 32 ltac:(lia))). cbv beta in K.
    rewrite forallb_forall in K. exact (K b (in_conts b Hb)).
  - apply table3; assumption.
  - apply table4; assumption.
Qed.

(* ---- structural facts about sequences *)

Lemma utf8_seq_len bs v : utf8_seq bs v -> (1 <= length bs <= 4)%nat.
Proof. destruct 1; simpl; lia. Qed.

Lemma utf8_seq_first bs v :
  utf8_seq bs v -> exists a tl, bs = a :: tl /\ seq_length a = Some (length bs).
Proof.
  intros H. destruct H as [a Ha|a b Ha Hb|a b c Ha Hb Hc|a b c d Ha Hb Hc Hd];
    eexists; eexists; (split; [reflexivity|]); rewrite seq_length_ok; unfold seq_length_spec;
    cbn [length].
  - replace (bval a <? 0x80) with true by lia. reflexivity.
  - replace (bval a <? 0x80) with false by lia. replace (bval a <? 0xC0) with false by lia.
    replace (bval a <? 0xE0) with true by lia. reflexivity.
  - replace (bval a <? 0x80) with false by lia. replace (bval a <? 0xC0) with false by lia.
    replace (bval a <? 0xE0) with false by lia. replace (bval a <? 0xF0) with true by lia.
    reflexivity.
  - replace (bval a <? 0x80) with false by lia. replace (bval a <? 0xC0) with false by lia.
    replace (bval a <? 0xE0) with false by lia. replace (bval a <? 0xF0) with false by lia.
    replace (bval a <? 0xF8) with true by lia. reflexivity.
Qed.

Lemma app_eq_length {A} (a b x y : list A) :
  a ++ x = b ++ y -> length a = length b -> a = b /\ x = y.
Proof.
  revert b; induction a as [|p a IH]; intros [|q b]; simpl; intros H E; try lia; auto.
  injection H as -> H. destruct (IH b H) as [-> ->]; auto.
Qed.

Lemma utf8_seq_val bs v v' : utf8_seq bs v -> utf8_seq bs v' -> v = v'.
Proof. intros H H'. destruct H; inversion H'; subst; reflexivity. Qed.

Lemma utf8_seq_unique bs v bs' v' r r' :
  utf8_seq bs v -> utf8_seq bs' v' -> bs ++ r = bs' ++ r' -> bs = bs' /\ v = v' /\ r = r'.
Proof.
  intros H H' E.
  destruct (utf8_seq_first _ _ H) as (a & tl & Ea & La).
  destruct (utf8_seq_first _ _ H') as (a' & tl' & Ea' & La').
  assert (a = a') as Haa.
  { rewrite Ea, Ea' in E. simpl in E. injection E. auto. }
  rewrite <- Haa, La in La'. injection La' as Hl.
  destruct (app_eq_length _ _ _ _ E Hl) as [-> ->].
  split; [reflexivity|]. split; [|reflexivity]. eapply utf8_seq_val; eauto.
Qed.

(* ---- the three outcomes *)

(* the first byte announces more bytes than there are *)
Definition truncated (p : list byte) : Prop :=
  exists a tl n, p = a :: tl /\ seq_length a = Some n /\ (length p < n)%nat.

Inductive outcome (p : list byte) : res (CharProperties * nat) -> Prop :=
| out_empty : p = [] -> outcome p (Ret (0, 0%nat))
| out_more : truncated p -> ~ starts_seq p -> outcome p (Ret (0, 0%nat))
| out_error : p <> [] -> ~ truncated p -> ~ starts_seq p -> outcome p (Ret (Error, 1%nat))
| out_char bs v rest : utf8_seq bs v -> p = bs ++ rest -> good (item_class (Char bs v)) ->
    outcome p (Ret (enc (item_class (Char bs v)), length bs)).

Lemma bad_cont_ok p n : forall i,
  (i + n <= length p)%nat ->
  bad_continuation p i n = Ret (negb (forallb is_contb (firstn n (skipn i p)))).
Proof.
  induction n as [|n IH]; intros i H; cbn [bad_continuation].
  - reflexivity.
  - unfold index. destruct (nth_error p i) as [b|] eqn:E.
    2:{ apply nth_error_None in E. lia. }
    cbn [bind]. rewrite cont_mask.
    assert (skipn i p = b :: skipn (S i) p) as ->.
    { clear -E. revert i E; induction p as [|x p IH]; intros [|i] E; simpl in *; try discriminate.
      - congruence.
      - rewrite (IH i E). reflexivity. }
    cbn [firstn forallb]. destruct (is_contb b); cbn [andb].
    + apply IH. lia.
    + reflexivity.
Qed.

Lemma make_seq a tl n :
  seq_length a = Some n -> (n <= S (length tl))%nat ->
  forallb is_contb (firstn (n - 1) tl) = true ->
  exists v, utf8_seq (a :: firstn (n - 1) tl) v.
Proof.
  intros Hn Hl Hc. rewrite seq_length_ok in Hn. unfold seq_length_spec in Hn.
  destruct (N.ltb_spec (bval a) 0x80).
  { injection Hn as <-. simpl. eexists. constructor. lia. }
  destruct (N.ltb_spec (bval a) 0xC0); [discriminate|].
  destruct (N.ltb_spec (bval a) 0xE0).
  { injection Hn as <-. destruct tl as [|b tl]; simpl in Hl; [lia|].
    simpl in *. rewrite andb_true_r in Hc.
    eexists. constructor; [lia|apply is_contb_spec; tauto]. }
  destruct (N.ltb_spec (bval a) 0xF0).
  { injection Hn as <-. destruct tl as [|b [|c tl]]; simpl in Hl; try lia.
    simpl in *. rewrite andb_true_r in Hc. apply andb_true_iff in Hc.
    eexists. constructor; [lia|apply is_contb_spec; tauto..]. }
  destruct (N.ltb_spec (bval a) 0xF8); [|discriminate].
  injection Hn as <-. destruct tl as [|b [|c [|d tl]]]; simpl in Hl; try lia.
  simpl in *. rewrite andb_true_r in Hc. apply andb_true_iff in Hc.
  destruct Hc as [Hb Hc]. apply andb_true_iff in Hc.
  eexists. constructor; [lia|apply is_contb_spec; tauto..].
Qed.

Lemma seq_conts bs v a tl :
  utf8_seq bs v -> bs = a :: tl -> forallb is_contb tl = true.
Proof.
  intros H E. destruct H; injection E as <- <-; simpl; rewrite ?andb_true_iff;
    repeat match goal with H : is_cont _ |- _ => apply is_contb_spec in H end; tauto.
Qed.

Theorem lookup_outcome p : outcome p (LookupFirstChar p).
Proof.
  unfold LookupFirstChar, lookup_first_char.
  destruct p as [|a tl]; [apply out_empty; reflexivity|].
  assert (Hss : forall bs v rest, utf8_seq bs v -> a :: tl = bs ++ rest ->
            exists n, seq_length a = Some n /\ n = length bs).
  { intros bs v rest Hs E. destruct (utf8_seq_first _ _ Hs) as (a' & tl' & Eb & Hl).
    rewrite Eb in E. simpl in E. injection E as <- E. exists (length bs). auto. }
  destruct (seq_length a) as [n|] eqn:Hn.
  2:{ apply out_error; [discriminate| |].
      - intros (a' & tl' & n & E & Hn' & _). injection E as <- <-. congruence.
      - intros (bs & v & rest & Hs & E). destruct (Hss _ _ _ Hs E) as (n & H & _). discriminate. }
  rewrite len_lt_spec. destruct (Nat.ltb_spec (length (a :: tl)) n) as [Hlt|Hge].
  { apply out_more.
    - exists a, tl, n. auto.
    - intros (bs & v & rest & Hs & E). destruct (Hss _ _ _ Hs E) as (n' & H & Hl).
      injection H as <-. rewrite E, app_length in Hlt. lia. }
  assert (1 <= n)%nat as Hn1.
  { rewrite seq_length_ok in Hn. unfold seq_length_spec in Hn.
    repeat match type of Hn with context [if ?c then _ else _] => destruct c end;
      try discriminate; injection Hn as <-; lia. }
  rewrite bad_cont_ok by lia. cbn [bind].
  change (skipn 1 (a :: tl)) with tl.
  destruct (forallb is_contb (firstn (n - 1) tl)) eqn:Hc; cbn [negb].
  - destruct (make_seq a tl n Hn Hge Hc) as [v Hs].
    set (bs := a :: firstn (n - 1) tl) in *.
    assert (a :: tl = bs ++ skipn (n - 1) tl) as E.
    { unfold bs. simpl. rewrite firstn_skipn. reflexivity. }
    assert (n = length bs) as Hlen.
    { unfold bs. simpl in *. rewrite firstn_length. lia. }
    generalize dependent (skipn (n - 1) tl). intros rest E.
    clearbody bs. destruct (walk_seq bs v rest Hs) as [Hg Hw].
    rewrite E, Hlen, Hw. cbn [bind]. eapply out_char; eauto.
  - apply out_error; [discriminate| |].
    + intros (a' & tl' & n' & E & Hn' & Hl). injection E as <- <-.
      assert (n' = n) by congruence. subst. lia.
    + intros (bs & v & rest & Hs & E).
      destruct (Hss _ _ _ Hs E) as (n' & H & Hl). injection H as <-.
      destruct (utf8_seq_first _ _ Hs) as (a' & tl' & Eb & _).
      rewrite Eb in E. simpl in E. injection E as <- E.
      assert (firstn (n - 1) tl = tl') as Ef.
      { rewrite E. replace (n - 1)%nat with (length tl') by (rewrite Hl, Eb; simpl; lia).
        apply firstn_app_exact. }
      rewrite Ef, (seq_conts bs v a tl' Hs Eb) in Hc. discriminate.
Qed.

(* ---- derived forms *)

Lemma good_enc c : good c -> enc c <> Error.
Proof.
  unfold good, good_classes. simpl. intros H.
  repeat (destruct H as [<-|H]; [vm_compute; discriminate|]). destruct H.
Qed.

Lemma lookup_char bs v rest :
  utf8_seq bs v ->
  LookupFirstChar (bs ++ rest) = Ret (enc (item_class (Char bs v)), length bs) /\
  good (item_class (Char bs v)).
Proof.
  intros H. destruct (lookup_outcome (bs ++ rest)) as [E|_ N|_ _ N|bs' v' rest' H' E G].
  - destruct H; discriminate.
  - destruct N. exists bs, v, rest. auto.
  - destruct N. exists bs, v, rest. auto.
  - destruct (utf8_seq_unique _ _ _ _ _ _ H H' E) as (-> & -> & _). auto.
Qed.

Lemma lookup_truncated p : truncated p -> LookupFirstChar p = Ret (0, 0%nat).
Proof.
  intros (a & tl & n & -> & Hn & Hl).
  unfold LookupFirstChar, lookup_first_char. rewrite Hn, len_lt_spec.
  destruct (Nat.ltb_spec (length (a :: tl)) n); [reflexivity|lia].
Qed.

Lemma truncated_not_seq p : truncated p -> ~ starts_seq p.
Proof.
  intros (a & tl & n & -> & Hn & Hl) (bs & v & rest & Hs & E).
  destruct (utf8_seq_first _ _ Hs) as (a' & tl' & Eb & Hl').
  pose proof (f_equal (@length _) E) as El. rewrite app_length in El.
  rewrite Eb in E. simpl in E. injection E as <- _.
  assert (n = length bs) by congruence. simpl in *. lia.
Qed.
