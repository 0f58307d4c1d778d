(* Facts about the standard-library functions the parsers use. *)
From Coq Require Import List NArith ZArith Arith Bool Lia Strings.Byte Strings.String.
From Coq Require Import ZifyBool ZifyNat ZifyN.
From Verif Require Import Spec.Utf8 Spec.UcdFile Spec.ErrorValues Model.Base Model.PropNames Model.UcdParse.
Import ListNotations.
Notation length := List.length.

Lemma byte_eqb_spec a b : reflect (a = b) (Byte.eqb a b).
Proof.
  destruct (Byte.eqb a b) eqn:E; constructor.
  - apply Byte.byte_dec_bl. exact E.
  - intros ->. rewrite (Byte.byte_dec_lb eq_refl) in E. discriminate.
Qed.

(* ---- Cut *)

Lemma after_prefix_some p : forall s u, after_prefix p s = Some u <-> s = p ++ u.
Proof.
  induction p as [|x p IH]; intros s u; cbn [after_prefix app].
  - split; [congruence|intros ->; reflexivity].
  - destruct s as [|y s]; [split; discriminate|].
    destruct (byte_eqb_spec x y) as [->|H].
    + rewrite IH. split; [intros ->; reflexivity|congruence].
    + split; [discriminate|congruence].
Qed.

(* sep does not occur in s *)
Definition absent (sep s : list byte) : Prop := forall a b, s <> a ++ sep ++ b.

Lemma Cut_true sep s b a : Cut sep s = (b, a, true) -> s = b ++ sep ++ a.
Proof.
  revert b a. induction s as [|x s IH]; intros b a; cbn [Cut].
  - destruct (after_prefix sep []) eqn:E; [|discriminate].
    intros H. injection H as <- <-. apply after_prefix_some in E. exact E.
  - destruct (after_prefix sep (x :: s)) eqn:E.
    + intros H. injection H as <- <-. apply after_prefix_some in E. exact E.
    + destruct (Cut sep s) as [[b' a'] f] eqn:C. intros H. injection H as <- <- ->.
      cbn [app]. f_equal. apply IH. reflexivity.
Qed.

Lemma Cut_false sep s b a : Cut sep s = (b, a, false) -> b = s /\ a = [] /\ absent sep s.
Proof.
  revert b a. induction s as [|x s IH]; intros b a; cbn [Cut].
  - destruct (after_prefix sep []) eqn:E; [discriminate|].
    intros H. injection H as <- <-. repeat split. intros c d H.
    destruct c; [|discriminate]. cbn [app] in H. apply after_prefix_some in H. congruence.
  - destruct (after_prefix sep (x :: s)) eqn:E; [discriminate|].
    destruct (Cut sep s) as [[b' a'] f] eqn:C. intros H. injection H as <- <- ->.
    destruct (IH _ _ eq_refl) as (-> & -> & A). repeat split. intros c d H.
    destruct c as [|y c]; [cbn [app] in H; apply after_prefix_some in H; congruence|].
    cbn [app] in H. injection H as _ H. eapply A; eassumption.
Qed.

Lemma Cut_min sep s : forall b a x y, Cut sep s = (b, a, true) -> s = x ++ sep ++ y -> length b <= length x.
Proof.
  induction s as [|c s IH]; intros b a x y; cbn [Cut].
  - destruct (after_prefix sep []) eqn:E; [|discriminate]. intros H _. injection H as <- <-. cbn [length]. lia.
  - destruct (after_prefix sep (c :: s)) eqn:E; [intros H _; injection H as <- <-; cbn [length]; lia|].
    destruct (Cut sep s) as [[b' a'] f] eqn:C. intros H K. injection H as <- <- ->.
    destruct x as [|d x]; cbn [app] in K; [apply after_prefix_some in K; congruence|].
    cbn [length]. apply le_n_S. eapply IH; [reflexivity|]. injection K as _ K. exact K.
Qed.

(* the first occurrence: nothing of sep starts within before *)
Lemma Cut_found sep b a :
  (forall b1 b2, b = b1 ++ b2 -> b2 <> [] -> after_prefix sep (b2 ++ sep ++ a) = None) ->
  Cut sep (b ++ sep ++ a) = (b, a, true).
Proof.
  induction b as [|x b IH]; intros H.
  - cbn [app]. destruct (sep ++ a) as [|y s] eqn:E; cbn [Cut].
    + destruct sep; [|discriminate]. cbn [app] in E. subst a. reflexivity.
    + assert (after_prefix sep (y :: s) = Some a) as -> by (apply after_prefix_some; congruence). reflexivity.
  - cbn [app Cut]. pose proof (H [] (x :: b) eq_refl ltac:(discriminate)) as K. cbn [app] in K. rewrite K.
    rewrite IH; [reflexivity|]. intros b1 b2 E. apply (H (x :: b1) b2). cbn [app]. congruence.
Qed.

Lemma Cut_found1 c sep b a : ~ In c b -> Cut (c :: sep) (b ++ (c :: sep) ++ a) = (b, a, true).
Proof.
  intros H. apply Cut_found. intros b1 b2 -> Hb. destruct b2 as [|x b2]; [congruence|]. cbn [app after_prefix].
  destruct (byte_eqb_spec c x) as [->|]; [|reflexivity]. exfalso. apply H. apply in_or_app. right. left. reflexivity.
Qed.

Lemma Cut_absent sep s : absent sep s -> Cut sep s = (s, [], false).
Proof.
  intros H. destruct (Cut sep s) as [[b a] [|]] eqn:C.
  - apply Cut_true in C. exfalso. eapply H. exact C.
  - apply Cut_false in C. destruct C as (-> & -> & _). reflexivity.
Qed.

Lemma absent1 c s : absent [c] s <-> ~ In c s.
Proof.
  split.
  - intros H K. apply in_split in K. destruct K as (a & b & ->). apply (H a b). reflexivity.
  - intros H a b ->. apply H. apply in_or_app. right. left. reflexivity.
Qed.

Lemma first_occurrence c (s : list byte) : In c s -> exists b a, s = b ++ c :: a /\ ~ In c b.
Proof.
  induction s as [|x s IH]; [contradiction|]. intros H.
  destruct (byte_eqb_spec x c) as [->|N]; [exists [], s; split; [reflexivity|tauto]|].
  destruct H as [H|H]; [congruence|]. destruct (IH H) as (b & a & -> & K).
  exists (x :: b), a. split; [reflexivity|]. intros [E|E]; [congruence|tauto].
Qed.

Lemma first_occurrence_unique c (b b' : list byte) : forall a a',
  b ++ c :: a = b' ++ c :: a' -> ~ In c b -> ~ In c b' -> b = b' /\ a = a'.
Proof.
  revert b'. induction b as [|x b IH]; intros [|y b'] a a' E H H'; cbn [app] in E.
  - injection E. auto.
  - injection E as -> _. exfalso. apply H'. left. reflexivity.
  - injection E as -> _. exfalso. apply H. left. reflexivity.
  - injection E as -> E. destruct (IH b' a a' E) as [-> ->]; [firstorder|firstorder|]. auto.
Qed.

Lemma Cut1 c s : (~ In c s /\ Cut [c] s = (s, [], false)) \/
  exists b a, s = b ++ c :: a /\ ~ In c b /\ Cut [c] s = (b, a, true).
Proof.
  destruct (in_dec Byte.byte_eq_dec c s) as [H|H].
  - right. destruct (first_occurrence c s H) as (b & a & -> & K). exists b, a. split; [reflexivity|].
    split; [exact K|]. apply (Cut_found1 c [] b a K).
  - left. split; [exact H|]. apply Cut_absent. apply absent1. exact H.
Qed.

(* ---- white space *)

Definition spaces : list N :=
  [0x9; 0xA; 0xB; 0xC; 0xD; 0x20; 0x85; 0xA0; 0x1680; 0x2000; 0x2001; 0x2002; 0x2003; 0x2004; 0x2005;
   0x2006; 0x2007; 0x2008; 0x2009; 0x200A; 0x2028; 0x2029; 0x202F; 0x205F; 0x3000]%N.

Lemma white_space_list c : white_space c <-> In c spaces.
Proof. unfold white_space, spaces. cbn [In]. split; lia. Qed.

Lemma width_encode c u : white_space c -> space_width (utf8_encode c ++ u) = length (utf8_encode c).
Proof.
  intros H. apply white_space_list in H. unfold spaces in H. cbn [In] in H.
  repeat (destruct H as [<-|H]; [reflexivity|]). contradiction.
Qed.

Lemma width_rev_encode c u : white_space c -> space_width_rev (rev (utf8_encode c) ++ u) = length (utf8_encode c).
Proof.
  intros H. apply white_space_list in H. unfold spaces in H. cbn [In] in H.
  repeat (destruct H as [<-|H]; [reflexivity|]). contradiction.
Qed.

Lemma prefix_width_some ps s n : prefix_width ps s = S n -> exists p u, In p ps /\ s = p ++ u.
Proof.
  induction ps as [|p ps IH]; cbn [prefix_width]; [discriminate|].
  destruct (after_prefix p s) as [u|] eqn:E.
  - intros _. exists p, u. split; [left; reflexivity|]. apply after_prefix_some. exact E.
  - intros H. destruct (IH H) as (q & u & Hq & Es). exists q, u. split; [right; exact Hq|exact Es].
Qed.

Lemma ascii_space_some b : asciiSpace b = true -> exists c, white_space c /\ [b] = utf8_encode c.
Proof.
  intros H. exists (bval b). split.
  - unfold white_space. destruct b; try discriminate H; vm_compute; intuition congruence.
  - destruct b; try discriminate H; reflexivity.
Qed.

Lemma wide_space p : In p wide_spaces -> exists c, white_space c /\ p = utf8_encode c.
Proof.
  unfold wide_spaces. intros H. apply in_map_iff in H. destruct H as (c & <- & H). exists c. split; [|reflexivity].
  apply white_space_list. unfold spaces. cbn [In] in *. tauto.
Qed.

Lemma width_some s n : space_width s = S n -> exists c u, white_space c /\ s = utf8_encode c ++ u.
Proof.
  unfold space_width. destruct s as [|b s]; [discriminate|].
  destruct (bval b <? 0x80)%N.
  - destruct (asciiSpace b) eqn:E; [|discriminate]. intros _.
    destruct (ascii_space_some b E) as (c & Hc & Eb). exists c, s. rewrite <- Eb. auto.
  - intros H. destruct (prefix_width_some _ _ _ H) as (p & u & Hp & Es).
    destruct (wide_space p Hp) as (c & Hc & ->). exists c, u. auto.
Qed.

Lemma width_rev_some s n : space_width_rev s = S n -> exists c u, white_space c /\ s = rev (utf8_encode c) ++ u.
Proof.
  unfold space_width_rev. destruct s as [|b s]; [discriminate|].
  destruct (bval b <? 0x80)%N.
  - destruct (asciiSpace b) eqn:E; [|discriminate]. intros _.
    destruct (ascii_space_some b E) as (c & Hc & Eb). exists c, s. rewrite <- Eb. auto.
  - intros H. destruct (prefix_width_some _ _ _ H) as (p & u & Hp & Es).
    apply in_map_iff in Hp. destruct Hp as (q & <- & Hq).
    destruct (wide_space q Hq) as (c & Hc & ->). exists c, u. unfold rev' in Es. rewrite <- rev_alt in Es. auto.
Qed.

(* ---- TrimSpace *)

Lemma encode_pos c : 1 <= length (utf8_encode c).
Proof. unfold utf8_encode. repeat destruct (_ <? _)%N; cbn [length]; lia. Qed.

Definition contb (b : byte) : bool := ((0x80 <=? bval b) && (bval b <? 0xC0))%N.
Lemma contb_iff b : contb b = true <-> is_cont b.
Proof. unfold contb, is_cont. lia. Qed.

Lemma white_first c : white_space c -> exists b tl, utf8_encode c = b :: tl /\ ~ is_cont b /\ Forall is_cont tl.
Proof.
  intros H. apply white_space_list in H.
  assert (forallb (fun c => match utf8_encode c with b :: tl => negb (contb b) && forallb contb tl | [] => false end) spaces = true)
    as K by (vm_compute; reflexivity).
  rewrite forallb_forall in K. specialize (K c H). destruct (utf8_encode c) as [|b tl]; [discriminate|].
  apply andb_true_iff in K. destruct K as [K1 K2]. exists b, tl. split; [reflexivity|]. rewrite <- contb_iff. split.
  - apply negb_true_iff in K1. congruence.
  - rewrite forallb_forall in K2. apply Forall_forall. intros x Hx. apply contb_iff. auto.
Qed.

Lemma blanks_app a b : blanks a -> blanks b -> blanks (a ++ b).
Proof. induction 1; [auto|]. intros. rewrite <- app_assoc. constructor; auto. Qed.

Lemma blanks_one c : white_space c -> blanks (utf8_encode c).
Proof. intros. rewrite <- (app_nil_r (utf8_encode c)). constructor; [assumption|constructor]. Qed.

Lemma blanks_snoc w : blanks w -> w = [] \/ exists w' c, w = w' ++ utf8_encode c /\ white_space c /\ blanks w'.
Proof.
  induction 1 as [|c w Hc Hw IH]; [left; reflexivity|right].
  destruct IH as [->|(w' & c' & -> & Hc' & Hw')].
  - exists [], c. rewrite app_nil_r. repeat split; [assumption|constructor].
  - exists (utf8_encode c ++ w'), c'. rewrite app_assoc. repeat split; [assumption|constructor; assumption].
Qed.

Lemma blanks_length_ind (P : list byte -> Prop) : P [] ->
  (forall w c, white_space c -> blanks w -> P w -> P (w ++ utf8_encode c)) -> forall w, blanks w -> P w.
Proof.
  intros P0 PS w. remember (length w) as k eqn:Ek. revert w Ek.
  induction k as [k IH] using lt_wf_ind. intros w -> H.
  destruct (blanks_snoc w H) as [->|(w' & c & -> & Hc & Hw)]; [exact P0|].
  apply PS; [assumption|assumption|]. apply (IH (length w')); auto.
  rewrite app_length. pose proof (encode_pos c). lia.
Qed.

Lemma rev'_rev (s : list byte) : rev' s = rev s.
Proof. unfold rev'. symmetry. apply rev_alt. Qed.

(* the outcome of dropping, for any width function that announces non-empty
   prefixes *)
Lemma drop_fuel width : (forall s, width s <= length s) -> forall k s, length s <= k ->
  drop_spaces width k s = drop_spaces width (length s) s.
Proof.
  intros W k. induction k as [k IH] using lt_wf_ind. intros s Hs.
  destruct k as [|k]; destruct (length s) as [|l] eqn:L; cbn [drop_spaces]; try lia; try reflexivity.
  - destruct s; [|discriminate]. specialize (W []). cbn [length] in W. destruct (width []); [reflexivity|lia].
  - destruct (width s) as [|w] eqn:E; [reflexivity|].
    pose proof (W s) as Hw. rewrite E in Hw.
    rewrite (IH k) by (try lia; rewrite skipn_length; lia).
    destruct (Nat.eq_dec l k) as [->|].
    + rewrite (IH k); [reflexivity|lia|rewrite skipn_length; lia].
    + rewrite (IH l); [reflexivity|lia|rewrite skipn_length; lia].
Qed.

Lemma width_le s : space_width s <= length s.
Proof.
  destruct (space_width s) as [|n] eqn:E; [lia|].
  destruct (width_some s n E) as (c & u & Hc & ->). rewrite width_encode in E by assumption.
  rewrite app_length. lia.
Qed.
Lemma width_rev_le s : space_width_rev s <= length s.
Proof.
  destruct (space_width_rev s) as [|n] eqn:E; [lia|].
  destruct (width_rev_some s n E) as (c & u & Hc & ->). rewrite width_rev_encode in E by assumption.
  rewrite app_length, rev_length. lia.
Qed.

Lemma TrimLeft_zero s : space_width s = 0 -> TrimLeft s = s.
Proof. unfold TrimLeft. intros H. destruct s; cbn [length drop_spaces]; [reflexivity|rewrite H; reflexivity]. Qed.

Lemma TrimLeft_encode c s : white_space c -> TrimLeft (utf8_encode c ++ s) = TrimLeft s.
Proof.
  intros Hc. unfold TrimLeft. pose proof (encode_pos c) as Hp.
  destruct (length (utf8_encode c ++ s)) as [|k] eqn:E; [rewrite app_length in E; lia|].
  cbn [drop_spaces]. rewrite width_encode by assumption.
  destruct (length (utf8_encode c)) as [|w] eqn:Ew; [lia|]. rewrite <- Ew.
  rewrite skipn_app, skipn_all, Nat.sub_diag. cbn [app skipn].
  apply drop_fuel; [exact width_le|]. rewrite app_length in E. lia.
Qed.

Lemma TrimLeft_blanks w s : blanks w -> TrimLeft (w ++ s) = TrimLeft s.
Proof. induction 1; [reflexivity|]. rewrite <- app_assoc, TrimLeft_encode by assumption. assumption. Qed.

Lemma TrimLeft_spec s : exists w, blanks w /\ s = w ++ TrimLeft s /\ space_width (TrimLeft s) = 0.
Proof.
  remember (length s) as k eqn:Ek. revert s Ek. induction k as [k IH] using lt_wf_ind. intros s ->.
  destruct (space_width s) as [|n] eqn:E.
  - exists []. rewrite TrimLeft_zero by assumption. repeat split; [constructor|assumption].
  - destruct (width_some s n E) as (c & u & Hc & ->).
    destruct (IH (length u)) with (s := u) as (w & Hw & Ew & Z); [rewrite app_length; pose proof (encode_pos c); lia|reflexivity|].
    rewrite TrimLeft_encode by assumption. exists (utf8_encode c ++ w). repeat split; [constructor; assumption| |assumption].
    rewrite <- app_assoc. congruence.
Qed.

Definition TrimRev (s : list byte) : list byte := drop_spaces space_width_rev (length s) s.
Lemma TrimRight_rev s : TrimRight s = rev (TrimRev (rev s)).
Proof. unfold TrimRight, TrimRev. rewrite !rev'_rev, rev_length. reflexivity. Qed.

Lemma TrimRight_zero s : space_width_rev (rev s) = 0 -> TrimRight s = s.
Proof.
  rewrite TrimRight_rev. unfold TrimRev. intros H.
  destruct (rev s) eqn:E; cbn [length drop_spaces]; [|rewrite H]; rewrite <- E; apply rev_involutive.
Qed.

Lemma TrimRight_encode c s : white_space c -> TrimRight (s ++ utf8_encode c) = TrimRight s.
Proof.
  intros Hc. rewrite !TrimRight_rev. f_equal. unfold TrimRev. rewrite rev_app_distr. pose proof (encode_pos c) as Hp.
  destruct (length (rev (utf8_encode c) ++ rev s)) as [|k] eqn:E; [rewrite app_length, rev_length in E; lia|].
  cbn [drop_spaces]. rewrite width_rev_encode by assumption.
  destruct (length (utf8_encode c)) as [|w] eqn:Ew; [lia|]. rewrite <- Ew.
  rewrite skipn_app. rewrite <- (rev_length (utf8_encode c)) at 1 2. rewrite skipn_all, Nat.sub_diag. cbn [app skipn].
  apply drop_fuel; [exact width_rev_le|]. rewrite app_length, (rev_length (utf8_encode c)) in E. lia.
Qed.

Lemma TrimRight_blanks w s : blanks w -> TrimRight (s ++ w) = TrimRight s.
Proof.
  intros H. induction H as [|w c Hc Hw IH] using blanks_length_ind; [rewrite app_nil_r; reflexivity|].
  rewrite app_assoc, TrimRight_encode by assumption. assumption.
Qed.

Lemma TrimRight_spec s : exists w, blanks w /\ s = TrimRight s ++ w /\ space_width_rev (rev (TrimRight s)) = 0.
Proof.
  remember (length s) as k eqn:Ek. revert s Ek. induction k as [k IH] using lt_wf_ind. intros s ->.
  destruct (space_width_rev (rev s)) as [|n] eqn:E.
  - exists []. rewrite TrimRight_zero by assumption. repeat split; [constructor|rewrite app_nil_r; reflexivity|assumption].
  - destruct (width_rev_some (rev s) n E) as (c & u & Hc & Es).
    assert (s = rev u ++ utf8_encode c) as ->.
    { rewrite <- (rev_involutive s), Es, rev_app_distr, rev_involutive. reflexivity. }
    destruct (IH (length (rev u))) with (s := rev u) as (w & Hw & Ew & Z); [rewrite app_length; pose proof (encode_pos c); lia|reflexivity|].
    rewrite TrimRight_encode by assumption. exists (w ++ utf8_encode c).
    repeat split; [apply blanks_app; [assumption|apply blanks_one; assumption]| |assumption].
    rewrite app_assoc. congruence.
Qed.

Lemma trimmed_iff t : trimmed t <-> space_width t = 0 /\ space_width_rev (rev t) = 0.
Proof.
  split.
  - intros H. split.
    + destruct (space_width t) as [|n] eqn:E; [reflexivity|]. destruct (width_some t n E) as (c & u & Hc & Et).
      exfalso. destruct (H c u Hc) as [K _]. exact (K Et).
    + destruct (space_width_rev (rev t)) as [|n] eqn:E; [reflexivity|]. destruct (width_rev_some _ n E) as (c & u & Hc & Et).
      exfalso. destruct (H c (rev u) Hc) as [_ K]. apply K. rewrite <- (rev_involutive t), Et, rev_app_distr, rev_involutive. reflexivity.
  - intros [H1 H2] c u Hc. split; intros ->.
    + rewrite width_encode in H1 by assumption. pose proof (encode_pos c). lia.
    + rewrite rev_app_distr, width_rev_encode in H2 by assumption. pose proof (encode_pos c). lia.
Qed.

(* no white space straddles the end of a text and following blanks *)
Lemma width_straddle t w : t <> [] -> space_width t = 0 -> blanks w -> space_width (t ++ w) = 0.
Proof.
  intros Ht Hz Hw. destruct Hw as [|c w Hc Hw]; [rewrite app_nil_r; exact Hz|].
  destruct (space_width (t ++ utf8_encode c ++ w)) as [|n] eqn:E; [reflexivity|exfalso].
  destruct (width_some _ n E) as (c' & u & Hc' & Es).
  destruct (white_first c Hc) as (b & tl & Eb & Hb & _). rewrite Eb in Es. cbn [app] in Es.
  destruct (white_first c' Hc') as (b' & tl' & Eb' & _ & Hcont).
  destruct (Nat.le_gt_cases (length (utf8_encode c')) (length t)) as [L|L].
  - assert (t = utf8_encode c' ++ skipn (length (utf8_encode c')) t) as Et.
    { rewrite <- (firstn_skipn (length (utf8_encode c')) t) at 1. f_equal.
      assert (firstn (length (utf8_encode c')) (t ++ b :: tl ++ w) = firstn (length (utf8_encode c')) (utf8_encode c' ++ u)) as K by (rewrite Es; reflexivity).
      rewrite firstn_app in K. replace (length (utf8_encode c') - length t) with 0 in K by lia. cbn [firstn] in K.
      rewrite app_nil_r, firstn_app, Nat.sub_diag, firstn_all in K. cbn [firstn] in K. rewrite app_nil_r in K. exact K. }
    rewrite Et, width_encode in Hz by assumption. pose proof (encode_pos c'). lia.
  - assert (In b tl') as Hin.
    { rewrite Eb' in Es, L. destruct t as [|x t]; [congruence|]. cbn [app length] in Es, L.
      injection Es as _ Es. clear - Es L.
      revert tl' Es L. induction t as [|y t IH]; intros [|z tl'] Es L; cbn [app length] in *; try lia.
      - injection Es as -> _. left. reflexivity.
      - injection Es as _ Es. right. apply IH; [exact Es|lia]. }
    apply Hb. rewrite Forall_forall in Hcont. apply Hcont. exact Hin.
Qed.

Theorem TrimSpace_padded s t : padded s t <-> TrimSpace s = t.
Proof.
  unfold TrimSpace. split.
  - intros (w1 & w2 & H1 & H2 & Ht & ->). rewrite TrimLeft_blanks by assumption.
    apply trimmed_iff in Ht. destruct Ht as [Hl Hr].
    destruct t as [|b t].
    + cbn [app]. rewrite <- (app_nil_r w2) at 1. rewrite TrimLeft_blanks by assumption. reflexivity.
    + rewrite TrimLeft_zero by (apply width_straddle; [discriminate|assumption|assumption]).
      rewrite TrimRight_blanks by assumption. apply TrimRight_zero. exact Hr.
  - intros <-. destruct (TrimLeft_spec s) as (w1 & H1 & E1 & Z1).
    destruct (TrimRight_spec (TrimLeft s)) as (w2 & H2 & E2 & Z2).
    exists w1, w2. split; [assumption|]. split; [assumption|]. split; [|congruence].
    apply trimmed_iff. split; [|assumption].
    destruct (space_width (TrimRight (TrimLeft s))) as [|n] eqn:E; [reflexivity|exfalso].
    destruct (width_some _ n E) as (c & u & Hc & Es). rewrite Es, <- app_assoc in E2. rewrite E2 in Z1.
    rewrite width_encode in Z1 by assumption. pose proof (encode_pos c). lia.
Qed.

Lemma padded_exists s : exists t, padded s t.
Proof. exists (TrimSpace s). apply TrimSpace_padded. reflexivity. Qed.

(* ---- numbers *)

Lemma digit_iff c d : digit c = Some d <-> digit_value c d.
Proof.
  unfold digit_value. split.
  - revert c. assert (forallb (fun c : byte => match digit c with Some d =>
      ((d <? 10) && (bval c =? 0x30 + d)) || ((10 <=? d) && (d <? 16) && ((bval c =? 0x41 + (d - 10)) || (bval c =? 0x61 + (d - 10))))
      | None => true end)%N%bool (map (fun n => mkbyte (N.of_nat n)) (seq 0 256)) = true) as H by (vm_compute; reflexivity).
    rewrite forallb_forall in H. intros c E. specialize (H c).
    assert (In c (map (fun n => mkbyte (N.of_nat n)) (seq 0 256))) as Hin.
    { apply in_map_iff. exists (N.to_nat (bval c)). split.
      - rewrite N2Nat.id. unfold mkbyte, bval. rewrite Byte.of_to_N. reflexivity.
      - apply in_seq. pose proof (Byte.to_N_bounded c). unfold bval. lia. }
    specialize (H Hin). rewrite E in H. lia.
  - intros H.
    assert (c = mkbyte (bval c)) as Ec by (unfold mkbyte, bval; rewrite Byte.of_to_N; reflexivity).
    assert (d < 16)%N as Hd by lia.
    assert (In d (map N.of_nat (seq 0 16))) as Hin.
    { apply in_map_iff. exists (N.to_nat d). split; [lia|apply in_seq; lia]. }
    assert (forallb (fun d : N => forallb (fun b : N => match digit (mkbyte b) with Some d' => (d' =? d)%N | None => false end)
      (if (d <? 10)%N then [0x30 + d] else [0x41 + (d - 10); 0x61 + (d - 10)])%N) (map N.of_nat (seq 0 16)) = true) as K by (vm_compute; reflexivity).
    rewrite forallb_forall in K. specialize (K d Hin). rewrite forallb_forall in K. specialize (K (bval c)).
    assert (match digit (mkbyte (bval c)) with Some d' => (d' =? d)%N | None => false end = true) as Q.
    { apply K. destruct (N.ltb_spec d 10); cbn [In]; lia. }
    rewrite <- Ec in Q. destruct (digit c) as [d'|]; [|discriminate]. f_equal. lia.
Qed.

Lemma digit_small c d : digit c = Some d -> (d < 16)%N.
Proof. rewrite digit_iff. unfold digit_value. lia. Qed.

Inductive acc : N -> list byte -> N -> Prop :=
| acc_nil n : acc n [] n
| acc_cons n c d s m : digit_value c d -> acc (n * 16 + d) s m -> acc n (c :: s) m.

Lemma acc_snoc n s m c d : acc n s m -> digit_value c d -> acc n (s ++ [c]) (m * 16 + d).
Proof. induction 1; intros; cbn [app]; econstructor; eauto. constructor. Qed.

Lemma acc_snoc_inv n s c m : acc n (s ++ [c]) m -> exists m' d, acc n s m' /\ digit_value c d /\ m = (m' * 16 + d)%N.
Proof.
  revert n. induction s as [|x s IH]; intros n H; cbn [app] in H; inversion H; subst.
  - match goal with K : acc _ [] _ |- _ => inversion K; subst end. exists n, d. repeat split; [constructor|assumption].
  - match goal with K : acc _ (s ++ _) _ |- _ => destruct (IH _ K) as (m' & d' & A & Hd & ->) end.
    exists m', d'. repeat split; [econstructor; eassumption|assumption].
Qed.

Lemma hex_value_acc s m : hex_value s m <-> s <> [] /\ acc 0 s m.
Proof.
  split.
  - induction 1 as [c d H|s n c d H [Hs IH] Hd].
    + split; [discriminate|]. econstructor; [eassumption|]. replace (0 * 16 + d)%N with d by lia. constructor.
    + split; [destruct s; discriminate|]. eapply acc_snoc; eassumption.
  - intros [Hs H]. revert m Hs H. induction s as [|c s IH] using rev_ind; intros m Hs H; [congruence|].
    destruct (acc_snoc_inv _ _ _ _ H) as (m' & d & A & Hd & ->).
    destruct s as [|x s]; [inversion A; subst; cbn [app]; replace (0 * 16 + d)%N with d by lia; constructor; assumption|].
    constructor; [|assumption]. apply IH; [discriminate|assumption].
Qed.

Lemma acc_mono n s m : acc n s m -> (n <= m)%N.
Proof. induction 1; lia. Qed.

Lemma acc_fun n s m : acc n s m -> forall m', acc n s m' -> m = m'.
Proof.
  induction 1 as [n|n c d s m Hd H IH]; intros m' H'; inversion H'; subst; [reflexivity|].
  apply IH. assert (d = d0) as -> by (apply digit_iff in Hd; match goal with K : digit_value c d0 |- _ => apply digit_iff in K end; congruence).
  assumption.
Qed.

Lemma hex_value_fun s m m' : hex_value s m -> hex_value s m' -> m = m'.
Proof. rewrite !hex_value_acc. intros [_ H] [_ H']. eapply acc_fun; eassumption. Qed.

Lemma parse_digits_ok s : forall n m, acc n s m -> (m < 2 ^ 32)%N -> parse_digits n s = inl m.
Proof.
  induction s as [|c s IH]; intros n m H L; inversion H; subst; cbn [parse_digits]; [reflexivity|].
  match goal with K : digit_value c d |- _ => apply digit_iff in K; rewrite K end.
  match goal with K : acc _ s m |- _ => pose proof (acc_mono _ _ _ K) end.
  destruct (N.ltb_spec 0xFFFFFFFF (n * 16 + d)); [lia|]. apply IH; assumption.
Qed.

Lemma parse_digits_inl s : forall n m, parse_digits n s = inl m -> (n < 2 ^ 32)%N -> acc n s m /\ (m < 2 ^ 32)%N.
Proof.
  induction s as [|c s IH]; intros n m H L; cbn [parse_digits] in H.
  - injection H as ->. split; [constructor|assumption].
  - destruct (digit c) as [d|] eqn:D; [|discriminate].
    destruct (N.ltb_spec 0xFFFFFFFF (n * 16 + d)); [discriminate|].
    destruct (IH _ _ H) as [A M]; [lia|]. split; [|assumption]. econstructor; [apply digit_iff; exact D|exact A].
Qed.

Lemma parse_digits_err s : forall n e, parse_digits n s = inr e -> e = ErrSyntax \/ e = ErrRange.
Proof.
  induction s as [|c s IH]; intros n e H; cbn [parse_digits] in H; [discriminate|].
  destruct (digit c); [|injection H; auto]. destruct (_ <? _)%N; [injection H; auto|]. eapply IH; eassumption.
Qed.

Theorem ParseUint_iff s m : ParseUint s = inl m <-> hex_value s m /\ (m < 2 ^ 32)%N.
Proof.
  unfold ParseUint. rewrite hex_value_acc. split.
  - destruct s as [|c s]; [discriminate|]. intros H. apply parse_digits_inl in H; [|lia].
    repeat split; [discriminate|apply H|apply H].
  - intros [[Hs A] L]. destruct s as [|c s]; [congruence|]. apply parse_digits_ok; assumption.
Qed.

Lemma ParseUint_err s e : ParseUint s = inr e -> e = ErrSyntax \/ e = ErrRange.
Proof. unfold ParseUint. destruct s; [intros H; injection H; auto|apply parse_digits_err]. Qed.

(* why a text is refused *)
Lemma parse_digits_after s t : forall n m, acc n s m -> (m < 2 ^ 32)%N -> parse_digits n (s ++ t) = parse_digits m t.
Proof.
  induction s as [|c s IH]; intros n m H L; inversion H as [|? ? d ? ? Hd Hs]; subst; cbn [app]; [reflexivity|].
  cbn [parse_digits]. apply digit_iff in Hd. rewrite Hd. pose proof (acc_mono _ _ _ Hs) as Q.
  destruct (N.ltb_spec 0xFFFFFFFF (n * 16 + d)); [lia|]. apply IH; assumption.
Qed.
Lemma parse_digits_big s t : forall n m, acc n s m -> (n < 2 ^ 32)%N -> (2 ^ 32 <= m)%N -> parse_digits n (s ++ t) = inr ErrRange.
Proof.
  induction s as [|c s IH]; intros n m H L B; inversion H as [|? ? d ? ? Hd Hs]; subst; [lia|]; cbn [app].
  cbn [parse_digits]. apply digit_iff in Hd. rewrite Hd.
  destruct (N.ltb_spec 0xFFFFFFFF (n * 16 + d)); [reflexivity|]. eapply IH; [eassumption|lia|exact B].
Qed.
Lemma parse_digits_why s : forall n e, (n < 2 ^ 32)%N -> parse_digits n s = inr e ->
  (e = ErrSyntax /\ exists h m c rest, s = h ++ c :: rest /\ acc n h m /\ (m < 2 ^ 32)%N /\ forall d, ~ digit_value c d) \/
  (e = ErrRange /\ exists h m rest, s = h ++ rest /\ h <> [] /\ acc n h m /\ (2 ^ 32 <= m)%N).
Proof.
  induction s as [|c s IH]; intros n e L H; cbn [parse_digits] in H; [discriminate|].
  destruct (digit c) as [d|] eqn:D.
  - apply digit_iff in D. destruct (N.ltb_spec 0xFFFFFFFF (n * 16 + d)) as [B|B].
    + right. split; [congruence|]. exists [c], (n * 16 + d)%N, s. split; [reflexivity|]. split; [discriminate|].
      split; [econstructor; [exact D|constructor]|lia].
    + destruct (IH (n * 16 + d)%N e) as [(E & h & m & c' & rest & -> & A & Lm & Hc)|(E & h & m & rest & -> & Hh & A & Lm)]; [lia|exact H| |].
      * left. split; [exact E|]. exists (c :: h), m, c', rest. split; [reflexivity|]. split; [econstructor; eassumption|auto].
      * right. split; [exact E|]. exists (c :: h), m, rest. split; [reflexivity|]. split; [discriminate|]. split; [econstructor; eassumption|auto].
  - left. split; [congruence|]. exists [], n, c, s. split; [reflexivity|]. split; [constructor|]. split; [exact L|].
    intros d K. apply digit_iff in K. congruence.
Qed.

Theorem ParseUint_why s e : ParseUint s = inr e <-> exists c, not_number s c /\ e = strconv_error c.
Proof.
  split.
  - unfold ParseUint. destruct s as [|b s]; [intros H; exists NotHex; split; [constructor|cbn [strconv_error]; congruence]|]. intros H.
    destruct (parse_digits_why (b :: s) 0 e) as [(E & h & m & c & rest & Es & A & L & Hc)|(E & h & m & rest & Es & Hh & A & L)]; [lia|exact H| |].
    + exists NotHex. split; [|exact E]. rewrite Es. destruct h as [|x h]; [apply first_no_digit; exact Hc|].
      eapply later_no_digit; [|exact L|exact Hc]. apply hex_value_acc. split; [discriminate|exact A].
    + exists TooBig. split; [|exact E]. rewrite Es. eapply too_big; [|exact L]. apply hex_value_acc. auto.
  - intros (c & H & ->). destruct H as [|b rest Hb|h n b rest Hh L Hb|h n rest Hh L]; cbn [strconv_error].
    + reflexivity.
    + unfold ParseUint. cbn [parse_digits]. destruct (digit b) as [d|] eqn:D; [|reflexivity]. apply digit_iff in D. destruct (Hb _ D).
    + apply hex_value_acc in Hh. destruct Hh as [Hh A]. destruct h as [|x h]; [congruence|].
      transitivity (parse_digits 0 ((x :: h) ++ b :: rest)); [reflexivity|]. rewrite (parse_digits_after _ _ _ _ A L).
      cbn [parse_digits]. destruct (digit b) as [d|] eqn:D; [|reflexivity]. apply digit_iff in D. destruct (Hb _ D).
    + apply hex_value_acc in Hh. destruct Hh as [Hh A]. destruct h as [|x h]; [congruence|].
      transitivity (parse_digits 0 ((x :: h) ++ rest)); [reflexivity|]. eapply parse_digits_big; [exact A|lia|exact L].
Qed.

Lemma strconv_error_inj c c' : strconv_error c = strconv_error c' -> c = c'.
Proof. destruct c, c'; try reflexivity; discriminate. Qed.

Lemma at_dots_iff r a o : at_dots r a o <->
  Cut rangeSeparator r = match o with Some b => (a, b, true) | None => (a, [], false) end.
Proof.
  unfold rangeSeparator. split.
  - intros [r' H|a' b H].
    + apply Cut_absent. exact H.
    + apply Cut_found. intros b1 b2 -> Hb. destruct (after_prefix _ _) as [x|] eqn:E; [|reflexivity]. exfalso.
      apply after_prefix_some in E. destruct b2 as [|y [|z b2]]; [congruence| |]; cbn [app] in E.
      * apply (H b1 []). rewrite <- app_assoc. cbn [app]. congruence.
      * apply (H b1 (b2 ++ [x2e])). rewrite <- app_assoc. cbn [app]. congruence.
  - destruct o as [b|]; intros H.
    + pose proof (Cut_true _ _ _ _ H) as E. rewrite E. apply first_dots. intros x y K.
      assert (length a <= length x) as L.
      { apply (Cut_min [x2e; x2e] r a b x (y ++ x2e :: b) H). rewrite E.
        change (a ++ [x2e; x2e] ++ b) with (a ++ [x2e] ++ x2e :: b). rewrite app_assoc, K, <- !app_assoc. reflexivity. }
      apply (f_equal (@length byte)) in K. rewrite !app_length in K. cbn [length] in K. lia.
    + apply Cut_false in H. destruct H as (-> & _ & H). apply no_dots. exact H.
Qed.

Lemma hex_chars s m b : hex_value s m -> In b s -> (0x30 <= bval b <= 0x39 \/ 0x41 <= bval b <= 0x46 \/ 0x61 <= bval b <= 0x66)%N.
Proof.
  induction 1 as [c d H|s n c d H IH Hd]; intros K.
  - destruct K as [<-|[]]. unfold digit_value in H. lia.
  - apply in_app_or in K. destruct K as [K|[<-|[]]]; [auto|]. unfold digit_value in Hd. lia.
Qed.
