(* Properties C62 (tokens with separators) and C63 (invalid bytes replaced). *)
From Coq Require Import List NArith Arith Bool Lia Strings.Byte.
From Coq Require Import ZArith ZifyBool ZifyNat ZifyN.
From Verif Require Import Spec.Classes Spec.Utf8 Spec.UAX29 Spec.UcdRanges Spec.Segmentation Spec.Runes.
From Verif Require Import Model.Base Model.CharProps Model.Lookup Model.Machine Model.Scan.
From Verif Require Import Proofs.Basics Proofs.TableCheck Proofs.MachineFacts Proofs.LookupFacts Proofs.ScanFacts
  Proofs.TextFacts Proofs.TextProps Proofs.UnicodeFacts Proofs.BoundaryFacts.
From Verif Require Import Properties.Splitting Properties.Unicode Properties.Editing Properties.Locality.
Import ListNotations.

Local Opaque committed LookupFirstChar fast_class ok1 leads conts.

(* ---- C62 *)

Lemma separated_ok sep : tokenises sep [sep] ->
  (forall b t2, tokenises b t2 -> forall a t1, tokenises (a ++ sep) t1 -> tokenises (a ++ sep ++ b) (t1 ++ t2)) ->
  forall toks, Forall (fun t => tokenises t [t]) toks ->
  Forall (fun t => forall ts, tokenises (t ++ sep) ts -> cut ts t) toks ->
  tokenises (concat (separated sep toks)) (separated sep toks).
Proof.
  intros Hs Hd toks F C. induction toks as [|t toks IH]; [constructor|].
  inversion F as [|? ? Ft F']; subst. inversion C as [|? ? Ct C']; subst. cbn [separated].
  destruct toks as [|u toks]; [cbn [concat]; rewrite app_nil_r; exact Ft|].
  specialize (IH F' C'). remember (separated sep (u :: toks)) as ws eqn:E. clear E.
  cbn [concat]. destruct (tokenises_total (t ++ sep)) as [ts Hts].
  destruct (proj1 (C47_divide t sep ts Hts) (Ct ts Hts)) as (ta & tb & Ha & Hb & ->).
  rewrite (tokenises_unique _ _ _ Ha Ft), (tokenises_unique _ _ _ Hb Hs) in Hts. cbn [app] in Hts.
  apply (Hd _ _ IH _ _ Hts).
Qed.

Lemma tokens_alone data toks : tokenises data toks -> Forall (fun t => tokenises t [t]) toks.
Proof. intros H. apply Forall_forall. intros t Ht. eapply C21_rescan; eassumption. Qed.

(* Tokens with a control character between them: the tokens and the separators,
   for instance with NUL or U+200B. *)
Theorem C62_control : forall c data toks, scalar c -> gcb (ucd_class c) = Control -> tokenises data toks ->
  tokenises (concat (separated (utf8_encode c) toks)) (separated (utf8_encode c) toks).
Proof.
  intros c data toks Hc G H.
  assert (tokenises (utf8_encode c) [utf8_encode c]) as Hs.
  { destruct (tokenises_total (utf8_encode c)) as [ts Hts]. pose proof Hts as K.
    replace (utf8_encode c) with ([] ++ utf8_encode c ++ []) in K by (rewrite app_nil_r; reflexivity).
    apply (C15_control [] c [] ts Hc G) in K. destruct K as (b & a & -> & Eb).
    pose proof (tokenises_concat _ _ Hts) as Ec. pose proof (tokenises_nonempty _ _ Hts) as F.
    rewrite concat_app, Eb in Ec. cbn [concat app] in Ec.
    assert (a = []) as ->.
    { destruct a as [|y a]; [reflexivity|]. exfalso. rewrite Forall_forall in F. apply (F y); [apply in_or_app; right; right; left; reflexivity|].
      rewrite <- (app_nil_r (utf8_encode c)) in Ec at 2. apply app_inv_head in Ec. cbn [concat] in Ec. apply app_eq_nil in Ec. tauto. }
    destruct b as [|y b]; [exact Hts|]. exfalso. rewrite Forall_forall in F. apply (F y); [left; reflexivity|].
    cbn [concat] in Eb. apply app_eq_nil in Eb. tauto. }
  apply separated_ok; [exact Hs| |eapply tokens_alone; exact H|].
  - intros b t2 Hb a t1 Ha. apply C22_after_control; auto.
  - apply Forall_forall. intros t Ht ts Hts. rewrite <- (app_nil_r (utf8_encode c)) in Hts.
    apply (C15_control t c [] ts Hc G) in Hts. destruct Hts as (b & a & -> & E). exists b, (utf8_encode c :: a). auto.
Qed.

(* One token per line, unless there is a lone carriage return. *)
Theorem C62_lines : forall data toks, tokenises data toks -> ~ In [x0d] toks ->
  tokenises (concat (separated [x0a] toks)) (separated [x0a] toks).
Proof.
  intros data toks H N. apply separated_ok; [apply C04_tokens_fn; vm_compute; reflexivity| |eapply tokens_alone; exact H|].
  - intros b t2 Hb a t1 Ha. apply C22_lines; assumption.
  - apply Forall_forall. intros t Ht ts Hts.
    assert (forall p', t <> p' ++ [x0d]) as Hcr.
    { intros p' ->. assert (tokenises (p' ++ [x0d]) [p' ++ [x0d]]) as K.
      { pose proof (tokens_alone _ _ H) as F. rewrite Forall_forall in F. apply F. exact Ht. }
      pose proof K as K2. rewrite <- (app_nil_r [x0d]) in K2 at 1.
      apply C15_lone_cr in K2; [|discriminate]. destruct K2 as (b & a & E & Eb).
      destruct b as [|y b].
      - cbn [app] in E. assert (p' ++ [x0d] = [x0d]) as Q by congruence. apply N. rewrite <- Q. exact Ht.
      - destruct b; discriminate E. }
    change ([x0a]) with ([x0a] ++ []) in Hts. apply (C15_lone_lf t [] ts Hcr) in Hts.
    destruct Hts as (b & a & -> & E). exists b, ([x0a] :: a). auto.
Qed.

(* The condition is needed. *)
Theorem C62_needed : exists data toks, tokenises data toks /\
  ~ tokenises (concat (separated [x0a] toks)) (separated [x0a] toks).
Proof.
  exists [x0d; x61], [[x0d]; [x61]]. split; [apply C04_tokens_fn; vm_compute; reflexivity|].
  intros K. assert (tokenises [x0d; x0a; x61] [[x0d; x0a]; [x61]]) as K' by (apply C04_tokens_fn; vm_compute; reflexivity).
  pose proof (tokenises_unique _ _ _ K K') as E. vm_compute in E. discriminate E.
Qed.

(* e with an acute accent, CR LF, an unfinished sequence; with line feeds *)
Example C62_example : tokenises ([x65; xcc; x81] ++ [x0a] ++ [x0d; x0a] ++ [x0a] ++ [xe2] ++ [x0a] ++ [x80])
  [[x65; xcc; x81]; [x0a]; [x0d; x0a]; [x0a]; [xe2]; [x0a]; [x80]].
Proof.
  apply (C62_lines [x65; xcc; x81; x0d; x0a; xe2; x80] [[x65; xcc; x81]; [x0d; x0a]; [xe2]; [x80]]).
  - apply C04_tokens_fn. vm_compute. reflexivity.
  - cbn [In]. intuition discriminate.
Qed.

(* ---- C63 *)

Definition expand (i : item) : list (list byte * N) :=
  match i with
  | Char bs v => if scalarb v && bytes_eqb bs (utf8_encode v) then [(bs, v)] else map (fun b => ([b], 0xFFFD%N)) bs
  | Bad b => [([b], 0xFFFD%N)]
  end.

Lemma encode_start c : scalar c -> exists b tl, utf8_encode c = b :: tl /\ ~ is_cont b.
Proof.
  intros H. pose proof (utf8_encode_seq c H) as S. inversion S; do 2 eexists; (split; [reflexivity|unfold is_cont; lia]).
Qed.

Lemma converts_conts bs rest parts : Forall is_cont bs -> converts rest parts ->
  converts (bs ++ rest) (map (fun b => ([b], 0xFFFD%N)) bs ++ parts).
Proof.
  induction 1 as [|b bs Hb F IH]; intros H; [exact H|]. cbn [app map]. constructor; [|auto].
  intros c r Hc E. destruct (encode_start c Hc) as (b' & tl & Eb & Nb). rewrite Eb in E. cbn [app] in E.
  assert (b = b') by congruence. congruence.
Qed.

Lemma seq_conts bs v : utf8_seq bs v -> exists a tl, bs = a :: tl /\ Forall is_cont tl.
Proof. intros H. inversion H; subst; do 2 eexists; (split; [reflexivity|]); repeat (constructor; [assumption|]); constructor. Qed.

Lemma bytes_eqb_iff a b : bytes_eqb a b = true <-> a = b.
Proof. unfold bytes_eqb. destruct (list_eq_dec _ a b); split; congruence. Qed.

Lemma converts_items data its : reads data its -> converts data (flat_map expand its).
Proof.
  induction 1 as [|bs v rest its S R IH|b rest its N R IH]; cbn [flat_map expand]; [constructor| |].
  - destruct (scalarb v && bytes_eqb bs (utf8_encode v)) eqn:E.
    + apply andb_true_iff in E. destruct E as [E1 E2]. apply scalarb_spec in E1. apply bytes_eqb_iff in E2. subst bs.
      cbn [app]. constructor; assumption.
    + destruct (seq_conts _ _ S) as (a & tl & -> & F). cbn [map app]. constructor.
      * intros c r Hc K. change (a :: tl ++ rest) with ((a :: tl) ++ rest) in K.
        destruct (utf8_seq_unique _ _ _ _ _ _ S (utf8_encode_seq c Hc) K) as (E1 & E2 & _). subst v.
        rewrite E1 in E. assert (scalarb c = true) as Q by (apply scalarb_spec; exact Hc). rewrite Q in E.
        assert (bytes_eqb (utf8_encode c) (utf8_encode c) = true) as Q2 by (apply bytes_eqb_iff; reflexivity).
        rewrite Q2 in E. discriminate E.
      * apply converts_conts; assumption.
  - cbn [app]. constructor; [|exact IH]. intros c r Hc E. apply N. exists (utf8_encode c), c, r.
    split; [apply utf8_encode_seq; exact Hc|exact E].
Qed.

Lemma converts_unique data ps : converts data ps -> forall ps', converts data ps' -> ps = ps'.
Proof.
  induction 1 as [|c rest ps Hc H IH|b rest ps N H IH]; intros ps' H'.
  - inversion H' as [|c r p Hc Hp E|]; [reflexivity|]. destruct (encode_start c Hc) as (b & tl & Eb & _). rewrite Eb in E. discriminate E.
  - inversion H' as [E|c' r p Hc' Hp E|b r p N Hp E]; subst.
    + destruct (encode_start c Hc) as (b & tl & Eb & _). rewrite Eb in E. discriminate E.
    + destruct (utf8_seq_unique _ _ _ _ _ _ (utf8_encode_seq c' Hc') (utf8_encode_seq c Hc) E) as (E1 & -> & ->).
      f_equal. apply IH. exact Hp.
    + exfalso. apply (N c rest Hc). exact E.
  - inversion H' as [|c' r p Hc' Hp E|b' r p N' Hp E]; subst.
    + exfalso. apply (N c' r Hc'). symmetry. exact E.
    + f_equal. apply IH. exact Hp.
Qed.

(* every data is converted in exactly one way *)
Theorem C63_conversion : forall data, exists parts, converts data parts /\ original parts = data /\
  forall parts', converts data parts' -> parts' = parts.
Proof.
  intros data. destruct (reads_total data) as [its R]. exists (flat_map expand its). split; [apply converts_items; exact R|].
  split; [|intros p H; symmetry; eapply converts_unique; [apply converts_items; exact R|exact H]].
  pose proof (converts_items data its R) as H. clear R. unfold original. induction H as [|c rest ps Hc H IH|b rest ps N H IH]; [reflexivity| |];
    cbn [map fst concat]; rewrite IH; reflexivity.
Qed.

Lemma not_kept b : ~ kept_part ([b], 0xFFFD%N).
Proof. intros [_ E]. vm_compute in E. discriminate E. Qed.

Lemma expand_cases i : (exists c, i = char c /\ scalar c /\ expand i = [(utf8_encode c, c)]) \/
  (item_class i = plain \/ item_class i = control) /\ Forall (fun p => ~ kept_part p /\ snd p = 0xFFFD%N) (expand i).
Proof.
  destruct i as [bs v|b]; cbn [expand item_class].
  - destruct (scalarb v && bytes_eqb bs (utf8_encode v)) eqn:E.
    + left. apply andb_true_iff in E. destruct E as [E1 E2]. apply scalarb_spec in E1. apply bytes_eqb_iff in E2. subst bs.
      exists v. auto.
    + right. split; [auto|]. apply Forall_forall. intros p Hp. apply in_map_iff in Hp. destruct Hp as (b & <- & _).
      split; [apply not_kept|reflexivity].
  - right. split; [auto|]. constructor; [|constructor]. split; [apply not_kept|reflexivity].
Qed.

Lemma skip_unkept {P : list byte * N -> Prop} m : forall X l a Y, Forall (fun p => ~ P p) m -> P a -> m ++ X = l ++ a :: Y ->
  exists l', l = m ++ l' /\ X = l' ++ a :: Y.
Proof.
  induction m as [|x m IH]; intros X l a Y F Ha E; [exists l; auto|]. inversion F; subst.
  destruct l as [|y l]; cbn [app] in E; [exfalso; assert (x = a) by congruence; subst; contradiction|].
  assert (x = y) as -> by congruence. destruct (IH X l a Y) as (l' & -> & ->); [assumption|assumption|congruence|]. exists l'. auto.
Qed.

Lemma split_one its : forall l a r, flat_map expand its = l ++ a :: r -> kept_part a ->
  exists i1 i2, its = i1 ++ char (snd a) :: i2 /\ flat_map expand i1 = l /\ flat_map expand i2 = r.
Proof.
  induction its as [|i its IH]; intros l a r E Ha; [destruct l; discriminate E|]. cbn [flat_map] in E.
  destruct (expand_cases i) as [(c & -> & Hc & Ei)|[_ F]].
  - rewrite Ei in E. cbn [app] in E. destruct l as [|y l].
    + cbn [app] in E. exists [], its. assert (a = (utf8_encode c, c)) as -> by congruence. cbn [snd app flat_map]. split; [reflexivity|].
      split; [reflexivity|congruence].
    + cbn [app] in E. destruct (IH l a r) as (i1 & i2 & -> & E1 & E2); [congruence|assumption|].
      exists (char c :: i1), i2. cbn [app flat_map]. rewrite Ei, E1. split; [reflexivity|]. split; [cbn [app]; congruence|exact E2].
  - destruct (@skip_unkept kept_part (expand i) (flat_map expand its) l a r) as (l' & -> & E'); [|exact Ha|exact E|].
    { eapply Forall_impl; [|exact F]. intros p [K _]. exact K. }
    destruct (IH l' a r E' Ha) as (i1 & i2 & -> & E1 & E2). exists (i :: i1), i2. cbn [app flat_map]. rewrite E1. auto.
Qed.

Lemma replacement_class : ucd_class 0xFFFD = plain.
Proof. vm_compute. reflexivity. Qed.

(* the items and the characters they are converted to look alike from the right *)
Lemma alike_expand its : Forall (fun i => forall bs v, i = Char bs v -> bs <> []) its ->
  alike (rev (map item_class its)) (rev (map ucd_class (map snd (flat_map expand its)))).
Proof.
  intros F. induction its as [|i its IH] using rev_ind; [repeat split|].
  apply Forall_app in F. destruct F as [F1 F2]. inversion F2 as [|? ? Hi _]; subst. specialize (IH F1).
  rewrite flat_map_app, !map_app, !rev_app_distr. cbn [flat_map map rev app]. rewrite app_nil_r.
  destruct (expand_cases i) as [(c & -> & Hc & Ei)|[Hcl F]].
  - rewrite Ei. cbn [map snd rev app]. rewrite class_char by exact Hc. apply (alike_more [ucd_class c]). exact IH.
  - assert (exists n, map ucd_class (map snd (expand i)) = repeat plain (S n)) as (n & En).
    { assert (expand i <> []) as Hne.
      { destruct i as [bs v|b]; cbn [expand]; [|discriminate]. destruct (_ && _); [discriminate|].
        destruct bs; [exfalso; eapply Hi; reflexivity|discriminate]. }
      clear - F Hne. destruct (expand i) as [|p ps]; [congruence|]. inversion F as [|? ? [_ E1] F']; subst. exists (length ps).
      cbn [map repeat]. rewrite E1, replacement_class. f_equal. clear - F'.
      induction F' as [|q qs [_ E] F' IHq]; [reflexivity|]. cbn [map length repeat]. rewrite E, replacement_class, IHq. reflexivity. }
    rewrite En. assert (rev (repeat plain (S n)) = repeat plain (S n)) as ->.
    { clear. generalize (S n) as k. induction k as [|k IHk]; [reflexivity|]. cbn [repeat rev]. rewrite IHk.
      clear. induction k; [reflexivity|]. cbn [repeat app]. f_equal. assumption. }
    cbn [repeat app]. unfold alike, g9c, g11, ri. cbn [fold_right]. destruct Hcl as [-> | ->]; repeat split; reflexivity.
Qed.

Lemma reads_nonempty data its : reads data its -> Forall (fun i => forall bs v, i = Char bs v -> bs <> []) its.
Proof.
  induction 1 as [|bs v rest its S R IH|b rest its N R IH]; constructor; auto; [|discriminate].
  intros bs' v' E. assert (bs' = bs) as -> by congruence. destruct (seq_conts _ _ S) as (a & tl & -> & _). discriminate.
Qed.

Lemma original_items its : original (flat_map expand its) = items_bytes its.
Proof.
  unfold original, items_bytes. induction its as [|i its IH]; [reflexivity|]. cbn [flat_map]. rewrite map_app, concat_app, IH. f_equal.
  destruct i as [bs v|b]; cbn [expand item_bytes]; [|reflexivity]. destruct (_ && _); [apply app_nil_r|].
  rewrite map_map. cbn [fst]. induction bs as [|b bs IHb]; [reflexivity|]. cbn [map concat app]. rewrite IHb. reflexivity.
Qed.

Lemma expand_scalar its : Forall scalar (map snd (flat_map expand its)).
Proof.
  induction its as [|i its IH]; [constructor|]. cbn [flat_map]. rewrite map_app. apply Forall_app. split; [|exact IH].
  destruct (expand_cases i) as [(c & -> & Hc & Ei)|[_ F]]; [rewrite Ei; constructor; [exact Hc|constructor]|].
  apply Forall_map. eapply Forall_impl; [|exact F]. intros p [_ ->]. apply scalarb_spec. reflexivity.
Qed.

(* Every cluster is a whole number of runes, as a Go program that ranges over the
   string sees them; so there are at most as many clusters as runes. *)
Theorem C63_runes : forall data parts toks pre, converts data parts -> tokenises data toks -> cut toks pre ->
  exists l r, parts = l ++ r /\ pre = original l.
Proof.
  intros data parts toks pre Hp Ht Hcut. destruct (reads_total data) as [its R].
  rewrite (converts_unique _ _ Hp _ (converts_items _ _ R)). destruct (cut_items _ _ _ _ Ht R Hcut) as (i1 & i2 & -> & <-).
  exists (flat_map expand i1), (flat_map expand i2). split; [apply flat_map_app|]. symmetry. apply original_items.
Qed.

Lemma count_parts toks : forall parts, Forall (fun t => t <> []) toks -> concat toks = original parts ->
  (forall pre, cut toks pre -> exists l r, parts = l ++ r /\ pre = original l) -> Forall (fun p => fst p <> []) parts ->
  length toks <= length parts.
Proof.
  induction toks as [|t toks IH]; intros parts Ft E Hc Fp; [cbn; lia|]. inversion Ft as [|? ? Hne Ft']; subst.
  destruct (Hc t) as (l & r & -> & El). { exists [t], toks. split; [reflexivity|]. cbn. apply app_nil_r. }
  assert (l <> []) as Hl by (intros ->; apply Hne; exact El).
  apply Forall_app in Fp. destruct Fp as [Fl Fr].
  assert (concat toks = original r) as Er.
  { cbn [concat] in E. unfold original in E, El |- *. rewrite map_app, concat_app, <- El in E. apply app_inv_head in E. exact E. }
  assert (length toks <= length r) as K.
  { apply IH; [exact Ft'|exact Er| |exact Fr]. intros pre (b & a & Et & Eb).
    destruct (Hc (t ++ pre)) as (l2 & r2 & E2 & Ep). { exists (t :: b), a. rewrite Et. split; [reflexivity|]. cbn [concat]. rewrite Eb. reflexivity. }
    rewrite El in Ep. clear - E2 Ep Fl. revert l2 E2 Ep. induction l as [|x l IH]; intros l2 E2 Ep.
    - exists l2, r2. auto.
    - inversion Fl as [|? ? Hx Fl']; subst. destruct l2 as [|y l2].
      + exfalso. unfold original in Ep. cbn [map concat app] in Ep. rewrite <- app_assoc in Ep.
        apply app_eq_nil in Ep. destruct Ep as [Ep _]. congruence.
      + cbn [app] in E2. assert (x = y) as -> by congruence. apply (IH Fl' l2); [congruence|].
        unfold original in *. cbn [map concat] in Ep. rewrite <- app_assoc in Ep. apply app_inv_head in Ep. exact Ep. }
  rewrite app_length. cbn [length]. destruct l; [congruence|]. cbn [length]. lia.
Qed.

Theorem C63_rune_count : forall data parts toks, converts data parts -> tokenises data toks -> length toks <= length parts.
Proof.
  intros data parts toks Hp Ht. apply count_parts.
  - apply (tokenises_nonempty _ _ Ht).
  - rewrite (tokenises_concat _ _ Ht). symmetry. destruct (C63_conversion data) as (p & Hp' & E & _).
    rewrite (converts_unique _ _ Hp _ Hp'). exact E.
  - intros pre Hc. eapply C63_runes; eassumption.
  - clear Ht. induction Hp as [|c rest ps Hc H IH|b rest ps N H IH]; constructor; auto; [|discriminate].
    cbn [fst]. destruct (encode_start c Hc) as (b & tl & -> & _). discriminate.
Qed.

(* Between two characters that are kept, there is a boundary after the conversion
   exactly if there was one before. *)
Theorem C63_kept : forall data parts toks toks' l a b r, converts data parts ->
  tokenises data toks -> tokenises (converted parts) toks' ->
  parts = l ++ a :: b :: r -> kept_part a -> kept_part b ->
  (cut toks (original (l ++ [a])) <-> cut toks' (converted (l ++ [a]))).
Proof.
  intros data parts toks toks' l a b r Hp Ht Ht' E Ka Kb.
  destruct (reads_total data) as [its R]. rewrite (converts_unique _ _ Hp _ (converts_items _ _ R)) in *. clear Hp parts.
  destruct (split_one its l a (b :: r) E Ka) as (i1 & i2 & -> & E1 & E2).
  destruct (split_one i2 [] b r E2 Kb) as (i3 & i4 & -> & E3 & E4).
  destruct i3 as [|j i3].
  2:{ exfalso. cbn [flat_map] in E3. destruct (expand_cases j) as [(c & -> & _ & Ej)|_]; [rewrite Ej in E3; discriminate E3|].
      apply app_eq_nil in E3. destruct E3 as [E3 _]. pose proof (reads_nonempty _ _ R) as F. rewrite Forall_forall in F.
      assert (In j (i1 ++ char (snd a) :: (j :: i3) ++ char (snd b) :: i4)) as Hj by (apply in_or_app; right; right; left; reflexivity).
      specialize (F j Hj). destruct j as [bs v|b0]; cbn [expand] in E3; [|discriminate E3].
      destruct (_ && _); [discriminate E3|]. destruct bs; [eapply F; reflexivity|discriminate E3]. }
  cbn [app] in *. destruct Ka as [Sa Ea], Kb as [Sb Eb].
  assert (original (l ++ [a]) = items_bytes (i1 ++ [char (snd a)])) as ->.
  { rewrite <- E1. unfold original. rewrite map_app, concat_app. fold (original (flat_map expand i1)). rewrite original_items.
    unfold items_bytes. rewrite flat_map_app. cbn [map concat flat_map item_bytes char]. rewrite Ea. reflexivity. }
  rewrite (cut_pos _ _ _ _ _ _ Ht R).
  pose proof (expand_scalar (i1 ++ char (snd a) :: char (snd b) :: i4)) as Hsc.
  pose proof (reads_utf8_text _ Hsc) as R'. unfold converted in Ht'. rewrite E in R', Ht'.
  rewrite !map_app in R'. cbn [map] in R'. rewrite map_app in Ht'. cbn [map] in Ht'.
  assert (converted (l ++ [a]) = items_bytes (map char (map snd l) ++ [char (snd a)])) as ->.
  { unfold converted, utf8_text, items_bytes. rewrite map_app, !flat_map_app. cbn [map flat_map item_bytes char]. f_equal.
    clear. induction l as [|x l IH]; [reflexivity|]. cbn [map flat_map]. rewrite IH. reflexivity. }
  rewrite (cut_pos _ _ _ _ _ _ Ht' R').
  assert (alike (rev (map item_class (i1 ++ [char (snd a)]))) (rev (map item_class (map char (map snd l) ++ [char (snd a)])))) as (A1 & A2 & A3).
  { pose proof (reads_nonempty _ _ R) as F. apply Forall_app in F. destruct F as [F _].
    pose proof (alike_expand i1 F) as A. rewrite E1 in A. rewrite !map_app, !rev_app_distr. cbn [map rev app].
    apply (alike_more [item_class (char (snd a))]).
    assert (map item_class (map char (map snd l)) = map ucd_class (map snd l)) as ->; [|exact A].
    rewrite map_map. apply map_ext_in. intros c Hin. apply class_char. rewrite Forall_forall in Hsc. apply Hsc.
    rewrite E, map_app. apply in_or_app. left. exact Hin. }
  rewrite A1, A2, A3. reflexivity.
Qed.

Definition to_item (p : list byte * N) : item :=
  if bytes_eqb (fst p) (utf8_encode (snd p)) then char (snd p) else Bad (hd x00 (fst p)).

Lemma to_item_single b : to_item ([b], 0xFFFD%N) = Bad b.
Proof. unfold to_item. cbn [fst snd hd]. destruct (bytes_eqb [b] _) eqn:E; [apply bytes_eqb_iff in E; vm_compute in E; discriminate E|reflexivity]. Qed.

Lemma to_item_kept c : to_item (utf8_encode c, c) = char c.
Proof. unfold to_item. cbn [fst snd]. destruct (bytes_eqb _ _) eqn:E; [reflexivity|]. assert (false = true); [|discriminate]. rewrite <- E. apply bytes_eqb_iff. reflexivity. Qed.

Lemma converts_original data parts : converts data parts -> original parts = data.
Proof.
  intros H. unfold original. induction H as [|c rest ps Hc H IH|b rest ps N H IH]; [reflexivity| |]; cbn [map fst concat]; rewrite IH; reflexivity.
Qed.

Lemma converts_reads data parts : converts data parts ->
  (forall l b r, parts = l ++ ([b], 0xFFFD%N) :: r -> ~ starts_seq (b :: original r)) ->
  reads data (map to_item parts).
Proof.
  induction 1 as [|c rest ps Hc H IH|b rest ps N H IH]; intros Hs; cbn [map]; [constructor| |].
  - rewrite to_item_kept. constructor; [apply utf8_encode_seq; exact Hc|]. apply IH. intros l b r E. apply (Hs ((utf8_encode c, c) :: l)). rewrite E. reflexivity.
  - rewrite to_item_single. constructor.
    + rewrite <- (converts_original _ _ H). apply (Hs [] b ps). reflexivity.
    + apply IH. intros l b' r E. apply (Hs (([b], 0xFFFD%N) :: l)). rewrite E. reflexivity.
Qed.

Lemma converts_parts data parts : converts data parts ->
  Forall (fun p => scalar (snd p) /\ (kept_part p \/ exists b, p = ([b], 0xFFFD%N))) parts.
Proof.
  induction 1 as [|c rest ps Hc H IH|b rest ps N H IH]; constructor; auto.
  - split; [exact Hc|left; split; [exact Hc|reflexivity]].
  - split; [apply scalarb_spec; reflexivity|right; eauto].
Qed.

(* Unless the data has a sequence that is complete but does not encode a
   character (an overlong form, a surrogate), every boundary after the conversion
   was one before: only boundaries next to replaced bytes are lost. *)
Theorem C63_only_lost : forall data parts toks toks', converts data parts ->
  (forall l b r, parts = l ++ ([b], 0xFFFD%N) :: r -> ~ starts_seq (b :: original r)) ->
  tokenises data toks -> tokenises (converted parts) toks' ->
  forall pre, cut toks' pre -> exists l r, parts = l ++ r /\ pre = converted l /\ cut toks (original l).
Proof.
  intros data parts toks toks' Hp Hs Ht Ht' pre Hcut.
  pose proof (converts_parts _ _ Hp) as FP.
  assert (Forall scalar (map snd parts)) as Fs.
  { apply Forall_map. eapply Forall_impl; [|exact FP]. intros p [K _]. exact K. }
  pose proof (reads_utf8_text _ Fs) as R'. destruct (cut_items _ _ _ _ Ht' R' Hcut) as (i1 & i2 & E & Epre).
  rewrite map_map in E. apply map_split in E. destruct E as (l & r & E & E1 & E2). exists l, r. split; [exact E|]. split.
  { rewrite <- Epre, <- E1. unfold converted, utf8_text, items_bytes. clear. induction l as [|x l IH]; [reflexivity|].
    cbn [map flat_map]. rewrite IH. reflexivity. }
  destruct (exists_last_or l) as [->|(l0 & a & ->)]; [exists [], toks; auto|].
  destruct r as [|b r].
  { rewrite app_nil_r in E. rewrite <- E. rewrite (converts_original _ _ Hp). exists toks, []. rewrite app_nil_r. split; [reflexivity|].
    apply tokenises_concat. exact Ht. }
  rewrite <- app_assoc in E. cbn [app] in E. rewrite E in FP. apply Forall_app in FP. destruct FP as [FL FP].
  inversion FP as [|? ? [Sa Ca] FP']; subst. inversion FP' as [|? ? [Sb Cb] _]; subst.
  pose proof (converts_reads _ _ Hp Hs) as R. rewrite map_app in R. cbn [map] in R.
  assert (forall q, Forall (fun p => scalar (snd p) /\ (kept_part p \/ exists b, p = ([b], 0xFFFD%N))) q -> original q = items_bytes (map to_item q)) as Horig.
  { clear. intros q F. unfold original, items_bytes. induction F as [|p q [S K] F IH]; [reflexivity|]. cbn [map concat flat_map]. rewrite IH. f_equal.
    destruct K as [[_ K]|[b ->]]; [|rewrite to_item_single; reflexivity]. destruct p as [bs c]. cbn [fst snd] in *. subst bs. rewrite to_item_kept. reflexivity. }
  assert (original (l0 ++ [a]) = items_bytes (map to_item l0 ++ [to_item a])) as Eo.
  { rewrite Horig; [rewrite map_app; reflexivity|]. apply Forall_app. split; [exact FL|]. constructor; [auto|constructor]. }
  destruct Ca as [Ka|[ba ->]]; [destruct Cb as [Kb|[bb ->]]|].
  - apply (proj2 (C63_kept data _ toks toks' l0 a b r Hp Ht Ht' eq_refl Ka Kb)).
    match goal with H : cut toks' ?p |- _ => assert (converted (l0 ++ [a]) = p) as ->; [|exact H] end.
    unfold converted, utf8_text, items_bytes. clear.
    induction (l0 ++ [a]) as [|x l IH]; [reflexivity|]. cbn [map flat_map]. rewrite IH. reflexivity.
  - rewrite Eo. rewrite to_item_single in R. replace (map to_item l0 ++ to_item a :: Bad bb :: map to_item r) with
      ((map to_item l0 ++ [to_item a]) ++ Bad bb :: map to_item r) in R by (rewrite <- app_assoc; reflexivity).
    eapply (piece_cuts toks). eapply (lone_control _ _ _ _ _ Ht R); [reflexivity|intros j j1 _ [_ K]; discriminate K|intros j j1 _ [K _]; discriminate K].
  - rewrite Eo. rewrite to_item_single in *. unfold items_bytes. rewrite flat_map_app. cbn [flat_map]. rewrite app_nil_r. apply (piece_cuts toks).
    eapply (lone_control _ _ _ _ _ Ht R); [reflexivity|intros j j1 _ [_ K]; discriminate K|intros j j1 _ [K _]; discriminate K].
Qed.

(* Text in UTF-8 is converted to itself. *)
Theorem C63_valid : forall cs parts, Forall scalar cs -> converts (utf8_text cs) parts -> converted parts = utf8_text cs.
Proof.
  intros cs parts F H.
  assert (converts (utf8_text cs) (map (fun c => (utf8_encode c, c)) cs)) as K.
  { clear H. induction F as [|c cs Hc F IH]; [constructor|]. unfold utf8_text in *. cbn [flat_map map]. constructor; assumption. }
  rewrite (converts_unique _ _ H _ K). unfold converted. rewrite map_map. cbn [snd]. rewrite map_id. reflexivity.
Qed.

Lemma ff_starts_nothing rest : ~ starts_seq (xff :: rest).
Proof.
  intros (bs & v & r & S & E). inversion S; subst; cbn [app] in E; match goal with H : (_ <= bval ?a < _)%N |- _ => assert (xff = a) as <- by congruence
    | H : (bval ?a < _)%N |- _ => assert (xff = a) as <- by congruence end;
    change (bval xff) with 255%N in *; lia.
Qed.

(* "e", acute accent, 0xFF, acute accent, "x", acute accent: the boundary before
   the second accent is lost, since U+FFFD takes an accent; the others stay *)
Example C63_example : let parts := [([x65], 0x65%N); ([xcc; x81], 0x301%N); ([xff], 0xFFFD%N); ([xcc; x81], 0x301%N); ([x78], 0x78%N); ([xcc; x81], 0x301%N)] in
  converts [x65; xcc; x81; xff; xcc; x81; x78; xcc; x81] parts /\
  tokenises [x65; xcc; x81; xff; xcc; x81; x78; xcc; x81] [[x65; xcc; x81]; [xff]; [xcc; x81]; [x78; xcc; x81]] /\
  tokenises (converted parts) [[x65; xcc; x81]; [xef; xbf; xbd; xcc; x81]; [x78; xcc; x81]] /\
  (forall l b r, parts = l ++ ([b], 0xFFFD%N) :: r -> ~ starts_seq (b :: original r)).
Proof.
  intros parts. split; [|split; [|split]].
  - unfold parts.
    assert (forall c rest ps, scalarb c = true -> converts rest ps -> converts (utf8_encode c ++ rest) ((utf8_encode c, c) :: ps)) as K.
    { intros c rest ps Hc. apply converts_char. apply scalarb_spec. exact Hc. }
    apply (K 0x65%N); [reflexivity|]. apply (K 0x301%N); [reflexivity|]. apply converts_invalid.
    { intros c r Hc E. apply (ff_starts_nothing [xcc; x81; x78; xcc; x81]). exists (utf8_encode c), c, r. split; [apply utf8_encode_seq; exact Hc|exact E]. }
    apply (K 0x301%N); [reflexivity|]. apply (K 0x78%N); [reflexivity|]. apply (K 0x301%N); [reflexivity|]. constructor.
  - apply C04_tokens_fn. vm_compute. reflexivity.
  - apply C04_tokens_fn. vm_compute. reflexivity.
  - intros l b r E. assert (In ([b], 0xFFFD%N) parts) as Hin by (rewrite E; apply in_or_app; right; left; reflexivity).
    cbn [In parts] in Hin. repeat (destruct Hin as [Hin|Hin]; [try discriminate Hin|]); [|contradiction].
    assert (b = xff) as -> by congruence. apply ff_starts_nothing.
Qed.

(* The condition of C63_only_lost is needed: the overlong C0 80 is one token, but
   is converted to two characters. *)
Theorem C63_needed : exists data parts toks toks' pre, converts data parts /\
  tokenises data toks /\ tokenises (converted parts) toks' /\ cut toks' pre /\
  ~ exists l r, parts = l ++ r /\ pre = converted l /\ cut toks (original l).
Proof.
  exists [xc0; x80], [([xc0], 0xFFFD%N); ([x80], 0xFFFD%N)], [[xc0; x80]], [[xef; xbf; xbd]; [xef; xbf; xbd]], [xef; xbf; xbd].
  split; [|split; [|split; [|split]]].
  - assert (reads [xc0; x80] [Char [xc0; x80] 0]) as R.
    { rewrite <- (app_nil_r [xc0; x80]). change 0%N with ((bval xc0 - 0xC0) * 64 + (bval x80 - 0x80))%N. constructor; [|constructor].
      apply seq2; unfold is_cont; vm_compute; intuition discriminate. }
    apply (converts_items _ _ R).
  - apply C04_tokens_fn. vm_compute. reflexivity.
  - apply C04_tokens_fn. vm_compute. reflexivity.
  - exists [[xef; xbf; xbd]], [[xef; xbf; xbd]]. auto.
  - intros (l & r & E & Epre & b & a & Eb & El). destruct l as [|p l]; [discriminate Epre|]. destruct l as [|q l].
    + cbn [app] in E. assert (p = ([xc0], 0xFFFD%N)) as -> by congruence. destruct b as [|x b]; [discriminate El|].
      cbn [app] in Eb. assert (x = [xc0; x80]) as -> by congruence. discriminate El.
    + cbn [app] in E. assert (p = ([xc0], 0xFFFD%N)) as -> by congruence. assert (q = ([x80], 0xFFFD%N)) as -> by congruence.
      discriminate Epre.
Qed.

Definition all_theorems := (C62_control, C62_lines, C62_needed, C63_conversion, C63_runes, C63_rune_count, C63_kept, C63_only_lost, C63_valid, C63_needed).
Print Assumptions all_theorems.
