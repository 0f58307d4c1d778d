(* Property C64: clusters put together anew, for instance in reverse order. *)
From Coq Require Import List NArith Arith Bool Lia Strings.Byte.
From Coq Require Import ZArith ZifyBool ZifyNat ZifyN.
From Verif Require Import Spec.Classes Spec.Utf8 Spec.UAX29 Spec.UcdRanges Spec.Segmentation.
From Verif Require Import Model.Base Model.CharProps Model.Lookup Model.Machine Model.Scan.
From Verif Require Import Proofs.Basics Proofs.TableCheck Proofs.MachineFacts Proofs.LookupFacts Proofs.ScanFacts
  Proofs.TextFacts Proofs.TextProps Proofs.UnicodeFacts Proofs.BoundaryFacts.
From Verif Require Import Properties.Splitting Properties.Unicode Properties.Editing Properties.Locality.
Import ListNotations.

Local Opaque committed LookupFirstChar fast_class ok1 leads conts.

(* Clusters, none of which begins with a continuation byte, in any order: they
   are the clusters of what they give together exactly if any two neighbours are. *)
Theorem C64_pairs : forall ts,
  Forall (fun t => tokenises t [t]) ts -> (forall b t, In (b :: t) ts -> ~ is_cont b) ->
  (tokenises (concat ts) ts <-> forall l t u r, ts = l ++ t :: u :: r -> tokenises (t ++ u) [t; u]).
Proof.
  intros ts F Hc. split.
  - intros H l t u r ->. pose proof (C47_part (concat (l ++ t :: u :: r)) l [t; u] r H) as K.
    cbn [concat] in K. rewrite app_nil_r in K. exact K.
  - induction ts as [|t ts IH]; intros Hp; [constructor|]. inversion F as [|? ? Ft F']; subst.
    destruct ts as [|u ts]; [cbn [concat]; rewrite app_nil_r; exact Ft|].
    assert (tokenises (concat (u :: ts)) (u :: ts)) as K.
    { apply IH; [exact F'|intros b x Hx; apply (Hc b x); right; exact Hx|]. intros l a b r E. apply (Hp (t :: l) a b r). rewrite E. reflexivity. }
    pose proof (Hp [] t u ts eq_refl) as P. cbn [concat].
    destruct (tokenises_total (t ++ u ++ concat ts)) as [toks Ht]. cbn [concat] in K.
    rewrite app_assoc in Ht. change [t; u] with ([t] ++ [u]) in P.
    assert (forall c b', concat ts = c :: b' -> ~ is_cont c) as Hb.
    { intros c b' E. destruct ts as [|w ts]; [discriminate E|].
      assert (w <> []) as Hw.
      { intros ->. inversion F' as [|? ? _ F2]; subst. inversion F2 as [|? ? Fw _]; subst.
        apply tokenises_nonempty in Fw. inversion Fw; subst. congruence. }
      destruct w as [|x w]; [congruence|]. cbn [concat app] in E. assert (x = c) as -> by congruence.
      apply (Hc c w). right. right. left. reflexivity. }
    destruct (C47_append _ _ _ _ _ P Hb Ht) as (v & rest & ->).
    rewrite <- app_assoc in Ht.
    assert (cut ([t] ++ (u ++ v) :: rest) t) as C.
    { exists [t], ((u ++ v) :: rest). split; [reflexivity|]. apply app_nil_r. }
    apply (C47_divide t (u ++ concat ts) _ Ht) in C. destruct C as (ta & tb & Ha & Htb & E).
    rewrite (tokenises_unique _ _ _ Ha Ft), (tokenises_unique _ _ _ Htb K) in E. rewrite E in Ht. exact Ht.
Qed.

(* So clusters can be put in reverse order exactly if any two neighbours can. *)
Theorem C64_reverse : forall data toks, tokenises data toks -> (forall b t, In (b :: t) toks -> ~ is_cont b) ->
  (tokenises (concat (rev toks)) (rev toks) <-> forall l t u r, toks = l ++ t :: u :: r -> tokenises (u ++ t) [u; t]).
Proof.
  intros data toks H Hc. rewrite C64_pairs.
  - split.
    + intros K l t u r ->. apply (K (rev r) u t (rev l)). rewrite rev_app_distr. cbn [rev]. rewrite <- !app_assoc. reflexivity.
    + intros K l t u r E. apply (K (rev r) u t (rev l)). rewrite <- (rev_involutive toks), E, rev_app_distr. cbn [rev].
      rewrite <- !app_assoc. reflexivity.
  - apply Forall_rev. apply Forall_forall. intros t Ht. eapply C21_rescan; eassumption.
  - intros b t Ht. apply (Hc b t). apply in_rev. exact Ht.
Qed.

(* Text in UTF-8 has no cluster that begins with a continuation byte. *)
Theorem C64_text : forall cs toks, Forall scalar cs -> tokenises (utf8_text cs) toks -> forall b t, In (b :: t) toks -> ~ is_cont b.
Proof.
  intros cs toks F H b t Hin. destruct (C11_whole_characters cs toks F H) as (segs & E & _ & ->).
  apply in_map_iff in Hin. destruct Hin as (seg & Es & Hs). destruct seg as [|c seg]; [discriminate Es|].
  assert (scalar c) as Sc.
  { rewrite Forall_forall in F. apply F. rewrite <- E. apply in_concat. exists (c :: seg). split; [exact Hs|left; reflexivity]. }
  unfold utf8_text in Es. cbn [flat_map] in Es.
  pose proof (utf8_encode_seq c Sc) as S. inversion S as [a Ha E1 Ev|a x Ha Hx E1 Ev|a x y Ha Hx Hy E1 Ev|a x y z Ha Hx Hy Hz E1 Ev];
    rewrite <- E1 in Es; cbn [app] in Es; assert (a = b) as -> by congruence; unfold is_cont; lia.
Qed.

(* Reversing the clusters of a text is not always possible: LF and CR; regional
   indicators; an accent at the beginning of a text. *)
Theorem C64_refuted :
  ~ (forall cs toks, Forall scalar cs -> tokenises (utf8_text cs) toks -> tokenises (concat (rev toks)) (rev toks)).
Proof.
  intros K.
  assert (tokenises (utf8_text [0x0A; 0x0D]%N) [[x0a]; [x0d]]) as H by (apply C04_tokens_fn; vm_compute; reflexivity).
  apply K in H; [|repeat (constructor; [apply scalarb_spec; reflexivity|]); constructor].
  assert (tokenises [x0d; x0a] [[x0d; x0a]]) as H' by (apply C04_tokens_fn; vm_compute; reflexivity).
  pose proof (tokenises_unique _ _ _ H H') as E. vm_compute in E. discriminate E.
Qed.

Example C64_flags : tokenises (utf8_text [0x1F1E6; 0x1F1E7; 0x1F1E8]%N) [utf8_text [0x1F1E6; 0x1F1E7]%N; utf8_text [0x1F1E8]%N] /\
  tokenises (utf8_text [0x1F1E8; 0x1F1E6; 0x1F1E7]%N) [utf8_text [0x1F1E8; 0x1F1E6]%N; utf8_text [0x1F1E7]%N].
Proof. split; apply C04_tokens_fn; vm_compute; reflexivity. Qed.

(* The proviso about continuation bytes is needed: all pairs of E2, 80, 80 stay
   apart, but the three are one character. *)
Theorem C64_needed : exists ts, Forall (fun t => tokenises t [t]) ts /\
  (forall l t u r, ts = l ++ t :: u :: r -> tokenises (t ++ u) [t; u]) /\ ~ tokenises (concat ts) ts.
Proof.
  exists [[xe2]; [x80]; [x80]]. split; [|split].
  - repeat (constructor; [apply C04_tokens_fn; vm_compute; reflexivity|]). constructor.
  - intros l t u r E. destruct l as [|? l].
    + cbn [app] in E. assert (t = [xe2]) as -> by congruence. assert (u = [x80]) as -> by congruence. apply C04_tokens_fn. vm_compute. reflexivity.
    + destruct l as [|? l].
      * cbn [app] in E. assert (t = [x80]) as -> by congruence. assert (u = [x80]) as -> by congruence. apply C04_tokens_fn. vm_compute. reflexivity.
      * destruct l as [|? l]; [discriminate E|]. destruct l; discriminate E.
  - intros H. assert (tokenises [xe2; x80; x80] [[xe2; x80; x80]]) as H' by (apply C04_tokens_fn; vm_compute; reflexivity).
    pose proof (tokenises_unique _ _ _ H H') as E. vm_compute in E. discriminate E.
Qed.

Lemma plain_splits p x a b c : gcb p <> Prepend -> gcb x = Other \/ gcb x = Control -> extpict x = false -> incb x <> InCB_Consonant ->
  spec_split p x a b c = true.
Proof.
  intros Hp Hx He Hi. destruct p as [gp ep ip], x as [gx ex ix]. cbn in *. subst ex.
  unfold spec_split, brules. generalize (a =? 2)%N as a', (b =? 2)%N as b'. intros a' b'.
  destruct Hx as [-> | ->]; destruct gp, ix; try congruence; destruct a', b', c; reflexivity.
Qed.

(* Clusters that begin with a character of Grapheme_Cluster_Break Other or Control
   - no emoji, no consonant of an Indic conjunct - and do not end with a Prepend
   character can be put together in any order. *)
Theorem C64_any_order : forall ts,
  Forall (fun t => tokenises t [t] /\ exists c cs, Forall scalar (c :: cs) /\ t = utf8_text (c :: cs) /\
            (gcb (ucd_class c) = Other \/ gcb (ucd_class c) = Control) /\ extpict (ucd_class c) = false /\
            incb (ucd_class c) <> InCB_Consonant /\ gcb (ucd_class (last cs c)) <> Prepend) ts ->
  tokenises (concat ts) ts.
Proof.
  intros ts F. apply C64_pairs.
  - eapply Forall_impl; [|exact F]. intros t [K _]. exact K.
  - intros b t Hin. rewrite Forall_forall in F. destruct (F _ Hin) as (K & c & cs & Fs & E & _).
    apply (C64_text (c :: cs) [b :: t] Fs) with (t := t); [rewrite <- E; exact K|left; reflexivity].
  - intros l t u r ->. apply Forall_app in F. destruct F as [_ F].
    inversion F as [|? ? Ft F']; subst. inversion F' as [|? ? Fu _]; subst.
    destruct Ft as (Kt & c & cs & Ft & -> & _ & _ & _ & Hpre). destruct Fu as (Ku & d & ds & Fu & -> & H1 & H2 & H3 & _).
    destruct (tokenises_total (utf8_text (c :: cs) ++ utf8_text (d :: ds))) as [toks H].
    assert (cut toks (utf8_text (c :: cs))) as C.
    { assert (exists i1, map char (c :: cs) = i1 ++ [char (last cs c)]) as (i1 & Ei).
      { rewrite (app_removelast_last c (l := c :: cs)) by discriminate. rewrite map_app. exists (map char (removelast (c :: cs))).
        f_equal. cbn [map]. do 2 f_equal. destruct cs as [|y cs]; [reflexivity|]. cbn [last]. clear. revert y.
        induction cs as [|z cs IH]; intros y; [reflexivity|]. cbn [last] in *. apply IH. }
      assert (utf8_text (c :: cs) = items_bytes (i1 ++ [char (last cs c)])) as Eb.
      { rewrite <- Ei. unfold utf8_text, items_bytes. generalize (c :: cs) as q. clear. induction q as [|x q IH]; [reflexivity|].
        cbn [map flat_map]. rewrite IH. reflexivity. }
      assert (reads (utf8_text (c :: cs) ++ utf8_text (d :: ds)) (i1 ++ char (last cs c) :: char d :: map char ds)) as R.
      { unfold utf8_text. rewrite <- flat_map_app. fold (utf8_text ((c :: cs) ++ d :: ds)).
        pose proof (reads_utf8_text ((c :: cs) ++ d :: ds)) as Q. rewrite map_app, Ei in Q. rewrite <- app_assoc in Q. cbn [map app] in Q.
        apply Q. change (Forall scalar ((c :: cs) ++ d :: ds)). apply Forall_app. split; assumption. }
      rewrite Eb. apply (cut_pos _ _ _ _ _ _ H R).
      assert (scalar (last cs c)) as Sl.
      { rewrite Forall_forall in Ft. apply Ft. clear. destruct cs as [|y cs]; [left; reflexivity|right].
        rewrite (app_removelast_last c (l := y :: cs)) at 2 by discriminate. apply in_or_app. right. left. reflexivity. }
      inversion Fu; subst. rewrite !class_char by assumption. apply plain_splits; assumption. }
    pose proof H as H0. apply (C47_divide _ _ _ H) in C. destruct C as (ta & tb & Ha & Hb & E).
    rewrite (tokenises_unique _ _ _ Ha Kt), (tokenises_unique _ _ _ Hb Ku) in E. rewrite E in H0. exact H0.
Qed.

(* "x", e with an acute accent, U+200B, "e" again with two accents; in another order *)
Example C64_example : tokenises ([x65; xcc; x81; xcc; x80] ++ [x78] ++ [x65; xcc; x81] ++ [xe2; x80; x8b])
  [[x65; xcc; x81; xcc; x80]; [x78]; [x65; xcc; x81]; [xe2; x80; x8b]].
Proof.
  apply (C64_any_order [[x65; xcc; x81; xcc; x80]; [x78]; [x65; xcc; x81]; [xe2; x80; x8b]]).
  assert (forall t c cs, tokens t = Ret [t] -> forallb scalarb (c :: cs) = true -> t = utf8_text (c :: cs) ->
    ucd_class c = plain \/ ucd_class c = control -> gcb (ucd_class (last cs c)) <> Prepend ->
    tokenises t [t] /\ exists c cs, Forall scalar (c :: cs) /\ t = utf8_text (c :: cs) /\
            (gcb (ucd_class c) = Other \/ gcb (ucd_class c) = Control) /\ extpict (ucd_class c) = false /\
            incb (ucd_class c) <> InCB_Consonant /\ gcb (ucd_class (last cs c)) <> Prepend) as K.
  { intros t c cs Ht Fs E Hcl Hl. split; [apply C04_tokens_fn; exact Ht|]. exists c, cs. split.
    - rewrite forallb_forall in Fs. apply Forall_forall. intros x Hx. apply scalarb_spec. apply Fs. exact Hx.
    - split; [exact E|]. destruct Hcl as [-> | ->]; cbn; auto 6; (split; [auto|split; [reflexivity|split; [discriminate|exact Hl]]]). }
  constructor; [apply (K _ 0x65 [0x301; 0x300])%N; [vm_compute; reflexivity|reflexivity|reflexivity|left; vm_compute; reflexivity|vm_compute; discriminate]|].
  constructor; [apply (K _ 0x78 [])%N; [vm_compute; reflexivity|reflexivity|reflexivity|left; vm_compute; reflexivity|vm_compute; discriminate]|].
  constructor; [apply (K _ 0x65 [0x301])%N; [vm_compute; reflexivity|reflexivity|reflexivity|left; vm_compute; reflexivity|vm_compute; discriminate]|].
  constructor; [apply (K _ 0x200B [])%N; [vm_compute; reflexivity|reflexivity|reflexivity|right; vm_compute; reflexivity|vm_compute; discriminate]|].
  constructor.
Qed.

Definition all_theorems := (C64_pairs, C64_reverse, C64_text, C64_refuted, C64_needed, C64_any_order).
Print Assumptions all_theorems.
