(* Lemmas behind Properties/Unicode.v. *)
From Coq Require Import List NArith Arith Bool Lia Strings.Byte.
From Coq Require Import ZArith ZifyBool ZifyNat ZifyN.
From Verif Require Import Spec.Classes Spec.Utf8 Spec.UAX29 Spec.UcdRanges Spec.Segmentation.
From Verif Require Import Model.Base Model.CharProps Model.Lookup Model.Machine Model.Scan Model.Drivers.
From Verif Require Import Proofs.Basics Proofs.TableCheck Proofs.LookupFacts Proofs.MachineFacts
  Proofs.ScanFacts Proofs.TextFacts Proofs.TextProps Proofs.DriverFacts.
Import ListNotations.

Local Opaque committed fast_class ok1 leads conts LookupFirstChar.

(* ---- clusters of characters *)

Lemma char_inj a b : char a = char b -> a = b.
Proof. unfold char. intros H. injection H. auto. Qed.

Lemma map_char_inj l l' : map char l = map char l' -> l = l'.
Proof.
  revert l'. induction l as [|a l IH]; intros [|b l'] H; try discriminate; [reflexivity|].
  cbn [map] in H. assert (char a = char b) as E by congruence. apply char_inj in E. subst.
  f_equal. apply IH. congruence.
Qed.

Lemma concat_map_map {A B} (f : A -> B) segs : concat (map (map f) segs) = map f (concat segs).
Proof. symmetry. apply concat_map. Qed.

Lemma unmap_segs {A B} (f : A -> B) : forall segs txt,
  concat segs = map f txt -> exists segs', segs = map (map f) segs' /\ concat segs' = txt.
Proof.
  induction segs as [|s segs IH]; intros txt E; simpl in E.
  - destruct txt; [|discriminate]. exists []. auto.
  - symmetry in E. apply map_eq_app in E. destruct E as (t1 & t2 & -> & E1 & E2).
    destruct (IH t2) as (segs' & -> & <-); [auto|].
    exists (t1 :: segs'). simpl. rewrite E1. auto.
Qed.

Lemma clusters_chars cs segs : Forall scalar cs ->
  (clusters ucd_class cs segs <-> clusters item_class (map char cs) (map (map char) segs)).
Proof.
  intros Hcs.
  assert (Hsub : forall l r, cs = l ++ r -> map item_class (map char l) = map ucd_class l /\
                                       map item_class (map char r) = map ucd_class r).
  { intros l r E. subst cs. apply Forall_app in Hcs. destruct Hcs. split; apply map_class_chars; assumption. }
  assert (Hcut : forall l, (exists s1 s2, segs = s1 ++ s2 /\ concat s1 = l) <->
            (exists s1 s2, map (map char) segs = s1 ++ s2 /\ concat s1 = map char l)).
  { intros l. split.
    - intros (s1 & s2 & -> & <-). exists (map (map char) s1), (map (map char) s2).
      rewrite map_app, concat_map_map. auto.
    - intros (s1 & s2 & E & El). apply map_eq_app in E. destruct E as (u1 & u2 & -> & <- & <-).
      exists u1, u2. split; [reflexivity|]. apply map_char_inj. rewrite <- concat_map_map. exact El. }
  split; intros [C1 C2 C3]; constructor.
  - rewrite concat_map_map, C1. reflexivity.
  - rewrite Forall_map. eapply Forall_impl; [|exact C2]. intros s Hs. destruct s; [congruence|discriminate].
  - intros l r E Hne. apply map_eq_app in E. destruct E as (l' & r' & Ec & <- & <-).
    destruct (Hsub _ _ Ec) as [-> ->]. rewrite <- Hcut. apply C3; [exact Ec|].
    intros ->. apply Hne. reflexivity.
  - apply map_char_inj. rewrite <- concat_map_map. exact C1.
  - rewrite Forall_map in C2. eapply Forall_impl; [|exact C2]. intros s Hs. destruct s; [simpl in Hs; congruence|discriminate].
  - intros l r E Hne. destruct (Hsub _ _ E) as [<- <-]. rewrite Hcut. apply C3.
    + rewrite E, map_app. reflexivity.
    + intros H. apply Hne. destruct cs; [reflexivity|discriminate].
Qed.

Theorem text_clusters cs toks : Forall scalar cs ->
  (tokenises (utf8_text cs) toks <->
   exists segs, clusters ucd_class cs segs /\ toks = map utf8_text segs).
Proof.
  intros Hcs. rewrite (tokenises_iff _ _ _ (reads_utf8_text cs Hcs)).
  assert (Hm : forall segs, map items_bytes (map (map char) segs) = map utf8_text segs).
  { intros segs. rewrite map_map. apply map_ext. apply items_bytes_chars. }
  split.
  - intros (segs & Hc & ->). destruct (unmap_segs char segs cs) as (segs' & -> & _).
    { apply Hc. }
    exists segs'. split; [apply clusters_chars; assumption|apply Hm].
  - intros (segs & Hc & ->). exists (map (map char) segs).
    split; [apply clusters_chars; assumption|symmetry; apply Hm].
Qed.

(* ---- positions described by characters in arbitrary context *)

Lemma context1 p c q : scalar c ->
  exists ip iq, reads p ip /\ reads q iq /\ reads (p ++ utf8_encode c ++ q) (ip ++ char c :: iq) /\
    items_bytes ip = p.
Proof.
  intros Hc. destruct (reads_total p) as [ip Hp], (reads_total q) as [iq Hq].
  exists ip, iq. split; [exact Hp|]. split; [exact Hq|]. split.
  - apply chars_in_context; assumption.
  - apply reads_bytes. exact Hp.
Qed.

Lemma context2 p a b q : scalar a -> scalar b ->
  exists ip iq, reads p ip /\ reads q iq /\
    reads (p ++ utf8_encode a ++ utf8_encode b ++ q) (ip ++ char a :: char b :: iq) /\
    items_bytes (ip ++ [char a]) = p ++ utf8_encode a.
Proof.
  intros Ha Hb. destruct (reads_total p) as [ip Hp], (reads_total q) as [iq Hq].
  exists ip, iq. split; [exact Hp|]. split; [exact Hq|]. split.
  - apply chars_in_context; auto. apply reads_char_app; assumption.
  - rewrite items_bytes_app, (reads_bytes _ _ Hp). simpl. rewrite app_nil_r. reflexivity.
Qed.

Lemma good_class_char c : scalar c -> good (ucd_class c).
Proof.
  intros Hc. rewrite <- (class_char c Hc). apply (lookup_char (utf8_encode c) c []).
  apply utf8_encode_seq. exact Hc.
Qed.

(* ---- the state machine driven directly *)

Fixpoint nth_split_ok (rl : list cls) (p : cls) (xs : list cls) (ds : list bool) : Prop :=
  match xs, ds with
  | [], [] => True
  | x :: xs', d :: ds' =>
      (d = true <-> boundary (rev (p :: rl)) (x :: xs')) /\ nth_split_ok (p :: rl) x xs' ds'
  | _, _ => False
  end.

Lemma drive_spec : forall xs s p rl,
  summary (p :: rl) s -> Forall good (p :: rl) -> Forall good xs ->
  exists ds, drive s (enc p) (map enc xs) = Ret ds /\ nth_split_ok rl p xs ds.
Proof.
  induction xs as [|x xs IH]; intros s p rl HS Hrl Hxs; cbn [map drive].
  - exists []. split; [reflexivity|exact I].
  - inversion Hxs as [|? ? Gx Hxs']; subst.
    destruct (is_split s (enc p) (enc x)) eqn:Esp.
    + destruct (transition_split rl p x s xs HS Hrl Gx Esp) as (HB & s' & Eb & HS').
      assert (In s states) as Hs by (destruct HS as [Hf _]; eapply fits_state; exact Hf).
      destruct (Transition_total s (enc p) (enc x) Hs) as (s0 & _ & _ & Et).
      rewrite Et, Esp. cbn [bind]. rewrite Eb. cbn [bind].
      destruct (IH s' x (p :: rl) HS' (Forall_cons _ Gx Hrl) Hxs') as (ds & Ed & Hd).
      rewrite Ed. cbn [bind]. exists (true :: ds). split; [reflexivity|]. split; [|exact Hd].
      split; auto.
    + destruct (transition_join rl p x s xs HS Hrl Gx Esp) as (HB & s' & En & HS').
      unfold Transition. rewrite En. cbn [bind]. rewrite Esp. cbn [bind].
      destruct (IH s' x (p :: rl) HS' (Forall_cons _ Gx Hrl) Hxs') as (ds & Ed & Hd).
      rewrite Ed. cbn [bind]. exists (false :: ds). split; [reflexivity|]. split; [|exact Hd].
      split; [discriminate|intros K; contradiction].
Qed.

(* without restarting: right as long as there are no regional indicators *)
Definition check_on : bool :=
  forallb (fun s => forallb (fun p => forallb (fun x =>
    negb (fits s p) || b_is Regional_Indicator x ||
     match nextState s (enc x) with
     | Ret s' => summ_step s s' x
     | Panic _ => false
     end) good_classes) good_classes) states.
Lemma check_on_ok : check_on = true. Proof. vm_compute. reflexivity. Qed.

Lemma step_on s p x : fits s p = true -> good p -> good x -> gcb x <> Regional_Indicator ->
  exists s', nextState s (enc x) = Ret s' /\ summ_step s s' x = true.
Proof.
  intros Hf Gp Gx Hx. pose proof check_on_ok as K. unfold check_on in K.
  rewrite forallb_forall in K. specialize (K s (fits_state _ _ Hf)). cbv beta in K.
  rewrite forallb_forall in K. specialize (K p Gp). cbv beta in K.
  rewrite forallb_forall in K. specialize (K x Gx). cbv beta in K.
  rewrite Hf in K. cbn [negb orb] in K.
  destruct (b_is Regional_Indicator x) eqn:E; [apply b_is_iff in E; contradiction|].
  cbn [orb] in K. destruct (nextState s (enc x)) as [s'|]; [|discriminate]. eauto.
Qed.

Lemma drive_on_spec : forall xs s p rl,
  summary (p :: rl) s -> Forall good (p :: rl) -> Forall good xs ->
  Forall (fun x => gcb x <> Regional_Indicator) xs ->
  exists ds, drive_on s (enc p) (map enc xs) = Ret ds /\ nth_split_ok rl p xs ds.
Proof.
  induction xs as [|x xs IH]; intros s p rl HS Hrl Hxs Hri; cbn [map drive_on].
  - exists []. split; [reflexivity|exact I].
  - inversion Hxs as [|? ? Gx Hxs']; subst. inversion Hri as [|? ? Rx Hri']; subst.
    inversion Hrl as [|? ? Gp Hrl']; subst.
    pose proof HS as (Hf & _).
    destruct (step_on s p x Hf Gp Gx Rx) as (s' & En & Hst).
    pose proof (summary_step p rl s s' x HS Hst) as HS'.
    unfold Transition. rewrite En. cbn [bind].
    destruct (IH s' x (p :: rl) HS' (Forall_cons _ Gx Hrl) Hxs' Hri') as (ds & Ed & Hd).
    rewrite Ed. cbn [bind]. eexists. split; [reflexivity|]. split; [|exact Hd].
    destruct (is_split s (enc p) (enc x)) eqn:Esp.
    + split; [intros _|reflexivity]. apply (transition_split rl p x s xs HS Hrl Gx Esp).
    + split; [discriminate|]. intros K. exfalso.
      apply (proj1 (transition_join rl p x s xs HS Hrl Gx Esp) K).
Qed.

Lemma nth_split_nth : forall xs rl p ds, nth_split_ok rl p xs ds ->
  length ds = length xs /\
  forall k, k < length xs ->
    (nth k ds false = true <-> boundary (rev rl ++ p :: firstn k xs) (skipn k xs)).
Proof.
  induction xs as [|x xs IH]; intros rl p ds H; destruct ds as [|d ds]; try destruct H.
  - split; [reflexivity|]. intros k Hk. simpl in Hk. lia.
  - destruct (IH _ _ _ H0) as [Hl Hk]. split; [simpl; congruence|].
    intros [|k] Hlt.
    + cbn [nth firstn skipn]. exact H.
    + cbn [nth firstn skipn]. simpl in Hlt. rewrite Hk by lia.
      simpl rev. rewrite <- app_assoc. reflexivity.
Qed.

Lemma drive_total : forall ps s prev, In s states ->
  exists ds, drive s prev ps = Ret ds /\ length ds = length ps.
Proof.
  induction ps as [|x ps IH]; intros s prev Hs; cbn [drive].
  - exists []. auto.
  - destruct (Transition_total s prev x Hs) as (s' & En & Hs' & Et).
    rewrite Et. cbn [bind]. destruct (is_split s prev x).
    + destruct (Begin_total x) as (s'' & Eb & Hs''). rewrite Eb. cbn [bind].
      destruct (IH s'' x Hs'') as (ds & E & El). rewrite E. cbn [bind].
      eexists. split; [reflexivity|]. simpl. congruence.
    + cbn [bind]. destruct (IH s' x Hs') as (ds & E & El). rewrite E. cbn [bind].
      eexists. split; [reflexivity|]. simpl. congruence.
Qed.

Lemma drive_on_total : forall ps s prev, In s states ->
  exists ds, drive_on s prev ps = Ret ds /\ length ds = length ps.
Proof.
  induction ps as [|x ps IH]; intros s prev Hs; cbn [drive_on].
  - exists []. auto.
  - destruct (Transition_total s prev x Hs) as (s' & En & Hs' & Et).
    rewrite Et. cbn [bind]. destruct (IH s' x Hs') as (ds & E & El). rewrite E. cbn [bind].
    eexists. split; [reflexivity|]. simpl. congruence.
Qed.

(* ---- ASCII *)

Lemma ascii_seq b : (bval b < 0x80)%N -> utf8_seq [b] (bval b).
Proof. intros H. constructor. exact H. Qed.

Lemma ascii_encode b : (bval b < 0x80)%N -> utf8_encode (bval b) = [b].
Proof.
  intros H. unfold utf8_encode. replace (bval b <? 0x80)%N with true by lia.
  rewrite mkbyte_bval. reflexivity.
Qed.

Definition simple_classes : list cls :=
  [plain; Cls CR false InCB_None; Cls LF false InCB_None; control].

Definition ascii_class_check : bool :=
  forallb (fun a =>
    existsb (cls_eqb (ucd_class (bval a))) simple_classes &&
    Bool.eqb (GCB_eqb (gcb (ucd_class (bval a))) CR) (Byte.eqb a x0d) &&
    Bool.eqb (GCB_eqb (gcb (ucd_class (bval a))) LF) (Byte.eqb a x0a)) (leads 0 128).
Lemma ascii_class_check_ok : ascii_class_check = true. Proof. vm_compute. reflexivity. Qed.

Lemma ascii_class b : (bval b < 0x80)%N ->
  In (ucd_class (bval b)) simple_classes /\
  (gcb (ucd_class (bval b)) = CR <-> b = x0d) /\ (gcb (ucd_class (bval b)) = LF <-> b = x0a).
Proof.
  intros H. pose proof ascii_class_check_ok as K. unfold ascii_class_check in K.
  rewrite forallb_forall in K. specialize (K b (in_leads b 0 128 ltac:(lia))). cbv beta in K.
  apply andb_true_iff in K. destruct K as [K K3]. apply andb_true_iff in K. destruct K as [K1 K2].
  split; [|split].
  - apply existsb_exists in K1. destruct K1 as (x & Hin & Hx). destruct (cls_eqb_spec (ucd_class (bval b)) x); [congruence|discriminate].
  - apply eqb_prop in K2. destruct (GCB_eqb_spec (gcb (ucd_class (bval b))) CR) as [E|E].
    + symmetry in K2. apply Byte.byte_dec_bl in K2. tauto.
    + split; [contradiction|]. intros ->. discriminate.
  - apply eqb_prop in K3. destruct (GCB_eqb_spec (gcb (ucd_class (bval b))) LF) as [E|E].
    + symmetry in K3. apply Byte.byte_dec_bl in K3. tauto.
    + split; [contradiction|]. intros ->. discriminate.
Qed.

Lemma split_simple p x a b c : In p simple_classes -> In x simple_classes ->
  (spec_split p x a b c = true <-> ~ (gcb p = CR /\ gcb x = LF)).
Proof.
  intros Hp Hx. unfold simple_classes in *. simpl in Hp, Hx.
  destruct Hp as [<-|[<-|[<-|[<-|[]]]]]; destruct Hx as [<-|[<-|[<-|[<-|[]]]]];
    unfold spec_split, brules, b_is, b_in, b_incb; simpl;
    rewrite ?andb_false_r; simpl; (split; [intros _ [E1 E2]; discriminate|]) || (split; [discriminate|]);
    intros H; try reflexivity; try discriminate; exfalso; apply H; auto.
Qed.

(* first tokens and cuts *)
Lemma first_token_min (t : list byte) ts l : cut (t :: ts) l -> l <> [] -> length t <= length l.
Proof.
  intros (t1 & t2 & E & El) Hl. destruct t1 as [|x t1]; simpl in *; [congruence|].
  injection E as <- E. rewrite <- El, app_length. lia.
Qed.

Definition ch (b : byte) : item := Char [b] (bval b).

Lemma class_ascii b : (bval b < 0x80)%N -> item_class (ch b) = ucd_class (bval b).
Proof.
  intros H. rewrite <- (class_char (bval b)); [|left; lia].
  unfold ch, char. rewrite ascii_encode by exact H. reflexivity.
Qed.

Lemma reads_ascii data : Forall (fun b => bval b < 0x80)%N data -> reads data (map ch data).
Proof.
  induction 1 as [|b data Hb H IH]; [constructor|].
  apply (reads_char [b] (bval b) data (map ch data)); [apply ascii_seq; exact Hb|exact IH].
Qed.

Lemma ascii_cut pre b c rest toks :
  Forall (fun b => bval b < 0x80)%N (pre ++ b :: c :: rest) ->
  tokenises (pre ++ b :: c :: rest) toks ->
  (cut toks (pre ++ [b]) <-> ~ (b = x0d /\ c = x0a)).
Proof.
  intros HA Ht. pose proof (reads_ascii _ HA) as Hr. rewrite map_app in Hr. cbn [map] in Hr.
  pose proof (cut_pos _ _ _ _ _ _ Ht Hr) as K.
  assert (items_bytes (map ch pre ++ [ch b]) = pre ++ [b]) as E.
  { rewrite items_bytes_app. cbn [items_bytes flat_map item_bytes ch]. f_equal.
    rewrite Forall_app in HA. apply reads_bytes. apply reads_ascii. apply HA. }
  rewrite E in K. apply Forall_app in HA. destruct HA as [_ HA].
  inversion HA as [|? ? Hb HA1]; subst. inversion HA1 as [|? ? Hc HA2]; subst.
  destruct (ascii_class b Hb) as (B1 & B2 & _). destruct (ascii_class c Hc) as (C1 & _ & C3).
  rewrite K, !class_ascii by assumption. rewrite split_simple by assumption. tauto.
Qed.

Theorem ascii_ok : forall n data toks, length data <= n ->
  Forall (fun b => bval b < 0x80)%N data -> tokenises data toks -> toks = ascii_tokens data.
Proof.
  induction n as [|n IH]; intros data toks Hn HA Ht.
  { destruct data; [|simpl in Hn; lia]. inversion Ht; [reflexivity|]. discriminate. }
  destruct data as [|b rest]; [inversion Ht; [reflexivity|discriminate]|].
  inversion Ht as [|? m t ts Hs Hrest]; subst.
  destruct (scan_flush _ _ _ Hs) as (Hm & Hm1 & Et).
  assert (Hcont : forall k, m = k -> length (skipn k (b :: rest)) <= n -> ts = ascii_tokens (skipn k (b :: rest))).
  { intros k -> Hk. apply IH; auto. rewrite <- (firstn_skipn k (b :: rest)) in HA.
    apply Forall_app in HA. apply HA. }
  assert (Hlt : length t = m) by (rewrite Et; apply firstn_length_le; exact Hm).
  destruct rest as [|c rest].
  - simpl in Hm. assert (m = 1) as -> by lia. rewrite Et.
    rewrite (Hcont 1 eq_refl) by (simpl; lia). reflexivity.
  - cbn [ascii_tokens].
    destruct (Byte.eqb b x0d && Byte.eqb c x0a) eqn:E.
    + apply andb_true_iff in E. destruct E as [E1 E2].
      apply Byte.byte_dec_bl in E1, E2. subst b c.
      assert (m = 2) as ->.
      { assert (cut (t :: ts) [x0d; x0a]) as Hc2.
        { destruct rest as [|d rest].
          - apply (cut_end _ _ Ht).
          - apply (ascii_cut [x0d] x0a d rest (t :: ts) HA Ht). intros [H _]. discriminate. }
        assert (length t <= 2) by (apply (first_token_min t ts _ Hc2); discriminate).
        assert (m <> 1); [|lia]. intros ->.
        apply (proj1 (ascii_cut [] x0d x0a rest (t :: ts) HA Ht)); [|auto].
        exists [t], ts. split; [reflexivity|]. rewrite Et. reflexivity. }
      rewrite Et. rewrite (Hcont 2 eq_refl) by (simpl in *; lia). reflexivity.
    + assert (m = 1) as ->.
      { assert (cut (t :: ts) [b]) as Hc1.
        { apply (ascii_cut [] b c rest (t :: ts) HA Ht). intros [-> ->]. discriminate. }
        assert (length t <= 1) by (apply (first_token_min t ts _ Hc1); discriminate). lia. }
      rewrite Et. rewrite (Hcont 1 eq_refl) by (simpl in *; lia). reflexivity.
Qed.
