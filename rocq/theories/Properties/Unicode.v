(* Properties C08-C12, C15-C22, C38: what the tokens are. *)
From Coq Require Import List NArith Arith Bool Lia Strings.Byte.
From Coq Require Import ZArith ZifyBool ZifyNat ZifyN.
From Verif Require Import Spec.Classes Spec.Utf8 Spec.UAX29 Spec.UcdRanges Spec.Segmentation.
From Verif Require Import Model.Base Model.CharProps Model.Lookup Model.Machine Model.Scan.
From Verif Require Import Proofs.Basics Proofs.TableCheck Proofs.LookupFacts Proofs.MachineFacts
  Proofs.ScanFacts Proofs.TextFacts Proofs.TextProps Proofs.DriverFacts Proofs.UnicodeFacts.
Import ListNotations.

Local Opaque committed LookupFirstChar fast_class ok1 leads conts.

(* C08. Tokenising the UTF-8 encoding of a text gives exactly the UTF-8
   encodings of its extended grapheme clusters (UAX #29 on the classes of the
   Unicode 17 data files); there is exactly one such segmentation. *)
Theorem C08_conformance : forall cs toks, Forall scalar cs ->
  (tokenises (utf8_text cs) toks <->
   exists segs, clusters ucd_class cs segs /\ toks = map utf8_text segs).
Proof. exact text_clusters. Qed.

Theorem C08_unique : forall cs, Forall scalar cs ->
  exists segs, clusters ucd_class cs segs /\
    (forall segs', clusters ucd_class cs segs' -> segs' = segs) /\
    tokenises (utf8_text cs) (map utf8_text segs).
Proof.
  intros cs Hcs. destruct (tokenises_total (utf8_text cs)) as [toks Ht].
  pose proof Ht as Ht'. apply (text_clusters cs toks Hcs) in Ht'. destruct Ht' as (segs & Hc & ->).
  exists segs. split; [exact Hc|]. split; [|exact Ht].
  intros segs' H. eapply clusters_unique; eauto.
Qed.

(* Ka + virama + nukta + Ka (GB9c), family emoji (GB11), three regional
   indicators (GB12/13) *)
Example C08_example :
  let cs := [0x915; 0x94D; 0x93C; 0x915; 0x1F468; 0x200D; 0x1F469; 0x1F1E9; 0x1F1EA; 0x1F1E9]%N in
  tokens (utf8_text cs) =
  Ret [utf8_text [0x915; 0x94D; 0x93C; 0x915]; utf8_text [0x1F468; 0x200D; 0x1F469];
       utf8_text [0x1F1E9; 0x1F1EA]; utf8_text [0x1F1E9]]%N /\ Forall scalar cs.
Proof.
  split; [vm_compute; reflexivity|].
  repeat (constructor; [apply scalarb_spec; reflexivity|]). constructor.
Qed.

(* C09. For arbitrary bytes: read them as characters (complete sequences) and
   bad bytes (of class Control); the tokens are the UAX #29 clusters of that
   sequence, and there is always exactly one reading. *)
Theorem C09_arbitrary_bytes : forall data,
  exists its, reads data its /\ (forall its', reads data its' -> its' = its) /\
    forall toks, tokenises data toks <->
      exists segs, clusters item_class its segs /\ toks = map items_bytes segs.
Proof.
  intros data. destruct (reads_total data) as [its H]. exists its. split; [exact H|]. split.
  - intros its' H'. eapply reads_unique; eauto.
  - intros toks. apply tokenises_iff. exact H.
Qed.

Example C09_example : reads [x61; xe2; xcc; x81; xff]
  [Char [x61] 0x61; Bad xe2; Char [xcc; x81] 0x301; Bad xff] /\
  tokens [x61; xe2; xcc; x81; xff] = Ret [[x61]; [xe2]; [xcc; x81]; [xff]].
Proof.
  split; [|vm_compute; reflexivity].
  apply (reads_char [x61] 0x61). { apply (seq1 x61). reflexivity. }
  apply reads_bad.
  { intros (bs & v & rest & Hs & E). destruct Hs as [a Ha|a b Ha Hb|a b c Ha Hb Hc|a b c d Ha Hb Hc Hd];
      simpl in E; injection E; intros; subst; vm_compute in *; intuition discriminate. }
  apply (reads_char [xcc; x81] 0x301). { apply (seq2 xcc x81); vm_compute; intuition discriminate. }
  apply reads_bad; [|constructor].
  intros (bs & v & rest & Hs & E). destruct Hs as [a Ha|a b Ha Hb|a b c Ha Hb Hc|a b c d Ha Hb Hc Hd];
      simpl in E; injection E; intros; subst; vm_compute in *; intuition discriminate.
Qed.

(* C10. Every bad byte is a token of its own, at its place; in particular every
   byte 0xF8-0xFF anywhere in any data, and every byte that follows no lead
   byte's sequence (any byte read as bad). *)
Theorem C10_bad_bytes : forall data toks pre b post,
  tokenises data toks -> reads data (pre ++ Bad b :: post) ->
  piece_at toks (items_bytes pre) [b].
Proof. intros. eapply bad_is_token; eauto. Qed.

Theorem C10_never_utf8 : forall p b q toks,
  (0xF8 <= bval b)%N -> tokenises (p ++ b :: q) toks -> piece_at toks p [b].
Proof.
  intros p b q toks Hb Ht. destruct (bad_byte_reads p b q Hb) as (i1 & i2 & Hp & Hr).
  rewrite <- (reads_bytes _ _ Hp). eapply bad_is_token; eauto.
Qed.

(* a lead byte not followed by a complete sequence *)
Theorem C10_incomplete : forall p b q toks,
  ~ is_cont b -> ~ starts_seq (b :: q) -> tokenises (p ++ b :: q) toks -> piece_at toks p [b].
Proof.
  intros p b q toks Hb Hs Ht. destruct (reads_total p) as [ip Hp], (reads_total q) as [iq Hq].
  rewrite <- (reads_bytes _ _ Hp).
  apply (bad_is_token _ _ _ _ iq Ht). apply reads_app; auto. constructor; assumption.
Qed.

(* a continuation byte after ASCII text or at the start *)
Theorem C10_stray : forall p b q toks,
  (p = [] \/ exists p' a, p = p' ++ [a] /\ (bval a < 0x80)%N) -> is_cont b ->
  tokenises (p ++ b :: q) toks -> piece_at toks p [b].
Proof.
  intros p b q toks Hp Hb Ht.
  assert (Hbad : ~ starts_seq (b :: q)).
  { intros (bs & v & rest & Hs & E). unfold is_cont in Hb.
    destruct Hs as [a Ha|a b' Ha Hb'|a b' c Ha Hb' Hc|a b' c d Ha Hb' Hc Hd]; simpl in E;
      (assert (b = a) by congruence; subst b; lia). }
  destruct (reads_total q) as [iq Hq].
  assert (exists ip, reads p ip /\ reads (p ++ b :: q) (ip ++ Bad b :: iq)) as (ip & Hip & Hr).
  { destruct Hp as [->|(p' & a & -> & Ha)].
    - exists []. split; [constructor|]. constructor; assumption.
    - destruct (reads_total p') as [ip' Hp']. exists (ip' ++ [Char [a] (bval a)]).
      assert (Hsa : forall r, synced (a :: r)) by (intros r; simpl; unfold is_cont; lia).
      split.
      + apply reads_app; [assumption| |apply Hsa].
        apply (reads_char [a] (bval a) [] []); [apply ascii_seq; exact Ha|constructor].
      + rewrite <- !app_assoc. apply reads_app; [assumption| |apply Hsa]. simpl.
        apply (reads_char [a] (bval a)); [apply ascii_seq; exact Ha|]. constructor; assumption. }
  rewrite <- (reads_bytes _ _ Hip). eapply bad_is_token; eauto.
Qed.

Example C10_example : tokens [x61; x80; xf0; x9f; x91; xff; xe2; x80] =
  Ret [[x61]; [x80]; [xf0]; [x9f]; [x91]; [xff]; [xe2]; [x80]].
Proof. vm_compute. reflexivity. Qed.

(* C11. Tokens never tear a character. *)
Theorem C11_whole_characters : forall cs toks, Forall scalar cs ->
  tokenises (utf8_text cs) toks ->
  exists segs, concat segs = cs /\ Forall (fun s => s <> []) segs /\ toks = map utf8_text segs.
Proof.
  intros cs toks Hcs Ht. apply (text_clusters cs toks Hcs) in Ht.
  destruct Ht as (segs & [C1 C2 _] & ->). exists segs. auto.
Qed.

Theorem C11_any_bytes : forall data its toks, reads data its -> tokenises data toks ->
  exists segs, concat segs = its /\ toks = map items_bytes segs /\
    Forall (fun s => (exists b, s = [Bad b]) \/
                     (s <> [] /\ Forall (fun i => exists bs v, i = Char bs v /\ utf8_seq bs v) s)) segs.
Proof.
  intros data its toks Hr Ht. apply (tokenises_iff data its toks Hr) in Ht.
  destruct Ht as (segs & Hc & ->). exists segs.
  assert (HF : Forall (fun i => is_char i -> exists bs v, i = Char bs v /\ utf8_seq bs v) its).
  { clear -Hr. induction Hr as [|bs v rest its Hs Hr IH|b rest its Hs Hr IH]; constructor; auto.
    - intros _. eauto.
    - intros []. }
  split; [apply Hc|]. split; [reflexivity|].
  pose proof (segments_pure its segs Hc (good_items _ _ Hr)) as HP.
  rewrite Forall_forall in *. intros s Hs. destruct (HP s Hs) as [[Hne HS]|HB]; [right|left; exact HB].
  split; [exact Hne|]. rewrite Forall_forall in *. intros i Hi. apply HF; [|auto].
  rewrite <- (clusters_concat _ _ _ Hc). apply in_concat. eauto.
Qed.

Example C11_example :
  tokenises (utf8_text [0x65; 0x301; 0x1F600]%N) [utf8_text [0x65; 0x301]%N; utf8_text [0x1F600]%N].
Proof.
  eapply tokenises_step; [vm_compute; reflexivity|]. eapply tokenises_step; [vm_compute; reflexivity|].
  constructor.
Qed.

(* C12. Complete sequences that are not the encoding of a scalar value
   (overlong, surrogate, above U+10FFFF) have no properties, whatever follows,
   and count as one character of class Other. *)
Theorem C12_noncanonical : forall bs v rest,
  utf8_seq bs v -> ~ canonical bs v ->
  LookupFirstChar (bs ++ rest) = Ret (zeroProperties, length bs) /\
  item_class (Char bs v) = plain.
Proof.
  intros bs v rest Hs Hn.
  assert (item_class (Char bs v) = plain) as E.
  { unfold item_class. destruct (scalarb v) eqn:Ev; [|reflexivity].
    cbn [andb]. rewrite bytes_eqb_false; [reflexivity|].
    intros Eb. apply Hn. split; [apply scalarb_spec; exact Ev|exact Eb]. }
  destruct (lookup_char bs v rest Hs) as [El _]. rewrite El, E. split; reflexivity.
Qed.

(* U+000A encoded in two, three and four bytes; a surrogate; U+110000 *)
Example C12_example :
  Forall (fun bs => tokens (bs ++ [xcc; x81]) = Ret [bs ++ [xcc; x81]])
    [[xc0; x8a]; [xe0; x80; x8a]; [xf0; x80; x80; x8a]; [xed; xa0; x80]; [xf4; x90; x80; x80]] /\
  utf8_seq [xc0; x8a] 10 /\ ~ canonical [xc0; x8a] 10.
Proof.
  split; [|split].
  - repeat (constructor; [vm_compute; reflexivity|]). constructor.
  - apply (seq2 xc0 x8a); vm_compute; intuition discriminate.
  - intros [_ H]. vm_compute in H. discriminate.
Qed.

(* C15. CR LF is one token wherever it occurs; every other CR, LF and Control
   character is a token of its own. *)
Theorem C15_crlf : forall p q toks,
  tokenises (p ++ [x0d; x0a] ++ q) toks -> piece_at toks p [x0d; x0a].
Proof.
  intros p q toks Ht.
  assert (scalar 13 /\ scalar 10) as [S13 S10] by (split; left; lia).
  destruct (reads_total p) as [ip Hp], (reads_total q) as [iq Hq].
  assert (Hr : reads (p ++ [x0d; x0a] ++ q) (ip ++ char 13 :: char 10 :: iq)).
  { apply (chars_in_context p 13 ([x0a] ++ q) ip (char 10 :: iq) S13 Hp).
    apply (reads_char_app 10 q iq S10 Hq). }
  assert (C13 : gcb (item_class (char 13)) = CR) by (vm_compute; reflexivity).
  assert (C10 : gcb (item_class (char 10)) = LF) by (vm_compute; reflexivity).
  pose proof (good_items _ _ Hr) as G. rewrite map_app in G. cbn [map] in G.
  assert (Hne : ip ++ char 13 :: char 10 :: iq <> []) by (destruct ip; discriminate).
  pose proof (reads_bytes _ _ Hp) as Ep.
  apply piece_between; auto.
  - apply (tokenises_nonempty _ _ Ht).
  - discriminate.
  - rewrite <- Ep. apply (cut_boundary _ _ _ ip (char 13 :: char 10 :: iq) Ht Hr eq_refl Hne).
    destruct (exists_last_or ip) as [->|(j1 & j & ->)]; [exact I|].
    rewrite map_app. cbn [map]. apply boundary_pos.
    + rewrite map_app in G. apply Forall_app in G. apply G.
    + apply split_ctl_right; [apply ctl_spec; auto|]. rewrite C13. intros [_ H]. discriminate.
  - assert (p ++ [x0d; x0a] = items_bytes (ip ++ [char 13; char 10])) as ->.
    { rewrite items_bytes_app, Ep. reflexivity. }
    apply (cut_boundary _ _ _ (ip ++ [char 13; char 10]) iq Ht Hr); [|exact Hne|].
    + rewrite <- app_assoc. reflexivity.
    + change [char 13; char 10] with ([char 13] ++ [char 10]). rewrite app_assoc, map_app. cbn [map].
      destruct iq as [|x iq]; [apply boundary_end|]. cbn [map]. apply boundary_pos.
      * rewrite Forall_app in *. rewrite map_app. rewrite Forall_app. destruct G as [G1 G2].
        inversion G2 as [|? ? G3 G4]; subst. inversion G4; subst. repeat split; auto.
        constructor; [exact G3|constructor].
      * apply split_ctl_left; [apply ctl_spec; auto|]. rewrite C10. intros [H _]. discriminate.
  - intros y z E Hy Hz Hc. destruct y as [|y1 [|y2 y]]; [congruence| |destruct y, z; try discriminate; congruence].
    simpl in E. injection E as <- _. revert Hc.
    assert (p ++ [x0d] = items_bytes (ip ++ [char 13])) as ->.
    { rewrite items_bytes_app, Ep. reflexivity. }
    rewrite (cut_pos _ _ ip (char 13) (char 10) iq Ht Hr), split_crlf by assumption. discriminate.
Qed.

Theorem C15_control : forall p c q toks, scalar c ->
  gcb (ucd_class c) = Control ->
  tokenises (p ++ utf8_encode c ++ q) toks -> piece_at toks p (utf8_encode c).
Proof.
  intros p c q toks Hc Hg Ht. destruct (context1 p c q Hc) as (ip & iq & Hp & Hq & Hr & Eb).
  rewrite <- Eb. apply (lone_control _ _ _ (char c) _ Ht Hr).
  - rewrite class_char by exact Hc. apply ctl_spec. auto.
  - intros j j1 _ [_ H]. rewrite class_char in H by exact Hc. congruence.
  - intros j j2 _ [H _]. rewrite class_char in H by exact Hc. congruence.
Qed.

Lemma char_LF_only i data its : reads data its -> In i its ->
  (gcb (item_class i) = LF -> i = Char [x0a] 10) /\ (gcb (item_class i) = CR -> i = Char [x0d] 13).
Proof.
  intros Hr Hi. destruct i as [bs v|b]; [|split; discriminate].
  assert (Hs : utf8_seq bs v).
  { clear -Hr Hi. induction Hr as [|bs' v' rest its Hs Hr IH|b rest its Hs Hr IH]; [destruct Hi| |].
    - destruct Hi as [E|Hi]; [congruence|auto].
    - destruct Hi as [E|Hi]; [discriminate|auto]. }
  unfold item_class. destruct (scalarb v && bytes_eqb bs (utf8_encode v)) eqn:E; [|split; discriminate].
  apply andb_true_iff in E. destruct E as [Ev Eb].
  assert (bs = utf8_encode v) as ->.
  { unfold bytes_eqb in Eb. destruct (list_eq_dec _ _ _); [assumption|discriminate]. }
  assert (HL : forall (g : GCB) k, listed v gcb_ranges = Some g ->
             forallb (fun '(lo, hi, g') => negb (GCB_eqb g' g) || ((lo =? k) && (hi =? k)))%N gcb_ranges = true ->
             v = k).
  { intros g k. generalize gcb_ranges. induction l as [|[[lo hi] g'] l IH]; simpl; [discriminate|].
    intros H1 H2. apply andb_true_iff in H2. destruct H2 as [H2 H3].
    destruct ((lo <=? v) && (v <=? hi))%N eqn:Er.
    - assert (g' = g) by congruence. subst g'. destruct (GCB_eqb_spec g g); [|congruence].
      simpl in H2. lia.
    - auto. }
  split; intros Hg; unfold ucd_class in Hg; cbn [gcb] in Hg.
  - destruct (listed v gcb_ranges) as [g|] eqn:El; [|discriminate]. subst g.
    assert (v = 10%N) as -> by (apply (HL LF 10%N eq_refl); vm_compute; reflexivity). reflexivity.
  - destruct (listed v gcb_ranges) as [g|] eqn:El; [|discriminate]. subst g.
    assert (v = 13%N) as -> by (apply (HL CR 13%N eq_refl); vm_compute; reflexivity). reflexivity.
Qed.

Theorem C15_lone_cr : forall p q toks,
  (forall q', q <> x0a :: q') ->
  tokenises (p ++ [x0d] ++ q) toks -> piece_at toks p [x0d].
Proof.
  intros p q toks Hn Ht. assert (scalar 13) as S13 by (left; lia).
  destruct (context1 p 13 q S13) as (ip & iq & Hp & Hq & Hr & Eb).
  rewrite <- Eb. apply (lone_control _ _ _ (char 13) iq Ht Hr).
  - vm_compute. reflexivity.
  - intros j j1 _ [_ H]. vm_compute in H. discriminate.
  - intros j j2 E [_ H]. subst iq.
    destruct (char_LF_only j q _ Hq (or_introl eq_refl)) as [K _]. specialize (K H). subst j.
    pose proof (reads_bytes _ _ Hq) as Eq. simpl in Eq. apply (Hn (items_bytes j2)). auto.
Qed.

Theorem C15_lone_lf : forall p q toks,
  (forall p', p <> p' ++ [x0d]) ->
  tokenises (p ++ [x0a] ++ q) toks -> piece_at toks p [x0a].
Proof.
  intros p q toks Hn Ht. assert (scalar 10) as S10 by (left; lia).
  destruct (context1 p 10 q S10) as (ip & iq & Hp & Hq & Hr & Eb).
  rewrite <- Eb. apply (lone_control _ _ _ (char 10) iq Ht Hr).
  - vm_compute. reflexivity.
  - intros j j1 E [H _]. subst ip.
    destruct (char_LF_only j p _ Hp) as [_ K]; [apply in_or_app; right; left; reflexivity|].
    specialize (K H). subst j. pose proof (reads_bytes _ _ Hp) as Eq. rewrite items_bytes_app in Eq.
    apply (Hn (items_bytes j1)). rewrite <- Eq. reflexivity.
  - intros j j2 _ [H _]. vm_compute in H. discriminate.
Qed.

Example C15_example : gcb (ucd_class 0xAD) = Control /\
  tokens ([x0d; x0d; x0a; x0a] ++ utf8_encode 0xAD ++ [xcc; x81]) =
  Ret [[x0d]; [x0d; x0a]; [x0a]; utf8_encode 0xAD; [xcc; x81]].
Proof. split; vm_compute; reflexivity. Qed.

(* C16. Extend, ZWJ and SpacingMark start a token exactly at the start of the
   input or after a controlling item (CR, LF, Control or a bad byte); after a
   Prepend there is a boundary exactly at the end of the input or before a
   controlling item. *)
Theorem C16_extending : forall p c q toks, scalar c ->
  In (gcb (ucd_class c)) [Extend; ZWJ; SpacingMark] ->
  tokenises (p ++ utf8_encode c ++ q) toks ->
  (cut toks p <-> p = [] \/ exists its i, reads p (its ++ [i]) /\ controlling i).
Proof.
  intros p c q toks Hc Hg Ht. destruct (context1 p c q Hc) as (ip & iq & Hp & Hq & Hr & Eb).
  destruct (exists_last_or ip) as [->|(j1 & j & ->)].
  - simpl in Eb. subst p. split; [auto|intros _; apply cut_start].
  - rewrite <- app_assoc in Hr. simpl in Hr.
    pose proof (cut_pos _ _ _ _ _ _ Ht Hr) as K. rewrite Eb in K. rewrite K.
    rewrite class_char by exact Hc. rewrite split_extending by exact Hg. rewrite ctl_spec.
    fold (controlling j). split.
    + intros H. right. exists j1, j. auto.
    + intros [->|(its & i & Hi & Hctl)].
      * rewrite (reads_unique _ _ _ Hp reads_nil) in Eb. exfalso.
        pose proof (reads_unique _ _ _ Hp reads_nil) as E. destruct j1; discriminate.
      * pose proof (reads_unique _ _ _ Hp Hi) as E. apply app_inj_tail in E. destruct E as [_ ->]. exact Hctl.
Qed.

Theorem C16_prepend : forall p c q toks, scalar c ->
  gcb (ucd_class c) = Prepend ->
  tokenises (p ++ utf8_encode c ++ q) toks ->
  (cut toks (p ++ utf8_encode c) <-> q = [] \/ exists i its, reads q (i :: its) /\ controlling i).
Proof.
  intros p c q toks Hc Hg Ht. destruct (context1 p c q Hc) as (ip & iq & Hp & Hq & Hr & Eb).
  destruct iq as [|j iq].
  - pose proof (reads_bytes _ _ Hq) as Eq. simpl in Eq. subst q.
    split; [auto|intros _]. rewrite app_nil_r in Ht. apply (cut_end _ _ Ht).
  - pose proof (cut_pos _ _ _ _ _ _ Ht Hr) as K.
    assert (items_bytes (ip ++ [char c]) = p ++ utf8_encode c) as E.
    { rewrite items_bytes_app, Eb. simpl. rewrite app_nil_r. reflexivity. }
    rewrite E in K. rewrite K, class_char by exact Hc. rewrite split_prepend by exact Hg.
    rewrite ctl_spec. fold (controlling j). split.
    + intros H. right. exists j, iq. auto.
    + intros [->|(i & its & Hi & Hctl)].
      * pose proof (reads_unique _ _ _ Hq reads_nil). discriminate.
      * pose proof (reads_unique _ _ _ Hq Hi) as E2. injection E2 as <- _. exact Hctl.
Qed.

Example C16_example :
  gcb (ucd_class 0x301) = Extend /\ gcb (ucd_class 0x200D) = ZWJ /\ gcb (ucd_class 0x903) = SpacingMark /\
  gcb (ucd_class 0x600) = Prepend /\
  tokens ([x0a] ++ utf8_text [0x301; 0x61; 0x903; 0x200D; 0x600; 0x61; 0x600; 0x0A]%N) =
  Ret [[x0a]; utf8_text [0x301]%N; utf8_text [0x61; 0x903; 0x200D]%N; utf8_text [0x600; 0x61]%N;
       utf8_text [0x600]%N; [x0a]].
Proof. repeat split; vm_compute; reflexivity. Qed.

(* C17. Hangul syllables. *)
Theorem C17_hangul : forall p a b q toks, scalar a -> scalar b ->
  (gcb (ucd_class a) = L /\ In (gcb (ucd_class b)) [L; V; LV; LVT]) \/
  (In (gcb (ucd_class a)) [LV; V] /\ In (gcb (ucd_class b)) [V; T]) \/
  (In (gcb (ucd_class a)) [LVT; T] /\ gcb (ucd_class b) = T) ->
  tokenises (p ++ utf8_encode a ++ utf8_encode b ++ q) toks ->
  ~ cut toks (p ++ utf8_encode a).
Proof.
  intros p a b q toks Ha Hb HG Ht. destruct (context2 p a b q Ha Hb) as (ip & iq & Hp & Hq & Hr & Eb).
  pose proof (cut_pos _ _ _ _ _ _ Ht Hr) as K. rewrite Eb in K. rewrite K.
  rewrite !class_char by assumption. rewrite split_hangul by exact HG. discriminate.
Qed.

Example C17_example : gcb (ucd_class 0x1100) = L /\ gcb (ucd_class 0x1161) = V /\
  gcb (ucd_class 0x11A8) = T /\ gcb (ucd_class 0xAC00) = LV /\ gcb (ucd_class 0xAC01) = LVT /\
  tokens (utf8_text [0x1100; 0x1161; 0x11A8; 0x1100; 0xAC01; 0x11A8; 0x1161]%N) =
  Ret [utf8_text [0x1100; 0x1161; 0x11A8]%N; utf8_text [0x1100; 0xAC01; 0x11A8]%N; utf8_text [0x1161]%N].
Proof. repeat split; vm_compute; reflexivity. Qed.

(* C18. In a maximal run of regional indicators there is a boundary inside the
   run exactly after an even number of them. *)
Theorem C18_flags : forall p run q toks,
  Forall scalar run -> Forall (fun c => gcb (ucd_class c) = Regional_Indicator) run ->
  (forall its i, reads p (its ++ [i]) -> gcb (item_class i) <> Regional_Indicator) ->
  tokenises (p ++ utf8_text run ++ q) toks ->
  forall r1 r2, run = r1 ++ r2 -> r1 <> [] -> r2 <> [] ->
  (cut toks (p ++ utf8_text r1) <-> Nat.Even (length r1)).
Proof.
  intros p run q toks Hs HRI Hp0 Ht r1 r2 E Hn1 Hn2. subst run.
  apply Forall_app in Hs, HRI. destruct Hs as [Hs1 Hs2], HRI as [HR1 HR2].
  destruct r2 as [|x r2]; [congruence|].
  destruct (exists_last_or r1) as [|(r0 & y & ->)]; [congruence|].
  destruct (reads_total p) as [ip Hp], (reads_total q) as [iq Hq].
  apply Forall_app in Hs1, HR1. destruct Hs1 as [Hs0 Hsy], HR1 as [HR0 HRy].
  inversion Hsy as [|? ? Hsy' _]; subst. inversion HRy as [|? ? HRy' _]; subst.
  inversion Hs2 as [|? ? Hsx Hs2']; subst. inversion HR2 as [|? ? HRx _]; subst.
  assert (Hr : reads (p ++ utf8_text ((r0 ++ [y]) ++ x :: r2) ++ q)
                 ((ip ++ map char r0) ++ char y :: char x :: map char r2 ++ iq)).
  { assert (Hsall : Forall scalar ((r0 ++ [y]) ++ x :: r2)).
    { rewrite <- app_assoc. apply Forall_app; split; [assumption|]. simpl. constructor; [assumption|].
      constructor; assumption. }
    pose proof (reads_text _ Hsall q iq Hq) as K.
    replace ((ip ++ map char r0) ++ char y :: char x :: map char r2 ++ iq)
      with (ip ++ map char ((r0 ++ [y]) ++ x :: r2) ++ iq).
    2:{ rewrite <- !app_assoc. rewrite !map_app. simpl. rewrite <- !app_assoc. reflexivity. }
    apply reads_app; auto.
    destruct r0 as [|z r0]; simpl; rewrite <- ?app_assoc; [apply encode_synced; assumption|].
    apply encode_synced. inversion Hs0; assumption. }
  pose proof (cut_pos _ _ _ _ _ _ Ht Hr) as K.
  assert (items_bytes ((ip ++ map char r0) ++ [char y]) = p ++ utf8_text (r0 ++ [y])) as Eb.
  { rewrite !items_bytes_app, (reads_bytes _ _ Hp), items_bytes_chars.
    unfold utf8_text. rewrite flat_map_app. simpl. rewrite !app_nil_r, <- app_assoc. reflexivity. }
  rewrite Eb in K. rewrite K, !class_char by assumption.
  rewrite (split_ri _ _ _ _ _ (good_class_char x Hsx) HRx HRy').
  rewrite negb_true_iff.
  set (rl := rev (map item_class ((ip ++ map char r0) ++ [char y]))).
  assert (Hri : ri rl = Nat.odd (length (r0 ++ [y]))).
  { destruct (ri_run rl) as (m & w & Erl & Hm & Hw & ->). f_equal.
    assert (Erl2 : rl = rev (map ucd_class (r0 ++ [y])) ++ rev (map item_class ip)).
    { unfold rl. rewrite <- app_assoc, map_app, rev_app_distr. f_equal.
      rewrite !map_app, map_class_chars by assumption. cbn [map]. rewrite class_char by assumption. reflexivity. }
    assert (m = rev (map ucd_class (r0 ++ [y]))) as ->.
    { apply (run_unique (is Regional_Indicator) m w _ (rev (map item_class ip))); auto.
      - congruence.
      - apply Forall_rev. rewrite map_app. apply Forall_app. split.
        + rewrite Forall_map. exact HR0.
        + simpl. constructor; [exact HRy'|constructor].
      - destruct (exists_last_or ip) as [->|(j1 & j & ->)]; [left; reflexivity|right].
        rewrite map_app, rev_app_distr. simpl. eexists; eexists. split; [reflexivity|].
        unfold is. apply (Hp0 j1). exact Hp. }
    rewrite rev_length, map_length. reflexivity. }
  rewrite Hri, <- Nat.negb_even, negb_false_iff. apply Nat.even_spec.
Qed.

Example C18_example :
  Forall (fun c => gcb (ucd_class c) = Regional_Indicator) [0x1F1E6; 0x1F1FA; 0x1F1FF; 0x1F1E6; 0x1F1FA]%N /\
  tokens (utf8_text [0x61; 0x1F1E6; 0x1F1FA; 0x1F1FF; 0x1F1E6; 0x1F1FA; 0x61]%N) =
  Ret [utf8_text [0x61]%N; utf8_text [0x1F1E6; 0x1F1FA]%N; utf8_text [0x1F1FF; 0x1F1E6]%N;
       utf8_text [0x1F1FA]%N; utf8_text [0x61]%N].
Proof. split; [repeat (constructor; [vm_compute; reflexivity|]); constructor|vm_compute; reflexivity]. Qed.

(* C19. ZWJ x pictograph: no boundary exactly when the ZWJ follows a pictograph
   and any number of Extend characters. *)
Theorem C19_emoji_zwj : forall p z e q toks its, scalar z -> scalar e ->
  gcb (ucd_class z) = ZWJ -> extpict (ucd_class e) = true -> reads p its ->
  tokenises (p ++ utf8_encode z ++ utf8_encode e ++ q) toks ->
  (~ cut toks (p ++ utf8_encode z) <->
   exists pre x exts, its = pre ++ x :: exts /\ extpict (item_class x) = true /\
     Forall (fun i => gcb (item_class i) = Extend) exts).
Proof.
  intros p z e q toks its Hz He Gz Ge Hits Ht.
  destruct (context2 p z e q Hz He) as (ip & iq & Hp & Hq & Hr & Eb).
  rewrite (reads_unique _ _ _ Hits Hp) in *. clear its Hits.
  pose proof (cut_pos _ _ _ _ _ _ Ht Hr) as K. rewrite Eb in K. rewrite K.
  rewrite !class_char by assumption.
  rewrite (split_pict _ _ _ _ _ (good_class_char e He) Ge Gz).
  rewrite not_true_iff_false, negb_false_iff, N.eqb_eq.
  rewrite map_app, rev_app_distr. cbn [map rev app]. rewrite class_char by exact Hz.
  pose proof (good_items _ _ Hp) as G.
  rewrite g11_two by (constructor; [apply good_class_char; exact Hz|apply Forall_rev; exact G]).
  split.
  - intros (z' & m & x & w & E & Hx & Hm & _). injection E as <- E.
    apply (f_equal (@rev _)) in E. rewrite rev_involutive, rev_app_distr in E. simpl in E.
    rewrite <- app_assoc in E. simpl in E. apply map_eq_app in E.
    destruct E as (u1 & u2 & -> & Eu1 & Eu2). destruct u2 as [|x' u2]; [discriminate|].
    simpl in Eu2. injection Eu2 as Ex Eu2. exists u1, x', u2. split; [reflexivity|]. split.
    + rewrite Ex. exact Hx.
    + apply Forall_rev in Hm. rewrite <- Eu2 in Hm. rewrite Forall_map in Hm. exact Hm.
  - intros (pre & x & exts & -> & Hx & Hexts).
    exists (ucd_class z), (rev (map item_class exts)), (item_class x), (rev (map item_class pre)).
    split; [|split; [exact Hx|split; [|exact Gz]]].
    + rewrite map_app, rev_app_distr. simpl. rewrite <- app_assoc. reflexivity.
    + apply Forall_rev. rewrite Forall_map. exact Hexts.
Qed.

Example C19_example : extpict (ucd_class 0x1F468) = true /\ gcb (ucd_class 0x1F3FD) = Extend /\
  tokens (utf8_text [0x1F468; 0x1F3FD; 0x200D; 0x1F469; 0x61; 0x200D; 0x1F469]%N) =
  Ret [utf8_text [0x1F468; 0x1F3FD; 0x200D; 0x1F469]%N; utf8_text [0x61; 0x200D]%N; utf8_text [0x1F469]%N].
Proof. repeat split; vm_compute; reflexivity. Qed.

(* C20. A consonant is joined to what precedes it exactly when that is a
   Prepend, or a consonant followed by a run of Extend/Linker characters
   containing a Linker. *)
Theorem C20_conjuncts : forall p k q toks its, scalar k ->
  incb (ucd_class k) = InCB_Consonant -> reads p its -> p <> [] ->
  tokenises (p ++ utf8_encode k ++ q) toks ->
  (~ cut toks p <->
   (exists pre x, its = pre ++ [x] /\ gcb (item_class x) = Prepend) \/
   (exists pre c run, its = pre ++ c :: run /\ incb (item_class c) = InCB_Consonant /\
      Forall (fun i => incb (item_class i) = InCB_Extend \/ incb (item_class i) = InCB_Linker) run /\
      Exists (fun i => incb (item_class i) = InCB_Linker) run)).
Proof.
  intros p k q toks its Hk Gk Hits Hpne Ht.
  destruct (context1 p k q Hk) as (ip & iq & Hp & Hq & Hr & Eb).
  rewrite (reads_unique _ _ _ Hits Hp) in *. clear its Hits.
  destruct (exists_last_or ip) as [->|(j1 & j & ->)].
  { simpl in Eb. congruence. }
  rewrite <- app_assoc in Hr. simpl in Hr.
  pose proof (cut_pos _ _ _ _ _ _ Ht Hr) as K. rewrite Eb in K. rewrite K.
  rewrite class_char by exact Hk.
  rewrite (split_consonant _ _ _ _ _ (good_class_char k Hk) Gk).
  rewrite not_true_iff_false, negb_false_iff, andb_true_iff, orb_true_iff, negb_true_iff, b_is_iff, N.eqb_eq.
  pose proof (good_items _ _ Hp) as G. rewrite map_app in G. apply Forall_app in G. destruct G as [G1 G2].
  cbn [map] in G2. inversion G2 as [|? ? Gj _]; subst.
  set (rl := rev (map item_class (j1 ++ [j]))).
  assert (Hlast : Forall ext_or_linker [item_class j] -> ctl (item_class j) = false /\ gcb (item_class j) <> Prepend).
  { intros H. inversion H as [|? ? H1 _]; subst. clear -Gj H1.
    unfold good, good_classes in Gj. cbn [In] in Gj. unfold ext_or_linker in H1.
    repeat (destruct Gj as [Ex|Gj]; [rewrite <- Ex in *; destruct H1; try discriminate;
      (split; [reflexivity|discriminate])|]). destruct Gj. }
  (* the conjunct context, on classes *)
  assert (H9 : g9c rl = 2%N <->
    (exists pre c run, j1 ++ [j] = pre ++ c :: run /\ incb (item_class c) = InCB_Consonant /\
      Forall (fun i => incb (item_class i) = InCB_Extend \/ incb (item_class i) = InCB_Linker) run /\
      Exists (fun i => incb (item_class i) = InCB_Linker) run)).
  { rewrite g9c_two. split.
    - intros (m2 & x & m1 & c & w & E & Hc & Hm1 & Hx & Hm2). unfold rl in E.
      apply (f_equal (@rev _)) in E. rewrite rev_involutive in E.
      rewrite rev_app_distr in E. simpl in E. rewrite rev_app_distr in E. simpl in E.
      rewrite <- !app_assoc in E. simpl in E.
      apply map_eq_app in E. destruct E as (u1 & u2 & E & Eu1 & Eu2). rewrite E.
      destruct u2 as [|c' u2]; [discriminate|]. simpl in Eu2. injection Eu2 as Ec Eu2.
      exists u1, c', u2. split; [reflexivity|]. split; [rewrite Ec; exact Hc|].
      apply map_eq_app in Eu2. destruct Eu2 as (v1 & v2 & -> & Ev1 & Ev2).
      destruct v2 as [|x' v2]; [discriminate|]. simpl in Ev2. injection Ev2 as Ex Ev2. split.
      + apply Forall_app. split.
        * apply Forall_rev in Hm1. rewrite <- Ev1 in Hm1. rewrite Forall_map in Hm1. exact Hm1.
        * constructor; [right; rewrite Ex; exact Hx|].
          apply Forall_rev in Hm2. rewrite <- Ev2 in Hm2. rewrite Forall_map in Hm2. exact Hm2.
      + apply Exists_app. right. apply Exists_cons_hd. rewrite Ex. exact Hx.
    - intros (pre & c & run & E & Hc & Hrun & Hex). apply Exists_exists in Hex.
      destruct Hex as (x & Hin & Hx). apply in_split in Hin. destruct Hin as (v1 & v2 & ->).
      apply Forall_app in Hrun. destruct Hrun as [Hv1 Hv2]. inversion Hv2; subst.
      exists (rev (map item_class v2)), (item_class x), (rev (map item_class v1)), (item_class c),
        (rev (map item_class pre)).
      split; [|split; [exact Hc|split; [|split; [exact Hx|]]]].
      + unfold rl. rewrite E. rewrite !map_app. cbn [map]. rewrite !rev_app_distr. cbn [rev].
        rewrite map_app, rev_app_distr. cbn [map rev]. rewrite <- !app_assoc. reflexivity.
      + apply Forall_rev. rewrite Forall_map. exact Hv1.
      + apply Forall_rev. rewrite Forall_map. assumption. }
  rewrite H9. split.
  - intros [_ [H|H]]; [left|right; exact H]. exists j1, j. auto.
  - intros [(pre & x & E & Hx)|H].
    + apply app_inj_tail in E. destruct E as [-> ->]. split; [|left; exact Hx].
      destruct (ctl (item_class x)) eqn:Ec; [|reflexivity]. apply ctl_spec in Ec. rewrite Hx in Ec.
      destruct Ec as [|[|]]; discriminate.
    + split; [|right; exact H]. destruct H as (pre & c & run & E & Hc & Hrun & Hex).
      destruct (exists_last_or run) as [->|(r0 & y & ->)]; [inversion Hex|].
      rewrite app_comm_cons, app_assoc in E. apply app_inj_tail in E. destruct E as [_ ->].
      apply Hlast. apply Forall_app in Hrun. destruct Hrun as [_ Hy]. inversion Hy; subst.
      constructor; [assumption|constructor].
Qed.

Example C20_example : incb (ucd_class 0x915) = InCB_Consonant /\ incb (ucd_class 0x94D) = InCB_Linker /\
  incb (ucd_class 0x93C) = InCB_Extend /\
  tokens (utf8_text [0x915; 0x93C; 0x94D; 0x915; 0x93C; 0x915; 0x61; 0x94D; 0x915]%N) =
  Ret [utf8_text [0x915; 0x93C; 0x94D; 0x915; 0x93C]%N; utf8_text [0x915]%N;
       utf8_text [0x61; 0x94D]%N; utf8_text [0x915]%N].
Proof. repeat split; vm_compute; reflexivity. Qed.

(* C21. Every token, scanned alone, is returned whole. *)
Theorem C21_rescan : forall data toks t,
  tokenises data toks -> In t toks ->
  ScanGraphemeClusters t true = Ret (length t, Some t, None) /\ tokenises t [t].
Proof.
  intros data toks t Ht. induction Ht as [|data n t' toks Hs Ht IH]; [intros []|].
  intros [->|Hin]; [|auto]. pose proof (scan_alone _ _ _ Hs) as E. split; [exact E|].
  eapply tokenises_step; [exact E|]. rewrite skipn_all. constructor.
Qed.

(* a flag, an emoji sequence and a broken byte: each token comes back alone *)
Example C21_example :
  let flag := utf8_text [0x1F1E9; 0x1F1EA]%N in let family := utf8_text [0x1F468; 0x200D; 0x1F469]%N in
  tokens (flag ++ family ++ [xff]) = Ret [flag; family; [xff]] /\
  tokens flag = Ret [flag] /\ tokens family = Ret [family] /\ tokens [xff] = Ret [[xff]].
Proof. repeat split; vm_compute; reflexivity. Qed.

(* C22. Text may be cut after a line feed, a control character or a byte that
   is never part of UTF-8, and the parts processed separately. *)
Theorem C22_lines : forall a b t1 t2,
  tokenises (a ++ [x0a]) t1 -> tokenises b t2 -> tokenises (a ++ [x0a] ++ b) (t1 ++ t2).
Proof.
  intros a b t1 t2 H1 H2. assert (scalar 10) as S10 by (left; lia).
  destruct (reads_total a) as [ia Ha], (reads_total b) as [ib Hb].
  rewrite app_assoc.
  apply (tokens_after_control (length (ia ++ [char 10])) (a ++ [x0a]) (ia ++ [char 10]) b ib); auto.
  - rewrite <- !app_assoc. apply (chars_in_context a 10 b ia ib S10 Ha Hb).
  - rewrite items_bytes_app, (reads_bytes _ _ Ha). reflexivity.
  - right. exists ia, (char 10). split; [reflexivity|]. left. vm_compute. reflexivity.
Qed.

Theorem C22_after_control : forall a c b t1 t2, scalar c ->
  gcb (ucd_class c) = Control \/ gcb (ucd_class c) = LF ->
  tokenises (a ++ utf8_encode c) t1 -> tokenises b t2 ->
  tokenises (a ++ utf8_encode c ++ b) (t1 ++ t2).
Proof.
  intros a c b t1 t2 Hc Hg H1 H2.
  destruct (reads_total a) as [ia Ha], (reads_total b) as [ib Hb].
  rewrite app_assoc.
  apply (tokens_after_control (length (ia ++ [char c])) (a ++ utf8_encode c) (ia ++ [char c]) b ib); auto.
  - rewrite <- !app_assoc. apply (chars_in_context a c b ia ib Hc Ha Hb).
  - rewrite items_bytes_app, (reads_bytes _ _ Ha). simpl. rewrite app_nil_r. reflexivity.
  - right. exists ia, (char c). split; [reflexivity|]. unfold resets. rewrite class_char by exact Hc. tauto.
Qed.

(* after any item that is a bad byte, LF or Control, wherever it was read *)
Theorem C22_after_item : forall a b ia i ib t1 t2,
  reads (a ++ b) ((ia ++ [i]) ++ ib) -> items_bytes (ia ++ [i]) = a -> 
  (exists x, i = Bad x) \/ gcb (item_class i) = LF \/ gcb (item_class i) = Control ->
  tokenises a t1 -> tokenises b t2 -> tokenises (a ++ b) (t1 ++ t2).
Proof.
  intros a b ia i ib t1 t2 Hr Ea Hi H1 H2.
  apply (tokens_after_control (length (ia ++ [i])) a (ia ++ [i]) b ib); auto.
  - destruct (reads_split_l _ _ Hr (ia ++ [i]) ib eq_refl) as [_ K].
    assert (items_bytes ib = b) as <-; [|exact K].
    apply (app_inv_head a). rewrite <- Ea at 1. rewrite <- items_bytes_app. apply (reads_bytes _ _ Hr).
  - right. exists ia, i. split; [reflexivity|]. unfold resets.
    destruct Hi as [(x & ->)|H]; [right; reflexivity|exact H].
Qed.

Example C22_example :
  tokens ([x65; x0a] ++ [xcc; x81; x61]) = Ret ([[x65]; [x0a]] ++ [[xcc; x81]; [x61]]) /\
  tokens [x65; x0a] = Ret [[x65]; [x0a]] /\ tokens [xcc; x81; x61] = Ret [[xcc; x81]; [x61]].
Proof. repeat split; vm_compute; reflexivity. Qed.

(* C38. ASCII. *)
Theorem C38_ascii : forall data toks,
  Forall (fun b => bval b < 0x80)%N data ->
  (tokenises data toks <-> toks = ascii_tokens data).
Proof.
  intros data toks HA. split.
  - apply (ascii_ok (length data)); auto.
  - intros ->. destruct (tokenises_total data) as [toks Ht].
    rewrite <- (ascii_ok (length data) data toks (le_n _) HA Ht). exact Ht.
Qed.

Example C38_example : tokens [x61; x0d; x0a; x0d; x62] = Ret [[x61]; [x0d; x0a]; [x0d]; [x62]].
Proof. vm_compute. reflexivity. Qed.

Definition all_theorems :=
  (C08_conformance, C08_unique, C09_arbitrary_bytes, C10_bad_bytes, C10_never_utf8, C10_incomplete,
   C10_stray, C11_whole_characters, C11_any_bytes, C12_noncanonical, C15_crlf, C15_control,
   C15_lone_cr, C15_lone_lf, C16_extending, C16_prepend, C17_hangul, C18_flags, C19_emoji_zwj,
   C20_conjuncts, C21_rescan, C22_lines, C22_after_control, C22_after_item, C38_ascii).
Print Assumptions all_theorems.
