(* Properties C13, C14, C33, C34, C35, C42: character properties and the state
   machine. *)
From Coq Require Import List NArith Arith Bool Lia Strings.Byte Strings.String.
From Coq Require Import ZArith ZifyBool ZifyNat ZifyN.
From Verif Require Import Spec.Classes Spec.Utf8 Spec.UAX29 Spec.UcdRanges Spec.Segmentation
  Spec.PropNames.
From Verif Require Import Model.Base Model.CharProps Model.Lookup Model.Machine Model.Scan
  Model.Drivers Model.PropNames.
From Verif Require Import Proofs.Basics Proofs.TableCheck Proofs.LookupFacts Proofs.MachineFacts
  Proofs.ScanFacts Proofs.TextFacts Proofs.TextProps Proofs.DriverFacts Proofs.UnicodeFacts.
Import ListNotations.
Local Open Scope list_scope.

Local Opaque committed LookupFirstChar fast_class ok1 leads conts.

(* The API constant that stands for a property value of the standard. *)
Definition gcb_constant (g : GCB) : GCBProperty_t :=
  match g with
  | Other => GCBNone | CR => GCBCR | LF => GCBLF | Control => GCBControl | Extend => GCBExtend
  | ZWJ => GCBZWJ | Regional_Indicator => GCBRegionalIndicator | Prepend => GCBPrepend
  | SpacingMark => GCBSpacingMark | L => GCBL | V => GCBV | T => GCBT | LV => GCBLV | LVT => GCBLVT
  end.
Definition incb_constant (i : InCB) : InCBProperty_t :=
  match i with
  | InCB_None => InCBNone | InCB_Consonant => InCBConsonant | InCB_Extend => InCBExtend
  | InCB_Linker => InCBLinker
  end.

Lemma good_parts x : good x ->
  InCBProperty (enc x) = incb_constant (incb x) /\
  (extpict x = true -> GCBProperty (enc x) = GCBExtendedPictographic /\ gcb x = Other) /\
  (extpict x = false -> GCBProperty (enc x) = gcb_constant (gcb x)) /\
  enc x <> Error.
Proof.
  unfold good, good_classes. simpl. intros H.
  repeat (destruct H as [<-|H]; [repeat split; try discriminate; vm_compute; reflexivity|]). destruct H.
Qed.

(* C13. For every scalar value and whatever bytes follow. *)
Theorem C13_unicode_data : forall c rest, scalar c ->
  exists props, LookupFirstChar (utf8_encode c ++ rest) = Ret (props, List.length (utf8_encode c)) /\
    InCBProperty props = incb_constant (incb (ucd_class c)) /\
    (extpict (ucd_class c) = true -> GCBProperty props = GCBExtendedPictographic) /\
    (extpict (ucd_class c) = false -> GCBProperty props = gcb_constant (gcb (ucd_class c))).
Proof.
  intros c rest Hc. exists (enc (ucd_class c)).
  destruct (lookup_char (utf8_encode c) c rest (utf8_encode_seq c Hc)) as [E G].
  change (Char (utf8_encode c) c) with (char c) in *. rewrite (class_char c Hc) in *.
  split; [exact E|]. destruct (good_parts _ G) as (H1 & H2 & H3 & _). repeat split; auto.
  intros H. apply H2. exact H.
Qed.

(* The packing loses nothing: no pictographic character has a
   Grapheme_Cluster_Break value. *)
Theorem C13_pictographs_have_no_gcb : forall c, scalar c ->
  extpict (ucd_class c) = true -> gcb (ucd_class c) = Other.
Proof. intros c Hc H. apply (good_parts _ (good_class_char c Hc)). exact H. Qed.

Example C13_example :
  LookupFirstChar (utf8_encode 0x94D ++ [xff]) = Ret (0x33%N, 3) /\
  ucd_class 0x94D = Cls Extend false InCB_Linker /\
  LookupFirstChar (utf8_encode 0x1F600) = Ret (0x04%N, 4) /\
  ucd_class 0x1F600 = Cls Other true InCB_None.
Proof. repeat split; vm_compute; reflexivity. Qed.

(* C14. Every byte string. *)
Theorem C14_contract : forall p, exists props n,
  LookupFirstChar p = Ret (props, n) /\
  (n = 0 <-> p = [] \/ exists b tl, p = b :: tl /\ List.length p < lead_len b) /\
  (props = Error <->
     exists b tl, p = b :: tl /\ lead_len b <= List.length p /\ ~ starts_seq p) /\
  (props = Error -> n = 1) /\
  (n <> 0 -> props <> Error ->
     exists bs v rest, utf8_seq bs v /\ p = bs ++ rest /\ n = List.length bs).
Proof.
  intros p. destruct (lookup_outcome p) as [->|Ht Hs|Hne Ht Hs|bs v rest Hs E G].
  - exists 0%N, 0. split; [reflexivity|]. split; [tauto|]. split; [|split; [discriminate|lia]].
    split; [discriminate|]. intros (b & tl & H & _). discriminate.
  - exists 0%N, 0. split; [reflexivity|]. apply truncated_incomplete in Ht.
    split; [tauto|]. split; [|split; [discriminate|lia]].
    split; [discriminate|]. intros (b & tl & -> & H & _). destruct Ht as (b' & tl' & E & H').
    injection E as <- <-. lia.
  - exists Error, 1. split; [reflexivity|].
    assert (~ exists b tl, p = b :: tl /\ List.length p < lead_len b) as Ht'.
    { intros H. apply Ht, truncated_incomplete, H. }
    split; [|split; [|split; [auto|congruence]]].
    + split; [discriminate|]. intros [H|H]; contradiction.
    + split; [|auto]. intros _. destruct p as [|b tl]; [congruence|]. exists b, tl.
      split; [reflexivity|]. split; [|exact Hs].
      destruct (le_lt_dec (lead_len b) (List.length (b :: tl))) as [|H]; [assumption|].
      destruct Ht'. exists b, tl. auto.
  - eexists; eexists. split; [reflexivity|].
    pose proof (utf8_seq_len _ _ Hs) as Hl.
    assert (starts_seq p) as Hss by (exists bs, v, rest; auto).
    split; [|split; [|split]].
    + split; [lia|]. intros H. exfalso. destruct H as [->|H].
      * destruct bs; [simpl in Hl; lia|discriminate].
      * apply truncated_incomplete in H. apply (truncated_not_seq _ H Hss).
    + split; [intros H; destruct (good_enc _ G H)|]. intros (b & tl & _ & _ & H). contradiction.
    + intros H. destruct (good_enc _ G H).
    + intros _ _. exists bs, v, rest. auto.
Qed.

(* an answer is final as soon as it is not "more bytes needed" *)
Theorem C14_stable : forall p q props n,
  LookupFirstChar p = Ret (props, n) -> n <> 0 -> LookupFirstChar (p ++ q) = Ret (props, n).
Proof.
  intros p q props n H Hn.
  destruct (lookup_outcome p) as [->|Ht Hs|Hne Ht Hs|bs v rest Hs E G]; try congruence.
  - assert (props = Error) by congruence. assert (n = 1) by congruence. subst props n.
    destruct (lookup_outcome (p ++ q)) as [E|Ht' Hs'|Hne' Ht' Hs'|bs v rest Hs' E G].
    + destruct p; [congruence|discriminate].
    + exfalso. apply Ht. apply truncated_incomplete in Ht'. apply truncated_incomplete.
      destruct p as [|b tl]; [congruence|]. destruct Ht' as (b' & tl' & E & Hl).
      simpl in E. injection E as <- <-. exists b, tl. split; [reflexivity|].
      change (b :: tl ++ q) with ((b :: tl) ++ q) in Hl. rewrite app_length in Hl. lia.
    + reflexivity.
    + exfalso. destruct p as [|b tl]; [congruence|].
      destruct (utf8_seq_first _ _ Hs') as (a & tl' & Eb & Hl).
      assert (a = b) by (rewrite Eb in E; simpl in E; congruence). subst a.
      destruct (le_lt_dec (List.length bs) (List.length (b :: tl))) as [Hle|Hlt].
      * apply Hs. exists bs, v, (skipn (List.length bs) (b :: tl)). split; [exact Hs'|].
        apply (f_equal (firstn (List.length bs))) in E.
        rewrite firstn_app_exact, firstn_app in E.
        replace (List.length bs - List.length (b :: tl)) with 0 in E by lia.
        rewrite firstn_O, app_nil_r in E. rewrite <- E at 1. symmetry. apply firstn_skipn.
      * apply Ht. exists b, tl, (List.length bs). auto.
  - destruct (lookup_char bs v (rest ++ q) Hs) as [K _]. rewrite E, <- app_assoc, K. congruence.
Qed.

(* The doc comment promises Error for every buffer that cannot be extended to
   start a valid sequence; this is refuted for buffers that are also too short. *)
Theorem C14_documented_error_refuted :
  ~ (forall p, p <> [] -> (forall q, ~ starts_seq (p ++ q)) ->
       LookupFirstChar p = Ret (Error, 1)).
Proof.
  intros H. specialize (H [xe2; x41]).
  assert (LookupFirstChar [xe2; x41] = Ret (0%N, 0)) as E by (vm_compute; reflexivity).
  rewrite E in H. enough (@Ret (CharProperties * nat) (0%N, 0) = Ret (Error, 1)) by discriminate.
  apply H; [discriminate|]. intros q (bs & v & rest & Hs & Eb).
  destruct Hs as [a Ha|a b Ha Hb|a b c Ha Hb Hc|a b c d Ha Hb Hc Hd]; simpl in Eb.
  - assert (a = xe2) by congruence. subst a. vm_compute in Ha. discriminate.
  - assert (b = x41) by congruence. subst b. vm_compute in Hb. intuition discriminate.
  - assert (b = x41) by congruence. subst b. vm_compute in Hb. intuition discriminate.
  - assert (b = x41) by congruence. subst b. vm_compute in Hb. intuition discriminate.
Qed.

Example C14_example : LookupFirstChar [xf0; x9f] = Ret (0%N, 0) /\
  LookupFirstChar [x80; x41] = Ret (Error, 1) /\ LookupFirstChar [xe2; x41; x41] = Ret (Error, 1) /\
  LookupFirstChar [x0d; xff] = Ret (GCBCR, 1).
Proof. repeat split; vm_compute; reflexivity. Qed.

(* ---- C33: names *)

Lemma str_eqb_spec a : forall b, reflect (a = b) (str_eqb a b).
Proof.
  induction a as [|x a IH]; intros [|y b]; simpl; try (constructor; congruence).
  destruct (Byte.eqb x y) eqn:E.
  - apply Byte.byte_dec_bl in E. subst y. destruct (IH b); constructor; congruence.
  - constructor. intros H. injection H as H _. apply Byte.byte_dec_lb in H. congruence.
Qed.

Lemma switch_str {B} x (d : B) : forall cases,
  (exists c v, In (c, v) cases /\ x = c /\ switch str_eqb x cases d = v) \/
  ((forall c v, In (c, v) cases -> x <> c) /\ switch str_eqb x cases d = d).
Proof.
  induction cases as [|[c v] cases IH]; simpl.
  - right. split; [|reflexivity]. intros c v [].
  - destruct (str_eqb_spec x c) as [->|Hn].
    + left. exists c, v. auto.
    + destruct IH as [(c' & v' & Hin & -> & E)|[Hno E]].
      * left. exists c', v'. auto.
      * right. split; [|exact E]. intros c' v' [H|H]; [congruence|eauto].
Qed.

(* What names mean: exactly the names of the standard are recognised. *)
Theorem C33_gcb_names : forall name,
  (forall g, name = str (gcb_name g) -> LookupGCBProperty name = gcb_constant g) /\
  ((forall g, name <> str (gcb_name g)) -> LookupGCBProperty name = GCBNone).
Proof.
  intros name. split.
  - intros g ->. destruct g; reflexivity.
  - intros H. unfold LookupGCBProperty.
    match goal with |- switch _ _ ?cs _ = _ => destruct (switch_str name GCBNone cs) as [(c & v & Hin & E & _)|[_ E]] end;
      [|exact E].
    exfalso. simpl in Hin. subst c.
    repeat (destruct Hin as [Hin|Hin];
      [injection Hin as <- <-;
       first [ destruct (H CR eq_refl) | destruct (H Control eq_refl) | destruct (H Extend eq_refl)
             | destruct (H L eq_refl) | destruct (H LF eq_refl) | destruct (H LV eq_refl)
             | destruct (H LVT eq_refl) | destruct (H Prepend eq_refl)
             | destruct (H Regional_Indicator eq_refl) | destruct (H SpacingMark eq_refl)
             | destruct (H T eq_refl) | destruct (H V eq_refl) | destruct (H ZWJ eq_refl) ]|]).
    destruct Hin.
Qed.

Theorem C33_incb_names : forall name,
  (forall i, name = str (incb_name i) -> LookupInCBProperty name = incb_constant i) /\
  ((forall i, name <> str (incb_name i)) -> LookupInCBProperty name = InCBNone).
Proof.
  intros name. split.
  - intros i ->. destruct i; reflexivity.
  - intros H. unfold LookupInCBProperty.
    match goal with |- switch _ _ ?cs _ = _ => destruct (switch_str name InCBNone cs) as [(c & v & Hin & E & _)|[_ E]] end;
      [|exact E].
    exfalso. simpl in Hin. subst c.
    repeat (destruct Hin as [Hin|Hin];
      [injection Hin as <- <-;
       first [ destruct (H InCB_Consonant eq_refl) | destruct (H InCB_Extend eq_refl)
             | destruct (H InCB_Linker eq_refl) ]|]).
    destruct Hin.
Qed.

Theorem C33_emoji_names : forall name,
  (name = str "Extended_Pictographic" -> LookupEmojiProperty name = GCBExtendedPictographic) /\
  (name <> str "Extended_Pictographic" -> LookupEmojiProperty name = GCBNone).
Proof.
  intros name. unfold LookupEmojiProperty. simpl switch.
  destruct (str_eqb_spec name (str "Extended_Pictographic")); split; congruence.
Qed.

(* A name that denotes a value is what that value prints as. *)
Theorem C33_print_parse : forall name,
  (LookupGCBProperty name <> GCBNone -> GCBProperty_String (LookupGCBProperty name) = name) /\
  (LookupInCBProperty name <> InCBNone -> InCBProperty_String (LookupInCBProperty name) = name) /\
  (LookupEmojiProperty name <> GCBNone -> GCBProperty_String (LookupEmojiProperty name) = name).
Proof.
  intros name. split; [|split].
  - unfold LookupGCBProperty at 1 2.
    match goal with |- context [switch str_eqb name ?cs _] => destruct (switch_str name GCBNone cs) as [(c & v & Hin & E & ->)|[_ ->]] end;
      [|congruence].
    intros _. subst c. simpl in Hin.
    repeat (destruct Hin as [Hin|Hin]; [injection Hin as <- <-; reflexivity|]). destruct Hin.
  - unfold LookupInCBProperty at 1 2.
    match goal with |- context [switch str_eqb name ?cs _] => destruct (switch_str name InCBNone cs) as [(c & v & Hin & E & ->)|[_ ->]] end;
      [|congruence].
    intros _. subst c. simpl in Hin.
    repeat (destruct Hin as [Hin|Hin]; [injection Hin as <- <-; reflexivity|]). destruct Hin.
  - destruct (C33_emoji_names name) as [H1 H2].
    destruct (str_eqb_spec name (str "Extended_Pictographic")) as [E|E].
    + rewrite (H1 E). intros _. rewrite E. reflexivity.
    + rewrite (H2 E). congruence.
Qed.

(* ... and every named value prints as its name. *)
Theorem C33_value_names : forall g i,
  g <> Other -> i <> InCB_None ->
  GCBProperty_String (gcb_constant g) = str (gcb_name g) /\
  InCBProperty_String (incb_constant i) = str (incb_name i).
Proof. intros g i Hg Hi. destruct g; try congruence; destruct i; try congruence; split; reflexivity. Qed.

(* 8-bit values print differently; CharProperties has the single exception of
   the two values that both print "Error". *)
Definition bytes256 : list N := map bval (map mkbyte (map N.of_nat (seq 0 256))).

Lemma in_bytes256 p : (p < 256)%N -> In p bytes256.
Proof.
  intros H. unfold bytes256. rewrite !map_map. apply in_map_iff. exists (N.to_nat p).
  split; [|apply in_seq; lia]. rewrite N2Nat.id. unfold mkbyte, bval.
  destruct (Byte.of_N p) eqn:E; [apply Byte.to_of_N; exact E|].
  apply Byte.of_N_None_iff in E. lia.
Qed.

Lemma no_clash (f : N -> gostring) (ok : N -> N -> bool) :
  forallb (fun p => forallb (fun q => if str_eqb (f p) (f q) then ok p q else true) bytes256) bytes256 = true ->
  forall p q, (p < 256)%N -> (q < 256)%N -> f p = f q -> ok p q = true.
Proof.
  intros H p q Hp Hq E. rewrite forallb_forall in H. specialize (H p (in_bytes256 p Hp)). cbv beta in H.
  rewrite forallb_forall in H. specialize (H q (in_bytes256 q Hq)). cbv beta in H.
  destruct (str_eqb_spec (f p) (f q)); [exact H|contradiction].
Qed.

(* The complete list of what is printed: values that have no name print in
   hexadecimal (and so does InCBNone, unlike GCBNone). *)
Theorem C33_printed : forall p, (p < 256)%N ->
  ((forall g, p <> gcb_constant g) -> p <> GCBExtendedPictographic -> p <> GCBError ->
     GCBProperty_String p = str (hex_byte (N.to_nat p))) /\
  GCBProperty_String GCBExtendedPictographic = str "Extended_Pictographic" /\
  GCBProperty_String GCBNone = str "None" /\ GCBProperty_String GCBError = str "Error" /\
  ((forall i, i <> InCB_None -> p <> incb_constant i) -> InCBProperty_String p = str (hex_byte (N.to_nat p))) /\
  CharProperties_String p =
    (if p =? 0xff then str "Error" else
     if p / 16 =? 0 then GCBProperty_String p else
     if p mod 16 =? 0 then str "InCB=" ++ InCBProperty_String p else
     GCBProperty_String (p mod 16) ++ str "|InCB=" ++ InCBProperty_String (p / 16 * 16))%N.
Proof.
  intros p Hp.
  assert (forall f g : N -> gostring, forallb (fun q => str_eqb (f q) (g q)) bytes256 = true -> f p = g p) as K.
  { intros f g H. rewrite forallb_forall in H. specialize (H p (in_bytes256 p Hp)). destruct (str_eqb_spec (f p) (g p)); congruence. }
  split.
  { intros H1 H2 H3.
    pose proof (K (fun q => if (q <? 16)%N then [] else GCBProperty_String q) (fun q => if (q <? 16)%N then [] else str (hex_byte (N.to_nat q))) ltac:(vm_compute; reflexivity)) as Q.
    cbv beta in Q. destruct (N.ltb_spec p 16) as [L|L]; [exfalso|exact Q].
    pose proof (H1 CR). pose proof (H1 LF). pose proof (H1 Control). pose proof (H1 Extend). pose proof (H1 ZWJ). pose proof (H1 Regional_Indicator).
    pose proof (H1 Prepend). pose proof (H1 SpacingMark). pose proof (H1 Classes.L). pose proof (H1 V). pose proof (H1 T). pose proof (H1 LV). pose proof (H1 LVT).
    pose proof (H1 Other). clear H1 Q K. cbn [gcb_constant] in *.
    unfold GCBNone, GCBCR, GCBControl, GCBExtend, GCBExtendedPictographic, GCBL, GCBLF, GCBLV, GCBLVT, GCBPrepend, GCBRegionalIndicator,
      GCBSpacingMark, GCBT, GCBV, GCBZWJ, GCBError in *. lia. }
  split; [reflexivity|]. split; [reflexivity|]. split; [reflexivity|]. split.
  { intros H1.
    pose proof (K (fun q => if ((q =? InCBConsonant) || (q =? InCBExtend) || (q =? InCBLinker))%N then [] else InCBProperty_String q)
      (fun q => if ((q =? InCBConsonant) || (q =? InCBExtend) || (q =? InCBLinker))%N then [] else str (hex_byte (N.to_nat q))) ltac:(vm_compute; reflexivity)) as Q.
    cbv beta in Q. pose proof (H1 InCB_Consonant ltac:(discriminate)) as A. pose proof (H1 InCB_Extend ltac:(discriminate)) as B.
    pose proof (H1 InCB_Linker ltac:(discriminate)) as C. cbn [incb_constant] in A, B, C. apply N.eqb_neq in A, B, C. rewrite A, B, C in Q. exact Q. }
  apply (K CharProperties_String (fun p =>
    (if p =? 0xff then str "Error" else
     if p / 16 =? 0 then GCBProperty_String p else
     if p mod 16 =? 0 then str "InCB=" ++ InCBProperty_String p else
     GCBProperty_String (p mod 16) ++ str "|InCB=" ++ InCBProperty_String (p / 16 * 16))%N)). vm_compute. reflexivity.
Qed.

Theorem C33_distinct : forall p q, (p < 256)%N -> (q < 256)%N ->
  (GCBProperty_String p = GCBProperty_String q -> p = q) /\
  (InCBProperty_String p = InCBProperty_String q -> p = q) /\
  (CharProperties_String p = CharProperties_String q ->
     p = q \/ (p = 0x0f /\ q = 0xff)%N \/ (p = 0xff /\ q = 0x0f)%N).
Proof.
  intros p q Hp Hq. split; [|split]; intros H.
  - apply N.eqb_eq. revert p q Hp Hq H. apply no_clash. vm_compute. reflexivity.
  - apply N.eqb_eq. revert p q Hp Hq H. apply no_clash. vm_compute. reflexivity.
  - assert ((p =? q) || ((p =? 0x0f) && (q =? 0xff)) || ((p =? 0xff) && (q =? 0x0f)) = true)%N as K.
    { revert p q Hp Hq H.
      apply (no_clash CharProperties_String
        (fun p q => (p =? q) || ((p =? 0x0f) && (q =? 0xff)) || ((p =? 0xff) && (q =? 0x0f)))%N).
      vm_compute. reflexivity. }
    lia.
Qed.

(* The properties that characters have print differently. *)
Theorem C33_characters_distinct : forall c c' r r' p p' n n', scalar c -> scalar c' ->
  LookupFirstChar (utf8_encode c ++ r) = Ret (p, n) ->
  LookupFirstChar (utf8_encode c' ++ r') = Ret (p', n') ->
  CharProperties_String p = CharProperties_String p' -> p = p'.
Proof.
  assert (B : forall c r p n, scalar c -> LookupFirstChar (utf8_encode c ++ r) = Ret (p, n) ->
                (p < 256)%N /\ p <> 0xff%N /\ p <> 0x0f%N).
  { intros c r p n Hc E. destruct (lookup_char _ _ r (utf8_encode_seq c Hc)) as [E' G].
    assert (p = enc (item_class (Char (utf8_encode c) c))) as -> by congruence.
    revert G. generalize (item_class (Char (utf8_encode c) c)). clear. intros x.
    unfold good, good_classes. simpl. intros H.
    repeat (destruct H as [<-|H]; [vm_compute; repeat split; discriminate|]). destruct H. }
  intros c c' r r' p p' n n' Hc Hc' E E' H.
  destruct (B _ _ _ _ Hc E) as (B1 & B2 & B3), (B _ _ _ _ Hc' E') as (B1' & B2' & B3').
  destruct (C33_distinct p p' B1 B1') as (_ & _ & K). destruct (K H) as [|[[]|[]]]; congruence.
Qed.

Theorem C33_error_name_ambiguous :
  CharProperties_String 0x0f%N = CharProperties_String Error /\ Error <> 0x0f%N.
Proof. split; [reflexivity|discriminate]. Qed.

Example C33_example :
  LookupGCBProperty (str "Regional_Indicator") = 0x0a%N /\ LookupGCBProperty (str "Other") = 0%N /\
  LookupGCBProperty (str "cr") = 0%N /\ CharProperties_String 0x33%N = str "Extend|InCB=Linker" /\
  GCBProperty_String 0x1c%N = str "0x1c".
Proof. repeat split; reflexivity. Qed.

(* ---- C34: packing *)
Definition lows : list N := map N.of_nat (seq 0 16).
Lemma in_lows p : (p < 16)%N -> In p lows.
Proof. intros H. unfold lows. apply in_map_iff. exists (N.to_nat p). split; [lia|apply in_seq; lia]. Qed.

Lemma pack_bits g e k : (g < 16)%N -> (e < 16)%N -> (k < 16)%N ->
  GCBProperty (MakeCharProperties g e (16 * k)%N) = N.lor g e /\
  InCBProperty (MakeCharProperties g e (16 * k)%N) = (16 * k)%N /\
  (MakeCharProperties g e (16 * k)%N < 256)%N.
Proof.
  intros Hg He Hk.
  assert (K : forallb (fun g => forallb (fun e => forallb (fun k =>
     ((GCBProperty (MakeCharProperties g e (16 * k)%N) =? N.lor g e) &&
     (InCBProperty (MakeCharProperties g e (16 * k)%N) =? 16 * k) &&
     (MakeCharProperties g e (16 * k)%N <? 256))%N) lows) lows) lows = true) by (vm_compute; reflexivity).
  rewrite forallb_forall in K. specialize (K g (in_lows g Hg)). cbv beta in K.
  rewrite forallb_forall in K. specialize (K e (in_lows e He)). cbv beta in K.
  rewrite forallb_forall in K. specialize (K k (in_lows k Hk)). cbv beta in K.
  lia.
Qed.

(* The GCB constants are the values below 16, the InCB values multiples of 16. *)
Theorem C34_packing : forall g e k, (g < 16)%N -> (e < 16)%N -> (k < 16)%N ->
  let props := MakeCharProperties g e (16 * k)%N in
  (props < 256)%N /\ InCBProperty props = (16 * k)%N /\
  (e = GCBNone -> GCBProperty props = g) /\ (g = GCBNone -> GCBProperty props = e).
Proof.
  intros g e k Hg He Hk props. destruct (pack_bits g e k Hg He Hk) as (A & B & C).
  split; [exact C|]. split; [exact B|]. split; intros ->; unfold props; rewrite A.
  - apply N.lor_0_r.
  - apply N.lor_0_l.
Qed.

Theorem C34_unpacking : forall props, (props < 256)%N ->
  MakeCharProperties (GCBProperty props) GCBNone (InCBProperty props) = props /\
  (GCBProperty props < 16)%N /\ exists k, (k < 16)%N /\ InCBProperty props = (16 * k)%N.
Proof.
  intros p Hp.
  assert (K : forallb (fun p => (MakeCharProperties (GCBProperty p) GCBNone (InCBProperty p) =? p) &&
     (GCBProperty p <? 16) && (InCBProperty p =? 16 * (p / 16)))%N bytes256 = true) by (vm_compute; reflexivity).
  rewrite forallb_forall in K. specialize (K p (in_bytes256 p Hp)). cbv beta in K.
  split; [lia|]. split; [lia|]. exists (p / 16)%N. split; [apply N.div_lt_upper_bound; lia|lia].
Qed.

Example C34_example : MakeCharProperties GCBExtend GCBNone InCBLinker = 0x33%N /\
  MakeCharProperties GCBNone GCBExtendedPictographic InCBNone = 0x04%N /\
  (forall g, gcb_constant g < 16)%N /\ (forall i, exists k, k < 16 /\ incb_constant i = 16 * k)%N.
Proof.
  split; [reflexivity|]. split; [reflexivity|]. split; [intros []; reflexivity|].
  intros []; [exists 0%N|exists 1%N|exists 2%N|exists 3%N]; split; reflexivity.
Qed.

(* ---- C35: the state machine *)

(* Any sequence of property values, even ones no character has. *)
Theorem C35_never_invalid : forall ps, exists ds, decisions ps = Ret ds /\
  List.length ds = List.length ps - 1.
Proof.
  intros [|x ps]; [exists []; auto|]. unfold decisions.
  destruct (Begin_total x) as (s & Eb & Hs). rewrite Eb. cbn [bind].
  destruct (drive_total ps s x Hs) as (ds & E & El). exists ds. split; [exact E|]. simpl. lia.
Qed.

(* The properties reported for the characters of a text. *)
Definition text_properties (cs : list N) (ps : list CharProperties) : Prop :=
  Forall2 (fun c p => LookupFirstChar (utf8_encode c) = Ret (p, List.length (utf8_encode c))) cs ps.

Lemma text_properties_enc cs ps : Forall scalar cs -> text_properties cs ps ->
  ps = map enc (map ucd_class cs) /\ Forall good (map ucd_class cs).
Proof.
  intros Hcs H. induction H as [|c p cs ps E H IH]; [split; [reflexivity|constructor]|].
  inversion Hcs as [|? ? Hc Hcs']; subst. destruct (IH Hcs') as [-> G].
  destruct (lookup_char (utf8_encode c) c [] (utf8_encode_seq c Hc)) as [E' G'].
  rewrite app_nil_r in E'. change (Char (utf8_encode c) c) with (char c) in *.
  rewrite (class_char c Hc) in *. split; [|constructor; assumption]. cbn [map]. f_equal. congruence.
Qed.

Lemma nth_positions c cs ds : nth_split_ok [] (ucd_class c) (map ucd_class cs) ds ->
  forall l a b r, c :: cs = l ++ a :: b :: r ->
      (nth_error ds (List.length l) = Some true <->
       boundary (map ucd_class (l ++ [a])) (map ucd_class (b :: r))).
Proof.
  intros Hd. destruct (nth_split_nth _ _ _ _ Hd) as [Hl Hk].
  intros l a b r E. specialize (Hk (List.length l)). rewrite map_length in *.
  assert (List.length l < List.length cs) as Hlt.
  { apply (f_equal (@List.length _)) in E. rewrite app_length in E. simpl in E. lia. }
  specialize (Hk Hlt).
  assert (nth_error ds (List.length l) = Some (nth (List.length l) ds false)) as En
    by (apply nth_error_nth'; lia).
  assert (ucd_class c :: firstn (List.length l) (map ucd_class cs) = map ucd_class (l ++ [a]) /\
          skipn (List.length l) (map ucd_class cs) = map ucd_class (b :: r)) as [E1 E2].
  { rewrite firstn_map, skipn_map. change (ucd_class c :: map ucd_class (firstn (List.length l) cs))
      with (map ucd_class (c :: firstn (List.length l) cs)).
    assert (c :: cs = (l ++ [a]) ++ b :: r) as E' by (rewrite <- app_assoc; exact E).
    assert (List.length (l ++ [a]) = S (List.length l)) as Ll by (rewrite app_length; simpl; lia).
    split; f_equal.
    - apply (f_equal (firstn (List.length (l ++ [a])))) in E'. rewrite firstn_app_exact, Ll in E'. exact E'.
    - apply (f_equal (skipn (List.length (l ++ [a])))) in E'. rewrite skipn_app, skipn_all, Nat.sub_diag, Ll in E'.
      exact E'. }
  simpl rev in Hk. simpl app in Hk. rewrite E1, E2 in Hk.
  rewrite En, <- Hk. split; congruence.
Qed.

(* Restarted at every split (as ScanGraphemeClusters does), the machine decides
   every position of a text as UAX #29 does with full left context. *)
Theorem C35_decisions : forall cs ps, Forall scalar cs -> text_properties cs ps ->
  exists ds, decisions ps = Ret ds /\
    forall l a b r, cs = l ++ a :: b :: r ->
      (nth_error ds (List.length l) = Some true <->
       boundary (map ucd_class (l ++ [a])) (map ucd_class (b :: r))).
Proof.
  intros cs ps Hcs Hps. destruct (text_properties_enc cs ps Hcs Hps) as [-> G].
  destruct cs as [|c cs].
  { exists []. split; [reflexivity|]. intros l a b r E. destruct l; discriminate. }
  cbn [map decisions]. cbn [map] in G. inversion G as [|? ? Gc Gcs]; subst.
  destruct (begin_summary _ Gc) as (s & Eb & HS). rewrite Eb. cbn [bind].
  destruct (drive_spec (map ucd_class cs) s (ucd_class c) [] HS (Forall_cons _ Gc (Forall_nil _)) Gcs)
    as (ds & Ed & Hd).
  exists ds. split; [exact Ed|]. apply (nth_positions c cs ds Hd).
Qed.

Example C35_example :
  text_properties [0x1F600; 0x1F1E6; 0x1F1FA; 0x1F1FF]%N [0x04; 0x0a; 0x0a; 0x0a]%N /\
  decisions [0x04; 0x0a; 0x0a; 0x0a]%N = Ret [true; false; true].
Proof. split; [repeat (constructor; [vm_compute; reflexivity|]); constructor|reflexivity]. Qed.

(* C42. As documented for Transition, the returned state is used for the next
   transition - without restarting at splits.  Refuted: a flag after an emoji is
   torn apart.  It is right for texts without regional indicators. *)
Theorem C42_refuted :
  ~ (forall cs ps ds, Forall scalar cs -> text_properties cs ps -> decisions_on ps = Ret ds ->
      forall l a b r, cs = l ++ a :: b :: r ->
        (nth_error ds (List.length l) = Some true <->
         boundary (map ucd_class (l ++ [a])) (map ucd_class (b :: r)))).
Proof.
  intros H. specialize (H [0x1F600; 0x1F1E6; 0x1F1FA]%N [0x04; 0x0a; 0x0a]%N [true; true]).
  assert (Forall scalar [0x1F600; 0x1F1E6; 0x1F1FA]%N) as Hs
    by (repeat (constructor; [apply scalarb_spec; reflexivity|]); constructor).
  specialize (H Hs). clear Hs.
  assert (text_properties [0x1F600; 0x1F1E6; 0x1F1FA]%N [0x04; 0x0a; 0x0a]%N) as Hp
    by (repeat (constructor; [vm_compute; reflexivity|]); constructor).
  specialize (H Hp eq_refl [0x1F600]%N 0x1F1E6%N 0x1F1FA%N [] eq_refl). destruct H as [H _].
  specialize (H eq_refl).
  destruct (C35_decisions [0x1F600; 0x1F1E6; 0x1F1FA]%N [0x04; 0x0a; 0x0a]%N) as (ds & E & K);
    [repeat (constructor; [apply scalarb_spec; reflexivity|]); constructor|exact Hp|].
  specialize (K [0x1F600]%N 0x1F1E6%N 0x1F1FA%N [] eq_refl). apply K in H.
  assert (ds = [true; false]) by (vm_compute in E; congruence). subst ds. discriminate.
Qed.

Theorem C42_without_flags : forall cs ps, Forall scalar cs -> text_properties cs ps ->
  Forall (fun c => gcb (ucd_class c) <> Regional_Indicator) cs ->
  exists ds, decisions_on ps = Ret ds /\
    forall l a b r, cs = l ++ a :: b :: r ->
      (nth_error ds (List.length l) = Some true <->
       boundary (map ucd_class (l ++ [a])) (map ucd_class (b :: r))).
Proof.
  intros cs ps Hcs Hps HRI. destruct (text_properties_enc cs ps Hcs Hps) as [-> G].
  destruct cs as [|c cs].
  { exists []. split; [reflexivity|]. intros l a b r E. destruct l; discriminate. }
  cbn [map decisions_on]. cbn [map] in G. inversion G as [|? ? Gc Gcs]; subst.
  inversion HRI as [|? ? _ HRI']; subst.
  destruct (begin_summary _ Gc) as (s & Eb & HS). rewrite Eb. cbn [bind].
  destruct (drive_on_spec (map ucd_class cs) s (ucd_class c) [] HS (Forall_cons _ Gc (Forall_nil _)) Gcs)
    as (ds & Ed & Hd); [rewrite Forall_map; exact HRI'|].
  exists ds. split; [exact Ed|]. apply (nth_positions c cs ds Hd).
Qed.

Example C42_example :
  text_properties [0x1F468; 0x200D; 0x1F469; 0x0D; 0x0A]%N [0x04; 0x2e; 0x04; 0x01; 0x06]%N /\
  decisions_on [0x04; 0x2e; 0x04; 0x01; 0x06]%N = Ret [false; false; true; false].
Proof. split; [repeat (constructor; [vm_compute; reflexivity|]); constructor|reflexivity]. Qed.

Definition all_theorems :=
  (C13_unicode_data, C13_pictographs_have_no_gcb, C14_contract, C14_stable,
   C14_documented_error_refuted, C33_gcb_names, C33_incb_names, C33_emoji_names, C33_print_parse,
   C33_value_names, C33_printed, C33_distinct, C33_characters_distinct, C33_error_name_ambiguous, C34_packing,
   C34_unpacking, C35_never_invalid, C35_decisions, C42_refuted, C42_without_flags).
Print Assumptions all_theorems.
