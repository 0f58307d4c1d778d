(* Property C66: writing to tokens. *)
From Coq Require Import List NArith ZArith Arith Bool Lia Strings.Byte.
From Coq Require Import ZifyBool ZifyNat ZifyN.
From Verif Require Import Spec.Utf8 Spec.Segmentation Spec.Readers.
From Verif Require Import Model.Base Model.CharProps Model.Lookup Model.Machine Model.Scan Model.Memory Model.Bufio Model.Writing.
From Verif Require Import Proofs.Basics Proofs.LookupFacts Proofs.ScanFacts Proofs.TextFacts Proofs.BufioFacts Proofs.KeepFacts.
From Verif Require Import Properties.Splitting Properties.Memory Properties.Bufio.
Import ListNotations.

Local Opaque committed.

(* ---- a bufio.Scanner: two scanners that hold the same unread data *)

(* A reader that has written as many bytes as it reports. *)
Definition honest {R} (rd : reader R) : Prop :=
  forall r space, (r_n (snd (rd r space)) <= Z.of_nat (length (r_p (snd (rd r space)))))%Z.

Record twin (s1 s2 : scanner) : Prop := Twin {
  tw_inv : inv s1;
  tw_old : length (s_old s2) = length (s_old s1);
  tw_buf : length (s_buf s2) = length (s_buf s1);
  tw_start : s_start s2 = s_start s1;
  tw_end : s_end s2 = s_end s1;
  tw_err : s_err s2 = s_err s1;
  tw_empties : s_empties s2 = s_empties s1;
  tw_max : s_max s2 = s_max s1;
  tw_data : data s2 = data s1
}.

Lemma twin_inv2 s1 s2 : twin s1 s2 -> inv s2.
Proof. intros []. unfold inv in *. lia. Qed.
Lemma twin_sym s1 s2 : twin s1 s2 -> twin s2 s1.
Proof. intros H. pose proof (twin_inv2 _ _ H) as I. destruct H. constructor; auto. Qed.
Lemma twin_refl s : inv s -> twin s s.
Proof. constructor; auto. Qed.

Lemma twin_shift s1 s2 a : twin s1 s2 -> shift s1 = Ret a -> exists b, shift s2 = Ret b /\ twin a b.
Proof.
  intros H E. pose proof (twin_inv2 _ _ H) as I2. destruct H as [I1 Ho Hb Hs He Hr Hp Hm Hd].
  destruct (shift_ok s1 I1) as (a' & Ea & Ia & Da & La & Oa & Ra & Ma & _). assert (a' = a) as -> by congruence. clear Ea.
  destruct (shift_ok s2 I2) as (b & Eb & Ib & Db & Lb & Ob & Rb & Mb & _).
  exists b. split; [exact Eb|]. revert E Eb. unfold shift. rewrite Hs, He, Hb.
  destruct ((0 <? s_start s1) && ((s_end s1 =? length (s_buf s1)) || (length (s_buf s1) / 2 <? s_start s1))).
  - rewrite !held_ok by assumption. cbn [bind]. intros E Eb.
    assert (s_start a = 0 /\ s_end a = s_end s1 - s_start s1 /\ s_empties a = s_empties s1) as (A1 & A2 & A3) by (injection E as <-; auto).
    assert (s_start b = 0 /\ s_end b = s_end s1 - s_start s1 /\ s_empties b = s_empties s2) as (B1 & B2 & B3) by (injection Eb as <-; auto).
    constructor; try congruence.
  - intros E Eb. assert (a = s1) as -> by congruence. assert (b = s2) as -> by congruence. constructor; auto.
Qed.

Lemma twin_resize s1 s2 o : twin s1 s2 -> (s_end s1 = length (s_buf s1) -> s_start s1 = 0) -> resize s1 = Ret o ->
  exists o', resize s2 = Ret o' /\ match o, o' with Some a, Some b => twin a b | None, None => True | _, _ => False end.
Proof.
  intros H F E. pose proof (twin_inv2 _ _ H) as I2. pose proof H as H0. destruct H as [I1 Ho Hb Hs He Hr Hp Hm Hd].
  revert E. unfold resize. rewrite He, Hb, Hm.
  destruct (s_end s1 =? length (s_buf s1)) eqn:C1; [|intros E; exists (Some s2); split; [reflexivity|]; assert (o = Some s1) as -> by congruence; exact H0].
  destruct ((s_max s1 <=? length (s_buf s1)) || (half_maxInt <? N.of_nat (length (s_buf s1)))%N) eqn:C2.
  { intros E. exists None. split; [reflexivity|]. assert (o = None) as -> by congruence. exact I. }
  rewrite !held_ok by assumption. cbn [bind]. intros E. eexists. split; [reflexivity|].
  destruct (resize_ok s1 I1 F) as [(K & _)|(a & K & Ia & Da & _)].
  { exfalso. revert K. unfold resize. rewrite C1, C2. rewrite held_ok by assumption. discriminate. }
  assert (o = Some a) as ->.
  { rewrite <- (f_equal (fun x => match x with Ret y => y | _ => o end) E). unfold resize in K. rewrite C1, C2, held_ok in K by assumption. cbn [bind] in K. congruence. }
  assert (Some (Scanner (s_old s1 ++ [s_buf s1]) (overwrite (repeat x00 (Nat.min (if length (s_buf s1) * 2 =? 0 then startBufSize else length (s_buf s1) * 2) (s_max s1))) 0 (data s1)) 0
     (s_end s1 - s_start s1) (s_err s1) (s_empties s1) (s_max s1)) = Some a) as E' by congruence.
  assert (a = Scanner (s_old s1 ++ [s_buf s1]) (overwrite (repeat x00 (Nat.min (if length (s_buf s1) * 2 =? 0 then startBufSize else length (s_buf s1) * 2) (s_max s1))) 0 (data s1)) 0
     (s_end s1 - s_start s1) (s_err s1) (s_empties s1) (s_max s1)) as -> by congruence.
  clear K E E'. rewrite Hd, Hs, Hr, Hp.
  constructor; try reflexivity; try assumption. cbn [s_old]. rewrite !app_length, Ho. reflexivity.
Qed.

Lemma twin_setErr s1 s2 e : twin s1 s2 -> twin (setErr s1 e) (setErr s2 e).
Proof.
  intros H. pose proof H as H0. destruct H as [I1 Ho Hb Hs He Hr Hp Hm Hd]. unfold setErr. rewrite Hr.
  destruct (s_err s1) as [[]|]; try exact H0; constructor; cbn [s_old s_buf s_start s_end s_err s_empties s_max]; auto.
Qed.

Lemma twin_reply s1 s2 p n er em : twin s1 s2 -> s_end s1 + n <= length (s_buf s1) -> n <= length p ->
  twin (Scanner (s_old s1) (overwrite (s_buf s1) (s_end s1) p) (s_start s1) (s_end s1 + n) er em (s_max s1))
       (Scanner (s_old s2) (overwrite (s_buf s2) (s_end s2) p) (s_start s2) (s_end s2 + n) er em (s_max s2)).
Proof.
  intros H Hn Hp. pose proof (twin_inv2 _ _ H) as I2. destruct H as [I1 Ho Hb Hs He Hr Hq Hm Hd].
  unfold inv in I1, I2.
  constructor; cbn [s_old s_buf s_start s_end s_err s_empties s_max]; try congruence.
  - unfold inv. cbn [s_start s_end s_buf]. rewrite overwrite_length by lia. lia.
  - rewrite !overwrite_length by lia. exact Hb.
  - rewrite (data_extend (s_old s1) (s_buf s1) (overwrite (s_buf s1) (s_end s1) p) (s_start s1) (s_end s1) n er em (s_max s1)) by (rewrite ?overwrite_length by lia; try lia; apply overwrite_before; lia).
    rewrite (data_extend (s_old s2) (s_buf s2) (overwrite (s_buf s2) (s_end s2) p) (s_start s2) (s_end s2) n er em (s_max s2)) by (rewrite ?overwrite_length by lia; try lia; apply overwrite_before; lia).
    rewrite !overwrite_at by lia. f_equal. exact Hd.
Qed.

Lemma twin_fill {R} (rd : reader R) : honest rd -> forall left r s1 s2 r' s1', twin s1 s2 -> fill rd left r s1 = (r', s1') ->
  exists s2', fill rd left r s2 = (r', s2') /\ twin s1' s2'.
Proof.
  intros Hh. induction left as [|left IH]; intros r s1 s2 r' s1' H E; pose proof (twin_inv2 _ _ H) as I2; pose proof (tw_inv _ _ H) as I1; unfold inv in I1, I2;
    cbn [fill] in *; rewrite (tw_buf _ _ H), (tw_end _ _ H) in *;
    destruct (rd r (length (s_buf s1) - s_end s1)) as [ra rep] eqn:Er;
    pose proof (Hh r (length (s_buf s1) - s_end s1)) as Hr; rewrite Er in Hr; cbn [snd] in Hr.
  all: destruct ((r_n rep <? 0) || (Z.of_nat (length (s_buf s1) - s_end s1) <? r_n rep))%Z eqn:Eb.
  1,3: (assert (r' = ra) as -> by congruence); eexists; (split; [reflexivity|]);
    (assert (s1' = setErr (Scanner (s_old s1) (overwrite (s_buf s1) (s_end s1) (r_p rep)) (s_start s1) (s_end s1) (s_err s1) (s_empties s1) (s_max s1)) ErrBadReadCount) as -> by congruence);
    apply twin_setErr; rewrite <- (Nat.add_0_r (s_end s1)) at 2; pose proof (twin_reply s1 s2 (r_p rep) 0 (s_err s1) (s_empties s1) H ltac:(lia) ltac:(lia)) as K;
    rewrite (tw_end _ _ H) in K; rewrite (tw_err _ _ H), (tw_empties _ _ H); rewrite Nat.add_0_r in *; exact K.
  all: set (n := Z.to_nat (r_n rep)) in *; assert (n <= length (r_p rep)) as Hn by (unfold n; lia);
    assert (s_end s1 + n <= length (s_buf s1)) as Hf by (unfold n; lia); clearbody n.
  all: pose proof (fun er em => twin_reply s1 s2 (r_p rep) n er em H Hf Hn) as K.
  all: rewrite (tw_end _ _ H) in K.
  all: destruct (r_err rep) as [e|].
  1,3: (assert (r' = ra) as -> by congruence); eexists; (split; [reflexivity|]);
    (assert (s1' = setErr (Scanner (s_old s1) (overwrite (s_buf s1) (s_end s1) (r_p rep)) (s_start s1) (s_end s1 + n) (s_err s1) (s_empties s1) (s_max s1)) e) as -> by congruence);
    apply twin_setErr; rewrite (tw_err _ _ H), (tw_empties _ _ H); apply K.
  all: destruct (0 <? n).
  1,3: (assert (r' = ra) as -> by congruence); eexists; (split; [reflexivity|]);
    (assert (s1' = Scanner (s_old s1) (overwrite (s_buf s1) (s_end s1) (r_p rep)) (s_start s1) (s_end s1 + n) (s_err s1) 0 (s_max s1)) as -> by congruence);
    rewrite (tw_err _ _ H); apply K.
  - (assert (r' = ra) as -> by congruence); eexists; (split; [reflexivity|]);
    (assert (s1' = setErr (Scanner (s_old s1) (overwrite (s_buf s1) (s_end s1) (r_p rep)) (s_start s1) (s_end s1 + n) (s_err s1) (s_empties s1) (s_max s1)) ErrNoProgress) as -> by congruence);
    apply twin_setErr; rewrite (tw_err _ _ H), (tw_empties _ _ H); apply K.
  - eapply IH; [|exact E]. rewrite (tw_err _ _ H), (tw_empties _ _ H). apply K.
Qed.

Lemma twin_more {R} (rd : reader R) r s1 s2 r' s1' again : honest rd -> twin s1 s2 -> more rd r s1 = Ret (r', s1', again) ->
  exists s2', more rd r s2 = Ret (r', s2', again) /\ twin s1' s2'.
Proof.
  intros Hh H. unfold more. rewrite (tw_err _ _ H). destruct (s_err s1) as [e|] eqn:Ee.
  - intros E. assert (r' = r) as -> by congruence. assert (again = false) as -> by congruence. eexists. split; [reflexivity|].
    assert (s1' = Scanner (s_old s1) (s_buf s1) 0 0 (Some e) (s_empties s1) (s_max s1)) as -> by congruence.
    destruct H as [I1 Ho Hb Hs He Hr Hp Hm Hd]. constructor; cbn [s_old s_buf s_start s_end s_err s_empties s_max]; try congruence.
    + unfold inv. cbn [s_start s_end]. lia.
    + reflexivity.
  - destruct (shift_ok s1 (tw_inv _ _ H)) as (a & Ea & Ia & Da & La & Oa & Ra & Ma & Fa & _). rewrite Ea. cbn [bind].
    destruct (twin_shift _ _ _ H Ea) as (b & -> & Tab). cbn [bind].
    destruct (resize a) as [o|p] eqn:Ez; [|discriminate]. cbn [bind].
    destruct (twin_resize _ _ _ Tab Fa Ez) as (o' & -> & To). cbn [bind].
    destruct o as [c|], o' as [d|]; try contradiction.
    + destruct (fill rd maxConsecutiveEmptyReads r c) as [rb sb] eqn:Ef. intros E.
      destruct (twin_fill rd Hh _ _ _ _ _ _ To Ef) as (sd & -> & Td). exists sd.
      assert (r' = rb) as -> by congruence. assert (s1' = sb) as -> by congruence. assert (again = true) as -> by congruence. auto.
    + intros E. assert (r' = r) as -> by congruence. assert (again = false) as -> by congruence. eexists. split; [reflexivity|].
      assert (s1' = setErr a ErrTooLong) as -> by congruence. apply twin_setErr. exact Tab.
Qed.

(* a token lies before the unread data, in the current buffer *)
Definition behind (s : scanner) (sl : slice) : Prop :=
  sl_buf sl = length (s_old s) /\ sl_off sl + sl_len sl <= s_start s.

Lemma twin_loop {R} f (rd : reader R) : good_split f -> honest rd -> forall fuel r s1 s2 r' s1' o, twin s1 s2 ->
  scan_loop_bufio f rd fuel r s1 = Ret (r', s1', o) ->
  exists s2', scan_loop_bufio f rd fuel r s2 = Ret (r', s2', o) /\ twin s1' s2' /\
    match o with Some sl => behind s1' sl /\ bytes_of s2' sl = bytes_of s1' sl | None => True end.
Proof.
  intros G Hh. induction fuel as [|fuel IH]; intros r s1 s2 r' s1' o H E; [discriminate|].
  pose proof (tw_inv _ _ H) as I1. pose proof (twin_inv2 _ _ H) as I2.
  assert (forall sa sb, twin sa sb ->
    (let! (r', s', again) := more rd r sa in if again then scan_loop_bufio f rd fuel r' s' else Ret (r', s', None)) = Ret (r', s1', o) ->
    exists s2', (let! (r', s', again) := more rd r sb in if again then scan_loop_bufio f rd fuel r' s' else Ret (r', s', None)) = Ret (r', s2', o) /\ twin s1' s2' /\
    match o with Some sl => behind s1' sl /\ bytes_of s2' sl = bytes_of s1' sl | None => True end) as Hgo.
  { intros sa sb Tab Em. destruct (more rd r sa) as [[[rb sc] again]|p] eqn:Ea; [|discriminate]. cbn [bind] in Em.
    destruct (twin_more rd r sa sb rb sc again Hh Tab Ea) as (sd & -> & Td). cbn [bind].
    destruct again; [eapply IH; eassumption|]. assert (s1' = sc) as -> by congruence. assert (r' = rb) as -> by congruence.
    assert (o = None) as -> by congruence. eauto. }
  destruct ((s_start s1 <? s_end s1) || match s_err s1 with None => false | Some _ => true end) eqn:Ec.
  - assert ((s_start s2 <? s_end s2) || match s_err s2 with None => false | Some _ => true end = true) as Ec2
      by (rewrite (tw_start _ _ H), (tw_end _ _ H), (tw_err _ _ H); exact Ec).
    destruct (iter_split f rd fuel r s1 G I1 Ec) as [(n & t & Ef & Hn & E1 & B1)|(Ef & sa & E1 & ->)].
    + destruct (iter_split f rd fuel r s2 G I2 Ec2) as [(n' & t' & Ef' & Hn' & E2 & B2)|(Ef' & _)];
        rewrite (tw_data _ _ H), (tw_err _ _ H) in Ef'; [|congruence].
      assert (n' = n) as -> by congruence. assert (t' = t) as -> by congruence.
      rewrite E1 in E. rewrite (tw_old _ _ H), (tw_start _ _ H) in E2, B2.
      assert (r' = r) as -> by congruence. assert (s1' = advanced s1 n) as -> by congruence.
      assert (o = Some (Slice (length (s_old s1)) (s_start s1) (length t))) as -> by congruence.
      exists (advanced s2 n). split; [exact E2|]. split; [|split; [split; [reflexivity|]|congruence]].
      * pose proof (data_length s1 I1) as DL1. pose proof (data_length s2 I2) as DL2. destruct H as [I1' Ho Hb Hs He Hr Hp Hm Hd].
        constructor; unfold advanced; cbn [s_old s_buf s_start s_end s_err s_empties s_max]; try congruence.
        -- unfold inv in *. cbn [s_start s_end s_buf]. lia.
        -- fold (advanced s2 n). fold (advanced s1 n). rewrite !advanced_data by (assumption || rewrite ?Hd; lia). congruence.
      * cbn [sl_off sl_len advanced s_start].
        destruct (gs_shape f G (data s1) (match s_err s1 with None => false | Some _ => true end)) as [K|(n' & t' & K & _ & Ht & _)]; [congruence|].
        assert (n' = n) by congruence. assert (t' = t) by congruence. subst. lia.
    + destruct (iter_split f rd fuel r s2 G I2 Ec2) as [(n' & t' & Ef' & _)|(_ & sb & E2 & ->)];
        [rewrite (tw_data _ _ H), (tw_err _ _ H) in Ef'; congruence|].
      rewrite E1 in E. rewrite E2. apply (Hgo s1 s2 H E).
  - assert (s_err s1 = None) as E0 by (destruct (s_err s1); [rewrite orb_true_r in Ec; discriminate|reflexivity]).
    assert (s_start s1 = s_end s1) as E3 by (unfold inv in I1; lia).
    rewrite iter_none in E by assumption.
    rewrite (iter_none f rd fuel r s2); [apply (Hgo s1 s2 H E)|rewrite (tw_err _ _ H); exact E0|rewrite (tw_start _ _ H), (tw_end _ _ H); exact E3].
Qed.

Lemma twin_Scan {R} f (rd : reader R) r s1 s2 r' s1' o : good_split f -> honest rd -> twin s1 s2 ->
  Scan f rd r s1 = Ret (r', s1', o) ->
  exists s2', Scan f rd r s2 = Ret (r', s2', o) /\ twin s1' s2' /\
    match o with Some sl => behind s1' sl /\ bytes_of s2' sl = bytes_of s1' sl | None => True end.
Proof.
  intros G Hh H. unfold Scan. rewrite (tw_buf _ _ H), (tw_max _ _ H). apply twin_loop; assumption.
Qed.

(* writing behind the unread data *)
Lemma poke_old_length old : forall buf pos b, length (poke_old old buf pos b) = length old.
Proof. induction old as [|o old IH]; intros [|buf] pos b; cbn [poke_old length]; auto. Qed.

Lemma overwrite_after buf st n pos b : pos < st -> st + n <= length buf ->
  firstn n (skipn st (overwrite buf pos [b])) = firstn n (skipn st buf).
Proof.
  intros H Hl. unfold overwrite. replace (length buf - pos) with (S (length buf - pos - 1)) by lia. cbn [firstn length].
  rewrite firstn_nil. cbn [length]. f_equal.
  change (firstn pos buf ++ [b] ++ skipn (pos + 1) buf) with (firstn pos buf ++ ([b] ++ skipn (pos + 1) buf)).
  rewrite app_assoc, skipn_app. rewrite app_length, firstn_length. cbn [length].
  rewrite skipn_all2 by (rewrite app_length, firstn_length; cbn [length]; lia). cbn [app].
  rewrite <- skipn_add. f_equal. lia.
Qed.

Lemma twin_poke s buf pos b : inv s -> (buf = length (s_old s) -> pos < s_start s) -> twin (poke s buf pos b) s.
Proof.
  intros I H. unfold poke. destruct (Nat.eqb_spec buf (length (s_old s))) as [E|E].
  - specialize (H E). unfold inv in I.
    assert (length (overwrite (s_buf s) pos [b]) = length (s_buf s)) as L by (apply overwrite_length; lia).
    constructor; cbn [s_old s_buf s_start s_end s_err s_empties s_max]; try reflexivity; auto.
    + unfold inv. cbn [s_start s_end s_buf]. lia.
    + unfold data. cbn [s_start s_end s_buf]. symmetry. apply overwrite_after; lia.
  - constructor; cbn [s_old s_buf s_start s_end s_err s_empties s_max]; try reflexivity; auto.
    symmetry. apply poke_old_length.
Qed.

Lemma twin_trans s1 s2 s3 : twin s1 s2 -> twin s2 s3 -> twin s1 s3.
Proof. intros [] []. constructor; congruence || assumption. Qed.

Lemma behind_twin s1 s2 sl : twin s1 s2 -> behind s1 sl -> behind s2 sl.
Proof. intros [] [A B]. split; [congruence|lia]. Qed.

Lemma twin_writes tokens s s' : writes tokens s s' -> inv s -> Forall (behind s) tokens -> twin s' s.
Proof.
  induction 1 as [s|s sl i b s' Hin Hi H IH]; intros I B; [apply twin_refl; exact I|].
  assert (twin (poke s (sl_buf sl) (sl_off sl + i) b) s) as T
    by (apply twin_poke; [exact I|intros _; rewrite Forall_forall in B; destruct (B sl Hin); lia]).
  eapply twin_trans; [|exact T]. apply IH; [exact (tw_inv _ _ T)|].
  eapply Forall_impl; [|exact B]. intros sl'. apply behind_twin. apply twin_sym. exact T.
Qed.

(* what the caller writes to: the token just received *)
Definition writes_token (earlier : list slice) (token : slice) : scanner -> scanner -> Prop := writes [token].

Lemma scribbles_scans {R} f (rd : reader R) earlier r s2 toks r' s' : good_split f -> honest rd ->
  scribbles f rd writes_token earlier r s2 toks r' s' ->
  forall s1, twin s2 s1 -> exists s'', scans f rd r s1 toks r' s'' /\ twin s' s''.
Proof.
  intros G Hh H. induction H as [earlier r s r' s' E|earlier r s ra sa sl sb toks r' s' E W H IH]; intros s1 T;
    destruct (twin_Scan f rd _ _ _ _ _ _ G Hh T E) as (s2 & E2 & T2 & B).
  - exists s2. split; [constructor; exact E2|exact T2].
  - destruct B as [B1 B2].
    destruct (IH s2) as (s'' & S & T'').
    { eapply twin_trans; [apply (twin_writes _ _ _ W (tw_inv _ _ T2)); repeat constructor; apply B1|exact T2]. }
    exists s''. split; [|exact T'']. rewrite <- B2. econstructor; eassumption.
Qed.

Lemma scans_scribbles {R} f (rd : reader R) r s1 toks r' s' : good_split f -> honest rd ->
  scans f rd r s1 toks r' s' ->
  forall w, (forall earlier token s, writes [token] s (w earlier token s)) ->
  forall earlier s2, twin s1 s2 ->
  exists s'', scribbles f rd (fun earlier token s s' => s' = w earlier token s) earlier r s2 toks r' s'' /\ twin s' s''.
Proof.
  intros G Hh H w W. induction H as [r s r' s' E|r s ra sa sl toks r' s' E H IH]; intros earlier s2 T;
    destruct (twin_Scan f rd _ _ _ _ _ _ G Hh T E) as (s3 & E3 & T3 & B).
  - exists s3. split; [constructor; exact E3|exact T3].
  - destruct B as [B1 B2].
    pose proof (twin_writes _ _ _ (W earlier sl s3) (twin_inv2 _ _ T3) ltac:(repeat constructor; apply (behind_twin _ _ _ T3 B1))) as Tw.
    destruct (IH (sl :: earlier) (w earlier sl s3)) as (s'' & S & T'').
    { eapply twin_trans; [exact T3|]. apply twin_sym. exact Tw. }
    exists s''. split; [|exact T'']. rewrite <- B2. econstructor; [exact E3|reflexivity|exact S].
Qed.

(* C66. A caller of a Scanner may overwrite the bytes of a token until it calls
   Scan again: it gets the tokens and the end that a caller gets who only reads.
   (A reader that reports bytes it has not written shows the contents of the
   buffer, and with them what was written there: it has to be honest.) *)
Theorem C66_scanner : forall R (rd : reader R) r s capacity toks r' s',
  fresh s capacity -> honest rd ->
  scribbles ScanGraphemeClusters rd writes_token [] r s toks r' s' ->
  exists s'', scans ScanGraphemeClusters rd r s toks r' s'' /\ Err s'' = Err s'.
Proof.
  intros R rd r s cap toks r' s' Hf Hh H. destruct (fresh_facts s cap Hf) as (I & _).
  destruct (scribbles_scans _ rd [] r s toks r' s' good Hh H s (twin_refl s I)) as (s'' & S & T).
  exists s''. split; [exact S|]. unfold Err. rewrite (tw_err _ _ T). reflexivity.
Qed.

(* ... and whatever it decides to write, from all that it knows, it gets to the
   end as the caller does who only reads *)
Theorem C66_scanner_ends : forall R (rd : reader R) r s capacity toks r' s',
  fresh s capacity -> honest rd ->
  scans ScanGraphemeClusters rd r s toks r' s' ->
  forall w, (forall earlier token s, writes [token] s (w earlier token s)) ->
  exists s'', scribbles ScanGraphemeClusters rd (fun earlier token s s' => s' = w earlier token s) [] r s toks r' s'' /\
    Err s'' = Err s'.
Proof.
  intros R rd r s cap toks r' s' Hf Hh H w W. destruct (fresh_facts s cap Hf) as (I & _).
  destruct (scans_scribbles _ rd r s toks r' s' good Hh H w W [] s (twin_refl s I)) as (s'' & S & T).
  exists s''. split; [exact S|]. unfold Err. rewrite (tw_err _ _ T). reflexivity.
Qed.

(* ---- earlier tokens *)

Lemma more_start {R} (rd : reader R) r s e r' s' : roomy rd r s e -> more rd r s = Ret (r', s', true) ->
  s_start s' = s_start s.
Proof.
  intros (I & P & [(He & input & Hd & Hr)|(He & Hr)]); unfold more; rewrite He; [|discriminate].
  pose proof I as I'. unfold inv in I'. pose proof (Nat.div_mod (length (s_buf s)) 2 ltac:(lia)) as Hdiv.
  assert (s_end s < length (s_buf s)) as Hroom by lia.
  assert (shift s = Ret s) as ->.
  { unfold shift. replace (s_end s =? length (s_buf s)) with false by lia.
    replace (length (s_buf s) / 2 <? s_start s) with false by lia. rewrite andb_false_r. reflexivity. }
  cbn [bind]. assert (resize s = Ret (Some s)) as ->.
  { unfold resize. replace (s_end s =? length (s_buf s)) with false by lia. reflexivity. }
  cbn [bind].
  destruct (fill_keeps rd maxConsecutiveEmptyReads 100 r s input e (le_n _) I He Hroom Hd)
    as (ra & sa & rest & E & _ & _ & _ & S & _). rewrite E. intros K. congruence.
Qed.

Lemma loop_start {R} f (rd : reader R) e : good_split f -> forall fuel r s r' s' sl, roomy rd r s e ->
  scan_loop_bufio f rd fuel r s = Ret (r', s', Some sl) -> s_start s <= s_start s'.
Proof.
  intros G. induction fuel as [|fuel IH]; intros r s r' s' sl Q E; [discriminate|].
  assert (Hgo : (let! (r', s', again) := more rd r s in
      if again then scan_loop_bufio f rd fuel r' s' else Ret (r', s', None)) = Ret (r', s', Some sl) ->
    s_start s <= s_start s').
  { intros E1. destruct (more_keeps rd r s e Q) as (r1 & s1 & again & E2 & _ & N & _). rewrite E2 in E1. cbn [bind] in E1.
    destruct again; [|discriminate]. destruct (N eq_refl) as [Q1 _]. rewrite <- (more_start _ _ _ _ _ _ Q E2). eapply IH; eassumption. }
  destruct Q as (I & P & Q).
  destruct ((s_start s <? s_end s) || match s_err s with None => false | Some _ => true end) eqn:Ec.
  - destruct (iter_split f rd fuel r s G I Ec) as [(n & t & Ef & Hn & E1 & _)|(Ef & s1 & E1 & ->)]; rewrite E1 in E; [|auto].
    assert (s' = advanced s n) as -> by congruence. cbn [advanced s_start]. lia.
  - apply Hgo. rewrite <- E. symmetry. apply orb_false_iff in Ec. destruct Ec as [Ec1 Ec2].
    unfold inv in I. apply iter_none; [destruct (s_err s); [discriminate|reflexivity]|]. lia.
Qed.

Lemma roomy_twin {R} (rd : reader R) r s1 s2 e : twin s1 s2 -> roomy rd r s1 e -> roomy rd r s2 e.
Proof.
  intros T (_ & Q). split; [exact (twin_inv2 _ _ T)|]. rewrite (tw_buf _ _ T), (tw_err _ _ T), (tw_end _ _ T). exact Q.
Qed.

(* what the caller writes to: any token it has received *)
Definition writes_any (earlier : list slice) (token : slice) : scanner -> scanner -> Prop := writes (token :: earlier).

Lemma roomy_scribbles {R} f (rd : reader R) e earlier r s2 toks r' s' : good_split f -> honest rd ->
  scribbles f rd writes_any earlier r s2 toks r' s' ->
  forall s1, twin s2 s1 -> roomy rd r s2 e -> Forall (behind s2) earlier ->
  exists s'', scans f rd r s1 toks r' s'' /\ twin s' s''.
Proof.
  intros G Hh H. induction H as [earlier r s r' s' E|earlier r s ra sa sl sb toks r' s' E W H IH]; intros s1 T Q B;
    destruct (twin_Scan f rd _ _ _ _ _ _ G Hh T E) as (s2 & E2 & T2 & K).
  - exists s2. split; [constructor; exact E2|exact T2].
  - destruct K as [B1 B2].
    destruct (loop_keeps_any f rd e G _ _ _ _ _ _ Q E) as (Kp & _ & Qa & _).
    assert (Forall (behind sa) (sl :: earlier)) as Ba.
    { constructor; [exact B1|]. eapply Forall_impl; [|exact B]. intros sl' [C1 C2].
      pose proof (loop_start f rd e G _ _ _ _ _ _ Q E) as Hs. split; [rewrite C1; destruct Kp as (-> & _); reflexivity|lia]. }
    pose proof (twin_writes _ _ _ W (tw_inv _ _ T2) Ba) as Tw.
    destruct (IH s2) as (s'' & S & T'').
    + eapply twin_trans; [exact Tw|exact T2].
    + eapply roomy_twin; [apply twin_sym; exact Tw|exact Qa].
    + eapply Forall_impl; [|exact Ba]. intros sl'. apply behind_twin. apply twin_sym. exact Tw.
    + exists s''. split; [|exact T'']. rewrite <- B2. econstructor; eassumption.
Qed.

(* With at most 2048 bytes and a Scanner as NewScanner makes it, all the tokens
   received so far may be overwritten at any time. *)
Theorem C66_scanner_small : forall R (rd : reader R) r input e toks r' s',
  delivers rd 100 r input e -> honest rd -> length input <= 2048 ->
  scribbles ScanGraphemeClusters rd writes_any [] r NewScanner toks r' s' ->
  tokenises input toks /\ Err s' = match e with EOF => None | _ => Some e end.
Proof.
  intros R rd r input e toks r' s' Hd Hh Hlen Hc.
  assert (2048 <= Nat.min startBufSize (s_max NewScanner) / 2 /\ 2048 + 4 <= MaxScanTokenSize) as [H1 H2]
    by (split; apply Nat.leb_le; vm_compute; reflexivity).
  assert (0 < s_max NewScanner) as H0 by (apply Nat.ltb_lt; vm_compute; reflexivity).
  assert (bare NewScanner) as Hb by (split; [|split; [|split]]; reflexivity).
  pose proof fresh_default as Hf. revert H0 Hb H1 Hc Hf. generalize NewScanner as s0. intros s0 H0 Hb H1 Hc Hf.
  assert (exists s'', scans ScanGraphemeClusters rd r s0 toks r' s'' /\ Err s'' = Err s') as (s'' & Hs & He).
  { destruct (fresh_facts s0 _ Hf) as (I0 & _).
    pose proof (allocated_roomy rd r s0 e input H0 Hd (Nat.le_trans _ _ _ Hlen H1)) as Q.
    inversion Hc as [ea ra sa rb sb E E1 E2|ea ra sa rb sb sl sc toks' rd' sd E W Hc' E1 E2]; subst; [exists s'; split; [constructor; exact E|reflexivity]|].
    destruct (twin_Scan _ rd _ _ _ _ _ _ good Hh (twin_refl s0 I0) E) as (s2 & E2 & T2 & B1 & B2).
    assert (s2 = sb) as -> by congruence.
    assert (exists fuel, Scan ScanGraphemeClusters rd r s0 = scan_loop_bufio ScanGraphemeClusters rd (S fuel) r s0) as [fuel Ef] by (eexists; reflexivity).
    pose proof E as E'. rewrite Ef, loop_bare in E' by assumption.
    destruct (loop_keeps_any _ rd e good _ _ _ _ _ _ Q E') as (_ & _ & Q1 & _).
    pose proof (twin_writes _ _ _ W (tw_inv _ _ T2) ltac:(repeat constructor; apply B1)) as Tw.
    destruct (roomy_scribbles _ rd e _ _ _ _ _ _ good Hh Hc' sb Tw) as (s'' & S & T).
    - eapply roomy_twin; [apply twin_sym; exact Tw|exact Q1].
    - repeat constructor; apply (behind_twin sb); [apply twin_sym; exact Tw|exact B1|apply twin_sym; exact Tw|exact B1].
    - exists s''. split; [econstructor; eassumption|]. unfold Err. rewrite (tw_err _ _ T). reflexivity. }
  rewrite <- He. clear H0 H1 Hb Hc He s'.
  destruct (fresh_scans rd r input e s0 _ Hf Hd) as (toks0 & toks1 & r1 & s1 & Ht0 & Hs1 & Hr).
  destruct (scans_unique _ _ _ _ _ _ _ Hs1 _ _ _ Hs) as (-> & -> & ->).
  destruct Hr as [[-> He]|(_ & toks2 & d & ext & Et & Hx & Hn & Hl)].
  - split; [exact Ht0|]. unfold Err. rewrite He. destruct e; reflexivity.
  - exfalso. apply tokenises_concat in Ht0. apply tokenises_concat in Hx.
    apply (f_equal (@length byte)) in Ht0. rewrite Et, concat_app, app_length, Hx, app_length, Hl in Ht0.
    generalize dependent MaxScanTokenSize. intros. lia.
Qed.

(* ---- what is not safe *)

Fixpoint scribble (w : list slice -> slice -> scanner -> scanner) (n : nat) (earlier : list slice) (r : list byte) (s : scanner) :
  res (list (list byte) * list byte * scanner) :=
  match n with
  | O => Panic OutOfFuel
  | S n' =>
      let! (r1, s1, o) := Scan ScanGraphemeClusters bytes_reader r s in
      match o with
      | None => Ret ([], r1, s1)
      | Some sl =>
          let! (toks, r2, s2) := scribble w n' (sl :: earlier) r1 (w earlier sl s1) in
          Ret (bytes_of s1 sl :: toks, r2, s2)
      end
  end.

Lemma scribble_scribbles w (between : list slice -> slice -> scanner -> scanner -> Prop) : (forall earlier sl s, between earlier sl s (w earlier sl s)) ->
  forall n earlier r s toks r' s', scribble w n earlier r s = Ret (toks, r', s') ->
  scribbles ScanGraphemeClusters bytes_reader between earlier r s toks r' s'.
Proof.
  intros Hw. induction n as [|n IH]; intros earlier r s toks r' s' H; [discriminate|]. cbn [scribble] in H.
  destruct (Scan ScanGraphemeClusters bytes_reader r s) as [[[r1 s1] o]|p] eqn:E; [|discriminate].
  cbn [bind] in H. destruct o as [sl|].
  - destruct (scribble w n (sl :: earlier) r1 (w earlier sl s1)) as [[[toks1 r2] s2]|p] eqn:E2; [|discriminate]. cbn [bind] in H.
    injection H as <- <- <-. econstructor; [exact E|apply Hw|]. eapply IH. exact E2.
  - injection H as <- <- <-. constructor. exact E.
Qed.

Lemma bytes_honest : honest bytes_reader.
Proof. intros [|b r] space; cbn [bytes_reader snd r_n r_p length]; lia. Qed.

Definition six : list byte := [x61; x62; x63; x64; x65; x66].

(* With a small buffer: once the data has been moved, an earlier token lies over
   what has not been read. *)
Definition write_earlier (earlier : list slice) (sl : slice) (s : scanner) : scanner :=
  match earlier with
  | [_; second; _] => if 0 <? sl_len second then poke s (sl_buf second) (sl_off second + 0) x78 else s
  | _ => s
  end.

Definition four : list byte := [x00; x00; x00; x00].
Lemma four_fresh : fresh (with_buffer four 16) 16.
Proof. apply (fresh_buffer four 16). lia. Qed.

Definition is_tokens (got expected : list (list byte)) : bool :=
  if list_eq_dec (list_eq_dec byte_eq_dec) got expected then true else false.
Definition gives (run : res (list (list byte) * list byte * scanner)) (expected : list (list byte)) : bool :=
  match run with Ret (toks, _, _) => is_tokens toks expected | Panic _ => false end.
Lemma gives_run run expected : gives run expected = true -> exists r' s', run = Ret (expected, r', s').
Proof.
  unfold gives, is_tokens. destruct run as [[[toks r'] s']|]; [|discriminate].
  destruct (list_eq_dec _ _ _) as [->|]; [eauto|discriminate].
Qed.

Theorem C66_scanner_earlier_refuted : exists input s capacity toks r' s',
  fresh s capacity /\
  scribbles ScanGraphemeClusters bytes_reader writes_any [] input s toks r' s' /\
  input = [x61; x62; x63; x64; x65; x66] /\ toks = [[x61]; [x62]; [x63]; [x64]; [x78]; [x66]].
Proof.
  assert (gives (scribble write_earlier 7 [] six (with_buffer four 16)) [[x61]; [x62]; [x63]; [x64]; [x78]; [x66]] = true) as E
    by (vm_compute; reflexivity).
  apply gives_run in E. destruct E as (r' & s' & E).
  eexists; exists (with_buffer four 16), 16. eexists; exists r', s'. split; [exact four_fresh|]. split; [|split; reflexivity].
  eapply scribble_scribbles; [|exact E]. intros earlier sl s. unfold write_earlier, writes_any.
  destruct earlier as [|s1 [|s2 [|s3 [|]]]]; try apply writes_none.
  destruct (0 <? sl_len s2) eqn:L; [|apply writes_none].
  apply (writes_byte _ s s2 0 x78); [right; right; left; reflexivity|lia|apply writes_none].
Qed.

(* Appending to a token overwrites what has not been read. *)
Theorem C66_scanner_append_refuted : exists input s capacity toks r' s',
  fresh s capacity /\
  scribbles ScanGraphemeClusters bytes_reader (fun _ token s s' => s' = append_token s token x78) [] input s toks r' s' /\
  input = [x61; x62] /\ toks = [[x61]; [x78]].
Proof.
  assert (gives (scribble (fun _ token s => append_token s token x78) 3 [] [x61; x62] (with_buffer four 16)) [[x61]; [x78]] = true) as E
    by (vm_compute; reflexivity).
  apply gives_run in E. destruct E as (r' & s' & E).
  eexists; exists (with_buffer four 16), 16. eexists; exists r', s'. split; [exact four_fresh|]. split; [|split; reflexivity].
  eapply scribble_scribbles; [|exact E]. reflexivity.
Qed.

(* A caller who overwrites every token with "x" before the next call. *)
Fixpoint blank (s : scanner) (token : slice) (n : nat) : scanner :=
  match n with
  | O => s
  | S n' => blank (poke s (sl_buf token) (sl_off token + n') x78) token n'
  end.
Lemma blank_writes token : forall n s, n <= sl_len token -> writes [token] s (blank s token n).
Proof.
  induction n as [|n IH]; intros s H; [apply writes_none|]. cbn [blank].
  apply (writes_byte _ s token n x78); [left; reflexivity|lia|]. apply IH. lia.
Qed.

Example C66_scanner_applies : exists toks r' s' s'',
  scribbles ScanGraphemeClusters bytes_reader writes_token [] six (with_buffer four 16) toks r' s' /\
  scans ScanGraphemeClusters bytes_reader six (with_buffer four 16) toks r' s'' /\ Err s'' = Err s' /\
  toks = [[x61]; [x62]; [x63]; [x64]; [x65]; [x66]] /\
  firstn 2 (s_buf s') = [x78; x78] /\ firstn 2 (s_buf s'') <> [x78; x78].
Proof.
  assert (match scribble (fun _ token s => blank s token (sl_len token)) 7 [] six (with_buffer four 16), collect 7 six (with_buffer four 16) with
    | Ret (toks, _, s'), Ret (_, _, s'') => is_tokens toks [[x61]; [x62]; [x63]; [x64]; [x65]; [x66]] &&
        is_tokens [firstn 2 (s_buf s')] [[x78; x78]] && negb (is_tokens [firstn 2 (s_buf s'')] [[x78; x78]])
    | _, _ => false end = true) as H by (vm_compute; reflexivity).
  destruct (scribble _ _ _ _ _) as [[[toks r'] s']|p] eqn:E; [|discriminate].
  destruct (collect 7 six (with_buffer four 16)) as [[[sls r2] s2]|p] eqn:E2; [|discriminate].
  apply andb_prop in H. destruct H as [H H3]. apply andb_prop in H. destruct H as [H1 H2].
  assert (scribbles ScanGraphemeClusters bytes_reader writes_token [] six (with_buffer four 16) toks r' s') as S.
  { eapply scribble_scribbles; [|exact E]. intros earlier sl s. apply blank_writes. lia. }
  destruct (C66_scanner _ bytes_reader six _ _ toks r' s' four_fresh bytes_honest S) as (s'' & Sc & He).
  pose proof (collects_scans _ _ _ _ _ _ _ (collect_collects _ _ _ _ _ _ E2)) as (toks2 & Sc2 & _).
  destruct (scans_unique _ _ _ _ _ _ _ Sc _ _ _ Sc2) as (_ & _ & ->).
  exists toks, r', s', s2. unfold is_tokens in *.
  destruct (list_eq_dec _ toks _) as [K1|]; [|discriminate].
  destruct (list_eq_dec _ [firstn 2 (s_buf s')] _) as [K2|]; [|discriminate].
  destruct (list_eq_dec _ [firstn 2 (s_buf s2)] _) as [K3|K3]; [discriminate|].
  split; [exact S|]. split; [exact Sc|]. split; [exact He|]. split; [exact K1|]. split; [congruence|].
  intros K. apply K3. rewrite K. reflexivity.
Qed.

(* ... and with a Scanner as NewScanner makes it *)
Lemma scribbles_weaken {R} f (rd : reader R) (P Q : list slice -> slice -> scanner -> scanner -> Prop) earlier r s toks r' s' :
  (forall earlier token a b, P earlier token a b -> Q earlier token a b) ->
  scribbles f rd P earlier r s toks r' s' -> scribbles f rd Q earlier r s toks r' s'.
Proof. intros H. induction 1; [constructor; assumption|]. econstructor; eauto. Qed.

Example C66_scanner_small_applies : exists toks r' s',
  scribbles ScanGraphemeClusters bytes_reader (fun _ token s s' => s' = blank s token (sl_len token)) [] six NewScanner toks r' s' /\
  scribbles ScanGraphemeClusters bytes_reader writes_any [] six NewScanner toks r' s' /\
  delivers bytes_reader 100 six six EOF /\ length six <= 2048 /\
  tokenises six toks /\ Err s' = None.
Proof.
  destruct (fresh_scans bytes_reader six six EOF NewScanner _ fresh_default (bytes_reader_delivers six 100))
    as (_ & toks & r & s & _ & Hs & _).
  assert (forall (earlier : list slice) token a, writes [token] a (blank a token (sl_len token))) as Hw
    by (intros; apply blank_writes; lia).
  destruct (C66_scanner_ends _ bytes_reader six NewScanner _ toks r s fresh_default bytes_honest Hs _ Hw) as (s' & Sc & _).
  assert (length six <= 2048) as L by (apply Nat.leb_le; vm_compute; reflexivity).
  assert (scribbles ScanGraphemeClusters bytes_reader writes_any [] six NewScanner toks r s') as Sa.
  { eapply scribbles_weaken; [|exact Sc]. cbv beta. intros earlier token a b ->.
    assert (forall n a, n <= sl_len token -> writes_any earlier token a (blank a token n)) as K; [|apply K; lia].
    induction n as [|n IH]; intros a' Hn; [apply writes_none|]. cbn [blank].
    apply (writes_byte _ a' token n x78); [left; reflexivity|lia|]. apply IH. lia. }
  exists toks, r, s'. split; [exact Sc|]. split; [exact Sa|]. split; [apply bytes_reader_delivers|]. split; [exact L|].
  apply (C66_scanner_small _ bytes_reader six six EOF toks r s' (bytes_reader_delivers six 100) bytes_honest L Sa).
Qed.

(* ---- cutting up a slice *)

(* m' is m, except for bytes that rest does not show *)
Definition spares (rest : bslice) (m m' : memory) : Prop :=
  (forall a, Memory.within rest a -> m_heap m' a = m_heap m a) /\ m_table m' = m_table m.

(* the caller's statements do not change what is still to be cut up *)
Definition spares_rest (m : memory) (token rest : bslice) (m' : memory) : Prop := spares rest m m'.

(* one call, run to its end *)
Lemma call_runs m data bs tr m' r : shows m data bs -> tables_intact m -> bs <> [] ->
  interleaves (fun _ _ => False) m [m_ScanGraphemeClusters data true] tr m' [Done r] ->
  m' = m /\ exists n, ScanGraphemeClusters bs true = Ret (n, Some (firstn n bs), None) /\ 1 <= n <= length bs /\
    r = (n, Some (Bslice (b_base data) n (b_cap data)), None).
Proof.
  intros Hs Ht Hne Hi.
  assert (forall c, In c [Call data bs true] -> shows m (c_data c) (c_bytes c)) as Hs' by (intros c [<-|[]]; exact Hs).
  split; [exact (C27_unchanged [Call data bs true] m tr m' _ Hs' Ht Hi)|].
  destruct (C27_memory (fun _ _ => False) [Call data bs true] m tr m' _ Hs' Ht (fun _ _ (K : False) => match K with end) Hi) as (_ & Hres & _).
  destruct (Hres 0 _ r eq_refl eq_refl) as (n & t & E & ->). cbn [c_bytes c_eof c_data] in *.
  destruct (scan_progress bs Hne) as (n' & E' & Hn'). assert (n' = n) as -> by congruence.
  assert (t = Some (firstn n bs)) as -> by congruence. eauto.
Qed.

Lemma call_ends m data bs n : shows m data bs -> tables_intact m ->
  ScanGraphemeClusters bs true = Ret (n, Some (firstn n bs), None) ->
  exists tr, interleaves (fun _ _ => False) m [m_ScanGraphemeClusters data true] tr m [Done (n, Some (Bslice (b_base data) n (b_cap data)), None)].
Proof.
  intros Hs Ht E.
  assert (forall c, In c [Call data bs true] -> shows m (c_data c) (c_bytes c)) as Hs' by (intros c [<-|[]]; exact Hs).
  destruct (C27_memory (fun _ _ => False) [Call data bs true] m [] m _ Hs' Ht (fun _ _ (K : False) => match K with end) (inter_start _ _ _))
    as (_ & _ & _ & Hend).
  destruct (Hend 0 _ eq_refl) as (tr & m2 & ps & r & Hi & Hr). cbn [app] in Hi.
  pose proof (C27_unchanged [Call data bs true] m tr m2 _ Hs' Ht Hi) as ->.
  destruct (C27_memory (fun _ _ => False) [Call data bs true] m tr m _ Hs' Ht (fun _ _ (K : False) => match K with end) Hi) as (_ & Hres & _).
  destruct (Hres 0 _ r eq_refl Hr) as (n' & t' & E' & ->). cbn [c_bytes c_eof c_data] in *.
  assert (n' = n) as -> by congruence. assert (t' = Some (firstn n bs)) as -> by congruence.
  exists tr. assert (length ps = 1) as L.
  { clear - Hi. assert (length (map program [Call data bs true]) = 1) as L by reflexivity.
    induction Hi as [|m1 ps0 tr0 m1' ps1 ps2 i p p' e m2 Hi IH Hlen Ha|m1 ps0 tr0 m1' ps1 m2 Hi IH Hbad]; [exact L| |contradiction Hbad].
    specialize (IH L). rewrite app_length in *. exact IH. }
  destruct ps as [|p [|p' ps]]; try discriminate L. cbn [nth_error b_base b_cap c_data] in Hr.
  injection Hr as ->. exact Hi.
Qed.

Lemma shows_bytes m s bs : shows m s bs -> m_bytes m s = bs.
Proof.
  intros (Hl & _ & Hb). unfold m_bytes. rewrite Hl. generalize (b_base s) Hb. clear Hl Hb.
  induction bs as [|b bs IH]; intros base Hb; [reflexivity|]. cbn [length seq map]. f_equal; [apply (Hb 0 b); reflexivity|].
  rewrite <- seq_shift, map_map. rewrite <- (IH (base + 1)%N) at 2.
  - apply map_ext. intros i. f_equal. lia.
  - intros i b' Hi. rewrite <- (Hb (S i) b' Hi). f_equal. lia.
Qed.

Lemma shows_prefix m base cap bs n : shows m (Bslice base (length bs) cap) bs -> n <= length bs ->
  shows m (Bslice base n cap) (firstn n bs).
Proof.
  intros (Hl & Hc & Hb) Hn. cbn [b_len b_cap b_base] in *. split; [cbn [b_len]; rewrite firstn_length; lia|]. split; [cbn [b_len b_cap]; lia|].
  cbn [b_base]. intros i b Hi. apply Hb.
  assert (i < n) by (assert (i < length (firstn n bs)) by (apply nth_error_Some; congruence); rewrite firstn_length in *; lia).
  rewrite <- (firstn_skipn n bs), nth_error_app1; [exact Hi|]. rewrite firstn_length. lia.
Qed.

Lemma shows_suffix m base cap bs n : shows m (Bslice base (length bs) cap) bs -> n <= length bs ->
  shows m (Bslice (base + N.of_nat n) (length bs - n) (cap - n)) (skipn n bs).
Proof.
  intros (Hl & Hc & Hb) Hn. cbn [b_len b_cap b_base] in *. split; [cbn [b_len]; rewrite skipn_length; lia|]. split; [cbn [b_len b_cap]; lia|].
  cbn [b_base]. intros i b Hi. replace (base + N.of_nat n + N.of_nat i)%N with (base + N.of_nat (n + i))%N by lia. apply Hb.
  rewrite <- (firstn_skipn n bs), nth_error_app2; rewrite firstn_length; [|lia].
  replace (n + i - Nat.min n (length bs)) with i by lia. exact Hi.
Qed.

Lemma shows_spares m m' s bs : spares s m m' -> shows m s bs -> shows m' s bs.
Proof.
  intros [H _] (Hl & Hc & Hb). split; [exact Hl|]. split; [exact Hc|]. intros i b Hi. rewrite <- (Hb i b Hi). apply H.
  assert (i < length bs) by (apply nth_error_Some; congruence). unfold Memory.within. lia.
Qed.

Lemma intact_spares m m' s : spares s m m' -> tables_intact m -> tables_intact m'.
Proof. intros [_ H] I. unfold tables_intact in *. rewrite H. exact I. Qed.

(* C66. A caller that cuts up data in memory gets the same tokens whatever it
   stores in between in the tokens, or anywhere but in the rest of data. *)
Theorem C66_slice : forall m data bs toks,
  shows m data bs -> tables_intact m -> cuts_up spares_rest m data toks -> tokenises bs toks.
Proof.
  intros m data bs toks Hs Ht H. revert bs Hs Ht. induction H as [m data E|m data tr m1 n token rest m2 toks Hpos Hi Er Hb H IH]; intros bs Hs Ht.
  - destruct Hs as (Hl & _). rewrite E in Hl. destruct bs; [constructor|discriminate].
  - destruct Hs as (Hl & Hc & Hb0). assert (shows m data bs) as Hs by (split; [|split]; assumption).
    assert (bs <> []) as Hne by (intros ->; cbn [length] in Hl; lia).
    destruct (call_runs m data bs tr m1 _ Hs Ht Hne Hi) as (-> & n' & E & Hn & Er').
    assert (n' = n) as -> by congruence.
    assert (token = Bslice (b_base data) n (b_cap data)) as -> by congruence. clear Er'.
    assert (rest = Bslice (b_base data + N.of_nat n) (length bs - n) (b_cap data - n)) as ->.
    { unfold m_slice_from in Er. rewrite Hl in Er. replace (n <=? length bs) with true in Er by lia. congruence. }
    assert (data = Bslice (b_base data) (length bs) (b_cap data)) as Ed by (destruct data as [dbase dlen dcap]; cbn [b_base b_len b_cap] in *; congruence).
    rewrite Ed in Hs.
    rewrite (shows_bytes _ _ _ (shows_prefix _ _ _ _ n Hs ltac:(lia))).
    econstructor; [exact E|]. apply IH.
    + eapply shows_spares; [exact Hb|]. apply shows_suffix; [exact Hs|lia].
    + eapply intact_spares; [exact Hb|exact Ht].
Qed.

Lemma cuts_ends m data bs (w : memory -> bslice -> bslice -> memory) : shows m data bs -> tables_intact m ->
  (forall m token rest, spares rest m (w m token rest)) ->
  exists toks, cuts_up (fun m token rest m' => m' = w m token rest) m data toks.
Proof.
  intros Hs Ht Hw. remember (length bs) as k eqn:Ek. revert m data bs Hs Ht Ek.
  induction k as [k IH] using lt_wf_ind. intros m data bs Hs Ht ->.
  destruct bs as [|b bs'] eqn:Eb; [exists []; constructor; destruct Hs as (-> & _); reflexivity|]. rewrite <- Eb in *.
  assert (bs <> []) as Hne by congruence. clear b bs' Eb.
  destruct (scan_progress bs Hne) as (n & E & Hn). destruct (call_ends m data bs n Hs Ht E) as (tr & Hi).
  pose proof Hs as (Hl & Hc & _).
  assert (data = Bslice (b_base data) (length bs) (b_cap data)) as Ed by (destruct data as [dbase dlen dcap]; cbn [b_base b_len b_cap] in *; congruence).
  set (token := Bslice (b_base data) n (b_cap data)) in *.
  set (rest := Bslice (b_base data + N.of_nat n) (length bs - n) (b_cap data - n)).
  assert (shows m rest (skipn n bs)) as Hs2 by (rewrite Ed in Hs; apply shows_suffix; [exact Hs|lia]).
  destruct (IH (length (skipn n bs)) ltac:(rewrite skipn_length; lia) (w m token rest) rest (skipn n bs)) as (toks & H).
  - eapply shows_spares; [apply Hw|exact Hs2].
  - eapply intact_spares; [apply Hw|exact Ht].
  - reflexivity.
  - eexists. apply (cuts_token (fun m token rest m' => m' = w m token rest) m data tr m n token rest (w m token rest) toks); [lia|exact Hi| |reflexivity|exact H].
    unfold m_slice_from. rewrite Hl. replace (n <=? length bs) with true by lia. reflexivity.
Qed.

Lemma cuts_up_weaken (P Q : memory -> bslice -> bslice -> memory -> Prop) m data toks :
  (forall m token rest m', P m token rest m' -> Q m token rest m') -> cuts_up P m data toks -> cuts_up Q m data toks.
Proof. intros H. induction 1; [constructor; assumption|]. econstructor; eauto. Qed.

(* ... and whatever it decides to store there, it gets to the end *)
Theorem C66_slice_ends : forall m data bs toks (w : memory -> bslice -> bslice -> memory),
  shows m data bs -> tables_intact m -> tokenises bs toks ->
  (forall m token rest, spares rest m (w m token rest)) ->
  cuts_up (fun m token rest m' => m' = w m token rest) m data toks.
Proof.
  intros m data bs toks w Hs Ht Hk Hw. destruct (cuts_ends m data bs w Hs Ht Hw) as (toks' & H).
  rewrite (tokenises_unique bs toks toks' Hk); [exact H|].
  apply (C66_slice m data bs toks' Hs Ht). eapply cuts_up_weaken; [|exact H]. intros a b c d ->. apply Hw.
Qed.

(* The token is not part of the rest, so its bytes may be overwritten. *)
Lemma writes_spare token rest m m' : (b_base token + N.of_nat (b_len token) <= b_base rest)%N -> m_writes token m m' -> spares rest m m'.
Proof.
  intros H. induction 1 as [m|m i b m' Hi K [IH1 IH2]]; [split; reflexivity|].
  split; [|rewrite IH2; reflexivity]. intros a Ha. rewrite (IH1 a Ha). cbn [set_heap m_heap].
  unfold Memory.within in Ha. replace (a =? b_base token + N.of_nat i)%N with false by lia. reflexivity.
Qed.

Theorem C66_slice_writes : forall m data bs toks,
  shows m data bs -> tables_intact m ->
  cuts_up (fun m token rest m' => m_writes token m m') m data toks -> tokenises bs toks.
Proof.
  intros m data bs toks Hs Ht H. apply (C66_slice m data bs toks Hs Ht). clear - Hs Ht H. revert bs Hs Ht.
  induction H as [m data E|m data tr m1 n token rest m2 toks Hpos Hi Er Hb H IH]; intros bs Hs Ht; [constructor; assumption|].
  pose proof Hs as (Hl & Hc & _).
  assert (bs <> []) as Hne by (intros ->; cbn [length] in Hl; lia).
  destruct (call_runs m data bs tr m1 _ Hs Ht Hne Hi) as (-> & n' & E & Hn & Er').
  assert (n' = n) as -> by congruence.
  assert (token = Bslice (b_base data) n (b_cap data)) as -> by congruence. clear Er'.
  assert (rest = Bslice (b_base data + N.of_nat n) (length bs - n) (b_cap data - n)) as ->.
  { unfold m_slice_from in Er. rewrite Hl in Er. replace (n <=? length bs) with true in Er by lia. congruence. }
  assert (data = Bslice (b_base data) (length bs) (b_cap data)) as Ed by (destruct data as [dbase dlen dcap]; cbn [b_base b_len b_cap] in *; congruence).
  assert (spares (Bslice (b_base data + N.of_nat n) (length bs - n) (b_cap data - n)) m m2) as Sp
    by (eapply writes_spare; [|exact Hb]; cbn [b_base b_len]; lia).
  econstructor; [exact Hpos|exact Hi|exact Er|exact Sp|]. apply (IH (skipn n bs)).
  - eapply shows_spares; [exact Sp|]. rewrite Ed in Hs. apply shows_suffix; [exact Hs|lia].
  - eapply intact_spares; [exact Sp|exact Ht].
Qed.

(* Appending to a token overwrites the rest: "ab" comes out as "a", "x". *)
Definition ab_memory : memory :=
  Memory (fun a => if (a =? 100)%N then x61 else x62)
         (fun t i => match t with Indices => aget_raw (t_indices committed) i | Props => aget_raw (t_props committed) i end).

Theorem C66_slice_append_refuted : exists m data bs toks,
  shows m data bs /\ tables_intact m /\
  cuts_up (fun m token rest m' => m' = m_append m token x78) m data toks /\
  bs = [x61; x62] /\ toks = [[x61]; [x78]].
Proof.
  exists ab_memory, (Bslice 100 2 2), [x61; x62], [[x61]; [x78]].
  assert (shows ab_memory (Bslice 100 2 2) [x61; x62]) as Hs.
  { split; [reflexivity|]. split; [cbn; lia|]. intros [|[|[|i]]] b H; cbn [nth_error] in H; try discriminate; injection H as <-; reflexivity. }
  assert (tables_intact ab_memory) as Ht by (split; reflexivity).
  split; [exact Hs|]. split; [exact Ht|]. split; [|split; reflexivity].
  set (m2 := m_append ab_memory (Bslice 100 1 2) x78).
  assert (shows m2 (Bslice 101 1 1) [x78]) as Hs2.
  { split; [reflexivity|]. split; [cbn; lia|]. intros [|[|i]] b H; cbn [nth_error] in H; try discriminate. injection H as <-. reflexivity. }
  assert (tables_intact m2) as Ht2 by (split; reflexivity).
  destruct (call_ends _ _ _ 1 Hs Ht ltac:(vm_compute; reflexivity)) as (tr & Hi).
  destruct (call_ends _ _ _ 1 Hs2 Ht2 ltac:(vm_compute; reflexivity)) as (tr2 & Hi2).
  apply (cuts_token _ ab_memory _ tr ab_memory 1 (Bslice 100 1 2) (Bslice 101 1 1) m2 [[x78]]); [cbn; lia|exact Hi|reflexivity|reflexivity|].
  apply (cuts_token _ m2 _ tr2 m2 1 (Bslice 101 1 1) (Bslice 102 0 0) m2 []); [cbn; lia|exact Hi2|reflexivity|reflexivity|].
  constructor. reflexivity.
Qed.

(* "ab" cut up by a caller that turns every token's first byte into "x" *)
Example C66_slice_applies :
  cuts_up (fun m token rest m' => m' = if (b_base token =? 100)%N then set_heap m 100 x78 else m) ab_memory (Bslice 100 2 2) [[x61]; [x62]].
Proof.
  assert (shows ab_memory (Bslice 100 2 2) [x61; x62]) as Hs.
  { split; [reflexivity|]. split; [cbn; lia|]. intros [|[|[|i]]] b H; cbn [nth_error] in H; try discriminate; injection H as <-; reflexivity. }
  assert (tables_intact ab_memory) as Ht by (split; reflexivity).
  set (m2 := set_heap ab_memory 100 x78).
  assert (shows m2 (Bslice 101 1 1) [x62]) as Hs2.
  { split; [reflexivity|]. split; [cbn; lia|]. intros [|[|i]] b H; cbn [nth_error] in H; try discriminate. injection H as <-. reflexivity. }
  assert (tables_intact m2) as Ht2 by (split; reflexivity).
  destruct (call_ends _ _ _ 1 Hs Ht ltac:(vm_compute; reflexivity)) as (tr & Hi).
  destruct (call_ends _ _ _ 1 Hs2 Ht2 ltac:(vm_compute; reflexivity)) as (tr2 & Hi2).
  apply (cuts_token _ ab_memory _ tr ab_memory 1 (Bslice 100 1 2) (Bslice 101 1 1) m2 [[x62]]); [cbn; lia|exact Hi|reflexivity|reflexivity|].
  apply (cuts_token _ m2 _ tr2 m2 1 (Bslice 101 1 1) (Bslice 102 0 0) m2 []); [cbn; lia|exact Hi2|reflexivity|reflexivity|].
  constructor. reflexivity.
Qed.

Definition all_theorems := (C66_scanner, C66_scanner_ends, C66_scanner_small, C66_scanner_earlier_refuted, C66_scanner_append_refuted,
  C66_scanner_applies, C66_scanner_small_applies, C66_slice, C66_slice_ends, C66_slice_writes, C66_slice_append_refuted, C66_slice_applies).
Print Assumptions all_theorems.
