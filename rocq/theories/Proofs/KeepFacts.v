(* When all the input fits the first half of the buffer of a bufio.Scanner, the
   tokens it hands out stay as they are: nothing is moved, and reads only write
   beyond them. *)
From Coq Require Import List NArith ZArith Arith Bool Lia ZifyBool ZifyNat ZifyN Strings.Byte.
From Verif Require Import Spec.Readers.
From Verif Require Import Model.Base Model.Scan Model.Bufio.
From Verif Require Import Proofs.Basics Proofs.BufioFacts.
Import ListNotations.
Ltac Zify.zify_post_hook ::= Z.div_mod_to_equations.

(* s' shows what s has read, in the same buffer *)
Definition keeps (s s' : scanner) : Prop :=
  s_old s' = s_old s /\ length (s_buf s') = length (s_buf s) /\ s_max s' = s_max s /\
  firstn (s_end s) (s_buf s') = firstn (s_end s) (s_buf s).

Lemma fill_keeps {R} (rd : reader R) : forall left m r s input e, m <= left ->
  inv s -> s_err s = None -> s_end s < length (s_buf s) -> delivers rd m r input e ->
  exists r' s' rest, fill rd left r s = (r', s') /\ inv s' /\ keeps s s' /\
    s_end s' + length rest = s_end s + length input /\ s_start s' = s_start s /\ s_end s <= s_end s' /\
    ((s_err s' = None /\ delivers rd 100 r' rest e) \/ (s_err s' = Some e /\ rest = [])).
Proof.
  induction left as [|left IH]; intros m r s input e Hm H He Hroom Hd.
  all: inversion Hd as [m' r0 input' e' Hk E1 E2 E3 E4]; subst; clear Hd.
  all: specialize (Hk (length (s_buf s) - s_end s) ltac:(lia)).
  all: pose proof H as Hinv; unfold inv in H.
  all: inversion Hk as [m1 r1 sp in1 e1 r' scratch Er Hlen|m1 r1 sp chunk rest e1 r' scratch Er Hne Hlen Hd|m1 r1 sp in1 e1 r' scratch Er Hd]; subst; clear Hk.
  all: cbn [fill]; rewrite Er; cbn [r_n r_p r_err].
  1,4: replace ((Z.of_nat (length input) <? 0) || (Z.of_nat (length (s_buf s) - s_end s) <? Z.of_nat (length input)))%Z with false by lia;
    rewrite Nat2Z.id; rewrite setErr_none by (cbn [s_err]; exact He); cbn [s_start s_end s_buf s_old s_err s_max s_empties];
    eexists; eexists; exists []; split; [reflexivity|];
    split; [unfold inv; cbn [s_start s_end s_buf]; rewrite overwrite_length by lia; lia|];
    split; [unfold keeps; cbn [s_old s_buf s_max s_end]; rewrite overwrite_length, overwrite_before by lia; auto|];
    cbn [s_start s_end s_buf s_err length]; split; [lia|]; split; [reflexivity|]; split; [lia|right; auto].
  1,3: replace ((Z.of_nat (length chunk) <? 0) || (Z.of_nat (length (s_buf s) - s_end s) <? Z.of_nat (length chunk)))%Z with false by lia;
    rewrite Nat2Z.id; replace (0 <? length chunk) with true by (destruct chunk; [congruence|reflexivity]);
    eexists; eexists; exists rest; split; [reflexivity|];
    split; [unfold inv; cbn [s_start s_end s_buf]; rewrite overwrite_length by lia; lia|];
    split; [unfold keeps; cbn [s_old s_buf s_max s_end]; rewrite overwrite_length, overwrite_before by lia; auto|];
    cbn [s_start s_end s_buf s_err length]; rewrite app_length; split; [lia|]; split; [reflexivity|]; split; [lia|left; auto].
  - lia.
  - change ((0 <? 0) || (Z.of_nat (length (s_buf s) - s_end s) <? 0))%Z with ((Z.of_nat (length (s_buf s) - s_end s) <? 0)%Z).
    replace (Z.of_nat (length (s_buf s) - s_end s) <? 0)%Z with false by lia.
    change (Z.to_nat 0) with 0. cbn [Nat.ltb Nat.leb].
    destruct (IH m1 r' (Scanner (s_old s) (overwrite (s_buf s) (s_end s) scratch) (s_start s) (s_end s + 0) (s_err s) (s_empties s) (s_max s)) input e)
      as (r2 & s2 & rest & E2 & I2 & (K1 & K2 & K3 & K4) & D2 & S2 & N2 & O2); auto; try lia.
    { unfold inv; cbn [s_start s_end s_buf]; rewrite overwrite_length by lia; lia. }
    { cbn [s_end s_buf]. rewrite overwrite_length by lia. lia. }
    cbn [s_start s_end s_buf s_old s_max] in *. rewrite overwrite_length in K2 by lia. rewrite Nat.add_0_r in *.
    rewrite overwrite_before in K4 by lia.
    exists r2, s2, rest. unfold keeps. auto 12.
Qed.

(* The input still to come fits the first half of the buffer. *)
Definition roomy {R} (rd : reader R) (r : R) (s : scanner) (e : goerror) : Prop :=
  inv s /\ 0 < length (s_buf s) /\
  ((s_err s = None /\ exists input, delivers rd 100 r input e /\ s_end s + length input <= length (s_buf s) / 2) \/
   (s_err s = Some e /\ s_end s <= length (s_buf s) / 2)).

Lemma keeps_refl s : keeps s s.
Proof. unfold keeps. auto. Qed.

Lemma keeps_trans s1 s2 s3 : keeps s1 s2 -> keeps s2 s3 -> s_end s1 <= s_end s2 -> keeps s1 s3.
Proof.
  unfold keeps. intros (A1 & B1 & C1 & D1) (A2 & B2 & C2 & D2) L. repeat split; try congruence.
  rewrite <- D1. apply (f_equal (firstn (s_end s1))) in D2. rewrite !firstn_firstn in D2.
  replace (Nat.min (s_end s1) (s_end s2)) with (s_end s1) in D2 by lia. exact D2.
Qed.

(* The scanner has delivered everything. *)
Definition stopped (s : scanner) : Prop := s_err s <> None /\ s_start s = 0 /\ s_end s = 0.

Lemma more_keeps {R} (rd : reader R) r s e : roomy rd r s e ->
  exists r' s' again, more rd r s = Ret (r', s', again) /\ keeps s s' /\
    (again = true -> roomy rd r' s' e /\ s_end s <= s_end s') /\ (again = false -> stopped s').
Proof.
  intros (I & P & [(He & input & Hd & Hr)|(He & Hr)]); unfold more; rewrite He.
  - pose proof I as I'. unfold inv in I'.
    assert (s_end s < length (s_buf s)) as Hroom by lia.
    assert (shift s = Ret s) as ->.
    { unfold shift. replace (s_end s =? length (s_buf s)) with false by lia.
      replace (length (s_buf s) / 2 <? s_start s) with false by lia. rewrite andb_false_r. reflexivity. }
    cbn [bind]. assert (resize s = Ret (Some s)) as ->.
    { unfold resize. replace (s_end s =? length (s_buf s)) with false by lia. reflexivity. }
    cbn [bind].
    destruct (fill_keeps rd maxConsecutiveEmptyReads 100 r s input e (le_n _) I He Hroom Hd)
      as (r' & s' & rest & E & I2 & K & L & _ & N & O). rewrite E. exists r', s', true. split; [reflexivity|]. split; [exact K|].
    split; [|discriminate].
    intros _. split; [|exact N]. destruct K as (K1 & K2 & K3 & K4). split; [exact I2|]. split; [lia|].
    destruct O as [[O1 O2]|[O1 ->]]; [left|right].
    + split; [exact O1|]. exists rest. split; [exact O2|lia].
    + split; [exact O1|]. cbn [length] in L. lia.
  - eexists; eexists; exists false. split; [reflexivity|]. split; [unfold keeps; cbn; auto|].
    split; [discriminate|]. intros _. unfold stopped. cbn [s_err s_start s_end]. split; [discriminate|auto].
Qed.

(* The slice is what s has read. *)
Definition within (s : scanner) (sl : slice) : Prop :=
  sl_buf sl = length (s_old s) /\ sl_off sl + sl_len sl <= s_end s.

Lemma keeps_bytes s s' sl : keeps s s' -> within s sl -> bytes_of s' sl = bytes_of s sl.
Proof.
  intros (K1 & K2 & K3 & K4) (W1 & W2). unfold bytes_of. rewrite W1, K1.
  rewrite !app_nth2, !Nat.sub_diag by lia. cbn [nth].
  apply (f_equal (skipn (sl_off sl))) in K4. rewrite !skipn_firstn_sub in K4.
  apply (f_equal (firstn (sl_len sl))) in K4. rewrite !firstn_firstn in K4.
  replace (Nat.min (sl_len sl) (s_end s - sl_off sl)) with (sl_len sl) in K4 by lia. exact K4.
Qed.

Lemma within_keeps s s' sl : keeps s s' -> s_end s <= s_end s' -> within s sl -> within s' sl.
Proof. intros (K1 & _) L (W1 & W2). split; [congruence|lia]. Qed.

Definition token_kept {R} (rd : reader R) (r' : R) (s' : scanner) (e : goerror) (o : option slice) : Prop :=
  match o with Some sl => roomy rd r' s' e /\ within s' sl | None => stopped s' end.

Lemma loop_keeps_any {R} f (rd : reader R) e : good_split f -> forall fuel r s r' s' o, roomy rd r s e ->
  scan_loop_bufio f rd fuel r s = Ret (r', s', o) ->
  keeps s s' /\ (o <> None -> s_end s <= s_end s') /\ token_kept rd r' s' e o.
Proof.
  intros G. induction fuel as [|fuel IH]; intros r s r' s' o Q E; [discriminate|].
  assert (Hgo : (let! (r', s', again) := more rd r s in
      if again then scan_loop_bufio f rd fuel r' s' else Ret (r', s', None)) = Ret (r', s', o) ->
    keeps s s' /\ (o <> None -> s_end s <= s_end s') /\ token_kept rd r' s' e o).
  { intros E1. destruct (more_keeps rd r s e Q) as (r1 & s1 & again & E2 & K & N & T). rewrite E2 in E1. cbn [bind] in E1.
    destruct again.
    - destruct (N eq_refl) as [Q1 L1]. destruct (IH _ _ _ _ _ Q1 E1) as (K1 & L2 & T').
      split; [eapply keeps_trans; eassumption|]. split; [|exact T']. intros Ho. specialize (L2 Ho). lia.
    - injection E1 as <- <- <-. split; [exact K|]. split; [congruence|exact (T eq_refl)]. }
  destruct Q as (I & P & Q). pose proof I as I'. unfold inv in I'.
  destruct ((s_start s <? s_end s) || match s_err s with None => false | Some _ => true end) eqn:Ec.
  - destruct (iter_split f rd fuel r s G I Ec) as [(n & t & Ef & Hn & E1 & _)|(Ef & s1 & E1 & ->)].
    + rewrite E1 in E. injection E as <- <- <-. rewrite data_length in Hn by exact I.
      split; [unfold keeps, advanced; cbn; auto|]. split; [intros _; cbn; lia|].
      split.
      * split; [unfold inv, advanced; cbn; lia|]. split; [exact P|]. exact Q.
      * split; [reflexivity|]. cbn [sl_off sl_len advanced s_end].
        destruct (gs_shape f G (data s) (match s_err s with None => false | Some _ => true end)) as [K|(n' & t' & K & Hn' & Ht & _)];
          [rewrite Ef in K; discriminate|]. rewrite Ef in K. injection K as <- <-. rewrite data_length in Hn' by exact I. lia.
    + rewrite E1 in E. auto.
  - apply Hgo. rewrite <- E. symmetry. apply orb_false_iff in Ec. destruct Ec as [Ec1 Ec2].
    apply iter_none; [destruct (s_err s); [discriminate|reflexivity]|]. lia.
Qed.

Lemma collects_keeps_any {R} f (rd : reader R) e : good_split f -> forall r s sls r' s', roomy rd r s e ->
  collects f rd r s sls r' s' -> keeps s s' /\ scans f rd r s (map (bytes_of s') sls) r' s'.
Proof.
  intros G r s sls r' s' Q H. revert Q.
  induction H as [r s r' s' E|r s ra sa sl sls r' s' E H IH]; intros Q;
    destruct (loop_keeps_any f rd e G _ _ _ _ _ _ Q E) as (K & L & T).
  - split; [exact K|]. constructor. exact E.
  - destruct T as [Q1 W]. destruct (IH Q1) as [K1 S1]. specialize (L ltac:(discriminate)).
    split; [eapply keeps_trans; eassumption|]. cbn [map]. rewrite (keeps_bytes sa s' sl K1 W). econstructor; eassumption.
Qed.

(* a scanner that has stopped does not change any more *)
Lemma stopped_scan {R} f (rd : reader R) r s : good_split f -> stopped s -> Scan f rd r s = Ret (r, s, None).
Proof.
  intros G (E & S0 & N0). assert (exists fuel, Scan f rd r s = scan_loop_bufio f rd (S fuel) r s) as [fuel ->] by (eexists; reflexivity).
  cbn [scan_loop_bufio]. destruct s as [old buf start end_ err empties max]. cbn [s_start s_end s_err] in *. subst.
  destruct err as [err|]; [|congruence]. rewrite orb_true_r. unfold held. cbn [s_buf s_end s_start].
  cbn [slice_to slice_from bind firstn skipn length Nat.leb].
  rewrite slice_to_ok by lia. cbn [bind firstn]. rewrite slice_from_ok by lia. cbn [bind skipn].
  rewrite (gs_empty f G). cbn [bind]. reflexivity.
Qed.

(* ---- a scanner without a buffer: the first read allocates one *)

Definition bare (s : scanner) : Prop :=
  s_buf s = [] /\ s_start s = 0 /\ s_end s = 0 /\ s_err s = None.

Definition allocated (s : scanner) : scanner :=
  Scanner (s_old s ++ [[]]) (repeat x00 (Nat.min startBufSize (s_max s))) 0 0 None (s_empties s) (s_max s).

Lemma more_bare {R} (rd : reader R) r s : bare s -> 0 < s_max s -> more rd r s = more rd r (allocated s).
Proof.
  intros (B & S & E & N) M. unfold more. rewrite N. change (s_err (allocated s)) with (@None goerror). cbv iota.
  assert (0 < startBufSize) as P by (apply Nat.ltb_lt; vm_compute; reflexivity).
  assert (shift s = Ret s) as -> by (unfold shift; rewrite S; reflexivity). cbn [bind].
  assert (resize s = Ret (Some (allocated s))) as ->.
  { unfold resize. rewrite B, E, N. cbn [length]. change (0 =? 0) with true. change (0 * 2) with 0.
    replace (s_max s <=? 0) with false by lia. change ((half_maxInt <? N.of_nat 0)%N) with false. cbn [orb].
    change (0 =? 0) with true. cbv iota. unfold held. rewrite B, E, S. cbn [slice_to slice_from bind].
    cbn [length Nat.leb bind slice_to slice_from firstn skipn]. unfold allocated.
    rewrite overwrite_nil by lia. reflexivity. }
  cbn [bind].
  assert (shift (allocated s) = Ret (allocated s)) as -> by reflexivity. cbn [bind].
  assert (resize (allocated s) = Ret (Some (allocated s))) as ->.
  { unfold resize. cbn [allocated s_end s_buf]. rewrite repeat_length.
    replace (0 =? Nat.min startBufSize (s_max s)) with false by lia. reflexivity. }
  cbn [bind]. reflexivity.
Qed.

Lemma loop_bare {R} f (rd : reader R) r s fuel : bare s -> 0 < s_max s ->
  scan_loop_bufio f rd (S fuel) r s = scan_loop_bufio f rd (S fuel) r (allocated s).
Proof.
  intros B M. rewrite (iter_none f rd fuel r s); [|apply B|destruct B as (_ & -> & -> & _); reflexivity].
  rewrite (iter_none f rd fuel r (allocated s)) by reflexivity. rewrite more_bare by assumption. reflexivity.
Qed.

Lemma allocated_roomy {R} (rd : reader R) r s e input : 0 < s_max s -> delivers rd 100 r input e ->
  length input <= Nat.min startBufSize (s_max s) / 2 -> roomy rd r (allocated s) e.
Proof.
  intros M Hd L. assert (0 < startBufSize) as P by (apply Nat.ltb_lt; vm_compute; reflexivity).
  unfold roomy, inv. cbn [allocated s_start s_end s_buf s_err]. rewrite repeat_length.
  split; [lia|]. split; [lia|]. left. split; [reflexivity|]. exists input. split; [exact Hd|]. exact L.
Qed.

Lemma bare_collects {R} f (rd : reader R) e r s input sls r' s' : good_split f -> bare s -> 0 < s_max s ->
  delivers rd 100 r input e -> length input <= Nat.min startBufSize (s_max s) / 2 ->
  collects f rd r s sls r' s' -> scans f rd r s (map (bytes_of s') sls) r' s'.
Proof.
  intros G B M Hd L H. pose proof (allocated_roomy rd r s e input M Hd L) as Q.
  inversion H as [r1 s1 r2 s2 E E1 E2|r1 s1 ra sa sl sls' r2 s2 E Hc E1 E2]; subst; [constructor; exact E|].
  pose proof E as E'. assert (exists fuel, Scan f rd r s = scan_loop_bufio f rd (S fuel) r s) as [fuel Ef] by (eexists; reflexivity).
  rewrite Ef, loop_bare in E' by assumption.
  destruct (loop_keeps_any f rd e G _ _ _ _ _ _ Q E') as (_ & _ & Q1 & W).
  destruct (collects_keeps_any f rd e G _ _ _ _ _ Q1 Hc) as [K S]. cbn [map].
  rewrite (keeps_bytes sa s' sl K W). econstructor; eassumption.
Qed.
