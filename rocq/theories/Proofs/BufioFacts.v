(* bufio.Scanner with a well-behaved split function. *)
From Coq Require Import List NArith ZArith Arith Bool Lia Strings.Byte.
From Coq Require Import ZifyBool ZifyNat ZifyN.
From Verif Require Import Model.Base Model.Scan Model.Bufio Spec.Readers.
From Verif Require Import Proofs.Basics.
Import ListNotations.

(* ---- lists *)

Lemma skipn_firstn_sub {A} (l : list A) a b : skipn a (firstn b l) = firstn (b - a) (skipn a l).
Proof. revert a b; induction l as [|x l IH]; intros [|a] [|b]; simpl; auto. destruct (b - a); reflexivity. Qed.

Lemma firstn_add {A} (l : list A) a b : firstn (a + b) l = firstn a l ++ firstn b (skipn a l).
Proof. revert l; induction a as [|a IH]; intros [|x l]; simpl; auto.
  - destruct b; reflexivity.
  - rewrite IH. reflexivity. Qed.

Lemma skipn_add {A} (l : list A) a b : skipn (a + b) l = skipn b (skipn a l).
Proof. revert l; induction a as [|a IH]; intros [|x l]; simpl; auto. destruct b; reflexivity. Qed.

(* ---- the state *)

Definition inv (s : scanner) : Prop := s_start s <= s_end s <= length (s_buf s).
Definition data (s : scanner) : list byte := firstn (s_end s - s_start s) (skipn (s_start s) (s_buf s)).
Definition limit (s : scanner) : nat := Nat.max (length (s_buf s)) (s_max s).

Lemma data_length s : inv s -> length (data s) = s_end s - s_start s.
Proof. intros H. unfold data, inv in *. rewrite firstn_length, skipn_length. lia. Qed.

Lemma held_ok s : inv s -> held s = Ret (data s).
Proof.
  intros H. unfold held, inv in *. rewrite slice_to_ok by lia. cbn [bind].
  rewrite slice_from_ok by (rewrite firstn_length; lia). rewrite skipn_firstn_sub. reflexivity.
Qed.

Lemma overwrite_length dst pos src : pos <= length dst -> length (overwrite dst pos src) = length dst.
Proof.
  intros H. unfold overwrite. rewrite !app_length, skipn_length, !firstn_length.
  lia.
Qed.

Lemma overwrite_before dst pos src n : pos <= length dst -> n <= pos ->
  firstn n (overwrite dst pos src) = firstn n dst.
Proof.
  intros H Hn. unfold overwrite. rewrite firstn_app, firstn_length.
  replace (n - Nat.min pos (length dst)) with 0 by lia. rewrite firstn_O, app_nil_r, firstn_firstn.
  f_equal. lia.
Qed.

Lemma overwrite_at dst pos src n : pos + n <= length dst -> n <= length src ->
  firstn n (skipn pos (overwrite dst pos src)) = firstn n src.
Proof.
  intros H Hn. unfold overwrite.
  rewrite skipn_app, firstn_length. replace (pos - Nat.min pos (length dst)) with 0 by lia.
  rewrite skipn_all2 by (rewrite firstn_length; lia). cbn [app skipn].
  rewrite firstn_app, firstn_firstn, firstn_length.
  replace (n - Nat.min (length dst - pos) (length src)) with 0 by lia.
  rewrite firstn_O, app_nil_r. f_equal. lia.
Qed.

(* replacing the buffer by one that agrees up to end, and moving end *)
Lemma data_extend old buf buf' st en n er em mx :
  st <= en -> en + n <= length buf' -> firstn en buf' = firstn en buf ->
  data (Scanner old buf' st (en + n) er em mx) =
  data (Scanner old buf st en er em mx) ++ firstn n (skipn en buf').
Proof.
  intros H1 H2 E. unfold data. cbn [s_start s_end s_buf].
  replace (en + n - st) with ((en - st) + n) by lia. rewrite firstn_add. f_equal.
  - rewrite <- !skipn_firstn_sub. rewrite E. reflexivity.
  - rewrite <- skipn_add. do 2 f_equal. lia.
Qed.

(* ---- making room *)

Lemma shift_ok s : inv s -> exists s1, shift s = Ret s1 /\ inv s1 /\ data s1 = data s /\
  length (s_buf s1) = length (s_buf s) /\ s_old s1 = s_old s /\ s_err s1 = s_err s /\
  s_max s1 = s_max s /\ (s_end s1 = length (s_buf s1) -> s_start s1 = 0) /\
  (data s = [] \/ s_start s = 0 \/ (s_end s <> length (s_buf s) /\ s_start s <= length (s_buf s) / 2) ->
   s_buf s1 = s_buf s).
Proof.
  intros H. unfold shift.
  destruct ((0 <? s_start s) && ((s_end s =? length (s_buf s)) || (length (s_buf s) / 2 <? s_start s))) eqn:E.
  - rewrite held_ok by exact H. cbn [bind]. eexists. split; [reflexivity|].
    pose proof (data_length s H) as Hl. unfold inv in *. cbn [s_start s_end s_buf s_old s_err s_max].
    rewrite overwrite_length by lia.
    split; [lia|]. split; [|split; [reflexivity|split; [reflexivity|split; [reflexivity|split; [reflexivity|split; [lia|]]]]]].
    + unfold data at 1. cbn [s_start s_end s_buf]. rewrite Nat.sub_0_r. rewrite skipn_O.
      rewrite <- Hl. change (overwrite (s_buf s) 0 (data s)) with (skipn 0 (overwrite (s_buf s) 0 (data s))).
      rewrite overwrite_at by lia. apply firstn_all.
    + intros [Hd|[Hd|[H1 H2]]]; [|lia|lia]. rewrite Hd. unfold overwrite. rewrite firstn_nil. reflexivity.
  - eexists. split; [reflexivity|]. unfold inv in *. repeat split; try lia; try reflexivity.
Qed.

Lemma resize_ok s : inv s -> (s_end s = length (s_buf s) -> s_start s = 0) ->
  (resize s = Ret None /\ length (data s) = length (s_buf s) /\
     (s_max s <= length (s_buf s) \/ (half_maxInt < N.of_nat (length (s_buf s)))%N)) \/
  (exists s2, resize s = Ret (Some s2) /\ inv s2 /\ data s2 = data s /\
     s_end s2 < length (s_buf s2) /\ limit s2 = limit s /\ s_max s2 = s_max s /\
     s_err s2 = s_err s /\
     (s_end s < length (s_buf s) -> s2 = s)).
Proof.
  intros H Hfull. pose proof (data_length s H) as Hl. unfold resize.
  destruct (Nat.eqb_spec (s_end s) (length (s_buf s))) as [E|E].
  - specialize (Hfull E).
    destruct ((s_max s <=? length (s_buf s)) || (half_maxInt <? N.of_nat (length (s_buf s)))%N) eqn:C.
    + left. split; [reflexivity|]. split; [lia|].
      apply orb_true_iff in C. destruct C as [C|C]; [left; lia|right; lia].
    + right. apply orb_false_iff in C. destruct C as [C _]. apply Nat.leb_gt in C.
      rewrite held_ok by exact H. cbn [bind]. eexists. split; [reflexivity|].
      set (newSize := if length (s_buf s) * 2 =? 0 then startBufSize else length (s_buf s) * 2).
      assert (length (s_buf s) < newSize) as Hn.
      { unfold newSize, startBufSize. destruct (Nat.eqb_spec (length (s_buf s) * 2) 0); lia. }
      clearbody newSize. unfold inv, limit in *. cbn [s_start s_end s_buf s_old s_err s_max].
      rewrite overwrite_length by (rewrite repeat_length; lia). rewrite repeat_length.
      split; [lia|]. split; [|split; [lia|split; [lia|split; [reflexivity|split; [reflexivity|lia]]]]].
      unfold data at 1. cbn [s_start s_end s_buf]. rewrite Nat.sub_0_r, skipn_O.
      rewrite <- Hl.
      change (overwrite (repeat x00 (Nat.min newSize (s_max s))) 0 (data s))
        with (skipn 0 (overwrite (repeat x00 (Nat.min newSize (s_max s))) 0 (data s))).
      rewrite overwrite_at by (rewrite ?repeat_length; lia). apply firstn_all.
  - right. exists s. unfold inv in *. repeat split; try lia; auto.
Qed.

(* ---- reading *)

Definition from_reader {R} (rd : reader R) (e : goerror) : Prop :=
  exists r k, r_err (snd (rd r k)) = Some e.

Lemma setErr_none s e : s_err s = None ->
  setErr s e = Scanner (s_old s) (s_buf s) (s_start s) (s_end s) (Some e) (s_empties s) (s_max s).
Proof. intros H. unfold setErr. rewrite H. reflexivity. Qed.

Lemma fill_data {R} (rd : reader R) left r s r' n bs : rd r (length (s_buf s) - s_end s) = (r', Reply (Z.of_nat n) bs None) ->
  0 < n <= length (s_buf s) - s_end s ->
  fill rd left r s = (r', Scanner (s_old s) (overwrite (s_buf s) (s_end s) bs) (s_start s) (s_end s + n) (s_err s) 0 (s_max s)).
Proof.
  intros E Hn. destruct left; cbn [fill]; rewrite E; cbn [r_n r_p r_err];
    replace ((Z.of_nat n <? 0) || (Z.of_nat (length (s_buf s) - s_end s) <? Z.of_nat n))%Z with false by lia;
    rewrite Nat2Z.id; replace (0 <? n) with true by lia; reflexivity.
Qed.

Lemma fill_eof {R} (rd : reader R) left r s r' : rd r (length (s_buf s) - s_end s) = (r', Reply 0 [] (Some EOF)) ->
  inv s -> s_err s = None ->
  fill rd left r s = (r', Scanner (s_old s) (s_buf s) (s_start s) (s_end s) (Some EOF) (s_empties s) (s_max s)).
Proof.
  intros E Hi He. assert (overwrite (s_buf s) (s_end s) [] = s_buf s) as Ho.
  { unfold overwrite. rewrite firstn_nil. cbn [app length]. rewrite Nat.add_0_r. apply firstn_skipn. }
  destruct left; cbn [fill]; rewrite E; cbn [r_n r_p r_err]; rewrite Ho;
    replace ((0 <? 0) || (Z.of_nat (length (s_buf s) - s_end s) <? 0))%Z with false by lia;
    change (Z.to_nat 0) with 0; rewrite Nat.add_0_r, He; reflexivity.
Qed.

(* any reader *)
Lemma fill_any {R} (rd : reader R) : forall left r s, inv s -> s_err s = None ->
  exists r' s' chunk, fill rd left r s = (r', s') /\ inv s' /\ data s' = data s ++ chunk /\
    limit s' = limit s /\ s_max s' = s_max s /\
    ((s_err s' = None /\ chunk <> []) \/
     (exists e, s_err s' = Some e /\ (e = ErrBadReadCount \/ e = ErrNoProgress \/ from_reader rd e))).
Proof.
  induction left as [|left IH]; intros r s H He; cbn [fill]; destruct (rd r (length (s_buf s) - s_end s)) as [r' rep] eqn:Er.
  all: pose proof H as Hinv; unfold inv in H.
  all: destruct ((r_n rep <? 0) || (Z.of_nat (length (s_buf s) - s_end s) <? r_n rep))%Z eqn:Ebad.
  1,3: eexists; eexists; exists []; split; [reflexivity|];
    rewrite setErr_none by (cbn [s_err]; exact He); unfold inv, limit; cbn [s_start s_end s_buf s_old s_err s_max];
    rewrite overwrite_length by lia; (split; [lia|]); (split; [|split; [lia|split; [reflexivity|right; eauto]]]);
    rewrite app_nil_r; unfold data; cbn [s_start s_end s_buf];
    rewrite <- !skipn_firstn_sub, overwrite_before by lia; reflexivity.
  all: assert (Hn : s_end s + Z.to_nat (r_n rep) <= length (s_buf s)) by lia.
  all: set (n := Z.to_nat (r_n rep)) in *; clearbody n.
  all: assert (Hdata : forall er em, data (Scanner (s_old s) (overwrite (s_buf s) (s_end s) (r_p rep)) (s_start s)
             (s_end s + n) er em (s_max s)) = data s ++ firstn n (skipn (s_end s) (overwrite (s_buf s) (s_end s) (r_p rep))))
    by (intros er em; rewrite (data_extend _ (s_buf s));
        [reflexivity|lia|rewrite overwrite_length by lia; lia|apply overwrite_before; lia]).
  all: destruct (r_err rep) as [e|] eqn:Ee.
  1,3: eexists; eexists; eexists; split; [reflexivity|]; rewrite setErr_none by (cbn [s_err]; exact He);
    cbn [s_start s_end s_buf s_old s_err s_max s_empties]; split; [unfold inv; cbn [s_start s_end s_buf]; rewrite overwrite_length by lia; lia|];
    split; [apply Hdata|]; unfold limit; cbn [s_buf s_max s_err]; rewrite overwrite_length by lia;
    split; [reflexivity|]; split; [reflexivity|]; right; exists e; split; [reflexivity|];
    right; right; exists r, (length (s_buf s) - s_end s); rewrite Er; exact Ee.
  all: destruct (Nat.ltb_spec 0 n) as [Hpos|Hzero].
  1,3: eexists; eexists; eexists; split; [reflexivity|]; split; [unfold inv; cbn [s_start s_end s_buf]; rewrite overwrite_length by lia; lia|];
    split; [apply Hdata|]; unfold limit; cbn [s_buf s_max s_err]; rewrite overwrite_length by lia;
    split; [reflexivity|]; split; [reflexivity|]; left; split; [exact He|];
    intros K; apply (f_equal (@length _)) in K; rewrite firstn_length, skipn_length, overwrite_length in K by lia; simpl in K; lia.
  - eexists; eexists; exists []; split; [reflexivity|]. rewrite setErr_none by (cbn [s_err]; exact He).
    cbn [s_start s_end s_buf s_old s_err s_max s_empties].
    assert (n = 0) by lia. subst n. split; [unfold inv; cbn [s_start s_end s_buf]; rewrite overwrite_length by lia; lia|].
    split; [rewrite Hdata; reflexivity|].
    unfold limit; cbn [s_buf s_max s_err]; rewrite overwrite_length by lia.
    split; [reflexivity|]. split; [reflexivity|]. right. eauto.
  - assert (n = 0) by lia. subst n.
    destruct (IH r' (Scanner (s_old s) (overwrite (s_buf s) (s_end s) (r_p rep)) (s_start s) (s_end s + 0) (s_err s) (s_empties s) (s_max s)))
      as (r2 & s2 & chunk & E2 & I2 & D2 & L2 & M2 & O2).
    { unfold inv; cbn [s_start s_end s_buf]; rewrite overwrite_length by lia; lia. }
    { exact He. }
    exists r2, s2, chunk. split; [exact E2|]. split; [exact I2|].
    rewrite D2, Hdata. simpl firstn. rewrite app_nil_r. split; [reflexivity|].
    rewrite L2, M2. unfold limit. cbn [s_buf s_max]. rewrite overwrite_length by lia. auto.
Qed.

(* a reader that delivers *)
Lemma fill_delivers {R} (rd : reader R) : forall left m r s input e, m <= left ->
  inv s -> s_err s = None -> s_end s < length (s_buf s) -> delivers rd m r input e ->
  exists r' s' chunk rest, fill rd left r s = (r', s') /\ inv s' /\ data s' = data s ++ chunk /\
    limit s' = limit s /\ s_max s' = s_max s /\ input = chunk ++ rest /\
    ((s_err s' = None /\ chunk <> [] /\ delivers rd 100 r' rest e) \/
     (s_err s' = Some e /\ rest = [])).
Proof.
  induction left as [|left IH]; intros m r s input e Hm H He Hroom Hd.
  all: inversion Hd as [m' r0 input' e' Hk E1 E2 E3 E4]; subst; clear Hd.
  all: specialize (Hk (length (s_buf s) - s_end s) ltac:(lia)).
  all: pose proof H as Hinv; unfold inv in H.
  all: inversion Hk as [m1 r1 sp in1 e1 r' scratch Er Hlen|m1 r1 sp chunk rest e1 r' scratch Er Hne Hlen Hd|m1 r1 sp in1 e1 r' scratch Er Hd]; subst; clear Hk.
  all: cbn [fill]; rewrite Er; cbn [r_n r_p r_err].
  (* last *)
  1,4: replace ((Z.of_nat (length input) <? 0) || (Z.of_nat (length (s_buf s) - s_end s) <? Z.of_nat (length input)))%Z with false by lia;
    rewrite Nat2Z.id; rewrite setErr_none by (cbn [s_err]; exact He); cbn [s_start s_end s_buf s_old s_err s_max s_empties];
    eexists; eexists; exists input, []; split; [reflexivity|];
    split; [unfold inv; cbn [s_start s_end s_buf]; rewrite overwrite_length by lia; lia|];
    split; [rewrite (data_extend _ (s_buf s)); [|lia|rewrite overwrite_length by lia; lia|apply overwrite_before; lia];
            rewrite overwrite_at by (rewrite ?app_length; lia); rewrite firstn_app_exact; reflexivity|];
    unfold limit; cbn [s_buf s_max s_err]; rewrite overwrite_length by lia; rewrite app_nil_r; auto 12.
  (* some *)
  1,3: replace ((Z.of_nat (length chunk) <? 0) || (Z.of_nat (length (s_buf s) - s_end s) <? Z.of_nat (length chunk)))%Z with false by lia;
    rewrite Nat2Z.id; replace (0 <? length chunk) with true by (destruct chunk; [congruence|reflexivity]);
    eexists; eexists; exists chunk, rest; split; [reflexivity|];
    split; [unfold inv; cbn [s_start s_end s_buf]; rewrite overwrite_length by lia; lia|];
    split; [rewrite (data_extend _ (s_buf s)); [|lia|rewrite overwrite_length by lia; lia|apply overwrite_before; lia];
            rewrite overwrite_at by (rewrite ?app_length; lia); rewrite firstn_app_exact; reflexivity|];
    unfold limit; cbn [s_buf s_max s_err]; rewrite overwrite_length by lia; auto 12.
  - lia.
  - change ((0 <? 0) || (Z.of_nat (length (s_buf s) - s_end s) <? 0))%Z with ((Z.of_nat (length (s_buf s) - s_end s) <? 0)%Z).
    replace (Z.of_nat (length (s_buf s) - s_end s) <? 0)%Z with false by lia.
    change (Z.to_nat 0) with 0. cbn [Nat.ltb Nat.leb].
    destruct (IH m1 r' (Scanner (s_old s) (overwrite (s_buf s) (s_end s) scratch) (s_start s) (s_end s + 0) (s_err s) (s_empties s) (s_max s)) input e)
      as (r2 & s2 & chunk & rest & E2 & I2 & D2 & L2 & M2 & O2); auto; try lia.
    { unfold inv; cbn [s_start s_end s_buf]; rewrite overwrite_length by lia; lia. }
    { cbn [s_end s_buf]. rewrite overwrite_length by lia. lia. }
    exists r2, s2, chunk, rest. split; [exact E2|]. split; [exact I2|].
    rewrite D2. rewrite (data_extend _ (s_buf s)); [|lia|rewrite overwrite_length by lia; lia|apply overwrite_before; lia].
    simpl firstn. rewrite app_nil_r. split; [reflexivity|].
    rewrite L2, M2. unfold limit. cbn [s_buf s_max]. rewrite overwrite_length by lia. auto.
Qed.

(* ---- split functions that obey the contract *)

Record good_split (f : splitfunc) : Prop := {
  gs_shape : forall d eof,
    f d eof = Ret (0, None, None) \/
    exists n t, f d eof = Ret (n, Some t, None) /\ 1 <= n <= length d /\
                length t <= n /\ t = firstn (length t) d;
  gs_eof : forall d, d <> [] -> exists n t, f d true = Ret (n, Some t, None);
  gs_empty : f [] true = Ret (0, None, None);
  gs_final : forall d n t ext eof,
    f d false = Ret (n, Some t, None) -> f (d ++ ext) eof = Ret (n, Some t, None)
}.

(* all tokens of a complete input *)
Inductive split_all (f : splitfunc) : list byte -> list (list byte) -> Prop :=
| all_done : split_all f [] []
| all_step d n t toks :
    f d true = Ret (n, Some t, None) -> split_all f (skipn n d) toks -> split_all f d (t :: toks).

Lemma split_all_nil f toks : good_split f -> split_all f [] toks -> toks = [].
Proof. intros G H. inversion H as [|d n t ts E]; [reflexivity|]. rewrite (gs_empty f G) in E. discriminate. Qed.

Lemma split_all_cons f d n t toks : f d true = Ret (n, Some t, None) -> d <> [] ->
  split_all f d toks -> exists toks', toks = t :: toks' /\ split_all f (skipn n d) toks'.
Proof.
  intros E Hd H. inversion H as [|d' n' t' ts E']; [congruence|]. subst.
  assert (n' = n) by congruence. assert (t' = t) by congruence. subst. eauto.
Qed.

Lemma split_all_total f : good_split f -> forall d, exists toks, split_all f d toks.
Proof.
  intros G d. remember (length d) as k eqn:Ek.
  revert d Ek. induction k as [k IH] using lt_wf_ind. intros d ->.
  destruct d as [|b d]; [exists []; constructor|].
  destruct (gs_eof f G (b :: d)) as (n & t & E); [discriminate|].
  destruct (gs_shape f G (b :: d) true) as [E'|(n' & t' & E' & Hn & _)]; [congruence|].
  assert (n' = n) by congruence. subst n'.
  destruct (IH (length (skipn n (b :: d)))) with (d := skipn n (b :: d)) as [toks H]; [|reflexivity|].
  { rewrite skipn_length. lia. }
  exists (t :: toks). econstructor; eauto.
Qed.

Lemma split_all_unique f : good_split f -> forall d toks toks',
  split_all f d toks -> split_all f d toks' -> toks = toks'.
Proof.
  intros G d toks toks' H. revert toks'. induction H as [|d n t toks E H IH]; intros toks' H'.
  - symmetry. apply (split_all_nil f); assumption.
  - inversion H' as [|d' n' t' ts E' H2]; subst.
    + rewrite (gs_empty f G) in E. discriminate.
    + assert (n' = n) by congruence. assert (t' = t) by congruence. subst. f_equal. auto.
Qed.

(* the state after a token *)
Definition advanced (s : scanner) (n : nat) : scanner :=
  Scanner (s_old s) (s_buf s) (s_start s + n) (s_end s) (s_err s) 0 (s_max s).

Lemma advanced_data s n : inv s -> n <= length (data s) -> data (advanced s n) = skipn n (data s).
Proof.
  intros H Hn. rewrite data_length in Hn by exact H. unfold data, advanced. cbn [s_start s_end s_buf].
  rewrite skipn_firstn_sub, <- skipn_add. f_equal. lia.
Qed.

Lemma token_bytes s n t : inv s -> length t <= length (data s) -> t = firstn (length t) (data s) ->
  bytes_of (advanced s n) (Slice (length (s_old s)) (s_start s) (length t)) = t.
Proof.
  intros H Hl E. unfold bytes_of, advanced. cbn [sl_buf sl_off sl_len s_old s_buf].
  rewrite app_nth2, Nat.sub_diag by lia. cbn [nth]. rewrite E at 2. unfold data.
  rewrite firstn_firstn. f_equal. rewrite data_length in Hl by exact H. lia.
Qed.

(* one iteration that has something to split *)
Lemma iter_split {R} f (rd : reader R) fuel r s : good_split f -> inv s ->
  let eof := match s_err s with None => false | Some _ => true end in
  (s_start s <? s_end s) || eof = true ->
  (exists n t, f (data s) eof = Ret (n, Some t, None) /\ 1 <= n <= length (data s) /\
     scan_loop_bufio f rd (S fuel) r s =
       Ret (r, advanced s n, Some (Slice (length (s_old s)) (s_start s) (length t))) /\
     bytes_of (advanced s n) (Slice (length (s_old s)) (s_start s) (length t)) = t) \/
  (f (data s) eof = Ret (0, None, None) /\
   exists s', scan_loop_bufio f rd (S fuel) r s =
     (let! (r', s', again) := more rd r s' in
      if again then scan_loop_bufio f rd fuel r' s' else Ret (r', s', None)) /\ s' = s).
Proof.
  intros G H eof Hc. cbn [scan_loop_bufio]. fold eof. rewrite Hc. rewrite held_ok by exact H. cbn [bind].
  pose proof (data_length s H) as Hl.
  destruct (gs_shape f G (data s) eof) as [E|(n & t & E & Hn & Ht & Et)]; rewrite E; cbn [bind].
  - right. split; [reflexivity|].
    replace (s_end s - s_start s <? 0) with false by reflexivity.
    eexists. split; [reflexivity|].
    rewrite Nat.add_0_r. destruct s; reflexivity.
  - left. exists n, t. split; [reflexivity|]. split; [exact Hn|].
    replace (s_end s - s_start s <? n) with false by lia.
    replace (negb eof || (0 <? n)) with true by lia.
    split; [reflexivity|]. apply token_bytes; [exact H|lia|exact Et].
Qed.

(* nothing to split *)
Lemma iter_none {R} f (rd : reader R) fuel r s : s_err s = None -> s_start s = s_end s ->
  scan_loop_bufio f rd (S fuel) r s =
     (let! (r', s', again) := more rd r s in
      if again then scan_loop_bufio f rd fuel r' s' else Ret (r', s', None)).
Proof.
  intros He Hs. cbn [scan_loop_bufio]. rewrite He, Hs, Nat.ltb_irrefl. reflexivity.
Qed.

(* going on after an error *)
Lemma more_stop {R} (rd : reader R) r s e : s_err s = Some e ->
  exists s', more rd r s = Ret (r, s', false) /\ inv s' /\ s_err s' = Some e /\
    data s' = [] /\ limit s' = limit s /\ s_max s' = s_max s /\ s_old s' = s_old s /\ s_buf s' = s_buf s.
Proof.
  intros He. unfold more. rewrite He. eexists. split; [reflexivity|].
  unfold inv, limit, data. cbn [s_start s_end s_buf s_err s_max]. repeat split; try lia; auto.
Qed.

(* ---- any reader: C24 *)

Definition scanner_error {R} (rd : reader R) (e : goerror) : Prop :=
  e = ErrTooLong \/ e = ErrBadReadCount \/ e = ErrNoProgress \/ from_reader rd e.

Lemma more_any {R} (rd : reader R) r s : inv s ->
  exists r' s' again, more rd r s = Ret (r', s', again) /\ inv s' /\ limit s' = limit s /\ s_max s' = s_max s /\
    (again = true -> s_err s = None /\
       exists chunk, data s' = data s ++ chunk /\
       ((s_err s' = None /\ chunk <> []) \/ exists e, s_err s' = Some e /\ scanner_error rd e)) /\
    (again = false -> exists e, s_err s' = Some e /\ (s_err s = Some e \/ scanner_error rd e)).
Proof.
  intros H. destruct (s_err s) as [e|] eqn:He.
  - destruct (more_stop rd r s e He) as (s' & E & I' & E' & _ & L' & M' & _).
    exists r, s', false. split; [exact E|]. split; [exact I'|]. split; [exact L'|]. split; [exact M'|].
    split; [discriminate|]. intros _. eauto.
  - unfold more. rewrite He.
    destruct (shift_ok s H) as (s1 & -> & I1 & D1 & L1 & O1 & E1 & M1 & F1 & _). cbn [bind].
    destruct (resize_ok s1 I1 F1) as [(-> & Hd & Hmax)|(s2 & -> & I2 & D2 & F2 & L2 & M2 & E2 & _)]; cbn [bind].
    + eexists; eexists; eexists. split; [reflexivity|]. rewrite setErr_none by congruence.
      unfold inv, limit in *. cbn [s_start s_end s_buf s_err s_max]. rewrite L1, M1 in *.
      split; [exact I1|]. split; [reflexivity|]. split; [reflexivity|]. split; [discriminate|].
      intros _. eexists. split; [reflexivity|].
      right. left. reflexivity.
    + destruct (fill_any rd maxConsecutiveEmptyReads r s2 I2 ltac:(congruence)) as (r3 & s3 & chunk & E3 & I3 & D3 & L3 & M3 & O3).
      rewrite E3. exists r3, s3, true. split; [reflexivity|]. split; [exact I3|].
      split; [unfold limit in *; congruence|]. split; [congruence|]. split; [|discriminate].
      intros _. split; [reflexivity|]. exists chunk. split; [congruence|].
      destruct O3 as [O3|(e & E & O3)]; [auto|]. right. exists e. split; [exact E|]. unfold scanner_error. tauto.
Qed.

Lemma loop_any {R} f (rd : reader R) : good_split f -> forall fuel r s, inv s ->
  (match s_err s with None => 2 + (limit s - length (data s)) | Some _ => 1 end) <= fuel ->
  exists r' s' o, scan_loop_bufio f rd fuel r s = Ret (r', s', o) /\ inv s' /\ limit s' = limit s /\
    s_max s' = s_max s /\
    (forall e, s_err s' = Some e -> s_err s = Some e \/ scanner_error rd e) /\
    match o with
    | Some sl => length (bytes_of s' sl) <= limit s /\ exists d eof n, f d eof = Ret (n, Some (bytes_of s' sl), None)
    | None => s_err s' <> None
    end.
Proof.
  intros G. induction fuel as [|fuel IH]; intros r s H Hf; [destruct (s_err s); lia|].
  assert (Hmore : forall fuel', fuel' = fuel ->
     exists r' s' o, (let! (r', s', again) := more rd r s in
      if again then scan_loop_bufio f rd fuel' r' s' else Ret (r', s', None)) = Ret (r', s', o) /\ inv s' /\ limit s' = limit s /\
    s_max s' = s_max s /\
    (forall e, s_err s' = Some e -> s_err s = Some e \/ scanner_error rd e) /\
    match o with
    | Some sl => length (bytes_of s' sl) <= limit s /\ exists d eof n, f d eof = Ret (n, Some (bytes_of s' sl), None)
    | None => s_err s' <> None
    end).
  { intros fuel' ->. destruct (more_any rd r s H) as (r1 & s1 & again & -> & I1 & L1 & M1 & A1 & B1). cbn [bind].
    destruct again.
    - destruct (A1 eq_refl) as (He & chunk & D1 & O1). clear A1 B1.
      destruct (IH r1 s1 I1) as (r2 & s2 & o & E2 & I2 & L2 & M2 & Er2 & O2).
      { rewrite He in Hf. rewrite D1, app_length, L1. destruct O1 as [[-> Hc]|(e & -> & _)].
        - destruct chunk; [congruence|]. cbn [length].
          pose proof (data_length s1 I1) as Hl. rewrite D1, app_length in Hl. cbn [length] in Hl.
          unfold limit, inv in *. lia.
        - lia. }
      exists r2, s2, o. split; [exact E2|]. split; [exact I2|]. split; [congruence|]. split; [congruence|].
      split; [|rewrite <- L1; exact O2]. intros e E. right. destruct (Er2 e E) as [K|K]; [|exact K].
      destruct O1 as [[O1 _]|(e' & O1 & O2')]; congruence.
    - destruct (B1 eq_refl) as (e & E & B). exists r1, s1, None. split; [reflexivity|].
      split; [exact I1|]. split; [exact L1|]. split; [exact M1|]. split; [|congruence].
      intros e' E'. assert (e' = e) by congruence. subst. exact B. }
  destruct ((s_start s <? s_end s) || match s_err s with None => false | Some _ => true end) eqn:Hc.
  - destruct (iter_split f rd fuel r s G H Hc) as [(n & t & E & Hn & -> & Hb)|(E & s' & -> & ->)].
    + eexists; eexists; eexists. split; [reflexivity|].
      pose proof (data_length s H) as Hl. unfold inv, limit in *.
      cbn [advanced s_start s_end s_buf s_err s_max]. split; [lia|]. split; [reflexivity|]. split; [reflexivity|].
      split; [auto|]. rewrite Hb. split; [|eexists; eexists; exists n; exact E].
      destruct (gs_shape f G (data s) (match s_err s with None => false | Some _ => true end))
        as [E'|(n' & t' & E' & Hn' & Ht' & _)]; [congruence|].
      assert (n' = n) by congruence. assert (t' = t) by congruence. subst. lia.
    + apply Hmore. reflexivity.
  - destruct (s_err s) eqn:He; [rewrite orb_true_r in Hc; discriminate|]. rewrite orb_false_r in Hc.
    rewrite iter_none; [apply Hmore; reflexivity|exact He|]. unfold inv in H. lia.
Qed.

Theorem Scan_any {R} f (rd : reader R) r s : good_split f -> inv s ->
  exists r' s' o, Scan f rd r s = Ret (r', s', o) /\ inv s' /\ limit s' = limit s /\ s_max s' = s_max s /\
    (forall e, s_err s' = Some e -> s_err s = Some e \/ scanner_error rd e) /\
    match o with
    | Some sl => length (bytes_of s' sl) <= limit s /\ exists d eof n, f d eof = Ret (n, Some (bytes_of s' sl), None)
    | None => s_err s' <> None
    end.
Proof.
  intros G H. apply loop_any; auto. fold (limit s). destruct (s_err s); [|]; cbn [Nat.add]; lia.
Qed.

(* ---- a reader that delivers: C23, C25, C26 *)

Definition sane_max (s : scanner) : Prop := (N.of_nat (s_max s) <= half_maxInt + 1)%N.

Lemma more_delivers {R} (rd : reader R) r s input e : inv s -> s_err s = None -> sane_max s ->
  delivers rd 100 r input e ->
  (exists s', more rd r s = Ret (r, s', false) /\ s_err s' = Some ErrTooLong /\ inv s' /\ limit s' = limit s /\
     length (data s) = limit s /\ data s' = data s) \/
  (exists r' s' chunk rest, more rd r s = Ret (r', s', true) /\ inv s' /\ limit s' = limit s /\
     s_max s' = s_max s /\
     data s' = data s ++ chunk /\ input = chunk ++ rest /\
    ((s_err s' = None /\ chunk <> [] /\ delivers rd 100 r' rest e) \/
     (s_err s' = Some e /\ rest = []))).
Proof.
  intros H He Hm Hd. unfold more. rewrite He.
  destruct (shift_ok s H) as (s1 & -> & I1 & D1 & L1 & O1 & E1 & M1 & F1 & _). cbn [bind].
  destruct (resize_ok s1 I1 F1) as [(-> & Hd1 & Hmax)|(s2 & -> & I2 & D2 & F2 & L2 & M2 & E2 & _)]; cbn [bind].
  - left. eexists. split; [reflexivity|]. rewrite setErr_none by congruence.
    unfold inv, limit, sane_max in *. cbn [s_start s_end s_buf s_err s_max]. rewrite L1, M1 in *.
    split; [reflexivity|]. split; [exact I1|]. split; [reflexivity|]. split; [rewrite <- D1; unfold half_maxInt in *; lia|]. rewrite <- D1. reflexivity.
  - right. destruct (fill_delivers rd maxConsecutiveEmptyReads 100 r s2 input e) as (r3 & s3 & chunk & rest & E3 & I3 & D3 & L3 & M3 & X3 & O3);
      auto; try congruence.
    rewrite E3. exists r3, s3, chunk, rest. split; [reflexivity|]. split; [exact I3|].
    unfold limit in *. repeat split; try congruence.
Qed.

Definition after_scan {R} (f : splitfunc) (rd : reader R) (r' : R) (s' : scanner) (e : goerror)
  (toks : list (list byte)) : Prop :=
  (s_err s' = None /\ exists input', delivers rd 100 r' input' e /\ split_all f (data s' ++ input') toks) \/
  (s_err s' = Some e /\ split_all f (data s') toks).

(* what is still to be scanned *)
Definition after_input {R} (rd : reader R) (r : R) (s : scanner) (e : goerror) (input : list byte) : Prop :=
  (s_err s = None /\ exists input', delivers rd 100 r input' e /\ data s ++ input' = input) \/
  (s_err s = Some e /\ data s = input).

(* a token was found before the end of the input was known, or all that was left
   did fit the buffer *)
Definition seen_enough (f : splitfunc) (lim : nat) (input : list byte) (n : nat) (t : list byte) : Prop :=
  (exists d ext, d ++ ext = input /\ f d false = Ret (n, Some t, None) /\ length d <= lim) \/ length input <= lim.

Lemma loop_input {R} f (rd : reader R) : good_split f -> forall fuel r s input e, inv s -> sane_max s ->
  (s_err s = None /\ delivers rd 100 r input e /\ 2 + (limit s - length (data s)) <= fuel) \/
  (s_err s = Some e /\ input = [] /\ 1 <= fuel) ->
  exists r' s' o, scan_loop_bufio f rd fuel r s = Ret (r', s', o) /\ inv s' /\ limit s' = limit s /\
    match o with
    | Some sl => s_max s' = s_max s /\ exists n,
        f (data s ++ input) true = Ret (n, Some (bytes_of s' sl), None) /\ n <= limit s /\
        after_input rd r' s' e (skipn n (data s ++ input)) /\
        seen_enough f (limit s) (data s ++ input) n (bytes_of s' sl) /\ (s_err s = None \/ s_err s' = s_err s)
    | None =>
        (data s ++ input = [] /\ s_err s' = Some e /\ data s' = []) \/
        (s_err s' = Some ErrTooLong /\
         exists d ext, d ++ ext = data s ++ input /\ f d false = Ret (0, None, None) /\ length d = limit s /\ data s' = d /\ s_err s = None)
    end.
Proof.
  intros G. induction fuel as [|fuel IH]; intros r s input e H Hm Hst; [destruct Hst as [(_ & _ & K)|(_ & _ & K)]; lia|].
  set (eof := match s_err s with None => false | Some _ => true end) in *.
  (* going on without an error *)
  assert (Hgo : s_err s = None -> f (data s) false = Ret (0, None, None) \/ data s = [] ->
     exists r' s' o, (let! (r', s', again) := more rd r s in
      if again then scan_loop_bufio f rd fuel r' s' else Ret (r', s', None)) = Ret (r', s', o) /\ inv s' /\ limit s' = limit s /\
    match o with
    | Some sl => s_max s' = s_max s /\ exists n,
        f (data s ++ input) true = Ret (n, Some (bytes_of s' sl), None) /\ n <= limit s /\
        after_input rd r' s' e (skipn n (data s ++ input)) /\
        seen_enough f (limit s) (data s ++ input) n (bytes_of s' sl) /\ (s_err s = None \/ s_err s' = s_err s)
    | None =>
        (data s ++ input = [] /\ s_err s' = Some e /\ data s' = []) \/
        (s_err s' = Some ErrTooLong /\
         exists d ext, d ++ ext = data s ++ input /\ f d false = Ret (0, None, None) /\ length d = limit s /\ data s' = d /\ s_err s = None)
    end).
  { intros He Hf. destruct Hst as [(_ & Hd & Hfuel)|(K & _)]; [|congruence].
    destruct (more_delivers rd r s input e H He Hm Hd)
      as [(s' & -> & E' & I' & L' & Hlen & Hdata)|(r1 & s1 & chunk & rest & -> & I1 & L1 & M1 & D1 & X1 & O1)]; cbn [bind].
    - exists r, s', None. split; [reflexivity|]. split; [exact I'|]. split; [exact L'|]. 
      right. split; [exact E'|]. exists (data s), input. split; [reflexivity|].
      split; [|split; [exact Hlen|split; [exact Hdata|exact He]]].
      destruct Hf as [Hf|Hf]; [exact Hf|]. rewrite Hf.
      destruct (gs_shape f G [] false) as [K|(n & t & _ & K & _)]; [exact K|cbn [length] in K; lia].
    - assert (data s ++ input = data s1 ++ rest) as X by (rewrite D1, <- app_assoc, <- X1; reflexivity).
      destruct (IH r1 s1 rest e) as (r2 & s2 & o & E2 & I2 & L2 & O2); auto.
      + unfold sane_max in *. congruence.
      + destruct O1 as [(He1 & Hc & Hd1)|(He1 & ->)].
        * left. split; [exact He1|]. split; [exact Hd1|]. rewrite D1, app_length, L1.
          destruct chunk; [congruence|]. cbn [length].
          pose proof (data_length s1 I1) as Hl. rewrite D1, app_length in Hl. cbn [length] in Hl.
          unfold limit, inv in *. lia.
        * right. split; [exact He1|]. split; [reflexivity|]. lia.
      + exists r2, s2, o. split; [exact E2|]. split; [exact I2|]. split; [congruence|].
        destruct o as [sl|].
        * destruct O2 as (M2 & n & O2 & O3 & O4 & O5 & _). split; [congruence|]. exists n. rewrite X, <- L1. auto 10.
        * rewrite X. destruct O2 as [O2|(E & d & ext & X' & O2 & O3 & O4 & _)]; [auto|]. right. split; [exact E|].
          exists d, ext. rewrite <- L1. auto 10. }
  destruct ((s_start s <? s_end s) || eof) eqn:Hc.
  - destruct (iter_split f rd fuel r s G H Hc) as [(n & t & E & Hn & -> & Hb)|(E & s' & -> & ->)].
    + eexists; eexists; eexists. split; [reflexivity|].
      pose proof (data_length s H) as Hl.
      split; [unfold inv in *; cbn [advanced s_start s_end s_buf]; lia|]. split; [reflexivity|].
      split; [reflexivity|]. rewrite Hb. exists n. split.
      { destruct Hst as [(He & _)|(He & -> & _)]; fold eof in E; unfold eof in E; rewrite He in E.
        - apply (gs_final f G). exact E.
        - rewrite app_nil_r. exact E. }
      split; [unfold limit, inv in *; lia|].
      rewrite skipn_app. replace (n - length (data s)) with 0 by lia. rewrite skipn_O.
      unfold after_input. rewrite advanced_data by (auto; lia).
      assert (length (data s) <= limit s) as Ld by (unfold limit, inv in *; lia).
      destruct Hst as [(He & Hd & _)|(He & -> & _)].
      * split; [left; split; [exact He|]; exists input; auto|].
        split; [|left; exact He]. left. exists (data s), input. unfold eof in E. rewrite He in E. auto.
      * split; [right; split; [exact He|]; rewrite app_nil_r; reflexivity|].
        split; [|right; reflexivity]. right. rewrite app_nil_r. exact Ld.
    + destruct Hst as [(He & Hd & Hfuel)|(He & -> & Hfuel)].
      * apply Hgo; [exact He|]. left. unfold eof in E. rewrite He in E. exact E.
      * destruct (more_stop rd r s e He) as (s' & -> & I' & E' & D' & L' & _). cbn [bind].
        exists r, s', None. split; [reflexivity|]. split; [exact I'|]. split; [exact L'|]. left.
        unfold eof in E. rewrite He in E. rewrite app_nil_r.
        destruct (data s) as [|b d] eqn:Ed; [auto|].
        destruct (gs_eof f G (b :: d)) as (n & t & K); [discriminate|]. congruence.
  - unfold eof in Hc. destruct (s_err s) eqn:He; [rewrite orb_true_r in Hc; discriminate|]. rewrite orb_false_r in Hc.
    assert (s_start s = s_end s) as Es by (unfold inv in H; lia).
    rewrite iter_none; [|exact He|exact Es]. apply Hgo; [reflexivity|]. right.
    unfold data. rewrite Es, Nat.sub_diag. reflexivity.
Qed.

Theorem Scan_input_full {R} f (rd : reader R) r s e input : good_split f -> inv s -> sane_max s ->
  after_input rd r s e input ->
  exists r' s' o, Scan f rd r s = Ret (r', s', o) /\ inv s' /\ limit s' = limit s /\
    match o with
    | Some sl => sane_max s' /\ exists n, f input true = Ret (n, Some (bytes_of s' sl), None) /\
        n <= limit s /\ after_input rd r' s' e (skipn n input) /\ seen_enough f (limit s) input n (bytes_of s' sl) /\
        (s_err s = None \/ s_err s' = s_err s)
    | None =>
        (input = [] /\ s_err s' = Some e /\ data s' = []) \/
        (s_err s' = Some ErrTooLong /\
         exists d ext, d ++ ext = input /\ f d false = Ret (0, None, None) /\ length d = limit s /\ data s' = d /\ s_err s = None /\ sane_max s')
    end.
Proof.
  intros G H Hm Hst.
  assert (exists rest, data s ++ rest = input /\
    ((s_err s = None /\ delivers rd 100 r rest e) \/ (s_err s = Some e /\ rest = []))) as (rest & X & Hst').
  { destruct Hst as [(He & rest & Hd & X)|(He & X)].
    - exists rest. auto.
    - exists []. rewrite app_nil_r. auto. }
  destruct (loop_input f rd G (3 + Nat.max (length (s_buf s)) (s_max s)) r s rest e H Hm)
    as (r' & s' & o & E & I' & L' & O).
  { fold (limit s). destruct Hst' as [(He & Hd)|(He & ->)]; [left|right]; (split; [exact He|]; split; [auto|]; cbn [Nat.add]; lia). }
  rewrite X in O.
  exists r', s', o. split; [exact E|]. split; [exact I'|]. split; [exact L'|]. destruct o as [sl|].
  - destruct O as (M & O). split; [unfold sane_max in *; congruence|exact O].
  - destruct O as [O|(E1 & d & ext & O1 & O2 & O3 & O4 & O5)]; [left; exact O|right].
    split; [exact E1|]. exists d, ext. repeat (split; [assumption|]).
    destruct (Scan_any f rd r s G H) as (ra & sa & oa & Ea & _ & _ & Ma & _).
    assert (sa = s') as -> by (unfold Scan in Ea; congruence). unfold sane_max in *. congruence.
Qed.

Theorem Scan_input {R} f (rd : reader R) r s e input : good_split f -> inv s -> sane_max s ->
  after_input rd r s e input ->
  exists r' s' o, Scan f rd r s = Ret (r', s', o) /\ inv s' /\ limit s' = limit s /\
    match o with
    | Some sl => sane_max s' /\ exists n, f input true = Ret (n, Some (bytes_of s' sl), None) /\
        n <= limit s /\ after_input rd r' s' e (skipn n input)
    | None =>
        (input = [] /\ s_err s' = Some e /\ data s' = []) \/
        (s_err s' = Some ErrTooLong /\
         exists d ext, d ++ ext = input /\ f d false = Ret (0, None, None) /\ length d = limit s /\ data s' = d)
    end.
Proof.
  intros G H Hm Hst. destruct (Scan_input_full f rd r s e input G H Hm Hst) as (r' & s' & o & E & I' & L' & O).
  exists r', s', o. split; [exact E|]. split; [exact I'|]. split; [exact L'|]. destruct o as [sl|].
  - destruct O as (M & n & O1 & O2 & O3 & _). split; [exact M|]. exists n. auto.
  - destruct O as [O|(E1 & d & ext & O1 & O2 & O3 & O4 & _)]; [left; exact O|right].
    split; [exact E1|]. exists d, ext. auto.
Qed.

Theorem Scan_delivers {R} f (rd : reader R) r s e toks : good_split f -> inv s -> sane_max s ->
  after_scan f rd r s e toks ->
  exists r' s' o, Scan f rd r s = Ret (r', s', o) /\ inv s' /\ limit s' = limit s /\
    match o with
    | Some sl => sane_max s' /\ exists toks', toks = bytes_of s' sl :: toks' /\ after_scan f rd r' s' e toks'
    | None =>
        (toks = [] /\ s_err s' = Some e) \/
        (s_err s' = Some ErrTooLong /\
         exists d ext, split_all f (d ++ ext) toks /\ f d false = Ret (0, None, None) /\ length d = limit s)
    end.
Proof.
  intros G H Hm Hst.
  assert (exists input, after_input rd r s e input /\ split_all f input toks) as (input & Hin & Ht).
  { destruct Hst as [(He & input & Hd & Ht)|(He & Ht)].
    - exists (data s ++ input). split; [left; eauto|exact Ht].
    - exists (data s). split; [right; auto|exact Ht]. }
  destruct (Scan_input f rd r s e input G H Hm Hin) as (r' & s' & o & E & I' & L' & O).
  exists r', s', o. split; [exact E|]. split; [exact I'|]. split; [exact L'|]. destruct o as [sl|].
  - destruct O as (M & n & Ef & _ & O). split; [exact M|].
    destruct (split_all_cons f _ _ _ toks Ef) as (toks' & -> & Ht'); [|exact Ht|].
    { intros ->. rewrite (gs_empty f G) in Ef. discriminate. }
    exists toks'. split; [reflexivity|]. destruct O as [(He & input' & Hd & X)|(He & X)].
    + left. split; [exact He|]. exists input'. rewrite X. auto.
    + right. rewrite X. auto.
  - destruct O as [(-> & Er & _)|(Er & d & ext & X & O1 & O2 & _)].
    + left. split; [|exact Er]. apply (split_all_nil f); assumption.
    + right. split; [exact Er|]. exists d, ext. rewrite X. auto.
Qed.

Theorem scans_delivers {R} f (rd : reader R) : good_split f -> forall toks r s e, inv s -> sane_max s ->
  after_scan f rd r s e toks ->
  exists toks1 r' s', scans f rd r s toks1 r' s' /\
    ((toks1 = toks /\ s_err s' = Some e) \/
     (s_err s' = Some ErrTooLong /\
      exists toks2 d ext, toks = toks1 ++ toks2 /\ split_all f (d ++ ext) toks2 /\
        f d false = Ret (0, None, None) /\ length d = limit s)).
Proof.
  intros G. induction toks as [|t toks IH]; intros r s e H Hm Hst;
    destruct (Scan_delivers f rd r s e _ G H Hm Hst) as (r' & s' & [sl|] & E & I' & L' & O).
  - destruct O as (_ & toks' & O & _). discriminate.
  - exists [], r', s'. split; [constructor; exact E|]. destruct O as [O|(Er & d & ext & O)].
    + left. split; [reflexivity|]. apply O.
    + right. split; [exact Er|]. exists [], d, ext. auto.
  - destruct O as (M' & toks' & Et & O). injection Et as -> <-.
    destruct (IH r' s' e I' M' O) as (toks1 & r2 & s2 & Hs & Hr).
    exists (bytes_of s' sl :: toks1), r2, s2. split; [econstructor; eauto|].
    destruct Hr as [(-> & Er)|(Er & toks2 & d & ext & -> & Hr)]; [left; auto|right].
    split; [exact Er|]. exists toks2, d, ext. rewrite <- L'. auto.
  - exists [], r', s'. split; [constructor; exact E|]. destruct O as [O|(Er & d & ext & O)].
    + destruct O. discriminate.
    + right. split; [exact Er|]. exists (t :: toks), d, ext. auto.
Qed.

(* the outcome is determined *)
Lemma scans_unique {R} f (rd : reader R) r s t1 r1 s1 : scans f rd r s t1 r1 s1 ->
  forall t2 r2 s2, scans f rd r s t2 r2 s2 -> t1 = t2 /\ r1 = r2 /\ s1 = s2.
Proof.
  induction 1 as [r s r' s' E|r s ra sa sl toks r' s' E H IH]; intros t2 r2 s2 H2;
    inversion H2 as [? ? ? ? E2|? ? ? ? ? ? ? ? E2 H2']; subst; rewrite E in E2; try discriminate.
  - injection E2 as <- <-. auto.
  - injection E2 as <- <- <-. destruct (IH _ _ _ H2') as (-> & -> & ->). auto.
Qed.

(* scanned tokens fit the buffer *)
Lemma scans_fit {R} f (rd : reader R) : good_split f -> forall r s toks r' s', inv s ->
  scans f rd r s toks r' s' -> Forall (fun t => length t <= limit s) toks.
Proof.
  intros G r s toks r' s' H Hs. revert H.
  induction Hs as [r s r' s' E|r s ra sa sl toks r' s' E Hs IH]; intros H; [constructor|].
  destruct (Scan_any f rd r s G H) as (r1 & s1 & o & E1 & I1 & L1 & M1 & _ & O1).
  assert (r1 = ra /\ s1 = sa /\ o = Some sl) as (-> & -> & ->) by (rewrite E in E1; injection E1; auto).
  constructor; [apply O1|]. rewrite <- L1. apply IH. exact I1.
Qed.

(* ---- memory that is not reused: C39 *)

Lemma bytes_of_same s s' sl : s_old s = s_old s' -> s_buf s = s_buf s' -> bytes_of s sl = bytes_of s' sl.
Proof. intros A B. unfold bytes_of. rewrite A, B. reflexivity. Qed.

(* Everything has been read, there is room, and no shift with data held can
   happen. *)
Definition settled_mem (s : scanner) : Prop :=
  inv s /\ s_end s < length (s_buf s) /\ s_end s <= S (length (s_buf s) / 2).

Lemma overwrite_nil dst pos : pos <= length dst -> overwrite dst pos [] = dst.
Proof.
  intros H. unfold overwrite. rewrite firstn_nil. cbn [app length]. rewrite Nat.add_0_r. apply firstn_skipn.
Qed.

Lemma loop_keeps f : good_split f -> forall fuel s r' s' o, settled_mem s ->
  scan_loop_bufio f bytes_reader fuel [] s = Ret (r', s', o) ->
  r' = [] /\ s_old s' = s_old s /\ s_buf s' = s_buf s /\ settled_mem s'.
Proof.
  intros G. induction fuel as [|fuel IH]; intros s r' s' o (H & Hroom & Hhalf); [discriminate|].
  assert (Hgo : (let! (r', s', again) := more bytes_reader [] s in
      if again then scan_loop_bufio f bytes_reader fuel r' s' else Ret (r', s', None)) = Ret (r', s', o) ->
    r' = [] /\ s_old s' = s_old s /\ s_buf s' = s_buf s /\ settled_mem s').
  { destruct (s_err s) as [e|] eqn:He.
    - destruct (more_stop bytes_reader [] s e He) as (s1 & E1 & I1 & _ & _ & _ & _ & O1 & B1).
      unfold more in *. rewrite He in *. cbn [bind] in *. intros K. injection K as <- <- <-.
      repeat split; auto; unfold inv in *; cbn [s_start s_end s_buf]; lia.
    - unfold more. rewrite He.
      destruct (shift_ok s H) as (s1 & E1 & I1 & D1 & L1 & O1 & X1 & M1 & F1 & B1). rewrite E1. cbn [bind].
      assert (s_buf s1 = s_buf s) as Hb.
      { apply B1. destruct (Nat.le_gt_cases (s_start s) (length (s_buf s) / 2)) as [C|C].
        - right. right. split; [lia|exact C].
        - left. unfold inv in H. unfold data. replace (s_end s - s_start s) with 0 by lia. reflexivity. }
      assert (s_end s1 <= s_end s) as Hend.
      { unfold shift in E1.
        destruct ((0 <? s_start s) && ((s_end s =? length (s_buf s)) || (length (s_buf s) / 2 <? s_start s)));
          [rewrite held_ok in E1 by exact H; cbn [bind] in E1|]; injection E1 as <-; cbn [s_end]; lia. }
      assert (settled_mem s1) as S1.
      { split; [exact I1|]. rewrite L1. lia. }
      assert (resize s1 = Ret (Some s1)) as ->.
      { unfold resize. replace (s_end s1 =? length (s_buf s1)) with false by lia. reflexivity. }
      cbn [bind].
      rewrite (fill_eof bytes_reader _ [] s1 []) by (auto; congruence). cbn [bind].
      intros K. apply IH in K; [|exact S1]. cbn [s_old s_buf] in K. rewrite O1, Hb in K. exact K. }
  destruct ((s_start s <? s_end s) || match s_err s with None => false | Some _ => true end) eqn:Hc.
  - destruct (iter_split f bytes_reader fuel [] s G H Hc) as [(n & t & E & Hn & E' & Hb)|(E & s2 & E' & ->)]; rewrite E'.
    + intros K. injection K as <- <- <-. pose proof (data_length s H) as Hl. unfold settled_mem, inv in *.
      cbn [advanced s_old s_buf s_start s_end]. repeat split; lia.
    + exact Hgo.
  - destruct (s_err s) eqn:He; [rewrite orb_true_r in Hc; discriminate|]. rewrite orb_false_r in Hc.
    rewrite iter_none; [exact Hgo|exact He|]. unfold inv in H. lia.
Qed.

Lemma collects_scans {R} f (rd : reader R) r s sls r' s' : collects f rd r s sls r' s' ->
  exists toks, scans f rd r s toks r' s' /\ length toks = length sls.
Proof.
  induction 1 as [r s r' s' E|r s ra sa sl sls r' s' E H (toks & IH & L)].
  - exists []. split; [constructor; exact E|reflexivity].
  - exists (bytes_of sa sl :: toks). split; [econstructor; eauto|cbn [length]; congruence].
Qed.

Lemma collects_keeps f : good_split f -> forall s sls r' s', settled_mem s ->
  collects f bytes_reader [] s sls r' s' ->
  s_old s' = s_old s /\ s_buf s' = s_buf s /\ scans f bytes_reader [] s (map (bytes_of s') sls) r' s'.
Proof.
  intros G s sls r' s' HS Hc. remember ([] : list byte) as r eqn:Er. revert Er HS.
  induction Hc as [r s r' s' E|r s ra sa sl sls r' s' E Hc IH]; intros -> HS;
    destruct (loop_keeps f G _ _ _ _ _ HS E) as (-> & O1 & B1 & S1).
  - split; [exact O1|]. split; [exact B1|]. constructor. exact E.
  - destruct (IH eq_refl S1) as (O2 & B2 & Hs). split; [congruence|]. split; [congruence|].
    cbn [map]. rewrite (bytes_of_same s' sa sl O2 B2). econstructor; eauto.
Qed.
