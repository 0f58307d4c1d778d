(* Proofs about the work of a bufio.Scanner (Model/Work.v). *)
From Coq Require Import List NArith ZArith Arith Bool Lia ZifyBool ZifyNat ZifyN Strings.Byte.
From Verif Require Import Model.Base Model.CharProps Model.Lookup Model.Machine Model.Scan Model.Drivers Model.Bufio Model.Work.
From Verif Require Import Proofs.Basics Proofs.LookupFacts Proofs.ScanFacts Proofs.DriverFacts Proofs.BufioFacts.
From Verif Require Properties.Bufio.
Import ListNotations.

Local Opaque committed LookupFirstChar.

(* ---- the instrumentation changes nothing *)

Lemma loop_same {R} (rd : reader R) : forall fuel r s l f,
  match scan_loop_bufio ScanGraphemeClusters rd fuel r s with
  | Ret (r', s', o) => exists l' f', work_loop rd fuel r s l f = Ret (r', s', o, l', f')
  | Panic e => work_loop rd fuel r s l f = Panic e
  end.
Proof.
  induction fuel as [|fuel IH]; intros r s l f; [reflexivity|]. cbn [scan_loop_bufio work_loop].
  assert (Hmore : forall s l, match (let! (r', s', again) := more rd r s in
        if again then scan_loop_bufio ScanGraphemeClusters rd fuel r' s' else Ret (r', s', None)) with
  | Ret (r', s', o) => exists l' f', (let! (r', s', again) := more rd r s in
        if again then work_loop rd fuel r' s' l (S f) else Ret (r', s', None, l, f)) = Ret (r', s', o, l', f')
  | Panic e => (let! (r', s', again) := more rd r s in
        if again then work_loop rd fuel r' s' l (S f) else Ret (r', s', None, l, f)) = Panic e
  end).
  { intros s1 l1. destruct (more rd r s1) as [[[r' s'] again]|e]; cbn [bind]; [|reflexivity].
    destruct again; [apply IH|eauto]. }
  destruct ((s_start s <? s_end s) || match s_err s with None => false | Some _ => true end); [|apply Hmore].
  destruct (held s) as [d|e]; cbn [bind]; [|reflexivity].
  pose proof (scan_cost_same d (match s_err s with None => false | Some _ => true end)) as K.
  destruct (ScanGraphemeClusters d _) as [[[advance token] err]|e]; [|rewrite K; reflexivity].
  destruct K as [k ->]. cbn [bind].
  destruct err; [eauto|]. destruct (_ <? advance); [eauto|].
  destruct token as [t|]; [|apply Hmore]. destruct (negb _ || _); [eauto|].
  destruct (maxConsecutiveEmptyReads <? _); [reflexivity|eauto].
Qed.

Theorem work_same {R} (rd : reader R) r s :
  match Scan ScanGraphemeClusters rd r s with
  | Ret (r', s', o) => exists l f, ScanWork rd r s = Ret (r', s', o, l, f)
  | Panic e => ScanWork rd r s = Panic e
  end.
Proof. apply loop_same. Qed.

Theorem work_erase {R} (rd : reader R) r s r' s' o l f :
  ScanWork rd r s = Ret (r', s', o, l, f) -> Scan ScanGraphemeClusters rd r s = Ret (r', s', o).
Proof.
  intros H. pose proof (work_same rd r s) as K. destruct (Scan _ _ _ _) as [[[r1 s1] o1]|e].
  - destruct K as (l1 & f1 & K). congruence.
  - congruence.
Qed.

(* ---- iterations *)

Lemma work_iter {R} (rd : reader R) fuel r s l f : inv s ->
  let eof := match s_err s with None => false | Some _ => true end in
  (s_start s <? s_end s) || eof = true ->
  (exists n t k, scan_cost (data s) eof = Ret (n, Some t, None, k) /\
     ScanGraphemeClusters (data s) eof = Ret (n, Some t, None) /\ n = length t /\ 1 <= n <= length (data s) /\
     work_loop rd (S fuel) r s l f =
       Ret (r, advanced s n, Some (Slice (length (s_old s)) (s_start s) (length t)), l + k, f) /\
     bytes_of (advanced s n) (Slice (length (s_old s)) (s_start s) (length t)) = t) \/
  (exists k, scan_cost (data s) eof = Ret (0, None, None, k) /\ ScanGraphemeClusters (data s) eof = Ret (0, None, None) /\
     work_loop rd (S fuel) r s l f =
     (let! (r', s', again) := more rd r s in
      if again then work_loop rd fuel r' s' (l + k) (S f) else Ret (r', s', None, l + k, f))).
Proof.
  intros H eof Hc. cbn [work_loop]. fold eof. rewrite Hc. rewrite held_ok by exact H. cbn [bind].
  pose proof (data_length s H) as Hl. pose proof (scan_cost_same (data s) eof) as K.
  destruct (scan_shape (data s) eof) as [[E _]|(n & E & Hn)]; rewrite E in K; destruct K as [k K]; rewrite K; cbn [bind].
  - right. exists k. split; [reflexivity|]. split; [exact E|].
    replace (s_end s - s_start s <? 0) with false by reflexivity.
    rewrite Nat.add_0_r. destruct s; reflexivity.
  - left. exists n, (firstn n (data s)), k. split; [reflexivity|]. split; [exact E|].
    assert (length (firstn n (data s)) = n) as Hf by (rewrite firstn_length; lia).
    split; [lia|]. split; [lia|].
    replace (s_end s - s_start s <? n) with false by lia.
    replace (negb eof || (0 <? n)) with true by lia.
    split; [reflexivity|]. apply token_bytes; [exact H|lia|]. rewrite Hf. reflexivity.
Qed.

Lemma work_none {R} (rd : reader R) fuel r s l f : s_err s = None -> s_start s = s_end s ->
  work_loop rd (S fuel) r s l f =
     (let! (r', s', again) := more rd r s in
      if again then work_loop rd fuel r' s' l (S f) else Ret (r', s', None, l, f)).
Proof. intros He Hs. cbn [work_loop]. rewrite He, Hs, Nat.ltb_irrefl. reflexivity. Qed.

Lemma more_false {R} (rd : reader R) r s r' s' : inv s -> s_err s = None ->
  more rd r s = Ret (r', s', false) -> s_err s' = Some ErrTooLong.
Proof.
  intros H He. unfold more. rewrite He.
  destruct (shift_ok s H) as (s1 & -> & I1 & D1 & L1 & O1 & E1 & M1 & F1 & _). cbn [bind].
  destruct (resize_ok s1 I1 F1) as [(-> & _)|(s2 & -> & _)]; cbn [bind].
  - intros E. assert (s' = setErr s1 ErrTooLong) as -> by congruence. rewrite setErr_none by congruence. reflexivity.
  - destruct (fill rd _ r s2). discriminate.
Qed.

Definition ended (s : scanner) : nat := match s_err s with None => 0 | Some _ => 1 end.

(* ---- upper bound *)
Lemma work_bound {R} (rd : reader R) : forall fuel r s l f r' s' o l' f', inv s ->
  work_loop rd fuel r s l f = Ret (r', s', o, l', f') ->
  inv s' /\ limit s' = limit s /\ f <= f' /\
  match o with
  | Some sl =>
      let t := bytes_of s' sl in
      (exists ext eof, ScanGraphemeClusters (data s ++ ext) eof = Ret (length t, Some t, None)) /\
      l' <= l + (length t + 1) + (f' - f) * (length t + 3) /\
      length (data s) + ended s + (f' - f) <= length (data s') + length t + ended s' /\
      length t <= limit s
  | None =>
      (data s = [] /\ data s' = [] /\ l' = l /\ ended s + (f' - f) <= ended s') \/
      (s_err s' = Some ErrTooLong /\ l' <= l + (f' - f + 1) * limit s)
  end.
Proof.
  induction fuel as [|fuel IH]; intros r s l f r' s' o l' f' H E; [discriminate|].
  assert (Hmore : forall k, k <= length (data s) ->
    ScanGraphemeClusters (data s) (match s_err s with None => false | Some _ => true end) = Ret (0, None, None) ->
    (data s = [] -> k = 0) ->
    (let! (r', s', again) := more rd r s in
      if again then work_loop rd fuel r' s' (l + k) (S f) else Ret (r', s', None, l + k, f)) = Ret (r', s', o, l', f') ->
    inv s' /\ limit s' = limit s /\ f <= f' /\
    match o with
    | Some sl =>
      let t := bytes_of s' sl in
      (exists ext eof, ScanGraphemeClusters (data s ++ ext) eof = Ret (length t, Some t, None)) /\
      l' <= l + (length t + 1) + (f' - f) * (length t + 3) /\
      length (data s) + ended s + (f' - f) <= length (data s') + length t + ended s' /\
      length t <= limit s
    | None =>
      (data s = [] /\ data s' = [] /\ l' = l /\ ended s + (f' - f) <= ended s') \/
      (s_err s' = Some ErrTooLong /\ l' <= l + (f' - f + 1) * limit s)
    end).
  { clear E. intros k Hk Hp Hk0 E. pose proof (data_length s H) as Hl.
    assert (length (data s) <= limit s) as Hlim by (unfold limit, inv in *; lia).
    destruct (more_any rd r s H) as (r1 & s1 & again & Em & I1 & L1 & _ & A1 & _). rewrite Em in E. cbn [bind] in E.
    destruct again.
    - destruct (A1 eq_refl) as (He & chunk & D1 & O1). rewrite He in Hp.
      assert (ended s = 0) as Es by (unfold ended; rewrite He; reflexivity).
      assert (length (data s) + 1 <= length (data s1) + ended s1) as Hgrow.
      { rewrite D1, app_length. unfold ended. destruct O1 as [[-> Hc]|(e & -> & _)]; [destruct chunk; [congruence|cbn [length]; lia]|lia]. }
      destruct (IH _ _ _ _ _ _ _ _ _ I1 E) as (I2 & L2 & Hf & K).
      split; [exact I2|]. split; [congruence|]. split; [lia|].
      destruct o as [sl|].
      + cbn zeta in *. destruct K as ((ext & eof & Kt) & Kl & Kd & Km).
        rewrite D1, <- app_assoc in Kt. split; [eauto|].
        pose proof (scan_lookahead _ _ _ _ _ Hp Kt) as Hlook.
        split; [|split; [lia|lia]].
        replace (f' - f) with (S (f' - S f)) by lia. cbn [Nat.mul]. lia.
      + destruct K as [(K1 & K2 & K3 & K4)|(K1 & K2)].
        * left. rewrite K1 in Hgrow. cbn [length] in Hgrow. rewrite D1 in K1. apply app_eq_nil in K1. destruct K1 as [K1 _].
          split; [exact K1|]. split; [exact K2|]. split; [rewrite (Hk0 K1) in K3; lia|].
          rewrite K1 in Hgrow. cbn [length] in Hgrow.
          lia.
        * right. split; [exact K1|]. rewrite L1 in K2. replace (f' - f + 1) with (S (f' - S f + 1)) by lia. cbn [Nat.mul]. lia.
    - assert (r' = r1 /\ s' = s1 /\ o = None /\ l' = l + k /\ f' = f) as (-> & -> & -> & -> & ->) by (repeat split; congruence).
      split; [exact I1|]. split; [exact L1|]. split; [lia|]. destruct (s_err s) as [e|] eqn:He.
      + left. destruct (more_stop rd r s e He) as (s2 & E2 & _ & Ee & D2 & _). assert (s2 = s1) as -> by congruence.
        assert (data s = []) as D0.
        { destruct (data s) as [|b d] eqn:D; [reflexivity|]. exfalso. cbv iota in Hp.
          destruct (scan_progress (b :: d) ltac:(discriminate)) as (n & Kn & _). congruence. }
        split; [exact D0|]. split; [exact D2|]. split; [rewrite (Hk0 D0); lia|]. unfold ended. rewrite He, Ee. lia.
      + right. split; [exact (more_false rd r s _ _ H He Em)|]. rewrite Nat.sub_diag. cbn [Nat.add Nat.mul]. lia. }
  destruct ((s_start s <? s_end s) || match s_err s with None => false | Some _ => true end) eqn:Hc.
  - destruct (work_iter rd fuel r s l f H Hc) as [(n & t & k & Ek & Es & Hnt & Hn & Ew & Hb)|(k & Ek & Es & Ew)]; rewrite Ew in E.
    + assert (r' = r /\ s' = advanced s n /\ o = Some (Slice (length (s_old s)) (s_start s) (length t)) /\ l' = l + k /\ f' = f)
        as (-> & -> & -> & -> & ->) by (repeat split; congruence).
      pose proof (data_length s H) as Hl.
      split; [unfold inv, advanced in *; cbn [s_start s_end s_buf]; lia|]. split; [reflexivity|]. split; [lia|].
      cbn zeta. rewrite Hb. split; [exists []; eexists; rewrite app_nil_r; rewrite <- Hnt; exact Es|].
      pose proof (scan_cost_bound _ _ _ _ _ _ Ek) as Hk. split; [lia|].
      rewrite advanced_data by (exact H || lia). rewrite skipn_length. unfold ended, advanced. cbn [s_err].
      split; [lia|]. unfold limit, inv in *. lia.
    + apply (Hmore k); [|exact Es| |exact E].
      * eapply scan_cost_any. exact Ek.
      * intros D. rewrite D in Ek. cbn [scan_cost is_empty] in Ek. congruence.
  - destruct (s_err s) eqn:He; [rewrite orb_true_r in Hc; discriminate|]. rewrite orb_false_r in Hc.
    assert (s_start s = s_end s) as Hse by (unfold inv in H; lia).
    rewrite work_none in E by assumption. apply (Hmore 0); [lia| |reflexivity|rewrite Nat.add_0_r; exact E].
    unfold data. rewrite Hse, Nat.sub_diag. reflexivity.
Qed.

(* a whole run *)
Lemma run_bound {R} (rd : reader R) r s toks r' s' l f : scans_work rd r s toks r' s' l f -> inv s ->
  scans ScanGraphemeClusters rd r s toks r' s' /\
  forall m, Forall (fun t => length t <= m) toks ->
  (s_err s' <> Some ErrTooLong ->
     l <= 2 * length (concat toks) + f * (m + 3) /\ length (data s) + ended s + f <= length (concat toks) + 1) /\
  (limit s <= m -> l <= 2 * length (concat toks) + (f + 1) * (m + 3)).
Proof.
  induction 1 as [r s r' s' l f E|r s r1 s1 sl toks r' s' l f l' f' E W IH]; intros H.
  - split; [constructor; eapply work_erase; exact E|]. intros m _. apply work_bound in E; [|exact H].
    destruct E as (_ & _ & _ & [(D & _ & -> & K)|(K1 & K2)]); rewrite Nat.sub_0_r in *.
    + cbn [concat length]. rewrite D. cbn [length]. split; [intros _; split; [apply Nat.le_0_l|]; assert (ended s' <= 1) by (unfold ended; destruct (s_err s'); lia); lia|intros; apply Nat.le_0_l].
    + split; [congruence|]. intros Hm. nia.
  - pose proof E as E'. apply work_bound in E; [|exact H]. cbn zeta in E. destruct E as (I1 & L1 & _ & _ & K1 & K2 & K3).
    rewrite Nat.sub_0_r in *. destruct (IH I1) as (S1 & IH'). clear IH.
    split; [econstructor; [eapply work_erase; exact E'|exact S1]|].
    intros m Hm. inversion Hm as [|? ? M1 M2]; subst. cbn [concat]. rewrite app_length.
    assert (1 <= length (bytes_of s1 sl)) as Hpos.
    { pose proof (work_erase _ _ _ _ _ _ _ _ E') as Es.
      destruct (Scan_any ScanGraphemeClusters rd r s Properties.Bufio.good H) as (ra & sa & oa & Ea & _ & _ & _ & _ & Oa).
      rewrite Es in Ea. assert (sa = s1 /\ oa = Some sl) as (-> & ->) by (split; congruence).
      destruct Oa as (_ & d & eof & n & Ed). destruct (scan_shape d eof) as [[Q _]|(n' & Q & Hn)]; [congruence|].
      assert (bytes_of s1 sl = firstn n' d) as -> by congruence. rewrite firstn_length. lia. }
    destruct (IH' m M2) as (A & B). split.
    + intros Hne. destruct (A Hne) as (A1 & A2). split; [nia|lia].
    + intros Hlim. rewrite L1 in B. specialize (B Hlim). nia.
Qed.

(* ---- lower bound: "e" with n combining acute accents, one byte at a time *)
From Verif Require Import Proofs.TableCheck.

Fixpoint marks (n : nat) (tail : list byte) : list byte :=
  match n with O => tail | S n' => xcc :: x81 :: marks n' tail end.

Lemma marks_length n tail : length (marks n tail) = 2 * n + length tail.
Proof. induction n as [|n IH]; cbn [marks length]; [lia|]. rewrite IH. lia. Qed.

Lemma look_e rest : LookupFirstChar (x65 :: rest) = Ret (0%N, 1).
Proof.
  assert (LookupFirstChar [x65] = Ret (0%N, 1)) as E by (vm_compute; reflexivity).
  apply (lookup_stable [x65] rest) in E; [exact E|lia].
Qed.
Lemma look_mark rest : LookupFirstChar (xcc :: x81 :: rest) = Ret (35%N, 2).
Proof.
  assert (LookupFirstChar [xcc; x81] = Ret (35%N, 2)) as E by (vm_compute; reflexivity).
  apply (lookup_stable [xcc; x81] rest) in E; [exact E|lia].
Qed.
Lemma look_half : LookupFirstChar [xcc] = Ret (0%N, 0).
Proof. vm_compute. reflexivity. Qed.

Lemma loop_marks d tail : (tail = [] \/ tail = [xcc]) -> forall n fuel count p k,
  length (marks n tail) < fuel -> (p = 0 \/ p = 35)%N ->
  scan_loop_cost fuel d false (marks n tail) count StateBase p k = Ret (0, None, None, k + n + length tail).
Proof.
  intros Ht. induction n as [|n IH]; intros fuel count p k Hf Hp.
  - destruct fuel as [|fuel]; [lia|]. cbn [marks scan_loop_cost]. destruct Ht as [-> | ->]; cbn [is_empty].
    + cbn [length]. do 2 f_equal. lia.
    + rewrite look_half. cbn [bind length]. change (0 =? Error)%N with false. cbn [Nat.eqb negb andb]. do 2 f_equal. lia.
  - destruct fuel as [|fuel]; [lia|]. cbn [marks scan_loop_cost is_empty]. rewrite look_mark. cbn [bind].
    change (35 =? Error)%N with false. cbn [Nat.eqb].
    rewrite slice_from_ok by (cbn [length]; lia). cbn [bind skipn].
    assert (Transition StateBase p 35%N = Ret (false, StateBase)) as -> by (destruct Hp as [-> | ->]; vm_compute; reflexivity).
    cbn [bind]. rewrite IH; [do 2 f_equal; lia| |right; reflexivity]. cbn [marks length] in Hf. lia.
Qed.

Lemma cost_marks n tail : (tail = [] \/ tail = [xcc]) ->
  scan_cost (x65 :: marks n tail) false = Ret (0, None, None, 1 + n + length tail).
Proof.
  intros Ht. unfold scan_cost. cbn [is_empty]. rewrite look_e. cbn [bind]. change (0 =? Error)%N with false. cbn [Nat.eqb].
  rewrite slice_from_ok by (cbn [length]; lia). cbn [bind skipn].
  assert (Begin 0%N = Ret StateBase) as -> by (vm_compute; reflexivity). cbn [bind].
  rewrite loop_marks; [reflexivity|exact Ht|lia|left; reflexivity].
Qed.

Lemma marks_prefix n : forall i, i <= 2 * n -> exists a tail, (tail = [] \/ tail = [xcc]) /\
  firstn i (marks n []) = marks a tail /\ i = 2 * a + length tail.
Proof.
  induction n as [|n IH]; intros i Hi.
  - exists 0, []. cbn [marks]. rewrite firstn_nil. cbn [length]. split; [auto|]. split; [reflexivity|lia].
  - destruct i as [|[|i]].
    + exists 0, []. cbn. auto.
    + exists 0, [xcc]. cbn. auto.
    + destruct (IH i ltac:(lia)) as (a & tail & Ht & E & Hl). exists (S a), tail. split; [exact Ht|].
      cbn [marks firstn]. rewrite E. split; [reflexivity|lia].
Qed.

Lemma cost_prefix n i : 1 <= i <= 2 * n + 1 ->
  exists k, scan_cost (firstn i (x65 :: marks n [])) false = Ret (0, None, None, k) /\ i <= 2 * k.
Proof.
  intros Hi. destruct i as [|i]; [lia|]. cbn [firstn]. destruct (marks_prefix n i ltac:(lia)) as (a & tail & Ht & -> & Hl).
  rewrite cost_marks by exact Ht. eexists. split; [reflexivity|]. lia.
Qed.

(* one more byte *)
Lemma more_one b rest s : inv s -> s_err s = None -> sane_max s -> length (data s) < limit s ->
  exists s', more one_byte_reader (b :: rest) s = Ret (rest, s', true) /\ inv s' /\ limit s' = limit s /\ s_max s' = s_max s /\
    data s' = data s ++ [b] /\ s_err s' = None.
Proof.
  intros H He Hm Hd. unfold more. rewrite He.
  destruct (shift_ok s H) as (s1 & -> & I1 & D1 & L1 & O1 & E1 & M1 & F1 & _). cbn [bind].
  destruct (resize_ok s1 I1 F1) as [(-> & Hd1 & Hmax)|(s2 & -> & I2 & D2 & F2 & L2 & M2 & E2 & _)]; cbn [bind].
  - exfalso. unfold limit, sane_max, half_maxInt in *. rewrite D1, L1, M1 in *. lia.
  - pose proof I2 as I2'. unfold inv in I2'.
    erewrite (fill_data one_byte_reader _ _ s2 rest 1 [b]);
      [|unfold one_byte_reader; destruct (length (s_buf s2) - s_end s2) eqn:Q; [lia|reflexivity]|lia].
    eexists. split; [reflexivity|].
    split; [unfold inv; cbn [s_start s_end s_buf]; rewrite overwrite_length by lia; lia|].
    split; [unfold limit in *; cbn [s_buf s_max]; rewrite overwrite_length by lia; congruence|].
    split; [cbn [s_max]; congruence|].
    split; [|cbn [s_err]; congruence].
    rewrite <- D1, <- D2. rewrite (data_extend _ (s_buf s2)); [|lia|rewrite overwrite_length by lia; lia|apply overwrite_before; lia].
    rewrite (overwrite_at (s_buf s2) (s_end s2) [b] 1) by (cbn [length]; lia). reflexivity.
Qed.

(* the sum i + (i+1) + ... + top *)
Fixpoint sum_from (i count : nat) : nat := match count with O => 0 | S c => i + sum_from (S i) c end.

Lemma sum_from_eq : forall c i, 2 * sum_from i c + c = c * (2 * i + c).
Proof. induction c as [|c IH]; intros i; cbn [sum_from]; [reflexivity|]. specialize (IH (S i)). lia. Qed.

Lemma work_mono {R} (rd : reader R) : forall fuel r s l f r' s' o l' f',
  work_loop rd fuel r s l f = Ret (r', s', o, l', f') -> l <= l'.
Proof.
  induction fuel as [|fuel IH]; intros r1 s1 l1 f1 r2 s2 o2 l2 f2 K; cbn [work_loop] in K; [discriminate|].
  assert (Hmore : forall s l0, l1 <= l0 -> (let! (r', s', again) := more rd r1 s in
     if again then work_loop rd fuel r' s' l0 (S f1) else Ret (r', s', None, l0, f1)) = Ret (r2, s2, o2, l2, f2) -> l1 <= l2).
  { intros s3 l0 Hl Q. destruct (more rd r1 s3) as [[[ra sa] again]|]; cbn [bind] in Q; [|discriminate].
    destruct again; [apply IH in Q; lia|]. assert (l2 = l0) by congruence. lia. }
  destruct (_ || _); [|eapply (Hmore _ l1); [lia|exact K]].
  destruct (held s1); cbn [bind] in K; [|discriminate].
  destruct (scan_cost _ _) as [[[[advance token] err] k]|]; cbn [bind] in K; [|discriminate].
  destruct err; [assert (l2 = l1 + k) by congruence; lia|].
  destruct (_ <? advance); [assert (l2 = l1 + k) by congruence; lia|].
  destruct token; [|eapply (Hmore _ (l1 + k)); [lia|exact K]].
  destruct (negb _ || _); [assert (l2 = l1 + k) by congruence; lia|].
  destruct (maxConsecutiveEmptyReads <? _); [discriminate|assert (l2 = l1 + k) by congruence; lia].
Qed.

Lemma loop_slow n : forall c fuel s l f r' s' o l' f' i,
  i + c = 2 * n + 2 -> 1 <= i ->
  inv s -> s_err s = None -> sane_max s -> 2 * n + 2 <= limit s ->
  data s = firstn i (x65 :: marks n []) ->
  work_loop one_byte_reader fuel (skipn i (x65 :: marks n [])) s l f = Ret (r', s', o, l', f') ->
  2 * l + sum_from i c <= 2 * l'.
Proof.
  assert (length (x65 :: marks n []) = 2 * n + 1) as HL by (cbn [length]; rewrite marks_length; cbn [length]; lia).
  set (text := x65 :: marks n []) in *.
  induction c as [|c IH]; intros fuel s l f r' s' o l' f' i Hi Hi1 H He Hm Hlim Hd E.
  - cbn [sum_from]. rewrite Nat.add_0_r.
    apply work_mono in E. lia.
  - destruct fuel as [|fuel]; [discriminate|]. pose proof (data_length s H) as Hl.
    assert (length (data s) = i) as Hdi by (rewrite Hd, firstn_length; lia).
    assert ((s_start s <? s_end s) || match s_err s with None => false | Some _ => true end = true) as Hc by lia.
    destruct (cost_prefix n i ltac:(lia)) as (k0 & Ek0 & Hk0). fold text in Ek0. rewrite <- Hd in Ek0.
    destruct (work_iter one_byte_reader fuel (skipn i text) s l f H Hc) as [(n1 & t & k & Ek & _)|(k & Ek & _ & Ew)];
      rewrite He in Ek; [congruence|]. assert (k = k0) as -> by congruence. rewrite Ew in E. clear Ew.
    cbn [sum_from]. destruct c as [|c].
    + cbn [sum_from]. destruct (more one_byte_reader (skipn i text) s) as [[[ra sa] again]|]; cbn [bind] in E; [|discriminate].
      destruct again; [|assert (l' = l + k0) by congruence; lia].
      apply work_mono in E. lia.
    + destruct (skipn i text) as [|b rest] eqn:Es.
      { assert (length (skipn i text) = 0) as Z by (rewrite Es; reflexivity). rewrite skipn_length in Z. lia. }
      destruct (more_one b rest s H He Hm ltac:(lia)) as (s1 & Em & I1 & L1 & M1 & D1 & E1).
      rewrite Em in E. cbn [bind] in E.
      assert (rest = skipn (S i) text) as Er by (change (S i) with (1 + i); rewrite Nat.add_comm, skipn_add, Es; reflexivity).
      rewrite Er in E. assert (sane_max s1) as Hm1 by (unfold sane_max in *; rewrite M1; exact Hm).
      assert (data s1 = firstn (S i) text) as Hd1.
      { rewrite D1, Hd. replace (S i) with (i + 1) by lia. rewrite firstn_add, Es. reflexivity. }
      pose proof (IH fuel s1 (l + k0) (S f) r' s' o l' f' (S i) ltac:(lia) ltac:(lia) I1 E1 Hm1 ltac:(lia) Hd1 E) as K.
      cbn [sum_from] in *. lia.
Qed.
