(* Property C27: what a call does to memory, under any interleaving. *)
From Coq Require Import List NArith Arith Bool Lia ZifyBool ZifyNat ZifyN Strings.Byte.
From Verif Require Import Model.Base Model.CharProps Model.Lookup Model.Machine Model.Scan Model.Memory.
From Verif Require Import Proofs.Basics Proofs.TableCheck Proofs.LookupFacts Proofs.ScanFacts Proofs.MemoryFacts.
Import ListNotations.

(* a call in progress or about to start: its argument data, the bytes data
   shows, and atEOF *)
Record call := Call { c_data : bslice; c_bytes : list byte; c_eof : bool }.

(* the bytes are what the slice shows in memory *)
Definition shows (m : memory) (s : bslice) (bs : list byte) : Prop :=
  b_len s = length bs /\ b_len s <= b_cap s /\
  forall i b, nth_error bs i = Some b -> m_heap m (b_base s + N.of_nat i)%N = b.

(* data[0:len(data)] as addresses *)
Definition within (s : bslice) (a : N) : Prop := (b_base s <= a < b_base s + N.of_nat (b_len s))%N.

(* the tables of property_table_raw.go and their sizes *)
Definition table_size (t : table) : N := match t with Indices => 1600 | Props => 15104 end.
Definition tables_intact (m : memory) : Prop :=
  (forall i, (i < 1600)%N -> m_table m Indices i = aget_raw (t_indices committed) i) /\
  (forall i, (i < 15104)%N -> m_table m Props i = aget_raw (t_props committed) i).

(* a change of memory by others leaves the arguments and the tables alone *)
Definition hands_off (calls : list call) (m1 m2 : memory) : Prop :=
  (forall c a, In c calls -> within (c_data c) a -> m_heap m2 a = m_heap m1 a) /\
  (forall t i, (i < table_size t)%N -> m_table m2 t i = m_table m1 t i).

Definition program (c : call) : prog m_scan_result := m_ScanGraphemeClusters (c_data c) (c_eof c).

Local Transparent committed.
Lemma indices_size : alen (t_indices committed) = 1600%N.
Proof. unfold committed. cbn [t_indices]. rewrite alen_of_list. vm_compute. reflexivity. Qed.
Lemma props_size : alen (t_props committed) = 15104%N.
Proof. unfold committed. cbn [t_props]. rewrite alen_of_list. vm_compute. reflexivity. Qed.

Local Opaque committed.

Definition call_view (m : memory) (c : call) : view :=
  View (fun a => if (b_base (c_data c) <=? a)%N && (a <? b_base (c_data c) + N.of_nat (b_len (c_data c)))%N
                 then Some (m_heap m a) else None)
       (fun t i => if (i <? table_size t)%N then Some (m_table m t i) else None).

Lemma view_agrees m c : agrees (call_view m c) m.
Proof.
  split; intros; cbn [call_view v_heap v_table] in *.
  - destruct (_ && _) in H; congruence.
  - destruct (_ <? _)%N in H; congruence.
Qed.

Lemma view_holds m c : shows m (c_data c) (c_bytes c) -> holds (call_view m c) (c_data c) (c_bytes c).
Proof.
  intros (Hl & Hc & Hb). constructor; auto. intros i b Hi. cbn [call_view v_heap].
  assert (i < length (c_bytes c)) by (apply nth_error_Some; congruence).
  replace (_ && _) with true by lia. rewrite (Hb i b Hi). reflexivity.
Qed.

Lemma view_tables m c : tables_intact m -> has_tables (call_view m c).
Proof.
  intros [Hi Hp]. unfold has_tables. rewrite indices_size, props_size. cbn [call_view v_table table_size].
  split; intros i H; replace (_ <? _)%N with true by lia; f_equal; auto.
Qed.

Lemma view_stays m calls c m1 m2 : In c calls -> hands_off calls m1 m2 ->
  agrees (call_view m c) m1 -> agrees (call_view m c) m2.
Proof.
  intros Hin [Hh Ht] [Ah At]. split.
  - intros a b E. rewrite (Hh c a Hin); [apply Ah; exact E|]. cbn [call_view v_heap] in E.
    destruct (_ && _) eqn:K in E; [|discriminate]. unfold within. lia.
  - intros t i x E. rewrite Ht; [apply At; exact E|]. cbn [call_view v_table] in E.
    destruct (_ <? _)%N eqn:K in E; [lia|discriminate].
Qed.

(* what the caller of a finished call sees *)
Definition expected (c : call) : res m_scan_result :=
  match ScanGraphemeClusters (c_bytes c) (c_eof c) with
  | Ret r => Ret (located (c_data c) r)
  | Panic e => Panic e
  end.

(* C27. Any number of calls run concurrently on arguments that may overlap,
   in any interleaving with each other and with others that leave the arguments
   and the tables alone (everything else in memory may change at any time,
   including the bytes between length and capacity).  Then:
   - the calls do nothing but read their own argument within its length and
     table entries within bounds;
   - a call that has ended returned what the split function gives for the bytes
     of its argument, the token being data[:advance] with data's capacity;
   - no call panics, and each can run to its end at any time. *)
Theorem C27_memory : forall (others : memory -> memory -> Prop) calls m tr m' ps,
  (forall c, In c calls -> shows m (c_data c) (c_bytes c)) -> tables_intact m ->
  (forall m1 m2, others m1 m2 -> hands_off calls m1 m2) ->
  interleaves others m (map program calls) tr m' ps ->
  (forall i e, In (i, e) tr -> exists c, nth_error calls i = Some c /\
     ((exists a, e = ReadAt (Heap a) /\ within (c_data c) a) \/
      (exists t j, e = ReadAt (Table t j) /\ (j < table_size t)%N))) /\
  (forall i c r, nth_error calls i = Some c -> nth_error ps i = Some (Done r) ->
     exists advance token, ScanGraphemeClusters (c_bytes c) (c_eof c) = Ret (advance, token, None) /\
       r = (advance,
            match token with
            | Some _ => Some (Bslice (b_base (c_data c)) advance (b_cap (c_data c)))
            | None => None
            end, None)) /\
  (forall i e, nth_error ps i <> Some (Crash e)) /\
  (forall i c, nth_error calls i = Some c -> exists tr2 m2 ps2 r,
     interleaves others m (map program calls) (tr ++ tr2) m2 ps2 /\ nth_error ps2 i = Some (Done r)).
Proof.
  intros others calls m tr m' ps Hs Ht Ho Hi.
  set (views := fun i => match nth_error calls i with Some c => call_view m c | None => View (fun _ => None) (fun _ _ => None) end).
  set (outs := fun i => match nth_error calls i with Some c => expected c | None => Panic OutOfFuel end).
  assert (Hex : forall c, exists advance token, ScanGraphemeClusters (c_bytes c) (c_eof c) = Ret (advance, token, None) /\
    expected c = Ret (advance,
            match token with
            | Some _ => Some (Bslice (b_base (c_data c)) advance (b_cap (c_data c)))
            | None => None
            end, None)).
  { intros c. unfold expected.
    destruct (scan_shape (c_bytes c) (c_eof c)) as [[E _]|(n & E & Hn)]; rewrite E; eexists; eexists;
      (split; [reflexivity|]); cbn [located]; [reflexivity|].
    rewrite firstn_length_le by lia. reflexivity. }
  assert (H0 : forall i p, nth_error (map program calls) i = Some p ->
    agrees (views i) m /\ eval (views i) p = Some (outs i)).
  { intros i p E. rewrite nth_error_map in E. destruct (nth_error calls i) as [c|] eqn:Ec; [|discriminate].
    cbn [option_map] in E. injection E as <-. unfold views, outs. rewrite Ec.
    split; [apply view_agrees|]. destruct (Hex c) as (n & t & E & _). unfold expected. rewrite E. unfold program.
    apply nth_error_In in Ec. apply eval_scan with (bs := c_bytes c); [apply view_holds; auto|apply view_tables; auto|exact E]. }
  assert (H1 : forall i p m1 m2, nth_error (map program calls) i = Some p -> others m1 m2 ->
    agrees (views i) m1 -> agrees (views i) m2).
  { intros i p m1 m2 E Hm. rewrite nth_error_map in E. destruct (nth_error calls i) as [c|] eqn:Ec; [|discriminate].
    unfold views. rewrite Ec. eapply view_stays; [eapply nth_error_In; exact Ec|apply Ho; exact Hm]. }
  assert (Hres : forall tr m' ps, interleaves others m (map program calls) tr m' ps ->
    length ps = length calls /\
    (forall i p, nth_error ps i = Some p -> eval (views i) p = Some (outs i)) /\
    (forall i e, In (i, e) tr -> exists l, e = ReadAt l /\ seen (views i) l)).
  { intros tr0 m0 ps0 H. destruct (interleaves_eval others views outs _ _ _ _ _ H H0 H1) as (L & E & T).
    rewrite map_length in L. split; [exact L|]. split; [|exact T]. intros i p K. apply E. exact K. }
  destruct (Hres _ _ _ Hi) as (L & E & T).
  assert (Hlt : forall i p, nth_error ps i = Some p -> exists c, nth_error calls i = Some c).
  { intros i p K. assert (i < length calls) as Hlt by (rewrite <- L; apply nth_error_Some; congruence).
    destruct (nth_error calls i) eqn:K'; [eauto|]. apply nth_error_None in K'. lia. }
  split; [|split; [|split]].
  - intros i e Hin. destruct (T i e Hin) as (l & -> & Hl). unfold views in Hl.
    destruct (nth_error calls i) as [c|]; [|destruct l; cbn [seen v_heap v_table] in Hl; congruence].
    exists c. split; [reflexivity|]. destruct l as [a|t j]; cbn [seen call_view v_heap v_table] in Hl.
    + left. exists a. split; [reflexivity|]. destruct (_ && _) eqn:K in Hl; [|congruence]. unfold within. lia.
    + right. exists t, j. split; [reflexivity|]. destruct (_ <? _)%N eqn:K in Hl; [lia|congruence].
  - intros i c r Hc Hr. apply E in Hr. cbn [eval] in Hr. unfold outs in Hr. rewrite Hc in Hr.
    destruct (Hex c) as (n & t & E1 & E2). exists n, t. split; [exact E1|]. rewrite E2 in Hr. congruence.
  - intros i e Hr. destruct (Hlt _ _ Hr) as [c Hc]. apply E in Hr. cbn [eval] in Hr. unfold outs in Hr. rewrite Hc in Hr.
    destruct (Hex c) as (n & t & E1 & E2). rewrite E2 in Hr. discriminate.
  - intros i c Hc. assert (i < length ps) as Hlen by (rewrite L; apply nth_error_Some; congruence).
    destruct (nth_error ps i) as [p|] eqn:Hp; [|apply nth_error_None in Hp; lia].
    apply nth_error_split in Hp. destruct Hp as (ps1 & ps2 & -> & Hl1).
    destruct (runs_alone others p m _ tr m' ps1 ps2 Hi) as (tr2 & m2 & p' & Hi2 & Hp').
    destruct (Hres _ _ _ Hi2) as (_ & E2 & _).
    assert (nth_error (ps1 ++ p' :: ps2) i = Some p') as Hn.
    { subst i. rewrite nth_error_app2, Nat.sub_diag by lia. reflexivity. }
    destruct Hp' as [[r ->]|[e ->]]; [eauto 6|]. apply E2 in Hn. cbn [eval] in Hn. unfold outs in Hn. rewrite Hc in Hn.
    destruct (Hex c) as (n & t & _ & E4). rewrite E4 in Hn. discriminate.
Qed.

(* Without others, memory stays as it is. *)
Theorem C27_unchanged : forall calls m tr m' ps,
  (forall c, In c calls -> shows m (c_data c) (c_bytes c)) -> tables_intact m ->
  interleaves (fun _ _ => False) m (map program calls) tr m' ps -> m' = m.
Proof.
  intros calls m tr m' ps Hs Ht Hi.
  assert (Hr : forall i e, In (i, e) tr -> exists l, e = ReadAt l).
  { destruct (C27_memory (fun _ _ => False) calls m tr m' ps Hs Ht (fun _ _ (K : False) => match K with end) Hi) as (H & _).
    intros i e Hin. destruct (H i e Hin) as (c & _ & [(a & -> & _)|(t & j & -> & _)]); eauto. }
  clear Hs Ht. remember (map program calls) as ps0 eqn:E. clear E.
  induction Hi as [|m ps0 tr m1 ps1 ps2 i p p' e m2 Hi IH Hlen Ha|m ps0 tr m1 ps1 m2 Hi IH Hbad]; [reflexivity| |contradiction Hbad].
  rewrite <- IH.
  - destruct (Hr i e) as [l ->]; [apply in_app_iff; right; left; reflexivity|]. inversion Ha; reflexivity.
  - intros j e' Hin. apply (Hr j). apply in_app_iff. left. exact Hin.
Qed.

(* Two overlapping calls on "e" acute "a", stored at address 100 with spare
   capacity, and a goroutine that keeps overwriting what lies behind. *)
Definition example_bytes : list byte := [x65; xcc; x81; x61].
Definition example_calls : list call :=
  [Call (Bslice 100 4 8) example_bytes false; Call (Bslice 101 3 7) [xcc; x81; x61] true].
Definition example_memory : memory :=
  Memory (fun a => nth (N.to_nat (a - 100)) example_bytes xff)
         (fun t i => match t with Indices => aget_raw (t_indices committed) i | Props => aget_raw (t_props committed) i end).
Definition scribbler (m1 m2 : memory) : Prop := exists b, m2 = set_heap m1 104 b.

Example C27_applies :
  (forall c, In c example_calls -> shows example_memory (c_data c) (c_bytes c)) /\
  tables_intact example_memory /\
  (forall m1 m2, scribbler m1 m2 -> hands_off example_calls m1 m2) /\
  exists tr m' ps, interleaves scribbler example_memory (map program example_calls) tr m' ps /\
    nth_error ps 0 = Some (Done (3, Some (Bslice 100 3 8), None)).
Proof.
  assert (H1 : forall c, In c example_calls -> shows example_memory (c_data c) (c_bytes c)).
  { intros c [<-|[<-|[]]]; cbn [c_data c_bytes]; (split; [reflexivity|]; split; [cbn [b_len b_cap]; lia|]);
      intros i b H; cbn [b_base];
      repeat (destruct i as [|i]; [cbn [nth_error] in H; injection H as <-; reflexivity|]); destruct i; discriminate. }
  assert (H2 : tables_intact example_memory) by (split; reflexivity).
  assert (H3 : forall m1 m2, scribbler m1 m2 -> hands_off example_calls m1 m2).
  { intros m1 m2 [b ->]. split; [|reflexivity]. intros c a [<-|[<-|[]]] Hw; unfold within in Hw; cbn [c_data b_base b_len] in Hw;
      cbn [set_heap m_heap]; replace (a =? 104)%N with false by lia; reflexivity. }
  split; [exact H1|]. split; [exact H2|]. split; [exact H3|].
  assert (Hstart : interleaves scribbler example_memory (map program example_calls) []
            (set_heap example_memory 104 x00) (map program example_calls)).
  { eapply inter_others; [apply inter_start|]. exists x00. reflexivity. }
  destruct (C27_memory scribbler example_calls _ _ _ _ H1 H2 H3 Hstart) as (_ & _ & _ & Hend).
  destruct (Hend 0 _ eq_refl) as (tr2 & m2 & ps2 & r & Hi & Hr).
  exists ([] ++ tr2), m2, ps2. split; [exact Hi|]. rewrite Hr. f_equal. f_equal.
  destruct (C27_memory scribbler example_calls _ _ _ _ H1 H2 H3 Hi) as (_ & Hres & _).
  destruct (Hres 0 _ r eq_refl Hr) as (n & t & E & ->).
  cbn [example_calls c_data c_bytes c_eof b_base b_cap] in *.
  assert (ScanGraphemeClusters example_bytes false = Ret (3, Some [x65; xcc; x81], None)) as K by (vm_compute; reflexivity).
  rewrite K in E. injection E as <- <-. reflexivity.
Qed.

Definition all_theorems := (C27_memory, C27_unchanged, C27_applies).
Print Assumptions all_theorems.
