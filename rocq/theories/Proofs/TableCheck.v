(* The committed table agrees with the UCD ranges on every structurally
   complete UTF-8 sequence. *)
From Coq Require Import List NArith Arith Bool Lia FMapPositive Strings.Byte.
From Coq Require Import ZArith ZifyBool ZifyNat ZifyN.
From Verif Require Import Spec.Classes Spec.Utf8 Spec.UcdRanges Spec.Segmentation.
From Verif Require Import Model.Base Model.CharProps Model.Lookup Proofs.Basics.
Import ListNotations.
Ltac Zify.zify_post_hook ::= Z.div_mod_to_equations.
Local Open Scope N_scope.

(* ---- how classes are coded in CharProperties *)

Definition gcb_code (g : GCB) : N :=
  match g with
  | Other => GCBNone | CR => GCBCR | LF => GCBLF | Control => GCBControl
  | Extend => GCBExtend | ZWJ => GCBZWJ | Regional_Indicator => GCBRegionalIndicator
  | Prepend => GCBPrepend | SpacingMark => GCBSpacingMark | L => GCBL | V => GCBV
  | T => GCBT | LV => GCBLV | LVT => GCBLVT
  end.

Definition incb_code (i : InCB) : N :=
  match i with
  | InCB_None => InCBNone | InCB_Consonant => InCBConsonant
  | InCB_Extend => InCBExtend | InCB_Linker => InCBLinker
  end.

Definition enc (c : cls) : N :=
  (if extpict c then GCBExtendedPictographic else gcb_code (gcb c)) + incb_code (incb c).

(* Combinations of properties that occur. *)
Definition good_classes : list cls :=
  [ Cls Other false InCB_None; Cls Other true InCB_None; Cls Other false InCB_Consonant;
    Cls CR false InCB_None; Cls LF false InCB_None; Cls Control false InCB_None;
    Cls Extend false InCB_None; Cls Extend false InCB_Extend; Cls Extend false InCB_Linker;
    Cls ZWJ false InCB_Extend; Cls Regional_Indicator false InCB_None;
    Cls Prepend false InCB_None; Cls SpacingMark false InCB_None; Cls L false InCB_None;
    Cls V false InCB_None; Cls T false InCB_None; Cls LV false InCB_None;
    Cls LVT false InCB_None ].

Definition cls_eqb (a b : cls) : bool :=
  GCB_eqb (gcb a) (gcb b) && Bool.eqb (extpict a) (extpict b) && InCB_eqb (incb a) (incb b).

Lemma cls_eqb_spec a b : reflect (a = b) (cls_eqb a b).
Proof.
  unfold cls_eqb. destruct a as [ga ea ia], b as [gb eb ib]; simpl.
  destruct (GCB_eqb_spec ga gb); [|constructor; congruence].
  destruct (InCB_eqb_spec ia ib); [|rewrite andb_false_r; constructor; congruence].
  destruct ea, eb; constructor; congruence.
Qed.

Definition goodb (c : cls) : bool := existsb (cls_eqb c) good_classes.
Definition good (c : cls) : Prop := In c good_classes.

Lemma goodb_good c : goodb c = true -> good c.
Proof.
  unfold goodb, good. rewrite existsb_exists. intros [x [Hin He]].
  destruct (cls_eqb_spec c x); congruence.
Qed.

Lemma good_plain : good plain. Proof. left; reflexivity. Qed.
Lemma good_control : good control. Proof. do 5 right; left; reflexivity. Qed.

(* ---- a fast map with the same content as the ranges *)

Fixpoint paint_range {V} (lo : N) (n : nat) (v : V) (m : PositiveMap.t V) : PositiveMap.t V :=
  match n with
  | O => m
  | S n' => PositiveMap.add (N.succ_pos lo) v (paint_range (N.succ lo) n' v m)
  end.

Definition paint {V} (rs : list (N * N * V)) : PositiveMap.t V :=
  fold_right (fun '(lo, hi, v) m => paint_range lo (N.to_nat (hi + 1 - lo)) v m)
             (PositiveMap.empty V) rs.

Lemma find_paint_range {V} (v : V) m n : forall lo c,
  PositiveMap.find (N.succ_pos c) (paint_range lo n v m) =
  if (lo <=? c) && (c <? lo + N.of_nat n) then Some v
  else PositiveMap.find (N.succ_pos c) m.
Proof.
  induction n as [|n IH]; intros lo c; simpl paint_range.
  - destruct (_ && _) eqn:E; [lia|reflexivity].
  - destruct (N.eq_dec c lo) as [->|Hne].
    + rewrite PositiveMap.gss. destruct (_ && _) eqn:E; [reflexivity|lia].
    + rewrite PositiveMap.gso by (intros E; apply succ_pos_inj in E; congruence).
      rewrite IH.
      replace ((N.succ lo <=? c) && (c <? N.succ lo + N.of_nat n))
        with ((lo <=? c) && (c <? lo + N.of_nat (S n))) by lia.
      reflexivity.
Qed.

Lemma find_paint {V} (rs : list (N * N * V)) c :
  PositiveMap.find (N.succ_pos c) (paint rs) = listed c rs.
Proof.
  induction rs as [|[[lo hi] v] rs IH]; cbn [paint fold_right listed].
  - apply PositiveMap.gempty.
  - rewrite find_paint_range. fold (paint rs). rewrite IH.
    replace ((lo <=? c) && (c <? lo + N.of_nat (N.to_nat (hi + 1 - lo))))
      with ((lo <=? c) && (c <=? hi)) by lia.
    reflexivity.
Qed.

Definition gcb_map := paint gcb_ranges.
Definition extpict_map := paint extpict_ranges.
Definition incb_map := paint incb_ranges.

Definition fast_class (c : N) : cls :=
  Cls (match PositiveMap.find (N.succ_pos c) gcb_map with Some g => g | None => Other end)
      (match PositiveMap.find (N.succ_pos c) extpict_map with Some tt => true | None => false end)
      (match PositiveMap.find (N.succ_pos c) incb_map with Some i => i | None => InCB_None end).

Lemma fast_class_ok c : fast_class c = ucd_class c.
Proof.
  unfold fast_class, ucd_class, gcb_map, extpict_map, incb_map.
  rewrite !find_paint. reflexivity.
Qed.

(* ---- the computed comparison *)

Definition conts : list byte := map (fun n => mkbyte (128 + N.of_nat n)) (seq 0 64).
Definition leads (lo : N) (n : nat) : list byte := map (fun i => mkbyte (lo + N.of_nat i)) (seq 0 n).

Definition ok1 (r : res CharProperties) (c : cls) : bool :=
  goodb c && match r with Ret p => p =? enc c | Panic _ => false end.

(* class expected for a complete sequence with payload v whose shortest form
   starts at [min] *)
Definition expect (canon : bool) (v : N) : cls := if canon then fast_class v else plain.

Definition canon2 (v : N) := 0x80 <=? v.
Definition canon3 (v : N) := (0x800 <=? v) && negb ((0xD800 <=? v) && (v <? 0xE000)).
Definition canon4 (v : N) := (0x10000 <=? v) && (v <? 0x110000).

Definition check1 : bool :=
  forallb (fun a => ok1 (walk committed [a] 1) (fast_class (bval a))) (leads 0 128).

Definition check2 : bool :=
  forallb (fun a => forallb (fun b =>
    let v := (bval a - 0xC0) * 64 + (bval b - 0x80) in
    ok1 (walk committed [a; b] 2) (expect (canon2 v) v)) conts) (leads 0xC0 32).

(* Most blocks of 64 code points have no listed property, and the table sends
   them all to one block of zeros: such a block is compared in one step.  (The
   comparison code point by code point needs ten times longer, and twenty times
   that again in coqchk, which has no virtual machine.) *)
Definition touched {V} (rs : list (N * N * V)) : list (N * N * unit) :=
  map (fun '(lo, hi, _) => (lo / 64, hi / 64, tt)) rs.

Definition gcb_blocks := paint (touched gcb_ranges).
Definition extpict_blocks := paint (touched extpict_ranges).
Definition incb_blocks := paint (touched incb_ranges).

Definition absent (b : N) (m : PositiveMap.t unit) : bool :=
  match PositiveMap.find (N.succ_pos b) m with Some _ => false | None => true end.

Definition quiet (b : N) : bool :=
  absent b gcb_blocks && absent b extpict_blocks && absent b incb_blocks.

Lemma touched_listed {V} (rs : list (N * N * V)) c :
  listed (c / 64) (touched rs) = None -> listed c rs = None.
Proof.
  induction rs as [|[[lo hi] v] rs IH]; cbn [touched map listed]; [reflexivity|].
  fold (touched rs). destruct ((lo <=? c) && (c <=? hi)) eqn:E; [|].
  - replace ((lo / 64 <=? c / 64) && (c / 64 <=? hi / 64)) with true; [discriminate|].
    symmetry. apply andb_true_iff in E. destruct E as [E1 E2].
    apply N.leb_le in E1, E2.
    apply andb_true_iff. split; apply N.leb_le; apply N.div_le_mono; lia.
  - destruct ((lo / 64 <=? c / 64) && (c / 64 <=? hi / 64)); [discriminate|exact IH].
Qed.

Lemma quiet_class c b : quiet b = true -> c / 64 = b -> fast_class c = plain.
Proof.
  intros H <-. rewrite fast_class_ok. unfold quiet, absent in H.
  unfold gcb_blocks, extpict_blocks, incb_blocks in H. rewrite !find_paint in H.
  destruct (listed (c / 64) (touched gcb_ranges)) eqn:E1; [discriminate|].
  destruct (listed (c / 64) (touched extpict_ranges)) eqn:E2; [discriminate|].
  destruct (listed (c / 64) (touched incb_ranges)) eqn:E3; [discriminate|].
  unfold ucd_class. rewrite !touched_listed by assumption. reflexivity.
Qed.

(* blocks of properties that hold only zeros *)
Definition zero_blocks : list N := [2; 16].

Definition zero_check : bool :=
  forallb (fun z => forallb (fun d =>
    match aget (t_props committed) (N.shiftl z 6 + low6 d) with
    | Ret p => p =? 0 | Panic _ => false end) conts) zero_blocks.

Definition idx3 (tb : tables) (a b : byte) : res N :=
  let! i := aget (t_indices tb) (low6 a) in aget (t_indices tb) (N.shiftl i 6 + low6 b).
Definition idx4 (tb : tables) (a b c : byte) : res N :=
  let! i := idx3 tb a b in aget (t_indices tb) (N.shiftl i 6 + low6 c).

Definition is_zero_block (r : res N) : bool :=
  match r with Ret i => existsb (N.eqb i) zero_blocks | Panic _ => false end.

Definition check3 : bool :=
  forallb (fun a => forallb (fun b =>
    let w := (bval a - 0xE0) * 64 + (bval b - 0x80) in
    if (if quiet w then is_zero_block (idx3 committed a b) else false) then true else
    forallb (fun c =>
      let v := (bval a - 0xE0) * 4096 + (bval b - 0x80) * 64 + (bval c - 0x80) in
      ok1 (walk committed [a; b; c] 3) (expect (canon3 v) v)) conts) conts) (leads 0xE0 16).

Definition check4 : bool :=
  forallb (fun a => forallb (fun b => forallb (fun c =>
    let w := (bval a - 0xF0) * 4096 + (bval b - 0x80) * 64 + (bval c - 0x80) in
    if (if quiet w then is_zero_block (idx4 committed a b c) else false) then true else
    forallb (fun d =>
      let v := (bval a - 0xF0) * 262144 + (bval b - 0x80) * 4096
               + (bval c - 0x80) * 64 + (bval d - 0x80) in
      ok1 (walk committed [a; b; c; d] 4) (expect (canon4 v) v)) conts) conts) conts) (leads 0xF0 8).

Lemma zero_check_ok : zero_check = true. Proof. vm_compute. reflexivity. Qed.
Lemma check1_ok : check1 = true. Proof. vm_compute. reflexivity. Qed.
Lemma check2_ok : check2 = true. Proof. vm_compute. reflexivity. Qed.
Lemma check3_ok : check3 = true. Proof. vm_compute. reflexivity. Qed.
Lemma check4_ok : check4 = true. Proof. vm_compute. reflexivity. Qed.

#[global] Opaque committed fast_class quiet leads conts.

Lemma in_leads a lo n : lo <= bval a < lo + N.of_nat n -> In a (leads lo n).
Proof.
  Transparent leads. unfold leads. Opaque leads.
  intros H. apply in_map_iff. exists (N.to_nat (bval a - lo)). split.
  - rewrite N2Nat.id. replace (lo + (bval a - lo)) with (bval a) by lia. apply mkbyte_bval.
  - apply in_seq. lia.
Qed.

Lemma in_conts a : is_cont a -> In a conts.
Proof.
  Transparent conts leads. intros H. apply (in_leads a 128 64). unfold is_cont in H. lia.
Qed.
Opaque conts leads.

Lemma zero_props i d : is_zero_block (Ret i) = true -> In d conts ->
  aget (t_props committed) (N.shiftl i 6 + low6 d) = Ret 0.
Proof.
  cbn [is_zero_block]. intros E Hd. apply existsb_exists in E. destruct E as (z & Hz & E).
  apply N.eqb_eq in E. subst z.
  pose proof zero_check_ok as K. unfold zero_check in K. rewrite forallb_forall in K.
  specialize (K i Hz). cbv beta in K. rewrite forallb_forall in K.
  specialize (K d Hd). cbv beta in K. destruct (aget _ _); [|discriminate].
  apply N.eqb_eq in K. congruence.
Qed.

Lemma ok1_plain canon v : fast_class v = plain -> ok1 (Ret 0) (expect canon v) = true.
Proof. intros H. unfold expect. rewrite H. destruct canon; reflexivity. Qed.

Lemma table3 a b c : 0xE0 <= bval a < 0xF0 -> is_cont b -> is_cont c ->
  let v := (bval a - 0xE0) * 4096 + (bval b - 0x80) * 64 + (bval c - 0x80) in
  ok1 (walk committed [a; b; c] 3) (expect (canon3 v) v) = true.
Proof.
  intros Ha Hb Hc v.
  pose proof check3_ok as K. unfold check3 in K. rewrite forallb_forall in K.
  specialize (K a (in_leads a 0xE0 16 ltac:(lia))). cbv beta in K.
  rewrite forallb_forall in K. specialize (K b (in_conts b Hb)). cbv beta zeta in K.
  match type of K with (if ?b then _ else _) = _ => destruct b eqn:K0 end.
  - clear K. rename K0 into K. destruct (quiet _) eqn:Q; [|discriminate].
    destruct (idx3 committed a b) as [i|] eqn:Ei; [|discriminate].
    assert (walk committed [a; b; c] 3 = Ret 0) as ->.
    { unfold idx3 in Ei. cbn [walk index nth_error bind].
      destruct (aget (t_indices committed) (low6 a)) as [j|]; [|discriminate].
      cbn [bind] in *. rewrite Ei. cbn [bind]. apply zero_props; [exact K|].
      apply in_conts; assumption. }
    apply ok1_plain. apply (quiet_class _ _ Q). unfold v. unfold is_cont in *. lia.
  - rewrite forallb_forall in K. exact (K c (in_conts c Hc)).
Qed.

Lemma table4 a b c d : 0xF0 <= bval a < 0xF8 -> is_cont b -> is_cont c -> is_cont d ->
  let v := (bval a - 0xF0) * 262144 + (bval b - 0x80) * 4096
           + (bval c - 0x80) * 64 + (bval d - 0x80) in
  ok1 (walk committed [a; b; c; d] 4) (expect (canon4 v) v) = true.
Proof.
  intros Ha Hb Hc Hd v.
  pose proof check4_ok as K. unfold check4 in K. rewrite forallb_forall in K.
  specialize (K a (in_leads a 0xF0 8 ltac:(lia))). cbv beta in K.
  rewrite forallb_forall in K. specialize (K b (in_conts b Hb)). cbv beta zeta in K.
  rewrite forallb_forall in K. specialize (K c (in_conts c Hc)). cbv beta zeta in K.
  match type of K with (if ?b then _ else _) = _ => destruct b eqn:K0 end.
  - clear K. rename K0 into K. destruct (quiet _) eqn:Q; [|discriminate].
    destruct (idx4 committed a b c) as [i|] eqn:Ei; [|discriminate].
    assert (walk committed [a; b; c; d] 4 = Ret 0) as ->.
    { unfold idx4, idx3 in Ei. cbn [walk index nth_error bind].
      destruct (aget (t_indices committed) (low6 a)) as [j|]; [|discriminate].
      cbn [bind] in *.
      destruct (aget (t_indices committed) (N.shiftl j 6 + low6 b)) as [k|]; [|discriminate].
      cbn [bind] in *. rewrite Ei. cbn [bind]. apply zero_props; [exact K|].
      apply in_conts; assumption. }
    apply ok1_plain. apply (quiet_class _ _ Q). unfold v. unfold is_cont in *. lia.
  - rewrite forallb_forall in K. exact (K d (in_conts d Hd)).
Qed.
