(* Property C49: how long the Fields of an Entry are good. *)
From Coq Require Import List NArith ZArith Arith Bool Lia ZifyBool ZifyNat ZifyN Strings.Byte Strings.String.
From Verif Require Import Spec.Readers Spec.UcdFile.
From Verif Require Import Model.Base Model.Scan Model.Bufio Model.UcdParse Model.EntryMemory.
From Verif Require Import Proofs.Basics Proofs.BufioFacts Proofs.KeepFacts Proofs.ParseFacts Proofs.UcdFacts
  Proofs.EntryMemoryFacts.
From Verif Require Import Properties.Bufio Properties.Parsing.
Import ListNotations.
Notation length := List.length.

(* A program that looks at each entry before it asks for the next one sees
   exactly the results C31 describes, whatever the reader does. *)
Theorem C49_prompt : forall R (rd : reader R) r outs,
  (exists r' s', prompt rd r newLineScan outs r' s') <-> ucd_results rd r outs.
Proof.
  intros R rd r outs. split; intros (r' & s' & H); exists r', s'; apply prompt_calls; exact H.
Qed.

(* ... also when it sees them through the whole history of calls: after a call
   that returned an entry, its Fields show the fields of its line until the next
   call, and no other operation of the API changes them. *)
Theorem C49_call : forall R (rd : reader R) r s r' s' o,
  next_mem rd r s r' s' o -> NextEntry rd r s r' s' (seen s' o).
Proof. exact @next_mem_seen. Qed.

(* Entries may be kept when the whole file has at most 2048 bytes, whatever the
   reader's schedule: however many calls follow, each entry still shows what it
   showed at first. *)
Theorem C49_small : forall R (rd : reader R) r file e outs r' s',
  delivers rd 100 r file e -> length file <= 2048 ->
  kept rd r newLineScan outs r' s' -> ucd_results rd r (map (seen s') outs).
Proof.
  intros R rd r file e outs r' s' Hd L H.
  assert (2048 <= Nat.min startBufSize (s_max NewScanner) / 2) as H1 by (apply Nat.leb_le; vm_compute; reflexivity).
  assert (0 < s_max NewScanner) as H0 by (apply Nat.ltb_lt; vm_compute; reflexivity).
  assert (bare NewScanner) as Hb by (split; [|split; [|split]]; reflexivity).
  exists r', s'. apply prompt_calls.
  exact (kept_prompt_bare rd e r NewScanner file outs r' s' Hb H0 Hd (Nat.le_trans _ _ _ L H1) H).
Qed.

(* ---- without a bound on the file, a kept entry changes *)

Fixpoint next_fn {R} (rd : reader R) (n : nat) (r : R) (s : scanner) : res (R * scanner * result MemEntry) :=
  match n with
  | O => Panic OutOfFuel
  | S n' =>
      let! (r1, s1, o) := Scan ScanLines rd r s in
      match o with
      | None => Ret (r1, s1, inr (no_more s1))
      | Some raw =>
          match parse_slice s1 raw with
          | Some out => Ret (r1, s1, out)
          | None => next_fn rd n' r1 s1
          end
      end
  end.

Lemma next_fn_ok {R} (rd : reader R) : forall n r s r' s' o, next_fn rd n r s = Ret (r', s', o) -> next_mem rd r s r' s' o.
Proof.
  induction n as [|n IH]; intros r s r' s' o H; [discriminate|]. cbn [next_fn] in H.
  destruct (Scan ScanLines rd r s) as [[[r1 s1] [raw|]]|p] eqn:E; [| |discriminate]; cbn [bind] in H.
  - destruct (parse_slice s1 raw) as [out|] eqn:P.
    + assert (r1 = r' /\ s1 = s' /\ out = o) as (<- & <- & <-) by (split; [|split]; congruence). eapply mem_found; eassumption.
    + eapply mem_skip; [exact E|exact P|]. apply IH. exact H.
  - assert (r1 = r' /\ s1 = s' /\ inr (no_more s1) = o) as (<- & <- & <-) by (split; [|split]; congruence). constructor. exact E.
Qed.

Definition byte_string (b : byte) (n : nat) : list byte := repeat b n.
(* 61 ; A, four comment lines of 1050 bytes, 62 ; B *)
Definition big_file : list byte :=
  list_byte_of_string ("61 ; A" ++ nl)%string ++
  List.concat (repeat (x23 :: byte_string x2d 1048 ++ [x0a]) 4) ++
  list_byte_of_string ("62 ; B" ++ nl)%string.

Definition two {R} (rd : reader R) (r : R) : res (list (result Entry)) :=
  let! (r1, s1, o1) := next_fn rd 10 r newLineScan in
  let! (r2, s2, o2) := next_fn rd 10 r1 s1 in
  Ret [seen s1 o1; seen s2 o1; seen s2 o2].

Definition fields_are (o : result Entry) (t : string) : bool :=
  match o with
  | inl e => if list_eq_dec Byte.byte_eq_dec (Fields e) (list_byte_of_string t) then true else false
  | inr _ => false
  end.

Definition changes (x : res (list (result Entry))) (a b : string) : bool :=
  match x with
  | Ret [o1; o1'; o2] => fields_are o1 a && negb (fields_are o1' a) && fields_are o1' b
  | _ => false
  end.

Lemma big_file_changes : changes (two bytes_reader big_file) "A" "-" = true.
Proof. vm_cast_no_check (eq_refl true). Qed.

Lemma two_changes {R} (rd : reader R) r a b : changes (two rd r) a b = true ->
  exists e1 o2 r1 s1 r2 s2,
    next_mem rd r newLineScan r1 s1 (inl e1) /\ next_mem rd r1 s1 r2 s2 o2 /\
    bytes_of s1 (m_Fields e1) = list_byte_of_string a /\
    bytes_of s2 (m_Fields e1) = list_byte_of_string b /\ list_byte_of_string b <> list_byte_of_string a.
Proof.
  unfold two. intros H.
  destruct (next_fn rd 10 r newLineScan) as [[[r1 s1] o1]|p] eqn:E1; [|discriminate]. cbn [bind] in H.
  destruct (next_fn rd 10 r1 s1) as [[[r2 s2] o2]|p] eqn:E2; [|discriminate]. cbn [bind changes] in H.
  apply next_fn_ok in E1. apply next_fn_ok in E2. destruct o1 as [e1|err]; [|discriminate].
  unfold fields_are in H. cbn [seen Fields] in H.
  destruct (list_eq_dec Byte.byte_eq_dec (bytes_of s1 (m_Fields e1)) (list_byte_of_string a)) as [A|]; [|discriminate].
  destruct (list_eq_dec Byte.byte_eq_dec (bytes_of s2 (m_Fields e1)) (list_byte_of_string a)) as [|B]; [discriminate|].
  destruct (list_eq_dec Byte.byte_eq_dec (bytes_of s2 (m_Fields e1)) (list_byte_of_string b)) as [C|]; [|discriminate].
  exists e1, o2, r1, s1, r2, s2. split; [exact E1|]. split; [exact E2|]. split; [exact A|]. split; [exact C|]. congruence.
Qed.

(* The Fields of the first entry are "A" after the first call of NextEntry and
   "-" after the second: reading a file with bytes.Reader is enough. *)
Theorem C49_refuted : exists file e1 o2 r1 s1 r2 s2,
  next_mem bytes_reader file newLineScan r1 s1 (inl e1) /\ next_mem bytes_reader r1 s1 r2 s2 o2 /\
  bytes_of s1 (m_Fields e1) = list_byte_of_string "A" /\
  bytes_of s2 (m_Fields e1) = list_byte_of_string "-".
Proof.
  destruct (two_changes bytes_reader big_file "A" "-" big_file_changes) as (e1 & o2 & r1 & s1 & r2 & s2 & H1 & H2 & H3 & H4 & _).
  exists big_file, e1, o2, r1, s1, r2, s2. auto.
Qed.

(* And 2048 is the best bound for all readers: with 2049 bytes a reader that
   uses the space it is offered at the end of the file as scratch space, as
   io.Reader allows, changes the entry. *)
Definition edge_file : list byte :=
  list_byte_of_string ("61 ; A" ++ nl)%string ++ x23 :: byte_string x2d 2040 ++ [x0a].

Lemma edge_file_changes : changes (two messy edge_file) "A" "z" = true.
Proof. vm_cast_no_check (eq_refl true). Qed.

Theorem C49_sharp : exists R (rd : reader R) r file e1 o2 r1 s1 r2 s2,
  delivers rd 100 r file EOF /\ length file = 2049 /\
  next_mem rd r newLineScan r1 s1 (inl e1) /\ next_mem rd r1 s1 r2 s2 o2 /\
  bytes_of s1 (m_Fields e1) = list_byte_of_string "A" /\
  bytes_of s2 (m_Fields e1) = list_byte_of_string "z".
Proof.
  destruct (two_changes messy edge_file "A" "z" edge_file_changes) as (e1 & o2 & r1 & s1 & r2 & s2 & H1 & H2 & H3 & H4 & _).
  exists (list byte), messy, edge_file, edge_file, e1, o2, r1, s1, r2, s2.
  split; [apply messy_delivers|]. split; [vm_compute; reflexivity|]. auto.
Qed.

(* A case that meets the hypotheses of C49_small: the sample of C31, read in
   dribs and drabs; its entries are kept to the end. *)
Fixpoint kept_fn {R} (rd : reader R) (n : nat) (r : R) (s : scanner) : res (R * scanner * list (result MemEntry)) :=
  match n with
  | O => Ret (r, s, [])
  | S n' =>
      let! (r1, s1, o) := next_fn rd 10 r s in
      let! (r2, s2, outs) := kept_fn rd n' r1 s1 in Ret (r2, s2, o :: outs)
  end.

Lemma kept_fn_ok {R} (rd : reader R) : forall n r s r' s' outs, kept_fn rd n r s = Ret (r', s', outs) -> kept rd r s outs r' s'.
Proof.
  induction n as [|n IH]; intros r s r' s' outs H; cbn [kept_fn] in H.
  - assert (r = r' /\ s = s' /\ [] = outs) as (<- & <- & <-) by (split; [|split]; congruence). constructor.
  - destruct (next_fn rd 10 r s) as [[[r1 s1] o]|p] eqn:E; [|discriminate]. cbn [bind] in H.
    destruct (kept_fn rd n r1 s1) as [[[r2 s2] outs']|p] eqn:E2; [|discriminate]. cbn [bind] in H.
    assert (r2 = r' /\ s2 = s' /\ o :: outs' = outs) as (<- & <- & <-) by (split; [|split]; congruence).
    econstructor; [apply next_fn_ok in E; exact E|]. apply IH. exact E2.
Qed.

Definition sample_shows (x : res ((bool * list byte) * scanner * list (result MemEntry))) : bool :=
  match x with
  | Ret (_, s, [o1; o2; inr (InvalidStart _ ErrRange); inr (InvalidStart _ ErrSyntax); inr EOF; inr EOF]) =>
      fields_are (seen s o1) "InCB;  Linker" && fields_are (seen s o2) "Control;;"
  | _ => false
  end.

Example C49_example : exists outs r' s',
  delivers (nagging EOF) 100 (true, ucd_sample) ucd_sample EOF /\ length ucd_sample <= 2048 /\
  kept (nagging EOF) (true, ucd_sample) newLineScan outs r' s' /\ sample_shows (Ret (r', s', outs)) = true.
Proof.
  assert (sample_shows (kept_fn (nagging EOF) 6 (true, ucd_sample) newLineScan) = true) as H by vm_cast_no_check (eq_refl true).
  destruct (kept_fn (nagging EOF) 6 (true, ucd_sample) newLineScan) as [[[r' s'] outs]|p] eqn:E; [|discriminate].
  exists outs, r', s'. split; [apply nagging_delivers; lia|]. split; [apply Nat.leb_le; vm_compute; reflexivity|].
  split; [eapply kept_fn_ok; exact E|exact H].
Qed.

Definition all_theorems := (C49_prompt, C49_call, C49_small, C49_refuted, C49_sharp).
Print Assumptions all_theorems.
