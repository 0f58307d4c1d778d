(* Properties C31, C32, C43: the parsers of the data files. *)
From Coq Require Import List NArith ZArith Arith Bool Lia Strings.Byte Strings.String.
From Coq Require Import ZifyBool ZifyNat ZifyN.
From Verif Require Import Spec.Utf8 Spec.Readers Spec.UcdFile Spec.ErrorValues.
From Verif Require Import Model.Base Model.Scan Model.Bufio Model.UcdParse.
From Verif Require Import Proofs.Basics Proofs.BufioFacts Proofs.ParseFacts Proofs.UcdFacts Proofs.TestDataFacts.
From Verif Require Import Properties.Bufio.
Import ListNotations.
Notation length := List.length.
Ltac Zify.zify_post_hook ::= Z.div_mod_to_equations.

(* ---- the statements' own vocabulary *)

(* z is the number n as a 32-bit rune; for n below 2^31 it is n itself *)
Definition as_rune (n : N) (z : Z) : Prop :=
  (- 2 ^ 31 <= z < 2 ^ 31)%Z /\ exists k, z = (Z.of_N n + k * 2 ^ 32)%Z.

(* What NextEntry returns for a line that is not ignored. *)
Definition answers (m : meaning) (o : result Entry) : Prop :=
  match m with
  | Ignored => False
  | Data first last fields => exists e, o = inl e /\
      as_rune first (Start e) /\ as_rune (last + 1) (End e) /\
      AllFields e = Ret fields /\ FirstField e = hd [] fields
  | Malformed f => o = inr (error_for f)
  end.

Definition ignored (m : meaning) : bool := match m with Ignored => true | _ => false end.

(* [results rd r outs]: as many calls of NextEntry on a new scanner for the
   reader r as outs has elements return these results, one after the other. *)
Definition ucd_results {R} (rd : reader R) (r : R) (outs : list (result Entry)) : Prop :=
  exists r' s', calls (fun raw => Ret (parse_line raw)) rd r newLineScan outs r' s'.
Definition test_results {R} (rd : reader R) (r : R) (outs : list (result TestDataEntry)) : Prop :=
  exists r' s', calls parse_test_line rd r newLineScan outs r' s'.

Lemma as_rune_int32 n : as_rune n (int32 (Z.of_N n)).
Proof.
  unfold as_rune, int32. split; [lia|].
  exists (- ((Z.of_N n + 2147483648) / 4294967296))%Z.
  pose proof (Z_div_mod_eq_full (Z.of_N n + 2147483648) 4294967296). lia.
Qed.

Lemma as_rune_small n z : (n < 2 ^ 31)%N -> as_rune n z <-> z = Z.of_N n.
Proof.
  intros H. unfold as_rune. split.
  - intros [L [k ->]]. assert (k = 0)%Z by lia. lia.
  - intros ->. split; [lia|]. exists 0%Z. lia.
Qed.

Lemma as_rune_unique n z1 z2 : as_rune n z1 -> as_rune n z2 -> z1 = z2.
Proof. intros [L1 [k1 E1]] [L2 [k2 E2]]. assert (k1 = k2) by lia. lia. Qed.

Lemma reports_answers m o : reports m o -> answers m o.
Proof.
  destruct m as [|first last fields|f], o as [e|err]; cbn [reports answers]; try tauto.
  - intros (H1 & H2 & H3 & H4). exists e. split; [reflexivity|]. rewrite H1, H2.
    split; [apply as_rune_int32|]. split; [|auto].
    replace (Z.of_N last + 1)%Z with (Z.of_N (last + 1)) by lia. apply as_rune_int32.
  - intros ->. reflexivity.
Qed.

Lemma outcomes_of lines ms : Forall2 line_means lines ms ->
  exists outs, outcomes (fun raw => Ret (parse_line raw)) lines outs /\
    Forall2 answers (filter (fun m => negb (ignored m)) ms) outs.
Proof.
  induction 1 as [|l m lines ms Hl H (outs & IH1 & IH2)]; [exists []; split; constructor|].
  pose proof (parse_line_ok l m Hl) as K. destruct m; cbn [ignored negb filter].
  - exists outs. split; [|assumption]. constructor; [|assumption]. rewrite parse_line_dropCR, K. reflexivity.
  - destruct K as (o & K & Ho). exists (o :: outs). split.
    + constructor; [|assumption]. rewrite parse_line_dropCR, K. reflexivity.
    + constructor; [|assumption]. apply reports_answers. exact Ho.
  - destruct K as (o & K & Ho). exists (o :: outs). split.
    + constructor; [|assumption]. rewrite parse_line_dropCR, K. reflexivity.
    + constructor; [|assumption]. apply reports_answers. exact Ho.
Qed.

(* ---- C31 *)

(* Every byte sequence is a sequence of lines in exactly one way, and every line
   has exactly one meaning: the theorems below cover every file. *)
Theorem C31_lines_exist file : exists lines, file_lines file lines /\ forall lines', file_lines file lines' -> lines' = lines.
Proof.
  destruct (file_lines_total file) as [ls H]. exists ls. split; [exact H|]. intros ls' H'.
  symmetry. eapply file_lines_fun; eassumption.
Qed.

Theorem C31_meaning_exists l : exists m, line_means l m /\ forall m', line_means l m' -> m' = m.
Proof.
  exists (meaning_of l). split; [apply meaning_of_iff; reflexivity|]. intros m' H. apply meaning_of_iff in H. congruence.
Qed.

(* Whatever the reader's schedule: when all lines are shorter than 64 KiB, the
   calls return the results of the lines that are not ignored, in order, and
   then, as often as one asks, the reader's error (EOF at the end of the file). *)
Theorem C31_file {R} (rd : reader R) r file e lines ms :
  delivers rd 100 r file e -> file_lines file lines ->
  Forall (fun l => length l < 64 * 1024) lines -> Forall2 line_means lines ms ->
  exists outs, Forall2 answers (filter (fun m => negb (ignored m)) ms) outs /\
    forall n, ucd_results rd r (outs ++ repeat (inr e) n).
Proof.
  intros Hd Hf HF Hm. destruct (outcomes_of lines ms Hm) as (outs & Ho & Ha). exists outs. split; [exact Ha|].
  intros n. destruct (new_scanner rd r file e Hd) as (I & M & L & A).
  eapply calls_lines; eassumption.
Qed.

(* The results are determined: any sequence of calls returns these. *)
Theorem C31_deterministic {R} (rd : reader R) r outs1 outs2 :
  ucd_results rd r outs1 -> ucd_results rd r outs2 -> length outs1 = length outs2 -> outs1 = outs2.
Proof. intros (r1 & s1 & H1) (r2 & s2 & H2) L. eapply (calls_fun _ _ _ _ _ _ _ H1 _ _ _ H2 L). Qed.

(* For proper files - every data line has a range of code points - the entries
   are exactly the ranges of the file, with exclusive ends, and their fields. *)
Definition entry_of (d : N * N * list (list byte)) (o : result Entry) : Prop :=
  let '(first, last, fields) := d in
  exists e, o = inl e /\ Start e = Z.of_N first /\ End e = (Z.of_N last + 1)%Z /\
    AllFields e = Ret fields /\ FirstField e = hd [] fields.

Theorem C31_code_points {R} (rd : reader R) r file lines ms ds :
  delivers rd 100 r file EOF -> file_lines file lines ->
  Forall (fun l => length l < 64 * 1024) lines -> Forall2 line_means lines ms ->
  filter (fun m => negb (ignored m)) ms = map (fun '(first, last, fields) => Data first last fields) ds ->
  Forall (fun '(first, last, fields) => first <= 0x10FFFF /\ last <= 0x10FFFF)%N ds ->
  exists outs, Forall2 entry_of ds outs /\ forall n, ucd_results rd r (outs ++ repeat (inr EOF) n).
Proof.
  intros Hd Hf HF Hm E Hds. destruct (C31_file rd r file EOF lines ms Hd Hf HF Hm) as (outs & Ha & K).
  exists outs. split; [|exact K]. rewrite E in Ha. clear - Ha Hds. revert outs Ha.
  induction Hds as [|[[first last] fields] ds [L1 L2] Hds IH]; intros outs Ha; cbn [map] in Ha; inversion Ha as [|m o ms' os A B]; subst;
    constructor; [|auto].
  destruct A as (e & -> & H1 & H2 & H3 & H4). exists e. split; [reflexivity|].
  apply as_rune_small in H1; [|lia]. apply as_rune_small in H2; [|lia]. split; [exact H1|]. split; [lia|]. auto.
Qed.

(* A line that does not fit the 64 KiB of the scanner: the results of the lines
   before it, then bufio.ErrTooLong.  A caller that goes on nevertheless is given
   the first 64 KiB as if they were a line, and then the error for ever. *)
Theorem C31_too_long {R} (rd : reader R) r file e lines long rest ms m :
  delivers rd 100 r file e -> file_lines file (lines ++ long :: rest) -> oversize file long rest ->
  Forall (fun l => length l < 64 * 1024) lines -> Forall2 line_means lines ms ->
  line_means (firstn (64 * 1024) long) m ->
  exists outs part, Forall2 answers (filter (fun m => negb (ignored m)) ms) outs /\
    Forall2 answers (filter (fun m => negb (ignored m)) [m]) part /\
    forall n, ucd_results rd r (outs ++ inr ErrTooLong :: part ++ repeat (inr ErrTooLong) n).
Proof.
  intros Hd Hf Hl HF Hm Hp. destruct (outcomes_of lines ms Hm) as (outs & Ho & Ha).
  destruct (outcomes_of [firstn (64 * 1024) long] [m]) as (part & Ho' & Ha'); [repeat constructor; exact Hp|].
  exists outs, part. split; [exact Ha|]. split; [exact Ha'|]. intros n.
  destruct (new_scanner rd r file e Hd) as (I & M & L & A). eapply calls_too_long; eassumption.
Qed.

(* The only case not covered by C31_file and C31_too_long: an unterminated last
   line of exactly 64 KiB.  It is read or refused, *)
Theorem C31_edge {R} (rd : reader R) r file e lines last ms m :
  delivers rd 100 r file e -> file_lines file (lines ++ [last]) -> length last = 64 * 1024 ->
  Forall (fun l => length l < 64 * 1024) lines -> Forall2 line_means lines ms -> line_means last m ->
  exists outs part, Forall2 answers (filter (fun m => negb (ignored m)) ms) outs /\
    Forall2 answers (filter (fun m => negb (ignored m)) [m]) part /\
    forall n, ucd_results rd r (outs ++ part ++ repeat (inr e) (S n)) \/
              ucd_results rd r (outs ++ inr ErrTooLong :: part ++ repeat (inr ErrTooLong) n).
Proof.
  intros Hd Hf Hl HF Hm Hp. destruct (outcomes_of lines ms Hm) as (outs & Ho & Ha).
  destruct (outcomes_of [last] [m]) as (part & Ho' & Ha'); [repeat constructor; exact Hp|].
  exists outs, part. split; [exact Ha|]. split; [exact Ha'|]. intros n.
  destruct (new_scanner rd r file e Hd) as (I & M & L & A).
  destruct (calls_edge (fun raw => Ret (parse_line raw)) rd e lines outs last part n r newLineScan file Ho HF I M L Hl Ho' A Hf)
    as (r' & s' & [C|C]); [left|right]; exists r', s'; exact C.
Qed.

(* ---- C32 *)

(* What a line of the test file asks for. *)
Inductive test_meaning : list byte -> option (list (list N)) -> Prop :=
| test_blank l a : content l a -> blanks a -> test_meaning l None
| test_data l clusters : test_line l clusters -> Forall (Forall scalar) clusters -> test_meaning l (Some clusters).

Definition test_entry (clusters : list (list N)) : TestDataEntry :=
  MkTest (utf8_text (List.concat clusters)) (map utf8_text clusters).

Fixpoint present {A} (os : list (option A)) : list A :=
  match os with [] => [] | Some a :: os' => a :: present os' | None :: os' => present os' end.

(* Round trip: a file of renderings of clusters is parsed to these clusters. *)
Theorem C32_file {R} (rd : reader R) r file e lines ms :
  delivers rd 100 r file e -> file_lines file lines ->
  Forall (fun l => length l < 64 * 1024) lines -> Forall2 test_meaning lines ms ->
  forall n, test_results rd r (map (fun cs => inl (test_entry cs)) (present ms) ++ repeat (inr e) n).
Proof.
  intros Hd Hf HF Hm n. destruct (new_scanner rd r file e Hd) as (I & M & L & A).
  assert (outcomes parse_test_line lines (map (fun cs => inl (test_entry cs)) (present ms))) as Ho.
  { clear - Hm. induction Hm as [|l m lines ms Hl Hm IH]; [constructor|].
    inversion Hl as [l' a Hc Hb|l' clusters Ht Hs]; subst; cbn [present map].
    - constructor; [|exact IH]. rewrite parse_test_line_dropCR. eapply parse_test_line_blank; eassumption.
    - constructor; [|exact IH]. rewrite parse_test_line_dropCR. apply parse_test_line_ok; assumption. }
  eapply calls_lines; eassumption.
Qed.

Theorem C32_deterministic {R} (rd : reader R) r outs1 outs2 :
  test_results rd r outs1 -> test_results rd r outs2 -> length outs1 = length outs2 -> outs1 = outs2.
Proof. intros (r1 & s1 & H1) (r2 & s2 & H2) L. eapply (calls_fun _ _ _ _ _ _ _ H1 _ _ _ H2 L). Qed.

(* Any file whatsoever, as long as its lines fit: NextEntry returns, and every
   entry it returns is consistent: Input is the concatenation of the segments,
   and no segment is empty. *)
Definition consistent (o : result TestDataEntry) : Prop :=
  match o with
  | inl e => Input e = List.concat (WantSegments e) /\ Forall (fun s => s <> []) (WantSegments e)
  | inr err => exists text, err = InvalidReference text
  end.

Theorem C32_consistent {R} (rd : reader R) r file e lines :
  delivers rd 100 r file e -> file_lines file lines -> Forall (fun l => length l < 64 * 1024) lines ->
  exists outs, Forall consistent outs /\ length outs <= length lines /\
    forall n, test_results rd r (outs ++ repeat (inr e) n).
Proof.
  intros Hd Hf HF. destruct (new_scanner rd r file e Hd) as (I & M & L & A).
  assert (exists outs, outcomes parse_test_line lines outs /\ Forall consistent outs /\ length outs <= length lines)
    as (outs & Ho & Hc & Hn).
  { clear. induction lines as [|l lines (outs & IH1 & IH2 & IH3)]; [exists []; repeat constructor|].
    destruct (parse_test_line_shape l) as (o & E & H). destruct o as [o|].
    - exists (o :: outs). split; [constructor; [rewrite parse_test_line_dropCR; exact E|assumption]|].
      split; [|cbn [List.length]; lia]. constructor; [|assumption]. destruct o; exact H.
    - exists outs. split; [constructor; [rewrite parse_test_line_dropCR; exact E|assumption]|].
      split; [assumption|cbn [List.length]; lia]. }
  exists outs. split; [exact Hc|]. split; [exact Hn|]. intros n. eapply calls_lines; eassumption.
Qed.

(* Malformed input is reported: if between two signs of the first line there is
   something that is neither blank nor a hexadecimal number in range, the first
   call returns an error. *)
Theorem C32_malformed {R} (rd : reader R) r file e l rest a y t :
  delivers rd 100 r file e -> file_lines file (l :: rest) -> Forall (fun l => length l < 64 * 1024) (l :: rest) ->
  content l a -> between_signs a y -> padded y t -> t <> [] -> (forall z, ~ int_text t z) ->
  exists text, test_results rd r [inr (InvalidReference text)].
Proof.
  intros Hd Hf HF Hc Hb Hp Ht Hz.
  destruct (parse_test_line_bad l a y t Hc Hb Hp (conj Ht Hz)) as (err & E).
  destruct (parse_test_line_shape l) as (o & E' & H). rewrite E in E'. injection E' as <-. destruct H as [text ->]. exists text.
  destruct (new_scanner rd r file e Hd) as (I & M & L & A).
  assert (exists outs, outcomes parse_test_line rest outs) as (outs & Ho).
  { clear. induction rest as [|l lines (outs & IH1)]; [exists []; constructor|].
    destruct (parse_test_line_shape l) as (o & E & _). destruct o as [o|]; eexists; [eapply outcomes_found|eapply outcomes_skip];
      rewrite ?parse_test_line_dropCR; eassumption. }
  assert (outcomes parse_test_line (l :: rest) (inr (InvalidReference text) :: outs)) as Ho'
    by (constructor; [rewrite parse_test_line_dropCR; exact E|exact Ho]).
  destruct (calls_lines parse_test_line rd e _ _ Ho' HF 0 r newLineScan file I M L A Hf) as (r' & s' & C).
  cbn [app] in C. inversion C as [|? ? r1 s1 ? ? ? ? N C']; subst. exists r1, s1. econstructor; [exact N|constructor].
Qed.

(* ---- C43: ranging over the sequence of fields *)

Lemma rounds_break fs ts : fields_text fs ts -> forall fuel n k, length fs < fuel -> k < length ts ->
  exists rest, strings_rounds fuel (fun i => i <? n + k) n fs = Ret (firstn (S k) ts, rest) /\ fields_text rest (skipn k ts).
Proof.
  induction 1 as [f t Hf Ht|f t fs ts Hf Ht H IH]; intros fuel n k L Hk; destruct fuel as [|fuel]; try lia; cbn [strings_rounds].
  - cbn [List.length] in Hk. assert (k = 0) by lia. subst k.
    unfold fieldSeparator. rewrite Cut_absent by (apply absent1; exact Hf).
    destruct (Nat.ltb_spec n (n + 0)); [lia|]. cbn [negb]. exists f. pose proof Ht as Et. apply TrimSpace_padded in Et. rewrite Et.
    split; [reflexivity|]. constructor; assumption.
  - unfold fieldSeparator. change (f ++ x3b :: fs) with (f ++ [x3b] ++ fs). rewrite Cut_found1 by exact Hf.
    pose proof Ht as Et. apply TrimSpace_padded in Et. rewrite Et.
    destruct k as [|k].
    + destruct (Nat.ltb_spec n (n + 0)); [lia|]. cbn [negb]. eexists. split; [reflexivity|].
      cbn [skipn]. change (f ++ [x3b] ++ fs) with (f ++ x3b :: fs). constructor; assumption.
    + destruct (Nat.ltb_spec n (n + S k)); [|lia]. cbn [negb].
      destruct (IH fuel (S n) k) as (rest & E & K); [rewrite app_length in L; cbn [List.length] in L; lia|cbn [List.length] in Hk; lia|].
      replace (n + S k) with (S n + k) by lia. rewrite E. cbn [bind]. exists rest. split; [reflexivity|]. exact K.
Qed.

Lemma range_all fs ts : fields_text fs ts ->
  exists rest, range_strings (fun _ => true) fs = Ret (ts, rest) /\ fields_text rest [List.last ts []].
Proof.
  intros H. destruct (fields_rounds fs ts H (S (length fs)) 0) as (l & E & K1 & K2); [lia|].
  exists l. split; [exact E|]. constructor; assumption.
Qed.

(* A loop that leaves after k+1 values has seen exactly the first k+1 fields.
   A second loop over the same sequence does not start again: it begins with the
   value the first one left at. *)
Theorem C43_break fs fields k : fields_text fs fields -> k < length fields ->
  exists rest after, range_strings (fun i => i <? k) fs = Ret (firstn (S k) fields, rest) /\
    range_strings (fun _ => true) rest = Ret (skipn k fields, after).
Proof.
  intros H Hk. destruct (rounds_break fs fields H (S (length fs)) 0 k) as (rest & E & K); [lia|exact Hk|].
  destruct (range_all rest _ K) as (after & E' & _). exists rest, after. split; [exact E|exact E'].
Qed.

(* Refuted: ranging twice over one sequence gives the fields twice.  The second
   time only the last field comes, so it holds just for a single field. *)
Theorem C43_second_range fs fields : fields_text fs fields ->
  exists rest after, range_strings (fun _ => true) fs = Ret (fields, rest) /\
    range_strings (fun _ => true) rest = Ret ([List.last fields []], after).
Proof.
  intros H. destruct (range_all fs fields H) as (rest & E & K).
  destruct (range_all rest _ K) as (after & E' & _). exists rest, after. split; [exact E|exact E'].
Qed.

Theorem C43_refuted : exists fs fields, fields_text fs fields /\
  exists first rest second after, range_strings (fun _ => true) fs = Ret (first, rest) /\
    range_strings (fun _ => true) rest = Ret (second, after) /\ first = fields /\ second <> first.
Proof.
  exists (list_byte_of_string "InCB; Linker"), [list_byte_of_string "InCB"; list_byte_of_string "Linker"].
  assert (fields_text (list_byte_of_string "InCB; Linker") [list_byte_of_string "InCB"; list_byte_of_string "Linker"]) as H
    by (apply fields_of_iff; vm_compute; reflexivity).
  split; [exact H|]. destruct (C43_second_range _ _ H) as (rest & after & E1 & E2).
  exists [list_byte_of_string "InCB"; list_byte_of_string "Linker"], rest, [list_byte_of_string "Linker"], after.
  split; [exact E1|]. split; [exact E2|]. split; [reflexivity|discriminate].
Qed.

(* a loop left at the second of three fields, and the loop after it *)
Example C43_example : exists rest after,
  range_strings (fun i => i <? 1) (list_byte_of_string "a; b ;c") =
    Ret ([list_byte_of_string "a"; list_byte_of_string "b"], rest) /\
  range_strings (fun _ => true) rest = Ret ([list_byte_of_string "b"; list_byte_of_string "c"], after).
Proof.
  apply (C43_break _ (map list_byte_of_string ["a"; "b"; "c"]%string) 1); [|cbn; lia].
  apply fields_of_iff. vm_compute. reflexivity.
Qed.

(* ---- cases that meet the hypotheses *)

Definition nl : string := String (Ascii.ascii_of_nat 10) EmptyString.
Definition crnl : string := String (Ascii.ascii_of_nat 13) nl.
Definition ucd_sample : list byte := list_byte_of_string
  ("# Indic_Conjunct_Break; data" ++ nl ++ nl ++
   " 094D..094e ;InCB;  Linker # two" ++ crnl ++
   "000D;Control;;" ++ nl ++
   "11000000000; x" ++ nl ++
   "zz ; y")%string.

Lemma fits_short (lines : list (list byte)) : forallb (fun l => length l <=? 100) lines = true -> Forall (fun l => length l < 64 * 1024) lines.
Proof.
  intros H. rewrite forallb_forall in H. apply Forall_forall. intros l Hl. specialize (H l Hl).
  apply Nat.leb_le in H. eapply Nat.le_lt_trans; [exact H|]. apply Nat.ltb_lt. vm_compute. reflexivity.
Qed.

Lemma ucd_sample_lines : file_lines ucd_sample
  (map list_byte_of_string (["# Indic_Conjunct_Break; data"; ""; " 094D..094e ;InCB;  Linker # two" ++ String (Ascii.ascii_of_nat 13) "";
     "000D;Control;;"; "11000000000; x"; "zz ; y"]%string)).
Proof.
  assert (forall l, existsb (Byte.eqb x0a) l = false -> ~ In x0a l) as K.
  { intros l H HI. enough (existsb (Byte.eqb x0a) l = true) by congruence. apply existsb_exists. exists x0a. auto. }
  unfold ucd_sample, nl, crnl. cbn [map].
  repeat (match goal with |- file_lines _ (?l :: _ :: _) =>
    apply (lines_more l); [apply K; vm_compute; reflexivity|] end).
  apply lines_last; [apply K; vm_compute; reflexivity|discriminate].
Qed.

Example C31_example : exists outs, ucd_results (nagging EOF) (true, ucd_sample) (outs ++ [inr EOF; inr EOF]) /\
  match outs with
  | [inl e1; inl e2; o3; o4] =>
      o3 = inr (InvalidStart (list_byte_of_string "11000000000") ErrRange) /\
      o4 = inr (InvalidStart (list_byte_of_string "zz") ErrSyntax) /\
      Start e1 = 0x94D%Z /\ End e1 = 0x94F%Z /\
      AllFields e1 = Ret [list_byte_of_string "InCB"; list_byte_of_string "Linker"] /\
      Start e2 = 13%Z /\ End e2 = 14%Z /\ FirstField e2 = list_byte_of_string "Control" /\
      AllFields e2 = Ret [list_byte_of_string "Control"; []; []]
  | _ => False
  end.
Proof.
  destruct (new_scanner (nagging EOF) (true, ucd_sample) ucd_sample EOF) as (I & M & L & A).
  { apply nagging_delivers. lia. }
  eexists. split.
  - unfold ucd_results.
    eapply (calls_lines _ (nagging EOF) EOF _ _) with (n := 2) (input := ucd_sample); try eassumption; [| |apply ucd_sample_lines].
    + cbn [map]. apply outcomes_skip; [vm_compute; reflexivity|]. apply outcomes_skip; [vm_compute; reflexivity|].
      do 4 (eapply outcomes_found; [vm_compute; reflexivity|]). apply outcomes_nil.
    + apply fits_short. vm_compute. reflexivity.
  - cbn. repeat split; reflexivity.
Qed.

Definition test_sample : list byte := list_byte_of_string "÷ 0020 × 0308 ÷ 1F600 ÷	# comment".
Example C32_example : test_line test_sample [[0x20; 0x308]%N; [0x1F600%N]] /\
  parse_test_line test_sample = Ret (Some (inl (test_entry [[0x20; 0x308]%N; [0x1F600%N]]))).
Proof.
  assert (test_line test_sample [[0x20; 0x308]%N; [0x1F600%N]]) as H.
  { exists [], (list_byte_of_string "÷ 0020 × 0308 ÷ 1F600 ÷	"). split; [constructor|]. split.
    - assert (forall s h c, TrimSpace s = h -> ParseUint h = inl c -> char_text s c) as CT.
      { intros s h c H1 H2. exists h. split; [apply TrimSpace_padded; exact H1|]. apply ParseUint_iff in H2. tauto. }
      apply (test_cluster (list_byte_of_string " 0020 × 0308 ") _ (list_byte_of_string "÷ 1F600 ÷	")).
      + apply (cluster_more (list_byte_of_string " 0020 ") _ (list_byte_of_string " 0308 ")).
        * eapply CT; vm_compute; reflexivity.
        * constructor. eapply CT; vm_compute; reflexivity.
      + apply (test_cluster (list_byte_of_string " 1F600 ") _ (list_byte_of_string "÷	")).
        * constructor. eapply CT; vm_compute; reflexivity.
        * apply (test_end [x09]). apply (blanks_more 9 []); [unfold white_space; lia|constructor].
    - cbn [app]. apply (content_comment (list_byte_of_string "÷ 0020 × 0308 ÷ 1F600 ÷	") (list_byte_of_string " comment")).
      intros K. vm_compute in K. repeat (destruct K as [K|K]; [discriminate K|]). exact K. }
  split; [exact H|]. apply parse_test_line_ok; [exact H|]. repeat constructor; unfold scalar; lia.
Qed.

(* something that is no number *)
Example C32_malformed_example : exists a y t, content (list_byte_of_string "÷ 0020 × 03G8 ÷") a /\
  between_signs a y /\ padded y t /\ t <> [] /\ forall z, ~ int_text t z.
Proof.
  exists (list_byte_of_string "÷ 0020 × 03G8 ÷"), (list_byte_of_string " 03G8 "), (list_byte_of_string "03G8").
  split; [constructor; intros K; vm_compute in K; repeat (destruct K as [K|K]; [discriminate K|]); exact K|].
  split; [|split; [apply TrimSpace_padded; vm_compute; reflexivity|split; [discriminate|]]].
  - exists (list_byte_of_string "÷ 0020 ×"), (list_byte_of_string "÷"). split; [reflexivity|]. split; [|split].
    + intros m a b [-> | ->] E; assert (In xc3 (list_byte_of_string " 03G8 ")) as K
        by (rewrite E; apply in_or_app; right; left; reflexivity);
        vm_compute in K; repeat (destruct K as [K|K]; [discriminate K|]); exact K.
    + right. exists (list_byte_of_string "÷ 0020 "), multiplication_sign. split; [right; reflexivity|reflexivity].
    + right. exists division_sign, []. split; [left; reflexivity|reflexivity].
  - intros z K. apply int_text_iff in K. vm_compute in K. discriminate K.
Qed.

(* a line too long for the scanner *)
Example C31_too_long_example : exists file lines long rest, file_lines file (lines ++ long :: rest)%list /\
  oversize file long rest /\ Forall (fun l => length l < 64 * 1024) lines /\ lines <> []%list /\ rest <> []%list.
Proof.
  exists ([x41; x0a] ++ repeat x42 (64 * 1024) ++ [x0a; x43])%list, [[x41]], (repeat x42 (64 * 1024)), [[x43]].
  split; [|split; [|split; [|split; discriminate]]].
  - apply (lines_more [x41]); [intros [K|[]]; discriminate K|]. apply lines_more.
    + intros K. apply repeat_spec in K. discriminate K.
    + apply lines_last; [intros [K|[]]; discriminate K|discriminate].
  - right. split; [apply repeat_length|]. left. discriminate.
  - apply fits_short. reflexivity.
Qed.

(* ... and which of the two depends on the reader: whether it reports the end of
   the file with the last bytes or after them. *)
Definition edge_line : list byte := list_byte_of_string "41;" ++ repeat x42 (64 * 1024 - 3).
Definition last_with_eof : reader (list byte) := fun rest k =>
  if length rest <=? k then ([], Reply (Z.of_nat (length rest)) rest (Some EOF))
  else (skipn k rest, Reply (Z.of_nat k) (firstn k rest) None).
Lemma last_with_eof_delivers : forall input m, delivers last_with_eof m input input EOF.
Proof.
  intros input. remember (length input) as k eqn:Ek. revert input Ek.
  induction k as [k IH] using lt_wf_ind. intros input -> m. constructor. intros space Hs.
  destruct (Nat.leb_spec (length input) space) as [Q|Q].
  - eapply (replies_last _ _ _ _ _ _ _ []); [|exact Q]. unfold last_with_eof. apply Nat.leb_le in Q. rewrite Q, app_nil_r. reflexivity.
  - assert (length (firstn space input) = space) as Lf by (apply firstn_length_le; lia).
    rewrite <- (firstn_skipn space input) at 2. eapply (replies_some _ _ _ _ _ _ _ (skipn space input) []).
    + unfold last_with_eof. apply Nat.leb_gt in Q. rewrite Q, app_nil_r, Lf. reflexivity.
    + intros K. rewrite K in Lf. cbn [length] in Lf. lia.
    + lia.
    + apply (IH (length (skipn space input))); [rewrite skipn_length; lia|reflexivity].
Qed.

Definition first_call {R} (rd : reader R) (r : R) (want : option (list byte)) : bool :=
  match Scan ScanLines rd r newLineScan, want with
  | Ret (_, s, Some raw), Some l => if list_eq_dec Byte.byte_eq_dec (bytes_of s raw) l then true else false
  | Ret (_, s, None), None => match s_err s with Some ErrTooLong => true | _ => false end
  | _, _ => false
  end.
Lemma edge_calls : first_call bytes_reader edge_line None && first_call last_with_eof edge_line (Some edge_line) &&
  match parse_line edge_line with Some (inl _) => true | _ => false end = true.
Proof. vm_cast_no_check (eq_refl true). Qed.

Lemma edge_facts : (length edge_line =? 64 * 1024) && negb (existsb (Byte.eqb x0a) edge_line) = true.
Proof. vm_cast_no_check (eq_refl true). Qed.

Lemma first_refused {R} (rd : reader R) r : first_call rd r None = true -> ucd_results rd r [inr ErrTooLong].
Proof.
  unfold first_call, ucd_results. generalize newLineScan. intros s0 E1.
  destruct (Scan ScanLines rd r s0) as [[[r' s] [raw|]]|] eqn:Sc; try discriminate E1.
  destruct (s_err s) as [err|] eqn:Er; [|discriminate E1]. assert (err = ErrTooLong) as -> by (destruct err; congruence).
  exists r', s. econstructor; [|constructor]. rewrite <- (no_more_err s _ Er). constructor. exact Sc.
Qed.
Lemma first_read {R} (rd : reader R) r l e : first_call rd r (Some l) = true -> parse_line l = Some (inl e) ->
  ucd_results rd r [inl e].
Proof.
  unfold first_call, ucd_results. generalize newLineScan. intros s0 E2 P.
  destruct (Scan ScanLines rd r s0) as [[[r' s] [raw|]]|] eqn:Sc; try discriminate E2.
  destruct (list_eq_dec Byte.byte_eq_dec (bytes_of s raw) l) as [Eb|]; [|discriminate E2].
  exists r', s. econstructor; [|constructor]. eapply next_found; [exact Sc|]. rewrite Eb, P. reflexivity.
Qed.

Lemma edge_any file :
  first_call bytes_reader file None && first_call last_with_eof file (Some file) &&
    match parse_line file with Some (inl _) => true | _ => false end = true ->
  (length file =? 64 * 1024) && negb (existsb (Byte.eqb x0a) file) = true ->
  exists entry, file_lines file [file] /\ length file = 64 * 1024 /\
    delivers bytes_reader 100 file file EOF /\ ucd_results bytes_reader file [inr ErrTooLong] /\
    delivers last_with_eof 100 file file EOF /\ ucd_results last_with_eof file [inl entry].
Proof.
  intros E F. apply andb_prop in E. destruct E as [E E3]. apply andb_prop in E. destruct E as [E1 E2].
  apply andb_prop in F. destruct F as [F1 F2]. apply Nat.eqb_eq in F1.
  destruct (parse_line file) as [[entry|]|] eqn:P; try discriminate E3. exists entry.
  split.
  { apply lines_last.
    - clear - F2. intros K. apply negb_true_iff in F2. enough (existsb (Byte.eqb x0a) file = true) by congruence.
      apply existsb_exists. exists x0a. auto.
    - clear - P. intros ->. discriminate P. }
  split; [exact F1|].
  split; [apply bytes_reader_delivers|]. split; [exact (first_refused _ _ E1)|]. split; [apply last_with_eof_delivers|].
  exact (first_read _ _ _ _ E2 P).
Qed.

Example C31_edge_both : exists file entry, file_lines file [file] /\ length file = 64 * 1024 /\
  delivers bytes_reader 100 file file EOF /\ ucd_results bytes_reader file [inr ErrTooLong] /\
  delivers last_with_eof 100 file file EOF /\ ucd_results last_with_eof file [inl entry].
Proof. exists edge_line. exact (edge_any edge_line edge_calls edge_facts). Qed.

Definition all_theorems :=
  (@C31_file, @C31_code_points, @C31_deterministic, C31_lines_exist, C31_meaning_exists, @C31_too_long, @C31_edge, C31_edge_both,
   @C32_file, @C32_consistent, @C32_malformed, @C32_deterministic, C43_break, C43_second_range, C43_refuted,
   C31_example, C32_example, C32_malformed_example, C31_too_long_example).
Print Assumptions all_theorems.
