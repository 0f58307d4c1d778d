(* The lines of the data files in the repository, by computation. *)
From Coq Require Import List NArith ZArith Arith Bool Lia Strings.Byte Strings.String.
From Coq Require Import ZifyBool ZifyNat ZifyN.
From Verif Require Import Spec.Classes Spec.Utf8 Spec.PropNames Spec.UcdRanges Spec.Assignments Spec.Readers Spec.UcdFile Spec.Generation.
From Verif Require Import Model.Base Model.CharProps Model.Lookup Model.Bufio Model.PropNames Model.GenTable.
From Verif Require Import Model.UcdParse.
From Verif Require Import Data.TableRaw Data.UcdGraphemeBreakProperty Data.UcdEmojiData Data.UcdDerivedCoreProperties.
From Verif Require Import Proofs.Basics Proofs.ParseFacts Proofs.UcdFacts Proofs.BuildFacts.
Import ListNotations.
Notation length := List.length.

(* A file that is given in pieces. *)
Definition file_bytes (pieces : list string) : list byte := flat_map list_byte_of_string pieces.

(* the lines of a piece that ends with a line feed *)
Fixpoint piece_lines (cur s : list byte) : option (list (list byte)) :=
  match s with
  | [] => match cur with [] => Some [] | _ => None end
  | b :: s' =>
      if Byte.eqb b x0a then option_map (cons (rev' cur)) (piece_lines [] s') else piece_lines (b :: cur) s'
  end.

Lemma rev'_rev {A} (l : list A) : rev' l = rev l.
Proof. unfold rev'. symmetry. apply rev_alt. Qed.

Lemma piece_lines_ok s : forall cur ls rest ls', piece_lines cur s = Some ls -> ~ In x0a cur -> file_lines rest ls' ->
  file_lines (rev cur ++ s ++ rest) (ls ++ ls').
Proof.
  induction s as [|b s IH]; intros cur ls rest ls' H Hc Hr; cbn [piece_lines] in H.
  - destruct cur; [|discriminate]. injection H as <-. exact Hr.
  - destruct (byte_eqb_spec b x0a) as [->|N].
    + destruct (piece_lines [] s) as [ls1|] eqn:E; [|discriminate]. cbn [option_map] in H. injection H as <-.
      rewrite rev'_rev. cbn [app]. apply lines_more.
      * rewrite <- in_rev. exact Hc.
      * apply (IH [] ls1 rest ls' E); [intros []|exact Hr].
    + specialize (IH (b :: cur) ls rest ls' H). cbn [rev] in IH. rewrite <- app_assoc in IH. apply IH; [|exact Hr].
      intros [K|K]; [congruence|tauto].
Qed.

Definition short (l : list byte) : bool := (N.of_nat (length l) <? 65536)%N.
Lemma short_ok l : short l = true -> length l < 64 * 1024.
Proof. unfold short. intros H. apply N.ltb_lt in H. apply Nat.ltb_lt. 
  destruct (Nat.ltb_spec (length l) (64 * 1024)) as [K|K]; [reflexivity|].
  exfalso. assert (N.of_nat (64 * 1024) <= N.of_nat (length l))%N by lia.
  assert (N.of_nat (64 * 1024) = 65536%N) as E by (vm_compute; reflexivity). rewrite E in *. lia.
Qed.

Definition properb (m : meaning) : bool :=
  match m with
  | Ignored => true
  | Data first last _ => ((first <=? 0x10FFFF) && (last <=? 0x10FFFF))%N
  | Malformed _ => false
  end.
Lemma properb_ok m : properb m = true -> proper m.
Proof. destruct m; cbn [properb proper]; [tauto| |discriminate]. rewrite andb_true_iff, !N.leb_le. tauto. Qed.

(* the meanings of the lines of a piece that a predicate selects, if all lines are usable *)
Fixpoint select (keep : meaning -> bool) (ls : list (list byte)) : option (list meaning) :=
  match ls with
  | [] => Some []
  | l :: ls' =>
      let m := meaning_of l in
      if short l && properb m then
        match select keep ls' with
        | Some ms => Some (if keep m then m :: ms else ms)
        | None => None
        end
      else None
  end.

Fixpoint file_select (keep : meaning -> bool) (pieces : list string) : option (list meaning) :=
  match pieces with
  | [] => Some []
  | p :: pieces' =>
      match piece_lines [] (list_byte_of_string p) with
      | None => None
      | Some ls =>
          match select keep ls, file_select keep pieces' with
          | Some a, Some b => Some (a ++ b)
          | _, _ => None
          end
      end
  end.

Lemma select_ok keep ls ms : select keep ls = Some ms ->
  Forall (fun l => length l < 64 * 1024) ls /\ Forall2 line_means ls (map meaning_of ls) /\
  Forall proper (map meaning_of ls) /\ filter keep (map meaning_of ls) = ms.
Proof.
  revert ms. induction ls as [|l ls IH]; intros ms H; cbn [select] in H.
  - injection H as <-. split; [constructor|]. split; [constructor|]. split; [constructor|reflexivity].
  - destruct (short l) eqn:E1; [|discriminate]. destruct (properb (meaning_of l)) eqn:E2; [|discriminate]. cbn [andb] in H.
    destruct (select keep ls) as [ms1|]; [|discriminate]. destruct (IH ms1 eq_refl) as (H1 & H2 & H3 & H4).
    injection H as <-. cbn [map filter]. rewrite H4.
    split; [constructor; [apply short_ok; exact E1|exact H1]|].
    split; [constructor; [apply meaning_of_iff; reflexivity|exact H2]|].
    split; [constructor; [apply properb_ok; exact E2|exact H3]|reflexivity].
Qed.

Lemma file_select_ok keep pieces ms : file_select keep pieces = Some ms ->
  exists ms', usable (file_bytes pieces) ms' /\ filter keep ms' = ms.
Proof.
  unfold usable. revert ms. induction pieces as [|p pieces IH]; intros ms H; cbn [file_select] in H.
  - injection H as <-. exists []. split; [|reflexivity]. exists []. split; [constructor|]. split; [constructor|]. split; constructor.
  - destruct (piece_lines [] (list_byte_of_string p)) as [ls|] eqn:E; [|discriminate].
    destruct (select keep ls) as [a|] eqn:E1; [|discriminate].
    destruct (file_select keep pieces) as [b|]; [|discriminate]. injection H as <-.
    destruct (IH b eq_refl) as (ms' & (lines & F1 & F2 & F3 & F4) & F5).
    apply select_ok in E1. destruct E1 as (G1 & G2 & G3 & G4).
    exists (map meaning_of ls ++ ms'). split; [|rewrite filter_app; congruence].
    exists (ls ++ lines). split; [|split; [|split]].
    + unfold file_bytes. cbn [flat_map]. apply (piece_lines_ok _ [] ls _ lines E); [intros []|exact F1].
    + apply Forall_app. auto.
    + apply Forall2_app; assumption.
    + apply Forall_app. auto.
Qed.

(* ---- comparing meanings *)
Fixpoint fields_eqb (a b : list (list byte)) : bool :=
  match a, b with
  | [], [] => true
  | x :: a', y :: b' => str_eqb x y && fields_eqb a' b'
  | _, _ => false
  end.
Definition meaning_eqb (a b : meaning) : bool :=
  match a, b with
  | Data x y f, Data x' y' f' => (x =? x')%N && (y =? y')%N && fields_eqb f f'
  | _, _ => false
  end.
Fixpoint meanings_eqb (a b : list meaning) : bool :=
  match a, b with
  | [], [] => true
  | x :: a', y :: b' => meaning_eqb x y && meanings_eqb a' b'
  | _, _ => false
  end.
Lemma fields_eqb_ok a : forall b, fields_eqb a b = true -> a = b.
Proof.
  induction a as [|x a IH]; intros [|y b] H; cbn [fields_eqb] in H; try discriminate; [reflexivity|].
  apply andb_true_iff in H. destruct H as [H1 H2]. apply str_eqb_true in H1. f_equal; auto.
Qed.
Lemma meanings_eqb_ok a : forall b, meanings_eqb a b = true -> a = b.
Proof.
  induction a as [|x a IH]; intros [|y b] H; cbn [meanings_eqb] in H; try discriminate; [reflexivity|].
  apply andb_true_iff in H. destruct H as [H1 H2]. f_equal; [|auto].
  destruct x, y; cbn [meaning_eqb] in H1; try discriminate.
  rewrite !andb_true_iff in H1. destruct H1 as [[K1 K2] K3]. apply N.eqb_eq in K1, K2. apply fields_eqb_ok in K3. congruence.
Qed.

(* ---- the files *)

Definition is_data (m : meaning) : bool := match m with Ignored => false | _ => true end.
Definition about (name : string) (m : meaning) : bool :=
  match m with
  | Data _ _ fields => str_eqb (hd [] fields) (list_byte_of_string name)
  | _ => false
  end.

Definition gcb_lines : list meaning :=
  map (fun '(a, b, g) => Data a b [list_byte_of_string (gcb_name g)]) gcb_ranges.
Definition extpict_lines : list meaning :=
  map (fun '(a, b, _) => Data a b [list_byte_of_string "Extended_Pictographic"]) extpict_ranges.
Definition incb_lines : list meaning :=
  map (fun '(a, b, i) => Data a b [list_byte_of_string "InCB"; list_byte_of_string (incb_name i)]) incb_ranges.

Definition selects (keep : meaning -> bool) (pieces : list string) (expected : list meaning) : bool :=
  match file_select keep pieces with Some ms => meanings_eqb ms expected | None => false end.

Lemma selects_ok keep pieces expected : selects keep pieces expected = true ->
  exists ms, usable (file_bytes pieces) ms /\ filter keep ms = expected.
Proof.
  unfold selects. destruct (file_select keep pieces) as [ms|] eqn:E; [|discriminate].
  intros H. apply meanings_eqb_ok in H. subst ms. apply file_select_ok. exact E.
Qed.

Lemma gbp_check : selects is_data GraphemeBreakProperty_txt gcb_lines = true.
Proof. vm_cast_no_check (eq_refl true). Qed.
Lemma emoji_check : selects (about "Extended_Pictographic") emoji_data_txt extpict_lines = true.
Proof. vm_cast_no_check (eq_refl true). Qed.
Lemma dcp_check : selects (about "InCB") DerivedCoreProperties_txt incb_lines = true.
Proof. vm_cast_no_check (eq_refl true). Qed.

(* ---- the generator on these lines *)

Definition all_assignments : list op := assignments gcb_lines extpict_lines incb_lines.

Definition contents_eqb (a : arr) (vs : list N) : bool :=
  match aread a 0 (N.to_nat (alen a)) with Ret ws => key_eqb ws vs | Panic _ => false end.

Definition same_tables (x : res tables) : bool :=
  match x with
  | Ret tb =>
      contents_eqb (t_indices tb) (List.concat lookupIndices_blocks) &&
      contents_eqb (t_props tb) (List.concat lookupProps_blocks)
  | Panic _ => false
  end.

Lemma generate_check : same_tables (generate all_assignments) = true.
Proof. vm_cast_no_check (eq_refl true). Qed.
