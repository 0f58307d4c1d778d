(* Reading the lines of GraphemeBreakTest.txt by computation, soundly for the
   line format of Spec/UcdFile.v. *)
From Coq Require Import List NArith ZArith Arith Bool Lia Strings.Byte Strings.String.
From Coq Require Import ZifyBool ZifyNat ZifyN.
From Verif Require Import Spec.Classes Spec.Utf8 Spec.Readers Spec.UcdFile.
From Verif Require Import Model.Base Model.Scan Model.Bufio Model.UcdParse.
From Verif Require Import Proofs.Basics Proofs.ParseFacts Proofs.UcdFacts Proofs.TextFacts Proofs.TestDataFacts Proofs.FileCheck.
Import ListNotations.
Notation length := List.length.

Lemma pieces_join m : marker m -> forall n s, length s <= n ->
  exists p ps, pieces s m = p :: ps /\ s = p ++ flat_map (fun q => m ++ q) ps.
Proof.
  intros Hm. induction n as [n IH] using lt_wf_ind. intros s Hs.
  destruct (Cut m s) as [[b a] f] eqn:E. destruct f.
  - pose proof (Cut_true _ _ _ _ E) as ->.
    assert (length a < length (b ++ m ++ a)) as L.
    { pose proof (marker_ne m Hm). destruct m; [congruence|]. rewrite !app_length. cbn [List.length]. lia. }
    destruct (IH (length a) ltac:(lia) a ltac:(lia)) as (p & ps & E1 & E2).
    exists b, (p :: ps). split; [rewrite (pieces_found m b a _ Hm E), E1; reflexivity|].
    cbn [flat_map]. rewrite <- app_assoc, <- E2. reflexivity.
  - destruct (Cut_false _ _ _ _ E) as (-> & _ & Ha). exists s, []. split; [apply pieces_absent; exact Ha|].
    cbn [flat_map]. rewrite app_nil_r. reflexivity.
Qed.

Fixpoint chars_of (ps : list (list byte)) : option (list N) :=
  match ps with
  | [] => Some []
  | p :: ps' =>
      match ParseUint (TrimSpace p), chars_of ps' with
      | inl c, Some cs => Some (c :: cs)
      | _, _ => None
      end
  end.

Definition cluster_of (s : list byte) : option (list N) := chars_of (pieces s nonsplitMarker).

Lemma chars_of_ok p ps cs : chars_of (p :: ps) = Some cs ->
  cluster_text (p ++ flat_map (fun q => nonsplitMarker ++ q) ps) cs.
Proof.
  assert (forall s c, ParseUint (TrimSpace s) = inl c -> char_text s c) as CT.
  { intros s c H. exists (TrimSpace s). split; [apply TrimSpace_padded; reflexivity|]. apply ParseUint_iff in H. tauto. }
  revert p cs. induction ps as [|q ps IH]; intros p cs H; cbn [chars_of] in H.
  - destruct (ParseUint (TrimSpace p)) as [c|] eqn:E; [|discriminate]. injection H as <-.
    cbn [flat_map]. rewrite app_nil_r. constructor. auto.
  - destruct (ParseUint (TrimSpace p)) as [c|] eqn:E; [|discriminate].
    fold (chars_of (q :: ps)) in H. change (match ParseUint (TrimSpace q) with inl c0 => match chars_of ps with Some cs0 => Some (c0 :: cs0) | None => None end | inr _ => None end) with (chars_of (q :: ps)) in H.
    destruct (chars_of (q :: ps)) as [cs'|] eqn:E'; [|discriminate]. injection H as <-.
    cbn [flat_map]. rewrite <- app_assoc. apply cluster_more; auto.
Qed.

Lemma cluster_of_ok s cs : cluster_of s = Some cs -> cluster_text s cs.
Proof.
  unfold cluster_of. destruct (pieces_join _ m2 _ s (le_n _)) as (p & ps & E1 & E2). rewrite E1. intros H.
  rewrite E2. apply chars_of_ok. exact H.
Qed.

(* the texts after the division signs *)
Fixpoint clusters_of (ps : list (list byte)) : option (list (list N)) :=
  match ps with
  | [] => None
  | p :: ps' =>
      match ps' with
      | [] => if is_empty (TrimSpace p) then Some [] else None
      | _ :: _ =>
          match cluster_of p, clusters_of ps' with
          | Some cs, Some clusters => Some (cs :: clusters)
          | _, _ => None
          end
      end
  end.

Lemma blank_ok w : is_empty (TrimSpace w) = true -> blanks w.
Proof.
  intros H. assert (TrimSpace w = []) as E by (destruct (TrimSpace w); [reflexivity|discriminate]).
  apply TrimSpace_padded in E. destruct E as (w1 & w2 & H1 & H2 & _ & ->). cbn [app]. apply blanks_app; assumption.
Qed.

Lemma clusters_of_ok ps : forall clusters, clusters_of ps = Some clusters ->
  test_text (flat_map (fun q => splitMarker ++ q) ps) clusters.
Proof.
  induction ps as [|p ps IH]; intros clusters H; cbn [clusters_of] in H; [discriminate|]. destruct ps as [|q ps].
  - destruct (is_empty (TrimSpace p)) eqn:E; [|discriminate]. injection H as <-.
    cbn [flat_map]. rewrite app_nil_r. apply (test_end p). apply blank_ok. exact E.
  - destruct (cluster_of p) as [cs|] eqn:E; [|discriminate].
    destruct (clusters_of (q :: ps)) as [cl|] eqn:E'; [|discriminate]. injection H as <-.
    specialize (IH cl eq_refl). change (flat_map (fun q => splitMarker ++ q) (p :: q :: ps)) with
      ((splitMarker ++ p) ++ flat_map (fun q => splitMarker ++ q) (q :: ps)).
    rewrite <- app_assoc. apply test_cluster; [apply cluster_of_ok; exact E|exact IH].
Qed.

Definition test_of (l : list byte) : option (option (list (list N))) :=
  let '(a, _, _) := Cut commentMarker l in
  match pieces a splitMarker with
  | [] => None
  | [p] => if is_empty (TrimSpace p) then Some None else None
  | p :: ps =>
      if is_empty (TrimSpace p) then
        match clusters_of ps with
        | Some clusters => if forallb (forallb scalarb) clusters then Some (Some clusters) else None
        | None => None
        end
      else None
  end.

Lemma test_of_blank l : test_of l = Some None -> exists a, content l a /\ blanks a.
Proof.
  unfold test_of. destruct (Cut commentMarker l) as [[a c] f] eqn:E. intros H. exists a.
  split; [apply content_iff; eauto|]. destruct (pieces_join _ m1 _ a (le_n _)) as (p & ps & E1 & E2). rewrite E1 in H.
  destruct ps as [|q ps].
  - cbn [flat_map] in E2. rewrite app_nil_r in E2. subst p. apply blank_ok. destruct (is_empty (TrimSpace a)); [reflexivity|discriminate].
  - destruct (is_empty (TrimSpace p)); [|discriminate]. destruct (clusters_of (q :: ps)) as [cl|]; [|discriminate].
    destruct (forallb (forallb scalarb) cl); discriminate.
Qed.

Lemma test_of_data l clusters : test_of l = Some (Some clusters) -> test_line l clusters /\ Forall (Forall scalar) clusters.
Proof.
  unfold test_of. destruct (Cut commentMarker l) as [[a c] f] eqn:E. intros H.
  destruct (pieces_join _ m1 _ a (le_n _)) as (p & ps & E1 & E2). rewrite E1 in H.
  destruct ps as [|q ps]; [destruct (is_empty (TrimSpace p)); discriminate|].
  destruct (is_empty (TrimSpace p)) eqn:Eb; [|discriminate].
  destruct (clusters_of (q :: ps)) as [cl|] eqn:Ec; [|discriminate].
  destruct (forallb (forallb scalarb) cl) eqn:Es; [|discriminate]. injection H as <-. split.
  - exists p, (flat_map (fun q => splitMarker ++ q) (q :: ps)).
    split; [apply blank_ok; exact Eb|]. split; [apply clusters_of_ok; exact Ec|]. rewrite <- E2. apply content_iff. eauto.
  - rewrite forallb_forall in Es. apply Forall_forall. intros x Hx. specialize (Es x Hx). rewrite forallb_forall in Es.
    apply Forall_forall. intros y Hy. apply scalarb_spec. auto.
Qed.
