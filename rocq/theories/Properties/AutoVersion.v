(* Properties C36 (autoversion selects exactly one implementation) and C59 (which
   modules it pulls in). *)
From Coq Require Import List Arith Bool Lia Strings.Byte.
From Verif Require Import Model.Base Model.Scan Model.Bufio Model.AutoVersion.
Import ListNotations.

Lemma selected_files n :
  selected n = (if (21 <=? n) && (n <=? 26) then [unicode15] else if n =? 27 then [unicode17] else []) ++ [version_agnostic].
Proof.
  unfold selected, sources. cbn [filter]. unfold unicode15, unicode17, version_agnostic. cbn [go_build plus_build].
  repeat match goal with |- context [if ?c then ?x else ?x] => replace (if c then x else x) with x by (destruct c; reflexivity) end.
  cbn [satisfied]. change (1 <=? 21) with true. change (1 <=? 27) with true. change (1 <=? 28) with true. cbn [andb].
  destruct (Nat.leb_spec 21 n), (Nat.leb_spec 27 n), (Nat.leb_spec 28 n), (Nat.leb_spec n 26), (Nat.eqb_spec n 27);
    cbn [andb negb app]; try lia; reflexivity.
Qed.

(* For every Go release 1.n the package compiles; its ScanGraphemeClusters is
   that of v15 for 1.21 ... 1.26, that of v17 for 1.27, and there is none
   otherwise; the constant is the version of the function and is missing when
   the function is.  The other three functions are always those of v15. *)
Theorem C36_package (impl : module -> implementation) n :
  exists x, package impl n = Some x /\
    ScanUTF8Sequences x = Some (iScanUTF8Sequences (impl V15)) /\
    TokenCount x = Some (iTokenCount (impl V15)) /\
    AllTokens x = Some (iAllTokens (impl V15)) /\
    (ScanGraphemeClusters x, UnicodeMajorVersion x) =
      if (21 <=? n) && (n <=? 26) then (Some (iScanGraphemeClusters (impl V15)), Some 15)
      else if n =? 27 then (Some (iScanGraphemeClusters (impl V17)), Some 17)
      else (None, None).
Proof.
  unfold package. rewrite selected_files.
  destruct ((21 <=? n) && (n <=? 26)); [eexists; split; [reflexivity|]; repeat split|].
  destruct (n =? 27); eexists; (split; [reflexivity|]); repeat split.
Qed.

(* Never two of the version files, and the two forms of the constraint agree, so
   that tools that read only one of them see the same package. *)
Theorem C36_at_most_one n : ~ (In unicode15 (selected n) /\ In unicode17 (selected n)).
Proof.
  rewrite selected_files. unfold unicode15, unicode17, version_agnostic.
  destruct ((21 <=? n) && (n <=? 26)); [|destruct (n =? 27)]; cbn [app In]; intros [A B]; intuition discriminate.
Qed.

Theorem C36_constraints_agree s n : In s sources -> satisfied n (go_build s) = satisfied n (plus_build s).
Proof. intros [<-|[<-|[<-|[]]]]; reflexivity. Qed.

(* The go line of the modules is a minimum for toolchains since 1.21.  So the
   toolchains that both accept the module and find ScanGraphemeClusters in it are
   1.25, 1.26 and 1.27; the constraint of unicode15.go admits 1.21 to 1.24 in
   vain. *)
Theorem C36_usable (impl : module -> implementation) n :
  (accepted n = true /\ exists x f, package impl n = Some x /\ ScanGraphemeClusters x = Some f) <-> 25 <= n <= 27.
Proof.
  destruct (C36_package impl n) as (x & P & _ & _ & _ & E). unfold accepted, go_line.
  assert (Some x = package impl n) as P' by auto. split.
  - intros (A & y & f & Py & F). rewrite P in Py. injection Py as <-. rewrite F in E.
    destruct (Nat.leb_spec 21 n), (Nat.leb_spec n 26), (Nat.eqb_spec n 27), (Nat.ltb_spec n 21), (Nat.leb_spec 25 n);
      cbn [andb orb] in *; try lia; discriminate.
  - intros H. split; [destruct (Nat.ltb_spec n 21), (Nat.leb_spec 25 n); cbn; lia|].
    exists x. destruct (Nat.leb_spec 21 n), (Nat.leb_spec n 26), (Nat.eqb_spec n 27); cbn [andb] in E; try lia;
      injection E as E _; eauto.
Qed.

(* the boundaries *)
Definition sample (f : splitfunc) : implementation :=
  Implementation f f (fun _ _ => Ret (0, None)) (fun _ _ => Ret ([], None)).
Example C36_example :
  map (fun n => (accepted n, option_map UnicodeMajorVersion (package (fun _ => sample Scan.ScanGraphemeClusters) n)))
    [1; 20; 21; 24; 25; 26; 27; 28; 100] =
  [(true, Some None); (true, Some None); (false, Some (Some 15)); (false, Some (Some 15)); (true, Some (Some 15));
   (true, Some (Some 15)); (true, Some (Some 17)); (true, Some None); (true, Some None)].
Proof. reflexivity. Qed.

(* C59. "Only one version of go-textseg will be compiled into your program"
   (README.md 46-50): true of every toolchain but the one that uses v17, where
   version_agnostic.go still pulls in v15. *)
Definition only_one (n : nat) : Prop := forall a b, In a (compiled_in n) -> In b (compiled_in n) -> a = b.

Theorem C59_refuted : ~ (forall n, only_one n).
Proof. intros H. specialize (H 27 V15 V17). assert (V15 = V17) as E; [|discriminate E]. apply H; vm_compute; auto. Qed.

Theorem C59_otherwise n : only_one n <-> n <> 27.
Proof.
  unfold only_one, compiled_in. rewrite selected_files. split.
  - intros H ->. assert (V15 = V17) as E; [|discriminate E]. apply H; vm_compute; auto.
  - intros Hn a b. destruct ((21 <=? n) && (n <=? 26)); [|destruct (Nat.eqb_spec n 27); [contradiction|]]; cbn; intuition congruence.
Qed.

(* In every case v15 is among them, and the version that ScanGraphemeClusters is
   taken from. *)
Theorem C59_compiled n m : In m (compiled_in n) <-> m = V15 \/ m = V17 /\ n = 27.
Proof.
  unfold compiled_in. rewrite selected_files.
  destruct (Nat.leb_spec 21 n), (Nat.leb_spec n 26), (Nat.eqb_spec n 27); cbn [andb]; try lia; cbn; intuition congruence.
Qed.

Definition all_theorems := (C36_package, C36_at_most_one, C36_constraints_agree, C36_usable, C36_example, C59_refuted, C59_otherwise, C59_compiled).
Print Assumptions all_theorems.
