(* The other functions of properties.go, as parsed, and the function of
   autoversion/textseg/unicode17.go. *)
From Coq Require Import List NArith ZArith Arith Bool Lia Strings.String Strings.Ascii Strings.Byte.
From Coq Require Import ZifyBool ZifyNat ZifyN.
From Verif Require Import Spec.Utf8 Model.Base Model.CharProps Model.PropNames Model.Machine Model.Lookup Model.WordInt.
From Verif Require Import Model.GoSyntax Model.GoSemantics Model.GoLibrary Proofs.GoFacts Proofs.GoSymbolic Proofs.GoMachine Proofs.GoScan.
Import ListNotations.
Local Open Scope string_scope.
Local Open Scope list_scope.

Lemma byte_of_ascii_eqb a b : Byte.eqb (byte_of_ascii a) (byte_of_ascii b) = Ascii.eqb a b.
Proof.
  destruct (Ascii.eqb_spec a b) as [->|N].
  - apply Byte.byte_dec_lb. reflexivity.
  - destruct (Byte.eqb (byte_of_ascii a) (byte_of_ascii b)) eqn:E; [|reflexivity]. exfalso. apply N.
    apply Byte.byte_dec_bl in E. rewrite <- (ascii_of_byte_of_ascii a), <- (ascii_of_byte_of_ascii b), E. reflexivity.
Qed.
Lemma str_eq_bytes a : forall b, str_eqb (list_byte_of_string a) (PropNames.str b) = str_eq a b.
Proof.
  unfold PropNames.str, str_eq. induction a as [|x a IH]; intros [|y b]; try reflexivity.
  change (list_byte_of_string (String x a)) with (byte_of_ascii x :: list_byte_of_string a).
  change (list_byte_of_string (String y b)) with (byte_of_ascii y :: list_byte_of_string b).
  cbn [str_eqb String.eqb]. rewrite byte_of_ascii_eqb, IH. reflexivity.
Qed.
Lemma str_eq_text name b : str_eqb name (PropNames.str b) = str_eq (string_of_list_byte name) b.
Proof. rewrite <- str_eq_bytes. rewrite list_byte_of_string_of_list_byte. reflexivity. Qed.
Lemma append_text a b : string_of_list_byte (a ++ b) = str_append (string_of_list_byte a) (string_of_list_byte b).
Proof. unfold str_append. induction a as [|x a IH]; [reflexivity|]. cbn [List.app]. change (string_of_list_byte (x :: a ++ b)) with (String (ascii_of_byte x) (string_of_list_byte (a ++ b))). rewrite IH. reflexivity. Qed.
Lemma hex2_text n : (n < 256)%N -> hex2 n = string_of_list_byte [hex_digit (n / 16); hex_digit (n mod 16)].
Proof.
  assert (forallb (fun d => Ascii.eqb (hex_char d) (ascii_of_byte (hex_digit d))) (map N.of_nat (seq 0 16)) = true) as F by reflexivity.
  rewrite forallb_forall in F.
  assert (forall d, (d < 16)%N -> hex_char d = ascii_of_byte (hex_digit d)) as H.
  { intros d Hd. apply Ascii.eqb_eq. apply F. apply in_map_iff. exists (N.to_nat d). split; [lia|]. apply in_seq. lia. }
  intros Hn. unfold hex2. rewrite !H; [reflexivity| |].
  - apply N.mod_lt. discriminate.
  - apply N.div_lt_upper_bound; [discriminate|exact Hn].
Qed.

Section Names.
Variable w : Z.
Variable fuel : nat.
Variables ia pa : arr.
Notation G := (declared_with ia pa).

Lemma call_LookupGCBProperty d name : call w fuel G (S d) "charprops.LookupGCBProperty" [VStr (string_of_list_byte name)] =
  Ret [GCB (LookupGCBProperty name)].
Proof.
  unfold LookupGCBProperty. cbn [switch]. rewrite !str_eq_text. generalize (string_of_list_byte name). clear name. intros name.
  start. generalize (call w fuel G d). intros C.
  syms idtac.
Qed.
Lemma call_LookupEmojiProperty d name : call w fuel G (S d) "charprops.LookupEmojiProperty" [VStr (string_of_list_byte name)] =
  Ret [GCB (LookupEmojiProperty name)].
Proof.
  unfold LookupEmojiProperty. cbn [switch]. rewrite !str_eq_text. generalize (string_of_list_byte name). clear name. intros name.
  start. generalize (call w fuel G d). intros C.
  syms idtac.
Qed.
Lemma call_LookupInCBProperty d name : call w fuel G (S d) "charprops.LookupInCBProperty" [VStr (string_of_list_byte name)] =
  Ret [InCB (LookupInCBProperty name)].
Proof.
  unfold LookupInCBProperty. cbn [switch]. rewrite !str_eq_text. generalize (string_of_list_byte name). clear name. intros name.
  start. generalize (call w fuel G d). intros C.
  syms idtac.
Qed.
Lemma call_MakeCharProperties d a b c : call w fuel G (S d) "charprops.MakeCharProperties" [GCB a; GCB b; InCB c] =
  Ret [P (MakeCharProperties a b c)].
Proof. rewrite call_S. generalize (call w fuel G d). intros C. go. reflexivity. Qed.

Lemma hex_text n : (n < 256)%N -> str_append "0" (str_append "x" (str_append (hex2 n) "")) = string_of_list_byte (sprintf_0x02x n).
Proof. intros H. rewrite hex2_text by assumption. reflexivity. Qed.
Lemma call_GCB_String d p : (p < 256)%N -> call w fuel G (S d) "charprops.GCBProperty.String" [GCB p] = 
  Ret [VStr (string_of_list_byte (GCBProperty_String p))].
Proof.
  intros Hp. start. generalize (call w fuel G d). intros C. unfold GCBProperty_String. cbn [switch].
  pose proof (hex_text p Hp) as HX. revert HX. generalize (sprintf_0x02x p). intros h HX.
  syms idtac. cbn [bind]. go. rewrite HX. reflexivity.
Qed.
Lemma call_InCB_String d p : (p < 256)%N -> call w fuel G (S d) "charprops.InCBProperty.String" [InCB p] = 
  Ret [VStr (string_of_list_byte (InCBProperty_String p))].
Proof.
  intros Hp. start. generalize (call w fuel G d). intros C. unfold InCBProperty_String. cbn [switch].
  pose proof (hex_text p Hp) as HX. revert HX. generalize (sprintf_0x02x p). intros h HX.
  syms idtac. cbn [bind]. go. rewrite HX. reflexivity.
Qed.
Lemma low_256 n : (N.land n 15 < 256)%N.
Proof. change 15%N with (N.ones 4). rewrite N.land_ones. eapply N.lt_trans; [apply N.mod_lt; discriminate|reflexivity]. Qed.
Lemma high_256 n : (N.land n 240 < 256)%N.
Proof.
  change 256%N with (2 ^ 8)%N. destruct (N.eq_dec (N.land n 240) 0) as [->|H]; [reflexivity|].
  apply N.log2_lt_pow2; [lia|]. eapply N.le_lt_trans; [apply N.log2_land|]. change (N.log2 240) with 7%N. lia.
Qed.
Lemma call_CharProperties_String d cp : call w fuel G (S (S d)) "charprops.CharProperties.String" [P cp] = 
  Ret [VStr (string_of_list_byte (CharProperties_String cp))].
Proof.
  start. pose proof (call_GCBProperty w fuel ia pa d cp) as H1. pose proof (call_InCBProperty w fuel ia pa d cp) as H2.
  pose proof (call_GCB_String d (N.land cp 15) (low_256 cp)) as H3. pose proof (call_InCB_String d (N.land cp 240) (high_256 cp)) as H4.
  change (N.land cp 15) with (byte_and cp 15) in H3. change (N.land cp 240) with (byte_and cp 240) in H4.
  revert H1 H2 H3 H4. generalize (call w fuel G (S d)). intros C H1 H2 H3 H4.
  unfold CharProperties_String. change (GCBProperty cp) with (byte_and cp 15) in *. change (InCBProperty cp) with (byte_and cp 240) in *. cbv zeta.
  replace (string_of_list_byte _) with
    (if (cp =? 0)%N then "None" else if (cp =? Error)%N then "Error" else if (byte_and cp 240 =? InCBNone)%N then string_of_list_byte (GCBProperty_String (byte_and cp 15))
     else if (byte_and cp 15 =? GCBNone)%N then str_append "InCB=" (string_of_list_byte (InCBProperty_String (byte_and cp 240)))
     else str_append (string_of_list_byte (GCBProperty_String (byte_and cp 15)))
       (str_append "|" (str_append "I" (str_append "n" (str_append "C" (str_append "B" (str_append "=" (str_append (string_of_list_byte (InCBProperty_String (byte_and cp 240))) "")))))))).
  - revert H3 H4. generalize (string_of_list_byte (GCBProperty_String (byte_and cp 15))) (string_of_list_byte (InCBProperty_String (byte_and cp 240))).
    intros g i H3 H4. syms ltac:(rewrite ?H1, ?H2, ?H3, ?H4).
  - destruct (cp =? 0)%N; [reflexivity|]. destruct (cp =? Error)%N; [reflexivity|].
    destruct (byte_and cp 240 =? InCBNone)%N; [reflexivity|]. destruct (byte_and cp 15 =? GCBNone)%N; [rewrite append_text; reflexivity|].
    rewrite append_text. f_equal. rewrite append_text. 
    generalize (string_of_list_byte (InCBProperty_String (byte_and cp 240))). intros i. 
    assert (str_append i "" = i) as -> by (unfold str_append; induction i as [|x i IH]; [reflexivity|cbn [String.append]; rewrite IH; reflexivity]).
    reflexivity.
Qed.

Lemma call_autoversion d data atEOF n t : (t = VNil \/ exists b, t = VBytes b) ->
  call w fuel G d "textseg.ScanGraphemeClusters" [VBytes data; VBool atEOF] = Ret [VInt "int" n; t; VNil] ->
  call w fuel G (S d) "autoversion.ScanGraphemeClusters" [VBytes data; VBool atEOF] = Ret [VInt "int" n; t; VNil].
Proof.
  intros T. start. generalize (call w fuel G d). intros C H. destruct T as [-> |[b ->]]; syms ltac:(rewrite ?H).
Qed.
Lemma unicode_version : assoc (g_values G) "autoversion.UnicodeMajorVersion" = Some (VConst 17).
Proof. reflexivity. Qed.
End Names.
