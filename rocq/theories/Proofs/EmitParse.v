(* The text that the generator emits, read by the parser of Model/GoSyntax.v. *)
From Coq Require Import List NArith Arith Bool Lia Strings.Byte Strings.String Strings.Ascii.
From Verif Require Import Spec.Utf8 Spec.UcdFile Model.Base Model.PropNames Model.GenTable Model.BuildTree Model.Emit Model.GoSyntax.
From Verif Require Import Proofs.ParseFacts Proofs.EmitFacts.
Import ListNotations.
Local Open Scope string_scope.
Local Open Scope list_scope.
Local Notation len := List.length (only parsing).
Local Notation chars := (map ascii_of_byte).

(* Reading l, after which more follows, gives the tokens ts. *)
Definition lexes (l : list ascii) (ts : list token) : Prop :=
  exists k, k <= len l /\ forall fuel rest, lex (k + fuel) (l ++ rest) false = option_map (app ts) (lex fuel rest false).

Lemma lexes_nil : lexes [] [].
Proof. exists 0. split; [lia|]. intros fuel rest. cbn [app Nat.add]. destruct (lex fuel rest false); reflexivity. Qed.
Lemma lexes_app l1 t1 l2 t2 : lexes l1 t1 -> lexes l2 t2 -> lexes (l1 ++ l2) (t1 ++ t2).
Proof.
  intros (k1 & L1 & H1) (k2 & L2 & H2). exists (k1 + k2). rewrite app_length. split; [lia|].
  intros fuel rest. rewrite <- app_assoc, <- Nat.add_assoc, H1, H2. destruct (lex fuel rest false); cbn [option_map]; [|reflexivity].
  rewrite app_assoc. reflexivity.
Qed.

(* digits *)
Lemma digit_small c d : UcdFile.digit_value c d -> GoSyntax.digit_value (ascii_of_byte c) = Some d /\ (d < 16)%N.
Proof.
  intros H. split; [|destruct H as [[H _]|[H _]]; lia].
  unfold UcdFile.digit_value, GoSyntax.digit_value, between, code in *.
  assert (N_of_ascii (ascii_of_byte c) = bval c) as -> by (destruct c; reflexivity).
  destruct H as [[H1 H2]|[H1 [H2|H2]]]; rewrite H2.
  - replace ((48 <=? 0x30 + d) && (0x30 + d <=? 57))%N with true by lia. f_equal. lia.
  - replace ((48 <=? 0x41 + (d - 10)) && (0x41 + (d - 10) <=? 57))%N with false by lia.
    replace ((97 <=? 0x41 + (d - 10)) && (0x41 + (d - 10) <=? 102))%N with false by lia.
    replace ((65 <=? 0x41 + (d - 10)) && (0x41 + (d - 10) <=? 70))%N with true by lia. f_equal. lia.
  - replace ((48 <=? 0x61 + (d - 10)) && (0x61 + (d - 10) <=? 57))%N with false by lia.
    replace ((97 <=? 0x61 + (d - 10)) && (0x61 + (d - 10) <=? 102))%N with true by lia. f_equal. lia.
Qed.

Lemma digits_app base l c : forall acc, digits base acc (l ++ [c]) =
  match digits base acc l with Some n => digits base n [c] | None => None end.
Proof.
  induction l as [|x l IH]; intros acc; [reflexivity|]. cbn [app digits].
  destruct (GoSyntax.digit_value x) as [d|]; [|reflexivity]. destruct (d <? base)%N; [apply IH|reflexivity].
Qed.
Lemma digits_hex s n : hex_value s n -> digits 16 0 (chars s) = Some n.
Proof.
  induction 1 as [c d H|s n c d H IH K]; [cbn [map]|rewrite map_app; cbn [map]; rewrite digits_app, IH];
    cbn [digits]; destruct (digit_small c d ltac:(assumption)) as [-> L]; rewrite (proj2 (N.ltb_lt _ _) L); f_equal; lia.
Qed.

Lemma hexd_alnum b : hexd b -> alnum (ascii_of_byte b) = true.
Proof. intros [H _]. destruct b; try discriminate H; reflexivity. Qed.

Lemma span_word w c rest : Forall (fun b => alnum b = true) w -> alnum c = false -> span alnum (w ++ c :: rest) = (w, c :: rest).
Proof.
  intros H Hc. induction H as [|b w H _ IH]; cbn [app span]; [rewrite Hc; reflexivity|]. rewrite H, IH. reflexivity.
Qed.

Lemma number_hex a b l : digits 16 0 (b :: l) = Some a -> number ("0"%char :: "x"%char :: b :: l) = Some a.
Proof. intros H. exact H. Qed.

Lemma span_literal h v rest : hex_value h v -> Forall hexd h ->
  span alnum (chars ([x30; x78] ++ h) ++ ","%char :: rest) = (chars ([x30; x78] ++ h), ","%char :: rest) /\
  number (chars ([x30; x78] ++ h)) = Some v.
Proof.
  intros Hv Hh. split.
  - apply span_word; [|reflexivity]. cbn [app map]. constructor; [reflexivity|constructor; [reflexivity|]].
    apply Forall_map. eapply Forall_impl; [|exact Hh]. apply hexd_alnum.
  - destruct h as [|b h]; [inversion Hv as [|s n c d ? ? E]; destruct s; discriminate|].
    cbn [app map]. apply number_hex, (digits_hex (b :: h) v Hv).
Qed.

(* 0x02, *)
Definition item_toks (v : N) : list token := [TNum v; TOp ","].
Lemma lexes_item v : lexes (chars (PropNames.str "0x" ++ fmt_x 2 v ++ PropNames.str ",")) (item_toks v).
Proof.
  exists 2. split; [cbn [PropNames.str list_byte_of_string app map List.length]; rewrite map_length, app_length; cbn; lia|].
  intros fuel rest. destruct (fmt_x_ok 2 v) as [Hv Hh]. destruct (span_literal (fmt_x 2 v) v rest Hv Hh) as [Hs Hn].
  assert (chars (PropNames.str "0x" ++ fmt_x 2 v ++ PropNames.str ",") ++ rest = chars ([x30; x78] ++ fmt_x 2 v) ++ ","%char :: rest) as ->.
  { change (PropNames.str "0x") with [x30; x78]. rewrite app_assoc, (map_app ascii_of_byte ([x30; x78] ++ fmt_x 2 v)), <- app_assoc. reflexivity. }
  set (w := chars ([x30; x78] ++ fmt_x 2 v)) in *. 
  assert (exists w', w = "0"%char :: w') as [w' E] by (eexists; reflexivity).
  cbn [Nat.add]. cbn [lex]. rewrite E in *. cbn [app]. cbn [app] in Hs.
  change (newline "0"%char) with false. change (blank "0"%char) with false. change (letter "0"%char) with false.
  change (digit "0"%char) with true. cbv beta iota zeta. rewrite Hs, Hn. cbn [ends_line]. 
  change (newline ","%char) with false. change (blank ","%char) with false. change (letter ","%char) with false.
  change (digit ","%char) with false. change (quote ","%char) with false. cbv beta iota zeta.
  change ((code ","%char =? 39)%N) with false. change ((code ","%char =? 47)%N) with false. change ((code ","%char =? 46)%N) with false.
  cbv beta iota zeta. cbn [andb].
  assert (forall d, is_in (GoSyntax.str [","%char; d]) operators2 = false) as E2 by (intros d; reflexivity).
  destruct rest as [|d r]; [|rewrite E2]; change (is_in (GoSyntax.str [","%char]) operators1) with true; cbv beta iota zeta;
    change (is_in (GoSyntax.str [","%char]) [")"; "]"; "}"; "++"]) with false; (destruct (lex fuel _ false); reflexivity).
Qed.

Lemma lexes_items check items : forall out, fprint_items check items = Ret out -> lexes (chars out) (flat_map item_toks items).
Proof.
  induction items as [|v items IH]; intros out H; cbn [fprint_items] in H.
  - apply Ret_inj in H. subst out. apply lexes_nil.
  - destruct (check && (255 <? v)%N); [discriminate|].
    destruct (fprint_items check items) as [rest|]; [|discriminate]. cbn [bind] in H. apply Ret_inj in H. subst out.
    cbn [flat_map]. replace (PropNames.str "0x" ++ fmt_x 2 v ++ PropNames.str "," ++ rest) with ((PropNames.str "0x" ++ fmt_x 2 v ++ PropNames.str ",") ++ rest)
      by (rewrite <- !app_assoc; reflexivity).
    rewrite map_app. apply lexes_app; [apply lexes_item|apply IH; reflexivity].
Qed.

(* blanks, ends of lines and comments *)
Lemma lexes_blank c : newline c || blank c = true -> lexes [c] [].
Proof.
  intros H. exists 1. split; [reflexivity|]. intros fuel rest. cbn [Nat.add app lex].
  destruct (newline c); [|cbn [orb] in H; rewrite H]; destruct (lex fuel rest false); reflexivity.
Qed.

Lemma span_line w rest : Forall (fun c => newline c = false) w ->
  span (fun c => negb (newline c)) (w ++ "010"%char :: rest) = (w, "010"%char :: rest).
Proof. induction 1 as [|c w H _ IH]; cbn [app span]; [reflexivity|]. rewrite H. cbn [negb]. rewrite IH. reflexivity. Qed.

Lemma lexes_comment w : Forall (fun c => newline c = false) w -> lexes ("/"%char :: "/"%char :: w ++ ["010"%char]) [].
Proof.
  intros H. exists 2. split; [cbn [List.length]; lia|]. intros fuel rest. cbn [Nat.add app]. rewrite <- app_assoc. cbn [app].
  cbn [lex]. change (newline "/"%char) with false. change (blank "/"%char) with false. change (letter "/"%char) with false.
  change (digit "/"%char) with false. change (quote "/"%char) with false. change ((code "/"%char =? 39)%N) with false.
  change ((code "/"%char =? 47)%N) with true. cbv beta iota zeta. cbn [andb]. rewrite span_line by exact H. cbn [snd].
  change (newline "010"%char) with true. cbv beta iota. destruct (lex fuel rest false); reflexivity.
Qed.

Lemma lexes_rows check fuel : forall i rest out, fprint_rows fuel check i rest = Ret out -> lexes (chars out) (flat_map item_toks rest).
Proof.
  induction fuel as [|fuel IH]; intros i rest out H; cbn [fprint_rows] in H; [discriminate|].
  destruct rest as [|v rest0]; [apply Ret_inj in H; subst out; apply lexes_nil|]. remember (v :: rest0) as rest eqn:Er.
  destruct (fprint_items check _) as [row|] eqn:E1; [|discriminate]. cbn [bind] in H.
  destruct (fprint_rows fuel check (i + 8) (skipn 8 rest)) as [more|] eqn:E2; [|discriminate]. cbn [bind] in H.
  assert (firstn (Nat.min (len rest) 8) rest = firstn 8 rest) as E3.
  { destruct (Nat.min_dec (len rest) 8) as [K|K]; rewrite K; [|reflexivity].
    rewrite firstn_all. symmetry. apply firstn_all2. lia. }
  rewrite E3 in E1. clear E3.
  apply Ret_inj in H. subst out.
  rewrite <- (firstn_skipn 8 rest), flat_map_app, !map_app.
  change (flat_map item_toks (firstn 8 rest) ++ flat_map item_toks (skipn 8 rest))
    with ([] ++ [] ++ flat_map item_toks (firstn 8 rest) ++ [] ++ flat_map item_toks (skipn 8 rest)).
  apply lexes_app; [|apply lexes_app; [apply lexes_blank; reflexivity|apply lexes_app; [eapply lexes_items; exact E1|
    apply lexes_app; [apply lexes_blank; reflexivity|eapply IH; exact E2]]]].
  destruct (i mod 64 =? 0)%N; [|apply lexes_nil].
  replace (chars (PropNames.str "  // block 0x" ++ fmt_x 4 (N.shiftr i 6) ++ [x0a]))
    with ([" "%char] ++ [" "%char] ++ "/"%char :: "/"%char :: (chars (PropNames.str " block 0x" ++ fmt_x 4 (N.shiftr i 6)) ++ ["010"%char])).
  2:{ rewrite !map_app. cbn [PropNames.str list_byte_of_string map app]. rewrite <- ?app_assoc. reflexivity. }
  change (@nil token) with (@nil token ++ [] ++ []).
  apply lexes_app; [apply lexes_blank; reflexivity|apply lexes_app; [apply lexes_blank; reflexivity|apply lexes_comment]].
  apply Forall_map, Forall_app. split; [repeat constructor|].
  eapply Forall_impl; [|apply fmt_x_ok]. intros b [_ Hb]. destruct b; try reflexivity. congruence.
Qed.

(* var x = [...]T{ *)
Definition array_toks (x t : string) (vs : list N) : list token :=
  [TId "var"; TId x; TOp "="; TOp "["; TOp "..."; TOp "]"; TId t; TOp "{"] ++ flat_map item_toks vs ++ [TOp "}"; TOp ";"].

Ltac fixed k := exists k; split; [apply Nat.leb_le; vm_compute; reflexivity|]; intros fuel rest;
  match goal with |- lex _ (?l ++ _) _ = _ => let l' := eval vm_compute in l in change l with l' end;
  cbn; destruct (lex fuel rest false); reflexivity.

Lemma lexes_head : lexes (chars (PropNames.str "// Generated by generate.go. DO NOT EDIT!" ++ x0a :: x0a :: PropNames.str "package charprops" ++ x0a :: x0a ::
    PropNames.str "var lookupIndices = [...]uint8{" ++ [x0a]))
  [TId "package"; TId "charprops"; TOp ";"; TId "var"; TId "lookupIndices"; TOp "="; TOp "["; TOp "..."; TOp "]"; TId "uint8"; TOp "{"].
Proof. fixed 20. Qed.
Lemma lexes_middle : lexes (chars (PropNames.str "}" ++ x0a :: PropNames.str "var lookupProps = [...]CharProperties{" ++ [x0a]))
  [TOp "}"; TOp ";"; TId "var"; TId "lookupProps"; TOp "="; TOp "["; TOp "..."; TOp "]"; TId "CharProperties"; TOp "{"].
Proof. fixed 14. Qed.
Lemma lexes_tail : lexes (chars (PropNames.str "}" ++ [x0a])) [TOp "}"; TOp ";"].
Proof. fixed 2. Qed.

Definition source_toks (indices props : list N) : list token :=
  [TId "package"; TId "charprops"; TOp ";"] ++ array_toks "lookupIndices" "uint8" indices ++ array_toks "lookupProps" "CharProperties" props.

Lemma lexes_source indices props text : source_text indices props = Ret text -> lexes (chars text) (source_toks indices props).
Proof.
  unfold source_text. destruct (fprint_rows (S (len indices)) true 0 indices) as [rows1|] eqn:E1; [|discriminate]. cbn [bind].
  destruct (fprint_rows (S (len props)) false 0 props) as [rows2|] eqn:E2; [|discriminate]. cbn [bind].
  intros H. apply Ret_inj in H. subst text.
  match goal with |- lexes (chars ?t) _ => replace t with
    ((PropNames.str "// Generated by generate.go. DO NOT EDIT!" ++ x0a :: x0a :: PropNames.str "package charprops" ++ x0a :: x0a ::
      PropNames.str "var lookupIndices = [...]uint8{" ++ [x0a]) ++ rows1 ++
     (PropNames.str "}" ++ x0a :: PropNames.str "var lookupProps = [...]CharProperties{" ++ [x0a]) ++ rows2 ++
     (PropNames.str "}" ++ [x0a])) end.
  2:{ cbn [PropNames.str list_byte_of_string app]. reflexivity. }
  unfold source_toks, array_toks. rewrite !map_app.
  match goal with |- lexes _ ?ts => replace ts with
    ([TId "package"; TId "charprops"; TOp ";"; TId "var"; TId "lookupIndices"; TOp "="; TOp "["; TOp "..."; TOp "]"; TId "uint8"; TOp "{"] ++
     flat_map item_toks indices ++
     [TOp "}"; TOp ";"; TId "var"; TId "lookupProps"; TOp "="; TOp "["; TOp "..."; TOp "]"; TId "CharProperties"; TOp "{"] ++
     flat_map item_toks props ++ [TOp "}"; TOp ";"]) end.
  2:{ cbn [app]. do 11 f_equal. rewrite <- app_assoc. reflexivity. }
  repeat apply lexes_app; eauto using lexes_head, lexes_middle, lexes_tail, lexes_rows.
  all: rewrite <- ?map_app; eauto using lexes_head, lexes_middle, lexes_tail, lexes_rows.
Qed.

Lemma elements_read vs r : p_elements (flat_map item_toks vs ++ TOp "}" :: r) = Some (vs, r).
Proof. induction vs as [|v vs IH]; [reflexivity|]. cbn [flat_map item_toks app p_elements]. change (String.eqb "," ",") with true. cbv iota. rewrite IH. reflexivity. Qed.

Lemma var_read fuel x t vs r : is_in x keywords = false -> is_in t keywords = false ->
  p_var (S fuel) (tl (array_toks x t vs) ++ r) = Some (DTable x (TName t) vs, TOp ";" :: r).
Proof.
  intros Hx Ht. unfold array_toks, p_var. cbn [app tl]. rewrite <- app_assoc. cbn [app].
  assert (forall r, ident (TId x :: r) = Some (x, r)) as -> by (intros r'; unfold ident; rewrite Hx; reflexivity).
  cbn [op is_op next_op tl p_type String.eqb Ascii.eqb Bool.eqb].
  assert (forall r, ident (TId t :: r) = Some (t, r)) as -> by (intros r'; unfold ident; rewrite Ht; reflexivity).
  cbn [op is_op next_op tl p_type String.eqb Ascii.eqb Bool.eqb]. rewrite elements_read. reflexivity.
Qed.

(* What Model/GoSyntax.v reads in it. *)
Theorem emitted_parses indices props text : source_text indices props = Ret text ->
  parse (string_of_list_byte text) =
  Some (File "charprops" [] [DTable "lookupIndices" (TName "uint8") indices; DTable "lookupProps" (TName "CharProperties") props]).
Proof.
  intros H. destruct (lexes_source _ _ _ H) as (k & L & Hl).
  unfold parse, tokens_of, string_of_list_byte. rewrite list_ascii_of_string_of_list_ascii.
  assert (lex (S (len (chars text))) (chars text) false = Some (source_toks indices props)) as ->.
  { replace (S (len (chars text))) with (k + S (len (chars text) - k)) by lia. specialize (Hl (S (len (chars text) - k)) []).
    rewrite app_nil_r in Hl. rewrite Hl. cbn [lex option_map]. rewrite app_nil_r. reflexivity. }
  replace (10 + 2 * len (source_toks indices props)) with (S (S (S (S (6 + 2 * len (source_toks indices props)))))) by lia.
  generalize (6 + 2 * len (source_toks indices props)). intros n.
  unfold source_toks, p_file. cbn [app kw is_id]. change (String.eqb "package" "package") with true. cbv iota.
  assert (forall r, ident (TId "charprops" :: r) = Some ("charprops", r)) as -> by (intros; reflexivity).
  cbn [op is_op]. change (String.eqb ";" ";") with true. cbv iota.
  assert (forall f x t vs r, p_imports (S f) (array_toks x t vs ++ r) = Some ([], array_toks x t vs ++ r)) as I by (intros; reflexivity).
  rewrite I.
  assert (forall f x t vs r, is_in x keywords = false -> is_in t keywords = false ->
    p_decls (S (S f)) (array_toks x t vs ++ r) = match p_decls (S f) r with Some ds => Some ([DTable x (TName t) vs] ++ ds) | None => None end) as D.
  { intros f x t vs r Hx Ht. pose proof (var_read f x t vs r Hx Ht) as V.
    assert (p_decl (S f) (array_toks x t vs ++ r) = match p_var (S f) (tl (array_toks x t vs) ++ r) with Some (d, r) => Some ([d], r) | None => None end) as E by reflexivity.
    change (p_decls (S (S f)) (array_toks x t vs ++ r)) with
      (match p_decl (S f) (array_toks x t vs ++ r) with
       | Some (d, r) => match op ";" r with Some r => match p_decls (S f) r with Some ds => Some (d ++ ds) | None => None end | None => None end
       | None => None end).
    rewrite E, V. reflexivity. }
  rewrite D by reflexivity. rewrite <- (app_nil_r (array_toks "lookupProps" "CharProperties" props)), D by reflexivity. reflexivity.
Qed.
