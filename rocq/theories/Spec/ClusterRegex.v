(* The regular expression for extended grapheme clusters, UAX #29 Tables 1b and
   1c, and what it means to divide a text by it.  This is a second description
   of the clusters, independent of the rules of Spec/UAX29.v.
   Specification: nothing here comes from the code. *)
From Coq Require Import List.
From Verif Require Import Spec.Classes Spec.UAX29.
Import ListNotations.

(* Regular languages over classes of characters. *)
Definition lang := list cls -> Prop.
Definition one (P : cls -> Prop) : lang := fun w => exists c, w = [c] /\ P c.
Definition cat (A B : lang) : lang := fun w => exists u v, w = u ++ v /\ A u /\ B v.
Definition alt (A B : lang) : lang := fun w => A w \/ B w.
Inductive star (A : lang) : lang :=
| star_nil : star A []
| star_cons u v : A u -> star A v -> star A (u ++ v).
Definition plus (A : lang) : lang := cat A (star A).
Definition any_of (gs : list GCB) : lang := one (one_of gs).

(* crlf := CR LF | CR | LF *)
Definition crlf : lang := alt (cat (any_of [CR]) (any_of [LF])) (alt (any_of [CR]) (any_of [LF])).
(* hangul-syllable := L* (V+ | LV V* | LVT) T* | L+ | T+ *)
Definition hangul_syllable : lang :=
  alt (cat (star (any_of [L]))
        (cat (alt (plus (any_of [V])) (alt (cat (any_of [LV]) (star (any_of [V]))) (any_of [LVT])))
          (star (any_of [T]))))
    (alt (plus (any_of [L])) (plus (any_of [T]))).
(* ri-sequence := RI RI *)
Definition ri_sequence : lang := cat (any_of [Regional_Indicator]) (any_of [Regional_Indicator]).
(* xpicto-sequence := \p{Extended_Pictographic} (Extend* ZWJ \p{Extended_Pictographic})* *)
Definition xpicto_sequence : lang :=
  cat (one pict) (star (cat (star (any_of [Extend])) (cat (any_of [ZWJ]) (one pict)))).
(* conjunctCluster := \p{InCB=Consonant} ([\p{InCB=Extend} \p{InCB=Linker}]* \p{InCB=Linker}
                      [\p{InCB=Extend} \p{InCB=Linker}]* \p{InCB=Consonant})+ *)
Definition conjunct_cluster : lang :=
  cat (one consonant)
    (plus (cat (star (one ext_or_linker)) (cat (one linker) (cat (star (one ext_or_linker)) (one consonant))))).
(* core := hangul-syllable | ri-sequence | xpicto-sequence | conjunctCluster | [^Control CR LF] *)
Definition core : lang :=
  alt hangul_syllable (alt ri_sequence (alt xpicto_sequence (alt conjunct_cluster
    (one (fun c => ~ one_of [Control; CR; LF] c))))).
(* precore := Prepend, postcore := [Extend ZWJ SpacingMark] *)
Definition precore : lang := any_of [Prepend].
Definition postcore : lang := any_of [Extend; ZWJ; SpacingMark].
(* extended grapheme cluster := crlf | Control | precore* core postcore* *)
Definition cluster_regex : lang :=
  alt crlf (alt (any_of [Control]) (cat (star precore) (cat core (star postcore)))).

(* Dividing a text by it from left to right, each time taking as much as
   matches. *)
Inductive longest_matches {A} (cl : A -> cls) : list A -> list (list A) -> Prop :=
| matches_end : longest_matches cl [] []
| matches_next x rest segs :
    x <> [] -> cluster_regex (map cl x) ->
    (forall y z, rest = y ++ z -> y <> [] -> ~ cluster_regex (map cl (x ++ y))) ->
    longest_matches cl rest segs ->
    longest_matches cl (x ++ rest) (x :: segs).
