(* What the table generator is asked to do, independently of how: a history of
   assignments of property values to code points. *)
From Coq Require Import List NArith ZArith Bool.
From Verif Require Import Spec.Utf8.
Import ListNotations.
Local Open Scope N_scope.

(* [OpSet r v]: the value of r becomes v (GCB classes, Extended_Pictographic).
   [OpOr r v]: the bits of v are added to the value of r (InCB).
   A Go rune is an int32, so it may be negative or no scalar value. *)
Inductive op :=
| OpSet (r : Z) (v : N)
| OpOr (r : Z) (v : N).

Definition op_rune (o : op) : Z := match o with OpSet r _ => r | OpOr r _ => r end.

(* The character a rune stands for in UTF-8: Go encodes everything that is no
   scalar value as U+FFFD. *)
Definition target (r : Z) : N :=
  if (0 <=? r)%Z && scalarb (Z.to_N r) then Z.to_N r else 0xFFFD.

(* The value a character has after one more assignment / after all. *)
Definition assign (c : N) (old : N) (o : op) : N :=
  match o with
  | OpSet r v => if target r =? c then v else old
  | OpOr r v => if target r =? c then N.lor old v else old
  end.
Definition value (ops : list op) (c : N) : N := fold_left (assign c) ops 0.

(* The value 4 (Extended_Pictographic) given to a character that has another
   value already. *)
Definition conflict (ops : list op) : Prop :=
  exists before r after,
    ops = before ++ OpSet r 4 :: after /\ value before (target r) <> 0.

(* The blocks of 64 code points, outside ASCII, that are mentioned. *)
Definition touched (ops : list op) : list N :=
  nodup N.eq_dec
    (map (fun c => c / 64) (filter (fun c => 128 <=? c) (map (fun o => target (op_rune o)) ops))).

(* The two ASCII blocks differ and some block of 64 code points in
   U+0800..U+FFFF has exactly the values of the first ASCII block. *)
Definition collides (ops : list op) : Prop :=
  (exists x, x < 64 /\ value ops x <> value ops (64 + x)) /\
  (exists b, 32 <= b < 1024 /\ forall x, x < 64 -> value ops (b * 64 + x) = value ops x).
