(* What programs in the subset of Go of Model/GoSyntax.v do, from the Go language
   specification.  Values carry their types, which decide about methods and about
   the width of arithmetic; int has w bits (Model/WordInt.v).  Slices of bytes are
   the lists of their elements: the programs write to no element.  Where a program
   is outside the subset or ill-typed there is no answer. *)
From Coq Require Import List NArith ZArith Arith Bool Strings.String Strings.Ascii Strings.Byte.
From Verif Require Import Spec.Utf8 Model.Base Model.WordInt Model.GoSyntax.
Import ListNotations.
Local Open Scope list_scope.

(* No answer: outside the subset, ill-typed, or not enough fuel. *)
Definition no_answer {A} : res A := Panic OutOfFuel.

(* the values of state.go, property_table.go, properties.go and grapheme_clusters.go *)
Inductive value :=
| VInt (t : string) (z : Z)      (* int or a type like State *)
| VByte (t : string) (n : N)     (* uint8 or a type like CharProperties *)
| VConst (z : Z)                 (* an untyped constant *)
| VBool (b : bool)
| VStr (s : string)
| VBytes (p : list byte)         (* []byte *)
| VTable (t : string) (a : arr)  (* an array of uint8 or a type like CharProperties *)
| VNil.

(* Package identifier, and what its imported names stand for. *)
Record context := Context { c_pkg : string; c_imports : list (string * string) }.

(* What is declared: named types and whether they are bytes; constants and
   variables; functions and methods.  Keys are like "charprops.Error",
   "machine.State.nextState". *)
Record genv := Genv {
  g_types : list (string * bool);
  g_values : list (string * value);
  g_funs : list (string * (context * func)) }.

(* the value of a name (grapheme_clusters.go 22) *)
Fixpoint assoc {A} (l : list (string * A)) (x : string) : option A :=
  match l with
  | [] => None
  | (y, v) :: l => if String.eqb x y then Some v else assoc l x
  end.
(* charprops.Error (grapheme_clusters.go 23) *)
Definition dot (a b : string) : string := (a ++ "." ++ b)%string.

(* Types as far as values are concerned. *)
Inductive gtype := GNum (t : string) (byte : bool) | GBytes | GBool | GString | GError.

(* types of numbers: state.go 23, properties.go 10, 58, 198 *)
Definition is_byte (g : genv) (t : string) : option bool :=
  if String.eqb t "int" then Some false
  else if String.eqb t "uint8" then Some true
  else if String.eqb t "byte" then Some true
  else assoc (g_types g) t.
(* byte is another name of uint8 (property_table.go 17) *)
Definition canonical (t : string) : string := if String.eqb t "byte" then "uint8"%string else t.
(* A named number type: predeclared, or of this package. *)
Definition named_type (g : genv) (c : context) (x : string) : option (string * bool) :=
  if is_in x ["int"; "uint8"; "byte"]%string then option_map (pair (canonical x)) (is_byte g x)
  else option_map (pair (dot (c_pkg c) x)) (assoc (g_types g) (dot (c_pkg c) x)).
(* charprops.CharProperties (state.go 60) *)
Definition imported_type (g : genv) (pkg x : string) : option (string * bool) :=
  option_map (pair (dot pkg x)) (assoc (g_types g) (dot pkg x)).

(* grapheme_clusters.go 17, state.go 72, properties.go 85 *)
Definition resolve (g : genv) (c : context) (t : ty) : option gtype :=
  match t with
  | TName x =>
      if String.eqb x "bool" then Some GBool
      else if String.eqb x "string" then Some GString
      else if String.eqb x "error" then Some GError
      else option_map (fun p => GNum (fst p) (snd p)) (named_type g c x)
  | TQual q x =>
      match assoc (c_imports c) q with
      | Some pkg => option_map (fun p => GNum (fst p) (snd p)) (imported_type g pkg x)
      | None => None
      end
  | TSlice (TName x) => if is_in x ["byte"; "uint8"]%string then Some GBytes else None
  | TSlice _ => None
  end.

(* An untyped constant as a value of a number type: bytes have 8 bits, and ints at
   least 15 and a sign (larger constants are outside the subset). *)
Definition bits (z : Z) : nat := match z with Z0 => 0 | Zpos p | Zneg p => Pos.size_nat p end.
(* for constants (properties.go 61) *)
Definition negative (z : Z) : bool := match z with Zneg _ => true | _ => false end.
(* properties.go 61, state.go 28 *)
Definition of_const (t : string) (byte : bool) (z : Z) : res value :=
  if byte then (if negative z then no_answer else if Nat.leb (bits z) 8 then Ret (VByte t (Z.to_N z)) else no_answer)
  else (if Nat.leb (bits z) 15 then Ret (VInt t z) else no_answer).

(* Assignability, and the value assigned. *)
Definition assign (t : gtype) (v : value) : res value :=
  match t, v with
  | GNum t b, VConst z => of_const t b z
  | GNum t b, VInt t' z => if negb b && String.eqb t t' then Ret v else no_answer
  | GNum t b, VByte t' n => if b && String.eqb t t' then Ret v else no_answer
  | GBytes, VBytes _ => Ret v
  | GBytes, VNil => Ret v
  | GBool, VBool _ => Ret v
  | GString, VStr _ => Ret v
  | GError, VNil => Ret v
  | _, _ => no_answer
  end.

(* Arithmetic of ints (w bits, wrapping around) and bytes. *)
Definition int_plus (w a b : Z) : Z := wrap w (a + b).
(* not used by the files; property_table.go 54 for the others *)
Definition int_minus (w a b : Z) : Z := wrap w (a - b).
(* as int_minus (property_table.go 54) *)
Definition int_times (w a b : Z) : Z := wrap w (a * b).
(* property_table.go 54: blockIdx<<6 *)
Definition int_shift (w a b : Z) : Z := wrap w (a * 2 ^ b).
(* grapheme_clusters.go 18 *)
Definition int_eq (a b : Z) : bool := (a =? b)%Z.
(* property_table.go 36, 42 *)
Definition int_lt (a b : Z) : bool := (a <? b)%Z.
(* as int_lt (property_table.go 36) *)
Definition int_le (a b : Z) : bool := (a <=? b)%Z.
(* as byte_and (property_table.go 24) *)
Definition byte_plus (a b : N) : N := ((a + b) mod 256)%N.
(* property_table.go 24, properties.go 19 *)
Definition byte_and (a b : N) : N := N.land a b.
(* properties.go 12, 15 *)
Definition byte_or (a b : N) : N := N.lor a b.
(* property_table.go 24, state.go 90 *)
Definition byte_eq (a b : N) : bool := (a =? b)%N.
(* property_table.go 22 *)
Definition byte_lt (a b : N) : bool := (a <? b)%N.
(* as byte_lt (property_table.go 22) *)
Definition byte_le (a b : N) : bool := (a <=? b)%N.
(* property_table.go 53: int(...) *)
Definition byte_to_int (n : N) : Z := Z.of_N n.
(* conversions the other way (properties.go 12) *)
Definition int_to_byte (z : Z) : N := Z.to_N (z mod 256).

(* == and + on strings *)
Definition str_eq (a b : string) : bool := String.eqb a b.
(* properties.go 39 *)
Definition str_append (a b : string) : string := (a ++ b)%string.

(* T(x) *)
Definition conversion (t : string) (byte : bool) (v : value) : res value :=
  match v with
  | VConst z => of_const t byte z
  | VInt _ z => Ret (if byte then VByte t (int_to_byte z) else VInt t z)
  | VByte _ n => Ret (if byte then VByte t n else VInt t (byte_to_int n))
  | _ => no_answer
  end.

(* property_table.go 5, 17: zero values *)
Definition zero (t : gtype) : value :=
  match t with
  | GNum t true => VByte t 0
  | GNum t false => VInt t 0
  | GBytes | GError => VNil
  | GBool => VBool false
  | GString => VStr ""
  end.

(* Operators on operands of the same type. *)
Definition int_op (w : Z) (o : binop) (t : string) (a b : Z) : res value :=
  match o with
  | Add => Ret (VInt t (int_plus w a b))
  | Sub => Ret (VInt t (int_minus w a b))
  | Mul => Ret (VInt t (int_times w a b))
  | Eq => Ret (VBool (int_eq a b))
  | Ne => Ret (VBool (negb (int_eq a b)))
  | Lt => Ret (VBool (int_lt a b))
  | Le => Ret (VBool (int_le a b))
  | Gt => Ret (VBool (int_lt b a))
  | Ge => Ret (VBool (int_le b a))
  | _ => no_answer
  end.
(* property_table.go 22-30, properties.go 12 *)
Definition byte_op (o : binop) (t : string) (a b : N) : res value :=
  match o with
  | Add => Ret (VByte t (byte_plus a b))
  | And => Ret (VByte t (byte_and a b))
  | Or => Ret (VByte t (byte_or a b))
  | Eq => Ret (VBool (byte_eq a b))
  | Ne => Ret (VBool (negb (byte_eq a b)))
  | Lt => Ret (VBool (byte_lt a b))
  | Le => Ret (VBool (byte_le a b))
  | Gt => Ret (VBool (byte_lt b a))
  | Ge => Ret (VBool (byte_le b a))
  | _ => no_answer
  end.
(* state.go 90-139, property_table.go 54 *)
Definition operate (w : Z) (o : binop) (a b : value) : res value :=
  match o, a, b with
  | Shl, VInt t x, VConst y => Ret (VInt t (int_shift w x y))
  | Shl, _, _ => no_answer
  | _, VInt t x, VInt t' y => if String.eqb t t' then int_op w o t x y else no_answer
  | _, VInt t x, VConst y => int_op w o t x y
  | _, VConst x, VInt t y => int_op w o t x y
  | _, VByte t x, VByte t' y => if String.eqb t t' then byte_op o t x y else no_answer
  | _, VByte t x, VConst y => let! v := of_const t true y in match v with VByte _ y => byte_op o t x y | _ => no_answer end
  | _, VConst x, VByte t y => let! v := of_const t true x in match v with VByte _ x => byte_op o t x y | _ => no_answer end
  | Add, VStr x, VStr y => Ret (VStr (str_append x y))
  | Eq, VStr x, VStr y => Ret (VBool (str_eq x y))
  | _, _, _ => no_answer
  end.

(* An index: any integer value. *)
Definition as_index (v : value) : option Z :=
  match v with VInt _ z => Some z | VByte _ n => Some (byte_to_int n) | VConst z => Some z | _ => None end.
(* property_table.go 21, 43, 50-62 *)
Definition element (a i : value) : res value :=
  match a, as_index i with
  | VBytes p, Some i => let! b := int_index p i in Ret (VByte "uint8" (bval b))
  | VTable t a, Some i => let! n := int_aget a i in Ret (VByte t n)
  | _, _ => no_answer
  end.
(* grapheme_clusters.go 24, 34 *)
Definition subslice (a : value) (lo hi : option value) : res value :=
  match a, lo, hi with
  | VBytes p, Some i, None => match as_index i with Some i => let! q := int_slice_from p i in Ret (VBytes q) | None => no_answer end
  | VBytes p, None, Some j => match as_index j with Some j => let! q := int_slice_to p j in Ret (VBytes q) | None => no_answer end
  | _, _, _ => no_answer
  end.

(* Which of the panics of the model it is: property_table.go 64, state.go 194. *)
Definition panic_of (s : string) : res (list value) :=
  if String.eqb s "unreachable" then Panic Unreachable
  else if String.eqb s "invalid state" then Panic InvalidState
  else no_answer.

(* Local variables: the scopes, innermost first. *)
Definition env := list (list (string * value)).
(* grapheme_clusters.go 22-78 *)
Fixpoint local (e : env) (x : string) : option value :=
  match e with
  | [] => None
  | s :: e => match assoc s x with Some v => Some v | None => local e x end
  end.
(* grapheme_clusters.go 76-78 *)
Fixpoint update1 (s : list (string * value)) (x : string) (v : value) : option (list (string * value)) :=
  match s with
  | [] => None
  | (y, u) :: s => if String.eqb x y then Some ((y, v) :: s) else option_map (cons (y, u)) (update1 s x v)
  end.
(* grapheme_clusters.go 67, 76-78 *)
Fixpoint update (e : env) (x : string) (v : value) : option env :=
  match e with
  | [] => None
  | s :: e => match update1 s x v with Some s => Some (s :: e) | None => option_map (cons s) (update e x v) end
  end.

(* The type of a variable is the type of its value. *)
Definition like (u v : value) : res value :=
  match u, v with
  | VInt t _, _ => assign (GNum t false) v
  | VByte t _, _ => assign (GNum t true) v
  | VBool _, _ => assign GBool v
  | VBytes _, _ => assign GBytes v
  | VStr _, _ => assign GString v
  | _, _ => no_answer
  end.
(* x := v: untyped constants become ints. *)
Definition default_type (v : value) : res value :=
  match v with VConst z => of_const "int" false z | VNil => no_answer | _ => Ret v end.

(* after a statement: go on, or return (grapheme_clusters.go 19) *)
Inductive outcome := Next (e : env) | Return (vs : list value).

(* the type that decides about the method (state.go 80) *)
Definition type_name (v : value) : option string :=
  match v with VInt t _ => Some t | VByte t _ => Some t | _ => None end.

(* state.go 80: s.nextState(next) as an operand *)
Definition one (r : res (list value)) : res value :=
  let! vs := r in match vs with [v] => Ret v | _ => no_answer end.

Section Run.
Variable w : Z.
Variable fuel : nat.
Variable g : genv.
Variable call : string -> list value -> res (list value).
Variable c : context.

(* charprops.Error, StateBase (state.go 61, grapheme_clusters.go 23) *)
Definition global (key : string) : res (list value) :=
  match assoc (g_values g) key with Some v => Ret [v] | None => no_answer end.

(* conditions: grapheme_clusters.go 18 *)
Definition truth (v : value) : res bool := match v with VBool b => Ret b | _ => no_answer end.

(* f(vs) where f is an identifier that is no local variable *)
Definition call_name (f : string) (vs : list value) : res (list value) :=
  if String.eqb f "len" then match vs with [VBytes p] => Ret [VInt "int" (int_len p)] | _ => no_answer end
  else if String.eqb f "panic" then match vs with [VStr s] => panic_of s | _ => no_answer end
  else match named_type g c f with
  | Some (t, b) => match vs with [v] => let! v := conversion t b v in Ret [v] | _ => no_answer end
  | None => call (dot (c_pkg c) f) vs
  end.
(* %02x *)
Definition hex_char (n : N) : ascii := ascii_of_N (if (n <? 10)%N then 48 + n else 87 + n).
(* properties.go 181 *)
Definition hex2 (n : N) : string := String (hex_char (n / 16)) (String (hex_char (n mod 16)) "").
(* fmt.Sprintf (package fmt, not in /repo) with the verbs that are used: %02x for a
   byte, %s for a value of a type with a method String *)
Definition format_s (v : value) : res string :=
  match type_name v with
  | Some t => let! r := one (call (dot t "String") [v]) in match r with VStr s => Ret s | _ => no_answer end
  | None => no_answer
  end.
(* properties.go 41, 181, 236 *)
Fixpoint sprintf (f : string) (vs : list value) : res string :=
  match f with
  | EmptyString => match vs with [] => Ret ""%string | _ => no_answer end
  | String "%" (String "s" f) =>
      match vs with
      | v :: vs => let! a := format_s v in let! b := sprintf f vs in Ret (str_append a b)
      | [] => no_answer
      end
  | String "%" (String "0" (String "2" (String "x" f))) =>
      match vs with
      | VByte "uint8" n :: vs => let! b := sprintf f vs in Ret (str_append (hex2 n) b)
      | _ => no_answer
      end
  | String "%" _ => no_answer
  | String a f => let! b := sprintf f vs in Ret (str_append (String a "") b)
  end.
(* properties.go 41, 181, 236 *)
Definition call_fmt (f : string) (vs : list value) : res (list value) :=
  match vs with
  | VStr format :: vs => if String.eqb f "Sprintf" then let! s := sprintf format vs in Ret [VStr s] else no_answer
  | _ => no_answer
  end.
(* charprops.LookupFirstChar(data), grapheme_clusters.go 22 *)
Definition call_imported (pkg f : string) (vs : list value) : res (list value) :=
  if String.eqb pkg "fmt" then call_fmt f vs
  else match imported_type g pkg f with
  | Some (t, b) => match vs with [v] => let! v := conversion t b v in Ret [v] | _ => no_answer end
  | None => call (dot pkg f) vs
  end.
(* state.Transition(prev, next), grapheme_clusters.go 69 *)
Definition call_method (v : value) (m : string) (vs : list value) : res (list value) :=
  match type_name v with Some t => call (dot t m) (v :: vs) | None => no_answer end.

(* Expressions; only calls may have any number of values but one. *)
Fixpoint eval (s : env) (e : expr) {struct e} : res (list value) :=
  let eval1 e := one (eval s e) in
  let evals := fix evals (es : list expr) : res (list value) :=
    match es with
    | [] => Ret []
    | e :: es => let! v := eval1 e in let! vs := evals es in Ret (v :: vs)
    end in
  match e with
  | EVar x =>
      match local s x with
      | Some v => Ret [v]
      | None =>
          if String.eqb x "nil" then Ret [VNil]
          else if String.eqb x "true" then Ret [VBool true]
          else if String.eqb x "false" then Ret [VBool false]
          else global (dot (c_pkg c) x)
      end
  | ESel a x =>
      match a with
      | EVar q =>
          match local s q, assoc (c_imports c) q with
          | None, Some pkg => global (dot pkg x)
          | _, _ => no_answer
          end
      | _ => no_answer
      end
  | ENum n => Ret [VConst (Z.of_N n)]
  | EStr t => Ret [VStr t]
  | ENot a => let! v := eval1 a in let! b := truth v in Ret [VBool (negb b)]
  | EBin o a b =>
      match o with
      | Land => let! v := eval1 a in let! x := truth v in
                if x then let! v := eval1 b in let! y := truth v in Ret [VBool y] else Ret [VBool false]
      | Lor => let! v := eval1 a in let! x := truth v in
               if x then Ret [VBool true] else let! v := eval1 b in let! y := truth v in Ret [VBool y]
      | _ => let! u := eval1 a in let! v := eval1 b in let! r := operate w o u v in Ret [r]
      end
  | ECall f args =>
      match f with
      | EVar x => match local s x with
                  | Some _ => no_answer
                  | None => let! vs := evals args in call_name x vs
                  end
      | ESel a m =>
          let method (_ : unit) := let! v := eval1 a in let! vs := evals args in call_method v m vs in
          match a with
          | EVar q =>
              match local s q, assoc (c_imports c) q with
              | None, Some pkg => let! vs := evals args in call_imported pkg m vs
              | _, _ => method tt
              end
          | _ => method tt
          end
      | _ => no_answer
      end
  | EIndex a i => let! u := eval1 a in let! v := eval1 i in let! r := element u v in Ret [r]
  | ESlice a lo hi =>
      let! u := eval1 a in
      let! l := match lo with Some e => let! v := eval1 e in Ret (Some v) | None => Ret None end in
      let! h := match hi with Some e => let! v := eval1 e in Ret (Some v) | None => Ret None end in
      let! r := subslice u l h in Ret [r]
  end.
(* an operand (state.go 90) *)
Definition eval1 (s : env) (e : expr) : res value := one (eval s e).
(* operands from left to right (grapheme_clusters.go 24) *)
Fixpoint evals (s : env) (es : list expr) : res (list value) :=
  match es with
  | [] => Ret []
  | e :: es => let! v := eval1 s e in let! vs := evals s es in Ret (v :: vs)
  end.
(* The values of a list of expressions, or of one call. *)
Definition values (s : env) (es : list expr) : res (list value) :=
  match es with [e] => eval s e | _ => evals s es end.

(* x1, x2 := v1, v2, all new in this scope *)
Fixpoint define (s : env) (xs : list string) (vs : list value) : res env :=
  match s, xs, vs with
  | _, [], [] => Ret s
  | sc :: e, x :: xs, v :: vs =>
      match assoc sc x with
      | Some _ => no_answer
      | None => let! v := default_type v in define (((x, v) :: sc) :: e) xs vs
      end
  | _, _, _ => no_answer
  end.
(* grapheme_clusters.go 67, 76-78 *)
Fixpoint store (s : env) (xs : list string) (vs : list value) : res env :=
  match xs, vs with
  | [], [] => Ret s
  | x :: xs, v :: vs =>
      match local s x with
      | Some u => let! v := like u v in match update s x v with Some s => store s xs vs | None => no_answer end
      | None => no_answer
      end
  | _, _ => no_answer
  end.

(* a block: grapheme_clusters.go 38-79 *)
Definition in_scope (f : env -> res outcome) (s : env) : res outcome :=
  let! o := f ([] :: s) in
  match o with Next s => Ret (Next (tl s)) | Return vs => Ret (Return vs) end.
(* the statement after (grapheme_clusters.go 18-22) *)
Definition next (f : env -> res outcome) (o : outcome) : res outcome :=
  match o with Next s => f s | Return vs => Ret (Return vs) end.

(* for ; cond; post { body } *)
Fixpoint loop (n : nat) (cond : env -> res bool) (body post : env -> res outcome) (s : env) : res outcome :=
  match n with
  | O => no_answer
  | S n =>
      let! b := cond s in
      if b then let! o := body s in next (fun s => let! o := post s in next (loop n cond body post) o) o
      else Ret (Next s)
  end.

(* Whether a case of a switch applies. *)
Fixpoint applies (s : env) (tag : option value) (es : list expr) : res bool :=
  match es with
  | [] => Ret false
  | e :: es =>
      let! v := eval1 s e in
      let! v := match tag with Some u => operate w Eq u v | None => Ret v end in
      let! b := truth v in
      if b then Ret true else applies s tag es
  end.

(* statements: grapheme_clusters.go 18-78, property_table.go 18-66, state.go 72-211 *)
Fixpoint exec (st : stmt) (s : env) {struct st} : res outcome :=
  let block := fix block (b : list stmt) (s : env) : res outcome :=
    match b with
    | [] => Ret (Next s)
    | st :: b => let! o := exec st s in next (block b) o
    end in
  match st with
  | SDefine xs es => let! vs := values s es in let! s := define s xs vs in Ret (Next s)
  | SAssign xs es => let! vs := values s es in let! s := store s xs vs in Ret (Next s)
  | SUpdate o x e =>
      let! u := eval1 s (EVar x) in let! v := eval1 s e in let! r := operate w o u v in
      let! s := store s [x] [r] in Ret (Next s)
  | SExpr e => let! vs := eval s e in Ret (Next s)
  | SReturn es => let! vs := values s es in Ret (Return vs)
  | SBlock b => in_scope (block b) s
  | SIf e a b =>
      let! v := eval1 s e in let! x := truth v in
      if x then in_scope (block a) s else in_scope (block b) s
  | SFor init e post b =>
      in_scope (fun s =>
        let! o := block init s in
        next (loop fuel
          (fun s => match e with Some e => let! v := eval1 s e in truth v | None => Ret true end)
          (in_scope (block b)) (block post)) o) s
  | SSwitch tag cs =>
      let! u := match tag with Some e => let! v := eval1 s e in Ret (Some v) | None => Ret None end in
      (fix clauses (cs : list (option (list expr) * list stmt)) (otherwise : res outcome) : res outcome :=
        match cs with
        | [] => otherwise
        | (None, b) :: cs => clauses cs (in_scope (block b) s)
        | (Some es, b) :: cs =>
            let! x := applies s u es in
            if x then in_scope (block b) s else clauses cs otherwise
        end) cs (Ret (Next s))
  end.
(* statements in order: grapheme_clusters.go 18-78 *)
Fixpoint block (b : list stmt) (s : env) : res outcome :=
  match b with
  | [] => Ret (Next s)
  | st :: b => let! o := exec st s in next (block b) o
  end.

(* Parameters and results *)
Fixpoint bind_params (ps : list (string * ty)) (vs : list value) : res (list (string * value)) :=
  match ps, vs with
  | [], [] => Ret []
  | (x, t) :: ps, v :: vs =>
      match resolve g c t with
      | Some t => let! v := assign t v in let! l := bind_params ps vs in Ret ((x, v) :: l)
      | None => no_answer
      end
  | _, _ => no_answer
  end.
(* named results: property_table.go 17 *)
Fixpoint result_vars (rs : list (string * ty)) : res (list (string * value)) :=
  match rs with
  | [] => Ret []
  | (x, t) :: rs =>
      match resolve g c t with
      | Some t => let! l := result_vars rs in Ret (if String.eqb x "" then l else (x, zero t) :: l)
      | None => no_answer
      end
  end.
(* the body of a function: state.go 60-62 *)
Definition run (f : func) (vs : list value) : res (list value) :=
  let! params := bind_params (match f_recv f with Some r => r :: f_params f | None => f_params f end) vs in
  let! results := result_vars (f_results f) in
  let! o := block (f_body f) [params ++ results] in
  match o with
  | Return vs => let! l := bind_params (f_results f) vs in Ret (map snd l)
  | Next _ => match f_results f with [] => Ret [] | _ => no_answer end
  end.
End Run.

(* Calls, to a given depth. *)
Fixpoint call (w : Z) (fuel : nat) (g : genv) (depth : nat) (key : string) (vs : list value) : res (list value) :=
  match depth with
  | O => no_answer
  | S depth =>
      match assoc (g_funs g) key with
      | Some (c, f) => run w fuel g (call w fuel g depth) c f vs
      | None => no_answer
      end
  end.

(* ---- from source files to declarations *)

(* Package identifier, import path, file *)
Definition program := list (string * string * file).

(* imports: grapheme_clusters.go 3-6 *)
Definition context_of (p : program) (id : string) (f : file) : context :=
  Context id (flat_map (fun i => match find (fun q => String.eqb (snd (fst q)) (snd i)) p with
                                 | Some q => [(fst i, fst (fst q))]
                                 | None => if String.eqb (snd i) "fmt" then [(fst i, "fmt"%string)] else []
                                 end) (f_imports f)).

(* Every declaration with its context. *)
Definition declared (p : program) : list (context * decl) :=
  flat_map (fun q => map (pair (context_of p (fst (fst q)) (snd q))) (f_decls (snd q))) p.

(* state.go 23, properties.go 10, 58, 198 *)
Definition types_of (p : program) : list (string * bool) :=
  flat_map (fun q => match q with
    | (c, DType x (TName t)) =>
        if String.eqb t "int" then [(dot (c_pkg c) x, false)]
        else if is_in t ["uint8"; "byte"]%string then [(dot (c_pkg c) x, true)]
        else []
    | _ => []
    end) (declared p).

(* state.go 60-211, properties.go 14-238 *)
Definition funs_of (p : program) : list (string * (context * func)) :=
  flat_map (fun q => match q with
    | (c, DFunc f) =>
        match f_recv f with
        | None => [(dot (c_pkg c) (f_name f), (c, f))]
        | Some (_, TName t) => [(dot (dot (c_pkg c) t) (f_name f), (c, f))]
        | _ => []
        end
    | _ => []
    end) (declared p).

(* The constants and variables whose values can be computed from those known. *)
Definition value_of (w : Z) (g : genv) (c : context) (d : decl) : option (string * value) :=
  match d with
  | DConst x t e iota =>
      match one (eval w g (fun _ _ => no_answer) c [[("iota"%string, VConst (Z.of_N iota))]] e), t with
      | Ret v, None => Some (dot (c_pkg c) x, v)
      | Ret v, Some t =>
          match resolve g c t with
          | Some t => match assign t v with Ret v => Some (dot (c_pkg c) x, v) | Panic _ => None end
          | None => None
          end
      | Panic _, _ => None
      end
  | DVar x t => option_map (fun t => (dot (c_pkg c) x, zero t)) (resolve g c t)
  | DTable x t ns =>
      match resolve g c t with
      | Some (GNum t true) => Some (dot (c_pkg c) x, VTable t (arr_of_list ns))
      | _ => None
      end
  | _ => None
  end.
(* state.go 25-54, properties.go 12, 60-81, property_table_raw.go *)
Fixpoint values_of (w : Z) (g : genv) (ds : list (context * decl)) : list (string * value) :=
  match ds with
  | [] => []
  | (c, d) :: ds => match value_of w g c d with Some v => v :: values_of w g ds | None => values_of w g ds end
  end.
(* In two rounds: constants may be defined with constants that come later. *)
Definition declarations (w : Z) (p : program) : genv :=
  let g0 := Genv (types_of p) [] (funs_of p) in
  let g1 := Genv (types_of p) (values_of w g0 (declared p)) (funs_of p) in
  Genv (types_of p) (values_of w g1 (declared p)) (funs_of p).
