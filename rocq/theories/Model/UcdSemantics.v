(* What programs in the subset of Go of Model/UcdSyntax.v do.  They are well-typed (the
   compiler accepts ucd_scan.go and testdata_scan.go), so types matter here only where
   they decide what happens: zero values, methods, widths.  Outside the subset there is
   no answer.

   The world of a program is one bufio.Scanner with its reader, and the consumer of an
   iterator.  Slices of bytes are the lists of their elements while no method of the
   Scanner is called (Model/EntryMemory.v has the rest of the story). *)
From Coq Require Import List NArith ZArith Arith Bool Strings.String Strings.Byte.
From Verif Require Import Spec.Utf8 Model.Base Model.Scan Model.Bufio Model.PropNames Model.GenTable Model.UcdParse.
From Verif Require Import Model.GoSyntax Model.UcdSyntax.
Import ListNotations.
Local Open Scope list_scope.

(* No answer: outside the subset, or not enough fuel. *)
Definition stuck {A} : res A := Panic OutOfFuel.

(* the values of ucd_scan.go and testdata_scan.go *)
Inductive gval :=
| UInt (z : Z)                                   (* int, uint64, int64, and untyped constants *)
| URune (z : Z)                                  (* rune, ucd_scan.go 39 *)
| UBool (b : bool)
| UStr (s : gostring)
| UBytes (t : string) (p : list byte)            (* []byte ("") or a named type: Fields *)
| USlices (l : list (list byte))                 (* [][]byte *)
| URecord (t : string) (fs : list (string * gval)) (* a struct of type t *)
| UErr (e : goerror)
| UNil
| UReader                                        (* the io.Reader given to NewScanner *)
| UScanner                                       (* the *bufio.Scanner *)
| UYield                                         (* the function given to an iterator *)
| UClosure (s : list (list (string * gval))) (ps : list string) (b : list cmd). (* ucd_scan.go 80 *)

(* Local variables: the scopes, innermost first (ucd_scan.go 30-59). *)
Definition scopes := list (list (string * gval)).

(* the value of a name *)
Fixpoint find_in {A} (l : list (string * A)) (x : string) : option A :=
  match l with
  | [] => None
  | (y, v) :: l => if String.eqb x y then Some v else find_in l x
  end.
(* ucd_scan.go 30-59 *)
Fixpoint find_var (s : scopes) (x : string) : option gval :=
  match s with
  | [] => None
  | l :: s => match find_in l x with Some v => Some v | None => find_var s x end
  end.
(* assignment to a variable of a scope: ucd_scan.go 31 *)
Fixpoint set_in {A} (l : list (string * A)) (x : string) (v : A) : option (list (string * A)) :=
  match l with
  | [] => None
  | (y, u) :: l => if String.eqb x y then Some ((y, v) :: l) else option_map (cons (y, u)) (set_in l x v)
  end.
(* assignment: the innermost variable of that name, ucd_scan.go 44 *)
Fixpoint set_var (s : scopes) (x : string) (v : gval) : option scopes :=
  match s with
  | [] => None
  | l :: s => match set_in l x v with Some l => Some (l :: s) | None => option_map (cons l) (set_var s x v) end
  end.

(* What is declared: types, functions and methods ("Scanner.NextEntry"), variables
   (ucd_scan.go 12-102). *)
Record unit_env := UnitEnv {
  u_types : list (string * gty);
  u_funs : list (string * gfunc);
  u_vars : list (string * xpr) }.

(* The world: the Scanner, its reader and the line it is at; what was yielded. *)
Record world (R : Type) := World {
  w_reader : R; w_scanner : scanner; w_line : option slice; w_yielded : list gostring }.
Arguments World {R}. Arguments w_reader {R}. Arguments w_scanner {R}. Arguments w_line {R}. Arguments w_yielded {R}.

(* ucd_scan.go 14, 63-66, 76, testdata_scan.go 65-68: zero values *)
Fixpoint zero_of (u : unit_env) (n : nat) (t : gty) : option gval :=
  match n with
  | O => None
  | S n =>
      match t with
      | YName x =>
          if String.eqb x "rune" then Some (URune 0)
          else if String.eqb x "string" then Some (UStr [])
          else match find_in (u_types u) x with
          | Some (YSlice (YName "byte")) => Some (UBytes x [])
          | Some (YStruct fs) =>
              option_map (URecord x)
                ((fix zeros (fs : list (string * gty)) : option (list (string * gval)) :=
                  match fs with
                  | [] => Some []
                  | (f, t) :: fs => match zero_of u n t, zeros fs with Some v, Some r => Some ((f, v) :: r) | _, _ => None end
                  end) fs)
          | _ => None
          end
      | YSlice (YName "byte") => Some (UBytes "" [])
      | YSlice (YSlice (YName "byte")) => Some (USlices [])
      | YPtr _ => Some UNil
      | _ => None
      end
  end.

(* ---- the standard library, in terms of Model/UcdParse.v *)

(* The errors that fmt.Errorf makes: ucd_scan.go 42, 48, testdata_scan.go 49 *)
Definition errorf (f : string) (vs : list gval) : res (list gval) :=
  match vs with
  | [UBytes "" p; UErr e] =>
      if String.eqb f "invalid start of character range %q: %s" then Ret [UErr (InvalidStart p e)]
      else if String.eqb f "invalid end of character range %q: %s" then Ret [UErr (InvalidEnd p e)]
      else stuck
  | [UStr s] => if String.eqb f "invalid character reference %q" then Ret [UErr (InvalidReference s)] else stuck
  | _ => stuck
  end.
(* bytes.Cut, ucd_scan.go 31 *)
Definition lib_cut (s sep : list byte) : list gval :=
  let '(before, after, found) := Cut sep s in [UBytes "" before; UBytes "" after; UBool found].
(* the value ParseUint returns with an error: the largest one on ErrRange (the code,
   ucd_scan.go 40-43, does not use it) *)
Definition uint_on_error (e : goerror) : Z := match e with ErrRange => 4294967295 | _ => 0 end.
(* strconv.ParseUint(s, 16, 32), ucd_scan.go 40: a *NumError stands for its Err *)
Definition lib_parse_uint (s : gostring) : list gval :=
  match ParseUint s with
  | inl n => [UInt (Z.of_N n); UNil]
  | inr e => [UInt (uint_on_error e); UErr e]
  end.
(* strconv.ParseInt(s, 16, 32), testdata_scan.go 47: on ErrRange the value is the
   nearest one, which the code does not use *)
Definition lib_parse_int (s : gostring) : list gval :=
  match ParseInt s with
  | inl z => [UInt z; UNil]
  | inr e => [UInt 0; UErr e]
  end.
(* bytes.Split, testdata_scan.go 36 *)
Definition lib_split (s sep : list byte) : res (list gval) := let! l := Split s sep in Ret [USlices l].

(* pkg.f(vs): ucd_scan.go 31, 36, 40, 42, testdata_scan.go 31, 32, 36, 47, 49 *)
Definition library_call (f : string) (vs : list gval) : res (list gval) :=
  match vs with
  | [UBytes _ a; UBytes _ b] =>
      if String.eqb f "bytes.Cut" then Ret (lib_cut a b)
      else if String.eqb f "bytes.Split" then lib_split a b
      else stuck
  | [UBytes _ a] => if String.eqb f "bytes.TrimSpace" then Ret [UBytes "" (TrimSpace a)] else stuck
  | [UStr s; UInt 16; UInt 32] =>
      if String.eqb f "strconv.ParseUint" then Ret (lib_parse_uint s)
      else if String.eqb f "strconv.ParseInt" then Ret (lib_parse_int s)
      else stuck
  | UStr s :: vs => if String.eqb f "fmt.Errorf" then errorf (string_of_list_byte s) vs else stuck
  | _ => stuck
  end.

(* len, ucd_scan.go, testdata_scan.go 33 *)
Definition lib_len (v : gval) : res gval :=
  match v with
  | UBytes _ p => Ret (UInt (Z.of_nat (List.length p)))
  | UStr s => Ret (UInt (Z.of_nat (List.length s)))
  | _ => stuck
  end.

(* T(x): ucd_scan.go 40, 44, 57, 79 *)
Definition convert (u : unit_env) (t : string) (v : gval) : res gval :=
  match v with
  | UInt z => if String.eqb t "rune" then Ret (URune (int32 z)) else stuck
  | UBytes _ p =>
      if String.eqb t "string" then Ret (UStr p)
      else match find_in (u_types u) t with Some (YSlice (YName "byte")) => Ret (UBytes t p) | _ => stuck end
  | _ => stuck
  end.

(* +, == and != on numbers and on errors: ucd_scan.go 25, 41, 56, testdata_scan.go 33 *)
Definition operation (o : binop) (a b : gval) : res gval :=
  match o, a, b with
  | Add, URune x, UInt y => Ret (URune (int32 (x + y)))
  | Eq, UInt x, UInt y => Ret (UBool (x =? y)%Z)
  | Ne, UInt x, UInt y => Ret (UBool (negb (x =? y)%Z))
  | Eq, UErr _, UNil => Ret (UBool false)
  | Eq, UNil, UNil => Ret (UBool true)
  | Ne, UErr _, UNil => Ret (UBool true)
  | Ne, UNil, UNil => Ret (UBool false)
  | _, _, _ => stuck
  end.

(* after a statement: go on, continue the loop, or return (ucd_scan.go 34, 58); with
   the variables as they are then *)
Inductive after := Onward (s : scopes) | Again (s : scopes) | Done (s : scopes) (vs : list gval).

Section Exec.
Context {R : Type}.
Variable rd : reader R.
Variable keep : list gostring -> bool. (* the answer of yield, given what was yielded before (ucd_scan.go 84) *)
Variable fuel : nat.
Variable u : unit_env.
Variable invoke : string -> list gval -> world R -> res (world R * list gval).
Notation W := (world R).

(* one value (ucd_scan.go 36) *)
Definition single (r : res (W * list gval)) : res (W * gval) :=
  let! (w, vs) := r in match vs with [v] => Ret (w, v) | _ => stuck end.

(* Methods of the Scanner: ucd_scan.go 24, 25, 30 *)
Definition scanner_call (m : string) (w : W) : res (W * list gval) :=
  if String.eqb m "Scan" then
    let! (r, s, token) := Scan ScanLines rd (w_reader w) (w_scanner w) in
    Ret (World r s token (w_yielded w), [UBool (match token with Some _ => true | None => false end)])
  else if String.eqb m "Err" then
    Ret (w, [match Err (w_scanner w) with Some e => UErr e | None => UNil end])
  else if String.eqb m "Bytes" then
    match w_line w with Some l => Ret (w, [UBytes "" (bytes_of (w_scanner w) l)]) | None => stuck end
  else stuck.

(* v.m(vs): ucd_scan.go 24, 69, 73 *)
Definition method_call (v : gval) (m : string) (vs : list gval) (w : W) : res (W * list gval) :=
  match v with
  | UScanner => match vs with [] => scanner_call m w | _ => stuck end
  | URecord t _ | UBytes t _ => invoke (t ++ "." ++ m)%string (v :: vs) w
  | _ => stuck
  end.

(* f(vs), f being no variable: ucd_scan.go 40, 57, testdata_scan.go 33 *)
Definition plain_call (f : string) (vs : list gval) (spread : bool) (w : W) : res (W * list gval) :=
  if String.eqb f "len" then match vs with [v] => let! n := lib_len v in Ret (w, [n]) | _ => stuck end
  else if String.eqb f "append" then
    match vs with
    | [UBytes t a; UBytes _ b] => if spread then Ret (w, [UBytes t (a ++ b)]) else stuck
    | [USlices l; UBytes _ b] => if spread then stuck else Ret (w, [USlices (l ++ [b])])
    | _ => stuck
    end
  else match vs with
  | [v] => match convert u f v with Ret v => Ret (w, [v]) | Panic _ => invoke f vs w end
  | _ => invoke f vs w
  end.

(* pkg.f(vs): ucd_scan.go 18, 31 *)
Definition package_call (pkg f : string) (vs : list gval) (w : W) : res (W * list gval) :=
  if String.eqb (pkg ++ "." ++ f) "bufio.NewScanner" then
    match vs with [UReader] => Ret (World (w_reader w) NewScanner None (w_yielded w), [UScanner]) | _ => stuck end
  else let! vs := library_call (pkg ++ "." ++ f) vs in Ret (w, vs).

(* packages, as imported: ucd_scan.go 3-10, testdata_scan.go 3-10 *)
Definition packages : list string := ["bufio"; "bytes"; "fmt"; "io"; "iter"; "strconv"; "utf8"]%string.

(* []byte{'#'}: ucd_scan.go 100 *)
Definition one_byte (n : N) : option byte := Byte.of_N n.

(* 16: ucd_scan.go 40 *)
Definition literal (n : N) : Z := match n with N0 => Z0 | Npos p => Zpos p end.

(* variables, local or of the package (ucd_scan.go 100-102); the latter are
   never assigned to, so they have the values of their initialisers *)
Definition constant (e : xpr) : res gval :=
  match e with
  | XList (YSlice (YName "byte")) es =>
      let! p := (fix bytes (es : list xpr) : res (list byte) :=
        match es with
        | [] => Ret []
        | XNum n :: es => match one_byte n with Some b => let! p := bytes es in Ret (b :: p) | None => stuck end
        | _ => stuck
        end) es in Ret (UBytes "" p)
  | XConv (YSlice (YName "byte")) (XStr s) => Ret (UBytes "" (list_byte_of_string s))
  | _ => stuck
  end.
(* ucd_scan.go 31 *)
Definition variable (s : scopes) (x : string) : res gval :=
  match find_var s x with
  | Some v => Ret v
  | None =>
      if String.eqb x "nil" then Ret UNil
      else match find_in (u_vars u) x with Some e => constant e | None => stuck end
  end.

(* expressions: ucd_scan.go 22-98 *)
Fixpoint value_of (s : scopes) (e : xpr) (w : W) {struct e} : res (W * list gval) :=
  let value1 e w := single (value_of s e w) in
  let values := fix values (es : list xpr) (w : W) : res (W * list gval) :=
    match es with
    | [] => Ret (w, [])
    | e :: es => let! (w, v) := value1 e w in let! (w, vs) := values es w in Ret (w, v :: vs)
    end in
  match e with
  | XVar x => let! v := variable s x in Ret (w, [v])
  | XNum n => Ret (w, [UInt (literal n)])
  | XStr t => Ret (w, [UStr (list_byte_of_string t)])
  | XSel a x =>
      match a with
      | XVar "io" => match find_var s "io" with
                     | None => if String.eqb x "EOF" then Ret (w, [UErr EOF]) else stuck
                     | Some _ => stuck
                     end
      | _ => let! (w, v) := value1 a w in
             match v with URecord _ fs => match find_in fs x with Some v => Ret (w, [v]) | None => stuck end | _ => stuck end
      end
  | XCall f args spread =>
      match f with
      | XVar x =>
          match find_var s x with
          | Some UYield =>
              let! (w, vs) := values args w in
              match vs with
              | [UStr t] =>
                  Ret (World (w_reader w) (w_scanner w) (w_line w) (w_yielded w ++ [t]), [UBool (keep (w_yielded w))])
              | _ => stuck
              end
          | Some _ => stuck
          | None => let! (w, vs) := values args w in plain_call x vs spread w
          end
      | XSel a m =>
          let other (_ : unit) := let! (w, v) := value1 a w in let! (w, vs) := values args w in method_call v m vs w in
          match a with
          | XVar q =>
              match find_var s q with
              | None => if is_in q packages then let! (w, vs) := values args w in package_call q m vs w else stuck
              | Some _ => other tt
              end
          | _ => other tt
          end
      | _ => stuck
      end
  | XConv t a =>
      match t with
      | YSlice (YName "byte") =>
          let! (w, v) := value1 a w in
          match v with UBytes _ p => Ret (w, [UBytes "" p]) | UStr p => Ret (w, [UBytes "" p]) | _ => stuck end
      | _ => stuck
      end
  | XMake t a =>
      match t with
      | YSlice (YName "byte") =>
          let! (w, v) := value1 a w in
          match v with UInt n => Ret (w, [UBytes "" (repeat x00 (Z.to_nat n))]) | _ => stuck end
      | _ => stuck
      end
  | XList t es => let! v := constant (XList t es) in Ret (w, [v])
  | XStruct x fs =>
      match zero_of u 3 (YName x) with
      | Some (URecord t init) =>
          let! (w, l) := (fix fields (fs : list (string * xpr)) (w : W) (l : list (string * gval)) : res (W * list (string * gval)) :=
            match fs with
            | [] => Ret (w, l)
            | (f, e) :: fs =>
                let! (w, v) := value1 e w in
                match set_in l f v with Some l => fields fs w l | None => stuck end
            end) fs w init in
          Ret (w, [URecord t l])
      | _ => stuck
      end
  | XNot a => let! (w, v) := value1 a w in match v with UBool b => Ret (w, [UBool (negb b)]) | _ => stuck end
  | XBin o a b => let! (w, x) := value1 a w in let! (w, y) := value1 b w in let! v := operation o x y in Ret (w, [v])
  | XSlice a b =>
      let! (w, x) := value1 a w in let! (w, y) := value1 b w in
      match x, y with
      | UBytes t p, UInt n => let! p := slice_to p (Z.to_nat n) in Ret (w, [UBytes t p])
      | _, _ => stuck
      end
  | XFunc ps b => Ret (w, [UClosure s ps b])
  end.
(* ucd_scan.go 36 *)
Definition value1 (s : scopes) (e : xpr) (w : W) : res (W * gval) := single (value_of s e w).
(* ucd_scan.go 58 *)
Fixpoint values (s : scopes) (es : list xpr) (w : W) : res (W * list gval) :=
  match es with
  | [] => Ret (w, [])
  | e :: es => let! (w, v) := value1 s e w in let! (w, vs) := values s es w in Ret (w, v :: vs)
  end.
(* a list of expressions, or one call with many results: ucd_scan.go 31, 58 *)
Definition results (s : scopes) (es : list xpr) (w : W) : res (W * list gval) :=
  match es with [e] => value_of s e w | _ => values s es w end.

(* x, y := ...: new variables, except those of the innermost scope (ucd_scan.go 40) *)
Fixpoint define_vars (s : scopes) (xs : list string) (vs : list gval) : res scopes :=
  match s, xs, vs with
  | _, [], [] => Ret s
  | l :: s, x :: xs, v :: vs =>
      if String.eqb x "_" then define_vars (l :: s) xs vs
      else match set_in l x v with
      | Some l => define_vars (l :: s) xs vs
      | None => define_vars (((x, v) :: l) :: s) xs vs
      end
  | _, _, _ => stuck
  end.
(* x, y = ...: ucd_scan.go 31 *)
Fixpoint assign_vars (s : scopes) (xs : list string) (vs : list gval) : res scopes :=
  match xs, vs with
  | [], [] => Ret s
  | x :: xs, v :: vs =>
      if String.eqb x "_" then assign_vars s xs vs
      else match set_var s x v with Some s => assign_vars s xs vs | None => stuck end
  | _, _ => stuck
  end.

(* leaves a block (ucd_scan.go 41) *)
Definition drop_scope (a : after) : after :=
  match a with Onward s => Onward (tl s) | Again s => Again (tl s) | Done s vs => Done (tl s) vs end.
(* a block: ucd_scan.go 23-59 *)
Definition scoped (f : scopes -> W -> res (W * after)) (l : list (string * gval)) (s : scopes) (w : W) : res (W * after) :=
  let! (w, a) := f (l :: s) w in Ret (w, drop_scope a).

(* the next statement: ucd_scan.go 30, 31 *)
Definition andthen (f : scopes -> W -> res (W * after)) (w : W) (a : after) : res (W * after) :=
  match a with Onward s => f s w | _ => Ret (w, a) end.

(* for { ... }: ucd_scan.go 23 *)
Fixpoint forever (n : nat) (body : scopes -> W -> res (W * after)) (s : scopes) (w : W) : res (W * after) :=
  match n with
  | O => stuck
  | S n =>
      let! (w, a) := body s w in
      match a with
      | Onward s | Again s => forever n body s w
      | Done s vs => Ret (w, Done s vs)
      end
  end.
(* for _, x := range l: testdata_scan.go 39, 42 *)
Fixpoint each (x : string) (l : list (list byte)) (body : list (string * gval) -> scopes -> W -> res (W * after)) (s : scopes) (w : W)
  : res (W * after) :=
  match l with
  | [] => Ret (w, Onward s)
  | p :: l =>
      let! (w, a) := body [(x, UBytes "" p)] s w in
      match a with
      | Onward s | Again s => each x l body s w
      | Done s vs => Ret (w, Done s vs)
      end
  end.

(* statements: ucd_scan.go 22-98 *)
Fixpoint run_cmd (c : cmd) (s : scopes) (w : W) {struct c} : res (W * after) :=
  let seq := fix seq (b : list cmd) (s : scopes) (w : W) : res (W * after) :=
    match b with
    | [] => Ret (w, Onward s)
    | c :: b => let! (w, a) := run_cmd c s w in andthen (seq b) w a
    end in
  match c with
  | CDefine xs es =>
      match es with
      | [XCall (XSel (XVar "utf8") "EncodeRune") [XVar b; e] false] =>
          (* testdata_scan.go 52: writes to the array of the slice, which is in no other
             variable; for a slice that is long enough *)
          let! (w, v) := value1 s e w in
          match find_var s b, v with
          | Some (UBytes t p), URune r =>
              let enc := EncodeRune r in
              if Nat.leb (List.length enc) (List.length p) then
                match set_var s b (UBytes t (enc ++ skipn (List.length enc) p)) with
                | Some s => let! s := define_vars s xs [UInt (Z.of_nat (List.length enc))] in Ret (w, Onward s)
                | None => stuck
                end
              else Panic IndexOutOfRange
          | _, _ => stuck
          end
      | _ => let! (w, vs) := results s es w in let! s := define_vars s xs vs in Ret (w, Onward s)
      end
  | CAssign xs es => let! (w, vs) := results s es w in let! s := assign_vars s xs vs in Ret (w, Onward s)
  | CField x f e =>
      let! (w, v) := value1 s e w in
      match find_var s x with
      | Some (URecord t fs) =>
          match set_in fs f v with
          | Some fs => match set_var s x (URecord t fs) with Some s => Ret (w, Onward s) | None => stuck end
          | None => stuck
          end
      | _ => stuck
      end
  | CVar xs t =>
      match zero_of u 3 t with
      | Some v => let! s := define_vars s xs (map (fun _ => v) xs) in Ret (w, Onward s)
      | None => stuck
      end
  | CReturn es => let! (w, vs) := results s es w in Ret (w, Done s vs)
  | CContinue => Ret (w, Again s)
  | CIf init e a b =>
      scoped (fun s w =>
        let! (w, o) := seq init s w in
        andthen (fun s w =>
          let! (w, v) := value1 s e w in
          match v with
          | UBool x => if x then scoped (seq a) [] s w else scoped (seq b) [] s w
          | _ => stuck
          end) w o) [] s w
  | CFor b => forever fuel (scoped (seq b) []) s w
  | CRange x e b =>
      let! (w, v) := value1 s e w in
      match v with USlices l => each x l (scoped (seq b)) s w | _ => stuck end
  end.
(* statements in order: ucd_scan.go 30-58 *)
Fixpoint run_seq (b : list cmd) (s : scopes) (w : W) : res (W * after) :=
  match b with
  | [] => Ret (w, Onward s)
  | c :: b => let! (w, a) := run_cmd c s w in andthen (run_seq b) w a
  end.

(* the parameters: ucd_scan.go 22 *)
Fixpoint with_args (ps : list string) (vs : list gval) : option (list (string * gval)) :=
  match ps, vs with
  | [], [] => Some []
  | x :: ps, v :: vs => option_map (cons (x, v)) (with_args ps vs)
  | _, _ => None
  end.
(* the body of a function: ucd_scan.go 22-59 *)
Definition run_fn (f : gfunc) (vs : list gval) (w : W) : res (W * list gval) :=
  match with_args (match fn_recv f with Some (x, _) => x :: fn_params f | None => fn_params f end) vs with
  | Some l =>
      let! (w, a) := run_seq (fn_body f) [l] w in
      match a with Done _ vs => Ret (w, vs) | Onward _ => Ret (w, []) | Again _ => stuck end
  | None => stuck
  end.
(* One run of an iterator, with the function yield: what range over it does
   (gentable/generate.go 81, package slices).  Its variables keep their values:
   also the iterator as it is after the run. *)
Definition run_iterator (it : gval) (w : W) : res (W * gval) :=
  match it with
  | UClosure s ps b =>
      match with_args ps [UYield] with
      | Some l =>
          let! (w, a) := run_seq b (l :: s) w in
          match a with
          | Done s _ | Onward s => Ret (w, UClosure (tl s) ps b)
          | Again _ => stuck
          end
      | None => stuck
      end
  | _ => stuck
  end.
End Exec.

(* Calls, to a given depth (ucd_scan.go 68-74). *)
Fixpoint invoke {R} (rd : reader R) (keep : list gostring -> bool) (fuel : nat) (u : unit_env) (depth : nat)
    (key : string) (vs : list gval) (w : world R) : res (world R * list gval) :=
  match depth with
  | O => stuck
  | S depth =>
      match find_in (u_funs u) key with
      | Some f => run_fn rd keep fuel u (invoke rd keep fuel u depth) f vs w
      | None => stuck
      end
  end.

(* ---- from source files to declarations *)

(* ucd_scan.go 12-102 *)
Definition unit_of (fs : list gfile) : unit_env :=
  let ds := flat_map gf_decls fs in
  UnitEnv
    (flat_map (fun d => match d with GType x t => [(x, t)] | _ => [] end) ds)
    (flat_map (fun d => match d with
       | GFun f => match fn_recv f with
                   | Some (_, YName t) => [((t ++ "." ++ fn_name f)%string, f)]
                   | Some _ => []
                   | None => [(fn_name f, f)]
                   end
       | _ => [] end) ds)
    (flat_map (fun d => match d with GVar x e => [(x, e)] | _ => [] end) ds).
