(* Syntax and parser of the larger subset of Go in which ucdparse is written
   (ucd_scan.go, testdata_scan.go); the lexer is that of Model/GoSyntax.v. *)
From Coq Require Import List NArith Arith Bool Strings.String Strings.Ascii.
From Verif Require Import Model.GoSyntax.
Import ListNotations.
Local Open Scope string_scope.
Local Open Scope list_scope.

(* Types: Entry, *bufio.Scanner, []byte, iter.Seq[string], func(string) bool, and
   structs with their fields (ucd_scan.go 12, 62-66, 72, 80). *)
Inductive gty :=
| YName (x : string) | YQual (pkg x : string) | YPtr (t : gty) | YSlice (t : gty)
| YGeneric (t u : gty) | YFunc (ps rs : list gty) | YStruct (fs : list (string * gty)).

(* expressions: ucd_scan.go 22-59, 78-98 *)
Inductive xpr :=
| XVar (x : string)
| XNum (n : N)
| XStr (s : string)
| XSel (a : xpr) (x : string)                     (* e.Fields, bytes.Cut *)
| XCall (f : xpr) (args : list xpr) (spread : bool) (* f(a), append(a, b...) *)
| XConv (t : gty) (a : xpr)                       (* []byte(f) *)
| XMake (t : gty) (a : xpr)                       (* make([]byte, 4) *)
| XList (t : gty) (es : list xpr)                 (* []byte{'#'} *)
| XStruct (x : string) (fs : list (string * xpr)) (* Entry{Start: start} *)
| XNot (a : xpr)
| XBin (o : binop) (a b : xpr)
| XSlice (a b : xpr)                              (* buf[:n] *)
| XFunc (ps : list string) (b : list cmd)         (* ucd_scan.go 80 *)
(* statements: ucd_scan.go 23-59 *)
with cmd :=
| CDefine (xs : list string) (es : list xpr)
| CAssign (xs : list string) (es : list xpr)
| CField (x f : string) (e : xpr)                 (* entry.Input = ..., testdata_scan.go 54 *)
| CVar (xs : list string) (t : gty)               (* var start, end rune *)
| CReturn (es : list xpr)
| CContinue
| CIf (init : list cmd) (c : xpr) (a b : list cmd)
| CFor (b : list cmd)                             (* for { ... } *)
| CRange (x : string) (e : xpr) (b : list cmd).   (* for _, x := range e { ... } *)

(* ucd_scan.go 22: the type of the receiver and its name, the name of the function,
   the names of its parameters, its body *)
Record gfunc := GFunc { fn_recv : option (string * gty); fn_name : string; fn_params : list string; fn_body : list cmd }.
(* declarations: ucd_scan.go 12, 16, 100 *)
Inductive gdecl := GType (x : string) (t : gty) | GFun (f : gfunc) | GVar (x : string) (e : xpr).
(* a source file, ucd_scan.go 1-102 *)
Record gfile := GFile { gf_package : string; gf_imports : list (string * string); gf_decls : list gdecl }.

(* Start, End: ucd_scan.go 64 *)
Fixpoint q_names (fuel : nat) (ts : list token) : option (list string * list token) :=
  match fuel with
  | O => None
  | S fuel =>
      do (x, r) <- ident ts;
      if next_op "," r then do (xs, r) <- q_names fuel (tl r); Some (x :: xs, r) else Some ([x], r)
  end.

(* ucd_scan.go 12-14, 62-66, 72, 80 *)
Fixpoint q_type (fuel : nat) (ts : list token) : option (gty * list token) :=
  match fuel with
  | O => None
  | S fuel =>
      if next_op "*" ts then do (t, r) <- q_type fuel (tl ts); Some (YPtr t, r)
      else if next_op "[" ts then do r <- op "]" (tl ts); do (t, r) <- q_type fuel r; Some (YSlice t, r)
      else if next_kw "func" ts then
        do r <- op "(" (tl ts); do (ps, r) <- q_types fuel r;
        if next_op ")" r then Some (YFunc ps [], r)
        else do (t, r) <- q_type fuel r; Some (YFunc ps [t], r)
      else if next_kw "struct" ts then do r <- op "{" (tl ts); do (fs, r) <- q_fields fuel r; Some (YStruct fs, r)
      else
        do (x, r) <- ident ts;
        do (t, r) <- (if next_op "." r then do (y, r) <- ident (tl r); Some (YQual x y, r) else Some (YName x, r));
        if next_op "[" r then do (u, r) <- q_type fuel (tl r); do r <- op "]" r; Some (YGeneric t u, r)
        else Some (t, r)
  end
(* types up to and including ")" (ucd_scan.go 80) *)
with q_types (fuel : nat) (ts : list token) : option (list gty * list token) :=
  match fuel with
  | O => None
  | S fuel =>
      if next_op ")" ts then Some ([], tl ts)
      else do (t, r) <- q_type fuel ts;
           if next_op "," r then do (us, r) <- q_types fuel (tl r); Some (t :: us, r)
           else do r <- op ")" r; Some ([t], r)
  end
(* fields up to and including "}": ucd_scan.go 63-66 *)
with q_fields (fuel : nat) (ts : list token) : option (list (string * gty) * list token) :=
  match fuel with
  | O => None
  | S fuel =>
      if next_op "}" ts then Some ([], tl ts)
      else do (xs, r) <- q_names fuel ts; do (t, r) <- q_type fuel r; do r <- op ";" r;
           do (fs, r) <- q_fields fuel r; Some (map (fun x => (x, t)) xs ++ fs, r)
  end.

(* Parameters, up to and including ")"; only their names matter: ucd_scan.go 16, 80 *)
Fixpoint q_params (fuel : nat) (ts : list token) : option (list (string * gty) * list token) :=
  match fuel with
  | O => None
  | S fuel =>
      if next_op ")" ts then Some ([], tl ts)
      else do (x, r) <- ident ts; do (t, r) <- q_type fuel r;
           if next_op "," r then do (ps, r) <- q_params fuel (tl r); Some ((x, t) :: ps, r)
           else do r <- op ")" r; Some ([(x, t)], r)
  end.

(* left sides: ucd_scan.go 31 *)
Fixpoint vars (es : list xpr) : option (list string) :=
  match es with
  | [] => Some []
  | XVar x :: es => option_map (cons x) (vars es)
  | _ => None
  end.

(* Expressions; lit tells whether x{ may start a composite literal, which it may not
   between "if" or "for" and their blocks (ucd_scan.go 33, testdata_scan.go 39). *)
Fixpoint q_expr (fuel : nat) (lit : bool) (prec : nat) (ts : list token) : option (xpr * list token) :=
  match fuel with
  | O => None
  | S fuel => do (a, ts) <- q_unary fuel lit ts; q_ops fuel lit prec a ts
  end
(* what follows an operand: ucd_scan.go 25 *)
with q_ops (fuel : nat) (lit : bool) (prec : nat) (a : xpr) (ts : list token) : option (xpr * list token) :=
  match fuel with
  | O => None
  | S fuel =>
      match ts with
      | TOp s :: r =>
          match binary s with
          | Some (o, q) => if Nat.ltb prec q then do (b, r) <- q_expr fuel lit q r; q_ops fuel lit prec (XBin o a b) r else Some (a, ts)
          | None => Some (a, ts)
          end
      | _ => Some (a, ts)
      end
  end
(* operands: ucd_scan.go 24, 58, 79, 80, 100 *)
with q_unary (fuel : nat) (lit : bool) (ts : list token) : option (xpr * list token) :=
  match fuel with
  | O => None
  | S fuel =>
      match ts with
      | TOp s :: r =>
          if String.eqb s "!" then do (e, r) <- q_unary fuel lit r; Some (XNot e, r)
          else if String.eqb s "[" then
            do (t, r) <- q_type fuel ts;
            if next_op "(" r then do (e, r) <- q_expr fuel true 0 (tl r); do r <- op ")" r; Some (XConv t e, r)
            else do r <- op "{" r; do (es, r) <- q_exprs fuel true r; do r <- op "}" r; Some (XList t es, r)
          else None
      | TNum n :: r => Some (XNum n, r)
      | TStr s :: r => Some (XStr s, r)
      | TId s :: r =>
          if String.eqb s "func" then
            do r <- op "(" r; do (ps, r) <- q_params fuel r; do (b, r) <- q_block fuel r; Some (XFunc (map fst ps) b, r)
          else if String.eqb s "make" then
            do r <- op "(" r; do (t, r) <- q_type fuel r; do r <- op "," r; do (e, r) <- q_expr fuel true 0 r;
            do r <- op ")" r; Some (XMake t e, r)
          else do (x, r) <- ident ts;
            if lit && next_op "{" r then do (fs, r) <- q_elements fuel (tl r); Some (XStruct x fs, r)
            else q_suffix fuel (XVar x) r
      | [] => None
      end
  end
(* Start: start, ... }: ucd_scan.go 54-58 *)
with q_elements (fuel : nat) (ts : list token) : option (list (string * xpr) * list token) :=
  match fuel with
  | O => None
  | S fuel =>
      if next_op "}" ts then Some ([], tl ts)
      else do (x, r) <- ident ts; do r <- op ":" r; do (e, r) <- q_expr fuel true 0 r;
           if next_op "," r then do (fs, r) <- q_elements fuel (tl r); Some ((x, e) :: fs, r)
           else do r <- op "}" r; Some ([(x, e)], r)
  end
(* selectors, calls, slices: ucd_scan.go 24, testdata_scan.go 53 *)
with q_suffix (fuel : nat) (a : xpr) (ts : list token) : option (xpr * list token) :=
  match fuel with
  | O => None
  | S fuel =>
      if next_op "." ts then do (x, r) <- ident (tl ts); q_suffix fuel (XSel a x) r
      else if next_op "(" ts then
        if next_op ")" (tl ts) then q_suffix fuel (XCall a [] false) (tl (tl ts))
        else do (es, r) <- q_exprs fuel true (tl ts);
             if next_op "..." r then do r <- op ")" (tl r); q_suffix fuel (XCall a es true) r
             else do r <- op ")" r; q_suffix fuel (XCall a es false) r
      else if next_op "[" ts then
        do r <- op ":" (tl ts); do (e, r) <- q_expr fuel true 0 r; do r <- op "]" r; q_suffix fuel (XSlice a e) r
      else Some (a, ts)
  end
(* lists: ucd_scan.go 26 *)
with q_exprs (fuel : nat) (lit : bool) (ts : list token) : option (list xpr * list token) :=
  match fuel with
  | O => None
  | S fuel =>
      do (e, r) <- q_expr fuel lit 0 ts;
      if next_op "," r then do (es, r) <- q_exprs fuel lit (tl r); Some (e :: es, r) else Some ([e], r)
  end
(* x := e, x = e, x.f = e: ucd_scan.go 30, 31, testdata_scan.go 54 *)
with q_simple (fuel : nat) (lit : bool) (ts : list token) : option (cmd * list token) :=
  match fuel with
  | O => None
  | S fuel =>
      do (es, r) <- q_exprs fuel lit ts;
      if next_op ":=" r then do xs <- vars es; do (vs, r) <- q_exprs fuel lit (tl r); Some (CDefine xs vs, r)
      else do r <- op "=" r; do (vs, r) <- q_exprs fuel lit r;
        match es, vs with
        | [XSel (XVar x) f], [v] => Some (CField x f v, r)
        | _, _ => do xs <- vars es; Some (CAssign xs vs, r)
        end
  end
(* ucd_scan.go 23-59 *)
with q_stmt (fuel : nat) (ts : list token) : option (cmd * list token) :=
  match fuel with
  | O => None
  | S fuel =>
      if next_kw "return" ts then
        if next_op ";" (tl ts) then Some (CReturn [], tl ts)
        else do (es, r) <- q_exprs fuel true (tl ts); Some (CReturn es, r)
      else if next_kw "continue" ts then Some (CContinue, tl ts)
      else if next_kw "var" ts then do (xs, r) <- q_names fuel (tl ts); do (t, r) <- q_type fuel r; Some (CVar xs t, r)
      else if next_kw "if" ts then
        do (i, c, r) <-
          match q_simple fuel false (tl ts) with
          | Some (i, r) => do r <- op ";" r; do (c, r) <- q_expr fuel false 0 r; Some ([i], c, r)
          | None => do (c, r) <- q_expr fuel false 0 (tl ts); Some ([], c, r)
          end;
        do (a, r) <- q_block fuel r;
        if next_kw "else" r then do (b, r) <- q_block fuel (tl r); Some (CIf i c a b, r)
        else Some (CIf i c a [], r)
      else if next_kw "for" ts then
        if next_op "{" (tl ts) then do (b, r) <- q_block fuel (tl ts); Some (CFor b, r)
        else do r <- kw "_" (tl ts); do r <- op "," r; do (x, r) <- ident r; do r <- op ":=" r; do r <- kw "range" r;
             do (e, r) <- q_expr fuel false 0 r; do (b, r) <- q_block fuel r; Some (CRange x e b, r)
      else q_simple fuel true ts
  end
(* { s; s; ... } *)
with q_block (fuel : nat) (ts : list token) : option (list cmd * list token) :=
  match fuel with
  | O => None
  | S fuel => do r <- op "{" ts; do (b, r) <- q_stmts fuel r; do r <- op "}" r; Some (b, r)
  end
(* up to, not including, "}" *)
with q_stmts (fuel : nat) (ts : list token) : option (list cmd * list token) :=
  match fuel with
  | O => None
  | S fuel =>
      if next_op "}" ts then Some ([], ts)
      else if next_op ";" ts then q_stmts fuel (tl ts)
      else
        do (s, r) <- q_stmt fuel ts;
        if next_op ";" r then do (b, r) <- q_stmts fuel (tl r); Some (s :: b, r)
        else if next_op "}" r then Some ([s], r)
        else None
  end.

(* results of functions, which are not needed: ucd_scan.go 22, 68 *)
Definition q_results (fuel : nat) (ts : list token) : option (list token) :=
  if next_op "(" ts then do (_, r) <- q_types fuel (tl ts); Some r
  else if next_op "{" ts then Some ts
  else do (_, r) <- q_type fuel ts; Some r.
(* ucd_scan.go 16, 22 *)
Definition q_func (fuel : nat) : parser gdecl := fun ts =>
  do (recv, r) <- (if next_op "(" ts then do (ps, r) <- q_params fuel (tl ts); match ps with [p] => Some (Some p, r) | _ => None end
                   else Some (None, ts));
  do (x, r) <- ident r;
  do r <- op "(" r; do (ps, r) <- q_params fuel r;
  do r <- q_results fuel r;
  do (b, r) <- q_block fuel r;
  Some (GFun (GFunc recv x (map fst ps) b), r).
(* ucd_scan.go 12, 16, 100 *)
Definition q_decl (fuel : nat) : parser gdecl := fun ts =>
  if next_kw "func" ts then q_func fuel (tl ts)
  else if next_kw "type" ts then do (x, r) <- ident (tl ts); do (t, r) <- q_type fuel r; Some (GType x t, r)
  else do r <- kw "var" ts; do (x, r) <- ident r; do r <- op "=" r; do (e, r) <- q_expr fuel true 0 r; Some (GVar x e, r).
(* the declarations of a file: ucd_scan.go 12-102 *)
Fixpoint q_decls (fuel : nat) (ts : list token) : option (list gdecl) :=
  match fuel with
  | O => None
  | S fuel =>
      match ts with
      | [] => Some []
      | _ => do (d, r) <- q_decl fuel ts; do r <- op ";" r; do ds <- q_decls fuel r; Some (d :: ds)
      end
  end.
(* ucd_scan.go 1-102 *)
Definition q_file (fuel : nat) (ts : list token) : option gfile :=
  do r <- kw "package" ts; do (x, r) <- ident r; do r <- op ";" r;
  do (is, r) <- p_imports fuel r;
  do ds <- q_decls fuel r;
  Some (GFile x is ds).
(* A source file. *)
Definition parse_file (s : string) : option gfile :=
  do ts <- tokens_of s; q_file (10 + 3 * List.length ts) ts.
