(* The part of Go's syntax in which textseg/grapheme_clusters.go,
   internal/machine/state.go, internal/charprops/property_table.go and
   properties.go are written: lexer and parser, from the Go language
   specification.  Model/GoSemantics.v says what programs do; Data/GoSources.v has
   the files.  What is not in the subset makes the parser fail. *)
From Coq Require Import List NArith Arith Bool Strings.String Strings.Ascii.
Import ListNotations.
Local Open Scope string_scope.
Local Open Scope list_scope.

(* ---- abstract syntax *)

(* operators of the four files, e.g. state.go 96, property_table.go 23-30, 54 *)
Inductive binop :=
| Add | Sub | Mul | And | Or | Shl | Eq | Ne | Lt | Le | Gt | Ge | Land | Lor.

(* expressions: e.g. state.go 83-139, property_table.go 22-62 *)
Inductive expr :=
| EVar (x : string)                               (* prev, StateBase *)
| ESel (e : expr) (x : string)                    (* charprops.Error, s.nextState *)
| ENum (n : N)                                    (* 0b111111 *)
| EStr (s : string)                               (* "unreachable" *)
| ENot (e : expr)
| EBin (op : binop) (a b : expr)
| ECall (f : expr) (args : list expr)             (* functions, methods, conversions *)
| EIndex (a i : expr)                             (* p[1] *)
| ESlice (a : expr) (lo hi : option expr).        (* data[:count] *)

(* grapheme_clusters.go 17: []byte; charprops.CharProperties *)
Inductive ty := TName (x : string) | TQual (pkg x : string) | TSlice (t : ty).

(* statements: grapheme_clusters.go 18-78, property_table.go 18-66, state.go 144-196 *)
Inductive stmt :=
| SDefine (xs : list string) (es : list expr)     (* properties, count := ... *)
| SAssign (xs : list string) (es : list expr)     (* remain = remain[moreCount:] *)
| SUpdate (op : binop) (x : string) (e : expr)    (* count += moreCount; i++ *)
| SExpr (e : expr)                                (* panic("unreachable") *)
| SReturn (es : list expr)
| SBlock (b : list stmt)
| SIf (c : expr) (a b : list stmt)                (* no else: b = [] *)
| SFor (init : list stmt) (c : option expr) (post : list stmt) (b : list stmt)
| SSwitch (tag : option expr) (cs : list (option (list expr) * list stmt)). (* None: default *)

(* Names that may be missing in parameter lists are "". *)
Record func := Func {
  f_recv : option (string * ty); (* state.go 72: (s State) *)
  f_name : string;
  f_params : list (string * ty);
  f_results : list (string * ty);
  f_body : list stmt }.

(* declarations: state.go 23-54, properties.go 10-81, property_table.go 5 *)
Inductive decl :=
| DConst (x : string) (t : option ty) (e : expr) (iota : N) (* state.go 28: iota *)
| DVar (x : string) (t : ty)                                (* property_table.go 5 *)
| DTable (x : string) (t : ty) (ns : list N)                 (* property_table_raw.go 5: [...]uint8{...} *)
| DType (x : string) (t : ty)                               (* state.go 23 *)
| DFunc (f : func).

(* a source file, e.g. grapheme_clusters.go 1-79 *)
Record file := File { f_package : string; f_imports : list (string * string); f_decls : list decl }.

(* ---- lexer *)

(* the tokens of grapheme_clusters.go 1-79 and the other files *)
Inductive token := TId (s : string) | TNum (n : N) | TStr (s : string) | TOp (s : string).

(* characters of the files; all are ASCII (grapheme_clusters.go 1-79) *)
Definition code (c : ascii) : N := N_of_ascii c.
(* a class of characters, for the identifiers and numbers of properties.go 60-81 *)
Definition between (a b : N) (c : ascii) : bool := (a <=? code c)%N && (code c <=? b)%N.
(* as in properties.go 61: 0x00 *)
Definition digit (c : ascii) : bool := between 48 57 c.
(* as in state.go 23: State *)
Definition letter (c : ascii) : bool := between 65 90 c || between 97 122 c || (code c =? 95)%N.
(* as in properties.go 65 *)
Definition alnum (c : ascii) : bool := letter c || digit c.
(* the ends of lines of grapheme_clusters.go *)
Definition newline (c : ascii) : bool := (code c =? 10)%N.
(* blanks and tabs, e.g. state.go 28 *)
Definition blank (c : ascii) : bool := (code c =? 32)%N || (code c =? 9)%N || (code c =? 13)%N.
(* e.g. property_table.go 64 *)
Definition quote (c : ascii) : bool := (code c =? 34)%N.

(* a token of many characters, e.g. state.go 28 *)
Fixpoint span (f : ascii -> bool) (l : list ascii) : list ascii * list ascii :=
  match l with
  | [] => ([], [])
  | c :: r => if f c then let (a, b) := span f r in (c :: a, b) else ([], l)
  end.

(* integer literals: 128, 0x0f, 0b11100000 *)
Definition digit_value (c : ascii) : option N :=
  if between 48 57 c then Some (code c - 48)%N
  else if between 97 102 c then Some (code c - 87)%N
  else if between 65 70 c then Some (code c - 55)%N else None.
(* e.g. property_table.go 23: 0b11100000 *)
Fixpoint digits (base acc : N) (l : list ascii) : option N :=
  match l with
  | [] => Some acc
  | c :: r => match digit_value c with
              | Some d => if (d <? base)%N then digits base (acc * base + d)%N r else None
              | None => None
              end
  end.
(* property_table.go 23, properties.go 61, property_table.go 22 *)
Definition number (l : list ascii) : option N :=
  match l with
  | c :: d :: (_ :: _) as r =>
      if (code c =? 48)%N && (code d =? 120)%N then digits 16 0 (tl (tl l))
      else if (code c =? 48)%N && (code d =? 98)%N then digits 2 0 (tl (tl l))
      else if (code c =? 48)%N then None
      else digits 10 0 l
  | [c] => digits 10 0 l
  | c :: _ => if (code c =? 48)%N then None else digits 10 0 l
  | [] => None
  end.

(* e.g. grapheme_clusters.go 22, 23, 27, 28, 76, property_table.go 42 *)
Definition operators2 : list string :=
  [":="; "=="; "!="; "<="; ">="; "&&"; "||"; "<<"; "++"; "+="].
(* e.g. property_table.go 17, 21, 24 *)
Definition operators1 : list string :=
  ["("; ")"; "["; "]"; "{"; "}"; ","; ";"; "."; ":"; "="; "<"; ">"; "+"; "-"; "*"; "&"; "|"; "!"].
(* membership in the lists of operators and keywords (property_table.go 17-66) *)
Definition is_in (s : string) (l : list string) : bool := existsb (String.eqb s) l.
(* the text of a token (state.go 1) *)
Definition str (l : list ascii) : string := string_of_list_ascii l.

(* Keywords; all but return end no line. *)
Definition keywords : list string :=
  ["package"; "import"; "const"; "var"; "type"; "func"; "if"; "else"; "for"; "switch"; "case"; "default"; "return";
   "break"; "continue"; "fallthrough"; "goto"; "range"; "map"; "chan"; "go"; "defer"; "select"; "struct"; "interface"].

(* After which tokens the end of a line is a semicolon. *)
Definition ends_line (t : token) : bool :=
  match t with
  | TId s => negb (is_in s keywords) || is_in s ["return"; "break"; "continue"; "fallthrough"]
  | TNum _ | TStr _ => true
  | TOp s => is_in s [")"; "]"; "}"; "++"]
  end.

(* the tokens of grapheme_clusters.go 1-79; comments, e.g. lines 8-16, are left out, and ends of lines become semicolons *)
Fixpoint lex (fuel : nat) (l : list ascii) (pending : bool) : option (list token) :=
  match fuel with
  | O => None
  | S fuel =>
      let put t rest := option_map (cons t) (lex fuel rest (ends_line t)) in
      match l with
      | [] => Some (if pending then [TOp ";"] else [])
      | c :: r =>
          if newline c then (if pending then option_map (cons (TOp ";")) (lex fuel r false) else lex fuel r false)
          else if blank c then lex fuel r pending
          else if letter c then let (x, rest) := span alnum l in put (TId (str x)) rest
          else if digit c then
            let (x, rest) := span alnum l in
            match number x with Some n => put (TNum n) rest | None => None end
          else if quote c then
            let (x, rest) := span (fun c => negb (quote c)) r in
            (* no escape sequences *)
            if existsb (fun c => (code c =? 92)%N || newline c) x then None
            else match rest with _ :: rest => put (TStr (str x)) rest | [] => None end
          else if (code c =? 39)%N then
            (* 'x', ucd_scan.go 100 *)
            match r with
            | d :: e :: rest => if negb (code d =? 92)%N && (code d <? 128)%N && (code e =? 39)%N then put (TNum (code d)) rest else None
            | _ => None
            end
          else
            match r with
            | d :: r' =>
                if (code c =? 47)%N && (code d =? 47)%N then lex fuel (snd (span (fun c => negb (newline c)) r')) pending
                else if (code c =? 46)%N && (code d =? 46)%N then
                  match r' with e :: r'' => if (code e =? 46)%N then put (TOp "...") r'' else None | [] => None end
                else if is_in (str [c; d]) operators2 then put (TOp (str [c; d])) r'
                else if is_in (str [c]) operators1 then put (TOp (str [c])) r
                else None
            | [] => if is_in (str [c]) operators1 then put (TOp (str [c])) r else None
            end
      end
  end.
(* the tokens of a file such as state.go *)
Definition tokens_of (s : string) : option (list token) :=
  let l := list_ascii_of_string s in lex (S (List.length l)) l false.

(* ---- parser *)

(* reads a part of a file such as state.go and leaves the rest *)
Definition parser A := list token -> option (A * list token).
Notation "'do' x <- e ; k" := (match e with Some x => k | None => None end)
  (at level 200, x pattern, e at level 100, k at level 200).

(* property_table.go 17 *)
Definition is_op (s : string) (t : token) : bool := match t with TOp s' => String.eqb s s' | _ => false end.
(* property_table.go 17 *)
Definition is_id (s : string) (t : token) : bool := match t with TId s' => String.eqb s s' | _ => false end.
(* The rest after the expected token. *)
Definition op (s : string) (ts : list token) : option (list token) :=
  match ts with t :: r => if is_op s t then Some r else None | [] => None end.
(* keywords: property_table.go 17 *)
Definition kw (s : string) (ts : list token) : option (list token) :=
  match ts with t :: r => if is_id s t then Some r else None | [] => None end.
(* look-ahead by one token (property_table.go 17) *)
Definition next_op (s : string) (ts : list token) : bool := match ts with t :: _ => is_op s t | [] => false end.
(* look-ahead by one token (property_table.go 17) *)
Definition next_kw (s : string) (ts : list token) : bool := match ts with t :: _ => is_id s t | [] => false end.
(* names: property_table.go 17 *)
Definition ident : parser string := fun ts =>
  match ts with TId s :: r => if is_in s keywords then None else Some (s, r) | _ => None end.

(* Binary operators and their precedence. *)
Definition binary (s : string) : option (binop * nat) :=
  if String.eqb s "*" then Some (Mul, 5)
  else if String.eqb s "<<" then Some (Shl, 5)
  else if String.eqb s "&" then Some (And, 5)
  else if String.eqb s "+" then Some (Add, 4)
  else if String.eqb s "-" then Some (Sub, 4)
  else if String.eqb s "|" then Some (Or, 4)
  else if String.eqb s "==" then Some (Eq, 3)
  else if String.eqb s "!=" then Some (Ne, 3)
  else if String.eqb s "<" then Some (Lt, 3)
  else if String.eqb s "<=" then Some (Le, 3)
  else if String.eqb s ">" then Some (Gt, 3)
  else if String.eqb s ">=" then Some (Ge, 3)
  else if String.eqb s "&&" then Some (Land, 2)
  else if String.eqb s "||" then Some (Lor, 1)
  else None.

(* expressions with operators that bind more tightly than prec: state.go 97, property_table.go 54 *)
Fixpoint p_expr (fuel prec : nat) (ts : list token) : option (expr * list token) :=
  match fuel with
  | O => None
  | S fuel => do (a, ts) <- p_unary fuel ts; p_ops fuel prec a ts
  end
(* what follows an operand: state.go 97 *)
with p_ops (fuel prec : nat) (a : expr) (ts : list token) : option (expr * list token) :=
  match fuel with
  | O => None
  | S fuel =>
      match ts with
      | TOp s :: r =>
          match binary s with
          | Some (o, q) => if Nat.ltb prec q then do (b, r) <- p_expr fuel q r; p_ops fuel prec (EBin o a b) r else Some (a, ts)
          | None => Some (a, ts)
          end
      | _ => Some (a, ts)
      end
  end
(* operands: grapheme_clusters.go 36 *)
with p_unary (fuel : nat) (ts : list token) : option (expr * list token) :=
  match fuel with
  | O => None
  | S fuel =>
      match ts with
      | TOp s :: r =>
          if String.eqb s "!" then do (e, r) <- p_unary fuel r; Some (ENot e, r)
          else if String.eqb s "(" then do (e, r) <- p_expr fuel 0 r; do r <- op ")" r; p_suffix fuel e r
          else None
      | TNum n :: r => Some (ENum n, r)
      | TStr s :: r => Some (EStr s, r)
      | TId _ :: _ => do (x, r) <- ident ts; p_suffix fuel (EVar x) r
      | [] => None
      end
  end
(* selectors, calls, indices, slices: state.go 80, property_table.go 43, grapheme_clusters.go 24, 34 *)
with p_suffix (fuel : nat) (a : expr) (ts : list token) : option (expr * list token) :=
  match fuel with
  | O => None
  | S fuel =>
      if next_op "." ts then do (x, r) <- ident (tl ts); p_suffix fuel (ESel a x) r
      else if next_op "(" ts then
        if next_op ")" (tl ts) then p_suffix fuel (ECall a []) (tl (tl ts))
        else do (es, r) <- p_exprs fuel (tl ts); do r <- op ")" r; p_suffix fuel (ECall a es) r
      else if next_op "[" ts then
        if next_op ":" (tl ts) then
          do (hi, r) <- p_expr fuel 0 (tl (tl ts)); do r <- op "]" r; p_suffix fuel (ESlice a None (Some hi)) r
        else
          do (i, r) <- p_expr fuel 0 (tl ts);
          if next_op "]" r then p_suffix fuel (EIndex a i) (tl r)
          else do r <- op ":" r;
               if next_op "]" r then p_suffix fuel (ESlice a (Some i) None) (tl r)
               else do (hi, r) <- p_expr fuel 0 r; do r <- op "]" r; p_suffix fuel (ESlice a (Some i) (Some hi)) r
      else Some (a, ts)
  end
(* lists: grapheme_clusters.go 19 *)
with p_exprs (fuel : nat) (ts : list token) : option (list expr * list token) :=
  match fuel with
  | O => None
  | S fuel =>
      do (e, r) <- p_expr fuel 0 ts;
      if next_op "," r then do (es, r) <- p_exprs fuel (tl r); Some (e :: es, r) else Some ([e], r)
  end.

(* grapheme_clusters.go 17, state.go 60 *)
Fixpoint p_type (fuel : nat) (ts : list token) : option (ty * list token) :=
  match fuel with
  | O => None
  | S fuel =>
      if next_op "[" ts then do r <- op "]" (tl ts); do (t, r) <- p_type fuel r; Some (TSlice t, r)
      else do (x, r) <- ident ts;
           if next_op "." r then do (y, r) <- ident (tl r); Some (TQual x y, r) else Some (TName x, r)
  end.

(* left sides: grapheme_clusters.go 22 *)
Fixpoint names (es : list expr) : option (list string) :=
  match es with
  | [] => Some []
  | EVar x :: es => option_map (cons x) (names es)
  | _ => None
  end.

(* x := e, x = e, x += e, x++, and calls *)
Definition p_simple (fuel : nat) : parser stmt := fun ts =>
  do (es, r) <- p_exprs fuel ts;
  if next_op ":=" r then do xs <- names es; do (vs, r) <- p_exprs fuel (tl r); Some (SDefine xs vs, r)
  else if next_op "=" r then do xs <- names es; do (vs, r) <- p_exprs fuel (tl r); Some (SAssign xs vs, r)
  else match es with
  | [e] =>
      if next_op "+=" r then
        match e with EVar x => do (v, r) <- p_expr fuel 0 (tl r); Some (SUpdate Add x v, r) | _ => None end
      else if next_op "++" r then
        match e with EVar x => Some (SUpdate Add x (ENum 1), tl r) | _ => None end
      else match e with ECall _ _ => Some (SExpr e, r) | _ => None end
  | _ => None
  end.

(* property_table.go 18-66, grapheme_clusters.go 38-78 *)
Fixpoint p_stmt (fuel : nat) (ts : list token) : option (stmt * list token) :=
  match fuel with
  | O => None
  | S fuel =>
      if next_kw "return" ts then
        if next_op ";" (tl ts) || next_op "}" (tl ts) then Some (SReturn [], tl ts)
        else do (es, r) <- p_exprs fuel (tl ts); Some (SReturn es, r)
      else if next_kw "if" ts then
        do (c, r) <- p_expr fuel 0 (tl ts);
        do (a, r) <- p_block fuel r;
        if next_kw "else" r then
          if next_kw "if" (tl r) then do (b, r) <- p_stmt fuel (tl r); Some (SIf c a [b], r)
          else do (b, r) <- p_block fuel (tl r); Some (SIf c a b, r)
        else Some (SIf c a [], r)
      else if next_kw "for" ts then
        if next_op "{" (tl ts) then do (b, r) <- p_block fuel (tl ts); Some (SFor [] None [] b, r)
        else
          do (i, r) <- p_simple fuel (tl ts); do r <- op ";" r;
          do (c, r) <- p_expr fuel 0 r; do r <- op ";" r;
          do (p, r) <- p_simple fuel r;
          do (b, r) <- p_block fuel r; Some (SFor [i] (Some c) [p] b, r)
      else if next_kw "switch" ts then
        do (tag, r) <- (if next_op "{" (tl ts) then Some (None, tl ts)
                        else do (e, r) <- p_expr fuel 0 (tl ts); Some (Some e, r));
        do r <- op "{" r;
        do (cs, r) <- p_clauses fuel r; Some (SSwitch tag cs, r)
      else if next_op "{" ts then do (b, r) <- p_block fuel ts; Some (SBlock b, r)
      else p_simple fuel ts
  end
(* { s; s; ... } *)
with p_block (fuel : nat) (ts : list token) : option (list stmt * list token) :=
  match fuel with
  | O => None
  | S fuel => do r <- op "{" ts; do (b, r) <- p_stmts fuel r; do r <- op "}" r; Some (b, r)
  end
(* up to, not including, "}", "case" or "default" *)
with p_stmts (fuel : nat) (ts : list token) : option (list stmt * list token) :=
  match fuel with
  | O => None
  | S fuel =>
      if next_op "}" ts || next_kw "case" ts || next_kw "default" ts then Some ([], ts)
      else if next_op ";" ts then p_stmts fuel (tl ts)
      else
        do (s, r) <- p_stmt fuel ts;
        if next_op ";" r then do (b, r) <- p_stmts fuel (tl r); Some (s :: b, r)
        else if next_op "}" r then Some ([s], r)
        else None
  end
(* state.go 160-195 *)
with p_clauses (fuel : nat) (ts : list token) : option (list (option (list expr) * list stmt) * list token) :=
  match fuel with
  | O => None
  | S fuel =>
      if next_op "}" ts then Some ([], tl ts)
      else
        do (guard, r) <- (if next_kw "case" ts then do (es, r) <- p_exprs fuel (tl ts); Some (Some es, r)
                          else do r <- kw "default" ts; Some (None, r));
        do r <- op ":" r;
        do (b, r) <- p_stmts fuel r;
        do (cs, r) <- p_clauses fuel r; Some ((guard, b) :: cs, r)
  end.

(* ( a, b T, c U ) or ( T, U ): entries with one or two parts *)
Fixpoint p_entries (fuel : nat) (ts : list token) : option (list (ty * option ty) * list token) :=
  match fuel with
  | O => None
  | S fuel =>
      if next_op ")" ts then Some ([], tl ts)
      else
        do (a, r) <- p_type fuel ts;
        do (b, r) <- (if next_op "," r || next_op ")" r then Some (None, r) else do (t, r) <- p_type fuel r; Some (Some t, r));
        if next_op "," r then do (es, r) <- p_entries fuel (tl r); Some ((a, b) :: es, r)
        else do r <- op ")" r; Some ([(a, b)], r)
  end.
(* Names without a type take the next one. *)
Fixpoint named (es : list (ty * option ty)) : option (list (string * ty)) :=
  match es with
  | [] => Some []
  | (TName x, Some t) :: es => option_map (cons (x, t)) (named es)
  | (TName x, None) :: es =>
      match named es with Some ((y, t) :: r) => Some ((x, t) :: (y, t) :: r) | _ => None end
  | _ => None
  end.
(* state.go 72: (prev, next charprops.CharProperties), (bool, State) *)
Definition parameters (es : list (ty * option ty)) : option (list (string * ty)) :=
  if existsb (fun e => match snd e with Some _ => true | None => false end) es then named es
  else Some (map (fun e => ("", fst e)) es).
(* state.go 72 *)
Definition p_params (fuel : nat) : parser (list (string * ty)) := fun ts =>
  do r <- op "(" ts; do (es, r) <- p_entries fuel r; do ps <- parameters es; Some (ps, r).

(* state.go 60, 72 *)
Definition p_func (fuel : nat) : parser decl := fun ts =>
  do (recv, r) <- (if next_op "(" ts then do (ps, r) <- p_params fuel ts; match ps with [p] => Some (Some p, r) | _ => None end
                   else Some (None, ts));
  do (x, r) <- ident r;
  do (ps, r) <- p_params fuel r;
  do (rs, r) <- (if next_op "{" r then Some ([], r)
                 else if next_op "(" r then p_params fuel r
                 else do (t, r) <- p_type fuel r; Some ([("", t)], r));
  do (b, r) <- p_block fuel r;
  Some (DFunc (Func recv x ps rs b), r).

(* One constant of a group; a missing type and value repeat the last ones. *)
Fixpoint p_consts (fuel : nat) (t : option ty) (e : option expr) (iota : N) (ts : list token) : option (list decl * list token) :=
  match fuel with
  | O => None
  | S fuel =>
      if next_op ")" ts then Some ([], tl ts)
      else
        do (x, r) <- ident ts;
        do (t, e, r) <-
          (if next_op ";" r then do e <- e; Some (t, e, r)
           else do (t, r) <- (if next_op "=" r then Some (None, r) else do (t, r) <- p_type fuel r; Some (Some t, r));
                do r <- op "=" r; do (e, r) <- p_expr fuel 0 r; Some (t, e, r));
        do r <- op ";" r;
        do (ds, r) <- p_consts fuel t (Some e) (iota + 1) r;
        Some (DConst x t e iota :: ds, r)
  end.

(* 0x02, 0x02, } *)
Fixpoint p_elements (ts : list token) : option (list N * list token) :=
  match ts with
  | TNum n :: TOp s :: r =>
      if String.eqb s "," then do (ns, r) <- p_elements r; Some (n :: ns, r)
      else if String.eqb s "}" then Some ([n], r) else None
  | TOp s :: r => if String.eqb s "}" then Some ([], r) else None
  | _ => None
  end.
(* x T, or x = [...]T{ numbers } *)
Definition p_var (fuel : nat) : parser decl := fun ts =>
  do (x, r) <- ident ts;
  if next_op "=" r then
    do r <- op "[" (tl r); do r <- op "..." r; do r <- op "]" r; do (t, r) <- p_type fuel r;
    do r <- op "{" r; do (ns, r) <- p_elements r; Some (DTable x t ns, r)
  else do (t, r) <- p_type fuel r; Some (DVar x t, r).

(* state.go 23-62, property_table.go 5 *)
Definition p_decl (fuel : nat) : parser (list decl) := fun ts =>
  if next_kw "func" ts then do (d, r) <- p_func fuel (tl ts); Some ([d], r)
  else if next_kw "type" ts then do (x, r) <- ident (tl ts); do (t, r) <- p_type fuel r; Some ([DType x t], r)
  else if next_kw "var" ts then do (d, r) <- p_var fuel (tl ts); Some ([d], r)
  else do r <- kw "const" ts;
    if next_op "(" r then p_consts fuel None None 0 (tl r)
    else do (x, r) <- ident r;
         do (t, r) <- (if next_op "=" r then Some (None, r) else do (t, r) <- p_type fuel r; Some (Some t, r));
         do r <- op "=" r; do (e, r) <- p_expr fuel 0 r; Some ([DConst x t e 0], r).

(* the declarations of a file: state.go 23-211 *)
Fixpoint p_decls (fuel : nat) (ts : list token) : option (list decl) :=
  match fuel with
  | O => None
  | S fuel =>
      match ts with
      | [] => Some []
      | _ => do (d, r) <- p_decl fuel ts; do r <- op ";" r; do ds <- p_decls fuel r; Some (d ++ ds)
      end
  end.

(* The last part of an import path: the name of the package. *)
Fixpoint last_part (acc l : list ascii) : string :=
  match l with
  | [] => str (rev acc)
  | c :: r => if (code c =? 47)%N then last_part [] r else last_part (c :: acc) r
  end.
(* grapheme_clusters.go 4, unicode17.go 7 *)
Definition p_import : parser (string * string) := fun ts =>
  match ts with
  | TStr s :: r => let x := last_part [] (list_ascii_of_string s) in Some ((x, s), r)
  | TId x :: TStr s :: r => Some ((x, s), r)
  | _ => None
  end.
(* grapheme_clusters.go 3-6 *)
Fixpoint p_import_list (fuel : nat) (ts : list token) : option (list (string * string) * list token) :=
  match fuel with
  | O => None
  | S fuel =>
      if next_op ")" ts then Some ([], tl ts)
      else do (i, r) <- p_import ts; do r <- op ";" r; do (is, r) <- p_import_list fuel r; Some (i :: is, r)
  end.
(* grapheme_clusters.go 3-6 *)
Fixpoint p_imports (fuel : nat) (ts : list token) : option (list (string * string) * list token) :=
  match fuel with
  | O => None
  | S fuel =>
      if next_kw "import" ts then
        do (is, r) <- (if next_op "(" (tl ts) then p_import_list fuel (tl (tl ts))
                       else do (i, r) <- p_import (tl ts); Some ([i], r));
        do r <- op ";" r;
        do (js, r) <- p_imports fuel r; Some (is ++ js, r)
      else Some ([], ts)
  end.

(* grapheme_clusters.go 1-79 *)
Definition p_file (fuel : nat) (ts : list token) : option file :=
  do r <- kw "package" ts; do (x, r) <- ident r; do r <- op ";" r;
  do (is, r) <- p_imports fuel r;
  do ds <- p_decls fuel r;
  Some (File x is ds).

(* A source file. *)
Definition parse (s : string) : option file :=
  do ts <- tokens_of s; p_file (10 + 2 * List.length ts) ts.
