(* Model of the module autoversion (autoversion/go.mod, autoversion/textseg):
   which of its files a Go toolchain compiles, what the package then exports,
   and which other modules it pulls in.  The implementations it delegates to are
   other modules, v15 (not in this repository) and v17 (this repository); they
   are parameters here. *)
From Coq Require Import List Arith Bool Strings.Byte.
From Verif Require Import Model.Base Model.Scan Model.Bufio.
Import ListNotations.

(* A build constraint (unicode15.go 1-2, unicode17.go 1-2).  Tag m is the
   release tag go1.m. *)
Inductive constraint := Always | Tag (m : nat) | Not (c : constraint) | And (a b : constraint).
(* The toolchain go1.n satisfies go1.1, ..., go1.n (go/build,
   Context.ReleaseTags; not in /repo). *)
Fixpoint satisfied (n : nat) (c : constraint) : bool :=
  match c with
  | Always => true
  | Tag m => (1 <=? m) && (m <=? n)
  | Not c => negb (satisfied n c)
  | And a b => satisfied n a && satisfied n b
  end.

(* go.mod 3-8 of autoversion: the modules it requires *)
Inductive module := V15 | V17.

(* What a file of the package can declare: unicode15.go 16, 23, unicode17.go
   16, 23, version_agnostic.go 19, 26, 33. *)
Inductive declaration :=
| DScanGraphemeClusters (impl : module)     (* return impl.ScanGraphemeClusters(data, atEOF) *)
| DUnicodeMajorVersion (v : nat)
| DScanUTF8Sequences (impl : module)
| DTokenCount (impl : module)
| DAllTokens (impl : module).

(* A file of the package autoversion/textseg (unicode15.go 1-23, unicode17.go
   1-23, version_agnostic.go 1-35). *)
Record source := Source {
  go_build : constraint;          (* the //go:build line *)
  plus_build : constraint;        (* the // +build line *)
  imports : list module;          (* textseg packages of other modules *)
  declares : list declaration
}.

(* unicode15.go 1-23: //go:build go1.21 && !go1.27, // +build go1.21,!go1.27 *)
Definition unicode15 : source :=
  Source (And (Tag 21) (Not (Tag 27))) (And (Tag 21) (Not (Tag 27))) [V15]
    [DScanGraphemeClusters V15; DUnicodeMajorVersion 15].
(* unicode17.go 1-23: //go:build go1.27 && !go1.28, // +build go1.27,!go1.28 *)
Definition unicode17 : source :=
  Source (And (Tag 27) (Not (Tag 28))) (And (Tag 27) (Not (Tag 28))) [V17]
    [DScanGraphemeClusters V17; DUnicodeMajorVersion 17].
(* version_agnostic.go 1-35: no constraint *)
Definition version_agnostic : source :=
  Source Always Always [V15] [DScanUTF8Sequences V15; DTokenCount V15; DAllTokens V15].

(* autoversion/textseg: the files with declarations (doc.go has none) *)
Definition sources : list source := [unicode15; unicode17; version_agnostic].

(* The files that toolchain go1.n compiles: it follows the //go:build line since
   go1.17 and the // +build line before. *)
Definition selected (n : nat) : list source :=
  filter (fun s => satisfied n (if 17 <=? n then go_build s else plus_build s)) sources.

(* unicode15.go 6-8, unicode17.go 6-8, version_agnostic.go 8-12: the textseg
   packages compiled into a program that imports this one. *)
Definition compiled_in (n : nat) : list module := flat_map imports (selected n).

(* autoversion/go.mod 3, go.mod 3: "go 1.25".  Since go1.21 the line is a
   minimum: the go command of go1.n refuses the module (or hands over to a newer
   toolchain) if n is less; before it is not looked at. *)
Definition go_line : nat := 25.
(* go.mod 3: whether the go command of go1.n goes on with the module *)
Definition accepted (n : nat) : bool := (n <? 21) || (go_line <=? n).

(* What one of the other modules offers (v15/textseg, v17/textseg; only v15 has
   the last three). *)
Record implementation := Implementation {
  iScanGraphemeClusters : splitfunc;
  iScanUTF8Sequences : splitfunc;
  iTokenCount : list byte -> splitfunc -> res (nat * option goerror);
  iAllTokens : list byte -> splitfunc -> res (list (list byte) * option goerror)
}.

(* What the package exports: doc.go 23-26, a name may be missing. *)
Record exports := Exports {
  ScanGraphemeClusters : option splitfunc;
  UnicodeMajorVersion : option nat;
  ScanUTF8Sequences : option splitfunc;
  TokenCount : option (list byte -> splitfunc -> res (nat * option goerror));
  AllTokens : option (list byte -> splitfunc -> res (list (list byte) * option goerror))
}.

(* One declaration more (unicode15.go 16-23, unicode17.go 16-23,
   version_agnostic.go 19-35); None: the name is declared twice, a compile-time
   error. *)
Definition declare (impl : module -> implementation) (d : declaration) (x : exports) : option exports :=
  match d with
  | DScanGraphemeClusters m =>
      if ScanGraphemeClusters x then None
      else Some (Exports (Some (fun data atEOF => iScanGraphemeClusters (impl m) data atEOF)) (UnicodeMajorVersion x)
                   (ScanUTF8Sequences x) (TokenCount x) (AllTokens x))
  | DUnicodeMajorVersion v =>
      if UnicodeMajorVersion x then None
      else Some (Exports (ScanGraphemeClusters x) (Some v) (ScanUTF8Sequences x) (TokenCount x) (AllTokens x))
  | DScanUTF8Sequences m =>
      if ScanUTF8Sequences x then None
      else Some (Exports (ScanGraphemeClusters x) (UnicodeMajorVersion x)
                   (Some (fun data atEOF => iScanUTF8Sequences (impl m) data atEOF)) (TokenCount x) (AllTokens x))
  | DTokenCount m =>
      if TokenCount x then None
      else Some (Exports (ScanGraphemeClusters x) (UnicodeMajorVersion x) (ScanUTF8Sequences x)
                   (Some (fun buf splitFunc => iTokenCount (impl m) buf splitFunc)) (AllTokens x))
  | DAllTokens m =>
      if AllTokens x then None
      else Some (Exports (ScanGraphemeClusters x) (UnicodeMajorVersion x) (ScanUTF8Sequences x) (TokenCount x)
                   (Some (fun buf splitFunc => iAllTokens (impl m) buf splitFunc)))
  end.

(* The package as compiled by go1.n from the files of autoversion/textseg; None:
   it does not compile. *)
Definition package (impl : module -> implementation) (n : nat) : option exports :=
  fold_left (fun x d => match x with Some x => declare impl d x | None => None end)
    (flat_map declares (selected n)) (Some (Exports None None None None None)).
