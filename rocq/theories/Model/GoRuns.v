(* Uses of the library executed from its source text (Model/GoLibrary.v). *)
From Coq Require Import List ZArith Strings.String Strings.Byte.
From Verif Require Import Model.Base Model.GoSyntax Model.GoSemantics Model.GoLibrary.
Import ListNotations.
Local Open Scope list_scope.

(* The function f of the library (grapheme_clusters.go 17, unicode17.go 12), executed
   from its source with ints of w bits, returns r for the arguments vs. *)
Definition go_returns (w : Z) (f : string) (vs r : list value) : Prop :=
  exists fuel depth, go_call w fuel depth f vs = Ret r.

(* The two exported functions: grapheme_clusters.go 17 and, of the module
   autoversion, unicode17.go 12. *)
Definition exported (f : string) : Prop :=
  f = "textseg.ScanGraphemeClusters"%string \/ f = "autoversion.ScanGraphemeClusters"%string.

(* A call that returns a token, or that asks for more data (grapheme_clusters.go 17). *)
Definition go_gives (w : Z) (f : string) (data : list byte) (atEOF : bool) (n : Z) (token : list byte) : Prop :=
  go_returns w f [VBytes data; VBool atEOF] [VInt "int" n; VBytes token; VNil].
(* grapheme_clusters.go 17: (0, nil, nil) *)
Definition go_asks (w : Z) (f : string) (data : list byte) (atEOF : bool) : Prop :=
  go_returns w f [VBytes data; VBool atEOF] [VInt "int" 0; VNil; VNil].

(* Calling it with atEOF = true on what is left, until nothing is left (README
   "Usage", grapheme_clusters.go 17). *)
Inductive go_tokenises (w : Z) (f : string) : list byte -> list (list byte) -> Prop :=
| go_tokenises_done : go_asks w f [] true -> go_tokenises w f [] []
| go_tokenises_step data n token toks :
    go_gives w f data true n token ->
    go_tokenises w f (skipn (Z.to_nat n) data) toks ->
    go_tokenises w f data (token :: toks).

(* A caller who receives the data in chunks, buffers them, takes a token whenever it
   likes and flushes at the end (grapheme_clusters.go 17), as in Model/Drivers.v. *)
Inductive go_streams (w : Z) (f : string) : list byte -> list (list byte) -> list (list byte) -> Prop :=
| go_streams_feed buf c chunks toks :
    go_streams w f (buf ++ c) chunks toks -> go_streams w f buf (c :: chunks) toks
| go_streams_take buf chunks n t toks :
    go_gives w f buf false n t ->
    go_streams w f (skipn (Z.to_nat n) buf) chunks toks -> go_streams w f buf chunks (t :: toks)
| go_streams_flush buf n t toks :
    go_gives w f buf true n t ->
    go_streams w f (skipn (Z.to_nat n) buf) [] toks -> go_streams w f buf [] (t :: toks)
| go_streams_done : go_asks w f [] true -> go_streams w f [] [] [].
