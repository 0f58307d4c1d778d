(* Model of the generator command as a process: charprops/generate.go 16-78 and
   the opening of the data files, gentable/generate.go 22-40.  The file that is
   written, property_table_raw.go, is seen as others see it, after every step.

   Not modelled: standard error, what go/format.Source does (line 66; it is an
   arbitrary function that may fail), and that the files are never closed. *)
From Coq Require Import List NArith Arith Bool Strings.Byte Strings.String.
From Verif Require Import Model.Base Model.Bufio Model.PropNames Model.GenTable Model.UcdParse Model.BuildTree Model.Emit.
Import ListNotations.

(* gentable/generate.go 23-25, for the baseDir "ucd" of charprops/generate.go 17 *)
Definition gbpPath : gostring := str "ucd/auxiliary/GraphemeBreakProperty.txt"%string.
(* gentable/generate.go 24 *)
Definition emojiPath : gostring := str "ucd/emoji/emoji-data.txt"%string.
(* gentable/generate.go 25 *)
Definition dcpPath : gostring := str "ucd/DerivedCoreProperties.txt"%string.

(* gentable/generate.go 22-94 with the calls of os.Open *)
Inductive BuildFrom {R} (open : gostring -> result R) (rd : reader R) : res (result RawPropertyTree) -> Prop :=
| open_fail1 err : open gbpPath = inr err -> BuildFrom open rd (Ret (inr err))
| open_fail2 gbpFile err :
    open gbpPath = inl gbpFile -> open emojiPath = inr err -> BuildFrom open rd (Ret (inr err))
| open_fail3 gbpFile emojiFile err :
    open gbpPath = inl gbpFile -> open emojiPath = inl emojiFile -> open dcpPath = inr err ->
    BuildFrom open rd (Ret (inr err))
| open_all gbpFile emojiFile dcpFile out :
    open gbpPath = inl gbpFile -> open emojiPath = inl emojiFile -> open dcpPath = inl dcpFile ->
    BuildRawPropertyTree rd gbpFile rd emojiFile rd dcpFile out -> BuildFrom open rd out.

(* charprops/generate.go 72-77, property_table_raw.go: its content, None if there is no such file *)
Definition content := option (list byte).

(* f.Write(src), line 77, which os.File does in as many steps as the system
   makes of it: the content after each of them, from the n bytes written so far,
   and the error. *)
Inductive write_steps (src : list byte) : nat -> list content -> option goerror -> Prop :=
| write_done : write_steps src (List.length src) [] None
| write_error n err : n <= List.length src -> write_steps src n [] (Some err)
| write_some n k cs e :
    n < k <= List.length src -> write_steps src k cs e -> write_steps src n (Some (firstn k src) :: cs) e.

(* How the process ends (charprops/generate.go 20, 69, 75, 78). *)
Inductive status := Exit (code : nat) | Panics (p : panic).

(* charprops/generate.go 16-78: the contents of the file after each step that
   changes it, starting with the one it has, the status, and what Write returned
   (None also if it was not called).  create: what os.Create returns. *)
Inductive main_run {R} (open : gostring -> result R) (rd : reader R) (format : list byte -> result (list byte))
  (create : option goerror) (old : content) : list content -> status -> option goerror -> Prop :=
| main_panic built p :
    BuildFrom open rd built -> main_text built = Panic p ->
    main_run open rd format create old [old] (Panics p) None
| main_no_tree built err :                                      (* 18-21 *)
    BuildFrom open rd built -> main_text built = Ret (inr err) ->
    main_run open rd format create old [old] (Exit 1) None
| main_no_format built text err :                               (* 67-70 *)
    BuildFrom open rd built -> main_text built = Ret (inl text) -> format text = inr err ->
    main_run open rd format create old [old] (Exit 1) None
| main_no_file built text src err :                             (* 73-76 *)
    BuildFrom open rd built -> main_text built = Ret (inl text) -> format text = inl src -> create = Some err ->
    main_run open rd format create old [old] (Exit 1) None
| main_writes built text src cs e :                             (* 77; os.Create has truncated the file *)
    BuildFrom open rd built -> main_text built = Ret (inl text) -> format text = inl src -> create = None ->
    write_steps src 0 cs e ->
    main_run open rd format create old (old :: Some [] :: cs) (Exit 0) e.
