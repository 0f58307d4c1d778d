(* Model of textseg/internal/charprops/gentable/generate.go (the table builder
   and its compaction) and of the range check in charprops/generate.go. *)
From Coq Require Import List NArith ZArith Arith Bool Strings.Byte.
From Verif Require Import Spec.Utf8 Spec.Assignments Model.Base Model.Lookup.
Import ListNotations.
Local Open Scope N_scope.

(* generate.go 15-17: blockShift = 6, blockSize = 64, blockMask = 63 *)
Definition blockSize : nat := 64.
(* generate.go 19-20: zeroIndexBlock, zeroPropertyBlock; also make([]uintN, blockSize) *)
Definition zero_block : list N := repeat 0 blockSize.

(* conversion to uint16, generate.go 155, 167, 265, 292 *)
Definition u16 (n : N) : N := n mod 65536.

(* unicode/utf8.EncodeRune (standard library): surrogates, negative and too
   large runes are encoded like U+FFFD *)
Definition EncodeRune (r : Z) : list byte :=
  if (0 <=? r)%Z && scalarb (Z.to_N r) then utf8_encode (Z.to_N r) else utf8_encode 0xFFFD.

(* generate.go 96-99: treeInProgress *)
Record tip := Tip { rawProps : arr; rawIndices : arr }.

(* generate.go 101-113 *)
Definition newTreeInProgress : tip := Tip (amake 128) (amake 64).

(* generate.go 148-158: for _, b := range nested; the result is
   currentBlockIdx *)
Fixpoint descend (t : tip) (currentBlockIdx : N) (nested : list byte) : res (tip * N) :=
  match nested with
  | [] => Ret (t, currentBlockIdx)
  | b :: nested' =>
      let indexBlockIndexIdx := N.shiftl currentBlockIdx 6 + low6 b in
      let! indexBlockIndex := aget (rawIndices t) indexBlockIndexIdx in
      if indexBlockIndex =? 0 then
        let indexBlockIndex := N.shiftr (alen (rawIndices t)) 6 in
        let indices := aappend (rawIndices t) zero_block in
        let! indices := aset indices indexBlockIndexIdx (u16 indexBlockIndex) in
        descend (Tip (rawProps t) indices) indexBlockIndex nested'
      else descend t indexBlockIndex nested'
  end.

(* generate.go 128-171: ensureProps; a pointer into rawProps is modelled by its
   position *)
Definition ensureProps (t : tip) (r : Z) : res (tip * N) :=
  let asU8 := EncodeRune r in
  let byteLen := length asU8 in
  if (byteLen =? 1)%nat then
    let! b := index asU8 0 in
    let! _ := aget (rawProps t) (bval b) in
    Ret (t, bval b)
  else
    let! nested := slice_to asU8 (byteLen - 2) in
    let! penultimate := index asU8 (byteLen - 2) in
    let! final := index asU8 (byteLen - 1) in
    let! (t, currentBlockIdx) := descend t 0 nested in
    let propBlockIndexIdx := N.shiftl currentBlockIdx 6 + low6 penultimate in
    let! propBlockIndex := aget (rawIndices t) propBlockIndexIdx in
    let! (t, propBlockIndex) :=
      if propBlockIndex =? 0 then
        let propBlockIndex := N.shiftr (alen (rawProps t)) 6 in
        let props := aappend (rawProps t) zero_block in
        let! indices := aset (rawIndices t) propBlockIndexIdx (u16 propBlockIndex) in
        Ret (Tip props indices, propBlockIndex)
      else Ret (t, propBlockIndex) in
    let a := N.shiftl propBlockIndex 6 + low6 final in
    let! _ := aget (rawProps t) a in
    Ret (t, a).

(* generate.go 115-121: Set *)
Definition Set_ (t : tip) (r : Z) (v : N) : res tip :=
  let! (t, a) := ensureProps t r in
  let! old := aget (rawProps t) a in
  if (v =? 4) && negb (old =? 0) then Panic ConflictingProperties
  else let! props := aset (rawProps t) a v in Ret (Tip props (rawIndices t)).

(* generate.go 123-126: BitwiseOr *)
Definition BitwiseOr (t : tip) (r : Z) (propMask : N) : res tip :=
  let! (t, a) := ensureProps t r in
  let! old := aget (rawProps t) a in
  let! props := aset (rawProps t) a (N.lor old propMask) in
  Ret (Tip props (rawIndices t)).

(* The calls BuildRawPropertyTree makes (generate.go 54, 70, 88), in order. *)
Fixpoint run_ops (t : tip) (ops : list op) : res tip :=
  match ops with
  | [] => Ret t
  | OpSet r v :: ops' => let! t := Set_ t r v in run_ops t ops'
  | OpOr r v :: ops' => let! t := BitwiseOr t r v in run_ops t ops'
  end.

(* ---- compaction *)

(* generate.go 176-177: map[string]uint16, keys in the order they were added *)
Definition gomap := list (list N * N).
(* equality of the string keys of generate.go 261, 288 *)
Fixpoint key_eqb (a b : list N) : bool :=
  match a, b with
  | [], [] => true
  | x :: a', y :: b' => if x =? y then key_eqb a' b' else false
  | _, _ => false
  end.
(* v, ok := m[k], generate.go 261, 288 *)
Fixpoint map_get (m : gomap) (k : list N) : option N :=
  match m with
  | [] => None
  | (k', v) :: m' => if key_eqb k' k then Some v else map_get m' k
  end.
(* m[k] = v, generate.go 181, 182, 267, 294 *)
Fixpoint map_set (m : gomap) (k : list N) (v : N) : gomap :=
  match m with
  | [] => [(k, v)]
  | (k', v') :: m' => if key_eqb k' k then (k', v) :: m' else (k', v') :: map_set m' k v
  end.

(* generate.go 299-309: indexBlockKey; a string is the list of its bytes *)
Definition indexBlockKey (block : list N) : res (list N) :=
  if (length block =? blockSize)%nat
  then Ret (flat_map (fun v => [v mod 256; N.shiftr v 8 mod 256]) block)
  else Panic BadBlockSize.

(* generate.go 311-316: propertyBlockKey *)
Definition propertyBlockKey (block : list N) : res (list N) :=
  if (length block =? blockSize)%nat then Ret block else Panic BadBlockSize.

(* generate.go 176-177, Compact's two maps: the variables propBlockIdxs and indexBlockIdxs *)
Inductive which := PropMap | IndexMap.

(* Compact's state: ret.Indices, ret.Properties, the maps; cap(indices), and
   whether ret.Indices still has the backing array that dstRootIndices
   refers to (generate.go 188-194). *)
Record cstate := CState {
  c_indices : arr; c_props : arr;
  c_propmap : gomap; c_indexmap : gomap;
  c_cap : N; c_shared : bool
}.
(* the map a variable of generate.go 176-177 refers to *)
Definition get_map (w : which) (st : cstate) : gomap :=
  match w with PropMap => c_propmap st | IndexMap => c_indexmap st end.
(* that map after an assignment (generate.go 267, 294) *)
Definition set_map (w : which) (m : gomap) (st : cstate) : cstate :=
  match w with
  | PropMap => CState (c_indices st) (c_props st) m (c_indexmap st) (c_cap st) (c_shared st)
  | IndexMap => CState (c_indices st) (c_props st) (c_propmap st) m (c_cap st) (c_shared st)
  end.

(* generate.go 266: ret.Indices = append(ret.Indices, block...) *)
Definition append_indices (block : list N) (st : cstate) : cstate :=
  let a := aappend (c_indices st) block in
  CState a (c_props st) (c_propmap st) (c_indexmap st) (c_cap st)
         (c_shared st && (alen a <=? c_cap st)).
(* generate.go 293: ret.Properties = append(ret.Properties, block...) *)
Definition append_props (block : list N) (st : cstate) : cstate :=
  CState (c_indices st) (aappend (c_props st) block) (c_propmap st) (c_indexmap st) (c_cap st) (c_shared st).

(* srcBlockStart := srcBlockIdx << blockShift; a[srcBlockStart : srcBlockStart+blockSize],
   generate.go 249-250, 283-284: both bounds are uint16.  (Go compares the upper
   bound with the capacity; no block here ends between length and capacity, the
   model compares with the length.) *)
Definition src_block (a : arr) (srcBlockIdx : N) : res (list N) :=
  let start := u16 (N.shiftl srcBlockIdx 6) in
  let stop := u16 (start + 64) in
  if (stop <? start) || (alen a <? stop) then Panic SliceOutOfRange
  else aread a start (N.to_nat (stop - start)).

(* generate.go 261-269, 288-296: newBlockIndex, reused or new *)
Definition place (key : list N) (w : which) (fresh : N) (add : cstate -> cstate) (st : cstate)
  : N * cstate :=
  match map_get (get_map w st) key with
  | Some n => (n, st)
  | None =>
      let st := add st in
      (fresh, set_map w (map_set (get_map w st) key fresh) st)
  end.

(* generate.go 257-259: for i := range srcBlock, writing newBlock; [f] is the
   recursive call *)
Definition each (f : N -> cstate -> res (N * cstate)) : list N -> cstate -> res (list N * cstate) :=
  fix each (src : list N) (st : cstate) : res (list N * cstate) :=
    match src with
    | [] => Ret ([], st)
    | s :: src' =>
        let! (n, st) := f s st in
        let! (ns, st) := each src' st in
        Ret (n :: ns, st)
    end.

(* generate.go 235-297: buildCompactedBlocks.  [pm] and [im] are the maps it
   gets as propBlockIdxs and indexBlockIdxs; the recursive call swaps them
   (line 258).  The model returns the new block index, which the code stores
   in dstIndices[currentIdx]. *)
Fixpoint buildCompactedBlocks (t : tip) (indexLevels : nat) (pm im : which) (srcBlockIdx : N) (st : cstate)
  : res (N * cstate) :=
  match indexLevels with
  | S levels =>
      let! srcBlock :=
        if srcBlockIdx =? 0 then Ret zero_block else src_block (rawIndices t) srcBlockIdx in
      let! (newBlock, st) := each (buildCompactedBlocks t levels im pm) srcBlock st in
      let! blockKey := indexBlockKey newBlock in
      Ret (place blockKey im (u16 (N.shiftr (alen (c_indices st)) 6)) (append_indices newBlock) st)
  | O =>
      let! srcBlock :=
        if srcBlockIdx =? 0 then Ret zero_block else src_block (rawProps t) srcBlockIdx in
      let! blockKey := propertyBlockKey srcBlock in
      Ret (place blockKey pm (u16 (N.shiftr (alen (c_props st)) 6)) (append_props srcBlock) st)
  end.

(* generate.go 210-219 *)
Definition index_levels (i : N) : res nat :=
  match N.shiftr i 4 with
  | 0 | 1 => Ret 0%nat
  | 2 => Ret 1%nat
  | 3 => Ret 2%nat
  | _ => Panic InvalidInitialIndex
  end.

(* generate.go 194, 269, 296: dstRootIndices[i] = v: visible in ret.Indices while the array is shared *)
Definition set_root (i v : N) (st : cstate) : res cstate :=
  if c_shared st then
    let! a := aset (c_indices st) i v in
    Ret (CState a (c_props st) (c_propmap st) (c_indexmap st) (c_cap st) (c_shared st))
  else Ret st.

(* generate.go 205-221: for i := range srcRootIndices; the call on line 220
   passes indexBlockIdxs as propBlockIdxs and vice versa *)
Fixpoint compact_root (t : tip) (i : N) (src : list N) (st : cstate) : res cstate :=
  match src with
  | [] => Ret st
  | s :: src' =>
      let! levels := index_levels i in
      let! (n, st) := buildCompactedBlocks t levels IndexMap PropMap s st in
      let! st := set_root i n st in
      compact_root t (i + 1) src' st
  end.

(* generate.go 226-230 *)
Fixpoint no_zero (vs : list N) : res unit :=
  match vs with
  | [] => Ret tt
  | v :: vs' => if v =? 0 then Panic ZeroIndexEntry else no_zero vs'
  end.

(* property_tree.go 3-6 *)
Record RawPropertyTree := Tree { Indices : arr; Properties : arr }.

(* generate.go 173-233: Compact *)
Definition Compact (t : tip) : res RawPropertyTree :=
  let! ascii0 := aread (rawProps t) 0 64 in
  let! ascii1 := aread (rawProps t) 64 64 in
  let! key0 := propertyBlockKey ascii0 in
  let! key1 := propertyBlockKey ascii1 in
  let propBlockIdxs := map_set (map_set [] key0 0) key1 1 in
  let props := arr_of_list (ascii0 ++ ascii1) in
  let! srcRootIndices := aread (rawIndices t) 0 64 in
  let st := CState (amake 64) props propBlockIdxs [] (alen (rawIndices t) * 4) true in
  let! st := compact_root t 0 srcRootIndices st in
  let! all := aread (c_indices st) 0 (N.to_nat (alen (c_indices st))) in
  let! _ := no_zero all in
  Ret (Tree (c_indices st) (c_props st)).

(* charprops/generate.go 33-64: the arrays that are written, and the check that
   the indices fit uint8 (line 42) *)
Definition emit (tree : RawPropertyTree) : res tables :=
  let! all := aread (Indices tree) 0 (N.to_nat (alen (Indices tree))) in
  if forallb (fun v => v <=? 255) all then Ret (Tables (Indices tree) (Properties tree))
  else Panic TooManyIndices.

(* generate.go 22-94 after parsing: the calls on the tree, then Compact *)
Definition build_tree (ops : list op) : res RawPropertyTree :=
  let! t := run_ops newTreeInProgress ops in Compact t.

(* gentable/generate.go 41-94 and charprops/generate.go 23-64: the whole generator
   after parsing. *)
Definition generate (ops : list op) : res tables :=
  let! tree := build_tree ops in emit tree.
