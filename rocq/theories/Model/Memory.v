(* The code of grapheme_clusters.go and property_table.go at the level of
   memory: slices are (address, length, capacity), every access to memory is an
   action, and other goroutines may act in between.

   Not modelled: the values of local variables are not memory (Go's locals here
   do not escape), and there is no weak-memory reordering: each action takes
   effect at once, which is what Go guarantees to programs without data races -
   and what C27 shows is that calls race with nobody who leaves data alone. *)
From Coq Require Import List NArith Arith Bool Strings.Byte.
From Verif Require Import Spec.Utf8 Model.Base Model.CharProps Model.Lookup Model.Machine Model.Scan.
Import ListNotations.

(* The package-level tables, property_table_raw.go: lookupIndices, lookupProps *)
Inductive table := Indices | Props.

(* Where things are in memory: the bytes of the data (grapheme_clusters.go 17),
   the elements of the tables (property_table_raw.go). *)
Inductive loc :=
| Heap (addr : N)             (* a byte *)
| Table (t : table) (i : N).  (* an element of a table *)

(* The contents of memory: bytes, and the elements of the tables of
   property_table_raw.go. *)
Record memory := Memory { m_heap : N -> byte; m_table : table -> N -> N }.

(* A program: what it does to memory, step by step; how the model represents the
   code below. *)
Inductive prog (A : Type) :=
| Done (a : A)
| Crash (p : panic)
| Load (addr : N) (k : byte -> prog A)
| LoadTable (t : table) (i : N) (k : N -> prog A)
| Store (addr : N) (b : byte) (k : prog A)
| StoreTable (t : table) (i v : N) (k : prog A).
Arguments Done {A} a.
Arguments Crash {A} p.
Arguments Load {A} addr k.
Arguments LoadTable {A} t i k.
Arguments Store {A} addr b k.
Arguments StoreTable {A} t i v k.

(* statements one after the other; no definition in /repo corresponds to it *)
Fixpoint pbind {A B} (p : prog A) (f : A -> prog B) : prog B :=
  match p with
  | Done a => f a
  | Crash e => Crash e
  | Load a k => Load a (fun b => pbind (k b) f)
  | LoadTable t i k => LoadTable t i (fun v => pbind (k v) f)
  | Store a b k => Store a b (pbind k f)
  | StoreTable t i v k => StoreTable t i v (pbind k f)
  end.

Notation "'do' x ':=' e 'in' k" := (pbind e (fun x => k))
  (at level 200, x pattern, e at level 100, k at level 200).

(* computations without memory access (state.go 60-211) *)
Definition pure {A} (r : res A) : prog A :=
  match r with Ret a => Done a | Panic p => Crash p end.

(* grapheme_clusters.go 17: []byte *)
Record bslice := Bslice { b_base : N; b_len : nat; b_cap : nat }.

(* p[i], property_table.go 22, 43, 53-62 *)
Definition m_index (p : bslice) (i : nat) : prog byte :=
  if i <? b_len p then Load (b_base p + N.of_nat i) Done else Crash IndexOutOfRange.

(* p[n:], grapheme_clusters.go 34, 67 *)
Definition m_slice_from (p : bslice) (n : nat) : prog bslice :=
  if n <=? b_len p then Done (Bslice (b_base p + N.of_nat n) (b_len p - n) (b_cap p - n))
  else Crash SliceOutOfRange.

(* p[:n], grapheme_clusters.go 24, 30, 43, 55, 63, 73: Go checks n against the capacity, not the length *)
Definition m_slice_to (p : bslice) (n : nat) : prog bslice :=
  if n <=? b_cap p then Done (Bslice (b_base p) n (b_cap p)) else Crash SliceOutOfRange.

(* lookupIndices[i], lookupProps[i], property_table.go 50-62 *)
Definition m_table_get (t : table) (i : N) : prog N :=
  let a := match t with Indices => t_indices committed | Props => t_props committed end in
  if (i <? alen a)%N then LoadTable t i Done else Crash IndexOutOfRange.

(* property_table.go 42-46 *)
Fixpoint m_bad_continuation (p : bslice) (i n : nat) : prog bool :=
  match n with
  | O => Done false
  | S n' =>
      do b := m_index p i in
      if (N.land (bval b) 0xc0 =? 0x80)%N then m_bad_continuation p (S i) n' else Done true
  end.

(* property_table.go 48-66; first is a local variable *)
Definition m_walk (p : bslice) (first : byte) (length : nat) : prog CharProperties :=
  match length with
  | 1 => m_table_get Props (bval first)
  | 2 =>
      do blockIdx := m_table_get Indices (low6 first) in
      do p1 := m_index p 1 in
      m_table_get Props (N.shiftl blockIdx 6 + low6 p1)%N
  | 3 =>
      do blockIdx := m_table_get Indices (low6 first) in
      do p1 := m_index p 1 in
      do blockIdx := m_table_get Indices (N.shiftl blockIdx 6 + low6 p1)%N in
      do p2 := m_index p 2 in
      m_table_get Props (N.shiftl blockIdx 6 + low6 p2)%N
  | 4 =>
      do blockIdx := m_table_get Indices (low6 first) in
      do p1 := m_index p 1 in
      do blockIdx := m_table_get Indices (N.shiftl blockIdx 6 + low6 p1)%N in
      do p2 := m_index p 2 in
      do blockIdx := m_table_get Indices (N.shiftl blockIdx 6 + low6 p2)%N in
      do p3 := m_index p 3 in
      m_table_get Props (N.shiftl blockIdx 6 + low6 p3)%N
  | _ => Crash Unreachable
  end.

(* property_table.go 17-66 *)
Definition m_LookupFirstChar (p : bslice) : prog (CharProperties * nat) :=
  if b_len p =? 0 then Done (zeroProperties, 0)
  else
    do first := m_index p 0 in
    match seq_length first with
    | None => Done (Error, 1)
    | Some length =>
        if b_len p <? length then Done (zeroProperties, 0)
        else
          do bad := m_bad_continuation p 1 (length - 1) in
          if bad then Done (Error, 1)
          else do props := m_walk p first length in Done (props, length)
    end.

(* grapheme_clusters.go 17: (int, []byte, error) *)
Definition m_scan_result := (nat * option bslice * option goerror)%type.

(* grapheme_clusters.go 38-78 *)
Fixpoint m_scan_loop (fuel : nat) (data : bslice) (atEOF : bool)
    (remain : bslice) (count : nat) (state : State) (prev : CharProperties)
  : prog m_scan_result :=
  match fuel with
  | O => Crash OutOfFuel
  | S fuel' =>
      if b_len remain =? 0 then
        if atEOF then do token := m_slice_to data count in Done (count, Some token, None)
        else Done (0, None, None)
      else
        do (next, moreCount) := m_LookupFirstChar remain in
        if (next =? Error)%N then
          do token := m_slice_to data count in Done (count, Some token, None)
        else if moreCount =? 0 then
          if negb (b_len remain =? 0) && atEOF then
            do token := m_slice_to data count in Done (count, Some token, None)
          else Done (0, None, None)
        else
          do remain' := m_slice_from remain moreCount in
          do (split, nextSt) := pure (Transition state prev next) in
          if split then do token := m_slice_to data count in Done (count, Some token, None)
          else m_scan_loop fuel' data atEOF remain' (count + moreCount) nextSt next
  end.

(* grapheme_clusters.go 17-79 *)
Definition m_ScanGraphemeClusters (data : bslice) (atEOF : bool) : prog m_scan_result :=
  if b_len data =? 0 then Done (0, None, None)
  else
    do (properties, count) := m_LookupFirstChar data in
    if (properties =? Error)%N then
      do token := m_slice_to data 1 in Done (1, Some token, None)
    else if count =? 0 then
      if (count <? b_len data) && atEOF then
        do token := m_slice_to data 1 in Done (1, Some token, None)
      else Done (0, None, None)
    else
      do remain := m_slice_from data count in
      do state := pure (Begin properties) in
      m_scan_loop (S (b_len remain)) data atEOF remain count state properties.

(* ---- goroutines *)

(* An access to memory by one of them; no definition in /repo corresponds to it. *)
Inductive event :=
| ReadAt (l : loc)
| WriteAt (l : loc).

(* memory after a byte is stored (no code in /repo does that) *)
Definition set_heap (m : memory) (a : N) (b : byte) : memory :=
  Memory (fun a' => if (a' =? a)%N then b else m_heap m a') (m_table m).
(* which of the two tables of property_table_raw.go *)
Definition table_eqb (a b : table) : bool :=
  match a, b with Indices, Indices | Props, Props => true | _, _ => false end.
(* memory after an element of a table is stored (no code in /repo does that) *)
Definition set_table (m : memory) (t : table) (i v : N) : memory :=
  Memory (m_heap m) (fun t' i' => if table_eqb t' t && (i' =? i)%N then v else m_table m t' i').

(* one action of one goroutine; no definition in /repo corresponds to it *)
Inductive acts {A} : memory -> prog A -> event -> memory -> prog A -> Prop :=
| acts_load m a k : acts m (Load a k) (ReadAt (Heap a)) m (k (m_heap m a))
| acts_load_table m t i k : acts m (LoadTable t i k) (ReadAt (Table t i)) m (k (m_table m t i))
| acts_store m a b k : acts m (Store a b k) (WriteAt (Heap a)) (set_heap m a b) k
| acts_store_table m t i v k :
    acts m (StoreTable t i v k) (WriteAt (Table t i)) (set_table m t i v) k.

(* what goroutine number i of the pool did; likewise *)
Definition happening := (nat * event)%type.

(* A pool of goroutines and the rest of the process, which may change memory as
   [others] permits, in any order.  The list says what the pool did. *)
Inductive interleaves {A} (others : memory -> memory -> Prop) :
  memory -> list (prog A) -> list happening -> memory -> list (prog A) -> Prop :=
| inter_start m ps : interleaves others m ps [] m ps
| inter_act m ps tr m1 ps1 ps2 i p p' e m2 :
    interleaves others m ps tr m1 (ps1 ++ p :: ps2) ->
    length ps1 = i -> acts m1 p e m2 p' ->
    interleaves others m ps (tr ++ [(i, e)]) m2 (ps1 ++ p' :: ps2)
| inter_others m ps tr m1 ps1 m2 :
    interleaves others m ps tr m1 ps1 -> others m1 m2 ->
    interleaves others m ps tr m2 ps1.
