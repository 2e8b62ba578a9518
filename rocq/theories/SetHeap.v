(** * Code sets are references: set_operations.go on the heap.

    CodeSet is a Go map: a value of this type is a reference to a map, or nil, and copying it copies the reference.  The
    rest of the model treats sets as values.  This file models the operations of set_operations.go on a heap of
    maps, with their loops: every loop inserts one value at a time, in an iteration order the runtime chooses. *)
From Coq Require Import Ascii String.
From stdpp Require Import base list gmap.
From Verif Require Import GoString ErrorCode CodeSet.

(** The maps that exist, by address; the values of type CodeSet ([None] is nil). *)
Notation loc := N.
Notation heap := (gmap N codeset).
Notation ref := (option N).

(** What reading a map gives (len, range, indexing): a nil map reads as empty. *)
Definition contents (h : heap) (r : ref) : codeset :=
  match r with Some l => default ∅ (h !! l) | None => ∅ end.

(** `set[value] = struct{}{}` (set_operations.go 24, 41, 50, 54, 68): writing to a nil map panics ([None]). *)
Definition heap_insert (r : ref) (value : gostring) (h : heap) : option heap :=
  match r with Some l => Some (<[ l := code_add (contents h r) value ]> h) | None => None end.
(** `make(CodeSet, _)` (set_operations.go 22, 47, 65) at the address [l]. *)
Definition heap_make (l : loc) (h : heap) : heap := <[ l := ∅ ]> h.

(** `for _, value := range values { r[value] = struct{}{} }`. *)
Fixpoint heap_inserts (r : ref) (values : list gostring) (h : heap) : option heap :=
  match values with
  | [] => Some h
  | v :: values' => heap_insert r v h ≫= heap_inserts r values'
  end.

(** set_operations.go 21-27, SliceToSet (and 15-17, Set): the new map is at [l]. *)
Definition heap_slice_to_set (l : loc) (slice : list gostring) (h : heap) : option heap :=
  heap_inserts (Some l) slice (heap_make l h).
(** set_operations.go 40-42, Add. *)
Definition heap_add (set : ref) (value : gostring) (h : heap) : option heap := heap_insert set value h.
(** set_operations.go 46-59, Union; [o1] and [o2] are the orders in which the two loops visit the sets. *)
Definition heap_union (l : loc) (o1 o2 : list gostring) (h : heap) : option heap :=
  heap_inserts (Some l) o1 (heap_make l h) ≫= heap_inserts (Some l) o2.
(** set_operations.go 64-72, Difference; [o] is the order in which the loop visits the set.  The subtrahend is looked up in
    the heap at every step. *)
Fixpoint heap_keep (l : loc) (subtrahend : ref) (o : list gostring) (h : heap) : option heap :=
  match o with
  | [] => Some h
  | v :: o' => (if decide (v ∈ contents h subtrahend) then Some h else heap_insert (Some l) v h) ≫= heap_keep l subtrahend o'
  end.
Definition heap_difference (l : loc) (subtrahend : ref) (o : list gostring) (h : heap) : option heap :=
  heap_keep l subtrahend o (heap_make l h).

(** * Programs that handle code sets.

    The functions of the analyzer, reduced to what they do with code sets: everything else they compute decides only
    which branch is taken, how often a loop runs, which code is added and which place is read or written. *)

(** A place outside of local variables that holds a set: an entry of lookup.foundCodes, of the claims, of an interface, a field of an annotation,
    the codes of a fact. *)
Notation place := N.

Inductive stmt :=
| SSkip
| SSet (x : string)                            (* x := Set(...), SliceToSet(...), CodeSet{} *)
| SNil (x : string)                            (* var x CodeSet *)
| SUnion (x y z : string)                      (* x = Union(y, z) *)
| SDifference (x y z : string)                 (* x = Difference(y, z) *)
| SCopy (x y : string)                         (* x = y *)
| SAdd (x : string)                            (* x.Add(...) *)
| SRead (x : string)                           (* x.Slice(), len(x), range x *)
| SLoad (x : string)                           (* x = ..., read from some place *)
| SStore (x : string)                          (* ... = x, written to some place *)
| SCall (x f : string) (args : list string)    (* x = f(args) *)
| SReturn (x : string)
| SSeq (s t : stmt)
| SIf (s t : stmt)
| SLoop (own : list string) (s : stmt).        (* [own] only matters for the check below *)

Record setfunc := SetFunc { sf_params : list string; sf_body : stmt }.
Definition setprog := gmap string setfunc.

(** What else the program computes, and what it sees of the sets. *)
Inductive event :=
| EBranch (b : bool)                 (* the condition of an if; whether a loop goes on *)
| ESet (values : list gostring)      (* the slice a set is made from *)
| EAdd (value : gostring)            (* the value added *)
| ERead (seen : codeset)             (* the values read *)
| ELoad (p : place) | EStore (p : place).

Notation env := (gmap string ref).
Notation memory := (gmap place ref).
Definition var (e : gmap string ref) (x : string) : ref := default None (e !! x).
Definition held (m : gmap place ref) (p : place) : ref := default None (m !! p).

Inductive result := Goes (e : gmap string ref) | Returns (r : ref) | Crashes.

(** Go: variables and places hold references. *)
Inductive runs (P : setprog) : heap -> memory -> env -> stmt -> list event -> heap -> memory -> result -> Prop :=
| run_skip h m e : runs P h m e SSkip [] h m (Goes e)
| run_set h m e x values l h' : l ∉ dom h -> heap_slice_to_set l values h = Some h' ->
    runs P h m e (SSet x) [ESet values] h' m (Goes (<[ x := Some l ]> e))
| run_nil h m e x : runs P h m e (SNil x) [] h m (Goes (<[ x := None ]> e))
| run_union h m e x y z l o1 o2 h' : l ∉ dom h -> order_of (contents h (var e y)) o1 -> order_of (contents h (var e z)) o2 ->
    heap_union l o1 o2 h = Some h' -> runs P h m e (SUnion x y z) [] h' m (Goes (<[ x := Some l ]> e))
| run_difference h m e x y z l o h' : l ∉ dom h -> order_of (contents h (var e y)) o ->
    heap_difference l (var e z) o h = Some h' -> runs P h m e (SDifference x y z) [] h' m (Goes (<[ x := Some l ]> e))
| run_copy h m e x y : runs P h m e (SCopy x y) [] h m (Goes (<[ x := var e y ]> e))
| run_add h m e x v h' : heap_add (var e x) v h = Some h' -> runs P h m e (SAdd x) [EAdd v] h' m (Goes e)
| run_add_nil h m e x v : heap_add (var e x) v h = None -> runs P h m e (SAdd x) [EAdd v] h m Crashes
| run_read h m e x : runs P h m e (SRead x) [ERead (contents h (var e x))] h m (Goes e)
| run_load h m e x p : runs P h m e (SLoad x) [ELoad p] h m (Goes (<[ x := held m p ]> e))
| run_store h m e x p : runs P h m e (SStore x) [EStore p] h (<[ p := var e x ]> m) (Goes e)
| run_call h m e x f args fn evs h' m' r : P !! f = Some fn ->
    runs P h m (list_to_map (zip (sf_params fn) (var e <$> args))) (sf_body fn) evs h' m' r ->
    runs P h m e (SCall x f args) evs h' m'
      (match r with Returns v => Goes (<[ x := v ]> e) | Goes _ => Goes (<[ x := None ]> e) | Crashes => Crashes end)
| run_return h m e x : runs P h m e (SReturn x) [] h m (Returns (var e x))
| run_seq h m e s t evs1 h1 m1 e1 evs2 h2 m2 r : runs P h m e s evs1 h1 m1 (Goes e1) -> runs P h1 m1 e1 t evs2 h2 m2 r ->
    runs P h m e (SSeq s t) (evs1 ++ evs2) h2 m2 r
| run_seq_stop h m e s t evs h' m' r : runs P h m e s evs h' m' r -> (forall e', r <> Goes e') -> runs P h m e (SSeq s t) evs h' m' r
| run_if h m e s t (b : bool) evs h' m' r : runs P h m e (if b then s else t) evs h' m' r -> runs P h m e (SIf s t) (EBranch b :: evs) h' m' r
| run_loop_end h m e own s : runs P h m e (SLoop own s) [EBranch false] h m (Goes e)
| run_loop h m e own s evs1 h1 m1 e1 evs2 h2 m2 r : runs P h m e s evs1 h1 m1 (Goes e1) -> runs P h1 m1 e1 (SLoop own s) evs2 h2 m2 r ->
    runs P h m e (SLoop own s) (EBranch true :: evs1 ++ evs2) h2 m2 r
| run_loop_stop h m e own s evs h' m' r : runs P h m e s evs h' m' r -> (forall e', r <> Goes e') ->
    runs P h m e (SLoop own s) (EBranch true :: evs) h' m' r.

(** The same programs, were code sets values: no heap, an assignment copies the set and Add changes the variable alone. *)
Definition value (e : gmap string codeset) (x : string) : codeset := default ∅ (e !! x).
Inductive vresult := VGoes (e : gmap string codeset) | VReturns (s : codeset).
Inductive means (P : setprog) : gmap place codeset -> gmap string codeset -> stmt -> list event -> gmap place codeset -> vresult -> Prop :=
| mean_skip m e : means P m e SSkip [] m (VGoes e)
| mean_set m e x values : means P m e (SSet x) [ESet values] m (VGoes (<[ x := list_to_set values ]> e))
| mean_nil m e x : means P m e (SNil x) [] m (VGoes (<[ x := ∅ ]> e))
| mean_union m e x y z : means P m e (SUnion x y z) [] m (VGoes (<[ x := value e y ∪ value e z ]> e))
| mean_difference m e x y z : means P m e (SDifference x y z) [] m (VGoes (<[ x := value e y ∖ value e z ]> e))
| mean_copy m e x y : means P m e (SCopy x y) [] m (VGoes (<[ x := value e y ]> e))
| mean_add m e x v : means P m e (SAdd x) [EAdd v] m (VGoes (<[ x := {[ v ]} ∪ value e x ]> e))
| mean_read m e x : means P m e (SRead x) [ERead (value e x)] m (VGoes e)
| mean_load m e x p : means P m e (SLoad x) [ELoad p] m (VGoes (<[ x := default ∅ (m !! p) ]> e))
| mean_store m e x p : means P m e (SStore x) [EStore p] (<[ p := value e x ]> m) (VGoes e)
| mean_call m e x f args fn evs m' r : P !! f = Some fn ->
    means P m (list_to_map (zip (sf_params fn) (value e <$> args))) (sf_body fn) evs m' r ->
    means P m e (SCall x f args) evs m' (match r with VReturns v => VGoes (<[ x := v ]> e) | VGoes _ => VGoes (<[ x := ∅ ]> e) end)
| mean_return m e x : means P m e (SReturn x) [] m (VReturns (value e x))
| mean_seq m e s t evs1 m1 e1 evs2 m2 r : means P m e s evs1 m1 (VGoes e1) -> means P m1 e1 t evs2 m2 r ->
    means P m e (SSeq s t) (evs1 ++ evs2) m2 r
| mean_seq_stop m e s t evs m' v : means P m e s evs m' (VReturns v) -> means P m e (SSeq s t) evs m' (VReturns v)
| mean_if m e s t (b : bool) evs m' r : means P m e (if b then s else t) evs m' r -> means P m e (SIf s t) (EBranch b :: evs) m' r
| mean_loop_end m e own s : means P m e (SLoop own s) [EBranch false] m (VGoes e)
| mean_loop m e own s evs1 m1 e1 evs2 m2 r : means P m e s evs1 m1 (VGoes e1) -> means P m1 e1 (SLoop own s) evs2 m2 r ->
    means P m e (SLoop own s) (EBranch true :: evs1 ++ evs2) m2 r
| mean_loop_stop m e own s evs m' v : means P m e s evs m' (VReturns v) -> means P m e (SLoop own s) (EBranch true :: evs) m' (VReturns v).

(** * The discipline: a function adds only to sets it has made itself and has not given away.

    [check P own s]: the variables that hold such sets after [s], if they are [own] before it; [Some None] if [s] never goes on. *)
Notation vars := (gset string).
Fixpoint check (P : setprog) (own : vars) (s : stmt) : option (option vars) :=
  match s with
  | SSkip | SRead _ => Some (Some own)
  | SSet x | SUnion x _ _ | SDifference x _ _ => Some (Some ({[ x ]} ∪ own))
  | SNil x | SLoad x | SStore x => Some (Some (own ∖ {[ x ]}))
  | SCopy x y => Some (Some (own ∖ {[ x; y ]}))
  | SAdd x => if decide (x ∈ own) then Some (Some own) else None
  | SCall x f args =>
    match P !! f with
    | Some fn => if decide (length args = length (sf_params fn)) then Some (Some (own ∖ ({[ x ]} ∪ list_to_set args))) else None
    | None => None
    end
  | SReturn _ => Some None
  | SSeq s t => match check P own s with Some (Some own') => check P own' t | r => r end
  | SIf s t =>
    match check P own s, check P own t with
    | Some (Some o1), Some (Some o2) => Some (Some (o1 ∩ o2))
    | Some None, Some r | Some r, Some None => Some r
    | _, _ => None
    end
  | SLoop keep s =>
    let keep := list_to_set keep in
    if decide (keep ⊆ own) then
      match check P keep s with
      | Some (Some own') => if decide (keep ⊆ own') then Some (Some keep) else None
      | Some None => Some (Some keep)
      | None => None
      end
    else None
  end.
Definition check_prog (P : setprog) : bool :=
  bool_decide (map_Forall (fun _ fn => is_Some (check P ∅ (sf_body fn))) P).
