(** * Strongly connected components (scc/strongly_connected_components.go).

    Nodes are Go interface values compared by identity; they are modelled as numbers.  The map from
    nodes to *vertex is a finite map to records: no two nodes share a vertex.  The stack is kept
    with its top first (the Go slice has its top last).  A nil dereference, an index out of range
    and the explicit panic are all the result [None]. *)
From stdpp Require Import base list gmap.

Definition fid := N.

(** strongly_connected_components.go 29-33 (the field [node] is the key of the map). *)
Record vertex := Vertex { v_index : nat; v_low : nat; v_on : bool }.

(** strongly_connected_components.go 24-28. *)
Record scc_state := SccState {
  sc_index : nat;
  sc_vertices : gmap fid vertex;
  sc_stack : list fid
}.

(** strongly_connected_components.go 44-50, StartSCC. *)
Definition scc_start : scc_state := SccState 0 ∅ [].

(** strongly_connected_components.go 54-68, Visit. *)
Definition scc_visit (n : fid) (s : scc_state) : option scc_state :=
  match sc_vertices s !! n with
  | Some _ => None
  | None => Some (SccState (S (sc_index s))
                    (<[ n := Vertex (sc_index s) (sc_index s) true ]> (sc_vertices s))
                    (n :: sc_stack s))
  end.

(** strongly_connected_components.go 79-82 and 85-89: the part of the stack above and including [n],
    and the rest. [None]: the loop runs below index 0. *)
Fixpoint pop_until (n : fid) (stack : list fid) : option (list fid * list fid) :=
  match stack with
  | [] => None
  | m :: rest =>
    if decide (m = n) then Some ([m], rest)
    else match pop_until n rest with
         | Some (popped, rest') => Some (m :: popped, rest')
         | None => None
         end
  end.

(** `w.isOnStack = false`, strongly_connected_components.go 78, 81. *)
Definition off_stack (vs : gmap fid vertex) (n : fid) : gmap fid vertex :=
  alter (fun v => Vertex (v_index v) (v_low v) false) n vs.

(** strongly_connected_components.go 70-92, EndVisit: [Some (Some component, s)] if [n] is the root
    of a component. *)
Definition scc_end (n : fid) (s : scc_state) : option (option (list fid) * scc_state) :=
  match sc_vertices s !! n with
  | None => None
  | Some v =>
    if negb (v_index v =? v_low v) then Some (None, s)
    else match pop_until n (sc_stack s) with
         | None => None
         | Some (popped, rest) =>
           Some (Some (reverse popped),
                 SccState (sc_index s) (foldl off_stack (sc_vertices s) popped) rest)
         end
  end.

(** `fromVector.lowindex = min(fromVector.lowindex, k)`, strongly_connected_components.go 99, 107. *)
Definition set_low (vs : gmap fid vertex) (from : fid) (k : nat) : option (gmap fid vertex) :=
  match vs !! from with
  | None => None
  | Some v => Some (<[ from := Vertex (v_index v) (Nat.min (v_low v) k) (v_on v) ]> vs)
  end.

(** strongly_connected_components.go 94-102, HandleEdge. *)
Definition scc_edge (from to : fid) (s : scc_state) : option (bool * scc_state) :=
  match sc_vertices s !! to with
  | None => Some (true, s)
  | Some t =>
    if v_on t then
      match set_low (sc_vertices s) from (v_index t) with
      | None => None
      | Some vs => Some (false, SccState (sc_index s) vs (sc_stack s))
      end
    else Some (false, s)
  end.

(** strongly_connected_components.go 104-108, AfterRecurse. *)
Definition scc_after (from to : fid) (s : scc_state) : option scc_state :=
  match sc_vertices s !! to with
  | None => None
  | Some t =>
    match set_low (sc_vertices s) from (v_low t) with
    | None => None
    | Some vs => Some (SccState (sc_index s) vs (sc_stack s))
    end
  end.
