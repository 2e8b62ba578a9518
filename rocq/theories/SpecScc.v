(** * Specification for the scc package: a depth-first client, and strongly connected components.

    The client is the one the package comment of strongly_connected_components.go 3-22 describes
    (and analyse.go implements): visit the node, look at every outgoing edge with HandleEdge, recurse
    if told to and call AfterRecurse, and end the visit, collecting the component if there is one.
    [None] means that a protocol function panicked. *)
From stdpp Require Import base list gmap relations.
From Verif Require Import Scc.

Section driver.
Context (succ : fid -> list fid).

Definition dstate : Type := scc_state * list (list fid).

(** The edges of [x], given how to visit a node. *)
Fixpoint drive_edges (visit : fid -> dstate -> option dstate) (x : fid) (targets : list fid) (d : dstate)
  : option dstate :=
  match targets with
  | [] => Some d
  | y :: targets' =>
    match scc_edge x y d.1 with
    | None => None
    | Some (false, s) => drive_edges visit x targets' (s, d.2)
    | Some (true, s) =>
      match visit y (s, d.2) with
      | None => None
      | Some d1 =>
        match scc_after x y d1.1 with
        | None => None
        | Some s1 => drive_edges visit x targets' (s1, d1.2)
        end
      end
    end
  end.

(** [None] also if the recursion is deeper than [fuel]. *)
Fixpoint drive (fuel : nat) (x : fid) (d : dstate) : option dstate :=
  match fuel with
  | O => None
  | S n =>
    match scc_visit x d.1 with
    | None => None
    | Some s =>
      match drive_edges (drive n) x (succ x) (s, d.2) with
      | None => None
      | Some d1 =>
        match scc_end x d1.1 with
        | None => None
        | Some (Some component, s1) => Some (s1, d1.2 ++ [component])
        | Some (None, s1) => Some (s1, d1.2)
        end
      end
    end
  end.

(** Start nodes that were visited already are skipped. *)
Fixpoint drive_all (fuel : nat) (starts : list fid) (d : dstate) : option dstate :=
  match starts with
  | [] => Some d
  | x :: starts' =>
    match sc_vertices d.1 !! x with
    | Some _ => drive_all fuel starts' d
    | None => match drive fuel x d with None => None | Some d1 => drive_all fuel starts' d1 end
    end
  end.

(** Graph notions. *)
Definition edge (x y : fid) : Prop := y ∈ succ x.
Definition path_to : fid -> fid -> Prop := rtc edge.
Definition strongly_connected (x y : fid) : Prop := path_to x y /\ path_to y x.
End driver.

(** ** Arbitrary call histories of the protocol *)
Inductive scc_call := CVisit (n : fid) | CEnd (n : fid) | CEdge (a b : fid) | CAfter (a b : fid).
(** The state after the call; [None] if it panics. *)
Definition scc_do (c : scc_call) (s : scc_state) : option scc_state :=
  match c with
  | CVisit n => scc_visit n s
  | CEnd n => snd <$> scc_end n s
  | CEdge a b => snd <$> scc_edge a b s
  | CAfter a b => scc_after a b s
  end.
Fixpoint scc_history (cs : list scc_call) (s : scc_state) : option scc_state :=
  match cs with
  | [] => Some s
  | c :: cs' => match scc_do c s with None => None | Some s' => scc_history cs' s' end
  end.
