(** * Specification: where comments stand relative to the statements of a file. *)
From stdpp Require Import base list gmap.
From Verif Require Import GoString Scc GoAst CommentMap.
Local Open Scope N_scope.

(** The extents of the nodes of a Go file: a statement (declaration, field, ...) is listed after the nodes that begin before it, and two of them are nested
    or disjoint; comments follow each other. *)
Record layout (f : source_file) : Prop := {
  lay_order pre s post n : sf_nodes f = pre ++ s :: post -> sn_group s = true -> n ∈ pre -> p_off (sn_start n) <= p_off (sn_start s);
  lay_nested pre g mid s post : sf_nodes f = pre ++ g :: mid ++ s :: post -> sn_group g = true -> sn_group s = true ->
    p_off (sn_end s) <= p_off (sn_end g) \/ p_off (sn_end g) <= p_off (sn_start s);
  lay_extent n : n ∈ sf_nodes f -> p_off (sn_start n) <= p_off (sn_end n);
  lay_comment c : c ∈ sf_comments f -> p_off (cg_start c) < p_off (cg_end c);
  lay_comments pre c mid c' post : sf_comments f = pre ++ c :: mid ++ c' :: post -> p_off (cg_end c) <= p_off (cg_start c');
  lay_ids : NoDup (sn_id <$> sf_nodes f);
  lay_file : sf_nodes f <> []
}.

(** [s] is the first node behind the comment. *)
Definition next_node (f : source_file) (c : cgroup) (s : snode) : Prop :=
  exists pre post, sf_nodes f = pre ++ s :: post /\ p_off (cg_end c) <= p_off (sn_start s) /\ forall n, n ∈ pre -> p_off (sn_start n) < p_off (cg_end c).
(** Nothing ends on the line where the comment starts: it stands on lines of its own. *)
Definition own_line (f : source_file) (c : cgroup) : Prop :=
  forall n, n ∈ sf_nodes f -> p_line (sn_end n) <> p_line (cg_start c).
(** The comment stands directly above [s], without an empty line between them. *)
Definition directly_above (f : source_file) (c : cgroup) (s : snode) : Prop :=
  next_node f c s /\ own_line f c /\ p_line (sn_start s) <= p_line (cg_end c) + 1.

(** The comment starts behind [s], on the line where [s] ends, with no other statement and no other comment in between. *)
Definition behind (f : source_file) (c : cgroup) (s : snode) : Prop :=
  s ∈ sf_nodes f /\ sn_group s = true /\ p_off (sn_end s) <= p_off (cg_start c) /\ p_line (sn_end s) = p_line (cg_start c) /\
  (forall n, n ∈ sf_nodes f -> sn_group n = true -> n <> s -> ~ (p_off (sn_end s) <= p_off (sn_start n) < p_off (cg_end c))) /\
  (forall c', c' ∈ sf_comments f -> c' <> c -> ~ (p_off (sn_end s) <= p_off (cg_start c') <= p_off (cg_start c))).
(** No statement (declaration, ...) around [s] ends before the comment. *)
Definition outermost (f : source_file) (c : cgroup) (s : snode) : Prop :=
  forall g pre mid post, sf_nodes f = pre ++ g :: mid ++ s :: post -> sn_group g = true -> p_off (sn_end s) <= p_off (sn_end g) ->
    p_off (cg_start c) < p_off (sn_end g).

(** The comment is not near [s]: there is another node between them, and it starts neither on the line where [s] ends nor on the next one (and
    [s] is not the last node of the file, as a return statement with an operand never is). *)
Definition elsewhere (f : source_file) (c : cgroup) (s : snode) : Prop :=
  ~ next_node f c s /\ p_line (cg_start c) <> p_line (sn_end s) /\ p_line (cg_start c) <> p_line (sn_end s) + 1 /\ last (sf_nodes f) <> Some s.

(** The comment stands at [s]. *)
Definition stands_at (f : source_file) (c : cgroup) (s : snode) : Prop := directly_above f c s \/ (behind f c s /\ outermost f c s).
(** The comment is not one of [s]: it is not near, or it stands at another node. *)
Definition not_at (f : source_file) (c : cgroup) (s : snode) : Prop :=
  elsewhere f c s \/ exists s', s' ∈ sf_nodes f /\ s' <> s /\ stands_at f c s'.
