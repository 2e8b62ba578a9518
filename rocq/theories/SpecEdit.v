(** * Specification: the same package after the bodies of some functions have been edited. *)
From stdpp Require Import base list gmap relations.
From Verif Require Import GoString ErrorCode Scc CodeSet Constant GoAst Taint Analyse SpecCodes SpecTaint SpecCodeMethod SpecLocal.

(** Other functions (with the function literals in them), hence other syntax trees.  The tables of types, objects and comments hold the entries
    of both versions: they are indexed by nodes, and the nodes that were not edited keep their identities (and positions). *)
Definition with_bodies (funcs' : gmap fid func) (top' : list topdecl) (pk : package) : package :=
  Package funcs' (pk_decls pk) (pk_gendecls pk) top' (pk_objs pk) (pk_comments pk) (pk_info pk).

Section spec.
Context (pk : package) (funcs' : gmap fid func).

(** Name, receiver, documentation, parameters and results of the declared functions are the same. *)
Definition same_header (fn fn' : func) : Prop := fn_pos fn' = fn_pos fn /\ fn_decl fn' = fn_decl fn /\ fn_type fn' = fn_type fn.
Definition same_headers : Prop :=
  forall f, f ∈ pk_decls pk -> exists fn fn', pk_funcs pk !! f = Some fn /\ funcs' !! f = Some fn' /\ same_header fn fn'.

(** The same, but the documentation may have been rewritten. *)
Definition same_signature (fn fn' : func) : Prop :=
  fn_pos fn' = fn_pos fn /\ fn_type fn' = fn_type fn /\
  (fun d => (dc_name d, dc_recv d)) <$> fn_decl fn' = (fun d => (dc_name d, dc_recv d)) <$> fn_decl fn.
Definition same_signatures : Prop :=
  forall f, f ∈ pk_decls pk -> exists fn fn', pk_funcs pk !! f = Some fn /\ funcs' !! f = Some fn' /\ same_signature fn fn'.

(** The function was not edited, nor any function literal in it. *)
Definition untouched (f : fid) : Prop :=
  funcs' !! f = pk_funcs pk !! f /\
  forall fn n g, pk_funcs pk !! f = Some fn -> n ∈ body_nodes fn -> as_funclit n = Some g -> funcs' !! g = pk_funcs pk !! g.
(** Neither was any function it mentions, directly or indirectly. *)
Definition unaffected (f : fid) : Prop :=
  forall g, rtc (mentions_function pk (collectFunctions pk)) f g -> untouched g.

(** The methods of the error types that the package declares. *)
Definition error_method (f : fid) : Prop :=
  exists g ts err, g ∈ pk_gendecls pk /\ Some ts ∈ gd_specs g /\ declared_error pk ts err /\ method_for pk err f.
End spec.
