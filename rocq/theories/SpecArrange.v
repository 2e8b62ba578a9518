(** * Specification: the same package with its declarations in another order. *)
From stdpp Require Import base list gmap.
From Verif Require SpecLookup.
From Verif Require Import GoString ErrorCode Scc Constant GoAst.

(** The declarations are the same, in another order (the files are handed over in another order, declarations are moved within a file or to
    another one).  Functions that share a name (Go allows it for init and _ only) stay in order. *)
Record rearranged (pk pk' : package) : Prop := {
  ra_funcs : pk_funcs pk' = pk_funcs pk;
  ra_objs : pk_objs pk' = pk_objs pk;
  ra_comments : pk_comments pk' = pk_comments pk;
  ra_info : pk_info pk' = pk_info pk;
  ra_decls : pk_decls pk' ≡ₚ pk_decls pk;
  ra_gendecls : pk_gendecls pk' ≡ₚ pk_gendecls pk;
  ra_top : pk_top pk' ≡ₚ pk_top pk;
  ra_named : forall name g, SpecLookup.function_named pk' name g <-> SpecLookup.function_named pk name g
}.

Section spec.
Context (pk : package).
Notation info := (pk_info pk).
(** [f] is a method of the named type [n] or of a pointer to it. *)
Definition method_of_type (f : fid) (n : tobj) : Prop :=
  exists fn d r rs t, pk_funcs pk !! f = Some fn /\ fn_decl fn = Some d /\ dc_recv d = Some (r :: rs) /\
    ti_type info (f_type r) = Some t /\ getNamedType t = Some n.
(** [ts] declares the error type [n]. *)
Definition declares_error_type (ts : typespec) (n : tobj) : Prop :=
  exists g o, g ∈ pk_gendecls pk /\ Some ts ∈ gd_specs g /\ ti_defs info (i_id (tsp_name ts)) = Some o /\
    (ti_implements_ree info (ti_objtype info o) = true \/ ti_implements_ree info (TPointer (ti_objtype info o)) = true) /\
    getNamedType (ti_objtype info o) = Some n.
(** What Go guarantees (the last one: if no error type has an alias in the package). *)
Record declared_once : Prop := {
  on_functions : NoDup (pk_decls pk);
  on_methods : forall f g name n, f ∈ pk_decls pk -> g ∈ pk_decls pk -> SpecLookup.declares_method pk f name -> SpecLookup.declares_method pk g name ->
    method_of_type f n -> method_of_type g n -> f = g;
  on_types : forall ts ts' n, declares_error_type ts n -> declares_error_type ts' n -> ts = ts'
}.
End spec.
