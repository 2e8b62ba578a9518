(** * Specification: which declaration a name or a method selection of the package refers to. *)
From stdpp Require Import base list gmap.
From Verif Require Import GoString Scc GoAst.

Section spec.
Context (pk : package).
Notation info := (pk_info pk).

(** [f] is the declaration of a method (with a receiver) or of a function with that name. *)
Definition has_receiver (d : declinfo) : Prop := exists r, dc_recv d = Some [r].
Definition declares_method (f : fid) (name : gostring) : Prop :=
  exists fn d, pk_funcs pk !! f = Some fn /\ fn_decl fn = Some d /\ has_receiver d /\ i_name (dc_name d) = name.
Definition declares_function (f : fid) (name : gostring) : Prop :=
  exists fn, pk_funcs pk !! f = Some fn /\
    match fn_decl fn with Some d => ~ has_receiver d /\ i_name (dc_name d) = name | None => name = [] end.
(** The object the declaration defines. *)
Definition declares_object (f : fid) (o : tobj) : Prop :=
  exists fn d, pk_funcs pk !! f = Some fn /\ fn_decl fn = Some d /\ ti_defs info (i_id (dc_name d)) = Some o.

(** The method [name] of a value of type [t], or of its address. *)
Inductive has_method (t : gotype) (name : gostring) (o : tobj) : Prop :=
| hm_value : ti_methods info t name = Some o -> has_method t name o
| hm_address : ti_methods info t name = None -> (forall e, t <> TPointer e) -> ti_methods info (TPointer t) name = Some o ->
    has_method t name o.

(** The first of these declarations that defines the method a selection `x.name`, x of type [t], executes. *)
Definition method_among (candidates : list fid) (t : gotype) (name : gostring) (g : fid) : Prop :=
  exists o pre post, has_method t name o /\ candidates = pre ++ g :: post /\ declares_object g o /\
    forall f, f ∈ pre -> ~ declares_object f o.

(** The function the name refers to: the last one declared (Go allows several only of the name `_`). *)
Definition function_named (name : gostring) (g : fid) : Prop :=
  exists pre post, pk_decls pk = pre ++ g :: post /\ declares_function g name /\ forall f, f ∈ post -> ~ declares_function f name.
(** The declaration in this package of the method that a selection `x.name`, x of type [t], executes. *)
Definition method_declared (t : gotype) (name : gostring) (g : fid) : Prop :=
  exists o pre post, has_method t name o /\ pk_decls pk = pre ++ g :: post /\ declares_method g name /\ declares_object g o /\
    forall f, f ∈ pre -> declares_method f name -> ~ declares_object f o.
End spec.
