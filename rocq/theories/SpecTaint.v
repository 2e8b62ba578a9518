(** * Specification: where the value of a local variable can come from.

    [pk] is the package, [fn] the function looked at.  [param] is a parameter that may be tracked although
    parameters in general may not (the error code parameter of an error constructor). *)
From Coq Require Import Ascii String.
From stdpp Require Import base list gmap.
From Verif Require Import GoString ErrorCode Scc Constant GoAst Taint.

Section spec.
Context (pk : package) (fn : func) (param : option oid).

Definition body_nodes : list node := match fn_body fn with Some b => walk b | None => [] end.

(** The statement `..., l, ... = ..., r, ...` or the declaration `var ..., l, ... = ..., r, ...` *)
Inductive assigned (o : oid) : node -> Prop :=
| assigned_stmt n lhs rhs k l r li :
    n ∈ body_nodes -> as_assign n = Some (lhs, rhs) -> length lhs = length rhs ->
    lhs !! k = Some l -> as_ident (unparen l) = Some li -> i_obj li = Some o -> rhs !! k = Some r ->
    assigned o r
| assigned_init names values k l r :
    ob_decl (obj_of pk o) = DValueSpec names values -> length values = length names ->
    names !! k = Some l -> i_obj l = Some o -> (forall k' l', k' < k -> names !! k' = Some l' -> i_obj l' <> Some o) ->
    values !! k = Some r -> assigned o r.

(** The same where the right hand side is one expression with several values: position, target, source. *)
Inductive assigned_several (o : oid) : destruct -> Prop :=
| several_stmt n lhs rhs k l r li :
    n ∈ body_nodes -> as_assign n = Some (lhs, rhs) -> length lhs <> length rhs ->
    lhs !! k = Some l -> as_ident (unparen l) = Some li -> i_obj li = Some o -> rhs !! 0 = Some r ->
    assigned_several o (Destruct k li r)
| several_init names values k l r :
    ob_decl (obj_of pk o) = DValueSpec names values -> length values <> length names ->
    names !! k = Some l -> i_obj l = Some o -> (forall k' l', k' < k -> names !! k' = Some l' -> i_obj l' <> Some o) ->
    values !! 0 = Some r -> assigned_several o (Destruct k l r).

(** The identifier denotes a variable. *)
Definition is_variable (i : ident) : Prop := exists o, i_obj i = Some o /\ ob_is_var (obj_of pk o) = true.

(** A variable is assigned to [o]. *)
Definition assigned_var (o : oid) (j : ident) : Prop :=
  exists e, assigned o e /\ as_ident (unparen e) = Some j /\ is_variable j.
(** Something else is assigned to [o]: the expression without parentheses. *)
Definition assigned_expr (o : oid) (e' : node) : Prop :=
  exists e, assigned o e /\ e' = unparen e /\ forall j, as_ident e' = Some j -> ~ is_variable j.

(** [o] is a named parameter of the function [lit]. *)
Definition has_parameter (lit : func) (o : oid) : Prop :=
  exists fl i, fl ∈ ft_params (fn_type lit) /\ i ∈ f_names fl /\ i_obj i = Some o.
(** [o] is a parameter of a function literal in the body. *)
Definition literal_param (o : oid) : Prop :=
  exists n f lit, n ∈ body_nodes /\ as_funclit n = Some f /\ pk_funcs pk !! f = Some lit /\ has_parameter lit o.
(** [o] is declared in the function, after its parameters: it is one of its results or declared in the body. *)
Definition inside_from : N :=
  match ft_results (fn_type fn) with Some _ => ft_results_pos (fn_type fn) | None => fn_body_pos fn end.
Definition declared_inside (o : oid) : Prop :=
  (inside_from < ob_pos (obj_of pk o) < fn_body_end fn)%N.

Definition is_param (i : ident) : Prop := exists p, param = Some p /\ i_obj i = Some p.
(** What a variable may come from but cannot be tracked: parameters, receivers, globals, closure parameters. *)
Definition untrackable (i : ident) : Prop :=
  ~ is_param i /\
  ((exists o, i_obj i = Some o /\ literal_param o) \/
   (i_name i <> str "nil" /\ forall o, i_obj i = Some o -> ~ declared_inside o)).
(** The identifier denotes the local variable [o]. *)
Definition local (i : ident) (o : oid) : Prop :=
  i_obj i = Some o /\ i_name i <> str "nil" /\ ~ untrackable i.

(** The variables from which [i] can get its value, through any chain of assignments, other than through variables
    of [V] (those dealt with before). *)
Inductive tracked (V : gset oid) (i : ident) : oid -> Prop :=
| tracked_start o : local i o -> o ∉ V -> tracked V i o
| tracked_step o j o' : tracked V i o -> assigned_var o j -> local j o' -> o' ∉ V -> tracked V i o'.

(** The variables whose value [o] gets through its declaration (`var o = p`), itself included. *)
Inductive init_from (o : oid) : oid -> Prop :=
| init_refl : init_from o o
| init_step names values v j o' p : ob_decl (obj_of pk o) = DValueSpec names values -> v ∈ values ->
    as_ident (unparen v) = Some j -> i_obj j = Some o' -> init_from o' p -> init_from o p.

(** Lexical scoping: the parameters of a function literal (and the variables declared with their values) are
    assigned only by statements after the beginning of the literal. *)
Definition scoped : Prop :=
  forall l1 n l2 lhs rhs r j o p n' f lit,
    body_nodes = l1 ++ n :: l2 -> as_assign n = Some (lhs, rhs) -> r ∈ rhs ->
    as_ident (unparen r) = Some j -> i_obj j = Some o -> init_from o p ->
    n' ∈ body_nodes -> as_funclit n' = Some f -> pk_funcs pk !! f = Some lit -> has_parameter lit p ->
    exists m, m ∈ l1 /\ as_funclit m = Some f.
(** The identifier is no parameter of a function literal (nor a variable declared with the value of one). *)
Definition not_closure_param (i : ident) : Prop :=
  forall o p, i_obj i = Some o -> init_from o p -> ~ literal_param p.
End spec.
