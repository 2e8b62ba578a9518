(** * Specification: what the theorems about whole packages presuppose of their input. *)
From stdpp Require Import base list gmap.
From Verif Require Import GoString ErrorCode Scc CodeSet Annotation Constant GoAst Taint Extract Analyse
  SpecCodes SpecAnnotation SpecTaint SpecMay.

Section spec.
Context (pk : package) (fa : facts) (fn : func).
Notation info := (pk_info pk).

(** What Go guarantees about its programs: within one assignment, all uses of a variable have the same type.  (In different places
    they need not: the variable of a type switch has another type in each clause.) *)
Definition typed : Prop :=
  forall n lhs rhs l l' x x' sel sel' i j, n ∈ body_nodes fn -> as_assign n = Some (lhs, rhs) -> l ∈ lhs -> l' ∈ lhs ->
    as_selector l = Some (x, sel) -> as_selector l' = Some (x', sel') -> as_ident x = Some i -> as_ident x' = Some j ->
    i_obj i = i_obj j -> i_obj i <> None -> ti_type info (i_id i) = ti_type info (i_id j).

(** The expressions whose value may be returned as error: returned, or assigned to a variable an error
    may come from. *)
Definition error_source (e : node) : Prop :=
  (exists s, s ∈ return_stmts fn /\ ~ overwritten pk s /\ returned fn s e) \/
  exists o, error_var pk fn o /\ (linked pk fn o e \/ exists d, assigned_several pk fn o d /\ e = de_source d).

(** The function is written so that variables can be tracked: the program obeys Go's scoping and typing, and the
    parameters of function literals are neither returned nor called.  (What happens if they are: C20.) *)
Record usable : Prop := {
  us_scoped : scoped pk fn;
  us_typed : typed;
  us_param : forall i, constructor_param pk fa fn i -> not_closure_param pk fn i;
  us_values : forall e i, error_source e -> root pk e i -> not_closure_param pk fn i;
  us_calls : forall e f args i, error_source e -> as_call (unparen e) = Some (f, args) ->
    function_variable pk (unparen f) i -> not_closure_param pk fn i
}.

(** The annotation of the statement removes code [c]. *)
Definition subtracts (s : node) (c : gostring) : Prop := exists add sub, annotation_is pk s (Some (Modify add sub)) /\ c ∈ sub.
(** Return statements that may return the value of the same variable agree on whether to remove [c].
    (Otherwise the first one decides: C37.) *)
Definition agree (c : gostring) : Prop :=
  forall o s s' e e', s ∈ return_stmts fn -> s' ∈ return_stmts fn -> ~ overwritten pk s -> ~ overwritten pk s' ->
    returned fn s e -> returned fn s' e' -> expr_var pk fn e o -> expr_var pk fn e' o ->
    subtracts s c -> subtracts s' c.
(** The same for one statement [s']: no other one removes [c] from the value of a variable that [s'] may return. *)
Definition agree_at (s' : node) (c : gostring) : Prop :=
  forall o s e e', s ∈ return_stmts fn -> ~ overwritten pk s -> ~ overwritten pk s' ->
    returned fn s e -> returned fn s' e' -> expr_var pk fn e o -> expr_var pk fn e' o -> subtracts s c -> subtracts s' c.
End spec.

(** ** The package as a whole *)
Section package.
Context (pk : package) (lk : lookup_table) (fa : facts).
Notation info := (pk_info pk).

(** The function of this package that is executed when the value [e] is called, unless its codes are declared. *)
Inductive value_target (e : node) (g : fid) : Prop :=
| vt_literal id kids : e = Node id (KFuncLit g) kids -> value_target e g
| vt_name : is_name e -> (forall s, ~ declares fa (value_object pk e) s) -> denotes pk lk e g -> value_target e g.

(** The function of this package a call of [f] executes, unless its codes are declared. *)
Inductive call_target (fn : func) (f : node) (g : fid) : Prop :=
| ct_package : (forall s, ~ declares fa (function_object pk f) s) ->
    (function_object pk f = None -> forall s, ~ conversion_codes pk fa f s) ->
    denotes pk lk (unparen f) g -> call_target fn f g
| ct_variable i o e : (forall s, ~ declares fa (function_object pk f) s) ->
    (function_object pk f = None -> forall s, ~ conversion_codes pk fa f s) ->
    function_variable pk (unparen f) i -> tracked pk fn None ∅ i o -> assigned_expr pk fn o e -> value_target (unparen e) g ->
    call_target fn f g.

(** The call of [f] executes the function literal [g], through a local variable. *)
Inductive literal_call (fn : func) (f : node) (g : fid) : Prop :=
| literal_call_intro i o e id kids : (forall s, ~ declares fa (function_object pk f) s) ->
    (function_object pk f = None -> forall s, ~ conversion_codes pk fa f s) ->
    function_variable pk (unparen f) i -> tracked pk fn None ∅ i o -> assigned_expr pk fn o e ->
    unparen e = Node id (KFuncLit g) kids -> literal_call fn f g.

(** A call whose last result may be returned as error. *)
Definition error_call (fn : func) (f : node) : Prop :=
  exists e args, as_call (unparen e) = Some (f, args) /\
    ((exists s, s ∈ return_stmts fn /\ ~ overwritten pk s /\ returned fn s e) \/
     (exists o, error_var pk fn o /\ linked pk fn o e) \/
     (exists o d ps rs v, error_var pk fn o /\ assigned_several pk fn o d /\ e = de_source d /\
        ti_type info (node_id f) = Some (TSignature ps rs v) /\ S (de_position d) = length rs)).

(** [f] may return the error of [g]. *)
Definition passes_on (f g : fid) : Prop :=
  exists fn e, pk_funcs pk !! f = Some fn /\ error_call fn e /\ call_target fn e g.
Definition recursive_with (f g : fid) : Prop := rtc passes_on f g /\ rtc passes_on g f.

(** The codes a function may return: the least solution. *)
Inductive may_return : fid -> gostring -> Prop :=
| mr_own f fn c : pk_funcs pk !! f = Some fn -> own_code pk lk fa may_return fn c -> may_return f c
| mr_recursive f g c : recursive_with f g -> may_return g c -> may_return f c.

Definition usable_functions : Prop :=
  forall f fn, pk_funcs pk !! f = Some fn -> usable pk fa fn /\ fn_body fn <> None.

(** No function literal that is called through a variable returns the error of the function which calls it
    (`var f func() error; f = func() error { ... return f() }`, or by way of other functions).  Otherwise codes can be lost:
    findErrorCodesInLambdaAssignment does not tell the search for components about this edge. *)
Definition no_literal_recursion : Prop :=
  forall f fn e g, pk_funcs pk !! f = Some fn -> error_call fn e -> literal_call fn e g -> ~ rtc passes_on g f.
(** Stronger: no error is returned from a call of a function literal through a variable (`f := func() error {...}; return f()`).
    What happens otherwise: C15, C23. *)
Definition no_literal_calls : Prop :=
  forall f fn e g, pk_funcs pk !! f = Some fn -> error_call fn e -> ~ literal_call fn e g.
End package.
