(** * Specification: what the analysis of a function reports, and when it crashes, in terms of the syntax.

    The counterpart of SpecMay for everything that is not a code: no order of evaluation, no visited sets, no caches. *)
From Coq Require Import Ascii String.
From stdpp Require Import base list gmap.
From Verif Require SpecLookup.
From Verif Require Import Quote GoString ErrorCode Scc CodeSet Annotation Constant GoAst Taint Analyse SpecCodes SpecAnnotation SpecMessages SpecTaint SpecMay.

(** A diagnostic, or a crash of the analyzer (a Go panic). *)
Inductive event := Reported (d : diag) | Crashed.
Definition says (at_ : nid) (msg : gostring) : event := Reported (Diag at_ msg).

Section spec.
Context (pk : package) (lk : lookup_table) (fa : facts) (fn : func).
Notation info := (pk_info pk).

(** ** Codes given as a string *)

(** The number of characters of the constant when written as Go string (escape sequences count as written). *)
Definition written_length (s : gostring) : nat := length (runes (quote (ti_is_print info) s)) - 2.
(** The parameter of the function that [i] denotes: its position. *)
Definition parameter_number (i : ident) (p : nat) : Prop :=
  exists o j, i_obj i = Some o /\ parameters (fn_type fn) !! p = Some (Some j) /\ i_obj j = Some o /\
    forall q k, q < p -> parameters (fn_type fn) !! q = Some (Some k) -> i_obj k <> Some o.

(** The expression [e] is used as error code. *)
Inductive string_event (e : node) : event -> Prop :=
| se_not_string : ti_value info (node_id e) = Some COther ->
    string_event e (says (node_id e) (str "error code has to be of type string"))
| se_too_long s : ti_value info (node_id e) = Some (CString s) -> 70 < written_length s ->
    string_event e (says (node_id e) (str "problem unquoting string constant value: invalid syntax"))
| se_invalid s : ti_value info (node_id e) = Some (CString s) -> written_length s <= 70 -> s <> [] -> ~ valid_code s ->
    string_event e (says (node_id e) (str "error code has invalid format: should match [a-zA-Z][a-zA-Z0-9\-]*[a-zA-Z0-9]"))
| se_parameter i p : ti_value info (node_id e) = None -> as_ident (unparen e) = Some i -> parameter_number i p -> ~ code_parameter pk fa fn p ->
    string_event e (says (i_id i) (str "require an error code parameter declaration to use " ++ quoted (i_name i) ++ str " as an error code"))
| se_dynamic : ti_value info (node_id e) = None -> (forall i p, as_ident (unparen e) = Some i -> ~ parameter_number i p) ->
    string_event e (says (node_id e) (str "error code has to be constant value or error code parameter")).

(** ** Values of error types *)

(** The type of [e] (or a pointer to it) has the methods of a coded error. *)
Definition coded (e : node) : Prop :=
  exists t, ti_type info (node_id e) = Some t /\ (ti_implements_ree info t = true \/ ti_implements_ree info (TPointer t) = true).
Definition error_type (e : node) (et : errortype) : Prop :=
  exists t n, ti_type info (node_id e) = Some t /\ getNamedType t = Some n /\ fa_type fa !! n = Some et.

(** No value can be found for the code field [name] (number [pos]) in the expression: it is no composite literal, or one without
    keys that is too short. [at_] is where this is reported: the operand of the innermost &. *)
Inductive no_init (pos : nat) : nid -> node -> nid -> Prop :=
| ni_paren at_ id x r : no_init pos at_ x r -> no_init pos at_ (Node id KParen [x]) r
| ni_address at_ id x r : no_init pos (node_id x) x r -> no_init pos at_ (Node id (KUnary true) [x]) r
| ni_short at_ id e0 elts : as_keyvalue e0 = None -> (e0 :: elts) !! pos = None -> no_init pos at_ (Node id KComposite (e0 :: elts)) at_
| ni_other at_ e : (forall id x, e <> Node id KParen [x]) -> (forall id x, e <> Node id (KUnary true) [x]) ->
    (forall id elts, e <> Node id KComposite elts) -> no_init pos at_ e at_.

(** A value of an error type is created. *)
Inductive value_event (e : node) : event -> Prop :=
| ve_no_code : ~ coded e -> value_event e (says (node_id e) (str "expression does not define an error code"))
| ve_unknown : coded e -> (forall et, ~ error_type e et) ->
    value_event e (says (node_id e)
      (str "expression is not a valid error: error types must return constant error codes or a single field"))
| ve_no_init et name pos at_ : coded e -> error_type e et -> et_field et = Some (name, pos) -> no_init pos (node_id e) e at_ ->
    value_event e (says at_ (str "could not find initialiser for error code field in contructor expression"))
| ve_init et name pos v ev : coded e -> error_type e et -> et_field et = Some (name, pos) -> field_init name pos e v -> string_event v ev ->
    value_event e ev.

(** ** Functions as values *)

Definition package_selector (e : node) (sel : ident) (pkg : gostring) : Prop :=
  exists x t, as_selector e = Some (x, sel) /\ as_ident (unparen x) = Some t /\ ti_pkgname info (i_id t) = Some pkg.
Definition value_selector (e : node) (sel : ident) : Prop :=
  exists x, as_selector e = Some (x, sel) /\ (forall t, as_ident (unparen x) = Some t -> ti_pkgname info (i_id t) = None).

(** What goes wrong when the function named by [e] (an identifier or a selector) is looked up. *)
Inductive lookup_event (at_ : nid) (e : node) : event -> Prop :=
| lo_dot i : as_ident e = Some i -> i_obj i = None -> lk_functions lk !! i_name i = None ->
    lookup_event at_ e (says (i_id i) (str "function " ++ quoted (i_name i) ++ str " in dot-imported package does not declare error codes"))
| lo_package sel pkg : package_selector e sel pkg ->
    lookup_event at_ e (says (node_id e) (str "function " ++ quoted (i_name sel) ++ str " in package " ++ quoted pkg
      ++ str " does not declare error codes"))
| lo_unresolved sel : value_selector e sel -> ti_selection info (node_id e) = None -> lookup_event at_ e Crashed
| lo_method sel o recv : value_selector e sel -> ti_selection info (node_id e) = Some (o, recv) ->
    (forall g, ~ SpecLookup.method_among pk (default [] (lk_methods lk !! i_name sel)) recv (i_name sel) g) -> lookup_event at_ e (says at_ (str "called function does not declare error codes")).

(** The function value [e] is assigned to the variable [i], which is called. *)
Inductive function_value_event (i : ident) (e : node) : event -> Prop :=
| fe_constructor o p : is_name e -> value_object pk e = Some o -> fa_ctor fa !! o = Some p ->
    function_value_event i e (says (node_id e) (str "unsupported use of error constructor " ++ quoted (ti_objname info o)))
| fe_lookup ev : is_name e -> (forall s, ~ declares fa (value_object pk e) s) -> lookup_event (node_id e) e ev -> function_value_event i e ev
| fe_impossible j : (forall s, ~ declares fa (value_object pk e) s) -> function_variable pk e j ->
    function_value_event i e Crashed (* a constant or label as function value *)
| fe_unsupported : ~ is_name e -> as_funclit e = None ->
    function_value_event i e (says (node_id e) (str "unsupported: assignment to variable " ++ quoted (i_name i)
      ++ str " can only be an identifier or function literal")).

(** The variable [i] or one whose value it gets cannot be tracked. *)
Definition bad_source (param : option oid) (i j : ident) : Prop :=
  untrackable pk fn param j /\ (j = i \/ exists o, tracked pk fn param ∅ i o /\ assigned_var pk fn o j).

(** The variable [i] of function type is called. *)
Inductive variable_call_event (i : ident) : event -> Prop :=
| la_origin j : bad_source None i j -> variable_call_event i (says (i_id j)
    (match fn_decl fn with
     | Some _ => str "error returning function literal may not be a parameter, receiver or global variable"
     | None => str "error returning function literal may not be a parameter, global variable or other variables declared outside of the function body"
     end))
| la_several o d : tracked pk fn None ∅ i o -> assigned_several pk fn o d -> variable_call_event i (says (node_id (de_source d))
    (str "unsupported: assigning result of function call to variable " ++ quoted (i_name (de_target d)) ++ str " is not allowed"))
| la_value o e ev : tracked pk fn None ∅ i o -> assigned_expr pk fn o e -> function_value_event i (unparen e) ev -> variable_call_event i ev.

(** ** Calls *)
Inductive call_event (call f : node) (args : list node) : event -> Prop :=
| ce_constructor o p a ev : function_object pk f = Some o -> fa_ctor fa !! o = Some p -> args !! p = Some a -> string_event a ev ->
    call_event call f args ev
| ce_no_argument o p : function_object pk f = Some o -> fa_ctor fa !! o = Some p -> args !! p = None -> call_event call f args Crashed
| ce_conversion i o ev : (forall s, ~ declares fa (function_object pk f) s) ->
    (function_object pk f = None -> forall s, ~ conversion_codes pk fa f s) ->
    as_ident (unparen f) = Some i -> i_obj i = Some o -> ob_decl (obj_of pk o) = DType -> value_event call ev -> call_event call f args ev
| ce_variable i ev : (forall s, ~ declares fa (function_object pk f) s) ->
    (function_object pk f = None -> forall s, ~ conversion_codes pk fa f s) ->
    function_variable pk (unparen f) i -> variable_call_event i ev -> call_event call f args ev
| ce_lookup ev : (forall s, ~ declares fa (function_object pk f) s) ->
    (function_object pk f = None -> forall s, ~ conversion_codes pk fa f s) ->
    lookup_event (node_id f) (unparen f) ev -> call_event call f args ev
| ce_unnamed : (forall s, ~ declares fa (function_object pk f) s) ->
    (function_object pk f = None -> forall s, ~ conversion_codes pk fa f s) ->
    as_ident (unparen f) = None -> as_selector (unparen f) = None -> as_funclit (unparen f) = None ->
    call_event call f args (says (node_id (unparen f)) (str "invalid error source: definition of the unnamed function could not be found")).

(** ** Expressions *)

(** [e] (without parentheses around it) is no variable and its value is used as error. *)
Inductive source_event (e : node) : event -> Prop :=
| so_call f args ev : as_call e = Some (f, args) -> call_event e f args ev -> source_event e ev
| so_address x ev : address_of_error pk e x -> as_ident (unparen x) = None -> value_event e ev -> source_event e ev
| so_composite id elts ev : e = Node id KComposite elts -> value_event e ev -> source_event e ev
| so_literal id kids ev : e = Node id KBasicLit kids -> value_event e ev -> source_event e ev
| so_unary id b x : e = Node id (KUnary b) [x] -> ~ address_of_error pk e x ->
    source_event e (says id (str "expression *ast.UnaryExpr does not implement valid error type"))
| so_type_switch id kids : e = Node id (KTypeAssert None) kids ->
    source_event e (says id (str "type assertion switch is not supported in error code analysis"))
| so_type_assert id t kids : e = Node id (KTypeAssert (Some t)) kids ->
    source_event e (says id (str "type assertion is not supported in error code analysis"))
| so_index id kids : e = Node id KIndex kids -> source_event e (says id (str "expression is not supported in error code analysis"))
| so_other id k kids : e = Node id k kids ->
    match k with
    | KIdent _ _ | KCall | KComposite | KBasicLit | KTypeAssert _ | KIndex => False
    | KUnary _ => length kids <> 1 (* no such expression exists *)
    | KSelector => as_selector e = None (* no such expression exists *)
    | _ => True
    end -> source_event e (says id (str "expression " ++ type_name e ++ str " is not supported in error code analysis"))
| so_malformed id : e = Node id KCall [] (* no such expression exists *) -> source_event e Crashed.

Definition origin_message : gostring :=
  match fn_decl fn with
  | Some _ => str "returned error may not be a parameter, receiver or global variable"
  | None => str "returned error may not be a parameter, global variable or other variables declared outside of the function body"
  end.
(** The value of [e] is used as error. *)
Inductive expr_event (e : node) : event -> Prop :=
| xe_source ev : (forall i, ~ root pk e i) -> source_event (unparen e) ev -> expr_event e ev
| xe_origin i : root pk e i -> untrackable pk fn None i -> expr_event e (says (i_id i) origin_message).

(** [d]: one expression with several values is assigned; it is no type assertion. *)
Inductive several_event (d : destruct) : event -> Prop :=
| de_last f args ps rs v ev : as_call (unparen (de_source d)) = Some (f, args) -> ti_type info (node_id f) = Some (TSignature ps rs v) ->
    S (de_position d) = length rs -> call_event (unparen (de_source d)) f args ev -> several_event d ev
| de_not_last f args ps rs v : as_call (unparen (de_source d)) = Some (f, args) -> ti_type info (node_id f) = Some (TSignature ps rs v) ->
    S (de_position d) <> length rs -> several_event d (says (i_id (de_target d))
      (str "unsupported: tracking error codes for function call with error as non-last return argument"))
| de_no_signature f args : as_call (unparen (de_source d)) = Some (f, args) ->
    (forall ps rs v, ti_type info (node_id f) <> Some (TSignature ps rs v)) -> several_event d Crashed
| de_no_call : as_call (unparen (de_source d)) = None -> several_event d Crashed.

(** [o] is a variable the returned error may come from. *)
Inductive variable_event (o : oid) : event -> Prop :=
| va_expr e ev : linked pk fn o e -> expr_event e ev -> variable_event o ev
| va_several d ev : assigned_several pk fn o d -> (forall id t x, unparen (de_source d) <> Node id (KTypeAssert t) [x]) ->
    several_event d ev -> variable_event o ev
| va_origin j : assigned_var pk fn o j -> untrackable pk fn None j -> variable_event o (says (i_id j) origin_message).

(** ** Functions *)
Inductive return_event (stmt : node) : event -> Prop :=
| re_annotation q ds d : annotated (pk_comments pk (node_id stmt)) q ds -> d ∈ ds ->
    return_event stmt (says (node_id stmt) (annotation_error_text d))
| re_expr e ev : ~ overwritten pk stmt -> returned fn stmt e -> expr_event e ev -> return_event stmt ev
| re_nothing : ~ overwritten pk stmt -> (forall e, ~ returned fn stmt e) -> return_event stmt Crashed.

Inductive constructor_event : event -> Prop :=
| co_unnamed p : code_parameter pk fa fn p -> (forall i, parameters (fn_type fn) !! p <> Some (Some i)) -> constructor_event Crashed
| co_origin i j : constructor_param pk fa fn i -> bad_source (i_obj i) i j ->
    constructor_event (says (i_id j) (str "error code parameter may not be assigned an other parameter, receiver or global variable"))
| co_several i o d : constructor_param pk fa fn i -> tracked pk fn (i_obj i) ∅ i o -> assigned_several pk fn o d ->
    constructor_event (says (node_id (de_source d)) (str "unsupported: assigning result of function call to error code parameter "
      ++ quoted (i_name (de_target d)) ++ str " is not allowed"))
| co_value i o e ev : constructor_param pk fa fn i -> tracked pk fn (i_obj i) ∅ i o -> assigned_expr pk fn o e -> string_event e ev ->
    constructor_event ev.

(** Entry [k] of the left hand side assigns to field [f] of variable [o], which has error type [et]. *)
Definition field_target (o : oid) (lhs : list node) (k : nat) (f : gostring) (et : errortype) : Prop :=
  exists x xi sel i t n, lhs !! k = Some x /\ as_selector x = Some (xi, sel) /\ i_name sel = f /\ as_ident xi = Some i /\ i_obj i = Some o /\
    ti_type info (i_id i) = Some t /\ getNamedType t = Some n /\ fa_type fa !! n = Some et.
(** Assignments to fields of the variable [o] (not nested in another assignment). *)
Inductive field_event (o : oid) : event -> Prop :=
| fd_several body lhs rhs k et name pos r rs : fn_body fn = Some body -> outer_assignment body lhs rhs ->
    field_target o lhs k name et -> et_field et = Some (name, pos) -> length lhs <> length rhs -> rhs = r :: rs ->
    field_event o (says (node_id r) (str "error code has to be constant value or error code parameter"))
| fd_nothing body lhs k et name pos : fn_body fn = Some body -> outer_assignment body lhs [] ->
    field_target o lhs k name et -> et_field et = Some (name, pos) -> field_event o Crashed (* no such assignment exists *)
| fd_value body lhs rhs k et name pos r ev : fn_body fn = Some body -> outer_assignment body lhs rhs ->
    field_target o lhs k name et -> et_field et = Some (name, pos) -> length lhs = length rhs -> rhs !! k = Some r -> string_event r ev ->
    field_event o ev
| fd_twice body lhs rhs k k' f f' et et' : fn_body fn = Some body -> outer_assignment body lhs rhs ->
    field_target o lhs k f et -> field_target o lhs k' f' et' -> k <> k' -> et_field et = None -> field_event o Crashed.

(** Everything the analysis of the function reports, and whether it crashes. *)
Inductive function_event : event -> Prop :=
| fu_constructor ev : constructor_event ev -> function_event ev
| fu_return stmt ev : stmt ∈ return_stmts fn -> return_event stmt ev -> function_event ev
| fu_variable o ev : error_var pk fn o -> variable_event o ev -> function_event ev
| fu_field o ev : error_var pk fn o -> field_event o ev -> function_event ev.
End spec.
