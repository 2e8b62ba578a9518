(** * Specification: which codes an expression, a call, a function may produce, in terms of the syntax.

    No order of evaluation, no visited sets, no caches. [M g c] says that function [g] of the package may return
    code [c]. *)
From stdpp Require Import base list gmap.
From Verif Require SpecLookup.
From Verif Require Import GoString ErrorCode Scc CodeSet Annotation Constant GoAst Taint Analyse
  SpecCodes SpecTaint SpecAnnotation.

Section spec.
Context (pk : package) (lk : lookup_table) (fa : facts) (M : fid -> gostring -> Prop) (fn : func).
Notation info := (pk_info pk).

(** ** Constants and values *)

(** The expression is a constant that is usable as code. (Longer constants: see C34.) *)
Definition constant_code (e : node) (c : gostring) : Prop :=
  ti_value info (node_id e) = Some (CString c) /\ valid_code c /\ length c <= 70.

(** The expression initialising the field [name] (number [pos] of the struct) in a composite literal. *)
Inductive field_init (name : gostring) (pos : nat) : node -> node -> Prop :=
| fi_paren id x v : field_init name pos x v -> field_init name pos (Node id KParen [x]) v
| fi_address id x v : field_init name pos x v -> field_init name pos (Node id (KUnary true) [x]) v
| fi_key id before key v after kv :
    (forall e, e ∈ before -> exists k i v', as_keyvalue e = Some (k, v') /\ as_ident k = Some i /\ i_name i <> name) ->
    as_keyvalue kv = Some (key, v) -> (exists i, as_ident key = Some i /\ i_name i = name) ->
    field_init name pos (Node id KComposite (before ++ kv :: after)) v
| fi_position id elts e0 v : elts !! 0 = Some e0 -> as_keyvalue e0 = None -> elts !! pos = Some v ->
    field_init name pos (Node id KComposite elts) v.

(** Creating a value of an error type. *)
Definition value_code (e : node) (c : gostring) : Prop :=
  exists t n et, ti_type info (node_id e) = Some t /\
    (ti_implements_ree info t = true \/ ti_implements_ree info (TPointer t) = true) /\
    getNamedType t = Some n /\ fa_type fa !! n = Some et /\
    (c ∈ et_codes et \/ exists name pos v, et_field et = Some (name, pos) /\ field_init name pos e v /\ constant_code v c).

(** ** Calls *)

(** The object a function value refers to. *)
Definition value_object (e : node) : option tobj :=
  match as_ident e with
  | Some i => ti_uses info (i_id i)
  | None => match as_selector e with
            | Some (_, sel) => match ti_selection info (node_id e) with Some (o, _) => Some o | None => ti_uses info (i_id sel) end
            | None => None
            end
  end.
(** The object of a called function (none for a conversion and for a call of a function literal). *)
Definition function_object (f : node) : option tobj :=
  match value_object (unparen f) with
  | Some o => if ti_is_typename info o then None else Some o
  | None => None
  end.

Definition declares (cal : option tobj) (s : codeset) : Prop := exists o, cal = Some o /\ fa_codes fa !! o = Some s.
(** A conversion T(x) to an error type with constant codes. *)
Definition conversion_codes (f : node) (s : codeset) : Prop :=
  exists t n et, ti_type info (node_id f) = Some t /\ getNamedType t = Some n /\ fa_type fa !! n = Some et /\
    et_codes et = s /\ s <> ∅.

(** The function of this package that the expression denotes. *)
Inductive denotes : node -> fid -> Prop :=
| den_name id name kids g : lk_functions lk !! name = Some g -> denotes (Node id (KIdent name None) kids) g
| den_func id name o kids g : ob_decl (obj_of pk o) = DFunc g -> denotes (Node id (KIdent name (Some o)) kids) g
| den_method e x sel o recv g : as_selector e = Some (x, sel) ->
    (forall t, as_ident (unparen x) = Some t -> ti_pkgname info (i_id t) = None) ->
    ti_selection info (node_id e) = Some (o, recv) -> SpecLookup.method_among pk (default [] (lk_methods lk !! i_name sel)) recv (i_name sel) g -> denotes e g
| den_literal id g kids : denotes (Node id (KFuncLit g) kids) g.

(** A local variable of function type. *)
Definition function_variable (e : node) (i : ident) : Prop :=
  as_ident e = Some i /\ exists o, i_obj i = Some o /\ (forall g, ob_decl (obj_of pk o) <> DFunc g) /\ ob_decl (obj_of pk o) <> DType.

(** The method call `x.m(...)` (on a value, not on a package). *)
Definition method_call (e : node) : Prop :=
  exists x sel, as_selector e = Some (x, sel) /\ (forall t, as_ident (unparen x) = Some t -> ti_pkgname info (i_id t) = None) /\
    ti_selection info (node_id e) <> None.

Definition is_name (e : node) : Prop := as_ident e <> None \/ as_selector e <> None.

(** A function value (not called) may return [c] when called. *)
Inductive function_value (e : node) (c : gostring) : Prop :=
| fv_literal id g kids : e = Node id (KFuncLit g) kids -> M g c -> function_value e c
| fv_declared s : is_name e -> declares (value_object e) s -> c ∈ s -> function_value e c
| fv_package g : is_name e -> (forall s, ~ declares (value_object e) s) -> denotes e g -> M g c -> function_value e c.

(** The call [call] of [f] with arguments [args] may result in [c]. *)
Inductive call_code (call f : node) (args : list node) (c : gostring) : Prop :=
| cc_declared s : declares (function_object f) s -> c ∈ s -> call_code call f args c
| cc_constructor o p a : function_object f = Some o -> fa_ctor fa !! o = Some p -> args !! p = Some a ->
    constant_code a c -> ((exists s, declares (function_object f) s) \/ (exists g, denotes (unparen f) g) \/ method_call (unparen f)) ->
    call_code call f args c
| cc_conversion s : function_object f = None -> conversion_codes f s -> c ∈ s -> call_code call f args c
| cc_conversion_value i o : (forall s, ~ declares (function_object f) s) ->
    (function_object f = None -> forall s, ~ conversion_codes f s) ->
    as_ident (unparen f) = Some i -> i_obj i = Some o -> ob_decl (obj_of pk o) = DType -> value_code call c ->
    call_code call f args c
| cc_package g : (forall s, ~ declares (function_object f) s) ->
    (function_object f = None -> forall s, ~ conversion_codes f s) ->
    denotes (unparen f) g -> M g c -> call_code call f args c
| cc_variable i o e : (forall s, ~ declares (function_object f) s) ->
    (function_object f = None -> forall s, ~ conversion_codes f s) ->
    function_variable (unparen f) i -> tracked pk fn None ∅ i o -> assigned_expr pk fn o e -> function_value (unparen e) c ->
    call_code call f args c.

(** ** Expressions *)

Definition address_of_error (e x : node) : Prop :=
  exists id, e = Node id (KUnary true) [x] /\ exists t, ti_type info id = Some t /\ ti_implements_error info t = true.

(** The variable whose value the expression is (or is the address of). *)
Inductive root : node -> ident -> Prop :=
| root_var e i : as_ident (unparen e) = Some i -> root e i
| root_address e x i : address_of_error (unparen e) x -> as_ident (unparen x) = Some i -> root e i
| root_selector e x i : as_selector (unparen e) = Some (x, i) -> root e i.

(** Expressions that are a source of codes by themselves. *)
Inductive direct_code (e : node) (c : gostring) : Prop :=
| dc_call f args : as_call (unparen e) = Some (f, args) -> call_code (unparen e) f args c -> direct_code e c
| dc_address x : address_of_error (unparen e) x -> as_ident (unparen x) = None -> value_code (unparen e) c -> direct_code e c
| dc_composite id elts : unparen e = Node id KComposite elts -> value_code (unparen e) c -> direct_code e c
| dc_literal id kids : unparen e = Node id KBasicLit kids -> value_code (unparen e) c -> direct_code e c.

(** The value of [o] may be that of expression [e] (assigned as it is, or by `o, ok = x.(T)`). *)
Definition linked (o : oid) (e : node) : Prop :=
  assigned_expr pk fn o e \/
  exists d id t, assigned_several pk fn o d /\ unparen (de_source d) = Node id (KTypeAssert t) [e].

(** The local variables the value of [e] may come from. *)
Inductive expr_var (e : node) : oid -> Prop :=
| ev_root i o : root e i -> tracked pk fn None ∅ i o -> expr_var e o
| ev_link o e' i o' : expr_var e o -> linked o e' -> root e' i -> tracked pk fn None ∅ i o' -> expr_var e o'.

(** A call with several results, the last of which is assigned to [o]. *)
Definition several_code (o : oid) (c : gostring) : Prop :=
  exists d f args ps rs v, assigned_several pk fn o d /\ as_call (unparen (de_source d)) = Some (f, args) /\
    ti_type info (node_id f) = Some (TSignature ps rs v) /\ S (de_position d) = length rs /\
    call_code (unparen (de_source d)) f args c.

Inductive expr_code (e : node) (c : gostring) : Prop :=
| ec_direct : direct_code e c -> expr_code e c
| ec_var o e' : expr_var e o -> linked o e' -> direct_code e' c -> expr_code e c
| ec_several o : expr_var e o -> several_code o c -> expr_code e c.

(** ** Functions *)

(** The expression returned: the last result, or the last named result. *)
Inductive returned (stmt : node) : node -> Prop :=
| ret_last e : last (node_kids stmt) = Some e -> returned stmt e
| ret_named fields fl i : node_kids stmt = [] -> ft_results (fn_type fn) = Some fields -> last fields = Some fl ->
    last (f_names fl) = Some i -> returned stmt (Node (i_id i) (KIdent (i_name i) (i_obj i)) []).

(** What the comments at a return statement ask for. *)
Definition annotation_is (stmt : node) (q : option request) : Prop := exists ds, annotated (pk_comments pk (node_id stmt)) q ds.
Definition overwritten (stmt : node) : Prop := exists cs, annotation_is stmt (Some (Overwrite cs)).

(** The return statements of the function itself (not of the function literals in it). *)
Fixpoint own_nodes (n : node) : list node :=
  let 'Node _ k kids := n in
  n :: match k with KFuncLit _ | KReturn => [] | _ => flat_map own_nodes kids end.
Definition is_return (n : node) : bool := match node_kind n with KReturn => true | _ => false end.
Definition return_stmts : list node := match fn_body fn with Some b => List.filter is_return (own_nodes b) | None => [] end.

Inductive return_code (stmt : node) (c : gostring) : Prop :=
| rc_plain e : annotation_is stmt None -> returned stmt e -> expr_code e c -> return_code stmt c
| rc_overwrite cs : annotation_is stmt (Some (Overwrite cs)) -> c ∈ cs -> return_code stmt c
| rc_add add sub : annotation_is stmt (Some (Modify add sub)) -> c ∈ add -> return_code stmt c
| rc_keep add sub e : annotation_is stmt (Some (Modify add sub)) -> returned stmt e -> expr_code e c ->
    c ∉ sub -> return_code stmt c.

(** The local variables an error returned by the function may come from. *)
Definition error_var (o : oid) : Prop :=
  exists stmt e, stmt ∈ return_stmts /\ ~ overwritten stmt /\ returned stmt e /\ expr_var e o.

(** The assignments in [n] that are not part of another assignment. *)
Inductive outer_assignment : node -> list node -> list node -> Prop :=
| outer_here n lhs rhs : as_assign n = Some (lhs, rhs) -> outer_assignment n lhs rhs
| outer_below n m lhs rhs : as_assign n = None -> m ∈ node_kids n -> outer_assignment m lhs rhs -> outer_assignment n lhs rhs.
(** A constant is assigned to the code field of variable [o], in an assignment (not nested in another one). *)
Definition field_assigned (o : oid) (c : gostring) : Prop :=
  exists body lhs rhs k x sel xi t n et fname fpos r,
    fn_body fn = Some body /\ outer_assignment body lhs rhs /\ length lhs = length rhs /\
    lhs !! k = Some x /\ as_selector x = Some (xi, sel) /\
    (exists i, as_ident xi = Some i /\ i_obj i = Some o /\ ti_type info (i_id i) = Some t) /\
    getNamedType t = Some n /\ fa_type fa !! n = Some et /\ et_field et = Some (fname, fpos) /\ i_name sel = fname /\
    rhs !! k = Some r /\ constant_code r c.

(** The parameters of a function, in order; an unnamed one is [None]. *)
Definition parameters (ft : functype) : list (option ident) :=
  flat_map (fun f => match f_names f with [] => [None] | names => map Some names end) (ft_params ft).
(** The function is an error constructor whose parameter number [p] is the error code. *)
Definition code_parameter (p : nat) : Prop :=
  exists d o, fn_decl fn = Some d /\ ti_defs info (i_id (dc_name d)) = Some o /\ fa_ctor fa !! o = Some p.
(** The error code parameter of an error constructor. *)
Definition constructor_param (i : ident) : Prop :=
  exists p, code_parameter p /\ parameters (fn_type fn) !! p = Some (Some i).

Inductive own_code (c : gostring) : Prop :=
| oc_return stmt : stmt ∈ return_stmts -> return_code stmt c -> own_code c
| oc_parameter i o e : constructor_param i -> tracked pk fn (i_obj i) ∅ i o -> assigned_expr pk fn o e -> constant_code e c -> own_code c
| oc_field o : error_var o -> field_assigned o c -> own_code c.
End spec.
