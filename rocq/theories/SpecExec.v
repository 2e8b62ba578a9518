(** * Specification: executions of a program, as far as error codes are concerned.

    A big-step semantics of the Go functions of a package, independent of how the analyzer works.  Control flow is
    left open: at any point of the execution of a function any assignment in its body (those in function literals
    included) may be executed next, so every order of execution that conditions, loops, jumps, deferred calls,
    closures and goroutines can produce is covered.  Error values live in memory: pointers to them can be shared,
    the code field of one can be assigned to, and variables of a struct type are updated in place and copied.

    What is left open: how the functions with declared codes ([fa_codes], i.e. those of imported packages, and the methods of error
    interfaces) behave; this is the parameter [ext], see [honest].  What is trusted: annotated return statements return what
    the annotation says; nobody else changes the code of an error that is created here, or was returned from elsewhere.

    [pk] is the package, [lk] the functions in it by name, [fa] the facts known about imported packages and types. *)
From Coq Require Import Ascii String.
From stdpp Require Import base list gmap.
From Verif Require Import GoString ErrorCode Scc CodeSet Annotation Constant GoAst Taint Analyse
  SpecCodes SpecAnnotation SpecTaint SpecMay SpecEvents.

(** ** Values *)
Inductive value :=
| VNil
| VErr (a : N)              (* an error; its codes are in memory *)
| VStr (s : gostring)
| VFun (e : node)           (* a function: the expression that denotes it *)
| VOther.                   (* anything else *)

(** An error: the constants its Code method may return, and the content of its code field (empty if there is none). *)
Record cell := Cell { ce_consts : codeset; ce_field : gostring }.
Notation heap := (gmap N cell).
Definition env := oid -> value.
Definition set_var (en : env) (o : oid) (v : value) : env := fun p => if decide (p = o) then v else en p.

(** The value is an error that has (or, depending on the Code method, may have) the code [c].  The empty string is no code. *)
Definition has_code (h : heap) (v : value) (c : gostring) : Prop :=
  exists a cl, v = VErr a /\ h !! a = Some cl /\ (c ∈ ce_consts cl \/ c = ce_field cl) /\ c <> [].

(** A new error. *)
Inductive made (h : heap) (cl : cell) : heap -> value -> Prop :=
| made_intro a : h !! a = None -> made h cl (<[a := cl]> h) (VErr a).
(** Some value, about which nothing is known: nil, a string, an error made before, an error made elsewhere ... *)
Definition unknown (h h' : heap) (v : value) : Prop := h ⊆ h' /\ forall a, v = VErr a -> is_Some (h' !! a).
(** Nothing that existed is changed, and if the value is an error, then a new one, with codes [P] only.  (An error that existed before and
    that nobody changes any more is represented by a copy.) *)
Definition promised (h : heap) (P : gostring -> Prop) (h' : heap) (v : value) : Prop :=
  h ⊆ h' /\ forall a, v = VErr a -> h !! a = None /\ is_Some (h' !! a) /\ forall c, has_code h' v c -> P c.

(** How functions outside of the package behave: [ext o h vals h' v] says that the call of the function (or interface method) [o] with
    parameters [vals] and memory [h] may have the result [v] and leave the memory [h']. *)
Definition behaviour : Type := tobj -> heap -> list value -> heap -> value -> Prop.
(** They return only the codes they declare, and those that are passed to an error constructor as error code. *)
Definition as_declared (fa : facts) (o : tobj) (s : codeset) (vals : list value) (c : gostring) : Prop :=
  c ∈ s \/ exists p, fa_ctor fa !! o = Some p /\ vals !! p = Some (VStr c).
Definition honest (fa : facts) (ext : behaviour) : Prop :=
  forall o s h vals h' v, fa_codes fa !! o = Some s -> ext o h vals h' v -> promised h (as_declared fa o s vals) h' v.

(** For programs in which none of them is called. *)
Definition nobody : behaviour := fun _ _ _ _ _ => False.
Lemma nobody_honest fa : honest fa nobody.
Proof. by intros o s h vals h' v _ ?. Qed.

(** The identifier as an expression. *)
Definition ident_node (i : ident) : node := Node (i_id i) (KIdent (i_name i) (i_obj i)) [].

Section spec.
Context (pk : package) (lk : lookup_table) (fa : facts).
Notation info := (pk_info pk).

(** ** Variables *)

(** The occurrences of variables in a function. *)
Inductive mentions (fn : func) (i : ident) : Prop :=
| me_body n : n ∈ body_nodes fn -> as_ident n = Some i -> mentions fn i
| me_declared id names t values : Node id (KValueSpec names t) values ∈ body_nodes fn -> i ∈ names -> mentions fn i
| me_result fields fl : ft_results (fn_type fn) = Some fields -> fl ∈ fields -> i ∈ f_names fl -> mentions fn i.
(** The expression has a struct (or string, ...) type that is an error type, not a pointer or interface type. *)
Definition struct_typed (n : nid) (et : errortype) : Prop :=
  exists t, ti_type info n = Some (TNamed t) /\ fa_type fa !! t = Some et.
Definition struct_var (fn : func) (o : oid) : Prop :=
  exists i et, mentions fn i /\ i_obj i = Some o /\ struct_typed (i_id i) et.
(** The variable is declared without a value: it starts with the zero value of its type. *)
Definition zero_declared (fn : func) (o : oid) (et : errortype) : Prop :=
  exists i, i_obj i = Some o /\ struct_typed (i_id i) et /\
    ((exists id names t, Node id (KValueSpec names t) [] ∈ body_nodes fn /\ i ∈ names) \/
     (exists fields fl, ft_results (fn_type fn) = Some fields /\ fl ∈ fields /\ i ∈ f_names fl)).
(** The address of the variable is taken (and it is no error itself, but a pointer, an interface, a string ...). *)
Definition exposed (fn : func) (o : oid) : Prop :=
  ~ struct_var fn o /\ exists id x i, Node id (KUnary true) [x] ∈ body_nodes fn /\ as_ident (unparen x) = Some i /\ i_obj i = Some o.
(** Variables others may change while the function is executed: those declared outside of it, the parameters of the
    function literals in it, and those whose address is taken. *)
Definition outside (fn : func) (o : oid) : Prop :=
  literal_param pk fn o \/
  (~ declared_inside pk fn o /\ forall p i, parameters (fn_type fn) !! p = Some (Some i) -> i_obj i <> Some o) \/
  exposed fn o.

(** ** Strings *)

(** The string that the expression evaluates to: its constant value, or that of the variable; otherwise unknown. *)
Inductive string_val (en : env) (e : node) : gostring -> Prop :=
| sv_const s : ti_value info (node_id e) = Some (CString s) -> string_val en e s
| sv_var i o s : ti_value info (node_id e) = None -> as_ident (unparen e) = Some i -> i_obj i = Some o -> en o = VStr s ->
    string_val en e s
| sv_unknown s : ti_value info (node_id e) = None -> (forall i o, as_ident (unparen e) = Some i -> i_obj i <> Some o) ->
    string_val en e s.

(** ** New errors *)

(** A composite literal, or the address of one. *)
Inductive composite : node -> Prop :=
| cp_here id elts : composite (Node id KComposite elts)
| cp_paren id x : composite x -> composite (Node id KParen [x])
| cp_address id x : composite x -> composite (Node id (KUnary true) [x]).
(** The expression is no variable, and its value is of a type named in it. *)
Inductive creates : node -> Prop :=
| cr_composite id elts : creates (Node id KComposite elts)
| cr_literal id kids : creates (Node id KBasicLit kids)
| cr_address id x : as_ident (unparen x) = None -> creates (Node id (KUnary true) [x]).
(** The content of the code field of the error that is created by [e]: as initialised there; otherwise empty. *)
Definition field_content (en : env) (e : node) (et : errortype) (s : gostring) : Prop :=
  match et_field et with
  | None => s = []
  | Some (name, pos) => (exists v, field_init name pos e v /\ string_val en v s) \/ (s = [] /\ forall v, ~ field_init name pos e v)
  end.

(** The value of the expression (of no constant) is unknown. *)
Inductive opaque (e : node) : Prop :=
| op_unary id x : e = Node id (KUnary false) [x] -> opaque e
| op_address id x i : e = Node id (KUnary true) [x] -> as_ident (unparen x) = Some i -> i_obj i = None -> i_name i <> str "nil" -> opaque e
| op_type : creates e -> (forall et, ~ error_type pk fa e et) -> opaque e
| op_element et : creates e -> error_type pk fa e et -> et_field et <> None -> ~ composite e -> opaque e
| op_other id k kids : e = Node id k kids ->
    match k with
    | KIdent _ _ | KParen | KSelector | KCall | KUnary _ | KComposite | KBasicLit | KFuncLit _ => False
    | _ => True
    end -> opaque e.

(** The identifier denotes a variable or constant (no function, no type). *)
Definition names_value (e : node) (i : ident) (o : oid) : Prop :=
  as_ident e = Some i /\ i_obj i = Some o /\ (forall g, ob_decl (obj_of pk o) <> DFunc g) /\ ob_decl (obj_of pk o) <> DType.
(** The expression denotes a function, if anything of function type. *)
Definition names_function (e : node) : Prop :=
  (exists g, as_funclit e = Some g) \/ as_selector e <> None \/
  exists i, as_ident e = Some i /\ forall o, i_obj i = Some o -> ob_is_var (obj_of pk o) = false /\ exists g, ob_decl (obj_of pk o) = DFunc g.
Definition no_function (v : value) : Prop := match v with VFun _ | VOther => False | _ => True end.

(** ** Assignments *)

(** The code field of the error [x] is assigned to. *)
Definition code_field (l x : node) : Prop :=
  exists sel et pos, as_selector (unparen l) = Some (x, sel) /\ error_type pk fa x et /\ et_field et = Some (i_name sel, pos).
(** A field of some other type that is called like a code field is assigned to: it may be that of an embedded error. *)
Definition promoted_field (l : node) : Prop :=
  exists x sel t et pos, as_selector (unparen l) = Some (x, sel) /\ fa_type fa !! t = Some et /\ et_field et = Some (i_name sel, pos) /\
    ~ code_field l x.
(** The address of a code field is taken. *)
Definition field_exposed (fn : func) : Prop :=
  exists id l, Node id (KUnary true) [l] ∈ body_nodes fn /\ ((exists x, code_field l x) \/ promoted_field l).

(** The value [v] is assigned to [l]; [en0] are the variables at the beginning of the assignment.  A variable of a struct
    type gets a copy: in place or, if it is declared by the assignment, in memory of its own. *)
Inductive store (fn : func) (en0 : env) (l : node) (v : value) (en : env) (h : heap) : env -> heap -> Prop :=
| st_var i o : as_ident (unparen l) = Some i -> i_obj i = Some o -> (struct_var fn o -> forall a, v <> VErr a) ->
    store fn en0 l v en h (set_var en o v) h
| st_struct i o b cl h' v' : as_ident (unparen l) = Some i -> i_obj i = Some o -> struct_var fn o ->
    v = VErr b -> h !! b = Some cl -> made h cl h' v' -> store fn en0 l v en h (set_var en o v') h'
| st_in_place i o b cl a : as_ident (unparen l) = Some i -> i_obj i = Some o -> struct_var fn o ->
    v = VErr b -> h !! b = Some cl -> en0 o = VErr a -> is_Some (h !! a) -> store fn en0 l v en h en (<[a := cl]> h)
| st_blank i : as_ident (unparen l) = Some i -> i_obj i = None -> store fn en0 l v en h en h
| st_field x i o a cl s : code_field l x -> as_ident (unparen x) = Some i -> i_obj i = Some o -> en0 o = VErr a ->
    h !! a = Some cl -> v = VStr s -> store fn en0 l v en h en (<[a := Cell (ce_consts cl) s]> h)
| st_some_field x a cl s : code_field l x -> (forall i o, as_ident (unparen x) = Some i -> i_obj i <> Some o) ->
    h !! a = Some cl -> store fn en0 l v en h en (<[a := Cell (ce_consts cl) s]> h)
| st_some_place et b cl a : as_ident (unparen l) = None -> struct_typed (node_id l) et -> v = VErr b -> h !! b = Some cl ->
    is_Some (h !! a) -> store fn en0 l v en h en (<[a := cl]> h)
| st_elsewhere : as_ident (unparen l) = None -> (forall x, ~ code_field l x) -> (forall et, ~ struct_typed (node_id l) et) ->
    store fn en0 l v en h en h
| st_promoted a cl s : promoted_field l -> h !! a = Some cl -> store fn en0 l v en h en (<[a := Cell (ce_consts cl) s]> h).
Inductive stores (fn : func) (en0 : env) : list node -> list value -> env -> heap -> env -> heap -> Prop :=
| ss_nil vs en h : stores fn en0 [] vs en h en h
| ss_cons l ls v vs en h en1 h1 en2 h2 : store fn en0 l v en h en1 h1 -> stores fn en0 ls vs en1 h1 en2 h2 ->
    stores fn en0 (l :: ls) (v :: vs) en h en2 h2.

(** The assignments and the declarations with values of the function: left and right hand sides. *)
Inductive writes (fn : func) : list node -> list node -> Prop :=
| wr_assign n lhs rhs : n ∈ body_nodes fn -> as_assign n = Some (lhs, rhs) -> ti_compound info (node_id n) = false -> writes fn lhs rhs
| wr_declare id names t values : Node id (KValueSpec names t) values ∈ body_nodes fn -> values <> [] ->
    writes fn (ident_node <$> names) values.
(** The key and value of a range clause; the targets of compound assignments (`x += y`). *)
Inductive open_targets (fn : func) : list node -> Prop :=
| ot_range id k v kids : Node id (KRange k v) kids ∈ body_nodes fn -> open_targets fn (take ((if k then 1 else 0) + (if v then 1 else 0)) kids)
| ot_compound n lhs rhs : n ∈ body_nodes fn -> as_assign n = Some (lhs, rhs) -> ti_compound info (node_id n) = true -> open_targets fn lhs.

(** ** Execution *)

(** What is passed for the parameters: strings are those of the arguments. *)
Definition passed (en : env) (args : list node) (vals : list value) : Prop :=
  forall p a s, args !! p = Some a -> vals !! p = Some (VStr s) -> string_val en a s.
(** The call is none of a function with declared codes and no conversion to a type with constant codes. *)
Definition plain_call (f : node) : Prop :=
  (forall s, ~ declares fa (function_object pk f) s) /\ (function_object pk f = None -> forall s, ~ conversion_codes pk fa f s).
(** The variables at the beginning: no local variable has a value yet, the parameters are [vals]. *)
Definition starts (fn : func) (h : heap) (vals : list value) (en : env) : Prop :=
  (forall o a, en o = VErr a -> is_Some (h !! a)) /\
  (forall o, declared_inside pk fn o -> ~ literal_param pk fn o -> en o = VNil) /\
  (forall p i o, parameters (fn_type fn) !! p = Some (Some i) -> i_obj i = Some o -> vals !! p = Some (en o)).

(** The function has a deferred call, and its last result has the name [o]. *)
Definition defers (fn : func) : Prop := exists id kids, Node id (KOther (str "*ast.DeferStmt")) kids ∈ body_nodes fn.
Definition named_result (fn : func) (o : oid) : Prop :=
  exists fields fl i, ft_results (fn_type fn) = Some fields /\ last fields = Some fl /\ last (f_names fl) = Some i /\ i_obj i = Some o.

Context (ext : behaviour).
(** [eval fn en h e h' v]: in function [fn], with variables [en] and memory [h], the expression [e] has value [v] (of a call:
    the last result); [h'] is the memory afterwards. *)
Inductive eval : func -> env -> heap -> node -> heap -> value -> Prop :=
| ev_nil fn en h e i : as_ident (unparen e) = Some i -> i_obj i = None -> i_name i = str "nil" -> eval fn en h e h VNil
| ev_var fn en h e i o : names_value (unparen e) i o -> (ob_is_var (obj_of pk o) = false -> exists a, en o = VErr a) ->
    (struct_var fn o -> forall a, en o <> VErr a) -> eval fn en h e h (en o)
| ev_copy fn en h e i o a cl h' v : names_value (unparen e) i o -> struct_var fn o -> en o = VErr a -> h !! a = Some cl ->
    made h cl h' v -> eval fn en h e h' v
| ev_address fn en h e id x i o : ti_value info (node_id e) = None -> unparen e = Node id (KUnary true) [x] -> names_value (unparen x) i o -> eval fn en h e h (en o)
| ev_new fn en h e et s h' v : creates (unparen e) -> error_type pk fa (unparen e) et ->
    (composite (unparen e) \/ et_field et = None) -> field_content en (unparen e) et s ->
    made h (Cell (et_codes et) s) h' v -> eval fn en h e h' v
| ev_string fn en h e s : string_val en e s -> eval fn en h e h (VStr s)
| ev_function fn en h e : names_function (unparen e) -> eval fn en h e h (VFun (unparen e))
| ev_name fn en h e h' v : ti_value info (node_id e) = None ->
    (as_selector (unparen e) <> None \/ exists i, as_ident (unparen e) = Some i /\ i_obj i = None /\ i_name i <> str "nil") ->
    no_function v -> unknown h h' v -> eval fn en h e h' v
| ev_opaque fn en h e h' v : ti_value info (node_id e) = None -> opaque (unparen e) -> unknown h h' v -> eval fn en h e h' v
  (* conversions *)
| ev_conversion fn en h e f args et s h' v : as_call (unparen e) = Some (f, args) -> function_object pk f = None ->
    error_type pk fa f et -> (et_field et = None -> s = []) -> made h (Cell (et_codes et) s) h' v -> eval fn en h e h' v
  (* calls *)
| ev_declared fn en h e f args o s vals h' v : ti_value info (node_id e) = None -> as_call (unparen e) = Some (f, args) ->
    function_object pk f = Some o -> fa_codes fa !! o = Some s -> passed en args vals -> ext o h vals h' v -> eval fn en h e h' v
| ev_call fn en h e f args g vals h' v : ti_value info (node_id e) = None -> as_call (unparen e) = Some (f, args) -> plain_call f ->
    denotes pk lk (unparen f) g -> passed en args vals -> exec h g vals h' v -> eval fn en h e h' v
| ev_call_variable fn en h e f args i o e' h' v : ti_value info (node_id e) = None -> as_call (unparen e) = Some (f, args) -> plain_call f ->
    names_value (unparen f) i o -> en o = VFun e' -> apply h e' h' v -> eval fn en h e h' v
| ev_call_unknown fn en h e f args i o h' v : ti_value info (node_id e) = None -> as_call (unparen e) = Some (f, args) -> plain_call f ->
    names_value (unparen f) i o -> en o = VOther -> unknown h h' v -> eval fn en h e h' v
| ev_call_unresolved fn en h e f args h' v : ti_value info (node_id e) = None -> as_call (unparen e) = Some (f, args) -> plain_call f ->
    (forall et, function_object pk f = None -> ~ error_type pk fa f et) ->
    (forall g, ~ denotes pk lk (unparen f) g) -> (forall i o, ~ names_value (unparen f) i o) -> unknown h h' v -> eval fn en h e h' v
(** The function value [e] is called. *)
with apply : heap -> node -> heap -> value -> Prop :=
| ap_declared h e o s vals h' v : value_object pk e = Some o -> fa_codes fa !! o = Some s -> ext o h vals h' v -> apply h e h' v
| ap_package h e g vals h' v : (forall s, ~ declares fa (value_object pk e) s) -> denotes pk lk e g -> exec h g vals h' v -> apply h e h' v
| ap_unresolved h e h' v : (forall s, ~ declares fa (value_object pk e) s) -> (forall g, ~ denotes pk lk e g) -> unknown h h' v -> apply h e h' v
with evals : func -> env -> heap -> list node -> heap -> list value -> Prop :=
| es_nil fn en h : evals fn en h [] h []
| es_cons fn en h e es h1 v h2 vs : eval fn en h e h1 v -> evals fn en h1 es h2 vs -> evals fn en h (e :: es) h2 (v :: vs)
(** The values of an expression with several values.  Of the results of a call only the last one is an error of interest. *)
with several : func -> env -> heap -> node -> heap -> list value -> Prop :=
| sv_call fn en h r f args ps rs b h1 v h2 vs : as_call (unparen r) = Some (f, args) -> ti_type info (node_id f) = Some (TSignature ps rs b) ->
    eval fn en h r h1 v -> h1 ⊆ h2 -> (forall k w, vs !! k = Some w -> S k = length rs -> w = v) ->
    (forall k w a, vs !! k = Some w -> w = VErr a -> is_Some (h2 !! a)) -> several fn en h r h2 vs
| sv_assert fn en h r id t x h1 v : unparen r = Node id (KTypeAssert t) [x] -> eval fn en h x h1 v ->
    several fn en h r h1 [v; VOther]
| sv_assert_zero fn en h r id t x et h1 v : unparen r = Node id (KTypeAssert (Some t)) [x] -> struct_typed t et ->
    made h (Cell (et_codes et) []) h1 v -> several fn en h r h1 [v; VOther]
| sv_assert_nil fn en h r id t x : unparen r = Node id (KTypeAssert t) [x] -> several fn en h r h [VNil; VOther]
| sv_others fn en h r h1 vs : (forall id t x, unparen r <> Node id (KTypeAssert t) [x]) ->
    (forall f args ps rs b, as_call (unparen r) = Some (f, args) -> ti_type info (node_id f) <> Some (TSignature ps rs b)) ->
    h ⊆ h1 -> (forall k w a, vs !! k = Some w -> w = VErr a -> is_Some (h1 !! a)) -> several fn en h r h1 vs
(** [reached fn h0 vals en h]: the call of [fn] with parameters [vals] and memory [h0] may come to the point where the variables
    are [en] and the memory is [h]. *)
with reached : func -> heap -> list value -> env -> heap -> Prop :=
| re_start fn h0 vals en : starts fn h0 vals en -> reached fn h0 vals en h0
| re_assign fn h0 vals en h lhs rhs h1 vs en' h' : reached fn h0 vals en h -> writes fn lhs rhs -> length lhs = length rhs ->
    evals fn en h rhs h1 vs -> stores fn en lhs vs en h1 en' h' -> reached fn h0 vals en' h'
| re_several fn h0 vals en h lhs rhs r h1 vs en' h' : reached fn h0 vals en h -> writes fn lhs rhs -> length lhs <> length rhs ->
    rhs !! 0 = Some r -> several fn en h r h1 vs -> stores fn en lhs vs en h1 en' h' -> reached fn h0 vals en' h'
| re_open fn h0 vals en h lhs h1 vs en' h' : reached fn h0 vals en h -> open_targets fn lhs -> h ⊆ h1 ->
    (forall k w a, vs !! k = Some w -> w = VErr a -> is_Some (h1 !! a)) -> stores fn en lhs vs en h1 en' h' -> reached fn h0 vals en' h'
| re_zero fn h0 vals en h o et h' v : reached fn h0 vals en h -> zero_declared fn o et -> made h (Cell (et_codes et) []) h' v ->
    reached fn h0 vals (set_var en o v) h'
| re_outside fn h0 vals en h o h' v : reached fn h0 vals en h -> outside fn o -> unknown h h' v -> reached fn h0 vals (set_var en o v) h'
  (* a return statement sets the named result, and deferred calls may change it afterwards *)
| re_return fn h0 vals en h o stmt e h' v : reached fn h0 vals en h -> defers fn -> named_result fn o ->
    stmt ∈ return_stmts fn -> returned fn stmt e -> eval fn en h e h' v -> reached fn h0 vals (set_var en o v) h'
  (* expressions that are evaluated for their effects *)
| re_eval fn h0 vals en h e h' v : reached fn h0 vals en h -> e ∈ body_nodes fn -> eval fn en h e h' v -> reached fn h0 vals en h'
  (* a code field is changed through a pointer to it *)
| re_field fn h0 vals en h a cl s : reached fn h0 vals en h -> field_exposed fn -> h !! a = Some cl ->
    reached fn h0 vals en (<[a := Cell (ce_consts cl) s]> h)
(** [exec h0 g vals h v]: the call of function [g] with parameters [vals] and memory [h0] may have the (last) result [v];
    [h] is the memory afterwards. *)
with exec : heap -> fid -> list value -> heap -> value -> Prop :=
| ex_return h0 g fn vals en h stmt e h' v : pk_funcs pk !! g = Some fn -> reached fn h0 vals en h ->
    stmt ∈ return_stmts fn -> returned fn stmt e -> eval fn en h e h' v ->
    (forall q, annotation_is pk stmt (Some q) ->
       match q with Overwrite _ => False | Modify _ sub => forall c, has_code h' v c -> c ∉ sub end) ->
    exec h0 g vals h' v
| ex_annotated h0 g fn vals en h stmt q h' v : pk_funcs pk !! g = Some fn -> reached fn h0 vals en h ->
    stmt ∈ return_stmts fn -> annotation_is pk stmt (Some q) ->
    promised h (fun c => match q with Overwrite cs => c ∈ cs | Modify add _ => c ∈ add end) h' v -> exec h0 g vals h' v
| ex_deferred h0 g fn vals en h o : pk_funcs pk !! g = Some fn -> reached fn h0 vals en h -> defers fn -> named_result fn o ->
    exec h0 g vals h (en o)
  (* a deferred call recovers from a panic: the result is the zero value of its type *)
| ex_recovered h0 g fn vals en h fields fl et h' v : pk_funcs pk !! g = Some fn -> reached fn h0 vals en h -> defers fn ->
    ft_results (fn_type fn) = Some fields -> last fields = Some fl -> struct_typed (f_type fl) et -> made h (Cell (et_codes et) []) h' v ->
    exec h0 g vals h' v
  (* a function without results ends (or any function returns nil after recovering from a panic) *)
| ex_done h0 g fn vals en h : pk_funcs pk !! g = Some fn -> reached fn h0 vals en h -> exec h0 g vals h VNil.
End spec.
