(** * Specification: what the method Code of an error type may return (C25). *)
From Coq Require Import Ascii String.
From stdpp Require Import base list gmap.
From Verif Require Import GoString ErrorCode Scc CodeSet Constant GoAst Taint Extract Analyse SpecCodes SpecTaint SpecMay SpecEvents SpecLookup.

Section spec.
Context (pk : package) (fn : func) (receiver : option ident).
Notation info := (pk_info pk).

(** ** The values returned *)

(** [n] is part of [m], and not of a function literal in it. *)
Inductive inside : node -> node -> Prop :=
| inside_self n : as_funclit n = None -> inside n n
| inside_below m k n : as_funclit m = None -> k ∈ node_kids m -> inside k n -> inside m n.
Definition own_return (s : node) : Prop := exists b, fn_body fn = Some b /\ inside b s /\ node_kind s = KReturn.
(** `return e` *)
Definition result_expr (e : node) : Prop := exists s, own_return s /\ node_kids s = [e].
(** `return`, where the result is the variable [i]. *)
Definition result_name (i : ident) : Prop :=
  (exists s, own_return s /\ node_kids s = []) /\ exists f, ft_results (fn_type fn) = Some [f] /\ f_names f = [i].

(** ** Kinds of expressions *)
Definition constant_value (e : node) (v : constval) : Prop := ti_value info (node_id (unparen e)) = Some v.
Definition not_constant (e : node) : Prop := ti_value info (node_id (unparen e)) = None.
(** `r.name`, where [r] is the receiver of the method. *)
Definition field_of_receiver (e : node) (name : gostring) : Prop :=
  exists r x sel i, receiver = Some r /\ as_selector (unparen e) = Some (x, sel) /\ as_ident (unparen x) = Some i /\
    i_obj i = i_obj r /\ name = i_name sel.
Definition names_variable (e : node) (i : ident) : Prop := not_constant e /\ as_ident (unparen e) = Some i.

(** ** Where the result comes from *)

(** The local variables from which the value named [i] may come. *)
Inductive comes_from (i : ident) : oid -> Prop :=
| comes_directly o : tracked pk fn None ∅ i o -> comes_from i o
| comes_further o e j o' : comes_from i o -> assigned_expr pk fn o e -> names_variable e j -> tracked pk fn None ∅ j o' -> comes_from i o'.
Definition result_variable (o : oid) : Prop :=
  exists i, (result_name i \/ exists e, result_expr e /\ names_variable e i) /\ comes_from i o.

(** The expressions whose value may be returned: those in return statements, and those assigned to variables whose value may be
    returned. *)
Definition code_source (e : node) : Prop := result_expr e \/ exists o, result_variable o /\ assigned_expr pk fn o e.
(** The identifiers whose value may be returned. *)
Definition code_ident (j : ident) : Prop :=
  result_name j \/ (exists e, code_source e /\ names_variable e j) \/ exists o, result_variable o /\ assigned_var pk fn o j.

(** ** What is reported *)
Inductive bad_constant : constval -> gostring -> Prop :=
| bc_not_string : bad_constant COther (str "error code has to be of type string")
| bc_too_long s : 70 < written_length pk s -> bad_constant (CString s) (str "problem unquoting string constant value: invalid syntax")
| bc_invalid s : written_length pk s <= 70 -> s <> [] -> ~ valid_code s ->
    bad_constant (CString s) (str "error code has invalid format: should match [a-zA-Z][a-zA-Z0-9\-]*[a-zA-Z0-9]").

Inductive code_problem : diag -> Prop :=
| cp_constant e v msg : code_source e -> constant_value e v -> bad_constant v msg -> code_problem (Diag (node_id e) msg)
| cp_origin j : code_ident j -> untrackable pk fn None j ->
    code_problem (Diag (i_id j) (str "error code variable may not be a parameter, receiver or global variable"))
| cp_several o d : result_variable o -> assigned_several pk fn o d ->
    code_problem (Diag (node_id (de_source d))
      (str "unsupported: assigning result of function call to variable " ++ quoted (i_name (de_target d)) ++ str " is not allowed"))
| cp_other e : code_source e -> not_constant e -> (forall name, ~ field_of_receiver e name) -> as_ident (unparen e) = None ->
    code_problem (Diag (node_id e) (str "function " ++ quoted (match fn_decl fn with Some d => i_name (dc_name d) | None => [] end) ++ str " should always return a string constant or a single field")).
(** A field other than [f] is returned. *)
Inductive second_field (f : gostring) : diag -> Prop :=
| sf_intro e name : code_source e -> not_constant e -> field_of_receiver e name -> name <> f ->
    second_field f (Diag (node_id e) (str "only single field allowed: cannot return field " ++ quoted name
                 ++ str " because field " ++ quoted f ++ str " was returned previously")).

(** ** Preconditions *)
(** As for functions that return errors: lexical scoping, and no parameter of a function literal is returned. *)
Record code_usable : Prop := {
  cu_body : fn_body fn <> None;
  cu_scoped : scoped pk fn;
  cu_name : forall i, result_name i -> not_closure_param pk fn i;
  cu_sources : forall e i, code_source e -> names_variable e i -> not_closure_param pk fn i
}.
(** What the type checker guarantees for a method with one result. *)
Definition code_typed : Prop :=
  forall s, own_return s -> (exists e, node_kids s = [e]) \/
    (node_kids s = [] /\ exists f i, ft_results (fn_type fn) = Some [f] /\ f_names f = [i]).

(** ** The answer *)
(** The constants the method may return. *)
Definition code_constants (c : codeset) : Prop := forall x, x ∈ c <-> exists e, code_source e /\ constant_code pk (unparen e) x.
(** A field of the receiver the method may return, if there is one. *)
Definition code_field (f : option gostring) : Prop :=
  match f with
  | Some name => exists e, code_source e /\ not_constant e /\ field_of_receiver e name
  | None => forall e name, code_source e -> not_constant e -> ~ field_of_receiver e name
  end.
End spec.

(** ** Positions of fields *)
(** The fields of a struct, embedded ones without a name. *)
Definition struct_fields (fields : list (list ident)) : list (option gostring) :=
  flat_map (fun names => match names with [] => [None] | _ => map (fun i => Some (i_name i)) names end) fields.
Definition field_position (ts : typespec) (name : gostring) (p : nat) : Prop :=
  exists fields, tsp_type ts = XStruct fields /\ struct_fields fields !! p = Some (Some name) /\
    forall q, q < p -> struct_fields fields !! q <> Some (Some name).

(** The field that is recorded, with its position. *)
Definition valid_field (ts : typespec) (f : option gostring) (r : option (gostring * nat)) : Prop :=
  match r with
  | Some (name, p) => f = Some name /\ field_position ts name p
  | None => forall name p, f = Some name -> ~ field_position ts name p
  end.
(** Everything reported about the Code method; [f] as in [code_field]. *)
Inductive code_report (pk : package) (fn : func) (receiver : option ident) (ts : typespec) (f : option gostring) (d : diag) : Prop :=
| cr_problem : code_problem pk fn receiver d -> code_report pk fn receiver ts f d
| cr_second name : f = Some name -> second_field pk fn receiver name d -> code_report pk fn receiver ts f d
| cr_promoted name : f = Some name -> (forall p, ~ field_position ts name p) ->
    d = Diag (fn_pos fn) (str "returned field " ++ quoted name
          ++ str " is not a valid error code field (promoted fields are not supported currently, but might be added in the future)") ->
    code_report pk fn receiver ts f d.

(** ** Error types *)
Section types.
Context (pk : package) (fa : facts).
Notation info := (pk_info pk).

(** The type declared by [ts], or a pointer to it, is an error with a Code method. *)
Definition declared_error (ts : typespec) (err : gotype) : Prop :=
  exists o, ti_defs info (i_id (tsp_name ts)) = Some o /\
    ((ti_implements_ree info (ti_objtype info o) = true /\ err = ti_objtype info o) \/
     (ti_implements_ree info (ti_objtype info o) = false /\ ti_implements_ree info (TPointer (ti_objtype info o)) = true /\
      err = TPointer (ti_objtype info o))).

(** The receiver of a method. *)
Definition receiver_of (f : fid) (r : field) : Prop :=
  exists fn d, pk_funcs pk !! f = Some fn /\ fn_decl fn = Some d /\ dc_recv d = Some [r].
(** [f] is a method of [err], or of the type it points to. *)
Definition method_for (err : gotype) (f : fid) : Prop :=
  exists r t, receiver_of f r /\ ti_type info (f_type r) = Some t /\ (t = err \/ err = TPointer t).
(** The method Code of [err] (the first one declared: Go allows only one). *)
Definition code_method (err : gotype) (f : fid) : Prop :=
  exists pre post, pk_decls pk = pre ++ f :: post /\ declares_method pk f (str "Code") /\ method_for err f /\
    forall g, g ∈ pre -> declares_method pk g (str "Code") -> ~ method_for err g.
(** The name of the receiver, if there is one. *)
Definition receiver_name (f : fid) (i : option ident) : Prop :=
  exists r, receiver_of f r /\ match i with Some i => f_names r = [i] | None => forall i, f_names r <> [i] end.
(** [g] is a method of the type, with receiver variable [o]. *)
Definition type_method (err : gotype) (g : fid) (gn : func) (o : oid) : Prop :=
  exists n name i, getNamedType err = Some n /\ name ∈ ti_named_methods info n /\ g ∈ pk_decls pk /\ declares_method pk g name /\
    method_for err g /\ pk_funcs pk !! g = Some gn /\ receiver_name g (Some i) /\ i_obj i = Some o.

(** Number [k] on the left is `x.name`, where x is the variable [o]. *)
Definition field_selected (o : oid) (name : gostring) (lhs : list node) (k : nat) : Prop :=
  exists l x sel xi, lhs !! k = Some l /\ as_selector l = Some (x, sel) /\ as_ident x = Some xi /\ i_obj xi = Some o /\ i_name sel = name.
(** The method [gn] assigns the code [c] to the field [name] of [o]. *)
Definition code_assigned (gn : func) (o : oid) (name c : gostring) : Prop :=
  exists body lhs rhs k r, fn_body gn = Some body /\ outer_assignment body lhs rhs /\ length lhs = length rhs /\
    field_selected o name lhs k /\ rhs !! k = Some r /\ constant_code pk r c.
Inductive assignment_report (gn : func) (o : oid) (name : gostring) (d : diag) : Prop :=
| ar_several body lhs rhs k r rs : fn_body gn = Some body -> outer_assignment body lhs rhs -> field_selected o name lhs k ->
    length lhs <> length rhs -> rhs = r :: rs ->
    d = Diag (node_id r) (str "error code has to be constant value or error code parameter") -> assignment_report gn o name d
| ar_value body lhs rhs k r : fn_body gn = Some body -> outer_assignment body lhs rhs -> field_selected o name lhs k ->
    length lhs = length rhs -> rhs !! k = Some r -> string_event pk fa gn r (Reported d) -> assignment_report gn o name d.

(** What the declaration [ts] of a type, at [at_], results in: the fact recorded, if any, and the diagnostics. *)
Inductive tagged (at_ : nid) (ts : typespec) : option (tobj * errortype) -> (diag -> Prop) -> Prop :=
| tg_no_error D : (forall err, ~ declared_error ts err) -> (forall d, ~ D d) -> tagged at_ ts None D
| tg_unnamed err D : declared_error ts err -> getNamedType err = None ->
    (forall d, D d <-> d = Diag at_ (str "type is an invalid error type")) -> tagged at_ ts None D
| tg_interface err n ms D : declared_error ts err -> getNamedType err = Some n -> ti_underlying info n = TInterface ms ->
    (forall d, ~ D d) -> tagged at_ ts None D
| tg_no_method err n D : declared_error ts err -> getNamedType err = Some n -> (forall ms, ti_underlying info n <> TInterface ms) ->
    (forall f, ~ code_method err f) -> (forall d, D d <-> d = Diag at_ (str "found no method ""Code() string""")) -> tagged at_ ts None D
| tg_no_codes err n f fn i name D : declared_error ts err -> getNamedType err = Some n -> (forall ms, ti_underlying info n <> TInterface ms) ->
    code_method err f -> pk_funcs pk !! f = Some fn -> receiver_name f i ->
    code_constants pk fn ∅ -> code_field pk fn i name -> valid_field ts name None ->
    (forall d, D d <-> code_report pk fn i ts name d \/
      d = Diag at_ (str "type " ++ quoted (ti_objname info n) ++ str " is an invalid error type: could not find any error codes")) ->
    tagged at_ ts None D
| tg_constants err n f fn i c name D : declared_error ts err -> getNamedType err = Some n -> (forall ms, ti_underlying info n <> TInterface ms) ->
    code_method err f -> pk_funcs pk !! f = Some fn -> receiver_name f i ->
    code_constants pk fn c -> c <> ∅ -> code_field pk fn i name -> valid_field ts name None ->
    (forall d, D d <-> code_report pk fn i ts name d) -> tagged at_ ts (Some (n, ErrorType c None)) D
| tg_field err n f fn i c name p c' D : declared_error ts err -> getNamedType err = Some n -> (forall ms, ti_underlying info n <> TInterface ms) ->
    code_method err f -> pk_funcs pk !! f = Some fn -> receiver_name f i ->
    code_constants pk fn c -> code_field pk fn i (Some name) -> valid_field ts (Some name) (Some (name, p)) ->
    (forall x, x ∈ c' <-> x ∈ c \/ exists g gn o, type_method err g gn o /\ code_assigned gn o name x) ->
    (forall d, D d <-> code_report pk fn i ts (Some name) d \/ exists g gn o, type_method err g gn o /\ assignment_report gn o name d) ->
    tagged at_ ts (Some (n, ErrorType c' (Some (name, p)))) D.

(** What is recorded about the type [n] after outcomes as in [tagged]: the last of them that concerns it; otherwise what was known before. *)
Definition recorded (outcomes : list (option (tobj * errortype))) (n : tobj) : option errortype :=
  match last (omap (fun r => match r with Some (m, et) => if decide (m = n) then Some et else None | None => None end) outcomes) with
  | Some et => Some et
  | None => fa_type fa !! n
  end.
(** Only facts about types are added. *)
Record types_recorded (outcomes : list (option (tobj * errortype))) (fa' : facts) : Prop := {
  tr_types : forall n, fa_type fa' !! n = recorded outcomes n;
  tr_codes : fa_codes fa' = fa_codes fa;
  tr_ctor : fa_ctor fa' = fa_ctor fa;
  tr_iface : fa_iface fa' = fa_iface fa
}.

(** What the theorems presuppose. *)
Record types_usable : Prop := {
  tu_defs : forall g ts, g ∈ pk_gendecls pk -> Some ts ∈ gd_specs g -> ti_defs info (i_id (tsp_name ts)) <> None;
  tu_code : forall g ts err f fn, g ∈ pk_gendecls pk -> Some ts ∈ gd_specs g -> declared_error ts err -> code_method err f ->
    pk_funcs pk !! f = Some fn -> code_usable pk fn /\ code_typed fn;
  (* there is no assignment without right hand side *)
  tu_assign : forall f fn body lhs rhs, pk_funcs pk !! f = Some fn -> fn_body fn = Some body -> outer_assignment body lhs rhs -> rhs <> [];
  (* the names of receivers have objects *)
  tu_receivers : forall f r i, receiver_of f r -> f_names r = [i] -> i_obj i <> None
}.
End types.
