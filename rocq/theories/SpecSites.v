(** * Specification: where a Go program converts a value to an interface (C29). *)
From stdpp Require Import base list gmap.
From Verif Require Import GoString ErrorCode Scc Engine CodeSet Constant GoAst.

Section spec.
Context (pk : package).
Notation info := (pk_info pk).
Notation type_of n := (ti_type info (node_id n)).

(** ** The nodes of a package *)
(** [below w m w' n]: [n] is [m] or below it; [w] and [w'] are the types of the innermost functions around them. *)
Inductive below : option functype -> node -> option functype -> node -> Prop :=
| below_self w n : below w n w n
| below_kid w m k w' n : k ∈ node_kids m -> (forall f, as_funclit m <> Some f) -> below w k w' n -> below w m w' n
| below_literal w m f lit k w' n : k ∈ node_kids m -> as_funclit m = Some f -> pk_funcs pk !! f = Some lit ->
    below (Some (fn_type lit)) k w' n -> below w m w' n
| below_unknown w m f k w' n : k ∈ node_kids m -> as_funclit m = Some f -> pk_funcs pk !! f = None -> below None k w' n -> below w m w' n.
(** The node [n] occurs in the package, in a function of type [w] ([None]: outside of functions). *)
Inductive occurs (w : option functype) (n : node) : Prop :=
| occurs_decl m : TopNode m ∈ pk_top pk -> below None m w n -> occurs w n
| occurs_func f fn b : TopFunc f ∈ pk_top pk -> pk_funcs pk !! f = Some fn -> fn_body fn = Some b -> below (Some (fn_type fn)) b w n -> occurs w n.

(** ** Types *)
(** The defined type of a value, or the one it points to. *)
Inductive designates : gotype -> tobj -> Prop :=
| designates_named n : designates (TNamed n) n
| designates_pointer t n : designates t n -> designates (TPointer t) n.
(** The underlying type. *)
Definition shape (t u : gotype) : Prop :=
  (exists n, designates t n /\ u = ti_underlying info n) \/ ((forall n, ~ designates t n) /\ u = t).

(** The type and the position of the value [e]; [None] if there is no such value, or it has no type. *)
Definition value_at (e : option node) (v : option gotype) (pos : nid) : Prop :=
  match e with Some e => v = type_of e /\ pos = node_id e | None => v = None end.
(** The same for result number [i] of [e], an expression with several results. *)
Definition result_at (e : node) (i : nat) (v : option gotype) (pos : nid) : Prop :=
  pos = node_id e /\ v = match type_of e with Some (TTuple ts) => ts !! i | _ => None end.
(** The types of the results of a function. *)
Definition result_types (fields : list field) : list (option gotype) :=
  flat_map (fun f => repeat (ti_type info (f_type f)) (match f_names f with [] => 1 | l => length l end)) fields.
Definition keyed_by (e : node) (name : gostring) (v : node) : Prop :=
  exists k i, as_keyvalue e = Some (k, v) /\ as_ident k = Some i /\ i_name i = name.
Definition keyed (e : node) : Prop := exists name v, keyed_by e name v.
(** What ranging over [x] assigns. *)
Definition range_key (x : node) (v : option gotype) : Prop :=
  (exists tx k e, type_of x = Some tx /\ shape tx (TMap k e) /\ v = Some k) \/
  (exists tx d e, type_of x = Some tx /\ shape tx (TChan d e) /\ v = Some e) \/
  (v = None /\ forall tx, type_of x = Some tx -> (forall k e, ~ shape tx (TMap k e)) /\ (forall d e, ~ shape tx (TChan d e))).
Definition elements_of (u e : gotype) : Prop :=
  (exists k, u = TMap k e) \/ (exists d, u = TChan d e) \/ u = TSlice e \/ (exists l, u = TArray l e) \/ (exists l, u = TPointer (TArray l e)).
Definition range_value (x : node) (v : option gotype) : Prop :=
  (exists tx u e, type_of x = Some tx /\ shape tx u /\ elements_of u e /\ v = Some e) \/
  (v = None /\ forall tx u e, type_of x = Some tx -> shape tx u -> ~ elements_of u e).

(** ** Conversions *)
(** The node [n], in a function of type [w], converts a value of type [v] to the type [t].  ([v = None]: there is no such value; this cannot
    happen in a program without type errors, apart from calls with several results as arguments or in return statements.)
    Not included is the conversion of the arguments of calls through a value of a named function type; these are indeed not checked:
    C29_refuted.  In the Go sense, comparisons also convert. *)
Inductive converts (w : option functype) (n : node) (t : gotype) (v : option gotype) (pos : nid) : Prop :=
| cv_assign lhs rhs i l : as_assign n = Some (lhs, rhs) -> lhs !! i = Some l -> type_of l = Some t -> length lhs = length rhs ->
    value_at (rhs !! i) v pos -> converts w n t v pos
| cv_assign_results lhs call rest i l : as_assign n = Some (lhs, call :: rest) -> lhs !! i = Some l -> type_of l = Some t ->
    length lhs <> length (call :: rest) -> result_at call i v pos -> converts w n t v pos
| cv_var id names typ values e : n = Node id (KValueSpec names (Some typ)) values -> ti_type info typ = Some t -> length names = length values ->
    e ∈ values -> value_at (Some e) v pos -> converts w n t v pos
| cv_var_results id names typ call rest i : n = Node id (KValueSpec names (Some typ)) (call :: rest) -> ti_type info typ = Some t ->
    length names <> length (call :: rest) -> i < length names -> result_at call i v pos -> converts w n t v pos
| cv_argument id f a args params results variadic i : n = Node id KCall (f :: a :: args) -> type_of f = Some (TSignature params results variadic) ->
    params !! i = Some t -> value_at ((a :: args) !! i) v pos -> converts w n t v pos
| cv_variadic id f args params results e i : n = Node id KCall (f :: args) -> type_of f = Some (TSignature params results true) ->
    last params = Some (TSlice t) -> length params <= S i -> args !! i = Some e -> value_at (Some e) v pos -> converts w n t v pos
| cv_variadic_slice id f args params results e i : n = Node id KCall (f :: args) -> type_of f = Some (TSignature params results true) ->
    last params = Some t -> length params <= i -> args !! i = Some e -> value_at (Some e) v pos -> converts w n t v pos
| cv_explicit id f a args : n = Node id KCall (f :: a :: args) -> type_of f = Some t -> (forall params results variadic, t <> TSignature params results variadic) ->
    value_at (match args with [] => Some a | _ => None end) v pos -> converts w n t v pos
| cv_assertion id typ x : n = Node id (KTypeAssert (Some typ)) [x] -> ti_type info typ = Some t -> value_at (Some x) v pos ->
    (forall u i, v = Some u -> shape t (TInterface i) -> ti_implements info u (TInterface i) = true) -> converts w n t v pos
| cv_case id (init : option node) assign body lhs aid atyp x clause ncases c i : 
    n = Node id (KTypeSwitch (bool_decide (is_Some init))) (option_list init ++ [assign; body]) ->
    as_assign assign = Some (lhs, [Node aid (KTypeAssert atyp) [x]]) -> clause ∈ node_kids body -> node_kind clause = KCaseClause ncases ->
    c ∈ take ncases (node_kids clause) -> type_of c = Some t -> shape t (TInterface i) ->
    v = type_of x -> pos = node_id c -> (forall u, v = Some u -> ti_implements info u (TInterface i) = true) -> converts w n t v pos
| cv_index id x index tx e : n = Node id KIndex [x; index] -> type_of x = Some tx -> shape tx (TMap t e) -> value_at (Some index) v pos -> converts w n t v pos
| cv_field id e0 elts tn fields i name : n = Node id KComposite (e0 :: elts) -> ti_type info id = Some tn -> shape tn (TStruct fields) ->
    fields !! i = Some (name, t) -> as_keyvalue e0 = None -> value_at ((e0 :: elts) !! i) v pos -> converts w n t v pos
| cv_field_keyed id e0 elts tn fields name pre e post : n = Node id KComposite (e0 :: elts) -> ti_type info id = Some tn -> shape tn (TStruct fields) ->
    (name, t) ∈ fields -> as_keyvalue e0 <> None -> e0 :: elts = pre ++ e :: post ->
    (forall d, d ∈ pre -> exists name' d', keyed_by d name' d' /\ name' <> name) ->
    ((exists x, keyed_by e name x /\ value_at (Some x) v pos) \/ (~ keyed e /\ v = None)) -> converts w n t v pos
| cv_element id elts tn u e : n = Node id KComposite elts -> ti_type info id = Some tn -> shape tn u ->
    (u = TSlice t \/ (exists l, u = TArray l t) \/ (exists k, u = TMap k t)) -> e ∈ elts ->
    value_at (Some (match as_keyvalue e with Some (_, x) => x | None => e end)) v pos -> converts w n t v pos
| cv_map_key id elts tn u e : n = Node id KComposite elts -> ti_type info id = Some tn -> shape tn (TMap t u) -> e ∈ elts ->
    value_at (match as_keyvalue e with Some (k, _) => Some k | None => None end) v pos -> converts w n t v pos
| cv_return id e0 results ft fields i : n = Node id KReturn (e0 :: results) -> w = Some ft -> ft_results ft = Some fields ->
    result_types fields !! i = Some (Some t) -> value_at ((e0 :: results) !! i) v pos -> converts w n t v pos
| cv_range_key id key (value : option node) x body : n = Node id (KRange true (bool_decide (is_Some value))) (key :: option_list value ++ [x; body]) ->
    type_of key = Some t -> range_key x v -> pos = node_id x -> converts w n t v pos
| cv_range_value id key value x body : n = Node id (KRange true true) [key; value; x; body] ->
    type_of value = Some t -> range_value x v -> pos = node_id x -> converts w n t v pos
| cv_send id chan value tc d : n = Node id KSend [chan; value] -> type_of chan = Some tc -> shape tc (TChan d t) -> value_at (Some value) v pos ->
    converts w n t v pos.

(** ** Programs that do not pass the parser and the type checker *)
Inductive ill_formed (w : option functype) (n : node) : Prop :=
| if_assign lhs l t : as_assign n = Some (lhs, []) -> l ∈ lhs -> type_of l = Some t -> ill_formed w n
| if_var id typ call rest : n = Node id (KValueSpec [] (Some typ)) (call :: rest) -> ill_formed w n
| if_variadic id f a args results : n = Node id KCall (f :: a :: args) -> type_of f = Some (TSignature [] results true) -> ill_formed w n
| if_switch id (init : option node) assign body lhs rhs : n = Node id (KTypeSwitch (bool_decide (is_Some init))) (option_list init ++ [assign; body]) ->
    as_assign assign = Some (lhs, [rhs]) -> (forall aid atyp x, rhs <> Node aid (KTypeAssert atyp) [x]) -> ill_formed w n
| if_return id results : n = Node id KReturn results -> w = None -> ill_formed w n
| if_results id e0 results ft : n = Node id KReturn (e0 :: results) -> w = Some ft -> ft_results ft = None -> ill_formed w n
| if_send id chan value : n = Node id KSend [chan; value] -> (forall tc d t, type_of chan = Some tc -> ~ shape tc (TChan d t)) -> ill_formed w n.
End spec.

(** ** Interfaces with error codes *)
(** The methods, with their codes, of the interface [t]. *)
Definition interface_codes (fa : facts) (t : gotype) (m : gmap gostring codeset) : Prop := exists n, designates t n /\ fa_iface fa !! n = Some m.
