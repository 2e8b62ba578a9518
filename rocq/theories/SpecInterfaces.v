(** * Specification: the methods of interfaces that declare error codes. *)
From Coq Require Import Ascii String.
From stdpp Require Import base list gmap.
From Verif Require Import GoString ErrorCode Scc CodeSet DocParser Constant GoAst Claims SpecCodes SpecDoc SpecMessages SpecClaims.

Section spec.
Context (pk : package) (fa : facts).
Notation info := (pk_info pk).

(** `type n interface { elems }` *)
Definition interface_decl (n : ident) (id : nid) (elems : list ielem) : Prop :=
  exists g, g ∈ pk_gendecls pk /\ Some (TypeSpec n (XInterface id elems)) ∈ gd_specs g.

(** The documentation of a method declares these codes. *)
Definition method_declares (doc : option gostring) (ft : functype) (codes : codeset) : Prop :=
  returns_error_last pk ft /\ exists r, doc_means doc r /\ dr_param r = [] /\ codes = dr_codes r /\ (codes <> ∅ \/ dr_none r = true).

(** The codes declared for the methods of the interface of another package. *)
Definition imported_method (id : nid) (m : gostring) (codes : codeset) : Prop :=
  exists t n ms, ti_type info id = Some t /\ getNamedType t = Some n /\ fa_iface fa !! n = Some ms /\ ms !! m = Some codes.

(** The interface has the method, with these codes: declared in the interface itself or in one embedded. *)
Inductive method_of : gostring -> gostring -> codeset -> Prop :=
| mo_own n id elems mid name doc ft codes : interface_decl n id elems -> IMethod mid name doc ft ∈ elems ->
    method_declares doc ft codes -> method_of (i_name n) (i_name name) codes
| mo_embedded n id elems eid n' m codes : interface_decl n id elems -> IEmbed eid n' ∈ elems -> method_of n' m codes ->
    method_of (i_name n) m codes
| mo_imported n id elems eid m codes : interface_decl n id elems -> IEmbedSel eid ∈ elems -> imported_method eid m codes ->
    method_of (i_name n) m codes.

(** What Go guarantees, if no interface type declared in a function has the name of another interface type: names are
    unique, and no interface embeds itself. *)
Record interfaces_ok : Prop := {
  ik_interfaces : forall n id elems n' id' elems', interface_decl n id elems -> interface_decl n' id' elems' ->
    i_name n = i_name n' -> n = n' /\ id = id' /\ elems = elems';
  ik_methods : forall n id elems mid name doc ft mid' name' doc' ft', interface_decl n id elems ->
    IMethod mid name doc ft ∈ elems -> IMethod mid' name' doc' ft' ∈ elems -> i_name name = i_name name' ->
    mid = mid' /\ name = name' /\ doc = doc' /\ ft = ft';
  ik_acyclic : exists rank : gostring -> nat, forall n id elems eid n', interface_decl n id elems -> IEmbed eid n' ∈ elems ->
    rank n' < rank (i_name n)
}.

(** The declarations of one method of one interface agree. *)
Definition compatible : Prop := forall n m c c', method_of n m c -> method_of n m c' -> c = c'.

(** ** Diagnostics about the methods declared in the interface [iid] *)
Inductive method_report (iid mid : nid) (name : ident) (doc : option gostring) (ft : functype) : diag -> Prop :=
| ir_misplaced r : ~ returns_error_last pk ft -> r ∈ default [] (ft_results ft) -> error_result pk r ->
    method_report iid mid name doc ft (Diag (f_id r) (str "error should be returned as the last argument"))
| ir_odd e : returns_error_last pk ft -> doc_odd doc e ->
    method_report iid mid name doc ft (Diag mid (str "interface method " ++ quoted (i_name name) ++ str " has odd docstring: " ++ doc_error_text e))
| ir_param r : returns_error_last pk ft -> doc_means doc r -> dr_param r <> [] ->
    method_report iid mid name doc ft (Diag mid (str "declaration of error constructors in interfaces is currently not supported"))
| ir_nothing r : returns_error_last pk ft -> doc_means doc r -> dr_param r = [] -> dr_codes r = ∅ -> dr_none r = false ->
    ~ (i_name name = str "Cause" /\ exists t, ti_type info iid = Some t /\ ti_implements_cause info t = true) ->
    method_report iid mid name doc ft (Diag mid (str "interface method " ++ quoted (i_name name) ++ str " does not declare any error codes")).
Definition own_report (d : diag) : Prop :=
  exists n id elems mid name doc ft, interface_decl n id elems /\ IMethod mid name doc ft ∈ elems /\ method_report id mid name doc ft d.

(** ** Objects *)
Inductive declared := DFunc (f : fid) | DIface (n : ident) | DMethod (i n : ident).
Definition defines (x : declared) (o : tobj) : Prop :=
  match x with
  | DFunc f => object_of pk f o
  | DIface n => exists id elems, interface_decl n id elems /\ ti_defs info (i_id n) = Some o
  | DMethod i n => exists id elems mid doc ft, interface_decl i id elems /\ IMethod mid n doc ft ∈ elems /\ ti_defs info (i_id n) = Some o
  end.
(** What Go guarantees. *)
Definition distinct_definitions : Prop := forall x y o, defines x o -> defines y o -> x = y.
End spec.
