(** * Specification: programs of several packages (C41).

    Every package has been analysed on its own; the facts that are exported by one are the facts that are imported by others.  An
    execution of the program runs through all of them: a call of a function of another package executes its body there, and
    a call of an interface method executes the method of a type that some package of the program converts to the interface. *)
From Coq Require Import Ascii String.
From stdpp Require Import base list gmap.
From Verif Require Import GoString ErrorCode Scc Engine CodeSet Annotation Constant GoAst Taint Analyse Phase Conversions Verify
  SpecCodes SpecTaint SpecMay SpecProgram SpecClaims SpecRun SpecInterfaces SpecSites SpecExec SpecSound.

(** A package together with the facts it imports and the run of the analyzer. *)
Record member := Member { m_pk : package; m_strict : bool; m_ord : orders; m_imports : facts; m_run : run }.
Notation m_lk m := (collectFunctions (m_pk m)).
(** The facts known while the functions are checked, and those exported in the end. *)
Definition m_known (m : member) : facts := facts_during (m_pk m) (m_ord m) (m_run m).
Definition m_exports (m : member) : facts := facts_after (m_pk m) (m_ord m) (m_run m).

(** The expressions in the bodies of functions, and those that variables are declared with. *)
Inductive source_node (pk : package) (e : node) : Prop :=
| sn_body g fn : pk_funcs pk !! g = Some fn -> e ∈ body_nodes fn -> source_node pk e
| sn_value o names values v : ob_decl (obj_of pk o) = DValueSpec names values -> v ∈ values -> e ∈ walk v -> source_node pk e.
(** Expressions that are called, assigned to variables, or that variables are declared with. *)
Inductive used (pk : package) (e : node) : Prop :=
| us_called n f args : source_node pk n -> as_call n = Some (f, args) -> e = unparen f -> used pk e
| us_assigned n lhs rhs r : source_node pk n -> as_assign n = Some (lhs, rhs) -> r ∈ rhs -> e = unparen r -> used pk e
| us_initial o names values v : ob_decl (obj_of pk o) = DValueSpec names values -> v ∈ values -> e = unparen v -> used pk e.
(** What holds of every Go package: such an expression, if it refers to a function of the package according to the type checker, denotes it. *)
Definition uses_resolved (pk : package) (lk : lookup_table) : Prop :=
  forall e o f, used pk e -> value_object pk e = Some o -> object_of pk f o -> denotes pk lk e f.

(** [imports m m']: the package [m] imports [m'], directly or not. *)
Record program := Program { members : list member; imports : member -> member -> Prop }.

Section spec.
Context (P : program).

(** The object is a function, an interface type or a method in an interface type of the program. *)
Definition defined (o : tobj) : Prop := exists m x, m ∈ members P /\ defines (m_pk m) x o.

(** The interface called [name] of package [m] has the method [meth], which is the object [o]. *)
Inductive carries : member -> gostring -> gostring -> tobj -> Prop :=
| ca_own m n id elems mid name doc ft o : m ∈ members P -> interface_decl (m_pk m) n id elems -> IMethod mid name doc ft ∈ elems ->
    ti_defs (pk_info (m_pk m)) (i_id name) = Some o -> carries m (i_name n) (i_name name) o
| ca_embedded m n id elems eid n' meth o : m ∈ members P -> interface_decl (m_pk m) n id elems -> IEmbed eid n' ∈ elems ->
    carries m n' meth o -> carries m (i_name n) meth o
| ca_imported m n id elems eid t l n' meth o : m ∈ members P -> interface_decl (m_pk m) n id elems -> IEmbedSel eid ∈ elems ->
    ti_type (pk_info (m_pk m)) eid = Some (TNamed t) -> imports P m l -> defines (m_pk l) (DIface n') t ->
    carries l (i_name n') meth o -> carries m (i_name n) meth o.

(** Package [m] converts a value of type [v], whose method [meth] is [o'], to an interface type of the program whose method [meth]
    is [o]. *)
Definition converted_as (m : member) (v : gotype) (meth : gostring) (o o' : tobj) : Prop :=
  exists w n t pos l nm, m ∈ members P /\ occurs (m_pk m) w n /\ converts (m_pk m) w n (TNamed t) (Some v) pos /\
    v <> TNamed t /\ v <> TUntypedNil /\ l ∈ members P /\ defines (m_pk l) (DIface nm) t /\
    ti_methods (pk_info (m_pk m)) (TNamed t) meth = Some o /\ ti_methods (pk_info (m_pk m)) v meth = Some o'.
Definition converted (m : member) (o o' : tobj) : Prop := exists v meth, converted_as m v meth o o'.

(** ** Execution *)
(** Functions that are not defined in the program behave as [world] says. *)
Context (world : behaviour).
(** One step of linking: [ext] says what is known about the functions called. *)
Definition link (ext : behaviour) : behaviour := fun o h vals h' v =>
  (~ defined o /\ world o h vals h' v) \/
  (exists m f, m ∈ members P /\ object_of (m_pk m) f o /\ exec (m_pk m) (m_lk m) (m_known m) ext h f vals h' v) \/
  (exists m o', converted m o o' /\ ext o' h vals h' v).
(** Executions in which at most [n] calls into packages are nested; and all executions. *)
Fixpoint linked (n : nat) : behaviour :=
  match n with
  | O => fun _ _ _ _ _ => False
  | S n => link (linked n)
  end.
Definition runs : behaviour := fun o h vals h' v => exists n, linked n o h vals h' v.

(** ** Presuppositions *)
(** The package has been analysed, nothing is reported; the rest as for C22_sound and C30. *)
Record accepted (m : member) : Prop := {
  ac_orders : orders_ok (m_lk m) (m_ord m);
  ac_completes : completes (m_pk m) (m_strict m) (m_ord m) (m_imports m) (m_run m);
  ac_quiet : r_diags (m_run m) = [];
  ac_usable : usable_functions (m_pk m) (m_known m);
  ac_literals : no_literal_recursion (m_pk m) (m_lk m) (m_known m);
  ac_agree : forall c, agree_everywhere (m_pk m) c;
  ac_disciplined : forall g fn, pk_funcs (m_pk m) !! g = Some fn -> disciplined (m_pk m) (m_known m) fn;
  ac_resolved : forall g fn, pk_funcs (m_pk m) !! g = Some fn -> resolved (m_pk m) (m_lk m) (m_known m) fn;
  ac_interfaces : interfaces_ok (m_pk m);
  ac_distinct : distinct_definitions (m_pk m);
  ac_objects : uses_resolved (m_pk m) (m_lk m)
}.
(** What the framework hands on to other packages: all but the facts about unexported functions that are no methods (exportedFrom in
    golang.org/x/tools/go/analysis/internal/checker/checker.go; the encoding of facts leaves out the same). *)
Definition handed_on (pk : package) (x : declared) : Prop :=
  match x with
  | DFunc f => exists fn d, pk_funcs pk !! f = Some fn /\ fn_decl fn = Some d /\ (dc_recv d <> None \/ exported_name pk (i_name (dc_name d)))
  | _ => True
  end.
Definition same_facts (fa fa' : facts) (o : tobj) : Prop :=
  fa_codes fa !! o = fa_codes fa' !! o /\ fa_ctor fa !! o = fa_ctor fa' !! o /\ fa_iface fa !! o = fa_iface fa' !! o.
Definition no_facts (fa : facts) (o : tobj) : Prop := fa_codes fa !! o = None /\ fa_ctor fa !! o = None /\ fa_iface fa !! o = None.
(** What Go and the framework guarantee. *)
Record well_linked : Prop := {
  (* imports are in the program, and not circular *)
  wl_imports : forall m m', imports P m m' -> m' ∈ members P /\ m <> m';
  (* objects are defined in one package only *)
  wl_objects : forall m m' x x' o, m ∈ members P -> m' ∈ members P -> defines (m_pk m) x o -> defines (m_pk m') x' o -> m = m';
  (* the facts imported are those exported; those about unexported functions may be left out *)
  wl_facts : forall m m' x o, m ∈ members P -> imports P m m' -> defines (m_pk m') x o -> handed_on (m_pk m') x ->
    same_facts (m_imports m) (m_exports m') o;
  wl_hidden : forall m m' x o, m ∈ members P -> imports P m m' -> defines (m_pk m') x o ->
    same_facts (m_imports m) (m_exports m') o \/ no_facts (m_imports m) o;
  wl_no_facts : forall m m' x o, m ∈ members P -> m' ∈ members P -> defines (m_pk m') x o ->
    is_Some (fa_codes (m_imports m) !! o) \/ is_Some (fa_ctor (m_imports m) !! o) \/ is_Some (fa_iface (m_imports m) !! o) -> imports P m m';
  (* the methods of the interface types *)
  wl_methods : forall m l nm t meth o, m ∈ members P -> l ∈ members P -> defines (m_pk l) (DIface nm) t ->
    ti_methods (pk_info (m_pk m)) (TNamed t) meth = Some o -> carries l (i_name nm) meth o;
  (* values are converted to interface types of this package, or of imported packages *)
  wl_targets : forall m l nm w n t v pos, m ∈ members P -> l ∈ members P -> defines (m_pk l) (DIface nm) t -> occurs (m_pk m) w n ->
    converts (m_pk m) w n (TNamed t) v pos -> m = l \/ imports P m l
}.
(** The methods that implement interfaces of the program, where a value is converted to the interface, declare codes or are declared
    in the package that converts the value; and they are no error constructors (see C41_refuted_constructor and C41_refuted_undeclared). *)
Definition own_method (m : member) (meth : gostring) (o : tobj) : Prop :=
  exists f fn d r, f ∈ pk_decls (m_pk m) /\ pk_funcs (m_pk m) !! f = Some fn /\ fn_decl fn = Some d /\ dc_recv d = Some [r] /\
    i_name (dc_name d) = meth /\ ti_defs (pk_info (m_pk m)) (i_id (dc_name d)) = Some o.
Definition declared_methods : Prop := forall m v meth o o', converted_as m v meth o o' ->
  ((exists s, fa_codes (m_exports m) !! o' = Some s) \/ own_method m meth o') /\ fa_ctor (m_exports m) !! o' = None.
(** The functions that are not defined in the program return only the codes that the packages of the program know of. *)
Definition honest_world : Prop := forall m o s h vals h' v, m ∈ members P -> ~ defined o ->
  fa_codes (m_imports m) !! o = Some s -> world o h vals h' v -> promised h (as_declared (m_imports m) o s vals) h' v.
End spec.
