(** * Specification: when the analyzer crashes. *)
From stdpp Require Import base list gmap.
From Verif Require SpecLookup.
From Verif Require Import GoString ErrorCode Scc Engine CodeSet Annotation Constant GoAst Taint Extract Analyse Phase ErrorTypes Claims Interfaces
  Conversions Verify SpecEngine SpecMay SpecProgram SpecClaims SpecRun SpecEnd SpecReports SpecEvents SpecSites SpecLiterals.

Section spec.
Context (pk : package).
Notation lk := (collectFunctions pk).

(** A function or a method of an interface is declared with an empty list of results in parentheses, `func f() ()`. *)
Inductive empty_results : Prop :=
| er_function f fn : known_function pk f fn -> ft_results (fn_type fn) = Some [] -> empty_results
| er_method g name id elems id' m doc ft : g ∈ pk_gendecls pk -> Some (TypeSpec name (XInterface id elems)) ∈ gd_specs g ->
    IMethod id' m doc ft ∈ elems -> ft_results ft = Some [] -> empty_results.

Context (ord : orders) (r : run).
(** The same for the analysis of functions and conversions, given the declarations (and so the facts) of the package. *)
Inductive run_crash : Prop :=
| rc_checked g fn : checked_function pk ord r g -> pk_funcs pk !! g = Some fn ->
    function_event pk lk (facts_during pk ord r) fn Crashed -> run_crash
| rc_late g fn : late_function pk ord r g -> pk_funcs pk !! g = Some fn ->
    function_event pk lk (facts_after pk ord r) fn Crashed -> run_crash
| rc_missing g : checked_function pk ord r g \/ late_function pk ord r g -> pk_funcs pk !! g = None ->
    run_crash (* a call of a function of this package that does not exist: no such package *)
| rc_conversion w n t pos ms : occurs pk w n -> converts pk w n t None pos -> interface_codes (facts_after pk ord r) t ms ->
    run_crash (* a value to be converted that the analyzer does not find *)
| rc_method w n t v pos ms m : occurs pk w n -> converts pk w n t (Some v) pos -> interface_codes (facts_after pk ord r) t ms ->
    is_Some (ms !! m) -> v <> t -> v <> TUntypedNil -> (forall o, ~ SpecLookup.has_method pk v m o) ->
    run_crash (* the value converted does not have the method *).

(** Function literals assigned to variables: the list of those that the analysis of [f] asks for, once for each call it follows to them.  (Its members are
    the function literals of [literal_call], theorem [C23_requests]; how often each occurs in it is taken from the model.) *)
Definition literal_requests (known : facts) (f : fid) : list fid := direct_list (plan pk lk known elements f).
(** One of them is asked for a second time, by any function analysed. *)
Definition asked_twice : Prop :=
  exists fs late, NoDup fs /\ (forall g, g ∈ fs <-> checked_function pk ord r g) /\ NoDup late /\ (forall g, g ∈ late <-> late_function pk ord r g) /\
    ~ NoDup ((fs ≫= literal_requests (facts_during pk ord r)) ++ (late ≫= literal_requests (facts_after pk ord r))).
End spec.
