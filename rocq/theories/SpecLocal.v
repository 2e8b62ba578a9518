(** * Specification: what the theorems about one function presuppose, if other functions of the package are written differently. *)
From stdpp Require Import base list gmap relations.
From Verif Require Import GoString ErrorCode Scc CodeSet Annotation Constant GoAst Taint Extract Analyse SpecCodes SpecAnnotation SpecTaint SpecMay SpecProgram.

Section spec.
Context (pk : package) (lk : lookup_table) (fa : facts).

(** The syntax the function consists of: its body, its named results, and the initial values of the variables it mentions. *)
Inductive within (fn : func) : node -> Prop :=
| in_body n : n ∈ body_nodes fn -> within fn n
| in_results fields fl i : ft_results (fn_type fn) = Some fields -> fl ∈ fields -> i ∈ f_names fl ->
    within fn (Node (i_id i) (KIdent (i_name i) (i_obj i)) [])
| in_initial n i o names values v m : within fn n -> as_ident n = Some i -> i_obj i = Some o ->
    ob_decl (obj_of pk o) = DValueSpec names values -> v ∈ values -> m ∈ walk v -> within fn m.

(** [f] mentions [g]: by name, as method, or because the function literal [g] is written in it. *)
Definition mentions_function (f g : fid) : Prop :=
  exists fn e, pk_funcs pk !! f = Some fn /\ within fn e /\ denotes pk lk e g.

(** The function literal [g] is assigned to a variable: in the function, or as initial value of a variable that it mentions. *)
Inductive assigned_literal (fn : func) (g : fid) : Prop :=
| al_assigned n lhs rhs r id kids : n ∈ body_nodes fn -> as_assign n = Some (lhs, rhs) -> r ∈ rhs ->
    unparen r = Node id (KFuncLit g) kids -> assigned_literal fn g
| al_initial n i o names values v id kids : within fn n -> as_ident n = Some i -> i_obj i = Some o ->
    ob_decl (obj_of pk o) = DValueSpec names values -> v ∈ values -> unparen v = Node id (KFuncLit g) kids -> assigned_literal fn g.

(** Function literals that are assigned to variables in [f] do not mention [f], not even by way of other functions. *)
Definition no_literal_cycle : Prop :=
  forall f fn g, pk_funcs pk !! f = Some fn -> assigned_literal fn g -> ~ rtc mentions_function g f.

(** The function and all functions the errors of which it may return are written so that variables can be tracked. *)
Definition usable_from (f : fid) : Prop :=
  forall g gn, rtc (passes_on pk lk fa) f g -> pk_funcs pk !! g = Some gn -> usable pk fa gn /\ fn_body gn <> None.
(** The same functions agree about the removal of [c] (see [agree]). *)
Definition agree_from (f : fid) (c : gostring) : Prop :=
  forall g gn, rtc (passes_on pk lk fa) f g -> pk_funcs pk !! g = Some gn -> agree pk gn c.
End spec.
