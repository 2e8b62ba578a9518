(** * Specification: function literals assigned to variables. *)
From stdpp Require Import base list gmap.
From Verif Require Import GoString ErrorCode Scc CodeSet Annotation Constant GoAst Taint Extract Analyse
  SpecCodes SpecAnnotation SpecTaint SpecMay SpecProgram SpecClaims.

Section spec.
Context (pk : package) (lk : lookup_table).

(** The call of [f] executes [g], which is named or written there, or a local variable has the value of such a name. *)
Inductive ordinary_call (fn : func) (f : node) (g : fid) : Prop :=
| oc_call : denotes pk lk (unparen f) g -> ordinary_call fn f g
| oc_alias i o e : function_variable pk (unparen f) i -> tracked pk fn None ∅ i o -> assigned_expr pk fn o e ->
    is_name (unparen e) -> denotes pk lk (unparen e) g -> ordinary_call fn f g.

(** What Go guarantees: a function literal that is assigned to a variable is not a declared function, and it is not (also) called where it is written. *)
Definition literals_apart (fa : facts) : Prop :=
  forall f fn e g, pk_funcs pk !! f = Some fn -> error_call pk fn e -> literal_call pk fa fn e g ->
    (forall fn', ~ known_function pk g fn') /\
    forall f' fn' e', pk_funcs pk !! f' = Some fn' -> error_call pk fn' e' -> ~ ordinary_call fn' e' g.
End spec.
