(** * Specification: what is reported about conversions is settled where the codes of the method are known from declarations. *)
From Coq Require Import Ascii String.
From stdpp Require Import base list gmap.
From Verif Require SpecLookup.
From Verif Require Import GoString ErrorCode Scc Engine SpecEngine CodeSet Annotation Constant GoAst Taint Extract Analyse Phase ErrorTypes Claims Interfaces
  Conversions Verify SpecMay SpecProgram SpecClaims SpecRun SpecEnd CodeSetProofs PropCodeSet SpecSites SpecReports SpecEdit.

Section spec.
Context (pk : package) (known : facts).

(** The codes of the method of the value are exported: it declares them, in this package or in another one. *)
Definition settled (s : site) (m : gostring) (codes : codeset) : Prop :=
  exists o, SpecLookup.has_method pk (s_value s) m o /\ fa_codes known !! o = Some codes.
(** The declared codes are compared with those of the interface. *)
Inductive settled_verdict (s : site) (m : gostring) : list diag -> Prop :=
| settled_verdict_intro declared codes excess :
    s_iface s !! m = Some declared -> settled s m codes -> listing excess (codes ∖ declared) ->
    settled_verdict s m (match excess with [] => [] | _ => [Diag (s_pos s) (excess_message pk (s_target s) m excess)] end).
(** One verdict for each such method. *)
Definition settled_site (s : site) (ds : list diag) : Prop :=
  exists ms vs, NoDup ms /\ (forall m, m ∈ ms <-> compared s m /\ exists codes, settled s m codes) /\ Forall2 (settled_verdict s) ms vs /\ ds = concat vs.

(** The other reports made while conversions are checked: about the bodies of the functions that are analysed for this, and about methods
    that do not declare codes. *)
Inductive unsettled_report (plan : fid -> eff diag) (sites : list site) (d : diag) : Prop :=
| ur_function g : d ∈ reports (plan g) -> unsettled_report plan sites d
| ur_method s m excess : s ∈ sites -> compared s m -> (forall codes, ~ settled s m codes) -> excess <> [] ->
    d = Diag (s_pos s) (excess_message pk (s_target s) m excess) -> unsettled_report plan sites d.

(** The node [n] occurs in the declaration [x], in a function of type [w]. *)
Definition lies_in (x : topdecl) (w : option functype) (n : node) : Prop :=
  match x with
  | TopNode m => below pk None m w n
  | TopFunc f => exists fn b, pk_funcs pk !! f = Some fn /\ fn_body fn = Some b /\ below pk (Some (fn_type fn)) b w n
  end.
(** [sites]: the conversions of values to error interfaces in the declaration [x]. *)
Definition sites_in (x : topdecl) (sites : list site) : Prop :=
  forall m t v pos, Site m t v pos ∈ sites <-> interface_codes known t m /\ exists w n, lies_in x w n /\ converts pk w n t (Some v) pos.

(** Neither a function that is declared here, nor any function literal, was edited. *)
Definition untouched_decl (funcs' : gmap fid func) (x : topdecl) : Prop :=
  match x with
  | TopNode m => forall n g, n ∈ walk m -> as_funclit n = Some g -> funcs' !! g = pk_funcs pk !! g
  | TopFunc f => untouched pk funcs' f
  end.
End spec.
