(** * Specification: the checks of conversions to error interfaces, and the functions analysed for them. *)
From Coq Require Import Ascii String.
From stdpp Require Import base list gmap.
From Verif Require SpecLookup.
From Verif Require Import GoString ErrorCode Scc Engine CodeSet Annotation Constant GoAst Taint Extract Analyse Phase ErrorTypes Claims Interfaces
  Conversions Verify SpecMay SpecProgram SpecClaims SpecRun SpecEnd CodeSetProofs PropCodeSet.

Section spec.
Context (pk : package) (ord : orders) (r : run).
Notation lk := (collectFunctions pk).
Notation fe := (facts_after pk ord r).

(** The conversions of values to error interfaces the analyzer sees, in source order. *)
Definition conversion_sites (sites : list site) : Prop := all_conversions pk fe = CSite <$> sites.
(** The method [m] is looked at: not for nil, and not if the types are the same. *)
Definition compared (s : site) (m : gostring) : Prop :=
  s_value s <> s_target s /\ s_value s <> TUntypedNil /\ is_Some (s_iface s !! m).

Definition excess_message (target : gotype) (method : gostring) (excess : list gostring) : gostring :=
  str "cannot use expression as """ ++ match getNamedType target with Some n => ti_objname (pk_info pk) n | None => [] end
  ++ str """ value: method """ ++ method
  ++ str """ declares the following error codes which were not part of the interface: [" ++ join (str " ") excess ++ str "]".
(** The codes [found] of the method of the value are compared with those of the interface. *)
Inductive conversion_verdict (s : site) (m : gostring) : list diag -> Prop :=
| conversion_verdict_intro o declared found excess :
    s_iface s !! m = Some declared -> SpecLookup.has_method pk (s_value s) m o ->
    (forall c, c ∈ found -> method_codes pk ord r (s_value s) m o c) ->
    (forall c, agree_everywhere pk c -> method_codes pk ord r (s_value s) m o c -> c ∈ found) ->
    listing excess (found ∖ declared) ->
    conversion_verdict s m (match excess with [] => [] | _ => [Diag (s_pos s) (excess_message (s_target s) m excess)] end).
(** All reports about the site: one verdict for each method. *)
Definition site_verdict (s : site) (ds : list diag) : Prop :=
  exists ms vs, NoDup ms /\ (forall m, m ∈ ms <-> compared s m) /\ Forall2 (conversion_verdict s) ms vs /\ ds = concat vs.

(** The functions that are analysed because they (or what they call) implement a method of an error interface, and have
    not been analysed before. *)
Definition late_function (g : fid) : Prop :=
  ~ checked_function pk ord r g /\
  exists sites s m o f, conversion_sites sites /\ s ∈ sites /\ compared s m /\ SpecLookup.has_method pk (s_value s) m o /\
    fa_codes fe !! o = None /\ SpecLookup.method_declared pk (s_value s) m f /\ rtc (passes_on pk lk fe) f g.
End spec.
