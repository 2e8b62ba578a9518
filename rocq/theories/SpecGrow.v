(** * Specification: the same package, analysed when its dependencies declare other codes. *)
From stdpp Require Import base list gmap.
From Verif Require Import GoString ErrorCode Scc CodeSet Constant GoAst Taint Extract Analyse.

(** The same field for the code.  (Whether there are constant codes matters, too: a conversion to a type with none is treated like a call.) *)
Definition same_shape (et et' : errortype) : Prop := et_field et' = et_field et /\ (et_codes et' = ∅ <-> et_codes et = ∅).
(** The same methods. *)
Definition same_methods (ms ms' : gmap gostring codeset) : Prop := dom ms' = dom ms.
(** The facts that were imported are the same, except for the codes of the functions and methods that declare codes, of the error types, and of the methods of interfaces. *)
Definition same_but_codes (fa fa' : facts) : Prop :=
  fa_ctor fa' = fa_ctor fa /\ (forall o, option_Forall2 same_methods (fa_iface fa !! o) (fa_iface fa' !! o)) /\
  (forall o, (exists s, fa_codes fa !! o = Some s) <-> (exists s, fa_codes fa' !! o = Some s)) /\
  forall o, option_Forall2 same_shape (fa_type fa !! o) (fa_type fa' !! o).

(** Functions and types that have [c] according to [fa] have it according to [fa'], too. *)
Definition still_declares (c : gostring) (fa fa' : facts) : Prop :=
  (forall o s s', fa_codes fa !! o = Some s -> fa_codes fa' !! o = Some s' -> c ∈ s -> c ∈ s') /\
  (forall o et et', fa_type fa !! o = Some et -> fa_type fa' !! o = Some et' -> c ∈ et_codes et -> c ∈ et_codes et').
(** No function and no type has fewer codes. *)
Definition declares_more (fa fa' : facts) : Prop :=
  same_but_codes fa fa' /\
  (forall o s s', fa_codes fa !! o = Some s -> fa_codes fa' !! o = Some s' -> s ⊆ s') /\
  (forall o et et', fa_type fa !! o = Some et -> fa_type fa' !! o = Some et' -> et_codes et ⊆ et_codes et').
(** Some dependency function or type has [c] according to [fa'], but did not according to [fa]. *)
Definition newly_declared (c : gostring) (fa fa' : facts) : Prop :=
  (exists o t t', fa_codes fa !! o = Some t /\ fa_codes fa' !! o = Some t' /\ c ∉ t /\ c ∈ t') \/
  (exists o et et', fa_type fa !! o = Some et /\ fa_type fa' !! o = Some et' /\ c ∉ et_codes et /\ c ∈ et_codes et').
