(** * Specification: the codes a function counts for when conversions are checked.

    Conversions are checked after the functions, and by then the declarations of this package are known as facts.
    Functions which have already been analysed keep their result. *)
From stdpp Require Import base list gmap.
From Verif Require SpecLookup.
From Verif Require Import GoString ErrorCode Scc Engine CodeSet Annotation Constant GoAst Taint Extract Analyse Phase ErrorTypes Claims Interfaces
  Conversions Verify SpecMay SpecProgram SpecClaims SpecRun.

Section spec.
Context (pk : package) (ord : orders) (r : run).
Notation lk := (collectFunctions pk).
Notation fd := (facts_during pk ord r).
Notation fe := (facts_after pk ord r).

(** [f] is a function that declares its codes. *)
Definition declared_function (f : fid) : Prop :=
  exists fn codes param, known_function pk f fn /\ returns_error_last pk (fn_type fn) /\ declares_codes pk fn codes param.
(** [f] was analysed because of a function that declares its codes. *)
Definition checked_function (f : fid) : Prop := exists d, declared_function d /\ rtc (passes_on pk lk fd) d f.

Inductive ends_with : fid -> gostring -> Prop :=
| ew_checked f c : checked_function f -> may_return pk lk fd f c -> ends_with f c
| ew_own f fn c : ~ checked_function f -> pk_funcs pk !! f = Some fn -> own_code pk lk fe ends_with fn c -> ends_with f c
| ew_recursive f g c : ~ checked_function f -> recursive_with pk lk fe f g -> ends_with g c -> ends_with f c.

(** The method [o] of a value implements a method of an error interface: the codes that count for it. *)
Definition method_codes (value : gotype) (method : gostring) (o : tobj) (c : gostring) : Prop :=
  SpecLookup.has_method pk value method o /\
  ((exists s, fa_codes fe !! o = Some s /\ c ∈ s) \/
   (fa_codes fe !! o = None /\ exists g, SpecLookup.method_declared pk value method g /\ ends_with g c)).
End spec.
