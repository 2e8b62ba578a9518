(** * Specification: which error codes a function may return.

    Given for every function what it does itself ([plan]): the least solution of the obvious
    equations, plus: functions that call each other recursively share their codes. *)
From stdpp Require Import base list gmap relations.
From Verif Require Import GoString ErrorCode Scc Engine.

Section spec.
Context {D : Type} (plan : fid -> eff D).

(** The functions called, in order of evaluation. *)
Fixpoint call_list (e : eff D) : list fid :=
  match e with
  | EffUnion a b => call_list a ++ call_list b
  | EffDiff a _ => call_list a
  | EffCallEdge g | EffCallDirect g => [g]
  | _ => []
  end.
Definition calls (f g : fid) : Prop := g ∈ call_list (plan f).
(** [f] calls [g], directly or indirectly (or is [g]). *)
Definition reaches : fid -> fid -> Prop := rtc calls.
Definition mutual (f g : fid) : Prop := reaches f g /\ reaches g f.

(** The diagnostics reported. *)
Fixpoint reports (e : eff D) : list D :=
  match e with
  | EffUnion a b => reports a ++ reports b
  | EffDiff a _ => reports a
  | EffReport d => [d]
  | _ => []
  end.

Inductive may : fid -> gostring -> Prop :=
| may_own f c : from (plan f) c -> may f c
| may_recursive f g c : mutual f g -> may g c -> may f c
with from : eff D -> gostring -> Prop :=
| from_set s c : c ∈ s -> from (EffSet s) c
| from_union_l a b c : from a c -> from (EffUnion a b) c
| from_union_r a b c : from b c -> from (EffUnion a b) c
| from_diff a s c : from a c -> c ∉ s -> from (EffDiff a s) c
| from_call g c : may g c -> from (EffCallEdge g) c
| from_direct g c : may g c -> from (EffCallDirect g) c.

(** Static conditions on the program under which the analysis does not crash. *)
Fixpoint no_panic (e : eff D) : Prop :=
  match e with
  | EffUnion a b => no_panic a /\ no_panic b
  | EffDiff a _ => no_panic a
  | EffPanic => False
  | _ => True
  end.
(** Function literals that are analysed through the variable they are assigned to. *)
Fixpoint direct_list (e : eff D) : list fid :=
  match e with
  | EffUnion a b => direct_list a ++ direct_list b
  | EffDiff a _ => direct_list a
  | EffCallDirect g => [g]
  | _ => []
  end.
(** No such literal calls its function back. *)
Definition direct_back : Prop := forall f g, g ∈ direct_list (plan f) -> ~ reaches g f.
(** Each such literal is called in one place only and does not call its function back. *)
Definition direct_ok (roots : fid -> Prop) : Prop :=
  forall f g, g ∈ direct_list (plan f) ->
    ~ roots g /\ (forall f', calls f' g -> f' = f) /\ ~ reaches g f /\
    exists l1 l2, call_list (plan f) = l1 ++ g :: l2 /\ g ∉ l1 ++ l2.

End spec.

Scheme may_mut := Minimality for may Sort Prop
  with from_mut := Minimality for from Sort Prop.
Combined Scheme may_from_ind from may_mut, from_mut.
