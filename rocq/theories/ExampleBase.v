(** * Helpers to write down concrete packages (the tables of the type checker as lists). *)
From Coq Require Import Ascii String.
From stdpp Require Import base list gmap.
From Verif Require Import GoString ErrorCode Scc Engine CodeSet Annotation Constant GoAst Taint Extract Analyse Phase ErrorTypes Claims Interfaces
  Conversions Verify SpecMay SpecProgram SpecRun RunProofs.
Local Open Scope N_scope.

Fixpoint lookup_in {A} (l : list (N * A)) (n : N) : option A :=
  match l with [] => None | (k, a) :: l' => if k =? n then Some a else lookup_in l' n end.
Fixpoint lookup_method (l : list (gotype * gostring * tobj)) (t : gotype) (m : gostring) : option tobj :=
  match l with
  | [] => None
  | (t', m', o) :: l' => if decide (t' = t /\ m' = m) then Some o else lookup_method l' t m
  end.
Definition table_info (types : list (N * gotype)) (values : list (N * constval)) (uses defs : list (N * tobj)) (sels : list (N * (tobj * gotype)))
  (typenames : list N) (pkgnames : list (N * gostring)) (objnames : list (N * gostring)) (objtypes underlying : list (N * gotype))
  (methods : list (gotype * gostring * tobj)) (impl_error impl_ree impl_cause : list gotype) (impl : list (gotype * gotype))
  (named_methods : list (N * list gostring)) : typeinfo := {|
  ti_type := lookup_in types; ti_value := lookup_in values; ti_uses := lookup_in uses; ti_defs := lookup_in defs;
  ti_selection := lookup_in sels; ti_is_typename := fun o => bool_decide (o ∈ typenames); ti_pkgname := lookup_in pkgnames;
  ti_objname := fun o => default [] (lookup_in objnames o); ti_objtype := fun o => default TUntypedNil (lookup_in objtypes o);
  ti_underlying := fun o => default TUntypedNil (lookup_in underlying o); ti_methods := lookup_method methods;
  ti_implements_error := fun t => bool_decide (t ∈ impl_error); ti_implements_ree := fun t => bool_decide (t ∈ impl_ree);
  ti_implements_cause := fun t => bool_decide (t ∈ impl_cause); ti_implements := fun t i => bool_decide ((t, i) ∈ impl);
  ti_named_methods := fun o => default [] (lookup_in named_methods o); ti_is_print := fun _ => true; ti_is_upper := fun _ => false; ti_compound := fun _ => false |}.

(** One possible choice of iteration orders. *)
Definition some_run_orders (lk : lookup_table) : orders :=
  Orders (lookup_all lk) (fun _ s => elements s) elements elements (fun _ s => elements s) elements elements (fun _ s => elements s).
Lemma some_run_orders_ok lk : orders_ok lk (some_run_orders lk).
Proof. by constructor. Qed.
(** The opposite ones. *)
Definition other_run_orders (lk : lookup_table) : orders :=
  Orders (reverse (lookup_all lk)) (fun _ s => reverse (elements s)) (fun s => reverse (elements s)) (fun s => reverse (elements s))
    (fun _ s => reverse (elements s)) (fun s => reverse (elements s)) (fun s => reverse (elements s)) (fun _ s => reverse (elements s)).
Lemma other_run_orders_ok lk : orders_ok lk (other_run_orders lk).
Proof. by constructor; intros; cbn; rewrite reverse_Permutation. Qed.

Definition no_facts : facts := Facts ∅ ∅ ∅ ∅.

(** The run, computed. *)
Definition get {A} (d : A) (m : phase A) : A * list diag := match m with Ok x => x | _ => (d, []) end.
Definition get_state (o : outcome (est diag)) : est diag := match o with Ok s => s | _ => est_start end.
Definition run_of (pk : package) (strict : bool) (ord : orders) (fa : facts) : run :=
  let lk := collectFunctions pk in
  let t := get fa (findAndTagErrorTypes pk lk fa) in
  let i := get ∅ (findErrorReturningInterfaces pk t.1 (or_embedded ord) (or_embedding ord)) in
  let f := get [] (findErrorReturningFunctions pk (or_each ord)) in
  let c := get ∅ (findClaimedErrorCodes pk strict f.1) in
  let r0 := Run t.1 i.1 f.1 c.1 est_start est_start t.2 i.2 f.2 c.2 in
  let l := get_state (verify_claims pk (plan pk lk (facts_during pk ord r0) (or_tracked ord)) (run_depth pk ord r0) c.1 (or_claims ord 1 (dom c.1)) est_start) in
  let e := get_state (check_all pk lk (facts_after pk ord r0) (plan pk lk (facts_after pk ord r0) (or_tracked ord)) (run_depth pk ord r0) (or_checks ord)
             (all_conversions pk (facts_after pk ord r0)) l) in
  Run t.1 i.1 f.1 c.1 l e t.2 i.2 f.2 c.2.
Lemma run_of_completes pk strict ord fa r : completes pk strict ord fa r -> r = run_of pk strict ord fa.
Proof.
  intros [E1 E2 E3 E4 E5 E6]. unfold run_of. rewrite E1. cbn [get fst snd]. rewrite E2. cbn [get fst snd]. rewrite E3. cbn [get fst snd].
  rewrite E4. cbn [get fst snd]. destruct r as [t i f c l e d1 d2 d3 d4].
  cbn [r_types r_ifaces r_funcs r_claims r_loop r_end r_d1 r_d2 r_d3 r_d4] in *.
  unfold run_depth, facts_after, facts_during in *. cbn [r_types r_ifaces r_funcs r_claims r_loop r_end r_d1 r_d2 r_d3 r_d4] in *.
  rewrite E5. cbn [get_state]. rewrite E6. done.
Qed.
Definition is_ok {A} (o : outcome A) : bool := match o with Ok _ => true | _ => false end.
Lemma run_of_ok pk strict ord fa : is_ok (runVerify pk strict ord fa) = true -> completes pk strict ord fa (run_of pk strict ord fa).
Proof.
  destruct (runVerify pk strict ord fa) as [[fa' ds]| |] eqn:E; [|done|done]. intros _.
  apply runVerify_completes in E as (r&Hr&_). by rewrite <-(run_of_completes _ _ _ _ _ Hr).
Qed.
