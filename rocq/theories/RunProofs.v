(** * Proofs about complete runs. *)
From stdpp Require Import base list gmap relations sets.
From Verif Require Import GoString ErrorCode Scc Engine SpecEngine EngineProofs EngineTheorems CodeSet Annotation Constant GoAst Taint Extract
  Analyse SpecCodes SpecTaint SpecMay SpecProgram Termination Phase ErrorTypes Claims Interfaces Conversions Verify SpecRun RunEngine
  OwnProofs ProgramProofs ObserveProofs MainLoop SpecClaims ClaimsProofs FactProofs.

Lemma runVerify_completes pk strict ord fa fa' ds : runVerify pk strict ord fa = Ok (fa', ds) <->
  exists r, completes pk strict ord fa r /\ fa' = facts_after pk ord r /\ ds = r_diags r.
Proof.
  unfold runVerify, pbind. split.
  - destruct (findAndTagErrorTypes _ _ _) as [[fa1 d1]| |] eqn:E1; [|done|done].
    destruct (findErrorReturningInterfaces _ _ _ _) as [[ifaces d2]| |] eqn:E2; [|done|done].
    destruct (findErrorReturningFunctions _ _) as [[funcs d3]| |] eqn:E3; [|done|done].
    destruct (findClaimedErrorCodes _ _ _) as [[claims d4]| |] eqn:E4; [|done|done].
    match goal with |- context [verify_claims ?a ?b ?c ?d ?e ?f] => destruct (verify_claims a b c d e f) as [st| |] eqn:E5; [|done|done] end.
    match goal with |- context [check_all ?a ?b ?c ?d ?e ?f ?g ?h] => destruct (check_all a b c d e f g h) as [st'| |] eqn:E6; [|done|done] end.
    intros [= <- <-]. exists (Run fa1 ifaces funcs claims st st' d1 d2 d3 d4). split; [by constructor|]. done.
  - intros (r&[E1 E2 E3 E4 E5 E6]&->&->). rewrite E1, E2, E3, E4.
    unfold run_depth, facts_after, facts_during in E5, E6. rewrite E5, E6. done.
Qed.

Lemma completes_looped pk strict ord fa r : completes pk strict ord fa r -> looped pk strict ord fa r.
Proof. intros []. constructor; [by constructor|done]. Qed.
Coercion completes_looped : completes >-> looped.
Coercion lo_prepared : looped >-> prepared.

Section prepared.
Context (pk : package) (strict : bool) (ord : orders) (fa : facts) (r : run).
Notation lk := (collectFunctions pk).
Context (Hr : prepared pk strict ord fa r) (Hord : orders_ok lk ord).

Lemma tracked_order s o : o ∈ or_tracked ord s <-> o ∈ s.
Proof. by rewrite (ok_tracked _ _ Hord), elem_of_elements. Qed.
Lemma claims_order k f : f ∈ or_claims ord k (dom (r_claims r)) <-> is_Some (r_claims r !! f).
Proof. by rewrite (ok_claims _ _ Hord), elem_of_elements, elem_of_dom. Qed.

Lemma prepared_funcs f : f ∈ r_funcs r <-> exists fn, known_function pk f fn /\ returns_error_last pk (fn_type fn).
Proof.
  pose proof (pr_funcs _ _ _ _ _ Hr) as H. apply find_returning in H as (Ha&->&_).
  rewrite elem_of_list_filter, (ok_each _ _ Hord), known_spec. unfold returns_error. split.
  - intros [Hb (fn&Hk)]. exists fn. split; [done|]. destruct Hk as (b&a&_&Hf&_). rewrite Hf in Hb. by apply ends_in_error_spec.
  - intros (fn&Hk&Hret). split; [|eauto]. destruct Hk as (b&a&_&Hf&_). rewrite Hf. by apply ends_in_error_spec.
Qed.
(** What the functions declare. *)
Lemma prepared_claims f codes param : r_claims r !! f = Some (Claim codes param) <->
  exists fn, known_function pk f fn /\ returns_error_last pk (fn_type fn) /\ declares_codes pk fn codes param.
Proof.
  pose proof (pr_claims _ _ _ _ _ Hr) as H. apply find_claims in H as (Ha&Hc&_). rewrite Hc. split.
  - case_decide as Hf; [|done]. apply prepared_funcs in Hf as (fn&Hk&Hret). unfold func_claim.
    assert (pk_funcs pk !! f = Some fn) as -> by (by destruct Hk as (?&?&_&?&_)). cbn [mbind option_bind]. rewrite claim_result_spec. eauto.
  - intros (fn&Hk&Hret&Hd). rewrite decide_True by (apply prepared_funcs; eauto). unfold func_claim.
    assert (pk_funcs pk !! f = Some fn) as -> by (by destruct Hk as (?&?&_&?&_)). cbn [mbind option_bind]. by rewrite claim_result_spec.
Qed.
Lemma prepared_known f : is_Some (r_claims r !! f) -> f ∈ lookup_all lk.
Proof. intros [[codes param] (fn&Hk&_)%prepared_claims]. apply known_spec. eauto. Qed.
Lemma prepared_depth fa' : size (program_functions pk lk fa' (or_tracked ord) (or_claims ord 1 (dom (r_claims r)))) <=
  size (program_functions pk lk fa' (or_tracked ord) (lookup_all lk)).
Proof.
  apply subseteq_size. unfold program_functions. intros f. rewrite !elem_of_union, !elem_of_list_to_set.
  intros [[Hf|?]|?]; [|by auto..]. left; left. apply prepared_known. by apply (claims_order 1).
Qed.
End prepared.

Section run.
Context (pk : package) (strict : bool) (ord : orders) (fa : facts) (r : run).
Notation lk := (collectFunctions pk).
Context (Hr : looped pk strict ord fa r) (Hord : orders_ok lk ord).
Notation fd := (facts_during pk ord r).
Notation Hp := (lo_prepared _ _ _ _ _ Hr).

Lemma run_funcs f : f ∈ r_funcs r <-> exists fn, known_function pk f fn /\ returns_error_last pk (fn_type fn).
Proof. exact (prepared_funcs pk strict ord fa r Hp Hord f). Qed.
Lemma run_claims f codes param : r_claims r !! f = Some (Claim codes param) <->
  exists fn, known_function pk f fn /\ returns_error_last pk (fn_type fn) /\ declares_codes pk fn codes param.
Proof. exact (prepared_claims pk strict ord fa r Hp Hord f codes param). Qed.
Lemma claims_known f : is_Some (r_claims r !! f) -> f ∈ lookup_all lk.
Proof. exact (prepared_known pk strict ord fa r Hp Hord f). Qed.
Lemma depth_enough fa' : size (program_functions pk lk fa' (or_tracked ord) (or_claims ord 1 (dom (r_claims r)))) <=
  size (program_functions pk lk fa' (or_tracked ord) (lookup_all lk)).
Proof. exact (prepared_depth pk strict ord fa r Hp Hord fa'). Qed.
Lemma run_loop : usable_functions pk fd -> no_literal_recursion pk lk fd ->
  loop_post pk lk fd (or_tracked ord) (r_claims r) (or_claims ord 1 (dom (r_claims r))) (r_loop r).
Proof.
  intros Hus Hlit. eapply verify_loop; [done|done| |exact (lo_loop _ _ _ _ _ Hr)].
  etrans; [apply depth_enough|]. unfold run_depth, run_fuel. lia.
Qed.
End run.
