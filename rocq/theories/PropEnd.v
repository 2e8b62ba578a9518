(** * C21: the analysis comes to an end, for every package. *)
From Coq Require Import Ascii String.
From stdpp Require Import base list gmap sets.
From Verif Require Import GoString ErrorCode Scc Engine SpecEngine CodeSet Constant GoAst Taint Extract Analyse Termination TaintProofs Phase PhaseProofs
  ErrorTypes Claims Interfaces Conversions Verify SpecRun RunEngine SafeEngine MainLoop RunProofs CheckEngine RunChecks EndProofs Counting.

(** The recursive functions of the model count down a depth: the inter-procedural analysis, the embedding of interfaces and the
    analysis of Code methods answer [OutOfFuel] when it is exhausted.  This never happens: no assumption on the package (recursive
    functions, cyclic assignments, cyclic embeddings) is needed. *)
Theorem C21_terminates pk strict ord fa : orders_ok (collectFunctions pk) ord -> runVerify pk strict ord fa <> OutOfFuel.
Proof.
  intros Hord. unfold runVerify, pbind.
  pose proof (error_types_end pk (collectFunctions pk) fa) as H1. unfold ends in H1.
  destruct (findAndTagErrorTypes _ _ _) as [[fa1 d1]| |] eqn:E1; [|done|done].
  pose proof (interfaces_end pk fa1 (or_embedded ord) (or_embedding ord)) as H2. unfold ends in H2.
  destruct (findErrorReturningInterfaces _ _ _ _) as [[ifaces d2]| |] eqn:E2; [|done|done].
  pose proof (functions_ends pk (or_each ord)) as H3. unfold ends in H3.
  destruct (findErrorReturningFunctions _ _) as [[funcs d3]| |] eqn:E3; [|done|done].
  pose proof (claims_end pk strict funcs) as H4. unfold ends in H4.
  destruct (findClaimedErrorCodes _ _ _) as [[claims d4]| |] eqn:E4; [|done|done].
  assert (prepared pk strict ord fa (Run fa1 ifaces funcs claims est_start est_start d1 d2 d3 d4)) as Hp by by constructor.
  set (lk := collectFunctions pk) in *. cbn zeta.
  set (fa2 := exportInterfaceFacts _ _ _ _). set (fa3 := exportErrorConstructorFacts _ _ _ _). set (fa4 := exportErrorCodeFacts _ _ _ _).
  set (fuel := run_fuel _ _ _ _ _ _).
  assert (verify_claims pk (plan pk lk fa3 (or_tracked ord)) fuel claims (or_claims ord 1 (dom claims)) est_start <> OutOfFuel) as H5.
  { apply verify_ends. pose proof (prepared_depth pk strict ord fa _ Hp Hord fa3) as Hd. cbn [r_claims] in Hd. fold lk in Hd.
    unfold fuel, run_fuel. lia. }
  destruct (verify_claims _ _ fuel _ _ _) as [st| |]; [|done|done].
  assert (check_all pk lk fa4 (plan pk lk fa4 (or_tracked ord)) fuel (or_checks ord) (all_conversions pk fa4) st <> OutOfFuel) as H6.
  { rewrite check_all_steps. apply steps_ends. intros g st1 Hg E.
    assert (g ∈ lookup_all lk) as Hk.
    { change fa4 with (facts_after pk ord (Run fa1 ifaces funcs claims est_start est_start d1 d2 d3 d4)) in Hg. by eapply queries_known. }
    pose proof (find_ends (plan pk lk fa4 (or_tracked ord)) (program_functions pk lk fa4 (or_tracked ord) (lookup_all lk))
      ltac:(intros ? ? ? ?; by eapply program_closed) fuel g st1) as H.
    rewrite E in H. apply H.
    - unfold program_functions. rewrite !elem_of_union, elem_of_list_to_set. auto.
    - eapply Nat.le_lt_trans; [apply (subseteq_size _ (program_functions pk lk fa4 (or_tracked ord) (lookup_all lk))); set_solver|].
      unfold fuel, run_fuel. lia. }
  destruct (check_all _ _ _ _ fuel _ _ _) as [st'| |]; [done|done|done].
Qed.

(** Variable tracking is never cut off (a function without body makes the analyzer panic). *)
Theorem C21_tracking pk fn param visited i : fn_body fn <> None -> ts_ok (taintSpread pk fn param visited i) = true.
Proof.
  intros Hb. destruct (fn_body fn) as [body|] eqn:E; [|done]. by destruct (taintSpread_grows pk fn param body E visited i) as [H _ _ _].
Qed.
(** The recursion over expressions is never cut off: more depth does not change the result. *)
Theorem C21_expression pk lk fa fn visited e fuel : fn_body fn <> None -> expr_fuel pk <= fuel ->
  findErrorCodesInExpression pk lk fa fn fuel visited e = findErrorCodesInExpression pk lk fa fn (expr_fuel pk) visited e.
Proof. intros Hb Hf. destruct (fn_body fn) as [body|] eqn:E; [|done]. by apply (function_fuel pk lk fa fn body). Qed.

(** ** The number of functions analysed *)

(** [analysed plan fuel todo names]: when the functions [todo] are analysed one after the other (those already done are looked up),
    the bodies analysed on the way are those of [names], in this order.  The engine is run with a plan that records the beginning of
    every analysis of a body; recording has no other effect (third conjunct). *)
Definition analysed {D} (plan : fid -> eff D) (fuel : nat) (todo : list fid) (names : list fid) : Prop :=
  exists res st, analyse_all (logged plan) fuel todo est_start = Ok (res, st) /\ names = log_of (e_diags st) /\
    analyse_all plan fuel todo est_start = Ok (res, erase st).
Lemma analysed_exists {D} (plan : fid -> eff D) fuel todo res st : analyse_all plan fuel todo est_start = Ok (res, st) ->
  exists names, analysed plan fuel todo names.
Proof.
  intros E. pose proof (analyse_erase plan fuel todo est_start) as H. change (erase est_start) with (est_start (D := D)) in H.
  destruct (analyse_all (logged plan) fuel todo est_start) as [[res' st']| |] eqn:E'; [|congruence|congruence].
  exists (log_of (e_diags st')), res', st'. done.
Qed.
(** No function is analysed twice, and only functions of the package: so the number of analyses is at most the number of functions and
    literals. *)
Theorem C21_bounded pk lk fa order fuel todo names : analysed (plan pk lk fa order) fuel todo names ->
  NoDup names /\ (forall g, g ∈ names -> is_Some (pk_funcs pk !! g)) /\ length names <= size (pk_funcs pk).
Proof.
  intros (res&st&E&->&E0). pose proof (analyse_log (plan pk lk fa order) fuel todo est_start) as H. rewrite E in H.
  destruct H as [(l&Hl&Hnd&Hd&_)]. rewrite Hl. cbn [est_start e_diags log_of omap list_omap app].
  assert (forall g, g ∈ l -> is_Some (pk_funcs pk !! g)) as Hin.
  { intros g Hg. destruct (analyse_safe (plan pk lk fa order) fuel todo est_start res (erase st) E0 g) as [H|H].
    - change (e_scc (erase st)) with (e_scc st). rewrite Hd. set_solver.
    - cbn in H. set_solver.
    - unfold plan in H. by destruct (pk_funcs pk !! g). }
  split_and!; [done|done|].
  rewrite <-(size_dom (D := gset fid)). rewrite <-(size_list_to_set (C := gset fid) l Hnd). apply subseteq_size.
  intros g Hg%elem_of_list_to_set. by apply elem_of_dom, Hin.
Qed.
