(** * C44: the order of the declarations does not matter (the phases). *)
From Coq Require Import Ascii String.
From stdpp Require Import base list gmap relations sets.
From Verif Require SpecLookup.
From Verif Require Import GoString ErrorCode Scc Engine SpecEngine EngineProofs CodeSet Annotation Constant GoAst Taint Extract
  Analyse SpecCodes SpecTaint SpecMay SpecProgram SpecClaims SpecInterfaces Termination Phase ErrorTypes Claims Interfaces Conversions Verify SpecRun SpecEnd
  LookupProofs PropLookup ExprProofs ClaimsProofs PhaseProofs PropFacts CheckEngine SpecArrange.

(** ** The package in another order *)
Definition with_lists (pk : package) ds gs ts : package := Package (pk_funcs pk) ds gs ts (pk_objs pk) (pk_comments pk) (pk_info pk).
Lemma rearranged_lists pk pk' : rearranged pk pk' -> pk' = with_lists pk (pk_decls pk') (pk_gendecls pk') (pk_top pk').
Proof. intros [F O C I _ _ _ _]. destruct pk' as [fs ds gs ts os cs info]. cbn in *. unfold with_lists. by subst. Qed.

(** Two lookup tables that find the same. *)
Record same_lookup (pk : package) (lk lk' : lookup_table) : Prop := {
  sl_functions : lk_functions lk' = lk_functions lk;
  sl_method : forall t m, searchMethod pk lk' t m = searchMethod pk lk t m
}.

Section model.
Context (pk : package) (ds : list fid) (gs : list gendecl) (ts : list topdecl).
Notation pk' := (with_lists pk ds gs ts).

Lemma spread_same rec rec' o st n : (forall i st, rec i st = rec' i st) -> spread_node pk' rec o st n = spread_node pk rec' o st n.
Proof.
  intros H.
  assert (forall e st, processAssignedExpr pk' rec e st = processAssignedExpr pk rec' e st) as Hp.
  { intros e s. unfold processAssignedExpr. change (obj_of pk') with (obj_of pk). destruct (as_ident (unparen e)) as [i|]; [|done].
    destruct (i_obj i) as [x|]; [|done]. destruct (ob_is_var _); [apply H|done]. }
  unfold spread_node. destruct (as_funclit n) as [f|]; [done|]. destruct (as_assign n) as [[lhs rhs]|]; [|done].
  generalize 0 as k. generalize (bool_decide (length lhs = length rhs)) as b. intros b. revert st.
  induction lhs as [|l lhs IH]; intros st k; [done|]. cbn [spread_lhs]. rewrite <-IH. f_equal.
  destruct (as_ident (unparen l)) as [li|]; [|done]. destruct (decide _); [|done]. destruct b; [|done]. destruct (rhs !! k); [|done]. apply Hp.
Qed.
Lemma find_spread_same fn param fuel i st : findSpread pk' fn param fuel i st = findSpread pk fn param fuel i st.
Proof.
  revert i st. induction fuel as [|n IH]; intros i st; [done|]. cbn [findSpread].
  change (isIdentOriginOutsideFunctionScope pk') with (isIdentOriginOutsideFunctionScope pk).
  destruct (_ && _); [done|]. destruct (decide _); [done|]. destruct (i_obj i) as [o|]; [|done]. destruct (decide _); [done|].
  assert (forall s, spread_init pk' (findSpread pk' fn param n) o s = spread_init pk (findSpread pk fn param n) o s) as Hi.
  { intros s. unfold spread_init. change (obj_of pk') with (obj_of pk). destruct (ob_decl (obj_of pk o)); try done. destruct values as [|v0 vs]; [done|].
    destruct (find_value o names 0) as [[k m]|]; [|done]. destruct (decide _); [|done]. destruct (_ !! k) as [v|]; [|done].
    unfold processAssignedExpr. change (obj_of pk') with (obj_of pk). destruct (as_ident (unparen v)) as [j|]; [|done].
    destruct (i_obj j) as [x|]; [|done]. destruct (ob_is_var _); [apply IH|done]. }
  rewrite Hi. destruct (fn_body fn) as [b|]; [|done]. generalize (spread_init pk (findSpread pk fn param n) o (mark_visited o st)).
  induction (walk b) as [|x l IHl]; intros s; [done|]. cbn [foldl]. rewrite (spread_same _ (findSpread pk fn param n)) by apply IH. apply IHl.
Qed.
Lemma taint_same fn param v i : taintSpread pk' fn param v i = taintSpread pk fn param v i.
Proof. apply find_spread_same. Qed.

Lemma constructor_same fa fn : ectractErrorCodesFromConstructor pk' fa fn = ectractErrorCodesFromConstructor pk fa fn.
Proof.
  unfold ectractErrorCodesFromConstructor. change (importErrorConstructorFact pk' fa) with (importErrorConstructorFact pk fa).
  destruct (importErrorConstructorFact pk fa fn) as [p|]; [|done]. destruct (getParamIdent (fn_type fn) p) as [i|]; [|done]. by rewrite taint_same.
Qed.

Context (lk lk' : lookup_table) (Hlk : same_lookup pk lk lk') (fa : facts).
Lemma call_same lam lam' fn f cal call : (forall i, lam i = lam' i) ->
  findErrorCodesFromFunctionCall pk' lk' fa lam fn f cal call = findErrorCodesFromFunctionCall pk lk fa lam' fn f cal call.
Proof.
  intros H. unfold findErrorCodesFromFunctionCall. rewrite (sl_functions _ _ _ Hlk).
  change (searchMethod pk') with (searchMethod pk).
  destruct (match cal with Some o => fa_codes fa !! o | None => None end); [done|]. cbn zeta. change (extractErrorCodesFromTypeConversion pk') with (extractErrorCodesFromTypeConversion pk).
  destruct (decide _); [done|]. destruct (as_ident (unparen f)) as [i|].
  - destruct (i_obj i) as [o|]; [|done]. change (obj_of pk') with (obj_of pk). destruct (ob_decl (obj_of pk o)); try done; by rewrite H.
  - destruct (as_selector (unparen f)) as [[x sel]|]; [|done]. change (pk_info pk') with (pk_info pk).
    destruct (match as_ident (unparen x) with Some t => ti_pkgname (pk_info pk) (i_id t) | None => None end); [done|].
    destruct (ti_selection (pk_info pk) (node_id (unparen f))) as [[o recv]|]; [|done]. by rewrite (sl_method _ _ _ Hlk).
Qed.
Lemma map_same {A B} (f g : A -> B) l : (forall x, f x = g x) -> map f l = map g l.
Proof. intros H. induction l as [|x l IH]; [done|]. cbn [map]. by rewrite H, IH. Qed.
Lemma lambdas_same fn i : findErrorCodesFromAllAssignedLambdas pk' lk' fa fn i = findErrorCodesFromAllAssignedLambdas pk lk fa fn i.
Proof.
  unfold findErrorCodesFromAllAssignedLambdas, all_assigned_lambdas. rewrite taint_same. destruct (negb _); [done|]. do 3 f_equal.
  apply map_same. intros e. unfold findErrorCodesInLambdaAssignment. destruct (as_funclit (unparen e)); [done|].
  change (pk_info pk') with (pk_info pk).
  destruct (as_ident (unparen e)) as [r|]; [by apply call_same|]. destruct (as_selector (unparen e)) as [[x sel]|]; [|done]. by apply call_same.
Qed.
Lemma call_expr_same fn e : findErrorCodesInCallExpression pk' lk' fa fn e = findErrorCodesInCallExpression pk lk fa fn e.
Proof.
  unfold findErrorCodesInCallExpression. destruct (as_call e) as [[f args]|]; [|done]. change (callee pk') with (callee pk). apply call_same. apply lambdas_same.
Qed.
Lemma exprs_same (rec rec' : expr_analysis) v l : (forall v e, rec v e = rec' v e) -> codes_of_exprs rec v l = codes_of_exprs rec' v l.
Proof.
  intros H. revert v. induction l as [|e l IH]; intros v; [done|]. cbn [codes_of_exprs]. rewrite H. destruct (rec' v e) as [c v1]. by rewrite IH.
Qed.
Lemma destructs_same (rec rec' : expr_analysis) fn v l : (forall v e, rec v e = rec' v e) ->
  codes_of_destructs pk' lk' fa rec fn v l = codes_of_destructs pk lk fa rec' fn v l.
Proof.
  intros H. revert v. induction l as [|d l IH]; intros v; [done|]. cbn [codes_of_destructs].
  assert (codes_of_destruct pk' lk' fa rec fn v d = codes_of_destruct pk lk fa rec' fn v d) as ->.
  { unfold codes_of_destruct. rewrite call_expr_same. change (pk_info pk') with (pk_info pk). destruct (unparen (de_source d)) as [x k kids] eqn:E.
    rewrite <-E. destruct k; try done. destruct kids as [|y [|]]; try done. }
  destruct (codes_of_destruct pk lk fa rec' fn v d) as [c v1]. by rewrite IH.
Qed.
Lemma ident_same (rec rec' : expr_analysis) fn v i : (forall v e, rec v e = rec' v e) ->
  findErrorCodesFromIdentTaint pk' lk' fa rec fn v i = findErrorCodesFromIdentTaint pk lk fa rec' fn v i.
Proof.
  intros H. unfold findErrorCodesFromIdentTaint. rewrite taint_same. destruct (negb _); [done|]. rewrite (exprs_same rec rec') by done.
  destruct (codes_of_exprs rec' _ _) as [c v1]. by rewrite (destructs_same rec rec').
Qed.
Lemma leaf_same fn e : leaf pk' lk' fa fn e = leaf pk lk fa fn e.
Proof.
  unfold leaf. rewrite call_expr_same. change (extractErrorCodesFromAffector pk') with (extractErrorCodesFromAffector pk).
  change (pk_info pk') with (pk_info pk). reflexivity.
Qed.
Lemma expr_same fn fuel v e : findErrorCodesInExpression pk' lk' fa fn fuel v e = findErrorCodesInExpression pk lk fa fn fuel v e.
Proof.
  revert v e. induction fuel as [|n IH]; intros v e; [reflexivity|]. rewrite !expression_cases. change (root_ident pk') with (root_ident pk).
  destruct (root_ident pk e) as [i|]; [by apply ident_same|]. by rewrite leaf_same.
Qed.
Lemma return_same fn v s : codes_of_return pk' lk' fa fn v s = codes_of_return pk lk fa fn v s.
Proof.
  assert (forall l, findErrorCodesInReturnStmt pk' lk' fa fn v l = findErrorCodesInReturnStmt pk lk fa fn v l) as H.
  { intros l. unfold findErrorCodesInReturnStmt. change (expr_fuel pk') with (expr_fuel pk). destruct (return_expression fn l); [apply expr_same|reflexivity]. }
  unfold codes_of_return. change (pk_comments pk') with (pk_comments pk). destruct (getReturnStmtAnnotations _) as [a d].
  destruct a as [a|]; rewrite !H; reflexivity.
Qed.
Lemma returns_same fn v l : codes_of_returns pk' lk' fa fn v l = codes_of_returns pk lk fa fn v l.
Proof.
  revert v. induction l as [|s l IH]; intros v; [reflexivity|]. cbn [codes_of_returns]. rewrite return_same.
  destruct (codes_of_return pk lk fa fn v s) as [c v1]. by rewrite IH.
Qed.
Lemma plan_same tr f : plan pk' lk' fa tr f = plan pk lk fa tr f.
Proof.
  unfold plan. change (pk_funcs pk') with (pk_funcs pk). destruct (pk_funcs pk !! f) as [fn|]; [|reflexivity]. unfold function_effect.
  assert (findErrorCodesInFunctionReturnStmts pk' lk' fa fn = findErrorCodesInFunctionReturnStmts pk lk fa fn) as ->.
  { unfold findErrorCodesInFunctionReturnStmts. destruct (fn_body fn); [apply returns_same|reflexivity]. }
  rewrite constructor_same. destruct (findErrorCodesInFunctionReturnStmts pk lk fa fn) as [c v]. f_equal.
Qed.
End model.

(** ** Which declarations are found *)
Lemma has_method_same pk ds gs ts t m o : SpecLookup.has_method (with_lists pk ds gs ts) t m o <-> SpecLookup.has_method pk t m o.
Proof. split; (intros [H|H1 H2 H3]; [by apply SpecLookup.hm_value|by apply SpecLookup.hm_address]). Qed.

Section lookups.
Context (pk pk' : package) (Hra : rearranged pk pk') (Hon : declared_once pk) (Hdd : distinct_definitions pk).
Notation lk := (collectFunctions pk).
Notation lk' := (collectFunctions pk').
Lemma same_functions : lk_functions lk' = lk_functions lk.
Proof. apply map_eq. intros n. apply option_eq. intros g. rewrite !C39_function. apply (ra_named _ _ Hra). Qed.
Lemma decls_nodup : NoDup (pk_decls pk').
Proof. rewrite (ra_decls _ _ Hra). apply (on_functions _ Hon). Qed.
Lemma same_object f g o : SpecLookup.declares_object pk f o -> SpecLookup.declares_object pk g o -> f = g.
Proof. intros Hf Hg. by injection (Hdd (DFunc f) (DFunc g) o Hf Hg) as ->. Qed.
Lemma declared_method (q : package) t m g : q = with_lists pk (pk_decls q) (pk_gendecls q) (pk_top q) -> NoDup (pk_decls q) ->
  SpecLookup.method_declared q t m g <->
  exists o, SpecLookup.has_method pk t m o /\ g ∈ pk_decls q /\ SpecLookup.declares_method pk g m /\ SpecLookup.declares_object pk g o.
Proof.
  intros Hq Hnd. unfold SpecLookup.method_declared. split.
  - intros (o&pre&post&H1&H2&H3&H4&_). exists o. rewrite Hq in H1, H3, H4. split; [by eapply has_method_same|].
    split; [rewrite H2; set_solver|]. done.
  - intros (o&H1&(pre&post&H2)%elem_of_list_split&H3&H4). exists o, pre, post. split; [rewrite Hq; by apply has_method_same|].
    split; [done|]. rewrite Hq. split; [done|]. split; [done|]. intros f Hf _ Ho.
    assert (f = g) as -> by (by eapply same_object). rewrite H2 in Hnd. apply NoDup_app in Hnd as (_&Hdis&_). apply (Hdis g Hf). by left.
Qed.
Lemma lists_self (q : package) : q = with_lists q (pk_decls q) (pk_gendecls q) (pk_top q).
Proof. by destruct q. Qed.
Lemma lookup_same : same_lookup pk lk lk'.
Proof.
  split; [exact same_functions|]. intros t m.
  assert (searchMethod pk lk' t m = searchMethod pk' lk' t m) as ->.
  { rewrite (rearranged_lists _ _ Hra). reflexivity. }
  apply option_eq. intros g. rewrite !C39_method.
  rewrite (declared_method pk' t m g (rearranged_lists _ _ Hra) decls_nodup), (declared_method pk t m g (lists_self pk) (on_functions _ Hon)).
  setoid_rewrite (ra_decls _ _ Hra). done.
Qed.
Lemma known_same f fn : known_function pk' f fn <-> known_function pk f fn.
Proof.
  assert (forall q, q = with_lists pk (pk_decls q) (pk_gendecls q) (pk_top q) -> known_function q f fn <->
    pk_funcs pk !! f = Some fn /\ ((is_method fn /\ f ∈ pk_decls q) \/ (~ is_method fn /\ SpecLookup.function_named q (name_of fn) f))) as H.
  { intros q Hq. assert (pk_funcs q = pk_funcs pk) as Hpf by (by rewrite Hq).
    assert (forall g gn, pk_funcs pk !! g = Some gn -> SpecLookup.declares_function q g (name_of fn) <-> ~ is_method gn /\ name_of gn = name_of fn) as Hdf.
    { intros g gn Hg. rewrite declares_function_spec, Hpf. pose proof (is_method_spec gn) as Hm. split.
      - intros (gn'&E&H1&H2). assert (gn' = gn) as -> by congruence. split; [|done]. rewrite <-Hm. by rewrite H1.
      - intros [H1 H2]. exists gn. split; [done|]. split; [|done]. apply not_true_iff_false. by rewrite Hm. }
    unfold known_function, SpecLookup.function_named. rewrite Hpf. split.
    - intros (pre&post&H1&H2&H3). split; [done|]. destruct (decide (isMethod fn = true)) as [Hm|Hm]; rewrite is_method_spec in Hm.
      + left. split; [done|]. rewrite H1. set_solver.
      + right. split; [done|]. exists pre, post. split; [done|]. split; [by apply (Hdf f fn H2)|]. destruct H3 as [?|H3]; [done|].
        intros g Hg Hgd. assert (exists gn, pk_funcs pk !! g = Some gn) as (gn&Hgn).
        { apply declares_function_spec in Hgd as (gn&Hgn&_). rewrite Hpf in Hgn. eauto. }
        destruct (proj1 (Hdf g gn Hgn) Hgd) as [? ?]. by apply (H3 g gn).
    - intros (H2&[[Hm (pre&post&H1)%elem_of_list_split]|[Hm (pre&post&H1&H3&H4)]]); exists pre, post; (split; [done|]); (split; [done|]); [by left|].
      right. intros g gn Hg Hgn Hgm Hn. apply (H4 g Hg). by apply (Hdf g gn Hgn). }
  rewrite (H pk' (rearranged_lists _ _ Hra)), (H pk (lists_self pk)), (ra_decls _ _ Hra), (ra_named _ _ Hra). done.
Qed.
Lemma lookup_all_same : lookup_all lk' ≡ₚ lookup_all lk.
Proof.
  apply NoDup_Permutation; [apply known_nodup, decls_nodup|apply known_nodup, (on_functions _ Hon)|].
  intros f. rewrite !known_spec. by setoid_rewrite known_same.
Qed.
Lemma orders_same ord : orders_ok lk ord <-> orders_ok lk' ord.
Proof. split; (intros [H1 ???????]; constructor; [|done..]); rewrite H1; [symmetry|]; apply lookup_all_same. Qed.
End lookups.
