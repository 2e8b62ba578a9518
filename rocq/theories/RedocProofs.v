(** * C45: documentation does not influence the analysis of code (the analysis of functions). *)
From Coq Require Import Ascii String.
From stdpp Require Import base list gmap relations sets.
From Verif Require Import GoString ErrorCode Scc Engine CodeSet Annotation Constant GoAst Taint Extract Analyse ExprProofs ArrangeProofs SpecRedoc.

Section model.
Context (pk : package) (docs : fid -> option gostring).
Notation pk' := (with_docs docs pk).

Lemma funcs_redoc f : pk_funcs pk' !! f = redoc (docs f) <$> pk_funcs pk !! f.
Proof. cbn [with_docs pk_funcs]. rewrite map_lookup_imap. by destruct (pk_funcs pk !! f). Qed.

(** ** Functions are found in the same way *)
Lemma collect_one_redoc t f : collect_one pk' t f = collect_one pk t f.
Proof.
  unfold collect_one. rewrite funcs_redoc. destruct (pk_funcs pk !! f) as [fn|]; [|done]. cbn [fmap option_fmap option_map].
  unfold isMethod, func_name. cbn [redoc fn_decl]. by destruct (fn_decl fn).
Qed.
Lemma collect_redoc : collectFunctions pk' = collectFunctions pk.
Proof.
  unfold collectFunctions. change (pk_decls pk') with (pk_decls pk). generalize (Lookup ∅ ∅).
  induction (pk_decls pk) as [|f l IH]; intros t; [done|]. cbn [foldl]. rewrite collect_one_redoc. apply IH.
Qed.
Lemma decl_obj_redoc f : decl_obj pk' f = decl_obj pk f.
Proof.
  unfold decl_obj. rewrite funcs_redoc. destruct (pk_funcs pk !! f) as [fn|]; [|done]. cbn [fmap option_fmap option_map redoc fn_decl].
  by destruct (fn_decl fn).
Qed.
Lemma method_redoc t m lk : searchMethod pk' lk t m = searchMethod pk lk t m.
Proof.
  unfold searchMethod. destruct (lk_methods lk !! m) as [l|]; [|done]. change (searchMethodType pk') with (searchMethodType pk).
  destruct (searchMethodType pk t m) as [o|]; [|done].
  assert (list_find (fun f => decl_obj pk' f = Some o) l = list_find (fun f => decl_obj pk f = Some o) l) as ->; [|done].
  induction l as [|f l IH]; [done|]. cbn [list_find].
  destruct (decide (decl_obj pk f = Some o)) as [H|H].
  - rewrite decide_True; [done|]. by rewrite decl_obj_redoc.
  - rewrite decide_False; [by rewrite IH|]. by rewrite decl_obj_redoc.
Qed.

(** ** Tracking of variables *)
Lemma block_redoc f st : blockParams pk' f st = blockParams pk f st.
Proof. unfold blockParams. rewrite funcs_redoc. by destruct (pk_funcs pk !! f). Qed.
Lemma spread_redoc rec rec' o st n : (forall i st, rec i st = rec' i st) -> spread_node pk' rec o st n = spread_node pk rec' o st n.
Proof.
  intros H.
  assert (forall e st, processAssignedExpr pk' rec e st = processAssignedExpr pk rec' e st) as Hp.
  { intros e s. unfold processAssignedExpr. change (obj_of pk') with (obj_of pk). destruct (as_ident (unparen e)) as [i|]; [|done].
    destruct (i_obj i) as [x|]; [|done]. destruct (ob_is_var _); [apply H|done]. }
  unfold spread_node. destruct (as_funclit n) as [f|]; [apply block_redoc|]. destruct (as_assign n) as [[lhs rhs]|]; [|done].
  generalize 0 as k. generalize (bool_decide (length lhs = length rhs)) as b. intros b. revert st.
  induction lhs as [|l lhs IH]; intros st k; [done|]. cbn [spread_lhs]. rewrite <-IH. f_equal.
  destruct (as_ident (unparen l)) as [li|]; [|done]. destruct (decide _); [|done]. destruct b; [|done]. destruct (rhs !! k); [|done]. apply Hp.
Qed.
Lemma find_spread_redoc d fn param fuel i st : findSpread pk' (redoc d fn) param fuel i st = findSpread pk fn param fuel i st.
Proof.
  revert i st. induction fuel as [|n IH]; intros i st; [done|]. cbn [findSpread].
  assert (isIdentOriginOutsideFunctionScope pk' (redoc d fn) i = isIdentOriginOutsideFunctionScope pk fn i) as -> by done.
  destruct (_ && _); [done|]. destruct (decide _); [done|]. destruct (i_obj i) as [o|]; [|done]. destruct (decide _); [done|].
  assert (forall s, spread_init pk' (findSpread pk' (redoc d fn) param n) o s = spread_init pk (findSpread pk fn param n) o s) as Hi.
  { intros s. unfold spread_init. change (obj_of pk') with (obj_of pk). destruct (ob_decl (obj_of pk o)); try done. destruct values as [|v0 vs]; [done|].
    destruct (find_value o names 0) as [[k m]|]; [|done]. destruct (decide _); [|done]. destruct (_ !! k) as [v|]; [|done].
    unfold processAssignedExpr. change (obj_of pk') with (obj_of pk). destruct (as_ident (unparen v)) as [j|]; [|done].
    destruct (i_obj j) as [x|]; [|done]. destruct (ob_is_var _); [apply IH|done]. }
  rewrite Hi. cbn [redoc fn_body]. destruct (fn_body fn) as [b|]; [|done]. generalize (spread_init pk (findSpread pk fn param n) o (mark_visited o st)).
  induction (walk b) as [|x l IHl]; intros s; [done|]. cbn [foldl]. rewrite (spread_redoc _ (findSpread pk fn param n)) by apply IH. apply IHl.
Qed.
Lemma taint_redoc d fn param v i : taintSpread pk' (redoc d fn) param v i = taintSpread pk fn param v i.
Proof. apply find_spread_redoc. Qed.

(** ** Extraction of codes *)
Context (fa : facts).
Lemma import_redoc d fn : importErrorConstructorFact pk' fa (redoc d fn) = importErrorConstructorFact pk fa fn.
Proof. unfold importErrorConstructorFact. cbn [redoc fn_decl]. by destruct (fn_decl fn). Qed.
Lemma string_redoc d fn e : extractErrorCodeFromStringExpression pk' fa (redoc d fn) e = extractErrorCodeFromStringExpression pk fa fn e.
Proof.
  unfold extractErrorCodeFromStringExpression, checkIfExprIsErrorCodeParam. change (pk_info pk') with (pk_info pk). cbn [redoc fn_type].
  destruct (ti_value (pk_info pk) (node_id e)); [done|]. destruct (as_ident (unparen e)) as [i|]; [|done].
  destruct (getParamPosition (fn_type fn) i) as [p|]; [|done]. fold (redoc d fn). by rewrite import_redoc.
Qed.
Lemma affector_redoc d fn e : extractErrorCodesFromAffector pk' fa (redoc d fn) e = extractErrorCodesFromAffector pk fa fn e.
Proof.
  unfold extractErrorCodesFromAffector. change (checkErrorTypeHasLegibleCode pk') with (checkErrorTypeHasLegibleCode pk).
  change (pk_info pk') with (pk_info pk). 
  destruct (negb _); [done|]. destruct (getErrorTypeForError _ _) as [[et|]|]; [|done|done]. destruct (et_field et) as [f|]; [|done]. f_equal.
  unfold extractFieldErrorCode. destruct (findFieldInitExpression e f.1 f.2) as [[x|]|]; [|done|done]. apply string_redoc.
Qed.
Lemma ctor_call_redoc d fn e cal args :
  extractErrorCodeFromConstructorCall pk' fa (redoc d fn) e cal args = extractErrorCodeFromConstructorCall pk fa fn e cal args.
Proof.
  unfold extractErrorCodeFromConstructorCall. destruct cal as [o|]; [|done]. destruct (fa_ctor fa !! o) as [p|]; [|done]. destruct args as [args|]; [|done].
  destruct (args !! p); [|done]. apply string_redoc.
Qed.
Lemma constructor_redoc d fn : ectractErrorCodesFromConstructor pk' fa (redoc d fn) = ectractErrorCodesFromConstructor pk fa fn.
Proof.
  unfold ectractErrorCodesFromConstructor. rewrite import_redoc. destruct (importErrorConstructorFact pk fa fn) as [p|]; [|done].
  change (fn_type (redoc d fn)) with (fn_type fn). destruct (getParamIdent (fn_type fn) p) as [i|]; [|done]. rewrite taint_redoc.
  destruct (negb _); [done|]. do 3 f_equal. apply map_same. intros e. apply string_redoc.
Qed.
Lemma field_lhs_redoc d fn o rhs same lhs i et :
  code_field_lhs pk' fa (redoc d fn) o rhs same i lhs et = code_field_lhs pk fa fn o rhs same i lhs et.
Proof.
  revert i et. induction lhs as [|l lhs IH]; intros i et; [done|]. cbn [code_field_lhs].
  destruct (as_selector l) as [[x sel]|]; [|apply IH]. destruct (as_ident x) as [xi|]; [|apply IH]. destruct (decide _); [apply IH|].
  assert (forall et', match et_field et' with
      | None => EffPanic
      | Some (fname, _) => if decide (fname <> i_name sel) then code_field_lhs pk' fa (redoc d fn) o rhs same (S i) lhs (Some et')
        else if negb same then match rhs with
          | r :: _ => EffUnion (report (node_id r) (str "error code has to be constant value or error code parameter")) (code_field_lhs pk' fa (redoc d fn) o rhs same (S i) lhs (Some et'))
          | [] => EffPanic end
        else match rhs !! i with Some r => EffUnion (extractErrorCodeFromStringExpression pk' fa (redoc d fn) r) (code_field_lhs pk' fa (redoc d fn) o rhs same (S i) lhs (Some et')) | None => EffPanic end
      end = match et_field et' with
      | None => EffPanic
      | Some (fname, _) => if decide (fname <> i_name sel) then code_field_lhs pk fa fn o rhs same (S i) lhs (Some et')
        else if negb same then match rhs with
          | r :: _ => EffUnion (report (node_id r) (str "error code has to be constant value or error code parameter")) (code_field_lhs pk fa fn o rhs same (S i) lhs (Some et'))
          | [] => EffPanic end
        else match rhs !! i with Some r => EffUnion (extractErrorCodeFromStringExpression pk fa fn r) (code_field_lhs pk fa fn o rhs same (S i) lhs (Some et')) | None => EffPanic end
      end) as Hc.
  { intros et'. destruct (et_field et') as [[fname p]|]; [|done]. destruct (decide _); [apply IH|]. destruct same; cbn [negb].
    - destruct (rhs !! i) as [r|]; [|done]. by rewrite IH, string_redoc.
    - destruct rhs; [done|]. by rewrite IH. }
  destruct et as [et'|]; [apply Hc|]. change (pk_info pk') with (pk_info pk). 
  destruct (getErrorTypeForError _ _) as [[et'|]|]; [|apply IH|apply IH]. pose proof (Hc et') as Hc'. destruct (et_field et') as [[fname p]|]; [exact Hc'|apply IH].
Qed.
Lemma assigned_redoc d fn et o : findCodesAssignedToErrorCodeField pk' fa (redoc d fn) et o = findCodesAssignedToErrorCodeField pk fa fn et o.
Proof.
  unfold findCodesAssignedToErrorCodeField. change (fn_body (redoc d fn)) with (fn_body fn). destruct (fn_body fn) as [b|]; [|done].
  f_equal. apply map_same. intros [lhs rhs]. apply field_lhs_redoc.
Qed.

(** ** Calls, expressions, returns *)
Context (lk : lookup_table).
Lemma call_redoc lam lam' d fn f cal call : (forall i, lam i = lam' i) ->
  findErrorCodesFromFunctionCall pk' lk fa lam (redoc d fn) f cal call = findErrorCodesFromFunctionCall pk lk fa lam' fn f cal call.
Proof.
  intros H. unfold findErrorCodesFromFunctionCall. rewrite ctor_call_redoc.
  destruct (match cal with Some o => fa_codes fa !! o | None => None end); [done|]. cbn zeta. change (extractErrorCodesFromTypeConversion pk') with (extractErrorCodesFromTypeConversion pk).
  destruct (decide _); [done|]. destruct (as_ident (unparen f)) as [i|].
  - destruct (i_obj i) as [o|]; [|done]. change (obj_of pk') with (obj_of pk). destruct (ob_decl (obj_of pk o)); try done; try by rewrite H.
    destruct call as [[c args]|]; [|done]. by rewrite affector_redoc.
  - destruct (as_selector (unparen f)) as [[x sel]|]; [|done]. change (pk_info pk') with (pk_info pk).
    destruct (match as_ident (unparen x) with Some t => ti_pkgname (pk_info pk) (i_id t) | None => None end); [done|].
    destruct (ti_selection (pk_info pk) (node_id (unparen f))) as [[o recv]|]; [|done]. by rewrite method_redoc.
Qed.
Lemma decl_message {A} d fn (a b : A) : match fn_decl (redoc d fn) with Some _ => a | None => b end = match fn_decl fn with Some _ => a | None => b end.
Proof. cbn [redoc fn_decl]. by destruct (fn_decl fn). Qed.
Lemma lambdas_redoc d fn i : findErrorCodesFromAllAssignedLambdas pk' lk fa (redoc d fn) i = findErrorCodesFromAllAssignedLambdas pk lk fa fn i.
Proof.
  unfold findErrorCodesFromAllAssignedLambdas, all_assigned_lambdas. rewrite taint_redoc. rewrite decl_message. destruct (negb _); [done|]. do 3 f_equal.
  apply map_same. intros e. unfold findErrorCodesInLambdaAssignment. destruct (as_funclit (unparen e)); [done|].
  change (pk_info pk') with (pk_info pk).
  destruct (as_ident (unparen e)) as [r|]; [by apply call_redoc|]. destruct (as_selector (unparen e)) as [[x sel]|]; [|done]. by apply call_redoc.
Qed.
Lemma call_expr_redoc d fn e : findErrorCodesInCallExpression pk' lk fa (redoc d fn) e = findErrorCodesInCallExpression pk lk fa fn e.
Proof.
  unfold findErrorCodesInCallExpression. destruct (as_call e) as [[f args]|]; [|done]. change (callee pk') with (callee pk). apply call_redoc. apply lambdas_redoc.
Qed.
Lemma destructs_redoc (rec rec' : expr_analysis) d fn v l : (forall v e, rec v e = rec' v e) ->
  codes_of_destructs pk' lk fa rec (redoc d fn) v l = codes_of_destructs pk lk fa rec' fn v l.
Proof.
  intros H. revert v. induction l as [|x l IH]; intros v; [done|]. cbn [codes_of_destructs].
  assert (codes_of_destruct pk' lk fa rec (redoc d fn) v x = codes_of_destruct pk lk fa rec' fn v x) as ->.
  { unfold codes_of_destruct. rewrite call_expr_redoc. change (pk_info pk') with (pk_info pk). destruct (unparen (de_source x)) as [y k kids] eqn:E.
    rewrite <-E. destruct k; try done. destruct kids as [|z [|]]; try done. }
  destruct (codes_of_destruct pk lk fa rec' fn v x) as [c v1]. by rewrite IH.
Qed.
Lemma ident_redoc (rec rec' : expr_analysis) d fn v i : (forall v e, rec v e = rec' v e) ->
  findErrorCodesFromIdentTaint pk' lk fa rec (redoc d fn) v i = findErrorCodesFromIdentTaint pk lk fa rec' fn v i.
Proof.
  intros H. unfold findErrorCodesFromIdentTaint. rewrite taint_redoc, decl_message. destruct (negb _); [done|]. rewrite (exprs_same rec rec') by done.
  destruct (codes_of_exprs rec' _ _) as [c v1]. by rewrite (destructs_redoc rec rec').
Qed.
Lemma leaf_redoc d fn e : leaf pk' lk fa (redoc d fn) e = leaf pk lk fa fn e.
Proof.
  unfold leaf. rewrite call_expr_redoc, !affector_redoc. change (pk_info pk') with (pk_info pk). reflexivity.
Qed.
Lemma expr_redoc d fn fuel v e : findErrorCodesInExpression pk' lk fa (redoc d fn) fuel v e = findErrorCodesInExpression pk lk fa fn fuel v e.
Proof.
  revert v e. induction fuel as [|n IH]; intros v e; [reflexivity|]. rewrite !expression_cases. change (root_ident pk') with (root_ident pk).
  destruct (root_ident pk e) as [i|]; [by apply ident_redoc|]. by rewrite leaf_redoc.
Qed.
Lemma return_redoc d fn v s : codes_of_return pk' lk fa (redoc d fn) v s = codes_of_return pk lk fa fn v s.
Proof.
  assert (forall l, findErrorCodesInReturnStmt pk' lk fa (redoc d fn) v l = findErrorCodesInReturnStmt pk lk fa fn v l) as H.
  { intros l. unfold findErrorCodesInReturnStmt. change (expr_fuel pk') with (expr_fuel pk). change (return_expression (redoc d fn) l) with (return_expression fn l).
    destruct (return_expression fn l); [apply expr_redoc|reflexivity]. }
  unfold codes_of_return. change (pk_comments pk') with (pk_comments pk). destruct (getReturnStmtAnnotations _) as [a ds].
  destruct a as [a|]; rewrite !H; reflexivity.
Qed.
Lemma returns_redoc d fn v l : codes_of_returns pk' lk fa (redoc d fn) v l = codes_of_returns pk lk fa fn v l.
Proof.
  revert v. induction l as [|s l IH]; intros v; [reflexivity|]. cbn [codes_of_returns]. rewrite return_redoc.
  destruct (codes_of_return pk lk fa fn v s) as [c v1]. by rewrite IH.
Qed.
Lemma plan_redoc tr f : plan pk' lk fa tr f = plan pk lk fa tr f.
Proof.
  unfold plan. rewrite funcs_redoc. destruct (pk_funcs pk !! f) as [fn|]; [|reflexivity]. cbn [fmap option_fmap option_map]. unfold function_effect.
  assert (findErrorCodesInFunctionReturnStmts pk' lk fa (redoc (docs f) fn) = findErrorCodesInFunctionReturnStmts pk lk fa fn) as ->.
  { unfold findErrorCodesInFunctionReturnStmts. change (fn_body (redoc (docs f) fn)) with (fn_body fn). destruct (fn_body fn); [apply returns_redoc|reflexivity]. }
  rewrite constructor_redoc. destruct (findErrorCodesInFunctionReturnStmts pk lk fa fn) as [c v]. f_equal.
  unfold findCodesAssignedToErrorCodeFields. f_equal. apply map_same. intros o. apply assigned_redoc.
Qed.
End model.
