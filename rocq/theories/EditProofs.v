(** * C48: what the analysis of a function, and of the error types, does not depend on. *)
From Coq Require Import Ascii String.
From stdpp Require Import base list gmap relations sets.
From Verif Require Import GoString ErrorCode Scc Engine CodeSet Annotation Constant GoAst Taint Extract Analyse Phase ErrorTypes Claims Interfaces Conversions
  Verify SpecCodes SpecTaint SpecRun SpecClaims SpecInterfaces SpecCodeMethod SpecLocal PhaseProofs ClaimsProofs FactProofs RunProofs LookupProofs ExprProofs
  ArrangeProofs ArrangePhases PropErrorTypes SpecEdit.

Section model.
Context (pk : package) (funcs' : gmap fid func) (top' : list topdecl).
Notation pk' := (with_bodies funcs' top' pk).
Notation info := (pk_info pk).
Context (Hh : same_signatures pk funcs').

(** ** Functions are found in the same way *)
Lemma signature_fields {A} (fn fn' : func) (h : ident * option (list field) -> A) (x : A) : same_signature fn fn' ->
  match fn_decl fn' with Some d => h (dc_name d, dc_recv d) | None => x end = match fn_decl fn with Some d => h (dc_name d, dc_recv d) | None => x end.
Proof. intros (_&_&Hd). destruct (fn_decl fn'), (fn_decl fn); cbn in Hd; try discriminate; [|reflexivity]. by injection Hd as -> ->. Qed.
Lemma signature_method fn fn' : same_signature fn fn' -> isMethod fn' = isMethod fn.
Proof. intros H. exact (signature_fields fn fn' (fun p => match p.2 with Some [_] => true | _ => false end) false H). Qed.
Lemma signature_name fn fn' : same_signature fn fn' -> func_name fn' = func_name fn.
Proof. intros H. exact (signature_fields fn fn' (fun p => i_name p.1) [] H). Qed.
Lemma collect_edit : collectFunctions pk' = collectFunctions pk.
Proof.
  unfold collectFunctions. change (pk_decls pk') with (pk_decls pk). generalize (Lookup ∅ ∅).
  assert (forall f, f ∈ pk_decls pk -> forall t, collect_one pk' t f = collect_one pk t f) as H.
  { intros f Hf t. destruct (Hh f Hf) as (fn&fn'&E&E'&Hs). unfold collect_one. cbn [with_bodies pk_funcs]. rewrite E, E'.
    by rewrite (signature_method fn fn' Hs), (signature_name fn fn' Hs). }
  revert H. induction (pk_decls pk) as [|f l IH]; intros H t; [done|]. cbn [foldl]. rewrite H by (by left). apply IH. intros g Hg. apply H. by right.
Qed.
Lemma decl_obj_edit f : f ∈ pk_decls pk -> decl_obj pk' f = decl_obj pk f.
Proof.
  intros Hf. destruct (Hh f Hf) as (fn&fn'&E&E'&Hs). unfold decl_obj. cbn [with_bodies pk_funcs]. rewrite E, E'.
  exact (signature_fields fn fn' (fun p => ti_defs info (i_id p.1)) None Hs).
Qed.
Notation lk := (collectFunctions pk).
Lemma list_find_same {A} (P Q : A -> Prop) `{forall x, Decision (P x)} `{forall x, Decision (Q x)} l : (forall x, x ∈ l -> P x <-> Q x) ->
  list_find P l = list_find Q l.
Proof.
  induction l as [|a l IH]; intros HPQ; [done|]. cbn [list_find]. destruct (decide (P a)) as [Hp|Hp], (decide (Q a)) as [Hq|Hq]; [done| | |].
  - exfalso. apply Hq, HPQ; [by left|done].
  - exfalso. apply Hp, HPQ; [by left|done].
  - rewrite IH; [done|]. intros x Hx. apply HPQ. by right.
Qed.
Lemma method_edit t m : searchMethod pk' lk t m = searchMethod pk lk t m.
Proof.
  unfold searchMethod. destruct (lk_methods lk !! m) as [l|] eqn:El; [|done]. change (searchMethodType pk') with (searchMethodType pk).
  destruct (searchMethodType pk t m) as [o|]; [|done].
  rewrite (list_find_same (fun f => decl_obj pk' f = Some o) (fun f => decl_obj pk f = Some o) l); [done|].
  intros f Hf. pose proof (methods_named pk m) as Em. rewrite El in Em. cbn in Em. rewrite Em in Hf. apply elem_of_list_filter in Hf as [_ Hf].
  by rewrite decl_obj_edit.
Qed.

Section function.
(** ** Tracking of variables *)
Context (fn : func) (Hlits : forall n g, n ∈ body_nodes fn -> as_funclit n = Some g -> funcs' !! g = pk_funcs pk !! g).
Lemma block_edit f st : funcs' !! f = pk_funcs pk !! f -> blockParams pk' f st = blockParams pk f st.
Proof. intros E. unfold blockParams. cbn [with_bodies pk_funcs]. by rewrite E. Qed.
Lemma spread_edit rec rec' o st n : n ∈ body_nodes fn -> (forall i st, rec i st = rec' i st) -> spread_node pk' rec o st n = spread_node pk rec' o st n.
Proof.
  intros Hn H.
  assert (forall e st, processAssignedExpr pk' rec e st = processAssignedExpr pk rec' e st) as Hp.
  { intros e s. unfold processAssignedExpr. change (obj_of pk') with (obj_of pk). destruct (as_ident (unparen e)) as [i|]; [|done].
    destruct (i_obj i) as [x|]; [|done]. destruct (ob_is_var _); [apply H|done]. }
  unfold spread_node. destruct (as_funclit n) as [f|] eqn:Ef; [by apply block_edit, (Hlits n)|]. destruct (as_assign n) as [[lhs rhs]|]; [|done].
  generalize 0 as k. generalize (bool_decide (length lhs = length rhs)) as b. intros b. revert st.
  induction lhs as [|l lhs IH]; intros st k; [done|]. cbn [spread_lhs]. rewrite <-IH. f_equal.
  destruct (as_ident (unparen l)) as [li|]; [|done]. destruct (decide _); [|done]. destruct b; [|done]. destruct (rhs !! k); [|done]. apply Hp.
Qed.
Lemma find_spread_edit param fuel i st : findSpread pk' fn param fuel i st = findSpread pk fn param fuel i st.
Proof.
  revert i st. induction fuel as [|n IH]; intros i st; [done|]. cbn [findSpread].
  assert (isIdentOriginOutsideFunctionScope pk' fn i = isIdentOriginOutsideFunctionScope pk fn i) as -> by done.
  destruct (_ && _); [done|]. destruct (decide _); [done|]. destruct (i_obj i) as [o|]; [|done]. destruct (decide _); [done|].
  assert (forall s, spread_init pk' (findSpread pk' fn param n) o s = spread_init pk (findSpread pk fn param n) o s) as Hi.
  { intros s. unfold spread_init. change (obj_of pk') with (obj_of pk). destruct (ob_decl (obj_of pk o)); try done. destruct values as [|v0 vs]; [done|].
    destruct (find_value o names 0) as [[k m]|]; [|done]. destruct (decide _); [|done]. destruct (_ !! k) as [v|]; [|done].
    unfold processAssignedExpr. change (obj_of pk') with (obj_of pk). destruct (as_ident (unparen v)) as [j|]; [|done].
    destruct (i_obj j) as [x|]; [|done]. destruct (ob_is_var _); [apply IH|done]. }
  rewrite Hi. assert (forall x, x ∈ body_nodes fn -> x ∈ body_nodes fn) as Hb by done. revert Hb. unfold body_nodes at 1. destruct (fn_body fn) as [b|]; [|done]. intros Hb. generalize (spread_init pk (findSpread pk fn param n) o (mark_visited o st)).
  revert Hb. induction (walk b) as [|x l IHl]; intros Hb s; [done|]. cbn [foldl]. rewrite (spread_edit _ (findSpread pk fn param n)); [|apply Hb; by left|apply IH].
  apply IHl. intros y Hy. apply Hb. by right.
Qed.
Lemma taint_edit param v i : taintSpread pk' fn param v i = taintSpread pk fn param v i.
Proof. apply find_spread_edit. Qed.

(** ** Extraction of codes *)
Context (fa : facts).
Lemma import_edit : importErrorConstructorFact pk' fa fn = importErrorConstructorFact pk fa fn.
Proof. reflexivity. Qed.
Lemma string_edit e : extractErrorCodeFromStringExpression pk' fa fn e = extractErrorCodeFromStringExpression pk fa fn e.
Proof. reflexivity. Qed.
Lemma affector_edit e : extractErrorCodesFromAffector pk' fa fn e = extractErrorCodesFromAffector pk fa fn e.
Proof. reflexivity. Qed.
Lemma ctor_call_edit e cal args :
  extractErrorCodeFromConstructorCall pk' fa fn e cal args = extractErrorCodeFromConstructorCall pk fa fn e cal args.
Proof. reflexivity. Qed.
Lemma constructor_edit : ectractErrorCodesFromConstructor pk' fa fn = ectractErrorCodesFromConstructor pk fa fn.
Proof.
  unfold ectractErrorCodesFromConstructor. rewrite import_edit. destruct (importErrorConstructorFact pk fa fn) as [p|]; [|done].
  destruct (getParamIdent (fn_type fn) p) as [i|]; [|done]. rewrite taint_edit.
  destruct (negb _); [done|]. reflexivity.
Qed.
Lemma field_lhs_edit o rhs same lhs i et :
  code_field_lhs pk' fa fn o rhs same i lhs et = code_field_lhs pk fa fn o rhs same i lhs et.
Proof. reflexivity. Qed.
Lemma assigned_edit et o : findCodesAssignedToErrorCodeField pk' fa fn et o = findCodesAssignedToErrorCodeField pk fa fn et o.
Proof. reflexivity. Qed.

(** ** Calls, expressions, returns *)
Lemma call_edit lam lam' f cal call : (forall i, lam i = lam' i) ->
  findErrorCodesFromFunctionCall pk' lk fa lam fn f cal call = findErrorCodesFromFunctionCall pk lk fa lam' fn f cal call.
Proof.
  intros H. unfold findErrorCodesFromFunctionCall.
  destruct (match cal with Some o => fa_codes fa !! o | None => None end); [done|]. cbn zeta. change (extractErrorCodesFromTypeConversion pk') with (extractErrorCodesFromTypeConversion pk).
  destruct (decide _); [done|]. destruct (as_ident (unparen f)) as [i|].
  - destruct (i_obj i) as [o|]; [|done]. change (obj_of pk') with (obj_of pk). destruct (ob_decl (obj_of pk o)); try done; try by rewrite H.
  - destruct (as_selector (unparen f)) as [[x sel]|]; [|done]. change (pk_info pk') with (pk_info pk).
    destruct (match as_ident (unparen x) with Some t => ti_pkgname (pk_info pk) (i_id t) | None => None end); [done|].
    destruct (ti_selection (pk_info pk) (node_id (unparen f))) as [[o recv]|]; [|done]. by rewrite method_edit.
Qed.
Lemma lambdas_edit i : findErrorCodesFromAllAssignedLambdas pk' lk fa fn i = findErrorCodesFromAllAssignedLambdas pk lk fa fn i.
Proof.
  unfold findErrorCodesFromAllAssignedLambdas, all_assigned_lambdas. rewrite taint_edit. destruct (negb _); [done|]. do 3 f_equal.
  apply map_same. intros e. unfold findErrorCodesInLambdaAssignment. destruct (as_funclit (unparen e)); [done|].
  change (pk_info pk') with (pk_info pk).
  destruct (as_ident (unparen e)) as [r|]; [by apply call_edit|]. destruct (as_selector (unparen e)) as [[x sel]|]; [|done]. by apply call_edit.
Qed.
Lemma call_expr_edit e : findErrorCodesInCallExpression pk' lk fa fn e = findErrorCodesInCallExpression pk lk fa fn e.
Proof.
  unfold findErrorCodesInCallExpression. destruct (as_call e) as [[f args]|]; [|done]. change (callee pk') with (callee pk). apply call_edit. apply lambdas_edit.
Qed.
Lemma destructs_edit (rec rec' : expr_analysis) v l : (forall v e, rec v e = rec' v e) ->
  codes_of_destructs pk' lk fa rec fn v l = codes_of_destructs pk lk fa rec' fn v l.
Proof.
  intros H. revert v. induction l as [|x l IH]; intros v; [done|]. cbn [codes_of_destructs].
  assert (codes_of_destruct pk' lk fa rec fn v x = codes_of_destruct pk lk fa rec' fn v x) as ->.
  { unfold codes_of_destruct. rewrite call_expr_edit. change (pk_info pk') with (pk_info pk). destruct (unparen (de_source x)) as [y k kids] eqn:E.
    rewrite <-E. destruct k; try done. destruct kids as [|z [|]]; try done. }
  destruct (codes_of_destruct pk lk fa rec' fn v x) as [c v1]. by rewrite IH.
Qed.
Lemma ident_edit (rec rec' : expr_analysis) v i : (forall v e, rec v e = rec' v e) ->
  findErrorCodesFromIdentTaint pk' lk fa rec fn v i = findErrorCodesFromIdentTaint pk lk fa rec' fn v i.
Proof.
  intros H. unfold findErrorCodesFromIdentTaint. rewrite taint_edit. destruct (negb _); [done|]. rewrite (exprs_same rec rec') by done.
  destruct (codes_of_exprs rec' _ _) as [c v1]. by rewrite (destructs_edit rec rec').
Qed.
Lemma leaf_edit e : leaf pk' lk fa fn e = leaf pk lk fa fn e.
Proof.
  unfold leaf. rewrite call_expr_edit. reflexivity.
Qed.
Lemma expr_edit fuel v e : findErrorCodesInExpression pk' lk fa fn fuel v e = findErrorCodesInExpression pk lk fa fn fuel v e.
Proof.
  revert v e. induction fuel as [|n IH]; intros v e; [reflexivity|]. rewrite !expression_cases. change (root_ident pk') with (root_ident pk).
  destruct (root_ident pk e) as [i|]; [by apply ident_edit|]. by rewrite leaf_edit.
Qed.
Lemma return_edit v s : codes_of_return pk' lk fa fn v s = codes_of_return pk lk fa fn v s.
Proof.
  assert (forall l, findErrorCodesInReturnStmt pk' lk fa fn v l = findErrorCodesInReturnStmt pk lk fa fn v l) as H.
  { intros l. unfold findErrorCodesInReturnStmt. change (expr_fuel pk') with (expr_fuel pk). 
    destruct (return_expression fn l); [apply expr_edit|reflexivity]. }
  unfold codes_of_return. change (pk_comments pk') with (pk_comments pk). destruct (getReturnStmtAnnotations _) as [a ds].
  destruct a as [a|]; rewrite !H; reflexivity.
Qed.
Lemma returns_edit v l : codes_of_returns pk' lk fa fn v l = codes_of_returns pk lk fa fn v l.
Proof.
  revert v. induction l as [|s l IH]; intros v; [reflexivity|]. cbn [codes_of_returns]. rewrite return_edit.
  destruct (codes_of_return pk lk fa fn v s) as [c v1]. by rewrite IH.
Qed.
End function.
Lemma plan_edit fa tr f : untouched pk funcs' f -> plan pk' lk fa tr f = plan pk lk fa tr f.
Proof.
  intros [Ef Hl]. unfold plan. cbn [with_bodies pk_funcs]. rewrite Ef. destruct (pk_funcs pk !! f) as [fn|] eqn:Hf; [|reflexivity].
  assert (forall n g, n ∈ body_nodes fn -> as_funclit n = Some g -> funcs' !! g = pk_funcs pk !! g) as Hlits by (intros n g; by apply Hl).
  unfold function_effect.
  assert (findErrorCodesInFunctionReturnStmts pk' lk fa fn = findErrorCodesInFunctionReturnStmts pk lk fa fn) as ->.
  { unfold findErrorCodesInFunctionReturnStmts. destruct (fn_body fn); [by apply returns_edit|reflexivity]. }
  rewrite (constructor_edit fn Hlits). destruct (findErrorCodesInFunctionReturnStmts pk lk fa fn) as [c v]. f_equal.
Qed.
End model.
