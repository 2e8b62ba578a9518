(** * Proofs: calls of function literals through variables, reports and panics of a function. *)
From Coq Require Import Ascii String.
From stdpp Require Import base list gmap sets.
From Verif Require Import GoString ErrorCode Scc Engine SpecEngine CodeSet Annotation Constant GoAst Taint Extract Analyse
  SpecCodes SpecTaint SpecMay SpecProgram GoStringProofs ErrorCodeProofs CodeSetProofs TaintProofs Termination ExprProofs MayProofs
  CallProofs FunctionProofs ReturnProofs OwnProofs ProgramProofs VocabularyProofs.

Section observe.
Context (pk : package) (lk : lookup_table) (fa : facts) (fn : func) (body : node) (Hbody : fn_body fn = Some body) (Hus : usable pk fa fn).
Notation info := (pk_info pk).

(** Observations that do not depend on what is subtracted. *)
Lemma returns_observed O : observation O (fun _ => True) ->
  O (findErrorCodesInFunctionReturnStmts pk lk fa fn).1 <->
  (exists s y, s ∈ return_stmts fn /\ fixed_effects pk s y /\ O y) \/
  (exists s y, s ∈ return_stmts fn /\ stmt_effects pk lk fa fn s y /\ O y) \/
  (exists o y, error_var pk fn o /\ obj_effects pk lk fa fn o y /\ O y).
Proof.
  intros HO. pose proof (visited_error_vars pk lk fa fn body Hbody (us_scoped _ _ _ Hus) Hus) as Hvis.
  rewrite (returns_eq pk lk fa fn body Hbody) in *.
  destruct (codes_of_returns_post pk lk fa fn body Hbody (us_scoped _ _ _ Hus) ∅ (return_stmts fn)) as [_ P]; [by eapply usable_good|].
  destruct (P _ _ HO) as (P1&P2&P3&P4). clear P. split.
  - intros H. apply P1 in H as (s&Hs&[(y&Hf&Hy)|(_&y&Hy&[He|(e&o&(Hov&Hr)&Hv&Ho)])]).
    + left. eauto.
    + right. left. eauto.
    + right. right. exists o, y. split_and!; [|done|done]. exists s, e. done.
  - intros [(s&y&Hs&Hf&Hy)|[(s&y&Hs&Hf&Hy)|(o&y&Ho&Hoe&Hy)]].
    + by eapply P2.
    + by eapply P3.
    + eapply P4; [done|by apply Hvis|set_solver|exact Hoe|done].
Qed.
Lemma function_observed order O : observation O (fun _ => True) ->
  O (function_effect pk lk fa order fn) <->
  O (ectractErrorCodesFromConstructor pk fa fn) \/ O (findErrorCodesInFunctionReturnStmts pk lk fa fn).1 \/
  O (findCodesAssignedToErrorCodeFields pk fa fn (order (findErrorCodesInFunctionReturnStmts pk lk fa fn).2)).
Proof.
  intros HO. unfold function_effect. destruct (findErrorCodesInFunctionReturnStmts pk lk fa fn) as [r v]. cbn [fst snd].
  rewrite !(ad_union _ (ob_additive _ _ HO)). tauto.
Qed.

(** ** Function literals called through variables *)
Lemma no_direct e : call_list e = [] -> direct_list (D := diag) e = [].
Proof. induction e; cbn; try done. intros [? ?]%app_eq_nil. by rewrite IHe1, IHe2. Qed.
Lemma no_direct_elem e g : call_list e = [] -> ~ g ∈ direct_list (D := diag) e.
Proof. intros H. rewrite no_direct by done. apply not_elem_of_nil. Qed.
Lemma lambda_assignment_directs i a g :
  g ∈ direct_list (findErrorCodesInLambdaAssignment pk lk fa (fun _ => EffPanic) fn i a) ->
  exists id kids, unparen a = Node id (KFuncLit g) kids.
Proof.
  assert (forall e cal, ~ g ∈ direct_list (findErrorCodesFromFunctionCall pk lk fa (fun _ => EffPanic) fn e cal None)) as Hno.
  { intros e cal. unfold findErrorCodesFromFunctionCall, call_function. cbn [fmap option_fmap option_map].
    assert (direct_list (extractErrorCodeFromConstructorCall pk fa fn e cal None) = []) as Hc by apply no_direct, ctor_calls.
    assert (direct_list (discard (extractErrorCodeFromConstructorCall pk fa fn e cal None)) = []) as Hd.
    { apply no_direct. rewrite discard_calls. apply ctor_calls. }
    repeat case_match; cbn [direct_list report]; rewrite ?Hc, ?Hd; cbn [app direct_list]; apply not_elem_of_nil. }
  unfold findErrorCodesInLambdaAssignment. set (e := unparen a). clearbody e.
  destruct (as_funclit e) as [g'|] eqn:Ef.
  { cbn. intros ->%elem_of_list_singleton. destruct e as [id k kids]. destruct k; try done. cbn in Ef. injection Ef as ->. eauto. }
  intros H. exfalso. revert H. repeat case_match; try apply Hno. cbn. apply not_elem_of_nil.
Qed.
(** The call of [f] executes the function literal [g], through a variable. *)
Lemma call_expr_directs e f args g : good_call pk fn e -> as_call e = Some (f, args) ->
  g ∈ direct_list (findErrorCodesInCallExpression pk lk fa fn e) -> literal_call pk fa fn f g.
Proof.
  intros Hg Hc. unfold findErrorCodesInCallExpression. rewrite Hc. unfold findErrorCodesFromFunctionCall. cbn [fmap option_fmap option_map snd].
  set (ctor := extractErrorCodeFromConstructorCall pk fa fn f (callee pk f) (Some args)).
  assert (direct_list ctor = []) as Hct by apply no_direct, ctor_calls.
  assert (direct_list (discard ctor) = []) as Hd. { apply no_direct. rewrite discard_calls. apply ctor_calls. }
  clearbody ctor.
  destruct (match callee pk f with Some o => fa_codes fa !! o | None => None end) as [codes|] eqn:Ecal.
  { cbn [direct_list]. rewrite Hct. by intros ?%elem_of_nil. }
  assert (forall s, ~ declares fa (function_object pk f) s) as Hnd.
  { intros s H%declares_spec. rewrite <-callee_spec in H. congruence. }
  case_decide as Hconv. { cbn [direct_list]. rewrite Hct. by intros ?%elem_of_nil. }
  assert (function_object pk f = None -> forall s, ~ conversion_codes pk fa f s) as Hnc.
  { intros Hcal s Hs. rewrite <-callee_spec in Hcal. rewrite Hcal in Hconv. revert Hconv. apply conversion_spec. eauto. }
  assert (forall i, function_variable pk (unparen f) i -> g ∈ direct_list (findErrorCodesFromAllAssignedLambdas pk lk fa fn i) -> literal_call pk fa fn f g) as Hl.
  { intros i Hi. unfold findErrorCodesFromAllAssignedLambdas, all_assigned_lambdas.
    destruct (taintSpread_exact pk fn None (us_scoped _ _ _ Hus) body Hbody ∅ i) as (Hok&_&He&_&_); [by eapply Hg|].
    set (r := taintSpread pk fn None ∅ i) in *. clearbody r. rewrite Hok. cbn [negb direct_list].
    pose proof (ob_additive _ _ (observe_directs g)) as HA. cbv beta in HA.
    rewrite !elem_of_app, !(obs_all _ _ HA). intros [(x&Hx&H)|[(x&Hx&H)|(x&Hx&H)]].
    - apply elem_of_list_fmap in Hx as (?&->&_). by apply elem_of_nil in H.
    - apply elem_of_list_fmap in Hx as (?&->&_). by apply elem_of_nil in H.
    - apply elem_of_list_fmap in Hx as (a&->&(o&?&?)%He). apply lambda_assignment_directs in H as (id&kids&?).
      econstructor; eauto. }
  destruct (as_ident (unparen f)) as [i|] eqn:Ei.
  - destruct (i_obj i) as [o|] eqn:Eo.
    + destruct (ob_decl (obj_of pk o)) as [g'| | |] eqn:Ed; cbn [direct_list]; rewrite ?Hct, ?Hd; cbn [app].
      * by intros ?%elem_of_nil.
      * intros H. destruct (no_direct_elem _ g (affector_calls pk fa fn e) H).
      * apply Hl. split; [done|]. exists o. rewrite Ed. done.
      * apply Hl. split; [done|]. exists o. rewrite Ed. done.
    + destruct (lk_functions lk !! i_name i); cbn [direct_list report]; rewrite ?Hct, ?Hd; by intros ?%elem_of_nil.
  - unfold call_function. repeat case_match; cbn [direct_list report]; rewrite ?Hct, ?Hd; by intros ?%elem_of_nil.
Qed.
Lemma leaf_directs e g : good_call pk fn (unparen e) -> g ∈ direct_list (leaf pk lk fa fn e) ->
  exists f args, as_call (unparen e) = Some (f, args) /\ literal_call pk fa fn f g.
Proof.
  intros Hg. unfold leaf. destruct (unparen e) as [id k kids] eqn:E.
  assert (forall (E : eff diag), call_list E = [] -> g ∈ direct_list E ->
    exists f args, as_call (Node id k kids) = Some (f, args) /\ literal_call pk fa fn f g) as Hnone.
  { intros E0 H0 H. by destruct (no_direct_elem _ g H0). }
  destruct k; try (by apply Hnone).
  - destruct (as_call (Node id KCall kids)) as [[f args]|] eqn:Ec.
    + intros H. exists f, args. split; [done|]. by eapply call_expr_directs.
    + unfold findErrorCodesInCallExpression. rewrite Ec. cbn. by intros ?%elem_of_nil.
  - destruct kids as [|x [|]]; try (by apply Hnone). apply Hnone. case_match; [apply affector_calls|done].
  - apply Hnone. apply affector_calls.
  - apply Hnone. apply affector_calls.
  - apply Hnone. by case_match.
Qed.
Lemma function_directs order g : g ∈ direct_list (function_effect pk lk fa order fn) ->
  exists e, error_call pk fn e /\ literal_call pk fa fn e g.
Proof.
  intros H. apply (function_observed order _ (observe_directs g)) in H as [H|[H|H]].
  { destruct (no_direct_elem _ g (constructor_calls pk fa fn) H). }
  2:{ destruct (no_direct_elem _ g (fields_calls pk fa fn body Hbody _) H). }
  apply (returns_observed _ (observe_directs g)) in H as [(s&y&Hs&Hf&Hy)|[(s&y&Hs&(Hov&Hf)&Hy)|(o&y&Ho&Hf&Hy)]].
  - destruct Hf as [(d&_&->)|(a&Ha&[[Ho ->]|[Ho ->]])]; by apply elem_of_nil in Hy.
  - destruct Hf as [(e&Hr&[[_ ->]|(i&_&_&->)])|[_ ->]]; try by apply elem_of_nil in Hy.
    apply leaf_directs in Hy as (f&args&Hc&Hl); [|eapply usable_call; [done|left; eauto]].
    exists f. split; [|done]. exists e, args. split; [done|]. left. eauto.
  - destruct Hf as [(e&Hl&[[_ ->]|(i&_&_&->)])|[(d&Hd&Ha&->)|(j&_&_&->)]]; try by apply elem_of_nil in Hy.
    + apply leaf_directs in Hy as (f&args&Hc&Hlc); [|eapply usable_call; [done|right; eauto]].
      exists f. split; [|done]. exists e, args. split; [done|]. right. left. eauto.
    + unfold dest_leaf in Hy. destruct (unparen (de_source d)) as [id k kids] eqn:E. destruct k; try by apply elem_of_nil in Hy.
      destruct kids as [|f args]; [by apply elem_of_nil in Hy|].
      destruct (ti_type info (node_id f)) as [[]|] eqn:Et; try by apply elem_of_nil in Hy.
      case_decide as Hp; [|by apply elem_of_nil in Hy].
      assert (good_call pk fn (unparen (de_source d))) as Hgc by (eapply usable_call; [done|right; exists o; split; [done|right; eauto]]).
      rewrite E in Hgc. eapply call_expr_directs in Hy; [|done|done].
      exists f. split; [|done]. exists (de_source d), args. split; [by rewrite E|]. right. right. eauto 10.
Qed.
End observe.
