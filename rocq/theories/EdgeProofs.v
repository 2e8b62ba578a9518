(** * Proofs: the calls that go through HandleEdge. *)
From Coq Require Import Ascii String.
From stdpp Require Import base list gmap sets.
From Verif Require Import GoString ErrorCode Scc Engine SpecEngine EngineOnce CodeSet Annotation Constant GoAst Taint Extract Analyse
  SpecCodes SpecTaint SpecMay SpecProgram SpecClaims SpecLiterals GoStringProofs ErrorCodeProofs CodeSetProofs TaintProofs Termination ExprProofs MayProofs
  CallProofs FunctionProofs ReturnProofs OwnProofs ProgramProofs VocabularyProofs ObserveProofs LookupProofs.

Lemma observe_edges g : observation (fun e => g ∈ edge_list (D := diag) e) (fun _ => True).
Proof. split; [split; [intros a b; cbn; by rewrite elem_of_app|cbn; apply not_elem_of_nil]|cbn; tauto|done]. Qed.
Lemma no_edge e : call_list e = [] -> edge_list (D := diag) e = [].
Proof. induction e; cbn; try done. intros [? ?]%app_eq_nil. by rewrite IHe1, IHe2. Qed.
Lemma no_edge_elem e g : call_list e = [] -> ~ g ∈ edge_list (D := diag) e.
Proof. intros H. rewrite no_edge by done. apply not_elem_of_nil. Qed.

Section edges.
Context (pk : package) (lk : lookup_table) (fa : facts) (fn : func) (body : node) (Hbody : fn_body fn = Some body) (Hus : usable pk fa fn).
Notation info := (pk_info pk).

Lemma function_call_edges lambdas f cal call g : g ∈ edge_list (findErrorCodesFromFunctionCall pk lk fa lambdas fn f cal call) ->
  denotes pk lk (unparen f) g \/ exists i, function_variable pk (unparen f) i /\ g ∈ edge_list (lambdas i).
Proof.
  unfold findErrorCodesFromFunctionCall.
  set (ctor := extractErrorCodeFromConstructorCall pk fa fn f cal (snd <$> call)).
  assert (edge_list ctor = []) as Hct by apply no_edge, ctor_calls.
  assert (edge_list (discard ctor) = []) as Hd. { apply no_edge. rewrite discard_calls. apply ctor_calls. }
  clearbody ctor.
  destruct (match cal with Some o => fa_codes fa !! o | None => None end) as [codes|] eqn:Ecal.
  { cbn [edge_list]. rewrite Hct. by intros ?%elem_of_nil. }
  case_decide as Hconv. { cbn [edge_list]. rewrite Hct. by intros ?%elem_of_nil. }
  destruct (as_ident (unparen f)) as [i|] eqn:Ei.
  - destruct (unparen f) as [id k kids] eqn:Eu. destruct k; try done. cbn in Ei. injection Ei as <-. cbn [i_obj i_name i_id].
    destruct obj as [o|].
    + destruct (ob_decl (obj_of pk o)) as [g'| | |] eqn:Edc; cbn [edge_list]; rewrite ?Hct, ?Hd; cbn [app].
      * intros ->%elem_of_list_singleton. left. by constructor.
      * destruct call as [[c args]|]; cbn [edge_list]; rewrite ?Hd; cbn [app].
        -- intros H. by destruct (no_edge_elem _ g (affector_calls pk fa fn c) H).
        -- rewrite ?Hd. by intros ?%elem_of_nil.
      * intros H. right. eexists. split; [|exact H]. split; [done|]. exists o. rewrite Edc. done.
      * intros H. right. eexists. split; [|exact H]. split; [done|]. exists o. rewrite Edc. done.
    + destruct (lk_functions lk !! name) as [g'|] eqn:El; cbn [edge_list report]; rewrite ?Hct, ?Hd; cbn [app]; [|by intros ?%elem_of_nil].
      intros ->%elem_of_list_singleton. left. by constructor.
  - destruct (as_selector (unparen f)) as [[x sel]|] eqn:Es.
    + destruct (match as_ident (unparen x) with Some t => ti_pkgname info (i_id t) | None => None end) as [p|] eqn:Ep.
      { cbn [edge_list report]. rewrite Hd. by intros ?%elem_of_nil. }
      destruct (ti_selection info (node_id (unparen f))) as [[o recv]|] eqn:Esel; [|cbn [edge_list]; rewrite Hd; by intros ?%elem_of_nil].
      unfold call_function. destruct (searchMethod pk lk recv (i_name sel)) as [g'|] eqn:Em; cbn [edge_list report]; rewrite Hct; [|by intros ?%elem_of_nil].
      intros ->%elem_of_list_singleton. left. eapply den_method; [done|by apply pkgname_spec|done|]. by apply searchMethod_spec.
    + destruct (as_funclit (unparen f)) as [g'|] eqn:Ef; cbn [edge_list report]; rewrite ?Hct, ?Hd; [|by intros ?%elem_of_nil].
      intros ->%elem_of_list_singleton. left. by apply (denotes_funclit pk lk _ g').
Qed.
Lemma lambda_assignment_edges i a g : g ∈ edge_list (findErrorCodesInLambdaAssignment pk lk fa (fun _ => EffPanic) fn i a) ->
  is_name (unparen a) /\ denotes pk lk (unparen a) g.
Proof.
  unfold findErrorCodesInLambdaAssignment. pose proof (unparen_idem a) as Hi. set (e := unparen a) in *. clearbody e.
  destruct (as_funclit e) as [g'|] eqn:Ef; [by intros ?%elem_of_nil|].
  assert (forall cal, g ∈ edge_list (findErrorCodesFromFunctionCall pk lk fa (fun _ => EffPanic) fn e cal None) -> denotes pk lk e g) as Hc.
  { intros cal [H|(j&_&H)]%function_call_edges; [by rewrite Hi in H|by apply elem_of_nil in H]. }
  destruct (as_ident e) as [r|] eqn:Ei.
  { intros H. split; [left; congruence|by eapply Hc]. }
  destruct (as_selector e) as [[x sel]|] eqn:Es; [|by intros ?%elem_of_nil].
  intros H. split; [right; congruence|by eapply Hc].
Qed.
Lemma call_expr_edges e f args g : good_call pk fn e -> as_call e = Some (f, args) ->
  g ∈ edge_list (findErrorCodesInCallExpression pk lk fa fn e) -> ordinary_call pk lk fn f g.
Proof.
  intros Hg Hc. unfold findErrorCodesInCallExpression. rewrite Hc. intros [H|(i&Hi&H)]%function_call_edges; [by apply oc_call|].
  unfold findErrorCodesFromAllAssignedLambdas, all_assigned_lambdas in H.
  destruct (taintSpread_exact pk fn None (us_scoped _ _ _ Hus) body Hbody ∅ i) as (Hok&_&He&_&_); [by eapply Hg|].
  set (r := taintSpread pk fn None ∅ i) in *. clearbody r. rewrite Hok in H. cbn [negb edge_list] in H.
  pose proof (ob_additive _ _ (observe_edges g)) as HA. cbv beta in HA.
  rewrite !elem_of_app, !(obs_all _ _ HA) in H. destruct H as [(x&Hx&H)|[(x&Hx&H)|(x&Hx&H)]].
  - apply elem_of_list_fmap in Hx as (?&->&_). by apply elem_of_nil in H.
  - apply elem_of_list_fmap in Hx as (?&->&_). by apply elem_of_nil in H.
  - apply elem_of_list_fmap in Hx as (a&->&(o&?&?)%He). apply lambda_assignment_edges in H as [? ?]. by eapply oc_alias.
Qed.
Lemma leaf_edges e g : good_call pk fn (unparen e) -> g ∈ edge_list (leaf pk lk fa fn e) ->
  exists f args, as_call (unparen e) = Some (f, args) /\ ordinary_call pk lk fn f g.
Proof.
  intros Hg. unfold leaf. destruct (unparen e) as [id k kids] eqn:E.
  assert (forall (E : eff diag), call_list E = [] -> g ∈ edge_list E ->
    exists f args, as_call (Node id k kids) = Some (f, args) /\ ordinary_call pk lk fn f g) as Hnone.
  { intros E0 H0 H. by destruct (no_edge_elem _ g H0). }
  destruct k; try (by apply Hnone).
  - destruct (as_call (Node id KCall kids)) as [[f args]|] eqn:Ec.
    + intros H. exists f, args. split; [done|]. by eapply call_expr_edges.
    + unfold findErrorCodesInCallExpression. rewrite Ec. cbn. by intros ?%elem_of_nil.
  - destruct kids as [|x [|]]; try (by apply Hnone). apply Hnone. case_match; [apply affector_calls|done].
  - apply Hnone. apply affector_calls.
  - apply Hnone. apply affector_calls.
  - apply Hnone. by case_match.
Qed.
Lemma function_edges order g : g ∈ edge_list (function_effect pk lk fa order fn) ->
  exists e, error_call pk fn e /\ ordinary_call pk lk fn e g.
Proof.
  intros H. apply (function_observed pk lk fa fn order _ (observe_edges g)) in H as [H|[H|H]].
  { destruct (no_edge_elem _ g (constructor_calls pk fa fn) H). }
  2:{ destruct (no_edge_elem _ g (fields_calls pk fa fn body Hbody _) H). }
  apply (returns_observed pk lk fa fn body Hbody Hus _ (observe_edges g)) in H as [(s&y&Hs&Hf&Hy)|[(s&y&Hs&(Hov&Hf)&Hy)|(o&y&Ho&Hf&Hy)]].
  - destruct Hf as [(d&_&->)|(a&Ha&[[Ho ->]|[Ho ->]])]; by apply elem_of_nil in Hy.
  - destruct Hf as [(e&Hr&[[_ ->]|(i&_&_&->)])|[_ ->]]; try by apply elem_of_nil in Hy.
    apply leaf_edges in Hy as (f&args&Hc&Hl); [|eapply usable_call; [done|left; eauto]].
    exists f. split; [|done]. exists e, args. split; [done|]. left. eauto.
  - destruct Hf as [(e&Hl&[[_ ->]|(i&_&_&->)])|[(d&Hd&Ha&->)|(j&_&_&->)]]; try by apply elem_of_nil in Hy.
    + apply leaf_edges in Hy as (f&args&Hc&Hlc); [|eapply usable_call; [done|right; eauto]].
      exists f. split; [|done]. exists e, args. split; [done|]. right. left. eauto.
    + unfold dest_leaf in Hy. destruct (unparen (de_source d)) as [id k kids] eqn:E. destruct k; try by apply elem_of_nil in Hy.
      destruct kids as [|f args]; [by apply elem_of_nil in Hy|].
      destruct (ti_type info (node_id f)) as [[]|] eqn:Et; try by apply elem_of_nil in Hy.
      case_decide as Hp; [|by apply elem_of_nil in Hy].
      assert (good_call pk fn (unparen (de_source d))) as Hgc by (eapply usable_call; [done|right; exists o; split; [done|right; eauto]]).
      rewrite E in Hgc. eapply call_expr_edges in Hy; [|done|done].
      exists f. split; [|done]. exists (de_source d), args. split; [by rewrite E|]. right. right. eauto 10.
Qed.
End edges.

Lemma package_edges pk lk fa order f g : usable_functions pk fa -> g ∈ edge_list (plan pk lk fa order f) ->
  exists fn e, pk_funcs pk !! f = Some fn /\ error_call pk fn e /\ ordinary_call pk lk fn e g.
Proof.
  intros Hus. unfold plan. destruct (pk_funcs pk !! f) as [fn|] eqn:Ef; [|cbn; intros H; by apply not_elem_of_nil in H].
  destruct (Hus f fn Ef) as [Hu Hb]. destruct (fn_body fn) as [body|] eqn:Eb; [|done].
  intros H. apply (function_edges pk lk fa fn body Eb Hu) in H as (e&He&Hl). eauto.
Qed.
