(** * Proofs: the calls of a function, whatever it looks like; the codes of a function, if it and what it calls can be tracked. *)
From Coq Require Import Ascii String.
From stdpp Require Import base list gmap relations sets.
From Verif Require Import GoString ErrorCode Scc Engine SpecEngine EngineProofs EngineTheorems CodeSet Annotation Constant GoAst Taint Extract
  Analyse SpecCodes SpecTaint SpecMay SpecProgram SpecLocal VocabularyProofs TaintProofs Termination LookupProofs ExprProofs MayProofs CallProofs FunctionProofs ReturnProofs OwnProofs
  ProgramProofs ObserveProofs.
Local Open Scope list_scope.

Lemma unparen_walk e : unparen e ∈ walk e.
Proof.
  revert e. fix IH 1. intros [id k kids]. destruct k; try (clear IH; apply walk_self). destruct kids as [|x [|]]; try (clear IH; apply walk_self).
  cbn [unparen]. eapply walk_kid; [by left|apply IH].
Qed.

Section any.
Context (pk : package) (lk : lookup_table) (fa : facts) (fn : func) (body : node) (Hbody : fn_body fn = Some body).
Notation info := (pk_info pk).
Notation within := (within pk fn).

Lemma within_walk n m : within n -> m ∈ walk n -> within m.
Proof.
  intros H Hm. destruct H as [n Hn|fields fl i H1 H2 H3|n i o names values v n' Hn Hi Ho Hd Hv Hw].
  - apply in_body. unfold body_nodes in *. rewrite Hbody in *. by eapply walk_trans.
  - cbn in Hm. apply elem_of_list_singleton in Hm as ->. by eapply in_results.
  - eapply in_initial; try done. by eapply walk_trans.
Qed.
Lemma within_unparen n : within n -> within (unparen n).
Proof. intros H. eapply within_walk; [done|apply unparen_walk]. Qed.
(** The identifier occurs in the function. *)
Definition within_ident (i : ident) : Prop := exists n, within n /\ as_ident n = Some i.
(** Expressions that may be assigned to a variable. *)
Inductive assigned_somewhere (e : node) : Prop :=
| as_stmt n lhs rhs : n ∈ body_nodes fn -> as_assign n = Some (lhs, rhs) -> e ∈ rhs -> assigned_somewhere e
| as_init n i o names values : within n -> as_ident n = Some i -> i_obj i = Some o ->
    ob_decl (obj_of pk o) = DValueSpec names values -> e ∈ values -> assigned_somewhere e.
Lemma assigned_within e : assigned_somewhere e -> within e.
Proof.
  intros [n lhs rhs Hn Ha He|n i o names values Hn Hi Ho Hd He].
  - eapply within_walk; [by apply in_body|]. destruct n as [id k kids]. eapply walk_kid; [|apply walk_self].
    change (e ∈ node_kids (Node id k kids)). eapply assign_kids; [exact (fun _ => EffPanic)|exact Ha|by right].
  - eapply in_initial; try done. apply walk_self.
Qed.

(** ** Tracking *)
Definition item_ok (it : item) : Prop :=
  match it with
  | IExpr e => exists r, assigned_somewhere r /\ e = unparen r
  | IDest d => assigned_somewhere (de_source d)
  | IVar j => within_ident j
  | IBlock _ => True
  end.
Lemma item_of_expr_ok e : assigned_somewhere e -> item_ok (item_of_expr pk e).
Proof.
  intros H. destruct (item_of_expr_cases pk e) as [[j Hj]|[e' He']].
  - rewrite Hj. apply item_of_expr_var in Hj as [Hj _]. exists (unparen e). split; [|done]. by apply within_unparen, assigned_within.
  - rewrite He'. apply item_of_expr_expr in He' as [-> _]. exists e. done.
Qed.
Lemma items_init_ok o it : (exists i, within_ident i /\ i_obj i = Some o) -> it ∈ items_init pk o -> item_ok it.
Proof.
  intros (i&(n&Hn&Hi)&Ho). unfold items_init. destruct (ob_decl (obj_of pk o)) as [| |names [|v0 values]|] eqn:Ed; try by intros ?%elem_of_nil.
  assert (forall v, v ∈ v0 :: values -> assigned_somewhere v) as Hv by (intros v Hv; by eapply as_init).
  destruct (find_value o names 0) as [[k m]|]; [|by intros ?%elem_of_nil].
  case_decide.
  - destruct ((v0 :: values) !! k) as [v|] eqn:Ek; [|by intros ?%elem_of_nil]. intros ->%elem_of_list_singleton.
    apply item_of_expr_ok, Hv. by eapply elem_of_list_lookup_2.
  - intros ->%elem_of_list_singleton. cbn. apply Hv. by left.
Qed.
Lemma items_lhs_ok o same rhs i lhs it : (forall r, r ∈ rhs -> assigned_somewhere r) -> it ∈ items_lhs pk o same rhs i lhs -> item_ok it.
Proof.
  intros Hr. revert i. induction lhs as [|l lhs IH]; intros i; cbn [items_lhs]; [by intros ?%elem_of_nil|].
  rewrite elem_of_app. intros [H|H]; [|by eapply IH]. revert H.
  destruct (as_ident (unparen l)); [|by intros ?%elem_of_nil]. case_decide; [|by intros ?%elem_of_nil]. destruct same.
  - destruct (rhs !! i) as [r|] eqn:Er; [|by intros ?%elem_of_nil]. intros ->%elem_of_list_singleton. apply item_of_expr_ok, Hr. by eapply elem_of_list_lookup_2.
  - destruct rhs as [|r rhs]; [by intros ?%elem_of_nil|]. intros ->%elem_of_list_singleton. cbn. apply Hr. by left.
Qed.
Lemma items_node_ok o n it : n ∈ body_nodes fn -> it ∈ items_node pk o n -> item_ok it.
Proof.
  intros Hn. unfold items_node. destruct (as_funclit n) as [lit|].
  - destruct (pk_funcs pk !! lit); [|by intros ?%elem_of_nil]. by intros ->%elem_of_list_singleton.
  - destruct (as_assign n) as [[lhs rhs]|] eqn:Ea; [|by intros ?%elem_of_nil]. apply items_lhs_ok. intros r Hr. by eapply as_stmt.
Qed.
Definition spread_ok (st : tstate) : Prop :=
  (forall e, e ∈ ts_exprs st -> exists r, assigned_somewhere r /\ e = unparen r) /\ forall d, d ∈ ts_destructs st -> assigned_somewhere (de_source d).
Lemma findSpread_ok param fuel i st : within_ident i -> spread_ok st -> spread_ok (findSpread pk fn param fuel i st).
Proof.
  revert i st. induction fuel as [|n IH]; intros i st Hi Hst; [done|]. cbn [findSpread].
  destruct ((_ || _) && negb _); [done|]. case_decide; [done|]. destruct (i_obj i) as [o|] eqn:Eo; [|done].
  case_decide; [done|]. rewrite Hbody, spread_nodes_items, spread_init_items. unfold run_items. rewrite <-foldl_app.
  assert (forall it, it ∈ items_init pk o ++ flat_map (items_node pk o) (walk body) -> item_ok it) as Hok.
  { intros it [Hit|Hit]%elem_of_app; [apply (items_init_ok o); eauto|].
    apply elem_of_list_In, in_flat_map in Hit as (m&Hm&Hit). rewrite <-elem_of_list_In in Hm. rewrite <-elem_of_list_In in Hit.
    eapply items_node_ok; [|exact Hit]. unfold body_nodes. by rewrite Hbody. }
  assert (spread_ok (mark_visited o st)) as Hst1 by done.
  revert Hok Hst1. generalize (items_init pk o ++ flat_map (items_node pk o) (walk body)). generalize (mark_visited o st). clear Hst.
  intros st1 l. revert st1. induction l as [|it l IHl]; intros st1 Hok Hst1; [done|]. cbn [foldl]. apply IHl; [intros; apply Hok; by right|].
  specialize (Hok it (elem_of_list_here _ _)). destruct Hst1 as [He Hd]. destruct it as [e|d|j|os]; cbn in Hok |- *.
  - split; [|done]. cbn. intros e' [?| ->%elem_of_list_singleton]%elem_of_app; auto.
  - split; [done|]. cbn. intros e' [?| ->%elem_of_list_singleton]%elem_of_app; auto.
  - by apply IH.
  - done.
Qed.
Lemma taintSpread_ok param V i : within_ident i -> spread_ok (taintSpread pk fn param V i).
Proof. intros Hi. apply findSpread_ok; [done|]. split; intros ? []%elem_of_nil. Qed.

(** ** Calls *)
Definition mentioned (g : fid) : Prop := exists n, within n /\ denotes pk lk n g.
Fixpoint bounded (e : eff diag) : Prop :=
  match e with
  | EffUnion a b => bounded a /\ bounded b
  | EffDiff a _ => bounded a
  | EffCallEdge g => mentioned g
  | EffCallDirect g => mentioned g /\ assigned_literal pk fn g
  | _ => True
  end.
Lemma bounded_nil e : call_list e = [] -> bounded e.
Proof. induction e; cbn; try done. intros [? ?]%app_eq_nil. auto. Qed.
Lemma bounded_calls e g : bounded e -> g ∈ call_list e -> mentioned g.
Proof.
  induction e; cbn; try (by intros ? ?%elem_of_nil).
  - intros [? ?] [?|?]%elem_of_app; auto.
  - auto.
  - by intros ? ->%elem_of_list_singleton.
  - by intros [? _] ->%elem_of_list_singleton.
Qed.
Lemma bounded_directs e g : bounded e -> g ∈ direct_list e -> assigned_literal pk fn g.
Proof.
  induction e; cbn; try (by intros ? ?%elem_of_nil).
  - intros [? ?] [?|?]%elem_of_app; auto.
  - auto.
  - by intros [_ ?] ->%elem_of_list_singleton.
Qed.
Lemma bounded_all l : (forall e, e ∈ l -> bounded e) -> bounded (eff_all l).
Proof.
  unfold eff_all. assert (forall acc, bounded acc -> (forall e, e ∈ l -> bounded e) -> bounded (foldl EffUnion acc l)) as H.
  { induction l as [|e l IH]; intros acc Ha Hl; [done|]. cbn. apply IH.
    - split; [done|apply Hl; by left].
    - intros e' He'. apply Hl. by right. }
  by apply H.
Qed.
Lemma bounded_reports {A} (h : A -> diag) l : bounded (eff_all (map (fun x => EffReport (h x)) l)).
Proof. apply bounded_all. by intros e (x&->&_)%elem_of_list_fmap. Qed.
Lemma bounded_ctor range cal args : bounded (extractErrorCodeFromConstructorCall pk fa fn range cal args).
Proof. apply bounded_nil, ctor_calls. Qed.
Lemma bounded_dropped range cal args : bounded (discard (extractErrorCodeFromConstructorCall pk fa fn range cal args)).
Proof. apply bounded_nil. rewrite discard_calls. apply ctor_calls. Qed.
Lemma bounded_affector e : bounded (extractErrorCodesFromAffector pk fa fn e).
Proof. apply bounded_nil, affector_calls. Qed.
Lemma bounded_call lambdas f cal call : within f -> (forall i, within_ident i -> bounded (lambdas i)) ->
  bounded (findErrorCodesFromFunctionCall pk lk fa lambdas fn f cal call).
Proof.
  intros Hf%within_unparen Hl. unfold findErrorCodesFromFunctionCall, call_function.
  destruct (match cal with Some o => fa_codes fa !! o | None => None end); [split; [apply bounded_ctor|done]|].
  case_decide; [split; [apply bounded_ctor|done]|]. cbv zeta. set (e := unparen f) in *. clearbody e.
  destruct (as_ident e) as [i|] eqn:Ei.
  { destruct e as [id k kids]. destruct k as [name obj| | | | | | | | | | | | | | | | | |]; try done. cbn in Ei. injection Ei as <-. cbn [i_obj i_name i_id].
    destruct obj as [o|].
    - destruct (ob_decl (obj_of pk o)) as [g| |names values|] eqn:Ed.
      + split; [apply bounded_ctor|]. eexists. split; [exact Hf|]. by apply den_func.
      + destruct call as [[c args]|]; [split; [apply bounded_dropped|apply bounded_affector]|apply bounded_dropped].
      + split; [apply bounded_dropped|]. apply Hl. eexists. split; [exact Hf|done].
      + split; [apply bounded_dropped|]. apply Hl. eexists. split; [exact Hf|done].
    - destruct (lk_functions lk !! name) as [g|] eqn:Eg; [|split; [apply bounded_dropped|done]].
      split; [apply bounded_ctor|]. eexists. split; [exact Hf|]. by apply den_name. }
  destruct (as_selector e) as [[x sel]|] eqn:Es.
  { destruct (match as_ident (unparen x) with Some t => ti_pkgname info (i_id t) | None => None end) eqn:Ep; [split; [apply bounded_dropped|done]|].
    destruct (ti_selection info (node_id e)) as [[o recv]|] eqn:Et; [|split; [apply bounded_dropped|done]].
    destruct (searchMethod pk lk recv (i_name sel)) as [g|] eqn:Em; [|split; [apply bounded_ctor|done]].
    split; [apply bounded_ctor|]. exists e. split; [done|]. eapply den_method; [done| |done|by apply searchMethod_spec].
    intros t Ht. by rewrite Ht in Ep. }
  destruct (as_funclit e) as [g|] eqn:Eg; [|split; [apply bounded_dropped|done]].
  split; [apply bounded_ctor|]. exists e. split; [done|]. destruct e as [id k kids]. destruct k; try done. cbn in Eg. injection Eg as ->. apply den_literal.
Qed.
Lemma bounded_lambdas i : within_ident i -> bounded (findErrorCodesFromAllAssignedLambdas pk lk fa fn i).
Proof.
  intros Hi. unfold findErrorCodesFromAllAssignedLambdas, all_assigned_lambdas. destruct (taintSpread_ok None ∅ i Hi) as [He _].
  case_match; [done|]. cbn [bounded]. split_and!; [apply bounded_reports|apply bounded_reports|].
  apply bounded_all. intros y (e&->&(r&Hr&->)%He)%elem_of_list_fmap. unfold findErrorCodesInLambdaAssignment.
  assert (within (unparen r)) as Hw by by apply within_unparen, assigned_within.
  assert (unparen (unparen r) = unparen r) as ->. { clear. revert r. fix IH 1. intros [id k kids]. destruct k; try (clear IH; done). destruct kids as [|x [|]]; try (clear IH; done). exact (IH x). }
  cbv zeta. destruct (as_funclit (unparen r)) as [g|] eqn:Eg.
  { destruct (unparen r) as [id k kids] eqn:Er. destruct k; try done. cbn in Eg. injection Eg as ->. cbn [bounded]. split.
    - eexists. split; [exact Hw|apply den_literal].
    - destruct Hr as [n lhs rhs Hn Ha Hrr|n j o names values Hn Hj Ho Hd Hv]; [eapply al_assigned; [exact Hn|exact Ha|exact Hrr|exact Er]|eapply al_initial; [exact Hn|exact Hj|exact Ho|exact Hd|exact Hv|exact Er]]. }
  destruct (as_ident (unparen r)); [by apply bounded_call|].
  destruct (as_selector (unparen r)) as [[x sel]|]; [|done]. by apply bounded_call.
Qed.
Lemma bounded_call_expr e : within e -> bounded (findErrorCodesInCallExpression pk lk fa fn e).
Proof.
  intros He. unfold findErrorCodesInCallExpression. destruct (as_call e) as [[f args]|] eqn:Ec; [|done].
  apply bounded_call; [|intros; by apply bounded_lambdas]. eapply within_walk; [done|]. destruct e as [id k kids]. destruct k; try done.
  destruct kids as [|f' args']; [done|]. cbn in Ec. injection Ec as <- <-. eapply walk_kid; [by left|apply walk_self].
Qed.

(** ** Expressions *)
Definition analysis_ok (rec : expr_analysis) : Prop := forall V e, within e -> bounded (rec V e).1.
Lemma bounded_exprs rec V es : analysis_ok rec -> (forall e, e ∈ es -> within e) -> bounded (codes_of_exprs rec V es).1.
Proof.
  intros Hrec. revert V. induction es as [|e es IH]; intros V Hes; [done|]. cbn.
  pose proof (Hrec V e (Hes e (elem_of_list_here _ _))) as H1. destruct (rec V e) as [c v1]. cbn in H1.
  assert (bounded (codes_of_exprs rec v1 es).1) as H2. { apply IH. intros e' ?. apply Hes. by right. }
  destruct (codes_of_exprs rec v1 es) as [c' v2]. done.
Qed.
Lemma kid_within n x : within n -> x ∈ node_kids n -> within x.
Proof. intros Hn Hx. eapply within_walk; [done|]. destruct n as [id k kids]. eapply walk_kid; [exact Hx|apply walk_self]. Qed.
Lemma bounded_destruct rec V d : analysis_ok rec -> within (de_source d) -> bounded (codes_of_destruct pk lk fa rec fn V d).1.
Proof.
  intros Hrec Hd%within_unparen. unfold codes_of_destruct. destruct (unparen (de_source d)) as [id k kids] eqn:E. destruct k; try done.
  - destruct kids as [|f args]; [done|]. destruct (ti_type info (node_id f)) as [[]|]; try done. case_decide; [|done]. by apply bounded_call_expr.
  - destruct kids as [|x [|]]; try done. apply Hrec. eapply kid_within; [exact Hd|by left].
Qed.
Lemma bounded_destructs rec V ds : analysis_ok rec -> (forall d, d ∈ ds -> within (de_source d)) -> bounded (codes_of_destructs pk lk fa rec fn V ds).1.
Proof.
  intros Hrec. revert V. induction ds as [|d ds IH]; intros V Hds; [done|]. cbn.
  pose proof (bounded_destruct rec V d Hrec (Hds d (elem_of_list_here _ _))) as H1. destruct (codes_of_destruct pk lk fa rec fn V d) as [c v1]. cbn in H1.
  assert (bounded (codes_of_destructs pk lk fa rec fn v1 ds).1) as H2. { apply IH. intros e' ?. apply Hds. by right. }
  destruct (codes_of_destructs pk lk fa rec fn v1 ds) as [c' v2]. done.
Qed.
Lemma bounded_taint rec V i : analysis_ok rec -> within_ident i -> bounded (findErrorCodesFromIdentTaint pk lk fa rec fn V i).1.
Proof.
  intros Hrec Hi. unfold findErrorCodesFromIdentTaint. destruct (taintSpread_ok None V i Hi) as [He Hd].
  set (r := taintSpread pk fn None V i) in *. clearbody r. case_match; [done|].
  assert (bounded (codes_of_exprs rec (ts_visited r) (ts_exprs r)).1) as H1.
  { apply bounded_exprs; [done|]. intros e (r'&?&->)%He. by apply within_unparen, assigned_within. }
  destruct (codes_of_exprs rec (ts_visited r) (ts_exprs r)) as [c1 v1].
  assert (bounded (codes_of_destructs pk lk fa rec fn v1 (ts_destructs r)).1) as H2.
  { apply bounded_destructs; [done|]. intros d ?%Hd. by apply assigned_within. }
  destruct (codes_of_destructs pk lk fa rec fn v1 (ts_destructs r)) as [c2 v2]. cbn [fst bounded]. split_and!; [apply bounded_reports|done|done].
Qed.
Lemma bounded_expression fuel : analysis_ok (findErrorCodesInExpression pk lk fa fn fuel).
Proof.
  induction fuel as [|n IH]; intros V e Hw%within_unparen; [done|]. cbn [findErrorCodesInExpression].
  destruct (unparen e) as [id k kids]. destruct k; try done.
  - apply bounded_taint; [done|]. eexists. split; [exact Hw|done].
  - destruct kids as [|x [|[id' k' kids'] [|]]]; try done; destruct k'; try done.
    apply bounded_taint; [done|]. exists (Node id' (KIdent name obj) kids'). split; [|done]. eapply kid_within; [exact Hw|]. right. by left.
  - by apply bounded_call_expr.
  - destruct kids as [|x [|]]; try done. destruct (_ && _); [|done]. destruct (as_ident (unparen x)) as [i|] eqn:Ei; [|apply bounded_affector].
    apply bounded_taint; [done|]. exists (unparen x). split; [|done]. apply within_unparen. eapply kid_within; [exact Hw|by left].
  - apply bounded_affector.
  - apply bounded_affector.
  - by destruct typ.
Qed.
Lemma bounded_return V s : s ∈ body_nodes fn -> bounded (codes_of_return pk lk fa fn V s).1.
Proof.
  intros Hs. unfold codes_of_return. destruct (getReturnStmtAnnotations _) as [annotations ds].
  assert (bounded (findErrorCodesInReturnStmt pk lk fa fn V (node_kids s)).1) as H.
  { unfold findErrorCodesInReturnStmt. destruct (return_expression fn (node_kids s)) as [e|] eqn:Er; [|done]. apply bounded_expression.
    unfold return_expression in Er. destruct (last (node_kids s)) as [e'|] eqn:El.
    - injection Er as ->. eapply kid_within; [by apply in_body|]. by eapply last_Some_elem_of.
    - destruct (ft_results (fn_type fn)) as [fields|] eqn:Ef; [|done]. destruct (last fields) as [fl|] eqn:Efl; [|done].
      destruct (last (f_names fl)) as [i|] eqn:Ei; [|done]. injection Er as <-. eapply in_results; [done|by eapply last_Some_elem_of|by eapply last_Some_elem_of]. }
  destruct annotations as [a|].
  - destruct (an_shouldOverwrite a); [split; [apply bounded_reports|done]|].
    destruct (findErrorCodesInReturnStmt pk lk fa fn V (node_kids s)) as [c v]. cbn in H |- *. split_and!; [apply bounded_reports|done|done].
  - destruct (findErrorCodesInReturnStmt pk lk fa fn V (node_kids s)) as [c v]. cbn in H |- *. split; [apply bounded_reports|done].
Qed.
Lemma bounded_returns V l : (forall s, s ∈ l -> s ∈ body_nodes fn) -> bounded (codes_of_returns pk lk fa fn V l).1.
Proof.
  revert V. induction l as [|s l IH]; intros V Hl; [done|]. cbn.
  pose proof (bounded_return V s (Hl s (elem_of_list_here _ _))) as H1. destruct (codes_of_return pk lk fa fn V s) as [c v1]. cbn in H1.
  assert (bounded (codes_of_returns pk lk fa fn v1 l).1) as H2. { apply IH. intros e' ?. apply Hl. by right. }
  destruct (codes_of_returns pk lk fa fn v1 l) as [c' v2]. done.
Qed.
End any.

(** ** One function *)
Lemma returns_of_walk n s : s ∈ returns_of n -> s ∈ walk n.
Proof.
  induction n as [id k kids IH] using node_ind'. intros H.
  assert (s ∈ flat_map returns_of kids -> s ∈ walk (Node id k kids)) as Hk.
  { rewrite elem_of_list_In, in_flat_map. intros (m&Hm&Hs). rewrite <-elem_of_list_In in Hm. rewrite <-elem_of_list_In in Hs.
    eapply walk_kid; [done|by apply IH]. }
  destruct k; try (by apply Hk); cbn [returns_of] in H.
  - by apply elem_of_nil in H.
  - apply elem_of_list_singleton in H as ->. apply walk_self.
Qed.
Lemma bounded_function pk lk fa order fn : bounded pk lk fn (function_effect pk lk fa order fn).
Proof.
  unfold function_effect, findErrorCodesInFunctionReturnStmts. destruct (fn_body fn) as [body|] eqn:Eb.
  - assert (bounded pk lk fn (codes_of_returns pk lk fa fn ∅ (returns_of body)).1) as H.
    { apply (bounded_returns pk lk fa fn body Eb). intros s Hs. unfold body_nodes. rewrite Eb. by apply returns_of_walk. }
    destruct (codes_of_returns pk lk fa fn ∅ (returns_of body)) as [c v]. cbn in H. cbn [bounded]. split_and!; [|done|].
    + apply bounded_nil, constructor_calls.
    + apply bounded_nil; eapply fields_calls; exact Eb.
  - cbn [bounded]. split_and!; [apply bounded_nil, constructor_calls|done|]. unfold findCodesAssignedToErrorCodeFields. apply bounded_all. intros e (o&->&_)%elem_of_list_fmap.
    unfold findCodesAssignedToErrorCodeField. by rewrite Eb.
Qed.

(** ** The package *)
Section package.
Context (pk : package) (lk : lookup_table) (fa : facts) (order : gset oid -> list oid).
Notation plan := (plan pk lk fa order).

Lemma local_mentions f g : calls plan f g -> mentions_function pk lk f g.
Proof.
  unfold calls, Analyse.plan, mentions_function. destruct (pk_funcs pk !! f) as [fn|] eqn:Ef; [|by intros ?%elem_of_nil].
  intros (n&?&?)%(bounded_calls pk lk fn _ _ (bounded_function pk lk fa order fn)). exists fn, n. done.
Qed.
Lemma local_direct_back : no_literal_cycle pk lk -> direct_back plan.
Proof.
  intros Hno f g Hg Hr. unfold Analyse.plan in Hg. destruct (pk_funcs pk !! f) as [fn|] eqn:Ef; [|by apply elem_of_nil in Hg].
  apply (bounded_directs pk lk fn _ _ (bounded_function pk lk fa order fn)) in Hg. apply (Hno f fn g Ef Hg).
  clear -Hr. induction Hr as [|x y z H _ IH]; [apply rtc_refl|]. eapply rtc_l; [by apply local_mentions|done].
Qed.

Lemma usable_from_step f g : usable_from pk lk fa f -> rtc (passes_on pk lk fa) f g -> usable_from pk lk fa g.
Proof. intros H Hg h hn Hh. apply H. by etrans. Qed.
Lemma agree_from_step f g c : agree_from pk lk fa f c -> rtc (passes_on pk lk fa) f g -> agree_from pk lk fa g c.
Proof. intros H Hg h hn Hh. apply H. by etrans. Qed.
Lemma local_calls f g : usable_from pk lk fa f -> calls plan f g <-> passes_on pk lk fa f g.
Proof.
  intros Hus. unfold calls, Analyse.plan, passes_on. destruct (pk_funcs pk !! f) as [fn|] eqn:Ef.
  - destruct (Hus f fn (rtc_refl _ _) Ef) as [Hu Hb]. destruct (fn_body fn) as [body|] eqn:Eb; [|done].
    rewrite (function_calls pk lk fa fn body Eb Hu). split.
    + intros (e&?&?). exists fn, e. done.
    + intros (fn'&e&[= <-]&?&?). eauto.
  - cbn. rewrite elem_of_nil. split; [done|]. by intros (?&?&?&_).
Qed.
Lemma local_reaches f g : usable_from pk lk fa f -> reaches plan f g <-> rtc (passes_on pk lk fa) f g.
Proof.
  intros Hus. unfold reaches. split; intros H; revert Hus; induction H as [|x y z H _ IH]; intros Hus; try done.
  - apply (local_calls _ _ Hus) in H. eapply rtc_l; [exact H|]. apply IH. eapply usable_from_step; [exact Hus|by apply rtc_once].
  - eapply rtc_l; [by apply local_calls|]. apply IH. eapply usable_from_step; [exact Hus|by apply rtc_once].
Qed.
Lemma local_mutual f g : usable_from pk lk fa f -> mutual plan f g <-> recursive_with pk lk fa f g.
Proof.
  intros Hus. unfold mutual, recursive_with. rewrite (local_reaches f g Hus). split; intros [H1 H2]; (split; [done|]).
  - apply local_reaches; [by eapply usable_from_step|done].
  - apply local_reaches; [by eapply usable_from_step|done].
Qed.

(** *** The codes found are codes that may be returned. *)
Lemma listed_may l c f c' : may (plan_list l c) f c' <-> f ∈ l /\ c' = c.
Proof.
  assert (forall a b, ~ calls (plan_list l c) a b) as Hn.
  { intros a b. unfold calls, plan_list. case_decide; cbn; apply not_elem_of_nil. }
  assert (forall a b, reaches (plan_list l c) a b -> a = b) as Hr.
  { intros a b. destruct 1 as [|x y z Hxy _]; [done|]. by destruct (Hn x y). }
  split.
  - induction 1 as [f c' H|f g' c' [H _] _ IH].
    + unfold plan_list in H. case_decide; [|by apply from_none in H]. apply from_set_iff in H. split; [done|]. set_solver.
    + apply Hr in H. by subst.
  - intros [? ->]. apply may_own. unfold plan_list. rewrite decide_True by done. constructor. set_solver.
Qed.
Context (Horder : forall s o, o ∈ order s <-> o ∈ s).
Lemma local_sound f c : usable_from pk lk fa f -> may plan f c -> may_return pk lk fa f c.
Proof.
  assert ((forall f c, may plan f c -> usable_from pk lk fa f -> may_return pk lk fa f c) /\
    (forall e c, from plan e c -> exists l, (forall g, g ∈ l -> g ∈ call_list e /\ (usable_from pk lk fa g -> may_return pk lk fa g c)) /\
      from (plan_list l c) e c)) as [H _]; [|intros ? ?; by apply H].
  apply may_from_ind.
  - intros f' c' Hf (l&Hl&Hfl) Hus. assert (forall g, g ∈ l -> may_return pk lk fa g c') as Hl'.
    { intros g [Hc Hg]%Hl. apply Hg. eapply usable_from_step; [exact Hus|]. apply rtc_once. by apply local_calls. }
    clear Hl. unfold Analyse.plan in Hfl. destruct (pk_funcs pk !! f') as [fn|] eqn:Ef; [|by apply from_panic_iff in Hfl].
    destruct (Hus f' fn (rtc_refl _ _) Ef) as [Hu Hb]. destruct (fn_body fn) as [body|] eqn:Eb; [|done].
    apply mr_own with fn; [done|]. eapply own_code_mono; [|eapply own_sound; [exact Eb|by apply (us_typed _ _ _ Hu)|by apply (us_scoped _ _ _ Hu)|exact Hu|exact Horder|exact Hfl]].
    intros g [Hg _]%listed_may. by apply Hl'.
  - intros f' g c' Hm _ IH Hus. apply (local_mutual _ _ Hus) in Hm. eapply mr_recursive; [exact Hm|]. apply IH. eapply usable_from_step; [exact Hus|]. apply Hm.
  - intros s c' Hc. exists []. split; [by intros ? ?%elem_of_nil|by constructor].
  - intros a b c' _ (l&Hl&Hf). exists l. split; [|by apply from_union_l]. intros g [? ?]%Hl. cbn. split; [apply elem_of_app; by left|done].
  - intros a b c' _ (l&Hl&Hf). exists l. split; [|by apply from_union_r]. intros g [? ?]%Hl. cbn. split; [apply elem_of_app; by right|done].
  - intros a s c' _ (l&Hl&Hf) Hs. exists l. split; [done|by constructor].
  - intros g c' _ IH. exists [g]. split; [intros ? ->%elem_of_list_singleton; split; [by left|done]|]. constructor. apply listed_may. split; [by left|done].
  - intros g c' _ IH. exists [g]. split; [intros ? ->%elem_of_list_singleton; split; [by left|done]|]. constructor. apply listed_may. split; [by left|done].
Qed.

(** *** The other direction: a code comes from at most one of the functions called. *)
Section one.
Context (M : fid -> gostring -> Prop) (c : gostring).
Notation listed l := (fun (g : fid) (c' : gostring) => g ∈ l /\ c' = c).
Definition all_in (l : list fid) : Prop := forall g, g ∈ l -> M g c.
Lemma all_nil : all_in [].
Proof. by intros ? ?%elem_of_nil. Qed.
Lemma all_one g : M g c -> all_in [g].
Proof. by intros ? ? ->%elem_of_list_singleton. Qed.
Lemma function_value_one e : function_value pk lk fa M e c -> exists l, all_in l /\ function_value pk lk fa (listed l) e c.
Proof.
  intros [id g kids H1 H2|s H1 H2 H3|g H1 H2 H3 H4].
  - exists [g]. split; [by apply all_one|]. eapply fv_literal; [exact H1|]. split; [by left|done].
  - exists []. split; [apply all_nil|]. by eapply fv_declared.
  - exists [g]. split; [by apply all_one|]. eapply fv_package; [done|done|done|]. split; [by left|done].
Qed.
Lemma call_code_one fn call f args : call_code pk lk fa M fn call f args c -> exists l, all_in l /\ call_code pk lk fa (listed l) fn call f args c.
Proof.
  intros [s H1 H2|o p a H1 H2 H3 H4 H5|s H1 H2 H3|i o H1 H2 H3 H4 H5 H6|g H1 H2 H3 H4|i o e H1 H2 H3 H4 H5 H6].
  - exists []. split; [apply all_nil|]. exact (cc_declared _ _ _ _ _ _ _ _ _ s H1 H2).
  - exists []. split; [apply all_nil|]. exact (cc_constructor _ _ _ _ _ _ _ _ _ o p a H1 H2 H3 H4 H5).
  - exists []. split; [apply all_nil|]. exact (cc_conversion _ _ _ _ _ _ _ _ _ s H1 H2 H3).
  - exists []. split; [apply all_nil|]. exact (cc_conversion_value _ _ _ _ _ _ _ _ _ i o H1 H2 H3 H4 H5 H6).
  - exists [g]. split; [by apply all_one|]. refine (cc_package _ _ _ _ _ _ _ _ _ g H1 H2 H3 _). split; [by left|done].
  - apply function_value_one in H6 as (l&Hl&H6). exists l. split; [done|]. exact (cc_variable _ _ _ _ _ _ _ _ _ i o e H1 H2 H3 H4 H5 H6).
Qed.
Lemma direct_code_one fn e : direct_code pk lk fa M fn e c -> exists l, all_in l /\ direct_code pk lk fa (listed l) fn e c.
Proof.
  intros [f args H1 H2|x H1 H2 H3|id elts H1 H2|id kids H1 H2].
  - apply call_code_one in H2 as (l&Hl&H2). exists l. split; [done|]. exact (dc_call _ _ _ _ _ _ _ f args H1 H2).
  - exists []. split; [apply all_nil|]. exact (dc_address _ _ _ _ _ _ _ x H1 H2 H3).
  - exists []. split; [apply all_nil|]. exact (dc_composite _ _ _ _ _ _ _ id elts H1 H2).
  - exists []. split; [apply all_nil|]. exact (dc_literal _ _ _ _ _ _ _ id kids H1 H2).
Qed.
Lemma several_code_one fn o : several_code pk lk fa M fn o c -> exists l, all_in l /\ several_code pk lk fa (listed l) fn o c.
Proof.
  intros (d&f&args&ps&rs&v&H1&H2&H3&H4&H5). apply call_code_one in H5 as (l&Hl&H5). exists l. split; [done|]. exists d, f, args, ps, rs, v.
  exact (conj H1 (conj H2 (conj H3 (conj H4 H5)))).
Qed.
Lemma expr_code_one fn e : expr_code pk lk fa M fn e c -> exists l, all_in l /\ expr_code pk lk fa (listed l) fn e c.
Proof.
  intros [H1|o e' H1 H2 H3|o H1 H2].
  - apply direct_code_one in H1 as (l&Hl&H1). exists l. split; [done|]. exact (ec_direct _ _ _ _ _ _ _ H1).
  - apply direct_code_one in H3 as (l&Hl&H3). exists l. split; [done|]. exact (ec_var _ _ _ _ _ _ _ o e' H1 H2 H3).
  - apply several_code_one in H2 as (l&Hl&H2). exists l. split; [done|]. exact (ec_several _ _ _ _ _ _ _ o H1 H2).
Qed.
Lemma return_code_one fn s : return_code pk lk fa M fn s c -> exists l, all_in l /\ return_code pk lk fa (listed l) fn s c.
Proof.
  intros [e H1 H2 H3|a H1 H2|a b H1 H2|a b e H1 H2 H3 H4].
  - apply expr_code_one in H3 as (l&Hl&H3). exists l. split; [done|]. exact (rc_plain _ _ _ _ _ _ _ e H1 H2 H3).
  - exists []. split; [apply all_nil|]. exact (rc_overwrite _ _ _ _ _ _ _ a H1 H2).
  - exists []. split; [apply all_nil|]. exact (rc_add _ _ _ _ _ _ _ a b H1 H2).
  - apply expr_code_one in H3 as (l&Hl&H3). exists l. split; [done|]. exact (rc_keep _ _ _ _ _ _ _ a b e H1 H2 H3 H4).
Qed.
Lemma own_code_one fn : own_code pk lk fa M fn c -> exists l, all_in l /\ own_code pk lk fa (listed l) fn c.
Proof.
  intros [s H1 H2|i o e H1 H2 H3 H4|o H1 H2].
  - apply return_code_one in H2 as (l&Hl&H2). exists l. split; [done|]. exact (oc_return _ _ _ _ _ _ s H1 H2).
  - exists []. split; [apply all_nil|]. exact (oc_parameter _ _ _ _ _ _ i o e H1 H2 H3 H4).
  - exists []. split; [apply all_nil|]. exact (oc_field _ _ _ _ _ _ o H1 H2).
Qed.
End one.
Lemma from_listed l c e : from (plan_list l c) e c -> (forall g, g ∈ l -> g ∈ call_list e -> may plan g c) -> from plan e c.
Proof.
  induction e; cbn; intros H Hl.
  - by apply from_set_iff in H; apply from_set_iff.
  - apply from_union_iff in H as [H|H]; apply from_union_iff; [left; apply IHe1|right; apply IHe2]; try done;
      intros g ? ?; apply Hl; try done; apply elem_of_app; auto.
  - apply from_diff_iff in H as [H ?]. apply from_diff_iff. split; [|done]. by apply IHe.
  - inversion H.
  - apply from_call_iff in H. apply from_call_iff. apply listed_may in H as [H _]. apply Hl; [done|by left].
  - apply from_direct_iff in H. apply from_direct_iff. apply listed_may in H as [H _]. apply Hl; [done|by left].
  - by apply from_panic_iff in H.
Qed.
Lemma local_complete f c : usable_from pk lk fa f -> agree_from pk lk fa f c -> may_return pk lk fa f c -> may plan f c.
Proof.
  intros Hus Hag H. revert Hus Hag. revert f c H.
  apply (may_return_least pk lk fa (fun f c => usable_from pk lk fa f -> agree_from pk lk fa f c -> may plan f c)).
  - intros f fn c Hf Ho Hus Hag. destruct (Hus f fn (rtc_refl _ _) Hf) as [Hu Hb]. destruct (fn_body fn) as [body|] eqn:Eb; [|done].
    apply own_code_one in Ho as (l&Hl&Ho). apply may_own. apply (from_listed l).
    + unfold Analyse.plan. rewrite Hf.
      eapply own_complete; [exact Eb|by apply (us_typed _ _ _ Hu)|by apply (us_scoped _ _ _ Hu)|exact Hu|exact Horder|eapply Hag; [apply rtc_refl|exact Hf]|].
      eapply own_code_mono; [|exact Ho]. intros g Hg. by apply listed_may.
    + intros g Hg Hc. assert (rtc (passes_on pk lk fa) f g) as Hr by (apply rtc_once; by apply local_calls).
      apply (Hl g Hg); [by eapply usable_from_step|by eapply agree_from_step].
  - intros f g c Hr Hg Hus Hag. eapply may_recursive; [by apply local_mutual|]. destruct Hr as [Hr _].
    apply Hg; [by eapply usable_from_step|by eapply agree_from_step].
Qed.
End package.
