(** * Proofs: the codes found for the functions of a package are the least solution of the specification. *)
From Coq Require Import Ascii String.
From stdpp Require Import base list gmap sets.
From Verif Require Import GoString ErrorCode Scc Engine SpecEngine CodeSet Annotation Constant GoAst Taint Extract Analyse
  SpecCodes SpecTaint SpecMay SpecProgram GoStringProofs ErrorCodeProofs CodeSetProofs TaintProofs Termination ExprProofs MayProofs
  CallProofs FunctionProofs ReturnProofs OwnProofs EngineProofs EngineTheorems.

Section mono.
Context (pk : package) (lk : lookup_table) (fa : facts) (M M' : fid -> gostring -> Prop) (c : gostring) (HM : forall g, M g c -> M' g c).

Lemma function_value_mono e : function_value pk lk fa M e c -> function_value pk lk fa M' e c.
Proof.
  intros [id g kids H1 H2|s H1 H2 H3|g H1 H2 H3 H4].
  - exact (fv_literal _ _ _ _ _ _ id g kids H1 (HM _ H2)).
  - exact (fv_declared _ _ _ _ _ _ s H1 H2 H3).
  - exact (fv_package _ _ _ _ _ _ g H1 H2 H3 (HM _ H4)).
Defined.
Lemma call_code_mono fn call f args : call_code pk lk fa M fn call f args c -> call_code pk lk fa M' fn call f args c.
Proof.
  intros [s H1 H2|o p a H1 H2 H3 H4 H5|s H1 H2 H3|i o H1 H2 H3 H4 H5 H6|g H1 H2 H3 H4|i o e H1 H2 H3 H4 H5 H6].
  - exact (cc_declared _ _ _ _ _ _ _ _ _ s H1 H2).
  - exact (cc_constructor _ _ _ _ _ _ _ _ _ o p a H1 H2 H3 H4 H5).
  - exact (cc_conversion _ _ _ _ _ _ _ _ _ s H1 H2 H3).
  - exact (cc_conversion_value _ _ _ _ _ _ _ _ _ i o H1 H2 H3 H4 H5 H6).
  - exact (cc_package _ _ _ _ _ _ _ _ _ g H1 H2 H3 (HM _ H4)).
  - exact (cc_variable _ _ _ _ _ _ _ _ _ i o e H1 H2 H3 H4 H5 (function_value_mono _ H6)).
Defined.
Lemma direct_code_mono fn e : direct_code pk lk fa M fn e c -> direct_code pk lk fa M' fn e c.
Proof.
  intros [f args H1 H2|x H1 H2 H3|id elts H1 H2|id kids H1 H2].
  - exact (dc_call _ _ _ _ _ _ _ f args H1 (call_code_mono _ _ _ _ H2)).
  - exact (dc_address _ _ _ _ _ _ _ x H1 H2 H3).
  - exact (dc_composite _ _ _ _ _ _ _ id elts H1 H2).
  - exact (dc_literal _ _ _ _ _ _ _ id kids H1 H2).
Defined.
Lemma several_code_mono fn o : several_code pk lk fa M fn o c -> several_code pk lk fa M' fn o c.
Proof.
  intros (d&f&args&ps&rs&v&H1&H2&H3&H4&H5). exists d, f, args, ps, rs, v.
  exact (conj H1 (conj H2 (conj H3 (conj H4 (call_code_mono _ _ _ _ H5))))).
Defined.
Lemma expr_code_mono fn e : expr_code pk lk fa M fn e c -> expr_code pk lk fa M' fn e c.
Proof.
  intros [H1|o e' H1 H2 H3|o H1 H2].
  - exact (ec_direct _ _ _ _ _ _ _ (direct_code_mono _ _ H1)).
  - exact (ec_var _ _ _ _ _ _ _ o e' H1 H2 (direct_code_mono _ _ H3)).
  - exact (ec_several _ _ _ _ _ _ _ o H1 (several_code_mono _ _ H2)).
Defined.
Lemma return_code_mono fn s : return_code pk lk fa M fn s c -> return_code pk lk fa M' fn s c.
Proof.
  intros [e H1 H2 H3|a H1 H2|a b H1 H2|a b e H1 H2 H3 H4].
  - exact (rc_plain _ _ _ _ _ _ _ e H1 H2 (expr_code_mono _ _ H3)).
  - exact (rc_overwrite _ _ _ _ _ _ _ a H1 H2).
  - exact (rc_add _ _ _ _ _ _ _ a b H1 H2).
  - exact (rc_keep _ _ _ _ _ _ _ a b e H1 H2 (expr_code_mono _ _ H3) H4).
Defined.
Lemma own_code_mono fn : own_code pk lk fa M fn c -> own_code pk lk fa M' fn c.
Proof.
  intros [s H1 H2|i o e H1 H2 H3 H4|o H1 H2].
  - exact (oc_return _ _ _ _ _ _ s H1 (return_code_mono _ _ H2)).
  - exact (oc_parameter _ _ _ _ _ _ i o e H1 H2 H3 H4).
  - exact (oc_field _ _ _ _ _ _ o H1 H2).
Defined.
End mono.

(** Induction over [may_return]. *)
Lemma may_return_least pk lk fa (P : fid -> gostring -> Prop) :
  (forall f fn c, pk_funcs pk !! f = Some fn -> own_code pk lk fa P fn c -> P f c) ->
  (forall f g c, recursive_with pk lk fa f g -> P g c -> P f c) ->
  forall f c, may_return pk lk fa f c -> P f c.
Proof.
  intros H1 H2. fix IH 3. intros f c [f' fn c' Hf Ho|f' g c' Hr Hg].
  - exact (H1 f' fn c' Hf (own_code_mono pk lk fa (may_return pk lk fa) P c' (fun g => IH g c') fn Ho)).
  - exact (H2 f' g c' Hr (IH g c' Hg)).
Qed.

(** ** Which functions are called *)
Fixpoint eff_sets (e : eff diag) : codeset :=
  match e with
  | EffSet s => s
  | EffUnion a b => eff_sets a ∪ eff_sets b
  | EffDiff a _ => eff_sets a
  | _ => ∅
  end.
(** Nothing is subtracted from the results of calls. *)
Fixpoint plain (e : eff diag) : Prop :=
  match e with
  | EffUnion a b => plain a /\ plain b
  | EffDiff a _ => call_list a = []
  | _ => True
  end.
Definition plan_of (g : fid) (c : gostring) (f : fid) : eff diag := if decide (f = g) then EffSet {[c]} else eff_none.
Lemma plan_of_may g c f c' : may (plan_of g c) f c' <-> f = g /\ c' = c.
Proof.
  assert (forall a b, ~ calls (plan_of g c) a b) as Hn.
  { intros a b. unfold calls, plan_of. case_decide; cbn; apply not_elem_of_nil. }
  assert (forall a b, reaches (plan_of g c) a b -> a = b) as Hr.
  { intros a b. destruct 1 as [|x y z Hxy _]; [done|]. by destruct (Hn x y). }
  split.
  - induction 1 as [f c' H|f g' c' [H _] _ IH].
    + unfold plan_of in H. case_decide; [|by apply from_none in H]. apply from_set_iff in H. split; [done|]. set_solver.
    + apply Hr in H. by subst.
  - intros [-> ->]. apply may_own. unfold plan_of. rewrite decide_True by done. constructor. set_solver.
Qed.
Lemma from_nothing (plan : fid -> eff diag) e c : call_list e = [] -> from plan e c -> c ∈ eff_sets e.
Proof.
  induction e; cbn; intros Hl H.
  - by apply from_set_iff in H.
  - apply app_eq_nil in Hl as [? ?]. apply from_union_iff in H as [?|?]; set_solver.
  - apply from_diff_iff in H as [? _]. auto.
  - inversion H.
  - done.
  - done.
  - by apply from_panic_iff in H.
Qed.
Lemma from_fresh g c e : plain e -> c ∉ eff_sets e -> from (plan_of g c) e c <-> g ∈ call_list e.
Proof.
  induction e; cbn; intros Hp Hc.
  - rewrite from_set_iff, elem_of_nil. tauto.
  - rewrite from_union_iff, elem_of_app. destruct Hp. rewrite IHe1, IHe2 by set_solver. done.
  - rewrite Hp, elem_of_nil. split; [|done]. intros [H _]%from_diff_iff. apply from_nothing in H; done.
  - rewrite elem_of_nil. split; [inversion 1|done].
  - rewrite from_call_iff, plan_of_may, elem_of_list_singleton. naive_solver.
  - rewrite from_direct_iff, plan_of_may, elem_of_list_singleton. naive_solver.
  - rewrite elem_of_nil. split; [by intros ?%from_panic_iff|done].
Qed.

Lemma from_no_may (plan : fid -> eff diag) e c : (forall f c, ~ may plan f c) -> from plan e c -> c ∈ eff_sets e.
Proof.
  intros Hn. induction e; cbn; intros H.
  - by apply from_set_iff in H.
  - apply from_union_iff in H as [?|?]; set_solver.
  - apply from_diff_iff in H as [? _]. auto.
  - inversion H.
  - apply from_call_iff in H. by destruct (Hn _ c H).
  - apply from_direct_iff in H. by destruct (Hn _ c H).
  - by apply from_panic_iff in H.
Qed.
Lemma plan_none_may f c : ~ may (fun _ => eff_none : eff diag) f c.
Proof. intros H. induction H as [f c H|]; [by apply from_none in H|done]. Qed.

Section calls.
Context (pk : package) (lk : lookup_table) (fa : facts) (fn : func).

Lemma plain_nil e : call_list e = [] -> plain e.
Proof. induction e; cbn; try done. intros [? ?]%app_eq_nil. auto. Qed.
Lemma plain_ctor range cal args : plain (extractErrorCodeFromConstructorCall pk fa fn range cal args).
Proof. apply plain_nil, ctor_calls. Qed.
Lemma discard_calls e : call_list (discard e) = call_list e.
Proof. induction e; cbn; try done. congruence. Qed.
Lemma plain_dropped range cal args : plain (discard (extractErrorCodeFromConstructorCall pk fa fn range cal args)).
Proof. apply plain_nil. rewrite discard_calls. apply ctor_calls. Qed.
Lemma plain_affector e : plain (extractErrorCodesFromAffector pk fa fn e).
Proof. apply plain_nil, affector_calls. Qed.
Lemma plain_all l : (forall e, e ∈ l -> plain e) -> plain (eff_all l).
Proof.
  unfold eff_all. assert (forall acc, plain acc -> (forall e, e ∈ l -> plain e) -> plain (foldl EffUnion acc l)) as H.
  { induction l as [|e l IH]; intros acc Ha Hl; [done|]. cbn. apply IH.
    - split; [done|apply Hl; by left].
    - intros e' He'. apply Hl. by right. }
  by apply H.
Qed.
Lemma plain_call lambdas f cal call : (forall i, plain (lambdas i)) -> plain (findErrorCodesFromFunctionCall pk lk fa lambdas fn f cal call).
Proof.
  intros Hl. unfold findErrorCodesFromFunctionCall, call_function.
  repeat first [ apply plain_ctor | apply plain_dropped | apply plain_affector | apply Hl | exact I
               | progress cbn [plain] | split | case_match ].
Qed.
Lemma plain_lambdas i : plain (findErrorCodesFromAllAssignedLambdas pk lk fa fn i).
Proof.
  unfold findErrorCodesFromAllAssignedLambdas, all_assigned_lambdas. case_match; [exact I|]. cbn [plain]. split_and!.
  - apply plain_all. intros e (?&->&_)%elem_of_list_fmap. exact I.
  - apply plain_all. intros e (?&->&_)%elem_of_list_fmap. exact I.
  - apply plain_all. intros e (?&->&_)%elem_of_list_fmap. unfold findErrorCodesInLambdaAssignment.
    repeat case_match; try exact I; by apply plain_call.
Qed.
Lemma plain_call_expr e : plain (findErrorCodesInCallExpression pk lk fa fn e).
Proof. unfold findErrorCodesInCallExpression. repeat case_match; try exact I. apply plain_call. apply plain_lambdas. Qed.

Context (body : node) (Hbody : fn_body fn = Some body) (Hscoped : scoped pk fn).

Lemma call_expr_target e f args g : good_call pk fn e -> as_call e = Some (f, args) ->
  g ∈ call_list (findErrorCodesInCallExpression pk lk fa fn e) <-> call_target pk lk fa fn f g.
Proof.
  intros Hg Hc. set (E := findErrorCodesInCallExpression pk lk fa fn e).
  pose (c := fresh (eff_sets E)). assert (c ∉ eff_sets E) as Hf by apply is_fresh. clearbody c.
  rewrite <-(from_fresh g c E) by (done || apply plain_call_expr).
  assert (forall M : fid -> gostring -> Prop, (forall f c, ~ M f c) -> ~ call_code pk lk fa M fn e f args c) as Hno.
  { intros M HM H. apply Hf. apply (from_no_may (fun _ => eff_none)); [apply plan_none_may|].
    apply (from_call_expr pk lk fa fn _ body Hbody Hscoped e f args); [done|done|].
    eapply call_code_mono; [|exact H]. intros f' H'. by destruct (HM f' c). }
  specialize (Hno (fun _ _ => False) (fun _ _ H => H)).
  unfold E. rewrite (from_call_expr pk lk fa fn _ body Hbody Hscoped e f args) by done. split.
  - intros [s H1 H2|o p a H1 H2 H3 H4 H5|s H1 H2 H3|i o H1 H2 H3 H4 H5 H6|g' H1 H2 H3 H4|i o e' H1 H2 H3 H4 H5 H6].
    + destruct Hno. by eapply cc_declared.
    + destruct Hno. by eapply cc_constructor.
    + destruct Hno. by eapply cc_conversion.
    + destruct Hno. by eapply cc_conversion_value.
    + apply plan_of_may in H4 as [-> _]. by apply ct_package.
    + destruct H6 as [id g' kids Hl H6|s Hn Hd Hs|g' Hn Hd Hden H6].
      * apply plan_of_may in H6 as [-> _]. eapply ct_variable; try done. by eapply vt_literal.
      * destruct Hno. eapply cc_variable; try done. by eapply fv_declared.
      * apply plan_of_may in H6 as [-> _]. eapply ct_variable; try done. by eapply vt_name.
  - assert (may (plan_of g c) g c) as Hm by (by apply plan_of_may).
    intros [H1 H2 H3|i o e' H1 H2 H3 H4 H5 [id kids Hl|Hn Hd Hden]].
    + by eapply cc_package.
    + eapply cc_variable; try done. by eapply fv_literal.
    + eapply cc_variable; try done. by eapply fv_package.
Qed.
End calls.

Section function.
Context (pk : package) (lk : lookup_table) (fa : facts) (fn : func) (body : node) (Hbody : fn_body fn = Some body) (Hus : usable pk fa fn).
Notation info := (pk_info pk).

Lemma all_calls_nil {A} (h : A -> eff diag) l : (forall x, call_list (h x) = []) -> call_list (eff_all (map h l)) = [].
Proof.
  intros H. unfold eff_all. assert (forall acc : eff diag, call_list acc = [] -> call_list (foldl EffUnion acc (map h l)) = []) as Hl.
  { induction l as [|x l IH]; intros acc Ha; [done|]. cbn. apply IH. cbn. by rewrite Ha, H. }
  by apply Hl.
Qed.
Lemma constructor_calls : call_list (ectractErrorCodesFromConstructor pk fa fn) = [].
Proof.
  unfold ectractErrorCodesFromConstructor. repeat case_match; try done. cbn [call_list].
  rewrite !all_calls_nil; [done|apply string_expr_calls|done|done].
Qed.
Lemma field_lhs_calls o rhs same i lhs et : call_list (code_field_lhs pk fa fn o rhs same i lhs et) = [].
Proof.
  revert i et. induction lhs as [|l lhs IH]; intros i et; [done|]. cbn [code_field_lhs].
  repeat case_match; try apply IH; try done; cbn [call_list]; rewrite ?IH; try done; by rewrite string_expr_calls.
Qed.
Lemma fields_calls order : call_list (findCodesAssignedToErrorCodeFields pk fa fn order) = [].
Proof.
  unfold findCodesAssignedToErrorCodeFields. apply all_calls_nil. intros o. unfold findCodesAssignedToErrorCodeField.
  case_match; [|done]. apply all_calls_nil. intros [lhs rhs]. apply field_lhs_calls.
Qed.
Lemma leaf_calls e g : good_call pk fn (unparen e) ->
  g ∈ call_list (leaf pk lk fa fn e) <-> exists f args, as_call (unparen e) = Some (f, args) /\ call_target pk lk fa fn f g.
Proof.
  intros Hg. unfold leaf. destruct (unparen e) as [id k kids] eqn:E.
  assert (forall (E : eff diag), call_list E = [] -> as_call (Node id k kids) = None ->
    g ∈ call_list E <-> exists f args, as_call (Node id k kids) = Some (f, args) /\ call_target pk lk fa fn f g) as Hnone.
  { intros E0 -> Hc. rewrite elem_of_nil. split; [done|]. intros (?&?&?&_). congruence. }
  destruct k; try (by apply Hnone).
  - destruct (as_call (Node id KCall kids)) as [[f args]|] eqn:Ec.
    + rewrite (call_expr_target pk lk fa fn body Hbody (us_scoped _ _ _ Hus) _ f args g Hg Ec). split; [eauto|].
      by intros (?&?&[= <- <-]&?).
    + unfold findErrorCodesInCallExpression. rewrite Ec. cbn. rewrite elem_of_nil. split; [done|]. by intros (?&?&?&_).
  - destruct kids as [|x [|]]; try (by apply Hnone). apply Hnone; [|done]. case_match; [apply affector_calls|done].
  - apply Hnone; [|done]. apply affector_calls.
  - apply Hnone; [|done]. apply affector_calls.
  - apply Hnone; [|done]. by case_match.
Qed.
Lemma call_not_root e f args i : as_call (unparen e) = Some (f, args) -> ~ root pk e i.
Proof.
  intros H Hr%root_ident_spec. unfold root_ident in Hr. destruct (unparen e) as [id [] kids]; done.
Qed.
Lemma expr_effect_calls e g : good_call pk fn (unparen e) ->
  (exists y, expr_effects pk lk fa fn e y /\ g ∈ call_list y) <->
  exists f args, as_call (unparen e) = Some (f, args) /\ call_target pk lk fa fn f g.
Proof.
  intros Hg. split.
  - intros (y&[[_ ->]|(i&_&_&->)]&H); [by apply leaf_calls|by apply elem_of_nil in H].
  - intros (f&args&Hc&Ht). exists (leaf pk lk fa fn e). split.
    + left. split; [|done]. intros i. by eapply call_not_root.
    + apply leaf_calls; eauto.
Qed.
Lemma dest_leaf_calls d g : good_call pk fn (unparen (de_source d)) -> asserted d = None ->
  g ∈ call_list (dest_leaf pk lk fa fn d) <->
  exists f args ps rs v, as_call (unparen (de_source d)) = Some (f, args) /\ ti_type info (node_id f) = Some (TSignature ps rs v) /\
    S (de_position d) = length rs /\ call_target pk lk fa fn f g.
Proof.
  intros Hg Ha. unfold dest_leaf. destruct (unparen (de_source d)) as [id k kids].
  destruct k; try (cbn; rewrite elem_of_nil; split; [done|by intros (?&?&?&?&?&?&_)]).
  destruct kids as [|f args]; [cbn; rewrite elem_of_nil; split; [done|by intros (?&?&?&?&?&?&_)]|].
  destruct (ti_type info (node_id f)) as [[]|] eqn:Et; try (cbn; rewrite elem_of_nil; split; [done|intros (?&?&?&?&?&[= <- <-]&?&_); congruence]).
  case_decide as Hp.
  - rewrite (call_expr_target pk lk fa fn body Hbody (us_scoped _ _ _ Hus) _ f args g Hg) by done. split.
    + intros Ht. exists f, args, params, results, variadic. done.
    + by intros (?&?&?&?&?&[= <- <-]&_&_&?).
  - cbn. rewrite elem_of_nil. split; [done|]. intros (?&?&?&?&?&[= <- <-]&?&?&_). congruence.
Qed.
Lemma function_calls order g :
  g ∈ call_list (function_effect pk lk fa order fn) <-> exists e, error_call pk fn e /\ call_target pk lk fa fn e g.
Proof.
  unfold function_effect. pose proof (visited_error_vars pk lk fa fn body Hbody (us_scoped _ _ _ Hus) Hus) as Hvis.
  rewrite (returns_eq pk lk fa fn body Hbody) in *.
  destruct (codes_of_returns_post pk lk fa fn body Hbody (us_scoped _ _ _ Hus) ∅ (return_stmts fn)) as [_ P]; [by eapply usable_good|].
  destruct (P _ _ (observe_calls g)) as (P1&_&P3&P4). clear P.
  destruct (codes_of_returns pk lk fa fn ∅ (return_stmts fn)) as [r v]. cbn [fst snd] in *.
  cbn [call_list]. rewrite constructor_calls, fields_calls, app_nil_r. cbn [app]. split.
  - intros H. apply P1 in H as (s&Hs&[(y&Hf&Hy)|(_&y&Hy&H)]).
    { destruct Hf as [(d&_&->)|(a&Ha&[[Ho ->]|[Ho ->]])]; by apply elem_of_nil in Hy. }
    destruct H as [(Hov&[(e&Hr&He)|[_ ->]])|(e&o&(Hov&Hr)&Hv&Ho)]; [|by apply elem_of_nil in Hy|].
    + assert (good_call pk fn (unparen e)) as Hgc by (eapply usable_call; [done|left; eauto]).
      destruct (proj1 (expr_effect_calls e g Hgc)) as (f&args&Hc&Ht); [eauto|].
      exists f. split; [|done]. exists e, args. split; [done|]. left. eauto.
    + assert (error_var pk fn o) as Hev by (exists s, e; done).
      destruct Ho as [(e'&Hl&He')|[(d&Hd&Ha&->)|(j&_&_&->)]]; [| |by apply elem_of_nil in Hy].
      * assert (good_call pk fn (unparen e')) as Hgc by (eapply usable_call; [done|right; eauto]).
        destruct (proj1 (expr_effect_calls e' g Hgc)) as (f&args&Hc&Ht); [eauto|].
        exists f. split; [|done]. exists e', args. split; [done|]. right. left. eauto.
      * apply dest_leaf_calls in Hy as (f&args&ps&rs&vr&Hc&Hty&Hp&Ht); [|eapply usable_call; [done|right; exists o; split; [done|right; eauto]]|done].
        exists f. split; [|done]. exists (de_source d), args. split; [done|]. right. right. exists o, d, ps, rs, vr. done.
  - intros (f&(e&args&Hc&[(s&Hs&Hov&Hr)|[(o&Ho&Hl)|(o&d&ps&rs&vr&Ho&Hd&->&Hty&Hp)]])&Ht).
    + assert (good_call pk fn (unparen e)) as Hgc by (eapply usable_call; [done|left; eauto]).
      destruct (proj2 (expr_effect_calls e g Hgc)) as (y&He&Hy); [eauto|].
      apply (P3 s y); try done. split; [done|]. left. eauto.
    + assert (good_call pk fn (unparen e)) as Hgc by (eapply usable_call; [done|right; eauto]).
      destruct (proj2 (expr_effect_calls e g Hgc)) as (y&He&Hy); [eauto|].
      apply (P4 o y); [done|by apply Hvis|set_solver| |done]. left. eauto.
    + apply (P4 o (dest_leaf pk lk fa fn d)); [done|by apply Hvis|set_solver| |].
      * right. left. exists d. split_and!; [done| |done]. unfold asserted. destruct (unparen (de_source d)) as [id [] kids]; done.
      * apply dest_leaf_calls; [eapply usable_call; [done|right; exists o; split; [done|right; eauto]]| |eauto 10].
        unfold asserted. destruct (unparen (de_source d)) as [id [] kids]; done.
Qed.
End function.

(** ** The package *)
Section package.
Context (pk : package) (lk : lookup_table) (fa : facts) (order : gset oid -> list oid).
Context (Horder : forall s o, o ∈ order s <-> o ∈ s) (Hus : usable_functions pk fa).
Notation plan := (plan pk lk fa order).

Lemma package_calls f g : calls plan f g <-> passes_on pk lk fa f g.
Proof.
  unfold calls, Analyse.plan, passes_on. destruct (pk_funcs pk !! f) as [fn|] eqn:Ef.
  - destruct (Hus f fn Ef) as [Hu Hb]. destruct (fn_body fn) as [body|] eqn:Eb; [|done].
    rewrite (function_calls pk lk fa fn body Eb Hu). split.
    + intros (e&?&?). exists fn, e. done.
    + intros (fn'&e&[= <-]&?&?). eauto.
  - cbn. rewrite elem_of_nil. split; [done|]. by intros (?&?&?&_).
Qed.
Lemma package_reaches f g : reaches plan f g <-> rtc (passes_on pk lk fa) f g.
Proof.
  unfold reaches. split; induction 1 as [|x y z H _ IH]; try done; (eapply rtc_l; [|exact IH]); by apply package_calls.
Qed.
Lemma package_mutual f g : mutual plan f g <-> recursive_with pk lk fa f g.
Proof. unfold mutual, recursive_with. by rewrite !package_reaches. Qed.


(** The functions of [l] return [c], the others nothing. *)
Definition plan_list (l : list fid) (c : gostring) (f : fid) : eff diag := if decide (f ∈ l) then EffSet {[c]} else eff_none.
Lemma plan_list_may l c f c' : may (plan_list l c) f c' <-> f ∈ l /\ c' = c.
Proof.
  assert (forall a b, ~ calls (plan_list l c) a b) as Hn.
  { intros a b. unfold calls, plan_list. case_decide; cbn; apply not_elem_of_nil. }
  assert (forall a b, reaches (plan_list l c) a b -> a = b) as Hr.
  { intros a b. destruct 1 as [|x y z Hxy _]; [done|]. by destruct (Hn x y). }
  split.
  - induction 1 as [f c' H|f g' c' [H _] _ IH].
    + unfold plan_list in H. case_decide; [|by apply from_none in H]. apply from_set_iff in H. split; [done|]. set_solver.
    + apply Hr in H. by subst.
  - intros [? ->]. apply may_own. unfold plan_list. rewrite decide_True by done. constructor. set_solver.
Qed.
Lemma may_return_sound f c : may plan f c -> may_return pk lk fa f c.
Proof.
  assert ((forall f c, may plan f c -> may_return pk lk fa f c) /\
    (forall e c, from plan e c -> exists l, (forall g, g ∈ l -> may_return pk lk fa g c) /\ from (plan_list l c) e c)) as [H _]; [|apply H].
  apply may_from_ind.
  - intros f' c' Hf (l&Hl&Hfl). unfold Analyse.plan in Hfl, Hf. destruct (pk_funcs pk !! f') as [fn|] eqn:Ef; [|by apply from_panic_iff in Hfl].
    destruct (Hus f' fn Ef) as [Hu Hb]. destruct (fn_body fn) as [body|] eqn:Eb; [|done].
    apply mr_own with fn; [done|]. eapply own_code_mono; [|eapply own_sound; [exact Eb|by apply (us_typed _ _ _ Hu)|by apply (us_scoped _ _ _ Hu)|exact Hu|exact Horder|exact Hfl]].
    intros g [Hg _]%plan_list_may. by apply Hl.
  - intros f' g c' Hm _ IH. eapply mr_recursive; [|exact IH]. by apply package_mutual.
  - intros s c' Hc. exists []. split; [by intros ? ?%elem_of_nil|by constructor].
  - intros a b c' _ (l&Hl&Hf). exists l. split; [done|by apply from_union_l].
  - intros a b c' _ (l&Hl&Hf). exists l. split; [done|by apply from_union_r].
  - intros a s c' _ (l&Hl&Hf) Hs. exists l. split; [done|by constructor].
  - intros g c' _ IH. exists [g]. split; [by intros ? ->%elem_of_list_singleton|]. constructor. apply plan_list_may. split; [by left|done].
  - intros g c' _ IH. exists [g]. split; [by intros ? ->%elem_of_list_singleton|]. constructor. apply plan_list_may. split; [by left|done].
Qed.
Lemma may_return_complete f c : (forall g fn, pk_funcs pk !! g = Some fn -> agree pk fn c) ->
  may_return pk lk fa f c -> may plan f c.
Proof.
  intros Hag H. revert Hag. revert f c H.
  apply (may_return_least pk lk fa (fun f c => (forall g fn, pk_funcs pk !! g = Some fn -> agree pk fn c) -> may plan f c)).
  - intros f fn c Hf Ho Hag. destruct (Hus f fn Hf) as [Hu Hb]. destruct (fn_body fn) as [body|] eqn:Eb; [|done].
    apply may_own. unfold Analyse.plan at 2. rewrite Hf.
    eapply own_complete; [exact Eb|by apply (us_typed _ _ _ Hu)|by apply (us_scoped _ _ _ Hu)|exact Hu|exact Horder|by eapply Hag|].
    eapply own_code_mono; [|exact Ho]. intros g Hg. by apply Hg.
  - intros f g c Hr Hg Hag. eapply may_recursive; [by apply package_mutual|]. by apply Hg.
Qed.
End package.

Lemma no_literal_calls_recursion pk lk fa : no_literal_calls pk fa -> no_literal_recursion pk lk fa.
Proof. intros H f fn e g Hf He Hl. by destruct (H f fn e g Hf He). Qed.
