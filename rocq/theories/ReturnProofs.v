(** * Proofs: return statements and functions. *)
From Coq Require Import Ascii String.
From stdpp Require Import base list gmap sets.
From Verif Require Import GoString ErrorCode Scc Engine SpecEngine CodeSet Annotation Constant GoAst Taint Extract Analyse
  SpecCodes SpecAnnotation AnnotationProofs SpecTaint SpecMay GoStringProofs ErrorCodeProofs CodeSetProofs TaintProofs Termination ExprProofs MayProofs CallProofs FunctionProofs.

Section returns.
Context (pk : package) (lk : lookup_table) (fa : facts) (fn : func).
Notation info := (pk_info pk).
Notation root := (root pk).
Notation local := (local pk fn None).
Notation linked := (linked pk fn).
Notation expr_var := (expr_var pk fn).
Notation assigned_var := (assigned_var pk fn).
Notation expr_effects := (expr_effects pk lk fa fn).
Notation obj_effects := (obj_effects pk lk fa fn).
Notation returned := (returned fn).
Notation overwritten := (overwritten pk).
Notation annotation_is := (annotation_is pk).

(** The annotation of a statement, as the analyzer reads it. *)
Definition annotation_of (stmt : node) : option annotation := (getReturnStmtAnnotations (pk_comments pk (node_id stmt))).1.
Lemma annotation_is_model stmt q : annotation_is stmt q <-> annotation_of stmt = request_annotation <$> q.
Proof.
  unfold SpecMay.annotation_is, annotation_of. split.
  - intros [ds ->%annotated_spec]. done.
  - intros H. exists (getReturnStmtAnnotations (pk_comments pk (node_id stmt))).2. apply annotated_spec. rewrite <-H.
    by destruct (getReturnStmtAnnotations _).
Qed.
Lemma annotation_total stmt : exists q, annotation_is stmt q.
Proof. destruct (annotated_model (pk_comments pk (node_id stmt))) as (q&ds&H&_). exists q, ds. done. Qed.
Lemma annotation_fun stmt q q' : annotation_is stmt q -> annotation_is stmt q' -> q = q'.
Proof. intros [ds H] [ds' H']. by destruct (annotated_fun _ _ _ _ _ H H'). Qed.
Lemma no_request stmt q : annotation_of stmt = None -> ~ annotation_is stmt (Some q).
Proof. intros H K%annotation_is_model. by rewrite H in K. Qed.

(** Observations that see through subtraction in a controlled way. *)
Record observation (O : eff diag -> Prop) (Q : codeset -> Prop) : Prop := {
  ob_additive : additive O;
  ob_diff : forall a s, O (EffDiff a s) <-> O a /\ Q s;
  ob_empty : Q ∅
}.
Lemma observe_from plan c : observation (fun e => from plan e c) (fun s => c ∉ s).
Proof. split; [apply additive_from|intros; apply from_diff_iff|set_solver]. Qed.
Lemma observe_reports d : observation (fun e => d ∈ reports e) (fun _ => True).
Proof. split; [apply additive_reports|cbn; tauto|done]. Qed.
Lemma observe_calls g : observation (fun e => g ∈ call_list (D := diag) e) (fun _ => True).
Proof. split; [apply additive_calls|cbn; tauto|done]. Qed.
Lemma observe_directs g : observation (fun e => g ∈ direct_list (D := diag) e) (fun _ => True).
Proof. split; [split; [intros a b; cbn; by rewrite elem_of_app|cbn; apply not_elem_of_nil]|cbn; tauto|done]. Qed.
Lemma observe_panics : observation panics (fun _ => True).
Proof. split; [apply additive_panics|cbn; tauto|done]. Qed.

Lemma returned_spec stmt e : returned stmt e <-> return_expression fn (node_kids stmt) = Some e.
Proof.
  unfold return_expression. split.
  - intros [e' H|fields fl i Hk Hf Hl Hn].
    + by rewrite H.
    + by rewrite Hk, Hf; cbn [last]; rewrite Hl, Hn.
  - destruct (last (node_kids stmt)) as [e'|] eqn:El.
    + intros [= ->]. by apply ret_last.
    + apply last_None in El. destruct (ft_results (fn_type fn)) as [fields|] eqn:Ef; [|done].
      destruct (last fields) as [fl|] eqn:Efl; [|done]. destruct (last (f_names fl)) as [i|] eqn:Ei; [|done].
      intros [= <-]. by eapply ret_named.
Qed.

(** ** The search over several statements *)
Record dpost (R : node -> Prop) (V V' : gset oid) : Prop := {
  dp_sub : V ⊆ V';
  dp_roots : forall e i o, R e -> root e i -> local i o -> o ∈ V';
  dp_new : forall o, o ∈ V' -> o ∉ V -> exists e, R e /\ expr_var e o;
  dp_var : forall o j o', o ∈ V' -> o ∉ V -> assigned_var o j -> local j o' -> o' ∈ V';
  dp_link : forall o e i o', o ∈ V' -> o ∉ V -> linked o e -> root e i -> local i o' -> o' ∈ V'
}.
Lemma dpost_of_xpost R X V r : xpost pk lk fa fn R X V r -> dpost R V r.2.
Proof. intros [H1 H2 H3 H4 H5 _]. by split. Qed.
Lemma dpost_seq R1 R2 V V1 V2 : dpost R1 V V1 -> dpost R2 V1 V2 -> dpost (fun e => R1 e \/ R2 e) V V2.
Proof.
  intros P Q. pose proof (dp_sub _ _ _ P) as H1. pose proof (dp_sub _ _ _ Q) as H2.
  split.
  - set_solver.
  - intros e i o [He|He] Hr Hl; [apply H2; by eapply (dp_roots _ _ _ P)|by eapply (dp_roots _ _ _ Q)].
  - intros o Ho Hn. destruct (decide (o ∈ V1)) as [H|H].
    + destruct (dp_new _ _ _ P o H Hn) as (e&?&?). eauto.
    + destruct (dp_new _ _ _ Q o Ho H) as (e&?&?). eauto.
  - intros o j o' Ho Hn. destruct (decide (o ∈ V1)) as [H|H]; intros.
    + apply H2. by eapply (dp_var _ _ _ P o).
    + by eapply (dp_var _ _ _ Q o).
  - intros o j i o' Ho Hn. destruct (decide (o ∈ V1)) as [H|H]; intros.
    + apply H2. by eapply (dp_link _ _ _ P o).
    + by eapply (dp_link _ _ _ Q o).
Qed.
Lemma dpost_none (R : node -> Prop) V : (forall e, ~ R e) -> dpost R V V.
Proof. intros HR. split; try done. intros e i o He. by destruct (HR e). Qed.
Lemma dpost_iff (R R' : node -> Prop) V V' : (forall e, R e <-> R' e) -> dpost R V V' -> dpost R' V V'.
Proof.
  intros HR [H1 H2 H3 H4 H5]. split; try done.
  - intros e i o He%HR. by eapply H2.
  - intros o Ho Hn. destruct (H3 o Ho Hn) as (e&?%HR&?). eauto.
Qed.

Context (body : node) (Hbody : fn_body fn = Some body) (Hscoped : scoped pk fn).

Definition subs (stmt : node) : codeset := match annotation_of stmt with Some a => an_subCodes a | None => ∅ end.
Definition fixed_effects (stmt : node) (y : eff diag) : Prop :=
  (exists d, d ∈ (getReturnStmtAnnotations (pk_comments pk (node_id stmt))).2 /\ y = report (node_id stmt) (annotation_message d)) \/
  (exists a, annotation_of stmt = Some a /\
     ((an_shouldOverwrite a = true /\ y = EffSet (an_overwrite a)) \/ (an_shouldOverwrite a = false /\ y = EffSet (an_addCodes a)))).
Definition stmt_effects (stmt : node) (y : eff diag) : Prop :=
  ~ overwritten stmt /\ ((exists e, returned stmt e /\ expr_effects e y) \/ ((forall e, ~ returned stmt e) /\ y = EffPanic)).
Definition stmt_exprs (stmt : node) (e : node) : Prop := ~ overwritten stmt /\ returned stmt e.
Definition good_stmt (stmt : node) : Prop := forall e, stmt_exprs stmt e -> good pk fn e.

Lemma overwritten_dec stmt : {overwritten stmt} + {~ overwritten stmt}.
Proof.
  destruct (match annotation_of stmt with Some a => an_shouldOverwrite a | None => false end) eqn:E; [left|right].
  - destruct (annotation_total stmt) as [q Hq]. pose proof Hq as Hm. apply annotation_is_model in Hm. rewrite Hm in E.
    destruct q as [[cs|]|]; [by exists cs|done|done].
  - intros [cs Hm%annotation_is_model]. by rewrite Hm in E.
Qed.
Lemma overwritten_model stmt : overwritten stmt <-> exists a, annotation_of stmt = Some a /\ an_shouldOverwrite a = true.
Proof.
  split.
  - intros [cs Hm%annotation_is_model]. eexists. split; [exact Hm|done].
  - intros (a&Ha&Ho). destruct (annotation_total stmt) as [q Hq]. pose proof Hq as Hm. apply annotation_is_model in Hm. rewrite Ha in Hm.
    destruct q as [[cs|]|]; [by exists cs| |done]. injection Hm as ->. done.
Qed.
Lemma fuel_enough V : fuel_ok pk V (expr_fuel pk).
Proof.
  unfold fuel_ok, expr_fuel. rewrite <-(size_dom (D := gset oid) (pk_objs pk)).
  assert (size ((dom (pk_objs pk) : gset oid) ∖ V) <= size (dom (pk_objs pk) : gset oid)) by (apply subseteq_size; set_solver). lia.
Qed.
Lemma return_stmt_post V stmt : ~ overwritten stmt -> good_stmt stmt ->
  xpost pk lk fa fn (stmt_exprs stmt) (stmt_effects stmt) V (findErrorCodesInReturnStmt pk lk fa fn V (node_kids stmt)).
Proof.
  intros Hov Hg. unfold findErrorCodesInReturnStmt. destruct (return_expression fn (node_kids stmt)) as [e|] eqn:Er.
  - apply returned_spec in Er.
    assert (forall e', returned stmt e' -> e' = e) as Huniq.
    { intros e' He'. rewrite returned_spec in *. congruence. }
    eapply xpost_iff; [| |apply (expression_post pk lk fa fn body Hbody Hscoped (expr_fuel pk) V e)].
    + intros e'. unfold stmt_exprs. split; [by intros ->|]. intros [_ ?]. by apply Huniq.
    + intros y. unfold stmt_effects. split; [eauto|].
      intros [_ [(e'&He'&?)|[Hn _]]]; [by rewrite <-(Huniq e' He')|by destruct (Hn e)].
    + apply fuel_enough.
    + by apply Hg.
  - assert (forall e, ~ returned stmt e) as Hn. { intros e. rewrite returned_spec. congruence. }
    apply xpost_leaf.
    + intros e i [_ He]. by destruct (Hn e).
    + intros y. unfold stmt_effects. split; [|auto]. intros [_ [(e&He&_)|[_ ?]]]; [by destruct (Hn e)|done].
Qed.
Lemma codes_of_return_post V stmt : good_stmt stmt ->
  let r := codes_of_return pk lk fa fn V stmt in
  dpost (stmt_exprs stmt) V r.2 /\
  forall O Q, observation O Q -> O r.1 <->
    (exists y, fixed_effects stmt y /\ O y) \/
    (Q (subs stmt) /\ ((exists y, stmt_effects stmt y /\ O y) \/ exists o y, o ∈ r.2 /\ o ∉ V /\ obj_effects o y /\ O y)).
Proof.
  intros Hg. unfold codes_of_return.
  destruct (getReturnStmtAnnotations (pk_comments pk (node_id stmt))) as [ann ds] eqn:Ea.
  assert (annotation_of stmt = ann) as Hann by (unfold annotation_of; by rewrite Ea).
  assert (forall O, additive O -> O (eff_all (map (fun d => report (node_id stmt) (annotation_message d)) ds)) <->
    exists d, d ∈ ds /\ O (report (node_id stmt) (annotation_message d))) as Hds.
  { intros O HO. rewrite (obs_all _ _ HO). split.
    - intros (x&(d&->&?)%elem_of_list_fmap&?). eauto.
    - intros (d&?&?). eexists. split; [apply elem_of_list_fmap; eauto|done]. }
  destruct ann as [a|].
  - destruct (an_shouldOverwrite a) eqn:Eo.
    + assert (overwritten stmt) as Hov by (by apply overwritten_model; exists a). cbn [fst snd]. split.
      { apply dpost_none. by intros e [? _]. }
      intros O Q HO. rewrite (ad_union _ (ob_additive _ _ HO)), (Hds O (ob_additive _ _ HO)). unfold fixed_effects. rewrite Ea, Hann. cbn [snd]. split.
      * intros [(d&?&?)|?]; left; [eexists; split; [left; eauto|done]|eexists; split; [right; eauto|done]].
      * intros [(y&[(d&?&->)|(a'&[= <-]&[[_ ->]|[? _]])]&?)|[_ [(y&[? _]&_)|(o&y&?&?&_)]]]; [left; eauto|by right|congruence|done|done].
    + assert (~ overwritten stmt) as Hov. { intros (a'&?&?)%overwritten_model. congruence. }
      pose proof (return_stmt_post V stmt Hov Hg) as P. destruct (findErrorCodesInReturnStmt pk lk fa fn V (node_kids stmt)) as [c v].
      cbn [fst snd]. split.
      { by apply dpost_of_xpost in P. }
      intros O Q HO. pose proof (ob_additive _ _ HO) as HA. rewrite !(ad_union _ HA), (Hds O HA), (ob_diff _ _ HO).
      pose proof (xp_obs _ _ _ _ _ _ _ _ P O HA) as E. cbn [fst snd] in E. rewrite E.
      unfold fixed_effects. unfold subs. rewrite Ea, Hann. cbn [snd]. split.
      * intros [(d&?&?)|[[H HQ]|?]]; [left; eexists; split; [left; eauto|done]|by right|left; eexists; split; [right; eauto|done]].
      * intros [(y&[(d&?&->)|(a'&[= <-]&[[? _]|[_ ->]])]&?)|[? ?]]; [left; eauto|congruence|by right; right|right; left; done].
  - assert (~ overwritten stmt) as Hov. { intros (a'&?&?)%overwritten_model. congruence. }
    pose proof (return_stmt_post V stmt Hov Hg) as P. destruct (findErrorCodesInReturnStmt pk lk fa fn V (node_kids stmt)) as [c v].
    cbn [fst snd]. split.
    { by apply dpost_of_xpost in P. }
    intros O Q HO. pose proof (ob_additive _ _ HO) as HA. rewrite !(ad_union _ HA), (Hds O HA).
    pose proof (xp_obs _ _ _ _ _ _ _ _ P O HA) as E. cbn [fst snd] in E. rewrite E.
    unfold fixed_effects. unfold subs. rewrite Ea, Hann. cbn [snd]. pose proof (ob_empty _ _ HO). split.
    + intros [(d&?&?)|?]; [left; eexists; split; [left; eauto|done]|by right].
    + intros [(y&[(d&?&->)|(a'&?&_)]&?)|[? ?]]; [left; eauto|done|by right].
Qed.

(** All return statements: for every observation, soundness always and completeness up to what is subtracted by statements
    that return the same variable. *)
Lemma codes_of_returns_post V stmts : (forall s, s ∈ stmts -> good_stmt s) ->
  let r := codes_of_returns pk lk fa fn V stmts in
  dpost (fun e => exists s, s ∈ stmts /\ stmt_exprs s e) V r.2 /\
  forall O Q, observation O Q ->
    (O r.1 -> exists s, s ∈ stmts /\ ((exists y, fixed_effects s y /\ O y) \/
       (Q (subs s) /\ exists y, O y /\ (stmt_effects s y \/ exists e o, stmt_exprs s e /\ expr_var e o /\ obj_effects o y)))) /\
    (forall s y, s ∈ stmts -> fixed_effects s y -> O y -> O r.1) /\
    (forall s y, s ∈ stmts -> Q (subs s) -> stmt_effects s y -> O y -> O r.1) /\
    (forall o y, (forall s e, s ∈ stmts -> stmt_exprs s e -> expr_var e o -> Q (subs s)) -> o ∈ r.2 -> o ∉ V -> obj_effects o y -> O y -> O r.1).
Proof.
  revert V. induction stmts as [|s stmts IH]; intros V Hg; cbn [codes_of_returns].
  - cbn [fst snd]. split.
    + apply dpost_none. by intros e (?&?%elem_of_nil&_).
    + intros O Q HO. split_and!.
      * by intros ?%(ad_none _ (ob_additive _ _ HO)).
      * by intros ? ? ?%elem_of_nil.
      * by intros ? ? ?%elem_of_nil.
      * done.
  - destruct (codes_of_return_post V s) as [D1 O1]; [apply Hg; by left|].
    destruct (codes_of_return pk lk fa fn V s) as [c v1]. cbn [fst snd] in *.
    destruct (IH v1) as [D2 O2]; [intros; apply Hg; by right|].
    destruct (codes_of_returns pk lk fa fn v1 stmts) as [c' v2]. cbn [fst snd] in *.
    pose proof (dp_sub _ _ _ D1) as S1. pose proof (dp_sub _ _ _ D2) as S2. split.
    + eapply dpost_iff; [|exact (dpost_seq _ _ _ _ _ D1 D2)]. intros e. setoid_rewrite elem_of_cons. split.
      * intros [?|(s'&?&?)]; eauto.
      * intros (s'&[->|?]&?); eauto.
    + intros O Q HO. pose proof (ob_additive _ _ HO) as HA. specialize (O1 O Q HO). specialize (O2 O Q HO) as (A2&B2&C2&E2).
      split_and!; setoid_rewrite (ad_union _ HA).
      * intros [H|H].
        -- exists s. split; [by left|]. apply O1 in H as [?|[HQ H]]; [by left|right]. split; [done|].
           destruct H as [(y&?&?)|(o&y&Ho&Hn&?&?)]; [eauto|]. exists y. split; [done|]. right.
           destruct (dp_new _ _ _ D1 o Ho Hn) as (e&?&?). eauto.
        -- destruct (A2 H) as (s'&?&?). exists s'. split; [by right|done].
      * intros s' y [->|Hs']%elem_of_cons Hf Hy; [left; apply O1; left; eauto|right; by eapply B2].
      * intros s' y [->|Hs']%elem_of_cons HQ Hf Hy; [left; apply O1; right; split; [done|]; left; eauto|right; by eapply C2].
      * intros o y HQ Ho Hn Hoe Hy. destruct (decide (o ∈ v1)) as [Hv|Hv].
        -- left. apply O1. right.
           destruct (dp_new _ _ _ D1 o Hv Hn) as (e&He&Heo).
           split; [apply (HQ s e); [by left|done|done]|]. right. exists o, y. done.
        -- right. eapply E2; [|exact Ho|exact Hv|exact Hoe|exact Hy]. intros s' e Hs'. apply HQ. by right.
Qed.
(** Starting with nothing visited, the variables visited are those of the specification. *)
Lemma dpost_exact R V' : dpost R ∅ V' -> forall o, o ∈ V' <-> exists e, R e /\ expr_var e o.
Proof.
  intros D o. split.
  - intros Ho. by apply (dp_new _ _ _ D).
  - intros (e&He&Hv).
    assert (forall i o, (forall o', local i o' -> o' ∈ V') -> tracked pk fn None ∅ i o -> o ∈ V') as Htr.
    { intros i o' Hi. induction 1 as [o1 Hl _|o1 j o2 _ IH Hav Hl _]; [by apply Hi|].
      eapply (dp_var _ _ _ D o1); [done|set_solver|exact Hav|done]. }
    induction Hv as [i o Hr Ht|o e' i o' _ IH Hl Hr Ht].
    + eapply Htr; [|exact Ht]. intros o' Hl. by eapply (dp_roots _ _ _ D).
    + eapply Htr; [|exact Ht]. intros o2 Hl2. eapply (dp_link _ _ _ D o); [done|set_solver|exact Hl|exact Hr|done].
Qed.
End returns.
