(** * Proofs about the analysis of expressions: which effects it executes. *)
From Coq Require Import Ascii String.
From stdpp Require Import base list gmap sets.
From Verif Require Import GoString ErrorCode Scc Engine SpecEngine CodeSet Annotation Constant GoAst Taint Extract Analyse
  SpecCodes SpecTaint SpecMay TaintProofs Termination.

(** What can be observed of an effect and commutes with unions: a code in the result, a diagnostic, a call, a
    panicking operation. *)
Record additive (O : eff diag -> Prop) : Prop := {
  ad_union : forall a b, O (EffUnion a b) <-> O a \/ O b;
  ad_none : ~ O eff_none
}.
Lemma additive_from plan c : additive (fun e => from plan e c).
Proof.
  split.
  - intros a b. split; [inversion 1; auto|]. intros [?|?]; [by apply from_union_l|by apply from_union_r].
  - inversion 1; subst. set_solver.
Qed.
Lemma additive_reports d : additive (fun e => d ∈ reports e).
Proof. split; [intros a b; cbn; by rewrite elem_of_app|cbn; apply not_elem_of_nil]. Qed.
Lemma additive_calls g : additive (fun e => g ∈ call_list (D := diag) e).
Proof. split; [intros a b; cbn; by rewrite elem_of_app|cbn; apply not_elem_of_nil]. Qed.
Fixpoint panics (e : eff diag) : Prop :=
  match e with
  | EffUnion a b => panics a \/ panics b
  | EffDiff a _ => panics a
  | EffPanic => True
  | _ => False
  end.
Lemma no_panic_panics e : no_panic e <-> ~ panics e.
Proof. induction e; cbn; tauto. Qed.
Lemma additive_panics : additive panics.
Proof. split; [done|]. by intros []. Qed.

Lemma obs_all O l : additive O -> (O (eff_all l) <-> exists x, x ∈ l /\ O x).
Proof.
  intros HO. unfold eff_all.
  assert (forall acc, O (foldl EffUnion acc l) <-> O acc \/ exists x, x ∈ l /\ O x) as H.
  { induction l as [|x l IH]; intros acc; cbn.
    - split; [by left|]. intros [?|(?&?%elem_of_nil&_)]; done.
    - rewrite IH, (ad_union _ HO). split.
      + intros [[?|?]|(y&?&?)]; [by left|right; exists x; split; [by left|done]|right; exists y; split; [by right|done]].
      + intros [?|(y&[->|?]%elem_of_cons&?)]; [by left; left|by left; right|right; eauto]. }
  rewrite H. split; [intros [?|?]; [by destruct (ad_none _ HO)|done]|by right].
Qed.

Lemma unparen_idem n : unparen (unparen n) = unparen n.
Proof.
  assert (forall n, match unparen n with Node _ KParen [_] => False | _ => True end) as H.
  { fix IH 1. intros [id k kids]. destruct k; cbn; try done.
    destruct kids as [|x [|]]; try done. apply IH. }
  specialize (H n). destruct (unparen n) as [id k kids]. destruct k; try done.
  by destruct kids as [|x [|]].
Qed.

Section expr.
Context (pk : package) (lk : lookup_table) (fa : facts) (fn : func).
Notation info := (pk_info pk).
Notation local := (local pk fn None).
Notation tracked := (tracked pk fn None).
Notation untrackable := (untrackable pk fn None).
Notation assigned_var := (assigned_var pk fn).
Notation assigned_expr := (assigned_expr pk fn).
Notation assigned_several := (assigned_several pk fn).
Notation linked := (linked pk fn).
Notation expr_var := (expr_var pk fn).
Notation root := (root pk).

(** ** Expressions that stand for a variable, and others *)
Definition root_ident (expr : node) : option ident :=
  match unparen expr with
  | Node id (KIdent name obj) _ => Some (Ident id name obj)
  | Node id (KUnary true) [x] =>
    if (match ti_type info id with Some t => ti_implements_error info t | None => false end) then as_ident (unparen x) else None
  | Node _ KSelector [_; Node id (KIdent name obj) _] => Some (Ident id name obj)
  | _ => None
  end.
Definition leaf (expr : node) : eff diag :=
  let e := unparen expr in
  match e with
  | Node _ KCall _ => findErrorCodesInCallExpression pk lk fa fn e
  | Node _ (KUnary is_and) [x] =>
    if is_and && (match ti_type info (node_id e) with Some t => ti_implements_error info t | None => false end)
    then extractErrorCodesFromAffector pk fa fn e
    else report (node_id e) (str "expression " ++ type_name e ++ str " does not implement valid error type")
  | Node _ KComposite _ | Node _ KBasicLit _ => extractErrorCodesFromAffector pk fa fn e
  | Node _ (KTypeAssert None) _ => report (node_id e) (str "type assertion switch is not supported in error code analysis")
  | Node _ (KTypeAssert (Some _)) _ => report (node_id e) (str "type assertion is not supported in error code analysis")
  | Node _ KIndex _ => report (node_id e) (str "expression is not supported in error code analysis")
  | _ => report (node_id e) (str "expression " ++ type_name e ++ str " is not supported in error code analysis")
  end.
Lemma expression_cases n V e :
  findErrorCodesInExpression pk lk fa fn (S n) V e =
  match root_ident e with
  | Some i => findErrorCodesFromIdentTaint pk lk fa (findErrorCodesInExpression pk lk fa fn n) fn V i
  | None => (leaf e, V)
  end.
Proof.
  cbn [findErrorCodesInExpression]. unfold root_ident, leaf.
  destruct (unparen e) as [id k kids]. destruct k; try done.
  - destruct kids as [|? [|[? [] ?] [|]]]; done.
  - destruct kids as [|x [|]]; try done; destruct is_and; cbn [andb node_id]; try done.
    destruct (match ti_type info id with Some t => _ | None => false end); [|done]. by destruct (as_ident (unparen x)).
  - by destruct typ.
Qed.
Lemma as_ident_spec n i : as_ident n = Some i <-> exists kids, n = Node (i_id i) (KIdent (i_name i) (i_obj i)) kids.
Proof.
  destruct n as [id k kids]. split.
  - destruct k; try done. intros [= <-]. by exists kids.
  - intros (?&[= -> -> ->]). by destruct i.
Qed.
Lemma root_ident_spec e i : root_ident e = Some i <-> root e i.
Proof.
  unfold root_ident. split.
  - destruct (unparen e) as [id k kids] eqn:E. destruct k; try done.
    + intros [= <-]. apply root_var. by rewrite E.
    + destruct kids as [|x [|[id' [] ?] [|]]]; try done. intros [= <-]. eapply root_selector. rewrite E. done.
    + destruct is_and; [|done]. destruct kids as [|x [|]]; try done.
      destruct (ti_type info id) as [t|] eqn:Et; [|done].
      destruct (ti_implements_error info t) eqn:Ei; [|done]. intros Hi. eapply root_address; [|exact Hi].
      exists id. rewrite E. eauto.
  - intros [e' i' H|e' x i' (id&H&t&Ht&Hi) Hx|e' x i' H].
    + destruct (unparen e') as [id [] kids]; try done.
    + rewrite H, Ht, Hi. done.
    + destruct (unparen e') as [id k kids]. unfold as_selector in H. destruct k; try done.
      destruct kids as [|a [|[id' k' kids'] [|]]]; try done. destruct k'; try done. cbn in H. by injection H as -> <-.
Qed.
Lemma root_unique e i j : root e i -> root e j -> i = j.
Proof. rewrite <-!root_ident_spec. congruence. Qed.

(** ** Destructuring assignments *)
Definition dest_leaf (d : destruct) : eff diag :=
  let e := unparen (de_source d) in
  match e with
  | Node _ KCall (f :: _) =>
    match ti_type info (node_id f) with
    | Some (TSignature _ results _) =>
      if decide (S (de_position d) = length results)
      then findErrorCodesInCallExpression pk lk fa fn e
      else report (i_id (de_target d))
              (str "unsupported: tracking error codes for function call with error as non-last return argument")
    | _ => EffPanic
    end
  | _ => EffPanic
  end.
Definition asserted (d : destruct) : option node :=
  match unparen (de_source d) with Node _ (KTypeAssert _) [x] => Some x | _ => None end.
Lemma destruct_cases rec V d :
  codes_of_destruct pk lk fa rec fn V d = match asserted d with Some x => rec V x | None => (dest_leaf d, V) end.
Proof.
  unfold codes_of_destruct, asserted, dest_leaf. destruct (unparen (de_source d)) as [id k kids].
  destruct k; try done.
  - destruct kids as [|f args]; [done|]. destruct (ti_type _ _) as [[]|]; try done. by case_decide.
  - by destruct kids as [|x [|]].
Qed.
Lemma asserted_spec d x : asserted d = Some x <-> exists id t, unparen (de_source d) = Node id (KTypeAssert t) [x].
Proof.
  unfold asserted. destruct (unparen (de_source d)) as [id k kids]. split.
  - destruct k; try done. destruct kids as [|y [|]]; try done. intros [= ->]. eauto.
  - by intros (?&?&[= -> -> ->]).
Qed.

(** ** Effects *)
Definition bad_origin (i : ident) : eff diag :=
  report (i_id i)
    (match fn_decl fn with
     | Some _ => str "returned error may not be a parameter, receiver or global variable"
     | None => str "returned error may not be a parameter, global variable or other variables declared outside of the function body"
     end).
Definition expr_effects (e : node) (x : eff diag) : Prop :=
  ((forall i, ~ root e i) /\ x = leaf e) \/ exists i, root e i /\ untrackable i /\ x = bad_origin i.
Definition obj_effects (o : oid) (x : eff diag) : Prop :=
  (exists e, linked o e /\ expr_effects e x) \/
  (exists d, assigned_several o d /\ asserted d = None /\ x = dest_leaf d) \/
  exists j, assigned_var o j /\ untrackable j /\ x = bad_origin j.

(** ** The depth first search *)
Record xpost (R : node -> Prop) (X : eff diag -> Prop) (V : gset oid) (r : eff diag * gset oid) : Prop := {
  xp_sub : V ⊆ r.2;
  xp_roots : forall e i o, R e -> root e i -> local i o -> o ∈ r.2;
  xp_new : forall o, o ∈ r.2 -> o ∉ V -> exists e, R e /\ expr_var e o;
  xp_var : forall o j o', o ∈ r.2 -> o ∉ V -> assigned_var o j -> local j o' -> o' ∈ r.2;
  xp_link : forall o e i o', o ∈ r.2 -> o ∉ V -> linked o e -> root e i -> local i o' -> o' ∈ r.2;
  xp_obs : forall O, additive O -> O r.1 <-> (exists y, X y /\ O y) \/ exists o y, o ∈ r.2 /\ o ∉ V /\ obj_effects o y /\ O y
}.
Lemma expr_var_link e o e' o' : expr_var e o -> linked o e' -> expr_var e' o' -> expr_var e o'.
Proof.
  intros H Hl. induction 1 as [i o' Hr Ht|o1 e1 i o2 H1 IH Hl1 Hr1 Ht1].
  - by eapply ev_link.
  - by eapply (ev_link pk fn e o1).
Qed.

(** Two steps after each other. *)
Lemma xpost_seq R1 X1 R2 X2 V c1 V1 c2 V2 :
  xpost R1 X1 V (c1, V1) -> xpost R2 X2 V1 (c2, V2) ->
  xpost (fun e => R1 e \/ R2 e) (fun x => X1 x \/ X2 x) V (EffUnion c1 c2, V2).
Proof.
  intros P Q. pose proof (xp_sub _ _ _ _ P) as H1. pose proof (xp_sub _ _ _ _ Q) as H2. cbn [fst snd] in *.
  split; cbn [fst snd].
  - set_solver.
  - intros e i o [He|He] Hr Hl; [apply H2; by eapply (xp_roots _ _ _ _ P)|by eapply (xp_roots _ _ _ _ Q)].
  - intros o Ho Hn. destruct (decide (o ∈ V1)) as [H|H].
    + destruct (xp_new _ _ _ _ P o H Hn) as (e&?&?). eauto.
    + destruct (xp_new _ _ _ _ Q o Ho H) as (e&?&?). eauto.
  - intros o j o' Ho Hn. destruct (decide (o ∈ V1)) as [H|H]; intros.
    + apply H2. by eapply (xp_var _ _ _ _ P o).
    + by eapply (xp_var _ _ _ _ Q o).
  - intros o j i o' Ho Hn. destruct (decide (o ∈ V1)) as [H|H]; intros.
    + apply H2. by eapply (xp_link _ _ _ _ P o).
    + by eapply (xp_link _ _ _ _ Q o).
  - intros O HO. rewrite (ad_union _ HO).
    pose proof (xp_obs _ _ _ _ P O HO) as E1. pose proof (xp_obs _ _ _ _ Q O HO) as E2. cbn [fst snd] in *.
    rewrite E1, E2. clear E1 E2. split.
    + intros [[(y&?&?)|(o&y&?&?&?&?)]|[(y&?&?)|(o&y&?&?&?&?)]].
      * left; eauto.
      * right. exists o, y. split_and!; auto.
      * left; eauto.
      * right. exists o, y. split_and!; auto.
    + intros [(y&[?|?]&?)|(o&y&?&?&?&?)].
      * left; left; eauto.
      * right; left; eauto.
      * destruct (decide (o ∈ V1)); [left|right]; right; exists o, y; auto.
Qed.
Lemma xpost_none V : xpost (fun _ => False) (fun _ => False) V (eff_none, V).
Proof.
  split; cbn; try done.
  intros O HO. split; [by intros ?%(ad_none _ HO)|]. intros [(?&[]&_)|(?&?&?&?&_)]; done.
Qed.
Lemma xpost_leaf (R : node -> Prop) (X : eff diag -> Prop) x V : (forall e i, R e -> ~ root e i) -> (forall y, X y <-> y = x) -> xpost R X V (x, V).
Proof.
  intros HR HX. split; cbn; try done.
  - intros e i o He Hr. by destruct (HR e i He).
  - intros O HO. split.
    + intros H. left. exists x. by rewrite HX.
    + intros [(y&->%HX&?)|(?&?&?&?&_)]; done.
Qed.
Lemma xpost_iff (R R' : node -> Prop) (X X' : eff diag -> Prop) V r : (forall e, R e <-> R' e) -> (forall x, X x <-> X' x) -> xpost R X V r -> xpost R' X' V r.
Proof.
  intros HR HX [H1 H2 H3 H4 H5 H6]. split; try done.
  - intros e i o He%HR. by eapply H2.
  - intros o Ho Hn. destruct (H3 o Ho Hn) as (e&?%HR&?). eauto.
  - intros O HO. rewrite (H6 O HO). by setoid_rewrite HX.
Qed.

Context (body : node) (Hbody : fn_body fn = Some body) (Hscoped : scoped pk fn).

(** The variables used as closure parameters have to be excluded (see C20). *)
Definition good (e : node) : Prop :=
  (forall i, root e i -> not_closure_param pk fn i) /\
  forall o e' i, expr_var e o -> linked o e' -> root e' i -> not_closure_param pk fn i.
Lemma good_link e o e' : good e -> expr_var e o -> linked o e' -> good e'.
Proof.
  intros [H1 H2] Ho Hl. split.
  - intros i. by apply (H2 o).
  - intros o' e'' i Ho' Hl' Hr. eapply H2; [|exact Hl'|exact Hr]. by eapply expr_var_link.
Qed.
Notation universe := (dom (pk_objs pk) : gset oid).

Lemma exprs_post rec V es : (forall V' e, V ⊆ V' -> e ∈ es -> xpost (fun e' => e' = e) (expr_effects e) V' (rec V' e)) ->
  forall V', V ⊆ V' -> xpost (fun e => e ∈ es) (fun x => exists e, e ∈ es /\ expr_effects e x) V' (codes_of_exprs rec V' es).
Proof.
  induction es as [|e es IH]; intros Hrec V' HV; cbn [codes_of_exprs].
  - eapply xpost_iff; [| |apply xpost_none].
    + intros e. split; [done|by intros ?%elem_of_nil].
    + intros e. split; [done|by intros (?&?%elem_of_nil&_)].
  - pose proof (Hrec V' e HV (elem_of_list_here _ _)) as P.
    destruct (rec V' e) as [c v1].
    assert (V ⊆ v1) as HV1. { etrans; [exact HV|]. apply (xp_sub _ _ _ _ P). }
    assert (xpost (fun e => e ∈ es) (fun x => exists e, e ∈ es /\ expr_effects e x) v1 (codes_of_exprs rec v1 es)) as Q.
    { apply IH; [|done]. intros V'' e' ??. apply Hrec; [done|by right]. }
    destruct (codes_of_exprs rec v1 es) as [c' v2].
    eapply xpost_iff; [| |exact (xpost_seq _ _ _ _ _ _ _ _ _ P Q)].
    + intros e'. by rewrite elem_of_cons.
    + intros x. setoid_rewrite elem_of_cons. split.
      * intros [?|(e'&?&?)]; eauto.
      * intros (e'&[->|?]&?); eauto.
Qed.
Lemma destructs_post rec V ds :
  (forall V' d x, V ⊆ V' -> d ∈ ds -> asserted d = Some x -> xpost (fun e' => e' = x) (expr_effects x) V' (rec V' x)) ->
  forall V', V ⊆ V' -> xpost (fun e => exists d, d ∈ ds /\ asserted d = Some e)
    (fun x => (exists d e, d ∈ ds /\ asserted d = Some e /\ expr_effects e x) \/ (exists d, d ∈ ds /\ asserted d = None /\ x = dest_leaf d))
    V' (codes_of_destructs pk lk fa rec fn V' ds).
Proof.
  induction ds as [|d ds IH]; intros Hrec V' HV; cbn [codes_of_destructs].
  - eapply xpost_iff; [| |apply xpost_none].
    + intros e. split; [done|by intros (?&?%elem_of_nil&_)].
    + intros e. split; [done|by intros [(?&?&?%elem_of_nil&_)|(?&?%elem_of_nil&_)]].
  - rewrite destruct_cases.
    assert (xpost (fun e => asserted d = Some e)
      (fun x => (exists e, asserted d = Some e /\ expr_effects e x) \/ (asserted d = None /\ x = dest_leaf d)) V'
      (match asserted d with Some x => rec V' x | None => (dest_leaf d, V') end)) as P.
    { destruct (asserted d) as [x|] eqn:Ea.
      - eapply xpost_iff; [| |apply (Hrec V' d x); [done|by left|done]].
        + intros e. split; [by intros ->|by intros [= ->]].
        + intros y. split; [eauto|]. intros [(e&[= ->]&?)|[? _]]; done.
      - apply xpost_leaf; [done|]. intros y. split; [intros [(?&?&_)|[_ ?]]; done|by right]. }
    destruct (match asserted d with Some x => rec V' x | None => (dest_leaf d, V') end) as [c v1].
    assert (V ⊆ v1) as HV1. { etrans; [exact HV|]. apply (xp_sub _ _ _ _ P). }
    specialize (IH (fun V'' d' x Hs Hd => Hrec V'' d' x Hs (elem_of_list_further _ _ _ Hd)) v1 HV1).
    destruct (codes_of_destructs pk lk fa rec fn v1 ds) as [c' v2].
    eapply xpost_iff; [| |exact (xpost_seq _ _ _ _ _ _ _ _ _ P IH)].
    + intros e'. setoid_rewrite elem_of_cons. split.
      * intros [?|(d'&?&?)]; eauto.
      * intros (d'&[->|?]&?); eauto.
    + intros x. setoid_rewrite elem_of_cons. split.
      * intros [[(e&?&?)|[? ?]]|[(d'&e&?&?&?)|(d'&?&?&?)]]; [left; exists d, e; auto|right; exists d; auto|left; exists d', e; auto|right; exists d'; auto].
      * intros [(d'&e&[->|?]&?&?)|(d'&[->|?]&?&?)]; [left; left; exists e; auto|right; left; exists d', e; auto|left; right; auto|right; right; exists d'; auto].
Qed.

Lemma ident_taint_post V e i n rec : root e i -> good e -> fuel_ok pk V (S n) ->
  (forall V' e', fuel_ok pk V' n -> good e' -> xpost (fun e1 => e1 = e') (expr_effects e') V' (rec V' e')) ->
  xpost (fun e' => e' = e) (expr_effects e) V (findErrorCodesFromIdentTaint pk lk fa rec fn V i).
Proof.
  intros Hr Hg Hn Hrec. unfold findErrorCodesFromIdentTaint.
  destruct (taintSpread_exact pk fn None Hscoped body Hbody V i) as (Hok&Hv&He&Hd&Ho).
  { by apply Hg. }
  set (r := taintSpread pk fn None V i) in *. clearbody r. rewrite Hok. cbn [negb].
  assert (forall o, tracked V i o -> expr_var e o) as Htr.
  { intros o Ht. eapply ev_root; [exact Hr|]. eapply tracked_antitone; [|exact Ht]. set_solver. }
  assert (V ⊆ ts_visited r) as HV. { intros o. rewrite Hv. by left. }
  assert (forall V' e', ts_visited r ⊆ V' -> (exists o, tracked V i o /\ linked o e') ->
     xpost (fun e1 => e1 = e') (expr_effects e') V' (rec V' e')) as Hrec'.
  { intros V' e' HV' (o&Ht&Hl). apply Hrec.
    - assert (o ∈ universe) as Hu.
      { destruct Ht as [? Hloc _|? ? ? _ _ Hloc _]; apply (local_universe pk fn None) in Hloc;
          unfold TaintProofs.universe in Hloc; set_solver. }
      assert (size (universe ∖ V') < size (universe ∖ V)); [|unfold fuel_ok in *; lia].
      apply subset_size. apply strict_spec_alt. split; [set_solver|].
      pose proof (tracked_not_in _ _ _ _ _ _ Ht) as HoV.
      intros Heq. assert (o ∈ universe ∖ V) as Ho3 by set_solver. rewrite <-Heq in Ho3.
      apply elem_of_difference in Ho3 as [_ Ho3]. apply Ho3, HV', Hv. by right.
    - eapply good_link; [exact Hg| |exact Hl]. by apply Htr. }
  assert (xpost (fun e => e ∈ ts_exprs r) (fun x => exists e, e ∈ ts_exprs r /\ expr_effects e x) (ts_visited r)
     (codes_of_exprs rec (ts_visited r) (ts_exprs r))) as P.
  { apply (exprs_post rec (ts_visited r)); [|done]. intros V' e' HV' (o&?&?)%He. apply Hrec'; [done|].
    exists o. split; [done|]. by left. }
  destruct (codes_of_exprs rec (ts_visited r) (ts_exprs r)) as [c1 v1].
  pose proof (xp_sub _ _ _ _ P) as HV1. cbn in HV1.
  assert (xpost (fun e => exists d, d ∈ ts_destructs r /\ asserted d = Some e)
    (fun x => (exists d e, d ∈ ts_destructs r /\ asserted d = Some e /\ expr_effects e x) \/
              (exists d, d ∈ ts_destructs r /\ asserted d = None /\ x = dest_leaf d))
    v1 (codes_of_destructs pk lk fa rec fn v1 (ts_destructs r))) as Q.
  { apply (destructs_post rec (ts_visited r)); [|done]. intros V' d x HV' (o&?&?)%Hd Ha. apply Hrec'; [done|].
    exists o. split; [done|]. right. apply asserted_spec in Ha as (id&t&?). eauto. }
  destruct (codes_of_destructs pk lk fa rec fn v1 (ts_destructs r)) as [c2 v2].
  pose proof (xpost_seq _ _ _ _ _ _ _ _ _ P Q) as S. clear P Q. cbn [fst snd] in *.
  assert (forall e', e' ∈ ts_exprs r \/ (exists d, d ∈ ts_destructs r /\ asserted d = Some e') <-> exists o, tracked V i o /\ linked o e') as Hlinks.
  { intros e'. split.
    - intros [(o&?&?)%He|(d&(o&?&?)%Hd&(id&t&?)%asserted_spec)]; exists o; (split; [done|]); [by left|right; eauto].
    - intros (o&Ht&[Hl|(d&id&t&Hs&Hu)]).
      + left. apply He. eauto.
      + right. exists d. split; [apply Hd; eauto|]. apply asserted_spec. eauto. }
  pose proof (xp_sub _ _ _ _ S) as HV2. cbn [fst snd] in HV2.
  assert (forall o, o ∈ v2 -> o ∉ V -> tracked V i o \/ (o ∉ ts_visited r)) as Hsplit.
  { intros o _ HoV. destruct (decide (o ∈ ts_visited r)) as [Hin|]; [|by right].
    apply Hv in Hin as [?|?]; [done|by left]. }
  split; cbn [fst snd].
  - set_solver.
  - intros e' i' o -> Hr' Hl. assert (i' = i) as -> by (by eapply root_unique).
    apply HV2, Hv. destruct (decide (o ∈ V)); [by left|right]. by apply tracked_start.
  - intros o Ho2 HoV. exists e. split; [done|]. destruct (Hsplit o Ho2 HoV) as [Ht|Hnv]; [by apply Htr|].
    destruct (xp_new _ _ _ _ S o Ho2 Hnv) as (e'&He'&Hev). apply Hlinks in He' as (o1&Ht&Hl).
    eapply expr_var_link; [by apply Htr|exact Hl|done].
  - intros o j o' Ho2 HoV Hav Hl. destruct (Hsplit o Ho2 HoV) as [Ht|Hnv].
    + apply HV2, Hv. destruct (decide (o' ∈ V)); [by left|right]. by eapply tracked_step.
    + by eapply (xp_var _ _ _ _ S o).
  - intros o e' i' o' Ho2 HoV Hl Hr' Hloc. destruct (Hsplit o Ho2 HoV) as [Ht|Hnv].
    + eapply (xp_roots _ _ _ _ S e'); [|done|done]. apply Hlinks. eauto.
    + by eapply (xp_link _ _ _ _ S o).
  - intros O HO. rewrite (ad_union _ HO), (obs_all _ _ HO).
    pose proof (xp_obs _ _ _ _ S O HO) as E. cbn [fst snd] in E. rewrite E. clear E. split.
    + intros [(x&Hx&HOx)|[(y&Hy&HOy)|(o&y&Ho2&HoV&Hy&HOy)]].
      * apply elem_of_list_fmap in Hx as (j&->&Hj). apply Ho in Hj as [Hu [->|(o&Ht&Hav)]].
        -- left. eexists. split; [|exact HOx]. right. exists i. done.
        -- right. exists o. eexists. split_and!; [| | |exact HOx].
           ++ apply HV2, Hv. by right.
           ++ by eapply tracked_not_in.
           ++ right. right. exists j. done.
      * right.
        assert (exists o, tracked V i o /\ obj_effects o y) as (o&Ht&Hoe).
        { destruct Hy as [(e'&He'&Hy)|[(d&e'&Hdd&Ha&Hy)|(d&Hdd&Ha&->)]].
          - apply He in He' as (o&Ht&Hae). exists o. split; [done|]. left. exists e'. split; [by left|done].
          - apply Hd in Hdd as (o&Ht&Hae). exists o. split; [done|]. left. exists e'. split; [|done]. right.
            apply asserted_spec in Ha as (id&t&?). eauto.
          - apply Hd in Hdd as (o&Ht&Hae). exists o. split; [done|]. right. left. eauto. }
        exists o, y. split_and!; [apply HV2, Hv; by right|by eapply tracked_not_in|done|done].
      * right. exists o, y. split_and!; [done| |done|done]. intros ?. apply HoV. set_solver.
    + intros [(y&Hy&HOy)|(o&y&Ho2&HoV&Hy&HOy)].
      * destruct Hy as [[Hno _]|(i'&Hr'&Hu&->)]; [by destruct (Hno i)|].
        assert (i' = i) as -> by (by eapply root_unique).
        left. eexists. split; [|exact HOy]. apply elem_of_list_fmap. exists i. split; [done|]. apply Ho. auto.
      * destruct (Hsplit o Ho2 HoV) as [Ht|Hnv].
        -- destruct Hy as [(e'&Hl&Hy)|[(d&Hd1&Ha&->)|(j&Hav&Hu&->)]].
           ++ right. left. exists y. split; [|done]. destruct Hl as [Hl|(d&id&t&Hs&Hun)].
              ** left. exists e'. split; [apply He; eauto|done].
              ** right. left. exists d, e'. split_and!; [apply Hd; eauto|apply asserted_spec; eauto|done].
           ++ right. left. exists (dest_leaf d). split; [|done]. right. right. exists d. split_and!; [apply Hd; eauto|done|done].
           ++ left. eexists. split; [|exact HOy]. apply elem_of_list_fmap. exists j. split; [done|]. apply Ho. split; [done|]. right. eauto.
        -- right. right. exists o, y. done.
Qed.

Lemma expression_post n V e : fuel_ok pk V n -> good e ->
  xpost (fun e' => e' = e) (expr_effects e) V (findErrorCodesInExpression pk lk fa fn n V e).
Proof.
  revert V e. induction n as [|n IH]; intros V e Hn Hg; [unfold fuel_ok in Hn; lia|].
  rewrite expression_cases. destruct (root_ident e) as [i|] eqn:Er.
  - apply root_ident_spec in Er. eapply (ident_taint_post V e i n); eauto.
  - assert (forall i, ~ root e i) as Hno. { intros i. rewrite <-root_ident_spec. congruence. }
    apply xpost_leaf; [by intros e' i ->|]. intros y. unfold expr_effects. split.
    + intros [[_ ->]|(i&?&_)]; [done|by destruct (Hno i)].
    + intros ->. by left.
Qed.
End expr.
