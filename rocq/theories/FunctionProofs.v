(** * Proofs: what is found for whole functions. *)
From Coq Require Import Ascii String.
From stdpp Require Import base list gmap sets.
From Verif Require Import GoString ErrorCode Scc Engine SpecEngine CodeSet Annotation Constant GoAst Taint Extract Analyse
  SpecCodes SpecTaint SpecMay GoStringProofs ErrorCodeProofs CodeSetProofs TaintProofs Termination ExprProofs MayProofs CallProofs.

Section func.
Context (pk : package) (lk : lookup_table) (fa : facts) (fn : func) (plan : fid -> eff diag).
Notation info := (pk_info pk).
Notation from := (from plan).
Notation M := (may plan).
Notation constant_code := (constant_code pk).
Notation declares := (declares fa).
Notation denotes := (denotes pk lk).
Notation function_value := (function_value pk lk fa M).
Notation call_code := (call_code pk lk fa M fn).
Notation value_code := (value_code pk fa).
Notation direct_code := (direct_code pk lk fa M fn).
Notation root := (root pk).
Notation linked := (linked pk fn).
Notation expr_var := (expr_var pk fn).

Lemma unparen_ident e i : as_ident e = Some i -> unparen e = e.
Proof. destruct e as [id [] kids]; done. Qed.
Lemma unparen_selector e p : as_selector e = Some p -> unparen e = e.
Proof. destruct e as [id [] kids]; done. Qed.

Lemma from_name_value e c : is_name e -> unparen e = e ->
  from (findErrorCodesFromFunctionCall pk lk fa (fun _ => EffPanic) fn e (value_object pk e) None) c <-> function_value e c.
Proof.
  intros Hname Hu. unfold findErrorCodesFromFunctionCall. cbn [fmap option_fmap option_map].
  assert (forall cal c, ~ from (extractErrorCodeFromConstructorCall pk fa fn e cal None) c) as Hctor.
  { intros cal c' (?&?&?&?&_&_&?&_)%from_ctor. done. }
  assert (forall cal c, ~ from (discard (extractErrorCodeFromConstructorCall pk fa fn e cal None)) c) as Hdrop.
  { intros cal c'. apply from_dropped. }
  assert (as_funclit e = None) as Hnf.
  { destruct e as [id k kids], k; try done. destruct Hname as [H|H]; by destruct H. }
  set (cal := value_object pk e) in *.
  destruct (match cal with Some o => fa_codes fa !! o | None => None end) as [codes|] eqn:Ec.
  { apply declares_spec in Ec as Hd. rewrite from_union_iff, from_set_iff. split.
    - intros [?%Hctor|?]; [done|]. by eapply fv_declared.
    - intros [id g kids -> _|s _ H1 H2|g _ H1 _ _]; [done| |by destruct (H1 codes)].
      apply declares_spec in H1. change (value_object pk e) with cal in H1. right. congruence. }
  assert (forall s, ~ declares cal s) as Hnd. { intros s H%declares_spec. congruence. }
  assert (function_value e c <-> exists g, denotes e g /\ M g c) as ->.
  { split.
    - intros [id g kids -> _|s _ H1 H2|g _ H1 H2 H3]; [done|by destruct (Hnd s)|eauto].
    - intros (g&?&?). by eapply fv_package. }
  rewrite decide_False by (destruct cal; intros H; by apply H). rewrite Hu.
  destruct (as_ident e) as [i|] eqn:Ei.
  { assert (forall g, denotes e g <-> match i_obj i with None => lk_functions lk !! i_name i = Some g | Some o => ob_decl (obj_of pk o) = DFunc g end) as Hden.
    { intros g. by apply denotes_ident. }
    destruct (i_obj i) as [o|].
    - destruct (ob_decl (obj_of pk o)) as [g| | |] eqn:Ed.
      + rewrite from_union_iff, from_call_iff. split.
        * intros [?%Hctor|?]; [done|]. exists g. by rewrite Hden.
        * intros (g'&[= ->]%Hden&?). by right.
      + split; [by intros ?%Hdrop|]. by intros (g&?%Hden&_).
      + rewrite from_union_iff. split; [by intros [?%Hdrop|?%from_panic_iff]|]. by intros (g&?%Hden&_).
      + rewrite from_union_iff. split; [by intros [?%Hdrop|?%from_panic_iff]|]. by intros (g&?%Hden&_).
    - destruct (lk_functions lk !! i_name i) as [g|].
      + rewrite from_union_iff, from_call_iff. split.
        * intros [?%Hctor|?]; [done|]. exists g. by rewrite Hden.
        * intros (g'&[= ->]%Hden&?). by right.
      + rewrite from_union_iff. split; [by intros [?%Hdrop|?%from_report_iff]|]. by intros (g&?%Hden&_). }
  destruct (as_selector e) as [[x sel]|] eqn:Es; [|destruct Hname; congruence].
  destruct (match as_ident (unparen x) with Some t => _ | None => None end) as [pkg|] eqn:Ep.
  - assert (~ (forall t, as_ident (unparen x) = Some t -> ti_pkgname info (i_id t) = None)) as Hp.
    { rewrite <-pkgname_spec. congruence. }
    rewrite from_union_iff. split; [by intros [?%Hdrop|?%from_report_iff]|].
    intros (g&Hg&_). apply (denotes_selector _ _ _ _ _ _ Es) in Hg as [? _]. done.
  - pose proof (proj1 (pkgname_spec pk x) Ep) as Epp.
    destruct (ti_selection info (node_id e)) as [[o recv]|] eqn:Esel.
    + rewrite from_union_iff. unfold call_function. destruct (searchMethod pk lk recv (i_name sel)) as [g|] eqn:Esm.
      * rewrite from_call_iff. split.
        -- intros [?%Hctor|?]; [done|]. exists g. split; [|done]. apply (denotes_selector _ _ _ _ _ _ Es). eauto.
        -- intros (g'&Hg&?). right. apply (denotes_selector _ _ _ _ _ _ Es) in Hg as (_&o'&recv'&?&?). congruence.
      * split; [by intros [?%Hctor|?%from_report_iff]|].
        intros (g'&Hg&?). apply (denotes_selector _ _ _ _ _ _ Es) in Hg as (_&o'&recv'&?&?). congruence.
    + rewrite from_union_iff. split; [by intros [?%Hdrop|?%from_panic_iff]|]. intros (g&Hg&_). apply (denotes_selector _ _ _ _ _ _ Es) in Hg as (_&?&?&?&_). congruence.
Qed.
Lemma from_lambda_assignment i a c :
  from (findErrorCodesInLambdaAssignment pk lk fa (fun _ => EffPanic) fn i a) c <-> function_value (unparen a) c.
Proof.
  unfold findErrorCodesInLambdaAssignment. pose proof (unparen_idem a) as Hid. set (e := unparen a) in *. clearbody e.
  destruct (as_funclit e) as [g|] eqn:Ef.
  { rewrite from_direct_iff. destruct e as [id k kids]. destruct k; try done. cbn in Ef. injection Ef as ->. split.
    - intros ?. by eapply fv_literal.
    - intros [id' g' kids' [= -> -> ->] ?|s [H|H] _ _|g' [H|H] _ _ _]; try done; by destruct H. }
  destruct (as_ident e) as [r|] eqn:Er.
  { assert (is_name e) as Hn by (left; congruence). rewrite <-(from_name_value e c Hn Hid). unfold value_object. by rewrite Er. }
  destruct (as_selector e) as [[x sel]|] eqn:Es.
  { assert (is_name e) as Hn by (right; congruence). rewrite <-(from_name_value e c Hn Hid). unfold value_object. by rewrite Er, Es. }
  split; [by intros ?%from_report_iff|]. intros [id g kids -> _|s [H|H] _ _|g [H|H] _ _ _]; first [done|congruence].
Qed.

Context (body : node) (Hbody : fn_body fn = Some body) (Hscoped : scoped pk fn).

Lemma from_lambdas i c : not_closure_param pk fn i ->
  from (findErrorCodesFromAllAssignedLambdas pk lk fa fn i) c <->
  exists o e, tracked pk fn None ∅ i o /\ assigned_expr pk fn o e /\ function_value (unparen e) c.
Proof.
  intros Hi. unfold findErrorCodesFromAllAssignedLambdas, all_assigned_lambdas.
  destruct (taintSpread_exact pk fn None Hscoped body Hbody ∅ i Hi) as (Hok&_&He&_&_).
  set (r := taintSpread pk fn None ∅ i) in *. clearbody r. rewrite Hok. cbn [negb].
  rewrite !from_union_iff, !from_all_iff. split.
  - intros [(x&Hx&H)|[(x&Hx&H)|(x&Hx&H)]].
    + apply elem_of_list_fmap in Hx as (?&->&_). by apply from_report_iff in H.
    + apply elem_of_list_fmap in Hx as (?&->&_). by apply from_report_iff in H.
    + apply elem_of_list_fmap in Hx as (e&->&(o&?&?)%He). apply from_lambda_assignment in H. eauto.
  - intros (o&e&H1&H2&H3). right. right. eexists. split.
    + apply elem_of_list_fmap. exists e. split; [done|]. apply He. eauto.
    + by apply from_lambda_assignment.
Qed.
(** Closure parameters that are called are excluded (see C20). *)
Definition good_call (e : node) : Prop :=
  forall f args i, as_call e = Some (f, args) -> function_variable pk (unparen f) i -> not_closure_param pk fn i.
Lemma from_call_expr e f args c : good_call e -> as_call e = Some (f, args) ->
  from (findErrorCodesInCallExpression pk lk fa fn e) c <-> call_code e f args c.
Proof.
  intros Hg Hc. unfold findErrorCodesInCallExpression. rewrite Hc. apply from_call_function.
  intros i Hi. apply from_lambdas. by eapply Hg.
Qed.
Lemma address_spec e x : address_of_error pk e x <->
  exists id t, e = Node id (KUnary true) [x] /\ ti_type info id = Some t /\ ti_implements_error info t = true.
Proof. split; [intros (id&?&t&?&?); eauto|intros (id&t&?&?&?); exists id; eauto]. Qed.
Lemma direct_inv e c : direct_code e c <->
  (exists f args, as_call (unparen e) = Some (f, args) /\ call_code (unparen e) f args c) \/
  (exists x, address_of_error pk (unparen e) x /\ as_ident (unparen x) = None /\ value_code (unparen e) c) \/
  (exists id elts, unparen e = Node id KComposite elts /\ value_code (unparen e) c) \/
  (exists id kids, unparen e = Node id KBasicLit kids /\ value_code (unparen e) c).
Proof.
  split.
  - destruct 1; [left|right; left|right; right; left|right; right; right]; eauto.
  - intros [(?&?&?&?)|[(?&?&?&?)|[(?&?&?&?)|(?&?&?&?)]]].
    + by eapply dc_call.
    + by eapply dc_address.
    + by eapply dc_composite.
    + by eapply dc_literal.
Qed.
Lemma from_leaf e c : good_call (unparen e) -> (forall i, ~ root e i) -> from (leaf pk lk fa fn e) c <-> direct_code e c.
Proof.
  intros Hg Hr. unfold leaf. destruct (unparen e) as [id k kids] eqn:E.
  assert (forall at_ m, match k with KCall => False | KUnary true => match kids with [_] => False | _ => True end | KComposite | KBasicLit => False | _ => True end ->
    from (report at_ m) c <-> direct_code e c) as Hnone.
  { intros at_ m Hk. split; [by intros ?%from_report_iff|].
    intros [(f'&args'&Hc&_)|[(x'&(id'&Hc&_)&_&_)|[(id'&elts&Hc&_)|(id'&ks&Hc&_)]]]%direct_inv; rewrite E in Hc.
    - destruct k; try done.
    - by injection Hc as -> -> ->.
    - by injection Hc as -> -> ->.
    - by injection Hc as -> -> ->. }
  assert (k = KComposite \/ k = KBasicLit -> from (extractErrorCodesFromAffector pk fa fn (Node id k kids)) c <-> direct_code e c) as Hval.
  { intros Hk. rewrite from_affector. split.
    - intros H. destruct Hk as [-> | ->]; [eapply dc_composite|eapply dc_literal]; by rewrite E.
    - intros [(f'&args'&Hc&_)|[(x'&(id'&Hc&_)&_&_)|[(id'&elts&Hc&?)|(id'&ks&Hc&?)]]]%direct_inv; rewrite E in *.
      + by destruct Hk as [-> | ->].
      + by destruct Hk as [-> | ->].
      + done.
      + done. }
  destruct k; try (apply Hnone; exact I).
  - (* call *)
    destruct (as_call (Node id KCall kids)) as [[f args]|] eqn:Ec.
    + rewrite (from_call_expr _ f args c Hg Ec). split.
      * intros H. eapply dc_call; rewrite E; [exact Ec|done].
      * intros [(f'&args'&Hc&H)|[(x'&(id'&Hc&_)&_&_)|[(id'&elts&Hc&_)|(id'&ks&Hc&_)]]]%direct_inv; rewrite E in Hc; try done.
        rewrite Ec in Hc. injection Hc as -> ->. by rewrite E in H.
    + unfold findErrorCodesInCallExpression. rewrite Ec. split; [by intros ?%from_panic_iff|].
      intros [(f'&args'&Hc&H)|[(x'&(id'&Hc&_)&_&_)|[(id'&elts&Hc&_)|(id'&ks&Hc&_)]]]%direct_inv; rewrite E in Hc; congruence.
  - (* unary *)
    destruct kids as [|x [|y l]]; [destruct is_and; apply Hnone; exact I| |destruct is_and; apply Hnone; exact I].
    destruct is_and; [|apply Hnone; exact I]. cbn [andb node_id].
    assert (forall b, (match ti_type info id with Some t => ti_implements_error info t | None => false end) = b ->
      (b = true <-> address_of_error pk (unparen e) x)) as Hb.
    { intros b <-. rewrite address_spec, E. split.
      - destruct (ti_type info id) as [t|] eqn:Et; [|done]. eauto.
      - intros (id'&t&[= <-]&->&->). done. }
    specialize (Hb _ eq_refl).
    destruct (match ti_type info id with Some t => ti_implements_error info t | None => false end).
    + rewrite from_affector. assert (address_of_error pk (unparen e) x) as Ha by (by apply Hb). split.
      * intros H. eapply dc_address; [exact Ha| |by rewrite E].
        destruct (as_ident (unparen x)) as [i|] eqn:Ei; [|done]. destruct (Hr i). by eapply root_address.
      * intros [(f'&args'&Hc&H)|[(x'&(id'&Hc&_)&_&?)|[(id'&elts&Hc&_)|(id'&ks&Hc&_)]]]%direct_inv; rewrite E in *; done.
    + split; [by intros ?%from_report_iff|].
      intros [(f'&args'&Hc&H)|[(x'&Hc&_&?)|[(id'&elts&Hc&_)|(id'&ks&Hc&_)]]]%direct_inv; rewrite E in *; try done.
      assert (x' = x) as ->. { destruct Hc as (?&[= _ ?]&_). done. }
      apply Hb in Hc. done.
  - apply Hval. by left.
  - apply Hval. by right.
  - destruct typ; apply Hnone; exact I.
Qed.
Lemma direct_no_root e c i : direct_code e c -> ~ root e i.
Proof.
  intros H Hr. apply root_ident_spec in Hr. unfold root_ident in Hr.
  apply direct_inv in H as [(f&args&Hc&_)|[(x&(id'&Hc&t&Ht&Hi)&Hx&_)|[(id'&elts&Hc&_)|(id'&ks&Hc&_)]]]; rewrite ?Hc in Hr; try done.
  - destruct (unparen e) as [id [] kids]; try done.
  - rewrite Ht, Hi in Hr. congruence.
Qed.

Notation several_code := (several_code pk lk fa M fn).
Lemma from_expr_effects e c : good_call (unparen e) ->
  (exists y, expr_effects pk lk fa fn e y /\ from y c) <-> direct_code e c.
Proof.
  intros Hg. split.
  - intros (y&[[Hn ->]|(i&_&_&->)]&H); [by apply from_leaf|by apply from_report_iff in H].
  - intros H. exists (leaf pk lk fa fn e). assert (forall i, ~ root e i) as Hn by (intros i; by eapply direct_no_root).
    split; [by left|]. by apply from_leaf.
Qed.
Lemma from_obj_effects o c :
  (forall e, linked o e -> good_call (unparen e)) -> (forall d, assigned_several pk fn o d -> good_call (unparen (de_source d))) ->
  (exists y, obj_effects pk lk fa fn o y /\ from y c) <-> (exists e, linked o e /\ direct_code e c) \/ several_code o c.
Proof.
  intros Hg Hg'. unfold obj_effects. split.
  - intros (y&[(e&Hl&He)|[(d&Hd&Ha&->)|(j&_&_&->)]]&H).
    + left. exists e. split; [done|]. apply from_expr_effects; [by apply Hg|]. eauto.
    + right. unfold dest_leaf in H. pose proof (Hg' d Hd) as Hgd.
      destruct (unparen (de_source d)) as [id k kids] eqn:E. destruct k; try (by apply from_panic_iff in H).
      destruct kids as [|f args]; [by apply from_panic_iff in H|].
      destruct (ti_type info (node_id f)) as [[]|] eqn:Et; try (by apply from_panic_iff in H).
      case_decide; [|by apply from_report_iff in H].
      apply (from_call_expr _ f args) in H; [|done|done].
      exists d, f, args, params, results, variadic. rewrite E. done.
    + by apply from_report_iff in H.
  - intros [(e&Hl&He)|(d&f&args&ps&rs&v&Hd&Hc&Ht&Hp&Hcc)].
    + apply from_expr_effects in He as (y&?&?); [|by apply Hg]. exists y. split; [|done]. left. eauto.
    + exists (dest_leaf pk lk fa fn d). pose proof (Hg' d Hd) as Hgd. split.
      * right. left. exists d. split_and!; [done| |done]. unfold asserted. destruct (unparen (de_source d)) as [id [] kids]; done.
      * unfold dest_leaf. destruct (unparen (de_source d)) as [id k kids] eqn:E. destruct k; try done.
        destruct kids as [|f' args']; [done|]. cbn in Hc. injection Hc as -> ->. rewrite Ht, decide_True by done.
        by apply (from_call_expr _ f args).
Qed.
End func.
