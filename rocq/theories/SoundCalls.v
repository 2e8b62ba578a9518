(** * Proofs: the codes of the error that an expression evaluates to. *)
From Coq Require Import Ascii String.
From stdpp Require Import base list gmap.
From Verif Require Import LookupProofs GoString ErrorCode ErrorCodeProofs Scc CodeSet Annotation Constant GoAst Taint Extract Analyse
  SpecCodes SpecTaint SpecMay SpecProgram SpecEvents SpecExec SpecSound VocabularyProofs PropAnalyse ExecProofs SoundProofs.

(** The error [cl] has (may have) the code [c]. *)
Definition cell_code (cl : cell) (c : gostring) : Prop := (c ∈ ce_consts cl \/ c = ce_field cl) /\ c <> [].
(** The value is a new error, with codes [P] only. *)
Definition fresh_error (h : heap) (P : gostring -> Prop) (h' : heap) (v : value) : Prop :=
  forall a, v = VErr a -> h !! a = None /\ exists cl, h' !! a = Some cl /\ forall c, cell_code cl c -> P c.
Lemma fresh_made h (P : gostring -> Prop) h' v cl : made h cl h' v -> (forall c, cell_code cl c -> P c) -> fresh_error h P h' v.
Proof. intros Hm HP a Ha. destruct (made_inv _ _ _ _ _ Hm Ha) as [H1 H2]. eauto. Qed.
Lemma fresh_promised h (P Q : gostring -> Prop) h' v : promised h Q h' v -> (forall c, c <> [] -> Q c -> P c) -> fresh_error h P h' v.
Proof.
  intros [_ Hp] HP a Ha. destruct (Hp a Ha) as (H1&[cl H2]&H3). split; [done|]. exists cl. split; [done|].
  intros c [Hc Hne]. apply HP; [done|]. apply H3. by exists a, cl.
Qed.
Lemma fresh_weaken h (P Q : gostring -> Prop) h' v : fresh_error h P h' v -> (forall c, c <> [] -> P c -> Q c) -> fresh_error h Q h' v.
Proof. intros H HP a Ha. destruct (H a Ha) as (?&cl&?&Hcl). split; [done|]. exists cl. split; [done|]. intros c Hc. apply HP; [by destruct Hc|auto]. Qed.

Lemma no_init_exists pos at_ e : ~ composite e -> exists r, no_init pos at_ e r.
Proof.
  revert at_. revert e. fix IH 1. intros e at_ Hc. destruct e as [id k kids]. destruct k;
    try (exists at_; apply ni_other; intros; discriminate).
  - destruct kids as [|x [|y l]]; try (exists at_; apply ni_other; intros; discriminate).
    destruct (IH x at_) as [r Hr]; [clear IH; intros H; apply Hc; by constructor|]. exists r. by apply ni_paren.
  - destruct is_and; [|exists at_; apply ni_other; intros; discriminate].
    destruct kids as [|x [|y l]]; try (exists at_; apply ni_other; intros; discriminate).
    destruct (IH x (node_id x)) as [r Hr]; [clear IH; intros H; apply Hc; by constructor|]. exists r. by apply ni_address.
  - destruct Hc. constructor.
Qed.

Section calls.
Context (pk : package) (lk : lookup_table) (fa : facts).
Notation info := (pk_info pk).
Notation may := (may_return pk lk fa).

(** A function that cannot be found is reported. *)
Lemma lookup_unresolved at_ e : is_name e -> (forall g, ~ denotes pk lk e g) -> (forall i o, ~ names_value pk e i o) ->
  (forall i o, as_ident e = Some i -> i_obj i = Some o -> ob_decl (obj_of pk o) <> DType) -> exists ev, lookup_event pk lk at_ e ev.
Proof.
  intros Hn Hd Hv Ht. destruct (as_ident e) as [i|] eqn:Ei.
  - destruct (i_obj i) as [o|] eqn:Eo.
    + exfalso. specialize (Ht i o eq_refl Eo). apply (Hv i o). split_and!; try done. intros g Hg. apply (Hd g).
      destruct e as [id k kids]. destruct k; try done. injection Ei as <-. cbn in Eo. subst. by apply den_func.
    + eexists. apply (lo_dot _ _ _ _ i); [done|done|]. destruct (lk_functions lk !! i_name i) as [g|] eqn:Eg; [|done].
      exfalso. apply (Hd g). destruct e as [id k kids]. destruct k; try done. injection Ei as <-. cbn in Eo, Eg. subst. by apply den_name.
  - destruct Hn as [?|Hn]; [done|]. destruct (as_selector e) as [[x sel]|] eqn:Es; [|done].
    destruct (match as_ident (unparen x) with Some t => ti_pkgname info (i_id t) | None => None end) as [pkg|] eqn:Ep.
    + destruct (as_ident (unparen x)) as [t|] eqn:Et; [|done]. eexists. apply (lo_package _ _ _ _ sel pkg). by exists x, t.
    + assert (value_selector pk e sel) as Hs. { exists x. split; [done|]. intros t Ht'. by rewrite Ht' in Ep. }
      destruct (ti_selection info (node_id e)) as [[o recv]|] eqn:Esel; [|eexists; by apply (lo_unresolved _ _ _ _ sel)].
      destruct (searchMethod pk lk recv (i_name sel)) as [g|] eqn:Em; [|pose proof (proj1 (searchMethod_none _ _ _ _) Em); eexists; by apply (lo_method _ _ _ _ sel o recv)].
      apply searchMethod_spec in Em. exfalso. apply (Hd g). destruct Hs as (x'&Hx'&Hp). by apply (den_method _ _ _ x' sel o recv).
Qed.

Context (fn : func).
Hypothesis Hdi : disciplined pk fa fn.
Hypothesis Hrs : resolved pk lk fa fn.
Hypothesis Hcl : clean pk lk fa fn.

(** ** Calls *)
(** The call of a function that is executed: [OK g vals h h' v] is what is known about the result. *)
Definition result_ok (h : heap) (g : fid) (vals : list value) (h' : heap) (v : value) : Prop :=
  forall gn, pk_funcs pk !! g = Some gn -> fresh_error h (fun c => may g c \/ passed_code pk fa gn vals c) h' v.

Lemma unresolved_call call f args : plain_call pk fa f -> (forall g, ~ denotes pk lk (unparen f) g) -> (forall i o, ~ names_value pk (unparen f) i o) ->
  (forall i o, as_ident (unparen f) = Some i -> i_obj i = Some o -> ob_decl (obj_of pk o) <> DType) ->
  exists ev, call_event pk lk fa fn call f args ev.
Proof.
  intros [Hp1 Hp2] Hd Hv Ht.
  destruct (as_ident (unparen f)) as [i|] eqn:Ei; [|destruct (as_selector (unparen f)) as [s|] eqn:Es; [|destruct (as_funclit (unparen f)) as [g|] eqn:Ef]].
  - destruct (lookup_unresolved (node_id f) (unparen f)) as [ev Hev]; [left; rewrite Ei; discriminate|done|done| |exists ev; by apply ce_lookup].
    intros i' o'. rewrite Ei. apply Ht.
  - destruct (lookup_unresolved (node_id f) (unparen f)) as [ev Hev]; [right; rewrite Es; discriminate|done|done| |exists ev; by apply ce_lookup].
    intros i' o'. by rewrite Ei.
  - exfalso. apply (Hd g). destruct (unparen f) as [id k kids]. destruct k; try done. injection Ef as ->. constructor.
  - eexists. by apply ce_unnamed.
Qed.
(** A conversion to a type whose code is in a field, or to an unknown type. *)
Lemma conversion_event call f args i o : call ∈ body_nodes fn -> as_call call = Some (f, args) -> plain_call pk fa f ->
  as_ident (unparen f) = Some i -> i_obj i = Some o -> ob_decl (obj_of pk o) = DType ->
  (forall et, error_type pk fa call et -> et_field et <> None) -> exists ev, call_event pk lk fa fn call f args ev.
Proof.
  intros Hb Hc [Hp1 Hp2] Hi Ho Ht Het. assert (exists ev, value_event pk fa fn call ev) as [ev Hev]; [|exists ev; by apply (ce_conversion _ _ _ _ _ _ _ i o)].
  assert (coded pk call \/ ~ coded pk call) as [Hco|Hco]; [| |eexists; by apply ve_no_code].
  { unfold coded. destruct (ti_type info (node_id call)) as [t|]; [|right; by intros (?&?&_)].
    destruct (ti_implements_ree info t) eqn:E1; [left; exists t; auto|]. destruct (ti_implements_ree info (TPointer t)) eqn:E2; [left; exists t; auto|].
    right. intros (?&[= <-]&[?|?]); congruence. }
  assert ((exists et, error_type pk fa call et) \/ ~ exists et, error_type pk fa call et) as [[et He]|He].
  { unfold error_type. destruct (ti_type info (node_id call)) as [t|]; [|right; by intros (?&?&?&?&_)].
    destruct (getNamedType t) as [n|] eqn:En; [|right; intros (?&?&?&[= <-]&?&_); congruence].
    destruct (fa_type fa !! n) as [et|] eqn:Ef; [left; by exists et, t, n|]. right. intros (?&?&?&[= <-]&?&?). congruence. }
  - destruct (et_field et) as [[name pos]|] eqn:Ef; [|by destruct (Het et He)].
    destruct (no_init_exists pos (node_id call) call) as [r Hr].
    { intros Hcp. destruct (call_form pk fa _ _ _ Hc) as (_&_&_&_&_&H1&H2&_). inversion Hcp; subst; try done; by eapply H2 || by eapply H1. }
    eexists. by apply (ve_no_init _ _ _ _ et name pos r).
  - eexists. apply ve_unknown; [done|]. intros et Het'. apply He. by exists et.
Qed.

(** The code passed to a constructor. *)
Lemma constructor_code vals en call f args o p c a :
  codes_inv pk fa fn vals en -> (forall ev, ~ call_event pk lk fa fn call f args ev) ->
  function_object pk f = Some o -> fa_ctor fa !! o = Some p -> args !! p = Some a -> string_val pk en a c ->
  ((exists s, declares fa (function_object pk f) s) \/ (exists g, denotes pk lk (unparen f) g)) ->
  call_code pk lk fa may fn call f args c \/ code_ok pk fa fn vals c.
Proof.
  intros Hinv Hev Ho Hp Ha Hs Hor. destruct (string_ok pk lk fa fn Hdi Hrs Hcl vals en a c Hinv) as [Hc|Hc]; [|done| |by right].
  - intros ev He. apply (Hev ev). by apply (ce_constructor _ _ _ _ _ _ _ o p a).
  - left. apply (cc_constructor _ _ _ _ _ _ _ _ _ o p a); try done. tauto.
Qed.

Definition call_ok (en : env) (h : heap) (e : node) (h' : heap) (v : value) : Prop :=
  forall vals f args, e ∈ body_nodes fn -> as_call (unparen e) = Some (f, args) -> (forall ev, ~ call_event pk lk fa fn (unparen e) f args ev) ->
    error_call pk fn f -> functions_inv pk fa fn en -> codes_inv pk fa fn vals en ->
    fresh_error h (fun c => call_code pk lk fa may fn (unparen e) f args c \/ code_ok pk fa fn vals c) h' v.

Lemma call_conversion en h e f args et s h' v : as_call (unparen e) = Some (f, args) -> function_object pk f = None ->
  error_type pk fa f et -> (et_field et = None -> s = []) -> made h (Cell (et_codes et) s) h' v -> call_ok en h e h' v.
Proof.
  intros Hc Hf Het Hs Hm vals f' args' Hb Hc' Hev Herr _ Hinv. assert (f' = f /\ args' = args) as [-> ->] by (split; congruence). clear Hc'.
  apply (fresh_made _ _ _ _ _ Hm). pose proof (body_unparen _ _ Hb) as Hb'.
  assert (forall s', declares fa (function_object pk f) s' -> False) as Hnd. { rewrite Hf. by intros s' (?&?&_). }
  intros c [[Hco|Hco] Hne]; cbn in Hco.
  - left. apply (cc_conversion _ _ _ _ _ _ _ _ _ (et_codes et)); [done| |done]. destruct Het as (t&n&?&?&?). exists t, n, et. split_and!; try done. set_solver.
  - exfalso. subst c. destruct (et_field et) as [fd|] eqn:Efd; [|by apply Hne, Hs].
    assert (et_codes et = ∅) as Hemp.
    { destruct (decide (et_codes et = ∅)) as [|Hn]; [done|]. by rewrite (di_conversion _ _ _ Hdi _ f args et Hb' Hc Hf Het Hn) in Efd. }
    assert (plain_call pk fa f) as Hp.
    { split; [done|]. intros _ s' (t&n&et'&Ht&Hn&He'&Hs'&Hne'). destruct Het as (t2&n2&Ht2&Hn2&He2). assert (et' = et) as -> by congruence. by subst. }
    destruct (rs_conversion _ _ _ _ Hrs _ f args Hb' Hc) as (_&Hty&Hd&Hv); [right; split; [done|by exists et]|].
    destruct (as_ident (unparen f)) as [i|] eqn:Ei; [destruct (i_obj i) as [o|] eqn:Eo; [destruct (ob_decl (obj_of pk o)) eqn:Ed|]|].
    + apply (Hd f0). destruct (unparen f) as [id k kids]. destruct k; try done. injection Ei as <-. cbn in Eo. subst. by apply den_func.
    + destruct (conversion_event (unparen e) f args i o) as [ev H]; try done; [|by apply (Hev ev)].
      intros et' He'. assert (et' = et) as ->; [|congruence]. destruct He' as (t&n&Ht&Hn&He'). destruct Het as (t2&n2&Ht2&Hn2&He2). congruence.
    + apply (Hv i o). split_and!; [exact Ei|done|intros; congruence|congruence].
    + apply (Hv i o). split_and!; [exact Ei|done|intros; congruence|congruence].
    + destruct (unresolved_call (unparen e) f args Hp Hd Hv) as [ev H]; [|by apply (Hev ev)]. intros i' o'. rewrite Ei. intros [= <-]. congruence.
    + destruct (unresolved_call (unparen e) f args Hp Hd Hv) as [ev H]; [|by apply (Hev ev)]. intros i' o'. by rewrite Ei.
Qed.

Lemma call_declared en h e f args o s vals' h' v : as_call (unparen e) = Some (f, args) -> function_object pk f = Some o -> fa_codes fa !! o = Some s ->
  passed pk en args vals' -> promised h (as_declared fa o s vals') h' v -> call_ok en h e h' v.
Proof.
  intros Hc Ho Hs Hpa Hp vals f' args' Hb Hc' Hev Herr _ Hinv. assert (f' = f /\ args' = args) as [-> ->] by (split; congruence). clear Hc'.
  assert (declares fa (function_object pk f) s) as Hd by by exists o.
  apply (fresh_promised _ _ _ _ _ Hp). intros c Hne [Hcs|(p&Hp'&Hv)].
  - left. by apply (cc_declared _ _ _ _ _ _ _ _ _ s).
  - destruct (args !! p) as [a|] eqn:Ea.
    + apply (constructor_code vals en (unparen e) f args o p c a); try done; [by apply (Hpa p a)|left; by exists s].
    + exfalso. eapply Hev, (ce_no_argument _ _ _ _ _ _ _ o p); done.
Qed.

Lemma call_package en h e f args g vals' h' v : as_call (unparen e) = Some (f, args) -> plain_call pk fa f -> denotes pk lk (unparen f) g ->
  passed pk en args vals' -> (exists gn, pk_funcs pk !! g = Some gn) -> result_ok h g vals' h' v -> call_ok en h e h' v.
Proof.
  intros Hc Hp Hd Hpa [gn Hg] Hr vals f' args' Hb Hc' Hev Herr _ Hinv. assert (f' = f /\ args' = args) as [-> ->] by (split; congruence). clear Hc'.
  apply (fresh_weaken _ _ _ _ _ (Hr gn Hg)). intros c Hne [Hm|(p&(d&o&Hd1&Hd2&Hd3)&Hv)].
  - left. destruct Hp. by apply (cc_package _ _ _ _ _ _ _ _ _ g).
  - destruct (rs_function _ _ _ _ Hrs (unparen f) g gn d o) as [Hvo Htn]; try done; [by apply (fu_called _ _ (unparen e) f args); [apply body_unparen|]|].
    assert (function_object pk f = Some o) as Ho. { unfold function_object. by rewrite Hvo, Htn. }
    destruct (args !! p) as [a|] eqn:Ea.
    + apply (constructor_code vals en (unparen e) f args o p c a); try done; [by apply (Hpa p a)|right; by exists g].
    + exfalso. eapply Hev, (ce_no_argument _ _ _ _ _ _ _ o p); done.
Qed.

(** ** Calls of function values *)
Definition apply_ok (h : heap) (e : node) (h' : heap) (v : value) : Prop :=
  names_function pk e -> function_use pk fn e ->
  (forall i ev, ~ function_value_event pk lk fa i e ev) -> fresh_error h (function_value pk lk fa may e) h' v.

Lemma function_is_name e : names_function pk e -> (forall g, as_funclit e <> Some g) -> is_name e.
Proof. intros [[g H]|[H|(i&H&_)]] Hn; [by destruct (Hn g)|by right|left; congruence]. Qed.
Lemma value_object_name e o : value_object pk e = Some o -> is_name e.
Proof.
  unfold value_object. destruct (as_ident e) eqn:Ei; [intros _; left; congruence|]. destruct (as_selector e) as [[x s]|] eqn:Es; [|done].
  intros _. right. congruence.
Qed.
Lemma apply_declared h e o s vals h' v : value_object pk e = Some o -> fa_codes fa !! o = Some s ->
  promised h (as_declared fa o s vals) h' v -> apply_ok h e h' v.
Proof.
  intros Ho Hs Hp Hn Hu Hev. apply (fresh_promised _ _ _ _ _ Hp). pose proof (value_object_name _ _ Ho) as Hname. intros c Hne [Hc|(p&Hp'&_)].
  - apply (fv_declared _ _ _ _ _ _ s); [done|by exists o|done].
  - exfalso. eapply (Hev (Ident 0%N [] None)), (fe_constructor _ _ _ _ _ o p); done.
Qed.
Lemma apply_package h e g vals h' v : (forall s, ~ declares fa (value_object pk e) s) -> denotes pk lk e g -> (exists gn, pk_funcs pk !! g = Some gn) ->
  result_ok h g vals h' v -> apply_ok h e h' v.
Proof.
  intros Hd Hg [gn Hgn] Hr Hn Hu Hev. apply (fresh_weaken _ _ _ _ _ (Hr gn Hgn)). intros c Hne [Hm|(p&(d&o&Hd1&Hd2&Hd3)&Hv)].
  - destruct (as_funclit e) as [g'|] eqn:Ef.
    + destruct e as [id k kids]. destruct k; try done. injection Ef as ->. inversion Hg; subst; try done. by eapply fv_literal.
    + apply (fv_package _ _ _ _ _ _ g); try done. apply function_is_name; [done|congruence].
  - exfalso. destruct (rs_function _ _ _ _ Hrs e g gn d o) as [Hvo Htn]; try done.
    eapply (Hev (Ident 0%N [] None)), (fe_constructor _ _ _ _ _ o p); try done. by eapply value_object_name.
Qed.
Lemma apply_unresolved h e h' v : (forall s, ~ declares fa (value_object pk e) s) -> (forall g, ~ denotes pk lk e g) -> apply_ok h e h' v.
Proof.
  intros Hd Hg Hn Hu Hev. exfalso. assert (forall g, as_funclit e <> Some g) as Hf.
  { intros g Hf. apply (Hg g). destruct e as [id k kids]. destruct k; try done. injection Hf as ->. constructor. }
  pose proof (function_is_name e Hn Hf) as Hname.
  assert (forall i o, as_ident e = Some i -> i_obj i = Some o -> exists g, ob_decl (obj_of pk o) = DFunc g) as Hid.
  { intros i o Hi Ho. destruct Hn as [[g H]|[H|(i'&Hi'&H)]]; [by destruct (Hf g)| |].
    - destruct (ident_form pk fa _ _ Hi) as (_&?&_). done.
    - assert (i' = i) as -> by congruence. by destruct (H o Ho). }
  destruct (lookup_unresolved (node_id e) e) as [ev H]; try done.
  - intros i o (Hi&Ho&Hnf&_). destruct (Hid i o Hi Ho) as [g ?]. by apply (Hnf g).
  - intros i o Hi Ho. destruct (Hid i o Hi Ho) as [g ->]. done.
  - eapply (Hev (Ident 0%N [] None)), fe_lookup; done.
Qed.

Lemma call_variable en h e f args i o e' h' v : as_call (unparen e) = Some (f, args) -> plain_call pk fa f ->
  names_value pk (unparen f) i o -> en o = VFun e' -> apply_ok h e' h' v -> call_ok en h e h' v.
Proof.
  intros Hc Hp Hn He Hap vals f' args' Hb Hc' Hev Herr Hfi Hinv. assert (f' = f /\ args' = args) as [-> ->] by (split; congruence). clear Hc'.
  assert (function_variable pk (unparen f) i) as Hfv. { destruct Hn as (?&?&?&?). split; [done|]. by exists o. }
  assert (forall ev, ~ variable_call_event pk lk fa fn i ev) as Hq. { intros ev H. apply (Hev ev). destruct Hp. by apply (ce_variable _ _ _ _ _ _ _ i). }
  assert (tracked pk fn None ∅ i o) as Ht.
  { destruct Hn as (Hi&Ho&_). apply tracked_start; [|set_solver]. split_and!; [done| |].
    - intros Hnil. rewrite (di_nil _ _ _ Hdi i) in Ho; [done| |done]. left. apply (me_body _ _ (unparen f)); [|done].
      apply body_unparen, (body_kid fn (unparen e)); [by apply body_unparen|]. destruct (unparen e) as [id k kids]. destruct k; try done.
      destruct kids; [done|]. injection Hc as -> ->. left.
    - intros Hu. eapply Hq, (la_origin _ _ _ _ _ i). split; [done|by left]. }
  destruct (Hfi f i o Herr Hp Hfv Ht) as [_ Hok]. destruct (Hok e' He) as (Hnf&Hfu&o'&Ho'&Hae). destruct Hae as (r&Hr&->&Hnj).
  refine (fresh_weaken _ _ _ _ _ (Hap Hnf Hfu _) _).
  - intros i' ev Hf. destruct Hf as [o1 p H1 H2 H3|ev H1 H2 H3|j H1 H2|H1 H2]; eapply Hq, (la_value _ _ _ _ _ o' (unparen r)); try done;
      try (by exists r); rewrite ?unparen_idem.
    + by eapply fe_constructor.
    + by eapply fe_lookup.
    + by eapply fe_impossible.
    + by eapply fe_unsupported.
  - intros c _ Hc2. left. destruct Hp. apply (cc_variable _ _ _ _ _ _ _ _ _ i o' (unparen r)); try done; [by exists r|by rewrite unparen_idem].
Qed.
Lemma call_unknown en h e f args i o h' v : as_call (unparen e) = Some (f, args) -> plain_call pk fa f ->
  names_value pk (unparen f) i o -> en o = VOther -> call_ok en h e h' v.
Proof.
  intros Hc Hp Hn He vals f' args' Hb Hc' Hev Herr Hfi Hinv. assert (f' = f /\ args' = args) as [-> ->] by (split; congruence). clear Hc'.
  assert (function_variable pk (unparen f) i) as Hfv. { destruct Hn as (?&?&?&?). split; [done|]. by exists o. }
  assert (forall ev, ~ variable_call_event pk lk fa fn i ev) as Hq. { intros ev H. apply (Hev ev). destruct Hp. by apply (ce_variable _ _ _ _ _ _ _ i). }
  assert (tracked pk fn None ∅ i o) as Ht.
  { destruct Hn as (Hi&Ho&_). apply tracked_start; [|set_solver]. split_and!; [done| |].
    - intros Hnil. rewrite (di_nil _ _ _ Hdi i) in Ho; [done| |done]. left. apply (me_body _ _ (unparen f)); [|done].
      apply body_unparen, (body_kid fn (unparen e)); [by apply body_unparen|]. destruct (unparen e) as [id k kids]. destruct k; try done.
      destruct kids; [done|]. injection Hc as -> ->. left.
    - intros Hu. eapply Hq, (la_origin _ _ _ _ _ i). split; [done|by left]. }
  by destruct (Hfi f i o Herr Hp Hfv Ht) as [? _].
Qed.
Lemma call_unresolved en h e f args h' v : as_call (unparen e) = Some (f, args) -> plain_call pk fa f ->
  (forall et, function_object pk f = None -> ~ error_type pk fa f et) ->
  (forall g, ~ denotes pk lk (unparen f) g) -> (forall i o, ~ names_value pk (unparen f) i o) -> call_ok en h e h' v.
Proof.
  intros Hc Hp Het Hd Hn vals f' args' Hb Hc' Hev Herr Hfi Hinv. assert (f' = f /\ args' = args) as [-> ->] by (split; congruence). clear Hc'.
  exfalso. pose proof (body_unparen _ _ Hb) as Hb'.
  destruct (as_ident (unparen f)) as [i|] eqn:Ei; [destruct (i_obj i) as [o|] eqn:Eo; [destruct (ob_decl (obj_of pk o)) eqn:Ed|]|]; try done.
  all: try (destruct (unresolved_call (unparen e) f args Hp Hd Hn) as [ev H]; [|by apply (Hev ev)]; intros i' o'; rewrite Ei; intros [= <-]; congruence).
  - destruct (rs_conversion _ _ _ _ Hrs _ f args Hb' Hc) as (Hf&Hty&_); [left; by exists i, o|].
    destruct (conversion_event (unparen e) f args i o) as [ev H]; try done; [|by apply (Hev ev)].
    intros et (t&n&Ht&?&?). exfalso. apply (Het et Hf). exists t, n. by rewrite <-Hty.
Qed.

(** ** Other expressions *)
Lemma creates_quiet e : quiet pk lk fa fn e -> creates (unparen e) ->
  (forall ev, ~ value_event pk fa fn (unparen e) ev) /\ (forall c, value_code pk fa (unparen e) c -> direct_code pk lk fa may fn e c).
Proof.
  intros Hq Hc. destruct (creates_form _ Hc) as (Hi&_&Hs&_&Hu).
  assert (forall i, ~ root pk e i) as Hr.
  { intros i Hr. destruct Hr as [e' i Hr|e' x i [id [Hr _]] Hx|e' x i Hr]; [congruence|rewrite (Hu id x) in Hx; congruence|congruence]. }
  inversion Hc as [id elts E|id kids E|id x Hx E]; symmetry in E; rewrite <-?E.
  - split.
    + intros ev Hev. apply (Hq ev), xe_source; [done|]. by apply (so_composite _ _ _ _ _ id elts).
    + intros c Hv. by apply (dc_composite _ _ _ _ _ _ _ id elts).
  - split.
    + intros ev Hev. apply (Hq ev), xe_source; [done|]. by apply (so_literal _ _ _ _ _ id kids).
    + intros c Hv. by apply (dc_literal _ _ _ _ _ _ _ id kids).
  - assert (address_of_error pk (unparen e) x) as Ha.
    { destruct (ti_type info id) as [t|] eqn:Et; [destruct (ti_implements_error info t) eqn:Eb|]; [exists id; split; [done|by exists t]| |];
        (exfalso; eapply Hq, xe_source; [done|]; apply (so_unary _ _ _ _ _ id true x E); intros (id'&E'&t'&?&?); rewrite E in E'; injection E' as <-; congruence). }
    split.
    + intros ev Hev. apply (Hq ev), xe_source; [done|]. by apply (so_address _ _ _ _ _ x).
    + intros c Hv. by apply (dc_address _ _ _ _ _ _ _ x).
Qed.
Lemma value_quiet e : (forall ev, ~ value_event pk fa fn e ev) -> coded pk e /\ exists et, error_type pk fa e et.
Proof.
  intros Hq. assert (coded pk e \/ ~ coded pk e) as [Hco|Hco]; [| |exfalso; eapply Hq, ve_no_code; exact Hco].
  { unfold coded. destruct (ti_type info (node_id e)) as [t|]; [|right; by intros (?&?&_)].
    destruct (ti_implements_ree info t) eqn:E1; [left; exists t; auto|]. destruct (ti_implements_ree info (TPointer t)) eqn:E2; [left; exists t; auto|].
    right. intros (?&[= <-]&[?|?]); congruence. }
  split; [done|].
  assert ((exists et, error_type pk fa e et) \/ ~ exists et, error_type pk fa e et) as [?|He]; [|done|].
  { unfold error_type. destruct (ti_type info (node_id e)) as [t|]; [|right; by intros (?&?&?&?&_)].
    destruct (getNamedType t) as [n|] eqn:En; [|right; intros (?&?&?&[= <-]&?&_); congruence].
    destruct (fa_type fa !! n) as [et|] eqn:Ef; [left; by exists et, t, n|]. right. intros (?&?&?&[= <-]&?&?). congruence. }
  exfalso. eapply Hq, ve_unknown; [done|]. intros et H. apply He. by exists et.
Qed.
End calls.
