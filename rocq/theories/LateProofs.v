(** * Functions that are checked when the conversions are (used for C41): what changes when the declarations of the package itself are facts. *)
From Coq Require Import Ascii String.
From stdpp Require Import base list gmap relations.
From Verif Require Import LookupProofs GoString ErrorCode Scc Engine CodeSet Annotation Constant GoAst Taint Analyse
  SpecCodes SpecWhole SpecTaint SpecMay SpecProgram SpecEvents SpecClaims SpecExec SpecSound OwnProofs ExecProofs.

Section transfer.
Context (pk : package) (lk : lookup_table) (f1 f2 : facts).
Context (Hkeep : forall o s, fa_codes f1 !! o = Some s -> fa_codes f2 !! o = Some s).
Context (Htype : fa_type f1 = fa_type f2) (Hctor : fa_ctor f1 = fa_ctor f2).
(** [f2] has in addition the codes of functions of this package. *)
Context (T : fid -> Prop) (M M' : fid -> gostring -> Prop).
Context (Hnew : forall o s, fa_codes f2 !! o = Some s -> fa_codes f1 !! o = None -> exists d, object_of pk d o /\ T d).
Context (HM : forall d o s c, object_of pk d o -> fa_codes f2 !! o = Some s -> fa_codes f1 !! o = None -> M d c -> c ∈ s).
Context (HMM : forall g c, M g c -> M' g c).
Context (Hob : uses_resolved pk lk).
Notation info := (pk_info pk).

(** ** Denotations *)
Lemma denotes_unique e g g' : denotes pk lk e g -> denotes pk lk e g' -> g = g'.
Proof. intros H1 H2. inversion H1; subst; inversion H2; subst; try congruence; try done; try (by cbn in *).
  repeat match goal with H : SpecLookup.method_among _ _ _ _ _ |- _ => apply searchMethod_spec in H end. congruence. Qed.
Lemma denotes_no_variable e g i : denotes pk lk e g -> ~ function_variable pk e i.
Proof.
  intros H (Hi&o&Ho&Hf&_). destruct H as [id name kids g H|id name o' kids g H|e x sel o' recv g Hs _ _ _|id g kids].
  - injection Hi as <-. done.
  - injection Hi as <-. injection Ho as <-. by destruct (Hf g).
  - destruct e as [id k kids]. destruct k; done.
  - done.
Qed.
Lemma denotes_no_type e g i o : denotes pk lk e g -> as_ident e = Some i -> i_obj i = Some o -> ob_decl (obj_of pk o) <> DType.
Proof.
  intros H Hi Ho Ht. destruct H as [id name kids g H|id name o' kids g H|e x sel o' recv g Hs _ _ _|id g kids].
  - injection Hi as <-. done.
  - injection Hi as <-. injection Ho as <-. congruence.
  - destruct e as [id k kids]. destruct k; done.
  - done.
Qed.
Lemma denotes_no_lookup at_ e g ev : denotes pk lk e g -> ~ lookup_event pk lk at_ e ev.
Proof.
  intros H Hl. destruct H as [id name kids g H|id name o' kids g H|e x sel o' recv g Hs Hx Hsel Hm|id g kids].
  - destruct Hl as [i Hi _ Hn|sel pkg (x&t&?&_)|sel (x&?&_) _|sel o recv (x&?&_) _ _]; try done. injection Hi as <-. cbn in Hn. congruence.
  - destruct Hl as [i Hi Ho _|sel pkg (x&t&?&_)|sel (x&?&_) _|sel o recv (x&?&_) _ _]; try done. injection Hi as <-. done.
  - destruct Hl as [i Hi _ _|sel' pkg (x'&t&Hs'&Ht&Hp)|sel' (x'&?&_) Hn|sel' o recv' (x'&Hs'&_) Hse Hn].
    + destruct e as [id k kids]. destruct k; done.
    + assert (x' = x) as -> by congruence. rewrite (Hx t Ht) in Hp. done.
    + congruence.
    + assert (sel' = sel) as -> by congruence. assert (recv' = recv) as -> by congruence. by destruct (Hn g).
  - destruct Hl as [i Hi _ _|sel pkg (x&t&?&_)|sel (x&?&_) _|sel o recv (x&?&_) _ _]; done.
Qed.

(** ** What is declared *)
Lemma declares_keep cal s : declares f1 cal s -> declares f2 cal s.
Proof. intros (o&->&Ho). exists o. auto. Qed.
Lemma declares_cases cal : (forall s, ~ declares f1 cal s) ->
  (forall s, ~ declares f2 cal s) \/ exists o s d, cal = Some o /\ fa_codes f2 !! o = Some s /\ fa_codes f1 !! o = None /\ object_of pk d o /\ T d.
Proof.
  intros H. destruct cal as [o|]; [|left; by intros s (?&?&_)].
  destruct (fa_codes f2 !! o) as [s|] eqn:E; [|left; by intros s (?&[= <-]&?); congruence].
  right. assert (fa_codes f1 !! o = None) as E1.
  { destruct (fa_codes f1 !! o) as [s'|] eqn:E'; [|done]. destruct (H s'). by exists o. }
  destruct (Hnew o s E E1) as (d&?&?). by exists o, s, d.
Qed.
Lemma function_value_object f o : function_object pk f = Some o -> value_object pk (unparen f) = Some o.
Proof. unfold function_object. destruct (value_object pk (unparen f)) as [o'|]; [|done]. by destruct (ti_is_typename info o'). Qed.
Lemma call_cases f : used pk (unparen f) -> (forall s, ~ declares f1 (function_object pk f) s) ->
  (forall s, ~ declares f2 (function_object pk f) s) \/
  exists o s d, function_object pk f = Some o /\ fa_codes f2 !! o = Some s /\ fa_codes f1 !! o = None /\ object_of pk d o /\ T d /\ denotes pk lk (unparen f) d.
Proof.
  intros Hn H. destruct (declares_cases _ H) as [?|(o&s&d&Ho&H2&H1&Hd&Ht)]; [by left|right]. exists o, s, d. split_and!; try done.
  apply (Hob _ o); [done|by apply function_value_object|done].
Qed.
Lemma value_cases e : used pk e -> (forall s, ~ declares f1 (value_object pk e) s) ->
  (forall s, ~ declares f2 (value_object pk e) s) \/
  exists o s d, value_object pk e = Some o /\ fa_codes f2 !! o = Some s /\ fa_codes f1 !! o = None /\ object_of pk d o /\ T d /\ denotes pk lk e d.
Proof.
  intros Hn H. destruct (declares_cases _ H) as [?|(o&s&d&Ho&H2&H1&Hd&Ht)]; [by left|right]. exists o, s, d. split_and!; try done.
  by apply (Hob _ o).
Qed.
Lemma conversion_keep f s : conversion_codes pk f1 f s <-> conversion_codes pk f2 f s.
Proof. unfold conversion_codes. by rewrite Htype. Qed.
Lemma no_conversion f : (function_object pk f = None -> forall s, ~ conversion_codes pk f1 f s) -> function_object pk f = None -> forall s, ~ conversion_codes pk f2 f s.
Proof. intros H E s. rewrite <-conversion_keep. by apply H. Qed.

(** ** The nodes *)
Lemma source_trans e n : source_node pk e -> n ∈ walk e -> source_node pk n.
Proof.
  intros [g fn Hf Hin|o names values v Ho Hv Hin] Hn.
  - apply (sn_body _ _ g fn Hf). by apply (body_trans fn e).
  - apply (sn_value _ _ o names values v Ho Hv). by eapply walk_trans.
Qed.
Lemma source_unparen e : source_node pk e -> source_node pk (unparen e).
Proof. intros H. eapply source_trans; [exact H|apply walk_unparen]. Qed.
Lemma source_called e f args : source_node pk e -> as_call e = Some (f, args) -> used pk (unparen f).
Proof. intros H Hc. by eapply us_called. Qed.
Context (g0 : fid) (fn : func) (Hfn : pk_funcs pk !! g0 = Some fn).
Lemma source_assigned o e : assigned pk fn o e -> source_node pk e.
Proof.
  intros [n lhs rhs k l r li Hn Ha _ _ _ _ Hr|names values k l r Hd _ _ _ _ Hr].
  - apply (sn_body _ _ g0 fn Hfn). apply (body_kid fn n); [done|]. eapply assign_rhs; [done|]. by eapply elem_of_list_lookup_2.
  - apply (sn_value _ _ o names values r Hd); [by eapply elem_of_list_lookup_2|apply walk_self].
Qed.
Lemma source_assigned_expr o e : assigned_expr pk fn o e -> source_node pk e.
Proof. intros (e'&H&->&_). apply source_unparen. by eapply source_assigned. Qed.
Lemma used_assigned_expr o e : assigned_expr pk fn o e -> used pk (unparen e).
Proof.
  intros H. assert (unparen e = e) as -> by (destruct H as (e'&_&->&_); apply unparen_idem). revert H.
  intros (e'&[n lhs rhs k l r li Hn Ha _ _ _ _ Hr|names values k l r Hd _ _ _ _ Hr]&->&_).
  - eapply us_assigned; [by apply (sn_body _ _ g0 fn Hfn)|done|by eapply elem_of_list_lookup_2|done].
  - eapply us_initial; [done|by eapply elem_of_list_lookup_2|done].
Qed.
Lemma source_several o d : assigned_several pk fn o d -> source_node pk (de_source d).
Proof.
  intros [n lhs rhs k l r li Hn Ha _ _ _ _ Hr|names values k l r Hd _ _ _ _ Hr]; cbn.
  - apply (sn_body _ _ g0 fn Hfn). apply (body_kid fn n); [done|]. eapply assign_rhs; [done|]. by eapply elem_of_list_lookup_2.
  - apply (sn_value _ _ o names values r Hd); [by eapply elem_of_list_lookup_2|apply walk_self].
Qed.
Lemma source_linked o e : SpecMay.linked pk fn o e -> source_node pk e.
Proof.
  intros [H|(d&id&t&H&E)]; [by eapply source_assigned_expr|]. eapply source_trans; [by eapply source_unparen, source_several|].
  rewrite E. apply (walk_kid _ _ _ e); [by left|apply walk_self].
Qed.
Lemma source_returned s e f args : s ∈ return_stmts fn -> returned fn s e -> as_call (unparen e) = Some (f, args) -> source_node pk e.
Proof.
  intros Hs [e' He|fields fl i _ _ _ _] Hc; [|done]. apply (sn_body _ _ g0 fn Hfn). apply (body_kid fn s).
  - unfold return_stmts in Hs. unfold body_nodes. destruct (fn_body fn) as [b|]; [|by apply elem_of_nil in Hs].
    apply elem_of_list_In, filter_In in Hs as [Hs _]. apply elem_of_list_In in Hs.
    revert Hs. clear. revert b s. fix IH 1. intros [id k kids] s. cbn [own_nodes walk]. rewrite !elem_of_cons. intros [->|H]; [by left|right].
    assert (s ∈ flat_map own_nodes kids) as H' by (destruct k; first [exact H|by apply elem_of_nil in H]). clear H.
    induction kids as [|x l IHl]; [by apply elem_of_nil in H'|]. cbn [flat_map] in *. apply elem_of_app in H' as [H'|H']; apply elem_of_app.
    + left. by apply IH.
    + right. by apply IHl.
  - apply elem_of_list_lookup_2 with (i := pred (length (node_kids s))). by rewrite <-last_lookup.
Qed.

(** ** Calls *)
Lemma error_call_source f : error_call pk fn f -> used pk (unparen f).
Proof.
  intros (e&args&Hc&[(s&Hs&_&Hr)|[(o&_&Hl)|(o&d&ps&rs&v&_&Hd&->&_)]]).
  - eapply source_called; [|exact Hc]. apply source_unparen. by eapply source_returned.
  - eapply source_called; [|exact Hc]. apply source_unparen. by eapply source_linked.
  - eapply source_called; [|exact Hc]. apply source_unparen. by eapply source_several.
Qed.
Lemma value_target_new e g : used pk e -> value_target pk lk f1 e g -> value_target pk lk f2 e g \/ T g.
Proof.
  intros Hs [id kids ->|H1 H2 H3]; [left; by eapply vt_literal|].
  destruct (value_cases e Hs H2) as [?|(o&s&d&_&_&_&_&Ht&Hd)]; [left; by apply vt_name|right]. by rewrite (denotes_unique _ _ _ H3 Hd).
Qed.
Lemma call_target_new f g : used pk (unparen f) -> call_target pk lk f1 fn f g -> call_target pk lk f2 fn f g \/ T g.
Proof.
  intros Hs [H1 H2 H3|i o e H1 H2 H3 H4 H5 H6]; destruct (call_cases f Hs H1) as [Hn|(o'&s&d&_&_&_&_&Ht&Hd)].
  - left. apply ct_package; [done|by apply no_conversion|done].
  - right. by rewrite (denotes_unique _ _ _ H3 Hd).
  - destruct (value_target_new (unparen e) g) as [?|?]; [by eapply used_assigned_expr|done| |by right].
    left. eapply ct_variable; [done|by apply no_conversion|done|done|done|done].
  - by destruct (denotes_no_variable _ _ _ Hd H3).
Qed.

(** ** Codes *)
Lemma function_value_new e c : used pk e -> function_value pk lk f1 M e c -> function_value pk lk f2 M' e c.
Proof.
  intros Hs [id g kids -> Hm|s Hi Hd Hc|g Hi Hd Hg Hm].
  - eapply fv_literal; [done|by apply HMM].
  - eapply fv_declared; [done|by apply declares_keep|done].
  - destruct (value_cases e Hs Hd) as [?|(o&s&d&Ho&H2&H1&Hdo&Ht&Hdd)].
    + eapply fv_package; [done|done|done|by apply HMM].
    + assert (g = d) as -> by (by eapply denotes_unique). apply (fv_declared _ _ _ _ _ _ s); [done|by exists o|by eapply HM].
Qed.
Lemma value_code_new e c : value_code pk f1 e c -> value_code pk f2 e c.
Proof. unfold value_code. by rewrite Htype. Qed.
Lemma call_code_new call f args c : used pk (unparen f) -> call_code pk lk f1 M fn call f args c -> call_code pk lk f2 M' fn call f args c.
Proof.
  intros Hs [s Hd Hc|o p a H1 H2 H3 H4 H5|s H1 H2 H3|i o H1 H2 H3 H4 H5 H6|g H1 H2 H3 H4|i o e H1 H2 H3 H4 H5 H6].
  - eapply cc_declared; [by apply declares_keep|done].
  - eapply cc_constructor; [done|by rewrite <-Hctor|done|done|]. destruct H5 as [[s H5]|H5]; [left; exists s; by apply declares_keep|by right].
  - eapply cc_conversion; [done|by apply conversion_keep|done].
  - destruct (call_cases f Hs H1) as [Hn|(o'&s&d&_&_&_&_&Ht&Hd)].
    + eapply cc_conversion_value; [done|by apply no_conversion|done|done|done|by apply value_code_new].
    + by destruct (denotes_no_type _ _ _ _ Hd H3 H4).
  - destruct (call_cases f Hs H1) as [Hn|(o'&s&d&Ho&H2'&H1'&Hdo&Ht&Hd)].
    + eapply cc_package; [done|by apply no_conversion|done|by apply HMM].
    + assert (g = d) as -> by (by eapply denotes_unique). apply (cc_declared _ _ _ _ _ _ _ _ _ s); [by exists o'|by eapply HM].
  - destruct (call_cases f Hs H1) as [Hn|(o'&s&d&_&_&_&_&Ht&Hd)].
    + eapply cc_variable; [done|by apply no_conversion|done|done|done|]. apply function_value_new; [|done]. by eapply used_assigned_expr.
    + by destruct (denotes_no_variable _ _ _ Hd H3).
Qed.
Lemma direct_code_new e c : (forall f args, as_call (unparen e) = Some (f, args) -> source_node pk e) ->
  direct_code pk lk f1 M fn e c -> direct_code pk lk f2 M' fn e c.
Proof.
  intros Hs [f args Hc H|x H1 H2 H3|id elts H1 H2|id kids H1 H2].
  - eapply dc_call; [done|]. apply call_code_new; [|done]. eapply source_called; [by eapply source_unparen, Hs|done].
  - eapply dc_address; [done|done|by apply value_code_new].
  - eapply dc_composite; [done|by apply value_code_new].
  - eapply dc_literal; [done|by apply value_code_new].
Qed.
Lemma expr_code_new e c : (forall f args, as_call (unparen e) = Some (f, args) -> source_node pk e) ->
  expr_code pk lk f1 M fn e c -> expr_code pk lk f2 M' fn e c.
Proof.
  intros Hs [H|o e' H1 H2 H3|o H1 (d&f&args&ps&rs&v&H2&H3&H4&H5&H6)].
  - apply ec_direct. by apply direct_code_new.
  - eapply ec_var; [done|done|]. apply direct_code_new; [|done]. intros _ _ _. by eapply source_linked.
  - eapply ec_several; [done|]. exists d, f, args, ps, rs, v. split_and!; try done. apply call_code_new; [|done].
    eapply source_called; [by eapply source_unparen, source_several|done].
Qed.
Lemma own_code_new c : own_code pk lk f1 M fn c -> own_code pk lk f2 M' fn c.
Proof.
  intros [s H1 H2|i o e H1 H2 H3 H4|o H1 H2].
  - apply (oc_return _ _ _ _ _ _ s); [done|].
    destruct H2 as [e K1 K2 K3|a K1 K2|a b K1 K2|a b e K1 K2 K3 K4].
    + eapply rc_plain; [done|done|]. apply expr_code_new; [|done]. intros f args Hc. by eapply source_returned.
    + by eapply rc_overwrite.
    + by eapply rc_add.
    + eapply rc_keep; [done|done| |done]. apply expr_code_new; [|done]. intros f args Hc. by eapply source_returned.
  - eapply oc_parameter; [|done|done|done]. unfold constructor_param, code_parameter in *. by rewrite <-Hctor.
  - eapply oc_field; [done|]. unfold field_assigned in *. by rewrite <-Htype.
Qed.

(** ** Events *)
Lemma code_parameter_new p : code_parameter pk f1 fn p <-> code_parameter pk f2 fn p.
Proof. unfold code_parameter. by rewrite Hctor. Qed.
Lemma constructor_param_new i : constructor_param pk f1 fn i <-> constructor_param pk f2 fn i.
Proof. unfold constructor_param, code_parameter. by rewrite Hctor. Qed.
Lemma error_type_new e et : error_type pk f1 e et <-> error_type pk f2 e et.
Proof. unfold error_type. by rewrite Htype. Qed.
Lemma string_event_new e ev : string_event pk f1 fn e ev -> string_event pk f2 fn e ev.
Proof.
  intros [?|?|?|?|?]; [by econstructor..| |by econstructor]. eapply se_parameter; [done|done|done|]. by rewrite <-code_parameter_new.
Qed.
Lemma value_event_new e ev : value_event pk f1 fn e ev -> value_event pk f2 fn e ev.
Proof.
  intros [H|H1 H2|et name pos at_ H1 H2 H3 H4|et name pos v ev' H1 H2 H3 H4 H5].
  - by apply ve_no_code.
  - apply ve_unknown; [done|]. intros et. rewrite <-error_type_new. apply H2.
  - eapply ve_no_init; [done|by apply error_type_new|done|done].
  - eapply ve_init; [done|by apply error_type_new|done|done|by apply string_event_new].
Qed.
Lemma function_value_event_new i e ev : used pk e -> function_value_event pk lk f1 i e ev -> function_value_event pk lk f2 i e ev.
Proof.
  intros Hs [o p H1 H2 H3|ev' H1 H2 H3|j H1 H2|H1 H2].
  - eapply fe_constructor; [done|done|by rewrite <-Hctor].
  - destruct (value_cases e Hs H2) as [?|(o&s&d&_&_&_&_&_&Hd)]; [by apply fe_lookup|]. by destruct (denotes_no_lookup _ _ _ _ Hd H3).
  - destruct (value_cases e Hs H1) as [?|(o&s&d&_&_&_&_&_&Hd)]; [by eapply fe_impossible|]. by destruct (denotes_no_variable _ _ _ Hd H2).
  - by apply fe_unsupported.
Qed.
Lemma variable_call_event_new i ev : variable_call_event pk lk f1 fn i ev -> variable_call_event pk lk f2 fn i ev.
Proof.
  intros [j H|o d H1 H2|o e ev' H1 H2 H3]; [by apply la_origin|by eapply la_several|].
  eapply la_value; [done|done|]. apply function_value_event_new; [|done]. by eapply used_assigned_expr.
Qed.
Lemma call_event_new call f args ev : used pk (unparen f) -> call_event pk lk f1 fn call f args ev -> call_event pk lk f2 fn call f args ev.
Proof.
  intros Hs [o p a ev' H1 H2 H3 H4|o p H1 H2 H3|i o ev' H1 H2 H3 H4 H5 H6|i ev' H1 H2 H3 H4|ev' H1 H2 H3|H1 H2 H3 H4 H5].
  - eapply ce_constructor; [done|by rewrite <-Hctor|done|by apply string_event_new].
  - eapply ce_no_argument; [done|by rewrite <-Hctor|done].
  - destruct (call_cases f Hs H1) as [Hn|(o'&s&d&_&_&_&_&Ht&Hd)].
    + eapply ce_conversion; [done|by apply no_conversion|done|done|done|by apply value_event_new].
    + by destruct (denotes_no_type _ _ _ _ Hd H3 H4).
  - destruct (call_cases f Hs H1) as [Hn|(o'&s&d&_&_&_&_&Ht&Hd)].
    + eapply ce_variable; [done|by apply no_conversion|done|by apply variable_call_event_new].
    + by destruct (denotes_no_variable _ _ _ Hd H3).
  - destruct (call_cases f Hs H1) as [Hn|(o'&s&d&_&_&_&_&Ht&Hd)].
    + eapply ce_lookup; [done|by apply no_conversion|done].
    + by destruct (denotes_no_lookup _ _ _ _ Hd H3).
  - destruct (call_cases f Hs H1) as [Hn|(o'&s&d&_&_&_&_&Ht&Hd)].
    + apply ce_unnamed; [done|by apply no_conversion|done|done|done].
    + exfalso. destruct Hd; try done. congruence.
Qed.
Lemma source_event_new e ev : (forall f args, as_call e = Some (f, args) -> source_node pk e) -> source_event pk lk f1 fn e ev -> source_event pk lk f2 fn e ev.
Proof.
  intros Hs H. destruct H as [f args ev' Hc H|x ev' H1 H2 H3|id elts ev' H1 H2|id kids ev' H1 H2| | | | | |].
  - eapply so_call; [done|]. apply call_event_new; [|done]. eapply source_called; [by eapply Hs|done].
  - eapply so_address; [done|done|by apply value_event_new].
  - eapply so_composite; [done|by apply value_event_new].
  - eapply so_literal; [done|by apply value_event_new].
  - by eapply so_unary.
  - by eapply so_type_switch.
  - by eapply so_type_assert.
  - by eapply so_index.
  - by eapply so_other.
  - by eapply so_malformed.
Qed.
Lemma expr_event_new e ev : (forall f args, as_call (unparen e) = Some (f, args) -> source_node pk e) -> expr_event pk lk f1 fn e ev -> expr_event pk lk f2 fn e ev.
Proof.
  intros Hs [ev' H1 H2|i H1 H2]; [|by apply xe_origin]. apply xe_source; [done|]. apply source_event_new; [|done].
  intros f args Hc. by eapply source_unparen, Hs.
Qed.
Lemma several_event_new o d ev : assigned_several pk fn o d -> several_event pk lk f1 fn d ev -> several_event pk lk f2 fn d ev.
Proof.
  intros Hd H. destruct H as [f args ps rs v ev' H1 H2 H3 H4|f args ps rs v H1 H2 H3|f args H1 H2|H1].
  - eapply de_last; [done|done|done|]. apply call_event_new; [|done]. eapply source_called; [by eapply source_unparen, source_several|done].
  - by eapply de_not_last.
  - by eapply de_no_signature.
  - by eapply de_no_call.
Qed.
Lemma field_event_new o ev : field_event pk f1 fn o ev -> field_event pk f2 fn o ev.
Proof.
  assert (forall lhs k f et, field_target pk f1 o lhs k f et <-> field_target pk f2 o lhs k f et) as E.
  { intros. unfold field_target. by rewrite Htype. }
  intros [body lhs rhs k et name pos r rs H1 H2 H3 H4 H5 H6|body lhs k et name pos H1 H2 H3 H4|body lhs rhs k et name pos r ev' H1 H2 H3 H4 H5 H6 H7|
    body lhs rhs k k' f f' et et' H1 H2 H3 H4 H5 H6].
  - eapply fd_several; [done|done|by apply E|done|done|done].
  - eapply fd_nothing; [done|done|by apply E|done].
  - eapply fd_value; [done|done|by apply E|done|done|done|by apply string_event_new].
  - apply (fd_twice _ _ _ _ body lhs rhs k k' f f' et et'); [done|done|by apply E|by apply E|done|done].
Qed.
Lemma function_event_new ev : function_event pk lk f1 fn ev -> function_event pk lk f2 fn ev.
Proof.
  intros [ev' H|stmt ev' H1 H2|o ev' H1 H2|o ev' H1 H2].
  - apply fu_constructor. destruct H as [p H1 H2|i j H1 H2|i o d H1 H2 H3|i o e ev' H1 H2 H3 H4].
    + by eapply co_unnamed; [apply code_parameter_new|].
    + by eapply co_origin; [apply constructor_param_new|].
    + by eapply co_several; [apply constructor_param_new|..].
    + eapply co_value; [by apply constructor_param_new|done|done|by apply string_event_new].
  - eapply fu_return; [done|]. destruct H2 as [q ds d H Hd|e ev' K1 K2 K3|K1 K2].
    + by apply (re_annotation _ _ _ _ _ q ds).
    + eapply re_expr; [done|done|]. apply expr_event_new; [|done]. intros f args Hc. by eapply source_returned.
    + by apply re_nothing.
  - eapply fu_variable; [done|]. destruct H2 as [e ev' K1 K2|d ev' K1 K2 K3|j K1 K2].
    + eapply va_expr; [done|]. apply expr_event_new; [|done]. intros _ _ _. by eapply source_linked.
    + eapply va_several; [done|done|]. by eapply several_event_new.
    + by eapply va_origin.
  - eapply fu_field; [done|by apply field_event_new].
Qed.
End transfer.
