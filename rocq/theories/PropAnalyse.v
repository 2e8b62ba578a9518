(** * C10, C19, C24, C26, C34, C35, C36, C38: how the codes of one function come about. *)
From Coq Require Import Ascii String.
From stdpp Require Import base list gmap relations sets.
From Verif Require Import Quote QuoteProofs GoString ErrorCode Scc Engine SpecEngine EngineProofs EngineTheorems CodeSet CodeSetProofs Annotation SpecAnnotation
  AnnotationProofs SpecMessages PropAnnotation ErrorCodeProofs Constant GoAst Taint Extract
  Analyse SpecCodes SpecTaint SpecMay SpecProgram SpecEvents SpecClaims Termination Phase ErrorTypes Claims Interfaces Conversions Verify SpecRun SpecEnd
  SpecReports RunEngine TaintProofs ExprProofs MayProofs CallProofs FunctionProofs ReturnProofs OwnProofs ProgramProofs ObserveProofs EventProofs MainLoop FactProofs
  ClaimsProofs RunProofs CheckEngine RunChecks PropRun PropConversions PropEvents VocabularyProofs.

(** ** C10: return annotations *)
(** The annotation lines among the comments of a statement. *)
Definition annotation_texts (pk : package) (stmt : node) (texts : list gostring) : Prop :=
  annotation_lines (comment_lines (pk_comments pk (node_id stmt))) texts.

Section annotations.
Context (pk : package) (lk : lookup_table) (fa : facts) (fn : func) (V : gset oid) (stmt : node).
Notation whole := (codes_of_return pk lk fa fn V stmt).
(** The analysis of the returned expression alone. *)
Notation inner := (findErrorCodesInReturnStmt pk lk fa fn V (node_kids stmt)).

Lemma reading_text t q : annotation_texts pk stmt [t] -> annotation_text t q ->
  getReturnStmtAnnotations (pk_comments pk (node_id stmt)) = (Some (as_annotation q), []).
Proof.
  intros H Hq. destruct (C08_comment _ _ H) as [(q'&Hq'&->)|[Hn _]].
  - by rewrite (C08_annotation_unique _ _ _ Hq Hq').
  - destruct Hn. eauto.
Qed.
(** `= codes`: these codes and nothing else; nothing is called, reported, tracked. *)
Theorem C10_overwrite t cs : annotation_texts pk stmt [t] -> annotation_text t (Overwrite cs) ->
  whole.2 = V /\ call_list whole.1 = [] /\ reports whole.1 = [] /\ no_panic whole.1 /\
  forall plan c, from plan whole.1 c <-> c ∈ cs.
Proof.
  intros H Hq. unfold codes_of_return. rewrite (reading_text t _ H Hq). cbn. split_and!; try done.
  intros plan c. cbn. rewrite from_union_iff, from_set_iff. split; [intros [H'|?]; [by apply from_none in H'|done]|by right].
Qed.
(** Otherwise: the codes of the expression without those subtracted, and those added (also if subtracted). *)
Theorem C10_modify t add sub : annotation_texts pk stmt [t] -> annotation_text t (Modify add sub) ->
  whole.2 = inner.2 /\ call_list whole.1 = call_list inner.1 /\ reports whole.1 = reports inner.1 /\ (no_panic whole.1 <-> no_panic inner.1) /\
  forall plan c, from plan whole.1 c <-> (from plan inner.1 c /\ c ∉ sub) \/ c ∈ add.
Proof.
  intros H Hq. unfold codes_of_return. rewrite (reading_text t _ H Hq). cbn [as_annotation an_shouldOverwrite an_subCodes an_addCodes].
  destruct inner as [e v]. cbn [fst snd]. split_and!; try done.
  - cbn. by rewrite app_nil_r.
  - cbn. by rewrite app_nil_r.
  - cbn. tauto.
  - intros plan c. rewrite !from_union_iff, from_diff_iff, from_set_iff. split; [intros [H'|?]; [by apply from_none in H'|done]|by right].
Qed.
Theorem C10_unannotated : annotation_texts pk stmt [] ->
  whole.2 = inner.2 /\ forall plan c, from plan whole.1 c <-> from plan inner.1 c.
Proof.
  intros H. unfold codes_of_return. pose proof (C08_comment _ _ H) as E. cbn in E. rewrite E. destruct inner as [e v]. cbn. split; [done|].
  intros plan c. rewrite from_union_iff. split; [intros [H'|?]; [by apply from_none in H'|done]|by right].
Qed.
(** A malformed annotation, or several: reported. *)
Theorem C10_malformed ts : annotation_texts pk stmt ts ->
  (forall t q, ts = [t] -> ~ annotation_text t q) -> ts <> [] -> exists msg, Diag (node_id stmt) msg ∈ reports whole.1.
Proof.
  intros H Hn Hne. assert ((getReturnStmtAnnotations (pk_comments pk (node_id stmt))).2 <> []) as Hd.
  { pose proof (C08_comment _ _ H) as E. destruct ts as [|t [|t' ts]]; [done| |done].
    destruct E as [(q&Hq&_)|[_ [d ->]]]; [by destruct (Hn t q eq_refl)|done]. }
  unfold codes_of_return. destruct (getReturnStmtAnnotations _) as [a ds]. cbn in Hd. destruct ds as [|d ds]; [done|].
  exists (annotation_message d).
  assert (Diag (node_id stmt) (annotation_message d) ∈ reports (eff_all (map (fun d => report (node_id stmt) (annotation_message d)) (d :: ds)))) as Hr.
  { pose proof (seen_map (Reported (Diag (node_id stmt) (annotation_message d))) (fun d => report (node_id stmt) (annotation_message d)) (d :: ds)) as E.
    cbn [seen] in E. apply E. exists d. split; [by left|]. cbn. by left. }
  destruct a as [a|].
  - destruct (an_shouldOverwrite a).
    + cbn [fst reports]. apply elem_of_app. by left.
    + destruct inner. cbn [fst reports]. apply elem_of_app. by left.
  - destruct inner. cbn [fst reports]. apply elem_of_app. by left.
Qed.
(** All comments: what they ask for and what is wrong with them (C09) decide; the codes and the reports of the statement. *)
Theorem C10_exact q ds : annotated (pk_comments pk (node_id stmt)) q ds ->
  reports whole.1 = map (fun d => Diag (node_id stmt) (annotation_error_text d)) ds ++ match q with Some (Overwrite _) => [] | _ => reports inner.1 end /\
  whole.2 = match q with Some (Overwrite _) => V | _ => inner.2 end /\
  (no_panic whole.1 <-> match q with Some (Overwrite _) => True | _ => no_panic inner.1 end) /\
  forall plan c, from plan whole.1 c <->
    match q with
    | None => from plan inner.1 c
    | Some (Overwrite cs) => c ∈ cs
    | Some (Modify add sub) => (from plan inner.1 c /\ c ∉ sub) \/ c ∈ add
    end.
Proof.
  intros H%annotated_spec. unfold codes_of_return. rewrite H. clear H.
  set (E := eff_all (map (fun d => report (node_id stmt) (annotation_message d)) ds)).
  assert (reports E = map (fun d => Diag (node_id stmt) (annotation_error_text d)) ds) as HE1.
  { unfold E, eff_all. clear. induction ds as [|d ds IH] using rev_ind; [done|].
    rewrite !map_app, foldl_app. cbn [map foldl reports]. rewrite IH. by destruct d. }
  assert (no_panic E) as HE2.
  { unfold E, eff_all. clear. induction ds as [|d ds IH] using rev_ind; [done|].
    rewrite map_app, foldl_app. cbn [map foldl no_panic]. done. }
  assert (forall plan c, ~ from plan E c) as HE3.
  { unfold E. clear. intros plan c. rewrite from_all_iff. intros (x&(d&->&_)%elem_of_list_fmap&K). by apply from_report_iff in K. }
  clearbody E. destruct q as [[cs|add sub]|]; cbn [fmap option_fmap option_map request_annotation an_shouldOverwrite an_overwrite an_addCodes an_subCodes].
  - cbn. rewrite HE1. split_and!; [done|done|tauto|]. intros plan c. rewrite from_union_iff, from_set_iff. specialize (HE3 plan c). tauto.
  - destruct inner as [e v]. cbn [fst snd]. cbn [reports no_panic]. rewrite HE1, app_nil_r. split_and!; [done|done|tauto|].
    intros plan c. rewrite !from_union_iff, from_diff_iff, from_set_iff. specialize (HE3 plan c). tauto.
  - destruct inner as [e v]. cbn [fst snd]. cbn [reports no_panic]. rewrite HE1. split_and!; [done|done|tauto|].
    intros plan c. rewrite !from_union_iff. specialize (HE3 plan c). tauto.
Qed.
End annotations.

(** ** C19: variable tracking *)
(** Starting at the variable [i], tracking comes to an end and collects: all variables the value may come from, all expressions and calls with
    several results assigned to one of them, and all identifiers that cannot be tracked. *)
Theorem C19_tracking pk fn body param V i : scoped pk fn -> fn_body fn = Some body -> not_closure_param pk fn i ->
  let r := taintSpread pk fn param V i in
  ts_ok r = true /\
  (forall o, o ∈ ts_visited r <-> o ∈ V \/ tracked pk fn param V i o) /\
  (forall e, e ∈ ts_exprs r <-> exists o, tracked pk fn param V i o /\ assigned_expr pk fn o e) /\
  (forall d, d ∈ ts_destructs r <-> exists o, tracked pk fn param V i o /\ assigned_several pk fn o d) /\
  (forall j, j ∈ ts_oos r <-> untrackable pk fn param j /\ (j = i \/ exists o, tracked pk fn param V i o /\ assigned_var pk fn o j)).
Proof. intros Hs Hb Hi. cbn. by eapply taintSpread_exact. Qed.

(** ** C24, C36: a call of a function whose codes are declared *)
Section declared_call.
Context (pk : package) (lk : lookup_table) (fa : facts) (fn : func).
Notation whole call := (findErrorCodesInCallExpression pk lk fa fn call).

Lemma panics_string e : ~ panics (extractErrorCodeFromStringExpression pk fa fn e).
Proof.
  intros H. apply (seen_string pk fa fn e Crashed) in H. inversion H.
Qed.
(** The codes are those declared, and the argument for the error code parameter, if there is one; nothing else is looked at: no function is
    analysed because of the call.  All depends on is that there is an argument at that position. *)
Theorem C36_declared_call call f args o s : as_call call = Some (f, args) -> function_object pk f = Some o -> fa_codes fa !! o = Some s ->
  (forall plan c, from plan (whole call) c <-> c ∈ s \/ exists p a, fa_ctor fa !! o = Some p /\ args !! p = Some a /\ constant_code pk a c) /\
  call_list (whole call) = [] /\
  (panics (whole call) <-> exists p, fa_ctor fa !! o = Some p /\ args !! p = None).
Proof.
  intros Hc Ho Hs. unfold findErrorCodesInCallExpression, findErrorCodesFromFunctionCall. rewrite <-callee_spec in Ho. rewrite Hc, Ho, Hs.
  cbn [fmap option_fmap option_map snd]. split_and!.
  - intros plan c. rewrite from_union_iff, from_set_iff, from_ctor. split.
    + intros [(o'&p&l&a&[= <-]&Hp&[= <-]&Ha&Hk)|?]; [right; eauto|by left].
    + intros [?|(p&a&?&?&?)]; [by right|left]. exists o, p, args, a. done.
  - cbn [call_list]. by rewrite ctor_calls.
  - cbn [panics]. unfold extractErrorCodeFromConstructorCall. destruct (fa_ctor fa !! o) as [p|] eqn:Ep.
    + destruct (args !! p) as [a|] eqn:Ea.
      * split; [by intros [?%panics_string|?]|]. intros (p'&[= <-]&?). congruence.
      * split; [eauto|]. intros _. by left.
    + split; [by intros [?|?]|]. by intros (p'&?&_).
Qed.
(** The same for the specification: what counts for the call does not depend on what its function does. *)
Theorem C36_trusted (M : fid -> gostring -> Prop) call f args o s c : function_object pk f = Some o -> fa_codes fa !! o = Some s ->
  call_code pk lk fa M fn call f args c <-> c ∈ s \/ exists p a, fa_ctor fa !! o = Some p /\ args !! p = Some a /\ constant_code pk a c.
Proof.
  intros Ho Hs. assert (declares fa (function_object pk f) s) as Hd by (exists o; done). split.
  - intros [s' (o'&?&?) ?|o' p a ?????|?? |? ? H|? H|? ? ? H]; try congruence.
    + left. congruence.
    + right. exists p, a. split_and!; try done. congruence.
    + by destruct (H s).
    + by destruct (H s).
    + by destruct (H s).
  - intros [Hc|(p&a&Hp&Ha&Hk)]; [exact (cc_declared _ _ _ _ _ _ _ _ _ s Hd Hc)|].
    exact (cc_constructor _ _ _ _ _ _ _ _ _ o p a Ho Hp Ha Hk (or_introl (ex_intro _ s Hd))).
Qed.
End declared_call.

(** ** C34: constants used as codes *)
Section constants.
Context (pk : package) (fa : facts) (fn : func).
Notation written s := (written_length pk s).
Notation whole e := (extractErrorCodeFromStringExpression pk fa fn e).

Lemma written_valid s : valid_code s -> written s = length s.
Proof. intros H. unfold written_length. rewrite length_quote. cbn. rewrite Nat.sub_0_r. apply quoted_runes_valid. by apply valid_code_chars. Qed.
(** A string constant of at most 70 characters (as written) counts iff it is a valid code; the empty string is ignored, anything else is reported. *)
Theorem C34_constant e s : ti_value (pk_info pk) (node_id e) = Some (CString s) -> written s <= 70 ->
  (forall plan c, from plan (whole e) c <-> c = s /\ valid_code s) /\
  call_list (whole e) = [] /\ ~ panics (whole e) /\
  (reports (whole e) = [] <-> s = [] \/ valid_code s).
Proof.
  intros Hv Hl. split_and!.
  - intros plan c. rewrite from_string_expr. unfold constant_code. rewrite Hv. split.
    + intros ([= ->]&?&_). done.
    + intros [-> Hs]. split_and!; try done. by rewrite <-(written_valid s Hs).
  - apply string_expr_calls.
  - apply panics_string.
  - assert (forall d, d ∈ reports (whole e) <-> string_event pk fa fn e (Reported d)) as H.
    { intros d. exact (seen_string pk fa fn e (Reported d)). }
    split.
    + intros Hn. destruct (decide (s = [])) as [|Hs]; [by left|right]. destruct (valid_code_dec s) as [|Hc]; [done|].
      assert (string_event pk fa fn e (Reported (Diag (node_id e) (str "error code has invalid format: should match [a-zA-Z][a-zA-Z0-9\-]*[a-zA-Z0-9]")))) as Hev.
      { exact (se_invalid pk fa fn e s Hv Hl Hs Hc). }
      apply H in Hev. rewrite Hn in Hev. by apply elem_of_nil in Hev.
    + intros Hs. destruct (reports (whole e)) as [|d ds]; [done|]. assert (d ∈ d :: ds) as Hd by (by left).
      apply H in Hd. inversion Hd; simplify_eq; try congruence; destruct Hs; try done; try congruence.
      all: lia.
Qed.
(** A longer one never counts, even if it is a valid code (C34_refuted); it is reported. *)
Theorem C34_long e s : ti_value (pk_info pk) (node_id e) = Some (CString s) -> 70 < written s ->
  (forall plan c, ~ from plan (whole e) c) /\ ~ panics (whole e) /\
  forall d, d ∈ reports (whole e) <-> d = Diag (node_id e) (str "problem unquoting string constant value: invalid syntax").
Proof.
  intros Hv Hl. split_and!.
  - intros plan c. rewrite from_string_expr. unfold constant_code. rewrite Hv. intros ([= ->]&Hc&Hlen). rewrite written_valid in Hl by done. lia.
  - apply panics_string.
  - intros d. change (d ∈ reports (whole e)) with (seen (Reported d) (whole e)). rewrite seen_string. split.
    + inversion 1; simplify_eq; try congruence. lia.
    + intros ->. by eapply se_too_long.
Qed.
End constants.

(** ** C26: the expression initialising the code field *)
(** The expression is the literal in parentheses, or its address. *)
Inductive wraps (lit : node) : node -> Prop :=
| wraps_literal : wraps lit lit
| wraps_paren id x : wraps lit x -> wraps lit (Node id KParen [x])
| wraps_address id x : wraps lit x -> wraps lit (Node id (KUnary true) [x]).
(** `key: value` *)
Definition pair (e : node) (key : gostring) (v : node) : Prop := exists k i, as_keyvalue e = Some (k, v) /\ as_ident k = Some i /\ i_name i = key.

Section initialisers.
Context (pk : package) (fa : facts) (fn : func) (name : gostring) (pos : nat) (id : nid) (elts : list node) (e : node).
Context (Hw : wraps (Node id KComposite elts) e).
(** What the analysis does with the code field, called [name] and number [pos] of the struct. *)
Notation whole := (extractFieldErrorCode pk fa fn e (name, pos)).
Notation used v := (whole = extractErrorCodeFromStringExpression pk fa fn v).

Lemma wraps_find : exists at_, find_init name pos (node_id e) e = find_init name pos at_ (Node id KComposite elts).
Proof.
  assert (forall at0, exists at_, find_init name pos at0 e = find_init name pos at_ (Node id KComposite elts)) as H; [|apply H].
  induction Hw as [|id' x Hx IH|id' x Hx IH]; intros at0; [by exists at0| |]; cbn [find_init]; apply IH; done.
Qed.
(** A literal with keys: the value of the key, if there is one. *)
Theorem C26_keyed : (forall x, x ∈ elts -> exists key v, pair x key v) ->
  (forall x y v w, x ∈ elts -> y ∈ elts -> pair x name v -> pair y name w -> v = w) ->
  (forall v, (exists x, x ∈ elts /\ pair x name v) -> used v) /\
  ((forall x v, x ∈ elts -> ~ pair x name v) -> whole = eff_none).
Proof.
  intros Hk Hu. destruct wraps_find as [at_ E]. unfold extractFieldErrorCode, findFieldInitExpression. cbn [fst snd]. rewrite E. cbn [find_init].
  assert (forall seen, match find_keyed name elts seen with
    | (Some v, _) => exists x, x ∈ elts /\ pair x name v
    | (None, s) => (forall x v, x ∈ elts -> ~ pair x name v) /\ (elts <> [] \/ seen = true -> s = true)
    end) as H.
  { clear E Hw Hu. induction elts as [|x l IH]; intros seen; cbn [find_keyed].
    { split; [by intros x v ?%elem_of_nil|by intros [?|?]]. }
    destruct (Hk x) as (key&v&k&i&Hkv&Hi&Hn); [by left|]. rewrite Hkv, Hi. case_decide as Hd.
    - exists x. split; [by left|]. exists k, i. done.
    - specialize (IH (fun y Hy => Hk y (elem_of_list_further _ _ _ Hy)) true).
      destruct (find_keyed name l true) as [[w|] s]; [destruct IH as (y&?&?); exists y; split; [by right|done]|].
      destruct IH as [IH1 IH2]. split.
      + intros y w Hy Hp. apply elem_of_cons in Hy as [-> |Hy]; [|by eapply IH1]. destruct Hp as (k'&i'&?&?&?). congruence.
      + intros _. apply IH2. by right. }
  split.
  - intros v (x&Hx&Hp). destruct elts as [|x0 l]; [by apply elem_of_nil in Hx|]. specialize (H false).
    destruct (find_keyed name (x0 :: l) false) as [[w|] s].
    + destruct H as (y&Hy&Hw'). by rewrite (Hu x y v w).
    + destruct H as [H _]. by destruct (H x v).
  - intros Hn. destruct elts as [|x0 l]; [done|]. specialize (H false). destruct (find_keyed name (x0 :: l) false) as [[w|] s].
    + destruct H as (y&Hy&Hw'). by destruct (Hn y w).
    + destruct H as [_ H]. rewrite H; [done|by left].
Qed.
(** A literal without keys: the element at the position of the field. *)
Theorem C26_positional x0 : elts !! 0 = Some x0 -> as_keyvalue x0 = None ->
  (forall v, elts !! pos = Some v -> used v) /\
  (elts !! pos = None -> exists at_, whole = report at_ (str "could not find initialiser for error code field in contructor expression")).
Proof.
  intros H0 Hk. destruct wraps_find as [at_ E]. unfold extractFieldErrorCode, findFieldInitExpression. cbn [fst snd]. rewrite E. cbn [find_init].
  destruct elts as [|x l]; [done|]. injection H0 as ->. cbn [find_keyed]. rewrite Hk. split.
  - intros v Hv. by rewrite Hv.
  - intros Hv. rewrite Hv. by exists at_.
Qed.
(** The empty literal: no code (and no report). *)
Theorem C26_empty : elts = [] -> whole = eff_none.
Proof.
  intros He. destruct wraps_find as [at_ E]. unfold extractFieldErrorCode, findFieldInitExpression. cbn [fst snd]. by rewrite E, He.
Qed.
End initialisers.

(** ** In a whole run *)
(** *** C35: more facts *)
(** The same declarations, with more codes. *)
Record more_codes (fa fa' : facts) : Prop := {
  mc_codes : forall o, match fa_codes fa !! o, fa_codes fa' !! o with Some s, Some s' => s ⊆ s' | None, None => True | _, _ => False end;
  mc_ctor : fa_ctor fa = fa_ctor fa';
  mc_type : forall n, match fa_type fa !! n, fa_type fa' !! n with
    | Some t, Some t' => et_field t = et_field t' /\ et_codes t ⊆ et_codes t' /\ (et_codes t = ∅ <-> et_codes t' = ∅)
    | None, None => True | _, _ => False end
}.
Section more.
Context (pk : package) (lk : lookup_table) (fa fa' : facts) (Hm : more_codes fa fa').
Lemma more_declares o s : declares fa o s -> exists s', declares fa' o s' /\ s ⊆ s'.
Proof.
  intros (o'&->&Hs). pose proof (mc_codes _ _ Hm o') as H. rewrite Hs in H. destruct (fa_codes fa' !! o') as [s'|] eqn:E; [|done].
  exists s'. split; [|done]. by exists o'.
Qed.
Lemma more_undeclared o : (forall s, ~ declares fa o s) -> forall s, ~ declares fa' o s.
Proof.
  intros Hn s (o'&->&Hs). pose proof (mc_codes _ _ Hm o') as H. rewrite Hs in H. destruct (fa_codes fa !! o') as [s'|] eqn:E; [|done].
  apply (Hn s'). by exists o'.
Qed.
Lemma more_conversion f s : conversion_codes pk fa f s -> exists s', conversion_codes pk fa' f s' /\ s ⊆ s'.
Proof.
  intros (t&n&et&Ht&Hn&Het&<-&Hne). pose proof (mc_type _ _ Hm n) as H. rewrite Het in H. destruct (fa_type fa' !! n) as [et'|] eqn:E; [|done].
  destruct H as (_&Hsub&Hemp). exists (et_codes et'). split; [|done]. exists t, n, et'. split_and!; try done. intros ?. by apply Hne, Hemp.
Qed.
Lemma more_no_conversion f : (forall s, ~ conversion_codes pk fa f s) -> forall s, ~ conversion_codes pk fa' f s.
Proof.
  intros Hno s (t&n&et&Ht&Hn&Het&<-&Hne). pose proof (mc_type _ _ Hm n) as H. rewrite Het in H. destruct (fa_type fa !! n) as [et'|] eqn:E; [|done].
  destruct H as (_&Hsub&Hemp). apply (Hno (et_codes et')). exists t, n, et'. split_and!; try done. intros ?. by apply Hne, Hemp.
Qed.
Lemma more_value e c : value_code pk fa e c -> value_code pk fa' e c.
Proof.
  intros (t&n&et&Ht&Hi&Hn&Het&Hc). pose proof (mc_type _ _ Hm n) as H. rewrite Het in H. destruct (fa_type fa' !! n) as [et'|] eqn:E; [|done].
  destruct H as (Hf&Hsub&_). exists t, n, et'. split_and!; try done. destruct Hc as [Hc|(name&pos&v&H1&H2&H3)]; [left; set_solver|right].
  exists name, pos, v. split_and!; try done. congruence.
Qed.
Section calls.
Context (M M' : fid -> gostring -> Prop) (c : gostring) (HM : forall g, M g c -> M' g c) (fn : func).
Lemma more_function e : function_value pk lk fa M e c -> function_value pk lk fa' M' e c.
Proof.
  intros [id g kids H1 H2|s H1 H2 H3|g H1 H2 H3 H4].
  - exact (fv_literal _ _ _ _ _ _ id g kids H1 (HM _ H2)).
  - destruct (more_declares _ _ H2) as (s'&Hs'&Hsub). exact (fv_declared _ _ _ _ _ _ s' H1 Hs' (Hsub _ H3)).
  - exact (fv_package _ _ _ _ _ _ g H1 (more_undeclared _ H2) H3 (HM _ H4)).
Defined.
Lemma more_call call f args : call_code pk lk fa M fn call f args c -> call_code pk lk fa' M' fn call f args c.
Proof.
  intros [s H1 H2|o p a H1 H2 H3 H4 H5|s H1 H2 H3|i o H1 H2 H3 H4 H5 H6|g H1 H2 H3 H4|i o e H1 H2 H3 H4 H5 H6].
  - destruct (more_declares _ _ H1) as (s'&Hs'&Hsub). exact (cc_declared _ _ _ _ _ _ _ _ _ s' Hs' (Hsub _ H2)).
  - refine (cc_constructor _ _ _ _ _ _ _ _ _ o p a H1 _ H3 H4 _).
    + by rewrite <-(mc_ctor _ _ Hm).
    + destruct H5 as [[s Hs]|H5]; [left|by right]. destruct (more_declares _ _ Hs) as (s'&?&_). by exists s'.
  - destruct (more_conversion _ _ H2) as (s'&Hs'&Hsub). exact (cc_conversion _ _ _ _ _ _ _ _ _ s' H1 Hs' (Hsub _ H3)).
  - exact (cc_conversion_value _ _ _ _ _ _ _ _ _ i o (more_undeclared _ H1) (fun E => more_no_conversion _ (H2 E)) H3 H4 H5 (more_value _ _ H6)).
  - exact (cc_package _ _ _ _ _ _ _ _ _ g (more_undeclared _ H1) (fun E => more_no_conversion _ (H2 E)) H3 (HM _ H4)).
  - exact (cc_variable _ _ _ _ _ _ _ _ _ i o e (more_undeclared _ H1) (fun E => more_no_conversion _ (H2 E)) H3 H4 H5 (more_function _ H6)).
Defined.
Lemma more_direct e : direct_code pk lk fa M fn e c -> direct_code pk lk fa' M' fn e c.
Proof.
  intros [f args H1 H2|x H1 H2 H3|id elts H1 H2|id kids H1 H2].
  - exact (dc_call _ _ _ _ _ _ _ f args H1 (more_call _ _ _ H2)).
  - exact (dc_address _ _ _ _ _ _ _ x H1 H2 (more_value _ _ H3)).
  - exact (dc_composite _ _ _ _ _ _ _ id elts H1 (more_value _ _ H2)).
  - exact (dc_literal _ _ _ _ _ _ _ id kids H1 (more_value _ _ H2)).
Defined.
Lemma more_several o : several_code pk lk fa M fn o c -> several_code pk lk fa' M' fn o c.
Proof.
  intros (d&f&args&ps&rs&v&H1&H2&H3&H4&H5). exists d, f, args, ps, rs, v.
  exact (conj H1 (conj H2 (conj H3 (conj H4 (more_call _ _ _ H5))))).
Defined.
Lemma more_expr e : expr_code pk lk fa M fn e c -> expr_code pk lk fa' M' fn e c.
Proof.
  intros [H1|o e' H1 H2 H3|o H1 H2].
  - exact (ec_direct _ _ _ _ _ _ _ (more_direct _ H1)).
  - exact (ec_var _ _ _ _ _ _ _ o e' H1 H2 (more_direct _ H3)).
  - exact (ec_several _ _ _ _ _ _ _ o H1 (more_several _ H2)).
Defined.
Lemma more_return s : return_code pk lk fa M fn s c -> return_code pk lk fa' M' fn s c.
Proof.
  intros [e H1 H2 H3|a H1 H2|a b H1 H2|a b e H1 H2 H3 H4].
  - exact (rc_plain _ _ _ _ _ _ _ e H1 H2 (more_expr _ H3)).
  - exact (rc_overwrite _ _ _ _ _ _ _ a H1 H2).
  - exact (rc_add _ _ _ _ _ _ _ a b H1 H2).
  - exact (rc_keep _ _ _ _ _ _ _ a b e H1 H2 (more_expr _ H3) H4).
Defined.
Lemma more_own : own_code pk lk fa M fn c -> own_code pk lk fa' M' fn c.
Proof.
  intros [s H1 H2|i o e (p&Hp&Hi) H2 H3 H4|o H1 (body&lhs&rhs&k&x&sel&xi&t&n&et&fname&fpos&rr&F1&F2&F3&F4&F5&F6&F7&F8&F9&F10&F11&F12)].
  - exact (oc_return _ _ _ _ _ _ s H1 (more_return _ H2)).
  - refine (oc_parameter _ _ _ _ _ _ i o e _ H2 H3 H4). exists p. split; [|done].
    unfold code_parameter in *. by rewrite <-(mc_ctor _ _ Hm).
  - refine (oc_field _ _ _ _ _ _ o H1 _). pose proof (mc_type _ _ Hm n) as H. rewrite F8 in H. destruct (fa_type fa' !! n) as [et'|] eqn:E; [|done].
    destruct H as (Hf&_). exists body, lhs, rhs, k, x, sel, xi, t, n, et', fname, fpos, rr. split_and!; try done. congruence.
Defined.
End calls.
Lemma more_target fn f g : call_target pk lk fa fn f g -> call_target pk lk fa' fn f g.
Proof.
  intros [H1 H2 H3|i o e H1 H2 H3 H4 H5 H6].
  - exact (ct_package _ _ _ _ _ _ (more_undeclared _ H1) (fun E => more_no_conversion _ (H2 E)) H3).
  - refine (ct_variable _ _ _ _ _ _ i o e (more_undeclared _ H1) (fun E => more_no_conversion _ (H2 E)) H3 H4 H5 _).
    destruct H6 as [id kids H6|H6 H7 H8]; [exact (vt_literal _ _ _ _ _ id kids H6)|exact (vt_name _ _ _ _ _ H6 (more_undeclared _ H7) H8)].
Qed.
(** If functions and types elsewhere declare more codes, nothing is lost in the functions of this package. *)
Theorem C35_more_codes f c : may_return pk lk fa f c -> may_return pk lk fa' f c.
Proof.
  assert (forall f g, passes_on pk lk fa f g -> passes_on pk lk fa' f g) as Hp.
  { intros f' g (fn&e&?&?&?%more_target). exists fn, e. done. }
  assert (forall f g, rtc (passes_on pk lk fa) f g -> rtc (passes_on pk lk fa') f g) as Hr.
  { intros f' g H. induction H as [|x y z Hxy _ IH]; [apply rtc_refl|]. eapply rtc_l; [by apply Hp|done]. }
  revert f c. apply may_return_least.
  - intros f fn c Hf Ho. eapply mr_own; [done|]. eapply more_own; [|exact Ho]. done.
  - intros f g c [H1 H2] H. eapply mr_recursive; [|exact H]. split; auto.
Qed.
End more.

Section run.
Context (pk : package) (strict : bool) (ord : orders) (fa : facts) (r : run).
Notation lk := (collectFunctions pk).
Context (Hord : orders_ok lk ord) (Hr : completes pk strict ord fa r).
Notation fd := (facts_during pk ord r).
Context (Hus : usable_functions pk fd) (Hlit : no_literal_recursion pk lk fd).
Notation found f := (e_found (r_loop r) !! f).
Notation may := (may_return pk lk fd).

Lemma found_from f fn s c : found f = Some s -> pk_funcs pk !! f = Some fn ->
  from (plan pk lk fd (or_tracked ord)) (function_effect pk lk fd (or_tracked ord) fn) c -> c ∈ s.
Proof.
  intros Hs Hf H. apply (loop_value pk strict ord fa r Hord Hr Hus Hlit f s Hs). apply may_own.
  unfold plan at 2. by rewrite Hf.
Qed.
(** *** C38 *)
(** A constant assigned to the code field of a variable from which a returned error may come is among the codes found. *)
Theorem C38_field_assignment f fn s o c : found f = Some s -> pk_funcs pk !! f = Some fn ->
  error_var pk fn o -> field_assigned pk fd fn o c -> c ∈ s.
Proof.
  intros Hs Hf Ho Hc. eapply found_from; [done|done|]. destruct (Hus f fn Hf) as [Hu Hb]. destruct (fn_body fn) as [body|] eqn:Eb; [|done].
  apply (from_function_effect pk lk fd fn _ body Eb (us_typed _ _ _ Hu) (us_scoped _ _ _ Hu) Hu); [by apply (tracked_order pk ord Hord)|]. right. right. eauto.
Qed.
(** *** C10 *)
(** Codes an annotation adds, or puts in place of those of the expression, are among the codes found. *)
Theorem C10_added f fn s stmt q c : found f = Some s -> pk_funcs pk !! f = Some fn -> stmt ∈ return_stmts fn ->
  annotation_is pk stmt (Some q) -> c ∈ (match q with Overwrite cs => cs | Modify add _ => add end) -> c ∈ s.
Proof.
  intros Hs Hf Hst Ha Hc. eapply found_from; [done|done|]. destruct (Hus f fn Hf) as [Hu Hb]. destruct (fn_body fn) as [body|] eqn:Eb; [|done].
  apply (from_function_effect pk lk fd fn _ body Eb (us_typed _ _ _ Hu) (us_scoped _ _ _ Hu) Hu); [by apply (tracked_order pk ord Hord)|]. left. rewrite (returns_eq pk lk fd fn body Eb).
  destruct (codes_of_returns_post pk lk fd fn body Eb (us_scoped _ _ _ Hu) ∅ (return_stmts fn)) as [_ P]; [by eapply usable_good|].
  destruct (P _ _ (observe_from (plan pk lk fd (or_tracked ord)) c)) as (_&Pfix&_).
  apply annotation_is_model in Ha. eapply (Pfix stmt (EffSet (match q with Overwrite cs => cs | Modify add _ => add end))); [done| |by apply from_set_iff].
  right. exists (request_annotation q). split; [done|]. destruct q; [by left|by right].
Qed.
(** *** C37 *)
(** The codes that count for one return statement (all that the called functions return, without what its own annotation removes) are among the
    codes found, unless another statement that returns the same variable removes them. *)
Theorem C37_own_statement f fn s stmt c : found f = Some s -> pk_funcs pk !! f = Some fn -> stmt ∈ return_stmts fn ->
  agree_at pk fn stmt c -> return_code pk lk fd (fun g c => exists t, found g = Some t /\ c ∈ t) fn stmt c -> c ∈ s.
Proof.
  intros Hs Hf Hst Ha Hc. eapply found_from; [done|done|]. destruct (Hus f fn Hf) as [Hu Hb]. destruct (fn_body fn) as [body|] eqn:Eb; [|done].
  apply (from_function_effect pk lk fd fn _ body Eb (us_typed _ _ _ Hu) (us_scoped _ _ _ Hu) Hu); [by apply (tracked_order pk ord Hord)|]. left.
  eapply (returns_complete_at pk lk fd fn _ body Eb); [exact (us_typed _ _ _ Hu)|exact (us_scoped _ _ _ Hu)|exact Hu|exact Ha|exact Hst|].
  eapply return_code_mono; [|exact Hc]. intros g (t&Ht&Hg). by apply (loop_value pk strict ord fa r Hord Hr Hus Hlit g t Ht).
Qed.
(** *** C35 *)
(** The call of [e], the value of which statement [stmt] may return. *)
Definition returns_call (fn : func) (stmt e : node) : Prop :=
  exists x args, as_call (unparen x) = Some (e, args) /\
    (returned fn stmt x \/
     exists y o, returned fn stmt y /\ expr_var pk fn y o /\
       (linked pk fn o x \/
        exists d ps rs v, assigned_several pk fn o d /\ x = de_source d /\
          ti_type (pk_info pk) (node_id e) = Some (TSignature ps rs v) /\ S (de_position d) = length rs)).
(** A function that returns the error of a call of [g] contains all codes of [g] that the annotation does not remove. *)
Theorem C35_callers f fn s stmt e g t c : found f = Some s -> found g = Some t -> pk_funcs pk !! f = Some fn ->
  stmt ∈ return_stmts fn -> ~ overwritten pk stmt -> returns_call fn stmt e -> call_target pk lk fd fn e g ->
  agree pk fn c -> ~ subtracts pk stmt c -> c ∈ t -> c ∈ s.
Proof.
  intros Hs Ht Hf Hst Hov Hc Hg Ha Hsub Hin.
  pose (M := SpecEngine.may (plan pk lk fd (or_tracked ord))).
  assert (M g c) as Hm by (by apply (loop_value pk strict ord fa r Hord Hr Hus Hlit g t Ht)).
  eapply found_from; [done|done|]. destruct (Hus f fn Hf) as [Hu Hb]. destruct (fn_body fn) as [body|] eqn:Eb; [|done].
  apply (own_complete pk lk fd fn _ body Eb (us_typed _ _ _ Hu) (us_scoped _ _ _ Hu) Hu); [by apply (tracked_order pk ord Hord)|done|]. fold M. eapply oc_return; [done|].
  destruct Hc as (x&args&Hx&Hc).
  assert (call_code pk lk fd M fn (unparen x) e args c) as Hcode.
  { destruct Hg as [Hd Hcv Hden|i o e' Hd Hcv Hv Htr Hae Hvt].
    - by eapply cc_package.
    - eapply cc_variable; [done|done|done|done|done|]. destruct Hvt as [id kids ->|Hn Hnd Hden].
      + by eapply fv_literal.
      + by eapply fv_package. }
  assert (exists y, returned fn stmt y /\ expr_code pk lk fd M fn y c) as (y&Hy&Hyc).
  { destruct Hc as [Hret|(y&o&Hret&Hv&[Hl|(d&ps&rs&v&Hd&->&Hty&Hp)])].
    - exists x. split; [done|]. apply ec_direct. by eapply dc_call.
    - exists y. split; [done|]. eapply ec_var; [done|done|]. by eapply dc_call.
    - exists y. split; [done|]. eapply ec_several; [done|]. exists d, e, args, ps, rs, v. done. }
  destruct (annotation_total pk stmt) as [[[cs|add sub]|] Hq].
  - destruct Hov. by exists cs.
  - eapply rc_keep; [done|done|done|]. intros ?. apply Hsub. by exists add, sub.
  - by eapply rc_plain.
Qed.
End run.
