(** * Proofs: diagnostics and crashes of the analysis of a function are exactly those of SpecEvents. *)
From Coq Require Import Ascii String.
From stdpp Require Import base list gmap sets.
From Verif Require Import Quote QuoteProofs LookupProofs GoString ErrorCode Scc Engine SpecEngine CodeSet Annotation Constant GoAst Taint Extract Analyse
  SpecCodes SpecTaint SpecMay SpecProgram SpecEvents GoStringProofs ErrorCodeProofs CodeSetProofs TaintProofs Termination ExprProofs MayProofs
  SpecMessages AnnotationProofs CallProofs FunctionProofs ReturnProofs OwnProofs ProgramProofs ObserveProofs VocabularyProofs.

(** The event is observed when the effect is executed. *)
Definition seen (ev : event) (e : eff diag) : Prop :=
  match ev with Reported d => d ∈ reports e | Crashed => panics e end.
Lemma observe_seen ev : observation (seen ev) (fun _ => True).
Proof. destruct ev; [apply observe_reports|apply observe_panics]. Qed.
Lemma additive_seen ev : additive (seen ev).
Proof. apply (ob_additive _ _ (observe_seen ev)). Qed.

Lemma seen_union ev a b : seen ev (EffUnion a b) <-> seen ev a \/ seen ev b.
Proof. apply (ad_union _ (additive_seen ev)). Qed.
Lemma seen_set ev s : ~ seen ev (EffSet s).
Proof. destruct ev; cbn; [apply not_elem_of_nil|by intros []]. Qed.
Lemma seen_none ev : ~ seen ev eff_none.
Proof. apply seen_set. Qed.
Lemma seen_call ev g : ~ seen ev (EffCallEdge g).
Proof. destruct ev; cbn; [apply not_elem_of_nil|by intros []]. Qed.
Lemma seen_direct ev g : ~ seen ev (EffCallDirect g).
Proof. destruct ev; cbn; [apply not_elem_of_nil|by intros []]. Qed.
Lemma seen_report ev at_ msg : seen ev (report at_ msg) <-> ev = says at_ msg.
Proof. unfold report, says. destruct ev; cbn; [rewrite elem_of_list_singleton; split; congruence|]. by split. Qed.
Lemma seen_panic ev : seen ev EffPanic <-> ev = Crashed.
Proof. destruct ev; cbn; [rewrite elem_of_nil|]; by split. Qed.
Lemma seen_all ev l : seen ev (eff_all l) <-> exists x, x ∈ l /\ seen ev x.
Proof. apply obs_all, additive_seen. Qed.
Lemma seen_map {A} ev (F : A -> eff diag) l : seen ev (eff_all (map F l)) <-> exists x, x ∈ l /\ seen ev (F x).
Proof.
  rewrite seen_all. split.
  - intros (y&(x&->&?)%elem_of_list_fmap&?). eauto.
  - intros (x&?&?). eexists. split; [apply elem_of_list_fmap; eauto|done].
Qed.
Lemma seen_discard ev e : seen ev (discard e) <-> seen ev e.
Proof.
  induction e; cbn [discard]; try done.
  by rewrite !seen_union, IHe1, IHe2.
Qed.

Section events.
Context (pk : package) (lk : lookup_table) (fa : facts) (fn : func).
Notation info := (pk_info pk).

(** ** Constants *)
Lemma constant_event is_print v :
  match getErrorCodeFromConstant is_print v with
  | inl c => exists s, v = CString s /\ length (runes (quote is_print s)) - 2 <= 70 /\ c = s /\ (s = [] \/ valid_code s)
  | inr msg => (v = COther /\ msg = str "error code has to be of type string") \/
      exists s, v = CString s /\
        ((70 < length (runes (quote is_print s)) - 2 /\ msg = str "problem unquoting string constant value: invalid syntax") \/
         (length (runes (quote is_print s)) - 2 <= 70 /\ s <> [] /\ ~ valid_code s /\
          msg = str "error code has invalid format: should match [a-zA-Z][a-zA-Z0-9\-]*[a-zA-Z0-9]"))
  end.
Proof.
  unfold getErrorCodeFromConstant, unquote_of_String. destruct v as [s|]; [|left; done].
  pose proof (length_quote is_print s) as Hq.
  destruct (Nat.ltb_spec 72 (2 + quoted_runes_from is_print 0 s)) as [Hl|Hl].
  { right. exists s. split; [done|]. left. split; [lia|done]. }
  destruct (decide (s = [])) as [->|Hne]. { exists []. split_and!; [done|cbn; lia|done|by left]. }
  destruct (isErrorCodeValid s) eqn:E.
  - exists s. split_and!; [done|lia|done|]. right. by apply isErrorCodeValid_correct.
  - right. exists s. split; [done|]. right. split_and!; [lia|done| |done]. rewrite <-isErrorCodeValid_correct. congruence.
Qed.

Lemma seen_string e ev : seen ev (extractErrorCodeFromStringExpression pk fa fn e) <-> string_event pk fa fn e ev.
Proof.
  unfold extractErrorCodeFromStringExpression. destruct (ti_value info (node_id e)) as [v|] eqn:Ev.
  - pose proof (constant_event (ti_is_print info) v) as H. destruct (getErrorCodeFromConstant (ti_is_print info) v) as [c|msg].
    + destruct H as (s&->&Hl&->&Hs). split.
      { destruct (decide (s = [])); intros H; [by apply seen_none in H|by apply seen_set in H]. }
      intros H. destruct H as [H|s' H1 H2|s' H1 H2 H3 H4|i p H1|H1]; rewrite Ev in *; try done.
      * injection H1 as <-. unfold written_length in H2. lia.
      * injection H1 as <-. by destruct Hs.
    + rewrite seen_report. split.
      * intros ->. destruct H as [[-> ->]|(s&->&[[Hl ->]|(Hl&Hne&Hv&->)])].
        -- by apply se_not_string.
        -- by eapply se_too_long.
        -- by eapply se_invalid.
      * intros E. destruct E as [E|s' H1 H2|s' H1 H2 H3 H4|i p H1|H1]; rewrite Ev in *; try done.
        -- injection E as ->. by destruct H as [[_ ->]|(s&?&_)].
        -- injection H1 as ->. destruct H as [[? _]|(s&[= <-]&[[Hl ->]|(Hl&_)])]; [done|done|]. unfold written_length in H2. lia.
        -- injection H1 as ->. destruct H as [[? _]|(s&[= <-]&[[Hl _]|(_&_&_&->)])]; [done| |done]. unfold written_length in H2. lia.
  - unfold checkIfExprIsErrorCodeParam. destruct (as_ident (unparen e)) as [i|] eqn:Ei.
    + destruct (getParamPosition (fn_type fn) i) as [p|] eqn:Ep.
      * case_decide as Hp.
        -- split; [by intros ?%seen_none|].
           intros H. destruct H as [H|s' H1 H2|s' H1 H2 H3 H4|i' p' H1 H2 H3 H4|H1 H2]; try congruence.
           { apply getParamPosition_spec in H3. rewrite <-constructor_fact_spec in H4. congruence. }
           apply getParamPosition_spec in Ep. by destruct (H2 i p Ei Ep).
        -- rewrite seen_report. split.
           { intros ->. apply (se_parameter pk fa fn e i p); [done|done|by apply getParamPosition_spec|by rewrite <-constructor_fact_spec]. }
           intros H. destruct H as [H|s' H1 H2|s' H1 H2 H3 H4|i' p' H1 H2 H3 H4|H1 H2]; try congruence.
           apply getParamPosition_spec in Ep. by destruct (H2 i p Ei Ep).
      * rewrite seen_report. split.
        -- intros ->. apply se_dynamic; [done|]. intros i' p' Hi' H%getParamPosition_spec. congruence.
        -- intros H. destruct H as [H|s' H1 H2|s' H1 H2 H3 H4|i' p' H1 H2 H3 H4|H1 H2]; try congruence.
           apply getParamPosition_spec in H3. congruence.
    + rewrite seen_report. split.
      * intros ->. apply se_dynamic; [done|]. intros i' p' Hi'. congruence.
      * intros H. destruct H as [H|s' H1 H2|s' H1 H2 H3 H4|i' p' H1 H2 H3 H4|H1 H2]; congruence.
Qed.

(** ** Values *)
Lemma find_init_none name pos at_ e r : find_init name pos at_ e = inr r <-> no_init pos at_ e r.
Proof.
  split.
  - revert at_ e. fix IH 2. intros at_ [id k kids]. cbn [find_init].
    destruct k; try (clear IH; intros [= <-]; by apply ni_other).
    + destruct kids as [|x [|]]; try (clear IH; intros [= <-]; by apply ni_other). intros H. apply ni_paren. by apply IH.
    + destruct is_and; [|clear IH; intros [= <-]; by apply ni_other].
      destruct kids as [|x [|]]; try (clear IH; intros [= <-]; by apply ni_other). intros H. apply ni_address. by apply IH.
    + destruct kids as [|e0 es]; [done|]. clear IH. pose proof (find_keyed_spec name (e0 :: es) false) as H.
      destruct (find_keyed name (e0 :: es) false) as [[v'|] []]; try done.
      destruct ((e0 :: es) !! pos) as [v'|] eqn:El; [done|]. intros [= <-]. destruct H as (_&H&_).
      apply ni_short; [|done]. by apply H.
  - induction 1 as [at_ id x r H IH|at_ id x r H IH|at_ id e0 elts H1 H2|at_ e H1 H2 H3]; cbn [find_init]; [done|done| |].
    + pose proof (find_keyed_spec name (e0 :: elts) false) as H.
      destruct (find_keyed name (e0 :: elts) false) as [[v'|] s].
      * destruct H as ([|b before]&kv&after&key&E&G1&G2&G3); injection E as ? ?; subst; [congruence|].
        destruct (G1 b) as (?&?&?&?&_); [by left|]. congruence.
      * destruct H as (Hs&_&_). destruct s; [|by rewrite H2]. destruct (Hs eq_refl) as [?|(e1&[= <-]&?)]; congruence.
    + destruct e as [id k kids]. destruct k; try done.
      * destruct kids as [|x [|]]; try done. by destruct (H1 id x).
      * destruct is_and; [|done]. destruct kids as [|x [|]]; try done. by destruct (H2 id x).
      * by destruct (H3 id kids).
Qed.
Lemma seen_field_code e f ev : seen ev (extractFieldErrorCode pk fa fn e f) <->
  (exists at_, no_init f.2 (node_id e) e at_ /\
     ev = says at_ (str "could not find initialiser for error code field in contructor expression")) \/
  exists v, field_init f.1 f.2 e v /\ string_event pk fa fn v ev.
Proof.
  unfold extractFieldErrorCode, findFieldInitExpression. destruct (find_init f.1 f.2 (node_id e) e) as [[v|]|at_] eqn:Ef.
  - rewrite seen_string. apply find_init_spec in Ef as Hi. split; [eauto|].
    intros [(at_&H%(find_init_none f.1)&_)|(v'&Hv&?)]; [congruence|].
    apply (find_init_spec _ _ (node_id e)) in Hv. assert (v' = v) as -> by congruence. done.
  - split; [by intros ?%seen_none|].
    intros [(at_&H%(find_init_none f.1)&_)|(v'&Hv&?)]; [congruence|]. apply (find_init_spec _ _ (node_id e)) in Hv. congruence.
  - rewrite seen_report. split; [left; exists at_; split; [by apply find_init_none in Ef|done]|].
    intros [(at'&H%(find_init_none f.1)&->)|(v'&Hv&?)]; [congruence|]. apply (find_init_spec _ _ (node_id e)) in Hv. congruence.
Qed.
Lemma coded_spec e : checkErrorTypeHasLegibleCode pk e = true <-> coded pk e.
Proof.
  unfold checkErrorTypeHasLegibleCode, coded. destruct (ti_type info (node_id e)) as [t|]; [|split; [done|by intros (?&?&_)]].
  rewrite orb_true_iff. split; [eauto|]. by intros (?&[= <-]&?).
Qed.
Lemma error_type_spec e et : getErrorTypeForError fa (ti_type info (node_id e)) = inl (Some et) <-> error_type pk fa e et.
Proof.
  unfold getErrorTypeForError, error_type. destruct (ti_type info (node_id e)) as [t|]; [|split; [done|by intros (?&?&?&_)]].
  destruct (getNamedType t) as [n|] eqn:En.
  - split; [intros [= H]; eauto|]. intros (t'&n'&[= <-]&?&?). congruence.
  - split; [done|]. intros (t'&n'&[= <-]&?&?). congruence.
Qed.
Lemma seen_affector e ev : seen ev (extractErrorCodesFromAffector pk fa fn e) <-> value_event pk fa fn e ev.
Proof.
  unfold extractErrorCodesFromAffector. destruct (checkErrorTypeHasLegibleCode pk e) eqn:Ec; cbn [negb].
  2:{ assert (~ coded pk e) as Hn by (rewrite <-coded_spec; congruence). rewrite seen_report. split; [intros ->; by apply ve_no_code|].
      intros H. by destruct H. }
  apply coded_spec in Ec.
  destruct (getErrorTypeForError fa (ti_type info (node_id e))) as [[et|]|] eqn:Et.
  - apply error_type_spec in Et as He. rewrite seen_union. split.
    + intros [H|H]; [by apply seen_set in H|]. destruct (et_field et) as [[name pos]|] eqn:Ef; [|by apply seen_none in H].
      apply seen_field_code in H as [(at_&?&->)|(v&?&?)].
      * eapply ve_no_init; eauto.
      * eapply ve_init; eauto.
    + assert (forall et', error_type pk fa e et' -> et' = et) as Huniq. { intros et' H%error_type_spec. congruence. }
      intros H. destruct H as [H|H1 H2|et' name pos at_ H1 H2%Huniq H3 H4|et' name pos v ev H1 H2%Huniq H3 H4 H5].
      * done.
      * by destruct (H2 et).
      * subst. right. rewrite H3. apply seen_field_code. left. eauto.
      * subst. right. rewrite H3. apply seen_field_code. right. eauto.
  - assert (forall et, ~ error_type pk fa e et) as Hn. { intros et H%error_type_spec. congruence. }
    rewrite seen_report. split; [intros ->; by apply ve_unknown|]. intros H. destruct H as [H|H1 H2|et name pos at_ H1 H2|et name pos v ev H1 H2]; try done; by destruct (Hn et).
  - assert (forall et, ~ error_type pk fa e et) as Hn. { intros et H%error_type_spec. congruence. }
    rewrite seen_report. split; [intros ->; by apply ve_unknown|]. intros H. destruct H as [H|H1 H2|et name pos at_ H1 H2|et name pos v ev H1 H2]; try done; by destruct (Hn et).
Qed.

(** ** Calls *)
Lemma seen_ctor range cal args ev : seen ev (extractErrorCodeFromConstructorCall pk fa fn range cal args) <->
  exists o p, cal = Some o /\ fa_ctor fa !! o = Some p /\
    match args with
    | None => ev = says (node_id range) (str "unsupported use of error constructor " ++ quoted (ti_objname info o))
    | Some l => match l !! p with Some a => string_event pk fa fn a ev | None => ev = Crashed end
    end.
Proof.
  unfold extractErrorCodeFromConstructorCall. destruct cal as [o|]; [|split; [by intros ?%seen_none|by intros (?&?&?&_)]].
  destruct (fa_ctor fa !! o) as [p|] eqn:Ep; [|split; [by intros ?%seen_none|intros (?&?&[= <-]&?&_); congruence]].
  destruct args as [l|].
  - destruct (l !! p) as [a|] eqn:Ea.
    + rewrite seen_string. split; [intros H; exists o, p; by rewrite Ea|]. intros (o'&p'&[= <-]&H&?). rewrite Ep in H. injection H as <-. by rewrite Ea in *.
    + rewrite seen_panic. split; [intros H; exists o, p; by rewrite Ea|]. intros (o'&p'&[= <-]&H&?). rewrite Ep in H. injection H as <-. by rewrite Ea in *.
  - rewrite seen_report. split; [intros ->; exists o, p; done|]. by intros (o'&p'&[= <-]&H&?).
Qed.

(** The part common to calls and function values: what follows the declared and the constant codes. *)
Definition lookup_effect (lambdas : ident -> eff diag) (conversion : eff diag) (calledFunction e : node) : eff diag :=
  match as_ident e with
  | Some i =>
    match i_obj i with
    | None =>
      match lk_functions lk !! i_name i with
      | Some g => EffCallEdge g
      | None => report (i_id i) (str "function " ++ quoted (i_name i) ++ str " in dot-imported package does not declare error codes")
      end
    | Some o =>
      match ob_decl (obj_of pk o) with
      | DFunc g => EffCallEdge g
      | DType => conversion
      | _ => lambdas i
      end
    end
  | None =>
    match as_selector e with
    | Some (x, sel) =>
      match (match as_ident (unparen x) with Some t => ti_pkgname info (i_id t) | None => None end) with
      | Some pkg_name =>
        report (node_id e) (str "function " ++ quoted (i_name sel) ++ str " in package " ++ quoted pkg_name
           ++ str " does not declare error codes")
      | None =>
        match ti_selection info (node_id e) with
        | None => EffPanic
        | Some (_, recv) => call_function (searchMethod pk lk recv (i_name sel)) calledFunction
        end
      end
    | None =>
      match as_funclit e with
      | Some g => EffCallEdge g
      | None => report (node_id e) (str "invalid error source: definition of the unnamed function could not be found")
      end
    end
  end.
Definition conversion_effect (call : option (node * list node)) : eff diag :=
  match call with Some (c, _) => extractErrorCodesFromAffector pk fa fn c | None => eff_none end.
Lemma seen_function_call lambdas f cal call ev :
  seen ev (findErrorCodesFromFunctionCall pk lk fa lambdas fn f cal call) <->
  seen ev (extractErrorCodeFromConstructorCall pk fa fn f cal (snd <$> call)) \/
  ((forall s, ~ declares fa cal s) /\ (call <> None -> cal = None -> forall s, ~ conversion_codes pk fa f s) /\
   seen ev (lookup_effect lambdas (conversion_effect call) f (unparen f))).
Proof.
  unfold findErrorCodesFromFunctionCall.
  set (ctor := extractErrorCodeFromConstructorCall pk fa fn f cal (snd <$> call)). clearbody ctor.
  destruct (match cal with Some o => fa_codes fa !! o | None => None end) as [codes|] eqn:Ec.
  { apply declares_spec in Ec. rewrite seen_union. split; [intros [?|?%seen_set]; [by left|done]|].
    intros [?|(H&_)]; [by left|by destruct (H codes)]. }
  assert (forall s, ~ declares fa cal s) as Hnd. { intros s H%declares_spec. congruence. }
  case_decide as Hconv.
  { assert (call <> None /\ cal = None) as [H1 H2]. { destruct call as [[]|], cal; try done. }
    rewrite seen_union. split; [intros [?|?%seen_set]; [by left|done]|].
    intros [?|(_&H&_)]; [by left|]. exfalso. destruct call; [|done]. rewrite H2 in Hconv. apply conversion_spec in Hconv as [s Hs]. by destruct (H H1 H2 s). }
  assert (call <> None -> cal = None -> forall s, ~ conversion_codes pk fa f s) as Hnc.
  { intros H1 H2 s Hs. rewrite H2 in Hconv. destruct call; [|done]. assert (extractErrorCodesFromTypeConversion pk fa f <> ∅) as Hx by (apply conversion_spec; eauto). tauto. }
  assert (forall x, seen ev ctor \/ seen ev x <->
    seen ev ctor \/ (forall s, ~ declares fa cal s) /\ (call <> None -> cal = None -> forall s, ~ conversion_codes pk fa f s) /\ seen ev x) as Hgoal.
  { intros x. tauto. }
  rewrite <-Hgoal. clear Hgoal Hconv. unfold lookup_effect, conversion_effect.
  destruct (as_ident (unparen f)) as [i|].
  { destruct (i_obj i) as [o|].
    - destruct (ob_decl (obj_of pk o)); rewrite ?seen_union, ?seen_discard; try done.
      destruct call as [[c l]|]; rewrite ?seen_union, ?seen_discard; [done|]. split; [by left|]. by intros [?|?%seen_none].
    - destruct (lk_functions lk !! i_name i); by rewrite ?seen_union, ?seen_discard. }
  destruct (as_selector (unparen f)) as [[x sel]|].
  { destruct (match as_ident (unparen x) with Some t => _ | None => None end); [by rewrite seen_union, seen_discard|].
    destruct (ti_selection info (node_id (unparen f))) as [[]|]; by rewrite seen_union, ?seen_discard. }
  destruct (as_funclit (unparen f)); by rewrite seen_union, ?seen_discard.
Qed.
Lemma seen_lookup lambdas conversion f e ev :
  seen ev (lookup_effect lambdas conversion f e) <->
  lookup_event pk lk (node_id f) e ev \/
  (exists i o, as_ident e = Some i /\ i_obj i = Some o /\ ob_decl (obj_of pk o) = DType /\ seen ev conversion) \/
  (exists i, function_variable pk e i /\ seen ev (lambdas i)) \/
  (as_ident e = None /\ as_selector e = None /\ as_funclit e = None /\
   ev = says (node_id e) (str "invalid error source: definition of the unnamed function could not be found")).
Proof.
  unfold lookup_effect. destruct (as_ident e) as [i|] eqn:Ei.
  - assert (as_selector e = None) as Hns by (apply as_ident_node in Ei as [kids ->]; done).
    assert (forall sel, ~ value_selector pk e sel) as Hv by (intros sel (x&?&_); congruence).
    assert (forall sel p, ~ package_selector pk e sel p) as Hp by (intros sel p (x&t&?&_); congruence).
    destruct (i_obj i) as [o|] eqn:Eo.
    + assert (~ lookup_event pk lk (node_id f) e ev) as Hl.
      { intros H. destruct H as [i' H1 H2 H3|sel p H|sel H|sel o' r H]; [congruence|by destruct (Hp sel p)|by destruct (Hv sel)|by destruct (Hv sel)]. }
      destruct (ob_decl (obj_of pk o)) as [g| | |] eqn:Ed.
      * split; [by intros ?%seen_call|].
        intros [?|[(i'&o'&?&?&?&_)|[(i'&(H1&o'&H2&H3&_)&_)|(?&_)]]]; try done; [congruence|].
        assert (i' = i) as -> by congruence. destruct (H3 g). congruence.
      * split; [intros H; right; left; eauto 10|].
        intros [?|[(i'&o'&?&?&?&?)|[(i'&(H1&o'&H2&_&H3)&_)|(?&_)]]]; try done.
        assert (i' = i) as -> by congruence. destruct H3. congruence.
      * assert (function_variable pk e i) as Hfv. { split; [done|]. exists o. by rewrite Ed. }
        split; [intros H; right; right; left; eauto|].
        intros [?|[(i'&o'&?&?&?&?)|[(i'&(H1&_)&?)|(?&_)]]]; try done; [congruence|].
        assert (i' = i) as -> by congruence. done.
      * assert (function_variable pk e i) as Hfv. { split; [done|]. exists o. by rewrite Ed. }
        split; [intros H; right; right; left; eauto|].
        intros [?|[(i'&o'&?&?&?&?)|[(i'&(H1&_)&?)|(?&_)]]]; try done; [congruence|].
        assert (i' = i) as -> by congruence. done.
    + assert (forall (A B C D : Prop), (A \/ (exists i' o, Some i = Some i' /\ i_obj i' = Some o /\ ob_decl (obj_of pk o) = DType /\ B) \/
        (exists i, function_variable pk e i /\ seen ev (lambdas i)) \/ (Some i = None /\ C)) <-> A) as Hsimp.
      { intros A B C D. split; [|by left]. intros [?|[(?&?&[= <-]&?&_)|[(?&(?&?&?&_)&_)|(?&_)]]]; congruence. }
      rewrite Hsimp by exact True. clear Hsimp. destruct (lk_functions lk !! i_name i) as [g|] eqn:Eg.
      * split; [by intros ?%seen_call|]. intros H.
        destruct H as [i' H1 H2 H3|sel p H|sel H|sel o' r H]; [congruence|by destruct (Hp sel p)|by destruct (Hv sel)|by destruct (Hv sel)].
      * rewrite seen_report. split; [intros ->; by apply lo_dot|]. intros H.
        destruct H as [i' H1 H2 H3|sel p H|sel H|sel o' r H]; [congruence|by destruct (Hp sel p)|by destruct (Hv sel)|by destruct (Hv sel)].
  - destruct (as_selector e) as [[x sel]|] eqn:Es.
    + assert (forall (A B C : Prop), (A \/ (exists i o, None = Some i /\ i_obj i = Some o /\ ob_decl (obj_of pk o) = DType /\ B) \/
        (exists i, function_variable pk e i /\ seen ev (lambdas i)) \/ (@None ident = None /\ Some (x, sel) = None /\ C)) <-> A) as Hsimp.
      { intros A B C. split; [|by left]. intros [?|[(?&?&?&_)|[(?&(?&_)&_)|(?&?&_)]]]; congruence. }
      rewrite Hsimp. clear Hsimp.
      destruct (match as_ident (unparen x) with Some t => _ | None => None end) as [pkg|] eqn:Ep.
      * assert (package_selector pk e sel pkg) as Hp.
        { destruct (as_ident (unparen x)) as [t|] eqn:Et; [|done]. exists x, t. done. }
        rewrite seen_report. split; [intros ->; by apply lo_package|]. intros H.
        destruct H as [i' H1 H2 H3|sel' p (x'&t&H1&H2&H3)|sel' (x'&H1&H2)|sel' o' r (x'&H1&H2)].
        -- congruence.
        -- rewrite Es in H1. injection H1 as <- <-. rewrite H2 in Ep. congruence.
        -- rewrite Es in H1. injection H1 as <- <-. destruct Hp as (?&t&Hx&Ht&?). rewrite Es in Hx. injection Hx as <-. rewrite (H2 t Ht) in *. done.
        -- rewrite Es in H1. injection H1 as <- <-. destruct Hp as (?&t&Hx&Ht&?). rewrite Es in Hx. injection Hx as <-. rewrite (H2 t Ht) in *. done.
      * pose proof (proj1 (pkgname_spec pk x) Ep) as Epp.
        assert (value_selector pk e sel) as Hv by (exists x; done).
        assert (forall sel', value_selector pk e sel' -> sel' = sel) as Huniq by (intros sel' (?&?&_); congruence).
        assert (forall sel' p, ~ package_selector pk e sel' p) as Hp.
        { intros sel' p (x'&t&H1&H2&H3). rewrite Es in H1. injection H1 as <- <-. rewrite (Epp t H2) in H3. done. }
        destruct (ti_selection info (node_id e)) as [[o recv]|] eqn:Esel.
        -- unfold call_function. destruct (searchMethod pk lk recv (i_name sel)) as [g|] eqn:Eg.
           ++ split; [by intros ?%seen_call|]. intros H.
              destruct H as [i' H1 H2 H3|sel' p H|sel' H|sel' o' r ->%Huniq H1 H2%searchMethod_none]; [congruence|by destruct (Hp sel' p)|congruence|congruence].
           ++ rewrite seen_report. split; [intros ->; pose proof (proj1 (searchMethod_none _ _ _ _) Eg); by eapply lo_method|]. intros H.
              destruct H as [i' H1 H2 H3|sel' p H|sel' H|sel' o' r ->%Huniq H1 H2]; [congruence|by destruct (Hp sel' p)|congruence|done].
        -- rewrite seen_panic. split; [intros ->; by eapply lo_unresolved|]. intros H.
           destruct H as [i' H1 H2 H3|sel' p H|sel' H|sel' o' r ->%Huniq H1 H2]; [congruence|by destruct (Hp sel' p)|done|congruence].
    + assert (~ lookup_event pk lk (node_id f) e ev) as Hl.
      { intros H. destruct H as [i' H1 H2 H3|sel' p (x'&t&H1&H2&H3)|sel' (x'&H1&H2)|sel' o' r (x'&H1&H2)]; congruence. }
      destruct (as_funclit e) as [g|] eqn:Ef.
      * split; [by intros ?%seen_call|]. intros [?|[(?&?&?&_)|[(?&(?&_)&_)|(?&_&?&_)]]]; congruence.
      * rewrite seen_report. split; [intros ->; right; right; right; done|].
        intros [?|[(?&?&?&_)|[(?&(?&_)&_)|(?&_&?&?)]]]; congruence.
Qed.
Lemma seen_lambda_assignment i a ev :
  seen ev (findErrorCodesInLambdaAssignment pk lk fa (fun _ => EffPanic) fn i a) <-> function_value_event pk lk fa i (unparen a) ev.
Proof.
  unfold findErrorCodesInLambdaAssignment. pose proof (unparen_idem a) as Hid. set (e := unparen a) in *. clearbody e.
  destruct (as_funclit e) as [g|] eqn:Ef.
  { split; [by intros ?%seen_direct|]. assert (~ is_name e) as Hn.
    { intros [H|H]; destruct e as [id k kids]; destruct k; done. }
    intros H. destruct H as [o p H|ev H|j _ (?&_)|_ H]; try done; [destruct Hn; left; congruence|congruence]. }
  assert (is_name e -> as_funclit e = None -> seen ev (findErrorCodesFromFunctionCall pk lk fa (fun _ => EffPanic) fn e (value_object pk e) None) <->
    function_value_event pk lk fa i e ev) as Hmain.
  { intros Hn _. rewrite seen_function_call, seen_ctor, Hid, seen_lookup. cbn [fmap option_fmap option_map conversion_effect]. split.
    - intros [(o&p&H1&H2&->)|(H1&_&[H|[(?&?&_&_&_&H)|[(j&H2&->%seen_panic)|(H2&H3&_)]]])].
      + by eapply fe_constructor.
      + by apply fe_lookup.
      + by apply seen_none in H.
      + by eapply fe_impossible.
      + exfalso. destruct Hn; congruence.
    - intros H. destruct H as [o p H1 H2 H3|ev H1 H2 H3|j H1 H2|H _]; [left; eauto|right|right|done].
      + split_and!; [done|done|by left].
      + split_and!; [done|done|]. right. right. left. exists j. split; [done|]. by apply seen_panic. }
  destruct (as_ident e) as [r|] eqn:Er.
  { rewrite <-Hmain; [|left; congruence|done]. unfold value_object. by rewrite Er. }
  destruct (as_selector e) as [[x sel]|] eqn:Es.
  { rewrite <-Hmain; [|right; congruence|done]. unfold value_object. by rewrite Er, Es. }
  assert (~ is_name e) as Hn by (intros [?|?]; congruence).
  rewrite seen_report. split; [intros ->; by apply fe_unsupported|].
  intros H. destruct H as [o p H|ev H|j _ (?&_)|_ H]; try done. congruence.
Qed.

Context (body : node) (Hbody : fn_body fn = Some body) (Hscoped : scoped pk fn).
Lemma seen_lambdas i ev : not_closure_param pk fn i ->
  seen ev (findErrorCodesFromAllAssignedLambdas pk lk fa fn i) <-> variable_call_event pk lk fa fn i ev.
Proof.
  intros Hi. unfold findErrorCodesFromAllAssignedLambdas, all_assigned_lambdas.
  destruct (taintSpread_exact pk fn None Hscoped body Hbody ∅ i Hi) as (Hok&_&He&Hd&Ho).
  set (r := taintSpread pk fn None ∅ i) in *. clearbody r. rewrite Hok. cbn [negb].
  rewrite !seen_union, !seen_map. split.
  - intros [(j&Hj&->%seen_report)|[(d&Hx&->%seen_report)|(x&Hx&H)]].
    + apply la_origin. by apply Ho.
    + apply Hd in Hx as (o&?&?). by eapply la_several.
    + apply He in Hx as (o&?&?). apply seen_lambda_assignment in H. by eapply la_value.
  - intros H. destruct H as [j H|o d H1 H2|o e ev H1 H2 H3].
    + left. exists j. split; [by apply Ho|]. by apply seen_report.
    + right. left. exists d. split; [apply Hd; eauto|]. by apply seen_report.
    + right. right. exists e. split; [apply He; eauto|]. by apply seen_lambda_assignment.
Qed.
Lemma seen_call_expr e f args ev : good_call pk fn e -> as_call e = Some (f, args) ->
  seen ev (findErrorCodesInCallExpression pk lk fa fn e) <-> call_event pk lk fa fn e f args ev.
Proof.
  intros Hg Hc. unfold findErrorCodesInCallExpression. rewrite Hc, seen_function_call, seen_ctor, seen_lookup.
  cbn [fmap option_fmap option_map snd conversion_effect]. fold (function_object pk f). split.
  - intros [(o&p&H1&H2&H3)|(H1&H2&H)].
    + destruct (args !! p) as [a|] eqn:Ea; [by eapply ce_constructor|]. subst. by eapply ce_no_argument.
    + specialize (H2 ltac:(done)). destruct H as [H|[(i&o&H3&H4&H5&H6%seen_affector)|[(i&H3&H4)|(H3&H4&H5&->)]]].
      * by apply ce_lookup.
      * by eapply ce_conversion.
      * eapply ce_variable; [done|done|done|]. apply seen_lambdas; [|done]. by eapply Hg.
      * by apply ce_unnamed.
  - intros H. destruct H as [o p a ev H1 H2 H3 H4|o p H1 H2 H3|i o ev H1 H2 H3 H4 H5 H6|i ev H1 H2 H3 H4|ev H1 H2 H3|H1 H2 H3 H4 H5].
    + left. exists o, p. rewrite H3. done.
    + left. exists o, p. rewrite H3. done.
    + right. split_and!; [done|done|]. right. left. exists i, o. rewrite seen_affector. done.
    + right. split_and!; [done|done|]. right. right. left. exists i. split; [done|]. apply seen_lambdas; [|done]. by eapply Hg.
    + right. split_and!; [done|done|]. by left.
    + right. split_and!; [done|done|]. right. right. right. done.
Qed.

(** ** Expressions *)
Lemma seen_leaf e ev : good_call pk fn (unparen e) -> (forall i, ~ root pk e i) ->
  seen ev (leaf pk lk fa fn e) <-> source_event pk lk fa fn (unparen e) ev.
Proof.
  intros Hg Hr. unfold leaf.
  assert (forall i, root_ident pk e <> Some i) as Hri by (intros i; rewrite root_ident_spec; apply Hr). unfold root_ident in Hri.
  destruct (unparen e) as [id k kids]. clear Hr.
  assert (forall x, address_of_error pk (Node id k kids) x -> exists t, k = KUnary true /\ kids = [x] /\ ti_type info id = Some t /\ ti_implements_error info t = true) as Haddr.
  { intros x (id'&[= <- -> ->]&t&?&?). eauto. }
  assert (forall at_ m, (seen ev (report at_ m) <-> source_event pk lk fa fn (Node id k kids) ev) <-> (ev = says at_ m <-> source_event pk lk fa fn (Node id k kids) ev)) as Hrep.
  { intros. by rewrite seen_report. }
  Local Ltac absurd_source := intros H; destruct H as [f' args' ev H1|x' ev H1 H2|id' el' ev H1|id' kd' ev H1|id' b' x' H1 H2|id' kd' H1|id' t' kd' H1|id' kd' H1|id' k' kd' H1 H2|id' H1];
    try discriminate H1; try (destruct H1 as (?&H1&_); discriminate H1).
  destruct k; try (apply Hrep; split; [intros ->; eapply so_other; [reflexivity|exact Logic.I]|absurd_source; injection H1 as <- <- <-; done]).
  - by destruct (Hri (Ident id name obj)).
  - apply Hrep. split.
    + intros ->. eapply so_other; [reflexivity|]. destruct (as_selector (Node id KSelector kids)) as [[x sel]|] eqn:Es; [|done].
      destruct kids as [|a [|[id2 k2 kids2] [|]]]; try done. destruct k2; try done. by destruct (Hri (Ident id2 name obj)).
    + absurd_source. by injection H1 as <- <- <-.
  - destruct kids as [|f args].
    + cbn [findErrorCodesInCallExpression as_call]. unfold findErrorCodesInCallExpression. cbn [as_call]. rewrite seen_panic. split.
      * intros ->. by eapply so_malformed.
      * absurd_source; [|done]. injection H1 as <- <- <-. done.
    + rewrite (seen_call_expr _ f args) by done. split; [by apply so_call|].
      absurd_source; [|by injection H1 as <- <- <-]. cbn in H1. by injection H1 as <- <-.
  - destruct kids as [|x [|y kids]].
    + apply Hrep. split; [intros ->; by eapply so_other|]. absurd_source. by injection H1 as <- <- <-.
    + cbn [node_id]. destruct (is_and && match ti_type info id with Some t => ti_implements_error info t | None => false end) eqn:Ea.
      * apply andb_true_iff in Ea as [-> Et]. destruct (ti_type info id) as [t|] eqn:Ety; [|done].
        assert (address_of_error pk (Node id (KUnary true) [x]) x) as Had by (exists id; eauto).
        rewrite Et in Hri. rewrite seen_affector. split.
        -- intros H. eapply so_address; [exact Had| |done]. destruct (as_ident (unparen x)) as [i|] eqn:Ei; [|done]. by destruct (Hri i).
        -- absurd_source; [done| |by injection H1 as <- <- <-]. injection H1 as <- <- <-. done.
      * assert (forall x', ~ address_of_error pk (Node id (KUnary is_and) [x]) x') as Hna.
        { intros x' H. apply Haddr in H as (t&[= ->]&_&Ht&Hi). rewrite Ht, Hi in Ea. done. }
        apply Hrep. split.
        -- intros ->. by eapply so_unary.
        -- absurd_source; [by destruct (Hna x')|by injection H1 as <- <- <-|by injection H1 as <- <- <-].
    + apply Hrep. split; [intros ->; by eapply so_other|]. absurd_source. by injection H1 as <- <- <-.
  - rewrite seen_affector. split; [by eapply so_composite|]. absurd_source; [done|by injection H1 as <- <- <-].
  - rewrite seen_affector. split; [by eapply so_literal|]. absurd_source; [done|by injection H1 as <- <- <-].
  - destruct typ as [t|]; apply Hrep; (split; [intros ->; by econstructor|absurd_source; by simplify_eq]).
  - apply Hrep. split; [intros ->; by econstructor|]. absurd_source; by simplify_eq.
Qed.

Lemma seen_dest d ev : good_call pk fn (unparen (de_source d)) -> seen ev (dest_leaf pk lk fa fn d) <-> several_event pk lk fa fn d ev.
Proof.
  intros Hg. unfold dest_leaf. set (e := unparen (de_source d)) in *.
  destruct (as_call e) as [[f args]|] eqn:Ec.
  - assert (match e with
      | Node _ KCall (f :: _) =>
        match ti_type info (node_id f) with
        | Some (TSignature _ results _) =>
          if decide (S (de_position d) = length results) then findErrorCodesInCallExpression pk lk fa fn e
          else report (i_id (de_target d)) (str "unsupported: tracking error codes for function call with error as non-last return argument")
        | _ => EffPanic
        end
      | _ => EffPanic
      end = match ti_type info (node_id f) with
        | Some (TSignature _ results _) =>
          if decide (S (de_position d) = length results) then findErrorCodesInCallExpression pk lk fa fn e
          else report (i_id (de_target d)) (str "unsupported: tracking error codes for function call with error as non-last return argument")
        | _ => EffPanic
        end) as ->.
    { clearbody e. destruct e as [id k kids]. destruct k; try done. destruct kids as [|f' args']; [done|]. by injection Ec as -> ->. }
    assert ((forall ps rs v, ti_type info (node_id f) <> Some (TSignature ps rs v)) -> seen ev EffPanic <-> several_event pk lk fa fn d ev) as Hno.
    { intros Hn. rewrite seen_panic. split; [intros ->; by eapply de_no_signature|]. intros H.
      destruct H as [f' args' ps rs v ev H1 H2|f' args' ps rs v H1 H2|f' args' H1 H2|H]; try done.
      - fold e in H1. rewrite Ec in H1. injection H1 as <- <-. by destruct (Hn ps rs v).
      - fold e in H1. rewrite Ec in H1. injection H1 as <- <-. by destruct (Hn ps rs v). }
    destruct (ti_type info (node_id f)) as [[]|] eqn:Et; try (by apply Hno). clear Hno.
    case_decide as Hp.
    + rewrite (seen_call_expr e f args) by done. split; [intros H; eapply de_last; try done|]. intros H.
      destruct H as [f' args' ps rs v ev H1 H2 H3 H4|f' args' ps rs v H1 H2 H3|f' args' H1 H2|H]; try fold e in H1; try fold e in H.
      * rewrite Ec in H1. by injection H1 as <- <-.
      * rewrite Ec in H1. injection H1 as <- <-. congruence.
      * rewrite Ec in H1. injection H1 as <- <-. by destruct (H2 params results variadic).
      * congruence.
    + rewrite seen_report. split; [intros ->; eapply de_not_last; try done|]. intros H.
      destruct H as [f' args' ps rs v ev H1 H2 H3 H4|f' args' ps rs v H1 H2 H3|f' args' H1 H2|H]; try fold e in H1; try fold e in H.
      * rewrite Ec in H1. injection H1 as <- <-. congruence.
      * done.
      * rewrite Ec in H1. injection H1 as <- <-. by destruct (H2 params results variadic).
      * congruence.
  - assert (match e with
      | Node _ KCall (f :: _) =>
        match ti_type info (node_id f) with
        | Some (TSignature _ results _) =>
          if decide (S (de_position d) = length results) then findErrorCodesInCallExpression pk lk fa fn e
          else report (i_id (de_target d)) (str "unsupported: tracking error codes for function call with error as non-last return argument")
        | _ => EffPanic
        end
      | _ => EffPanic
      end = EffPanic) as ->.
    { clearbody e. destruct e as [id k kids]. destruct k; try done. by destruct kids as [|f' args']. }
    rewrite seen_panic. split; [intros ->; by apply de_no_call|]. intros H.
    destruct H as [f' args' ps rs v ev H1 H2 H3 H4|f' args' ps rs v H1 H2 H3|f' args' H1 H2|H]; unfold e in *; congruence.
Qed.
Lemma seen_bad_origin i ev : seen ev (bad_origin fn i) <-> ev = says (i_id i) (origin_message fn).
Proof. unfold bad_origin. rewrite seen_report. by unfold origin_message. Qed.

Lemma seen_expr_effects e ev : good_call pk fn (unparen e) ->
  (exists y, expr_effects pk lk fa fn e y /\ seen ev y) <-> expr_event pk lk fa fn e ev.
Proof.
  intros Hg. split.
  - intros (y&[[Hr ->]|(i&Hr&Hu&->)]&Hy).
    + apply xe_source; [done|]. by apply seen_leaf.
    + apply seen_bad_origin in Hy as ->. by apply xe_origin.
  - intros H. destruct H as [ev Hr H|i Hr Hu].
    + eexists. split; [left; split; [done|reflexivity]|]. by apply seen_leaf.
    + eexists. split; [right; exists i; split_and!; [done|done|reflexivity]|]. by apply seen_bad_origin.
Qed.
Lemma seen_obj_effects o ev :
  (forall e, linked pk fn o e -> good_call pk fn (unparen e)) ->
  (forall d, assigned_several pk fn o d -> good_call pk fn (unparen (de_source d))) ->
  (exists y, obj_effects pk lk fa fn o y /\ seen ev y) <-> variable_event pk lk fa fn o ev.
Proof.
  intros Hg1 Hg2. split.
  - intros (y&[(e&Hl&He)|[(d&Hd&Ha&->)|(j&Hj&Hu&->)]]&Hy).
    + eapply va_expr; [exact Hl|]. apply seen_expr_effects; eauto.
    + eapply va_several; [exact Hd| |].
      * intros id t x E. assert (asserted d = Some x) by (apply asserted_spec; eauto). congruence.
      * apply seen_dest; eauto.
    + apply seen_bad_origin in Hy as ->. by apply va_origin.
  - intros H. destruct H as [e ev Hl He|d ev Hd Ha He|j Hj Hu].
    + apply seen_expr_effects in He as (y&?&?); [|eauto]. exists y. split; [left; eauto|done].
    + eexists. split; [right; left; exists d; split_and!; [done| |reflexivity]|by apply seen_dest; eauto].
      destruct (asserted d) as [x|] eqn:E; [|done]. apply asserted_spec in E as (id&t&E). by destruct (Ha id t x).
    + eexists. split; [right; right; exists j; split_and!; [done|done|reflexivity]|]. by apply seen_bad_origin.
Qed.

(** ** The error code parameter *)
Lemma seen_constructor ev : (forall i, constructor_param pk fa fn i -> not_closure_param pk fn i) ->
  seen ev (ectractErrorCodesFromConstructor pk fa fn) <-> constructor_event pk fa fn ev.
Proof.
  intros Hp. unfold ectractErrorCodesFromConstructor.
  destruct (importErrorConstructorFact pk fa fn) as [p|] eqn:Ef.
  2: { split; [by intros ?%seen_none|]. 
       intros H. destruct H as [p H%constructor_fact_spec|i j (p&?&_)%constructor_param_spec|i o d (p&?&_)%constructor_param_spec|i o e ev (p&?&_)%constructor_param_spec]; congruence. }
  destruct (getParamIdent (fn_type fn) p) as [i|] eqn:Ei.
  2: { rewrite seen_panic. split; [intros ->; eapply co_unnamed; [by apply constructor_fact_spec|by apply getParamIdent_none]|].
       intros H. destruct H as [p' H%constructor_fact_spec _|i j (p'&?&?)%constructor_param_spec|i o d (p'&?&?)%constructor_param_spec|i o e ev (p'&?&?)%constructor_param_spec]; congruence. }
  assert (constructor_param pk fa fn i) as Hi by (apply constructor_param_spec; exists p; done).
  assert (forall i', constructor_param pk fa fn i' -> i' = i) as Huniq by (intros i' (p'&?&?)%constructor_param_spec; congruence).
  destruct (taintSpread_exact pk fn (i_obj i) Hscoped body Hbody ∅ i (Hp i Hi)) as (Hok&_&He&Hd&Ho).
  set (r := taintSpread pk fn (i_obj i) ∅ i) in *. clearbody r. rewrite Hok. cbn [negb].
  rewrite !seen_union, !seen_map. split.
  - intros [(j&Hj&->%seen_report)|[(d&Hx&->%seen_report)|(x&Hx&H)]].
    + eapply co_origin; [done|]. by apply Ho.
    + apply Hd in Hx as (o&?&?). by eapply co_several.
    + apply He in Hx as (o&?&?). apply seen_string in H. by eapply co_value.
  - intros H. destruct H as [p' H1 H2|i' j ->%Huniq H|i' o d ->%Huniq H1 H2|i' o e ev ->%Huniq H1 H2 H3].
    + apply constructor_fact_spec in H1. apply getParamIdent_none in H2. congruence.
    + left. exists j. split; [by apply Ho|]. by apply seen_report.
    + right. left. exists d. split; [apply Hd; eauto|]. by apply seen_report.
    + right. right. exists e. split; [apply He; eauto|]. by apply seen_string.
Qed.

(** ** Assignments to code fields *)
Definition entry_event (rhs : list node) (same : bool) (k : nat) (ev : event) : Prop :=
  (same = false /\ match rhs with
     | r :: _ => ev = says (node_id r) (str "error code has to be constant value or error code parameter")
     | [] => ev = Crashed
     end) \/
  (same = true /\ exists r, rhs !! k = Some r /\ string_event pk fa fn r ev).
Notation ET xi := (getErrorTypeForError fa (ti_type info (i_id xi))).
Notation ft := (field_target pk fa).
Lemma ft_cons o l lhs k f et : ft o (l :: lhs) (S k) f et <-> ft o lhs k f et.
Proof. done. Qed.
Lemma ft_zero o l lhs f et x sel xi : as_selector l = Some (x, sel) -> as_ident x = Some xi -> i_obj xi = Some o ->
  ft o (l :: lhs) 0 f et <-> i_name sel = f /\ ET xi = inl (Some et).
Proof.
  intros H1 H2 H3. unfold getErrorTypeForError. split.
  - intros (l'&xi'&sel'&i&t&n&[= <-]&Hs&Hf&Hi&Ho&Ht&Hn&He). rewrite H1 in Hs. injection Hs as <- <-. rewrite H2 in Hi. injection Hi as <-.
    rewrite Ht, Hn, He. done.
  - intros [Hf He]. destruct (ti_type info (i_id xi)) as [t|] eqn:Et; [|done]. destruct (getNamedType t) as [n|] eqn:En; [|done].
    injection He as He. exists l, x, sel, xi, t, n. done.
Qed.
Lemma ft_target o lhs k f et : ft o lhs k f et -> exists l xi, l ∈ lhs /\ target o l xi /\ ET xi = inl (Some et).
Proof.
  intros (x&xi&sel&i&t&n&Hk&Hs&Hf&Hi&Ho&Ht&Hn&He). exists x, i. split_and!; [by eapply elem_of_list_lookup_2|exists xi, sel; done|].
  unfold getErrorTypeForError. by rewrite Ht, Hn, He.
Qed.
Lemma seen_field_lhs o rhs same i lhs et ev :
  (forall l l' xi xj, l ∈ lhs -> l' ∈ lhs -> target o l xi -> target o l' xj -> ti_type info (i_id xi) = ti_type info (i_id xj)) ->
  (forall et', et = Some et' -> forall l xi, l ∈ lhs -> target o l xi -> ET xi = inl (Some et')) ->
  (same = true -> length rhs = i + length lhs) ->
  seen ev (code_field_lhs pk fa fn o rhs same i lhs et) <->
  (exists k f et' pos, ft o lhs k f et' /\ et_field et' = Some (f, pos) /\ entry_event rhs same (i + k) ev) \/
  (ev = Crashed /\ match et with
     | Some et' => et_field et' = None /\ exists k f et'', ft o lhs k f et''
     | None => exists k k' f f' et1 et2, ft o lhs k f et1 /\ ft o lhs k' f' et2 /\ k <> k' /\ et_field et1 = None
     end).
Proof.
  revert i et. induction lhs as [|l lhs IH]; intros i et Hty Het Hlen.
  { cbn [code_field_lhs]. split; [by intros ?%seen_none|]. assert (forall k f et', ~ ft o [] k f et') as Hno.
    { intros k f et' (?&?&?&?&?&?&?&_). by rewrite lookup_nil in *. }
    intros [(k&f&et'&pos&H&_)|[_ H]]; [by apply Hno in H|].
    destruct et; [destruct H as (_&k&f&et''&H)|destruct H as (k&?&f&?&et1&?&H&_)]; by apply Hno in H. }
  assert (forall et', (forall et'', et' = Some et'' -> forall l xi, l ∈ lhs -> target o l xi -> ET xi = inl (Some et'')) ->
    seen ev (code_field_lhs pk fa fn o rhs same (S i) lhs et') <->
    (exists k f et' pos, ft o lhs k f et' /\ et_field et' = Some (f, pos) /\ entry_event rhs same (i + S k) ev) \/
    (ev = Crashed /\ match et' with
       | Some et' => et_field et' = None /\ exists k f et'', ft o lhs k f et''
       | None => exists k k' f f' et1 et2, ft o lhs k f et1 /\ ft o lhs k' f' et2 /\ k <> k' /\ et_field et1 = None
       end)) as IH'.
  { intros et' H. rewrite IH.
    - assert (forall k, S i + k = i + S k) as E by (intros; lia). by setoid_rewrite E.
    - intros l1 l2 xi xj H1 H2. apply Hty; by right.
    - done.
    - intros Hs. rewrite (Hlen Hs). cbn. lia. }
  clear IH.
  assert (forall et'', et = Some et'' -> forall l xi, l ∈ lhs -> target o l xi -> ET xi = inl (Some et'')) as Het2.
  { intros et'' -> l' xi Hl'. apply Het; [done|by right]. }
  (* entries that are no field of [o] *)
  assert ((forall f et', ~ ft o (l :: lhs) 0 f et') ->
    seen ev (code_field_lhs pk fa fn o rhs same (S i) lhs et) <->
    (exists k f et' pos, ft o (l :: lhs) k f et' /\ et_field et' = Some (f, pos) /\ entry_event rhs same (i + k) ev) \/
    (ev = Crashed /\ match et with
       | Some et' => et_field et' = None /\ exists k f et'', ft o (l :: lhs) k f et''
       | None => exists k k' f f' et1 et2, ft o (l :: lhs) k f et1 /\ ft o (l :: lhs) k' f' et2 /\ k <> k' /\ et_field et1 = None
       end)) as Hskip.
  { intros H0. rewrite IH' by done. split.
    - intros [(k&f&et'&pos&H)|[-> H]]; [left; exists (S k), f, et', pos; done|right]. split; [done|]. destruct et.
      + destruct H as (?&k&f&et''&?). split; [done|]. exists (S k), f, et''. done.
      + destruct H as (k&k'&f&f'&et1&et2&?&?&?&?). exists (S k), (S k'), f, f', et1, et2. split_and!; try done. congruence.
    - intros [([|k]&f&et'&pos&H&H2)|[-> H]]; [by apply H0 in H|left; exists k, f, et', pos; done|right]. split; [done|]. destruct et.
      + destruct H as (?&[|k]&f&et''&H); [by apply H0 in H|]. split; [done|]. exists k, f, et''. done.
      + destruct H as ([|k]&[|k']&f&f'&et1&et2&H1&H2&?&?); [by apply H0 in H1|by apply H0 in H1|by apply H0 in H2|].
        exists k, k', f, f', et1, et2. split_and!; try done. congruence. }
  cbn [code_field_lhs].
  destruct (as_selector l) as [[x sel]|] eqn:Es.
  2: { apply Hskip. intros f et' (?&?&?&?&?&?&[= <-]&?&_). congruence. }
  destruct (as_ident x) as [xi|] eqn:Ex.
  2: { apply Hskip. intros f et' (?&?&?&?&?&?&[= <-]&H&_&?&_). rewrite Es in H. injection H as <- <-. congruence. }
  case_decide as Ho.
  { apply Hskip. intros f et' (?&?&?&?&?&?&[= <-]&H&_&H2&?&_). rewrite Es in H. injection H as <- <-. congruence. }
  assert (i_obj xi = Some o) as Hxo by (destruct (decide (i_obj xi = Some o)); tauto). clear Ho.
  assert (target o l xi) as Htg by (exists x, sel; done).
  pose proof (fun f et' => ft_zero o l lhs f et' x sel xi Es Ex Hxo) as Hz.
  assert (forall et', ET xi = inl (Some et') -> forall l' xj, l' ∈ lhs -> target o l' xj -> ET xj = inl (Some et')) as Hsame.
  { intros et' H l' xj Hl' Hx. rewrite <-(Hty l l' xi xj); [done|by left|by right|done|done]. }
  assert (forall et' k f et2, ET xi = inl (Some et') -> ft o (l :: lhs) k f et2 -> et2 = et') as Hall.
  { intros et' [|k] f et2 He H; [apply Hz in H as [_ H]; congruence|]. apply (ft_target o lhs k) in H as (l'&xj&Hl'&Hx&E).
    rewrite (Hsame et' He l' xj Hl' Hx) in E. congruence. }
  (* the check, for a known error type with or without field *)
  assert (forall et', ET xi = inl (Some et') -> et = Some et' \/ (et = None /\ et_field et' <> None) ->
    seen ev (match et_field et' with
       | None => EffPanic
       | Some (fname, _) =>
         if decide (fname <> i_name sel) then code_field_lhs pk fa fn o rhs same (S i) lhs (Some et')
         else if negb same then
           match rhs with
           | r :: _ => EffUnion (report (node_id r) (str "error code has to be constant value or error code parameter"))
                         (code_field_lhs pk fa fn o rhs same (S i) lhs (Some et'))
           | [] => EffPanic
           end
         else match rhs !! i with
              | Some r => EffUnion (extractErrorCodeFromStringExpression pk fa fn r) (code_field_lhs pk fa fn o rhs same (S i) lhs (Some et'))
              | None => EffPanic
              end
       end) <->
    (exists k f et' pos, ft o (l :: lhs) k f et' /\ et_field et' = Some (f, pos) /\ entry_event rhs same (i + k) ev) \/
    (ev = Crashed /\ match et with
       | Some et' => et_field et' = None /\ exists k f et'', ft o (l :: lhs) k f et''
       | None => exists k k' f f' et1 et2, ft o (l :: lhs) k f et1 /\ ft o (l :: lhs) k' f' et2 /\ k <> k' /\ et_field et1 = None
       end)) as Hcheck.
  { intros et' He Hcase.
    assert (forall et'', Some et' = Some et'' -> forall l xi, l ∈ lhs -> target o l xi -> ET xi = inl (Some et'')) as Hpass.
    { intros et'' [= <-] l' xj. by apply Hsame. }
    destruct (et_field et') as [[fname fpos]|] eqn:Efl.
    2: { destruct Hcase as [->|[_ ?]]; [|done]. rewrite seen_panic. split.
         - intros ->. right. split_and!; [done|done|]. exists 0, (i_name sel), et'. by apply Hz.
         - intros [(k&f&et2&pos&H&H2&_)|[-> _]]; [|done]. rewrite (Hall et' k f et2 He H) in H2. congruence. }
    assert (~ match et with
       | Some et' => et_field et' = None /\ exists k f et'', ft o (l :: lhs) k f et''
       | None => exists k k' f f' et1 et2, ft o (l :: lhs) k f et1 /\ ft o (l :: lhs) k' f' et2 /\ k <> k' /\ et_field et1 = None
       end) as Hno.
    { destruct Hcase as [->|[-> _]]; [intros [? _]; congruence|]. intros (k&k'&f&f'&et1&et2&H1&_&_&H2).
      rewrite (Hall et' k f et1 He H1) in H2. congruence. }
    assert (seen ev (code_field_lhs pk fa fn o rhs same (S i) lhs (Some et')) <->
      exists k f et' pos, ft o lhs k f et' /\ et_field et' = Some (f, pos) /\ entry_event rhs same (i + S k) ev) as IHs.
    { rewrite IH' by done. split; [|by left]. intros [?|(_&?&_)]; [done|congruence]. }
    clear IH' Hskip.
    assert ((exists k f et2 pos, ft o (l :: lhs) k f et2 /\ et_field et2 = Some (f, pos) /\ entry_event rhs same (i + k) ev) <->
      (fname = i_name sel /\ entry_event rhs same i ev) \/
      (exists k f et2 pos, ft o lhs k f et2 /\ et_field et2 = Some (f, pos) /\ entry_event rhs same (i + S k) ev)) as Hsplit.
    { split.
      - intros ([|k]&f&et2&pos&H1&H2&H3).
        + left. pose proof (Hall et' 0 f et2 He H1) as ->. apply Hz in H1 as [<- _]. rewrite Nat.add_0_r in H3. rewrite Efl in H2. injection H2 as ->. done.
        + right. eauto 10.
      - intros [[-> H]|(k&f&et2&pos&?&?&?)]; [|exists (S k), f, et2, pos; done].
        exists 0, (i_name sel), et', fpos. rewrite Nat.add_0_r. split_and!; [by apply Hz|done|done]. }
    assert (forall A B : Prop, ((A \/ (B /\ match et with
       | Some et' => et_field et' = None /\ exists k f et'', ft o (l :: lhs) k f et''
       | None => exists k k' f f' et1 et2, ft o (l :: lhs) k f et1 /\ ft o (l :: lhs) k' f' et2 /\ k <> k' /\ et_field et1 = None
       end)) <-> A)) as Hdrop by (intros; tauto).
    rewrite Hdrop, Hsplit. clear Hdrop Hsplit Hno.
    destruct (decide (fname <> i_name sel)) as [Hn|Hn%dec_stable].
    { rewrite IHs. tauto. }
    destruct same; cbn [negb].
    - destruct (rhs !! i) as [r|] eqn:Er.
      + rewrite seen_union, seen_string, IHs. unfold entry_event. split.
        * intros [?|?]; [left|by right]. split; [done|]. right. eauto.
        * intros [[_ [[? _]|(_&r'&?&?)]]|?]; [done|left; congruence|by right].
      + apply lookup_ge_None in Er. specialize (Hlen eq_refl). cbn in Hlen. lia.
    - destruct rhs as [|r rhs].
      + rewrite seen_panic. split.
        * intros ->. left. split; [done|]. by left.
        * intros [[_ [[_ ?]|[? _]]]|(?&?&?&?&_&_&[[_ ?]|[? _]])]; done.
      + rewrite seen_union, seen_report, IHs. split.
        * intros [->|?]; [left|by right]. split; [done|]. by left.
        * intros [[_ [[_ ?]|[? _]]]|?]; [by left|done|by right]. }
  destruct et as [et'|].
  { apply Hcheck; [|by left]. eapply Het; [done|by left|done]. }
  destruct (ET xi) as [[et'|]|] eqn:Eg.
  - specialize (Hcheck et' eq_refl). destruct (et_field et') as [[fname fpos]|] eqn:Efl.
    + apply Hcheck. right. done.
    + rewrite IH'.
      2:{ intros et'' [= <-] l' xj Hl' Hx. by eapply Hsame. }
      split.
      * intros [(k&f&et2&pos&H&H2&_)|(->&_&k&f&et2&H)].
        -- rewrite (Hall et' (S k) f et2 eq_refl H) in H2. congruence.
        -- right. split; [done|]. exists 0, (S k), (i_name sel), f, et', et2. split_and!; [by apply Hz|done|done|done].
      * intros [(k&f&et2&pos&H&H2&_)|(->&k&k'&f&f'&et1&et2&H1&H2&H3&H4)].
        -- rewrite (Hall et' k f et2 eq_refl H) in H2. congruence.
        -- right. split_and!; [done|done|]. destruct k as [|k]; [|exists k, f, et1; done]. destruct k' as [|k']; [done|]. exists k', f', et2. done.
  - apply Hskip. intros f et' H. apply Hz in H as [_ ?]. congruence.
  - apply Hskip. intros f et' H. apply Hz in H as [_ ?]. congruence.
Qed.

Context (Htyped : typed pk fn).
Lemma seen_code_fields order ev :
  seen ev (findCodesAssignedToErrorCodeFields pk fa fn order) <-> exists o, o ∈ order /\ field_event pk fa fn o ev.
Proof.
  unfold findCodesAssignedToErrorCodeFields, findCodesAssignedToErrorCodeField. rewrite seen_map, Hbody.
  apply exist_proper. intros o. apply and_iff_compat_l. rewrite seen_all.
  assert (forall lhs rhs, (lhs, rhs) ∈ assigns_pruned body ->
    seen ev (code_field_lhs pk fa fn o rhs (bool_decide (length lhs = length rhs)) 0 lhs None) <->
    (exists k f et' pos, ft o lhs k f et' /\ et_field et' = Some (f, pos) /\ entry_event rhs (bool_decide (length lhs = length rhs)) k ev) \/
    (ev = Crashed /\ exists k k' f f' et1 et2, ft o lhs k f et1 /\ ft o lhs k' f' et2 /\ k <> k' /\ et_field et1 = None)) as Hlhs.
  { intros lhs rhs Hin. rewrite seen_field_lhs; [done| |done|].
    - intros l l' xi xj Hl Hl' (x&sel&H1&H2&H3) (x'&sel'&H1'&H2'&H3').
      apply assigns_pruned_walk in Hin as (m&Hm&Ha).
      eapply (Htyped m lhs rhs l l' x x' sel sel' xi xj); try done.
      + unfold body_nodes. by rewrite Hbody.
      + congruence.
      + congruence.
    - intros H%bool_decide_eq_true. cbn. congruence. }
  split.
  - intros (z&Hz&H). apply elem_of_list_fmap in Hz as ([lhs rhs]&->&Hin).
    apply (Hlhs lhs rhs Hin) in H as [(k&f&et'&pos&H1&H2&[[Hs H3]|[Hs (r&Hr&H3)]])|(->&k&k'&f&f'&et1&et2&Ht1&Ht2&Hk&Hf)]; apply assigns_pruned_spec in Hin.
    + apply bool_decide_eq_false in Hs. destruct rhs as [|r rhs]; subst ev; [by eapply fd_nothing|by eapply fd_several].
    + apply bool_decide_eq_true in Hs. by eapply fd_value.
    + exact (fd_twice pk fa fn o body lhs rhs k k' f f' et1 et2 Hbody Hin Ht1 Ht2 Hk Hf).
  - assert (forall lhs rhs, (lhs, rhs) ∈ assigns_pruned body ->
      seen ev (code_field_lhs pk fa fn o rhs (bool_decide (length lhs = length rhs)) 0 lhs None) ->
      exists x, x ∈ map (fun '(lhs, rhs) => code_field_lhs pk fa fn o rhs (bool_decide (length lhs = length rhs)) 0 lhs None) (assigns_pruned body) /\ seen ev x) as Hin2.
    { intros lhs rhs Hin H. eexists. split; [|exact H]. apply elem_of_list_fmap. exists (lhs, rhs). done. }
    intros H. destruct H as [b lhs rhs k et name pos r rs Hb Hin Hft Hf Hl Hr|b lhs k et name pos Hb Hin Hft Hf|b lhs rhs k et name pos r ev Hb Hin Hft Hf Hl Hr Hs|b lhs rhs k k' f f' et et' Hb Hin H1 H2 H3 H4];
      rewrite Hbody in Hb; injection Hb as <-; apply assigns_pruned_spec in Hin; apply (Hin2 _ _ Hin), Hlhs; try done.
    + left. exists k, name, et, pos. split_and!; [done|done|]. left. split; [by apply bool_decide_eq_false|]. by subst.
    + left. exists k, name, et, pos. split_and!; [done|done|]. left. split; [|done]. apply bool_decide_eq_false.
      destruct Hft as (x&?&?&?&?&?&Hk&_). by destruct lhs.
    + left. exists k, name, et, pos. split_and!; [done|done|]. right. split; [by apply bool_decide_eq_true|]. eauto.
    + right. split; [done|]. exists k, k', f, f', et, et'. done.
Qed.
End events.

(** ** Functions *)
Section function.
Context (pk : package) (lk : lookup_table) (fa : facts) (fn : func) (body : node) (Hbody : fn_body fn = Some body) (Hus : usable pk fa fn).

Lemma var_linked_good o e : error_var pk fn o -> linked pk fn o e -> good_call pk fn (unparen e).
Proof. intros Ho Hl. eapply usable_call; [done|]. right. eauto. Qed.
Lemma var_several_good o d : error_var pk fn o -> assigned_several pk fn o d -> good_call pk fn (unparen (de_source d)).
Proof. intros Ho Hd. eapply usable_call; [done|]. right. exists o. split; [done|]. right. eauto. Qed.

Theorem function_events order ev : (forall s o, o ∈ order s <-> o ∈ s) ->
  seen ev (function_effect pk lk fa order fn) <-> function_event pk lk fa fn ev.
Proof.
  intros Hord. pose proof (us_scoped _ _ _ Hus) as Hscoped.
  rewrite (function_observed pk lk fa fn order _ (observe_seen ev)).
  rewrite (returns_observed pk lk fa fn body Hbody Hus _ (observe_seen ev)).
  rewrite (seen_constructor pk fa fn body Hbody Hscoped ev (us_param _ _ _ Hus)).
  rewrite (seen_code_fields pk fa fn body Hbody (us_typed _ _ _ Hus)).
  setoid_rewrite Hord. setoid_rewrite (visited_error_vars pk lk fa fn body Hbody Hscoped Hus).
  split.
  - intros [H|[[(s&y&Hs&Hf&Hy)|[(s&y&Hs&(Hov&Hf)&Hy)|(o&y&Ho&Hf&Hy)]]|(o&Ho&H)]].
    + by apply fu_constructor.
    + apply (fu_return _ _ _ _ s); [done|]. destruct Hf as [(d&Hd&->)|(a&Ha&[[_ ->]|[_ ->]])].
      * apply seen_report in Hy as ->. destruct (annotated_model (pk_comments pk (node_id s))) as (q&ds&Hq&E). rewrite E in Hd.
        replace (annotation_message d) with (annotation_error_text d) by by destruct d. by apply (re_annotation _ _ _ _ _ q ds).
      * by apply seen_set in Hy.
      * by apply seen_set in Hy.
    + apply (fu_return _ _ _ _ s); [done|]. destruct Hf as [(e&Hr&He)|[Hn ->]].
      * eapply re_expr; [done|done|]. apply seen_expr_effects with body; eauto. eapply usable_call; [done|]. left. eauto.
      * apply seen_panic in Hy as ->. by apply re_nothing.
    + eapply fu_variable; [done|]. apply seen_obj_effects with body; eauto using var_linked_good, var_several_good.
    + by eapply fu_field.
  - intros H. destruct H as [ev H|s ev Hs H|o ev Ho H|o ev Ho H].
    + by left.
    + right. left. destruct H as [q ds d Hq Hd|e ev Hov Hr He|Hov Hn].
      * apply annotated_spec in Hq. left. exists s. eexists. split_and!; [done|left; exists d; split; [by rewrite Hq|reflexivity]|].
        apply seen_report. by destruct d.
      * right. left. apply seen_expr_effects with (body := body) in He as (y&?&?); [|done|done|eapply usable_call; [done|]; left; eauto].
        exists s, y. split_and!; [done| |done]. split; [done|]. left. eauto.
      * right. left. exists s, EffPanic. split_and!; [done| |by apply seen_panic]. split; [done|]. right. done.
    + right. left. right. right. apply seen_obj_effects with (body := body) in H as (y&?&?); eauto using var_linked_good, var_several_good.
    + right. right. eauto.
Qed.
End function.
