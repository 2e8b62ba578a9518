(** * Proofs: what a function may return, if its dependencies declare other codes. *)
From stdpp Require Import base list gmap relations sets.
From Verif Require Import GoString ErrorCode Scc Engine SpecEngine EngineProofs EngineTheorems CodeSet CodeSetProofs Annotation Constant GoAst Taint Extract
  Analyse SpecCodes SpecTaint SpecMay SpecProgram SpecLocal SpecClaims SpecInterfaces SpecRun Termination Phase ErrorTypes Claims Interfaces Conversions Verify
  ExprProofs MayProofs OwnProofs ProgramProofs ObserveProofs MainLoop PhaseProofs FactProofs ClaimsProofs InterfacesProofs PropInterfaces RunProofs PropFacts RunChecks ArrangePhases SpecGrow IfaceGrow.

Lemma same_sym fa fa' : same_but_codes fa fa' -> same_but_codes fa' fa.
Proof.
  intros (H1&H3&H4&H5). split_and!; [done| | |]; intros o; [destruct (H3 o); by constructor|by rewrite H4|]. specialize (H5 o).
  destruct H5 as [et et' [E1 E2]|]; constructor. split; [done|]. by rewrite E2.
Qed.
Section facts.
Context (pk : package) (lk : lookup_table) (fa fa' : facts) (Hs : same_but_codes fa fa').
Lemma type_here o et' : fa_type fa' !! o = Some et' -> exists et, fa_type fa !! o = Some et /\ same_shape et et'.
Proof. intros H. pose proof (proj2 (proj2 (proj2 Hs)) o) as Ht. rewrite H in Ht. inversion Ht; eauto. Qed.
Lemma type_there o et : fa_type fa !! o = Some et -> exists et', fa_type fa' !! o = Some et' /\ same_shape et et'.
Proof. intros H. pose proof (proj2 (proj2 (proj2 Hs)) o) as Ht. rewrite H in Ht. inversion Ht; eauto. Qed.
Lemma declares_same cal : (forall s, ~ declares fa cal s) -> forall s, ~ declares fa' cal s.
Proof. intros H s (o&E&Ho). destruct (proj2 (proj1 (proj2 (proj2 Hs)) o)) as [s' H']; [eauto|]. by apply (H s'); exists o. Qed.
Lemma no_conversion f (cal : option tobj) : (cal = None -> forall s, ~ conversion_codes pk fa f s) -> cal = None -> forall s, ~ conversion_codes pk fa' f s.
Proof.
  intros H E s (t&n&et'&H1&H2&H3&H4&H5). destruct (type_here _ _ H3) as (et&H3'&_&He). apply (H E (et_codes et)).
  exists t, n, et. split_and!; [done|done|done|done|]. intros H6. apply H5. rewrite <-H4. by apply He.
Qed.
Lemma value_target_grow e g : value_target pk lk fa e g -> value_target pk lk fa' e g.
Proof. intros [id kids ->|H1 H2 H3]; [by eapply vt_literal|]. apply vt_name; [done| |done]. by apply declares_same. Qed.
Lemma call_target_grow fn f g : call_target pk lk fa fn f g -> call_target pk lk fa' fn f g.
Proof.
  intros [H1 H2 H3|i o e H1 H2 H3 H4 H5 H6].
  - apply ct_package; [by apply declares_same| |done]. by apply no_conversion.
  - eapply ct_variable; [by apply declares_same| |done|done|done|by apply value_target_grow]. by apply no_conversion.
Qed.
Lemma passes_on_grow f g : passes_on pk lk fa f g -> passes_on pk lk fa' f g.
Proof. intros (fn&e&?&?&?). exists fn, e. split_and!; [done|done|]. by apply call_target_grow. Qed.
Lemma usable_grow fn : usable pk fa fn -> usable pk fa' fn.
Proof.
  intros [U1 U2 U3 U4 U5]. constructor; try done. intros i. unfold constructor_param, code_parameter. rewrite (proj1 Hs). apply U3.
Qed.
End facts.
Lemma passes_on_same pk lk fa fa' f g : same_but_codes fa fa' -> passes_on pk lk fa f g <-> passes_on pk lk fa' f g.
Proof. intros Hs. split; apply passes_on_grow; [done|by apply same_sym]. Qed.
Lemma passes_rtc pk lk fa fa' f g : same_but_codes fa fa' -> rtc (passes_on pk lk fa) f g -> rtc (passes_on pk lk fa') f g.
Proof. intros Hs. induction 1 as [|x y z H _ IH]; [apply rtc_refl|]. eapply rtc_l; [by apply (passes_on_same pk lk fa fa' x y Hs)|done]. Qed.
Lemma usable_from_grow pk lk fa fa' f : same_but_codes fa fa' -> usable_from pk lk fa f -> usable_from pk lk fa' f.
Proof.
  intros Hs H g gn Hr Hg. apply (passes_rtc pk lk fa' fa f g (same_sym _ _ Hs)) in Hr. destruct (H g gn Hr Hg) as [Hu ?]. split; [|done].
  by apply (usable_grow pk fa fa' Hs).
Qed.
Lemma agree_from_grow pk lk fa fa' f c : same_but_codes fa fa' -> agree_from pk lk fa f c -> agree_from pk lk fa' f c.
Proof. intros Hs H g gn Hr Hg. apply (passes_rtc pk lk fa' fa f g (same_sym _ _ Hs)) in Hr. by apply (H g gn). Qed.

Section codes.
Context (pk : package) (lk : lookup_table) (fa fa' : facts) (c : gostring) (Hs : same_but_codes fa fa') (Hc : still_declares c fa fa').
Notation Hkeys := (proj1 (proj2 (proj2 Hs))).
Lemma declares_still cal s : declares fa cal s -> c ∈ s -> exists s', declares fa' cal s' /\ c ∈ s'.
Proof.
  intros (o&E&H) Hin. destruct (proj1 (Hkeys o)) as [s' H']; [eauto|]. exists s'. split; [by exists o|]. by eapply (proj1 Hc).
Qed.
Lemma declares_some cal s : declares fa cal s -> exists s', declares fa' cal s'.
Proof. intros (o&E&H). destruct (proj1 (Hkeys o)) as [s' H']; [eauto|]. exists s'. by exists o. Qed.
Lemma conversion_grow f s : conversion_codes pk fa f s -> c ∈ s -> exists s', conversion_codes pk fa' f s' /\ c ∈ s'.
Proof.
  intros (t&n&et&H1&H2&H3&H4&H5) Hin. destruct (type_there fa fa' Hs _ _ H3) as (et'&H3'&_). subst s.
  assert (c ∈ et_codes et') as Hin' by by eapply (proj2 Hc). exists (et_codes et'). split; [|done]. exists t, n, et'. split_and!; try done. set_solver.
Qed.
Lemma value_code_grow e : value_code pk fa e c -> value_code pk fa' e c.
Proof.
  intros (t&n&et&H1&H2&H3&H4&H5). destruct (type_there fa fa' Hs _ _ H4) as (et'&H4'&Hf&_). exists t, n, et'. split_and!; try done.
  destruct H5 as [H5|H5]; [left; by eapply (proj2 Hc)|right]. by rewrite Hf.
Qed.

Section M.
Context (M : fid -> gostring -> Prop).
Lemma function_value_grow e : function_value pk lk fa M e c -> function_value pk lk fa' M e c.
Proof.
  intros [id g kids H1 H2|s H1 H2 H3|g H1 H2 H3 H4].
  - exact (fv_literal _ _ _ _ _ _ id g kids H1 H2).
  - destruct (declares_still _ _ H2 H3) as (s'&H2'&H3'). exact (fv_declared _ _ _ _ _ _ s' H1 H2' H3').
  - exact (fv_package _ _ _ _ _ _ g H1 (declares_same fa fa' Hs _ H2) H3 H4).
Qed.
Lemma call_code_grow fn call f args : call_code pk lk fa M fn call f args c -> call_code pk lk fa' M fn call f args c.
Proof.
  intros [s H1 H2|o p a H1 H2 H3 H4 H5|s H1 H2 H3|i o H1 H2 H3 H4 H5 H6|g H1 H2 H3 H4|i o e H1 H2 H3 H4 H5 H6].
  - destruct (declares_still _ _ H1 H2) as (s'&H1'&H2'). exact (cc_declared _ _ _ _ _ _ _ _ _ s' H1' H2').
  - refine (cc_constructor _ _ _ _ _ _ _ _ _ o p a H1 _ H3 H4 _).
    + by rewrite (proj1 Hs).
    + destruct H5 as [[s H5]|[H5|H5]]; [|by right; left|by right; right]. left. by apply (declares_some _ s).
  - destruct (conversion_grow _ _ H2 H3) as (s'&H2'&H3'). exact (cc_conversion _ _ _ _ _ _ _ _ _ s' H1 H2' H3').
  - exact (cc_conversion_value _ _ _ _ _ _ _ _ _ i o (declares_same fa fa' Hs _ H1) (no_conversion pk fa fa' Hs _ _ H2) H3 H4 H5 (value_code_grow _ H6)).
  - exact (cc_package _ _ _ _ _ _ _ _ _ g (declares_same fa fa' Hs _ H1) (no_conversion pk fa fa' Hs _ _ H2) H3 H4).
  - exact (cc_variable _ _ _ _ _ _ _ _ _ i o e (declares_same fa fa' Hs _ H1) (no_conversion pk fa fa' Hs _ _ H2) H3 H4 H5 (function_value_grow _ H6)).
Qed.
Lemma direct_code_grow fn e : direct_code pk lk fa M fn e c -> direct_code pk lk fa' M fn e c.
Proof.
  intros [f args H1 H2|x H1 H2 H3|id elts H1 H2|id kids H1 H2].
  - exact (dc_call _ _ _ _ _ _ _ f args H1 (call_code_grow _ _ _ _ H2)).
  - exact (dc_address _ _ _ _ _ _ _ x H1 H2 (value_code_grow _ H3)).
  - exact (dc_composite _ _ _ _ _ _ _ id elts H1 (value_code_grow _ H2)).
  - exact (dc_literal _ _ _ _ _ _ _ id kids H1 (value_code_grow _ H2)).
Qed.
Lemma expr_code_grow fn e : expr_code pk lk fa M fn e c -> expr_code pk lk fa' M fn e c.
Proof.
  intros [H1|o e' H1 H2 H3|o H1 (d&f&args&ps&rs&v&G1&G2&G3&G4&G5)].
  - exact (ec_direct _ _ _ _ _ _ _ (direct_code_grow _ _ H1)).
  - exact (ec_var _ _ _ _ _ _ _ o e' H1 H2 (direct_code_grow _ _ H3)).
  - refine (ec_several _ _ _ _ _ _ _ o H1 _). exists d, f, args, ps, rs, v. split_and!; try done. by apply call_code_grow.
Qed.
Lemma return_code_grow fn s : return_code pk lk fa M fn s c -> return_code pk lk fa' M fn s c.
Proof.
  intros [e H1 H2 H3|a H1 H2|a b H1 H2|a b e H1 H2 H3 H4].
  - exact (rc_plain _ _ _ _ _ _ _ e H1 H2 (expr_code_grow _ _ H3)).
  - exact (rc_overwrite _ _ _ _ _ _ _ a H1 H2).
  - exact (rc_add _ _ _ _ _ _ _ a b H1 H2).
  - exact (rc_keep _ _ _ _ _ _ _ a b e H1 H2 (expr_code_grow _ _ H3) H4).
Qed.
Lemma own_code_grow fn : own_code pk lk fa M fn c -> own_code pk lk fa' M fn c.
Proof.
  intros [s H1 H2|i o e H1 H2 H3 H4|o H1 H2].
  - exact (oc_return _ _ _ _ _ _ s H1 (return_code_grow _ _ H2)).
  - refine (oc_parameter _ _ _ _ _ _ i o e _ H2 H3 H4). revert H1. unfold constructor_param, code_parameter. by rewrite (proj1 Hs).
  - refine (oc_field _ _ _ _ _ _ o H1 _). destruct H2 as (body&lhs&rhs&k&x&sel&xi&t&n&et&fname&fpos&r&H2). destruct_and! H2.
    match goal with H : fa_type fa !! n = Some et |- _ => destruct (type_there fa fa' Hs _ _ H) as (et'&Het&Hf&_) end.
    exists body, lhs, rhs, k, x, sel, xi, t, n, et', fname, fpos, r. rewrite Hf. split_and!; done.
Qed.
End M.

Lemma may_return_grow f : may_return pk lk fa f c -> may_return pk lk fa' f c.
Proof.
  intros H. assert (forall f c', may_return pk lk fa f c' -> c' = c -> may_return pk lk fa' f c') as G; [|by apply (G f c H)].
  apply (may_return_least pk lk fa (fun f c' => c' = c -> may_return pk lk fa' f c')).
  - intros g fn c' Hg Ho ->. eapply mr_own; [exact Hg|]. apply own_code_grow.
    eapply own_code_mono; [|exact Ho]. intros g' Hg'. by apply Hg'.
  - intros g g' c' [H1 H2] IH ->. eapply mr_recursive; [|by apply IH]. split; by apply (passes_rtc pk lk fa).
Qed.
End codes.

(** ** The phases before the loop *)
Section tag.
Context (pk : package) (lk : lookup_table) (fa fa' : facts) (Hctor : fa_ctor fa' = fa_ctor fa).
Lemma string_expression_same fn e : extractErrorCodeFromStringExpression pk fa' fn e = extractErrorCodeFromStringExpression pk fa fn e.
Proof.
  unfold extractErrorCodeFromStringExpression, checkIfExprIsErrorCodeParam, importErrorConstructorFact. by rewrite Hctor.
Qed.
Lemma code_field_same fn o rhs b i lhs et : code_field_lhs pk fa' fn o rhs b i lhs (Some et) = code_field_lhs pk fa fn o rhs b i lhs (Some et).
Proof.
  revert i et. induction lhs as [|l lhs IH]; intros i et; [done|]. cbn [code_field_lhs].
  repeat first [rewrite IH | rewrite string_expression_same | case_match]; done.
Qed.
Lemma assigned_codes_same fn et o : findCodesAssignedToErrorCodeField pk fa' fn (Some et) o = findCodesAssignedToErrorCodeField pk fa fn (Some et) o.
Proof.
  unfold findCodesAssignedToErrorCodeField. destruct (fn_body fn) as [body|]; [|done]. f_equal. apply map_ext. intros [lhs rhs]. apply code_field_same.
Qed.
Lemma type_methods_same et err : analyseMethodsOfErrorType pk lk fa' et err = analyseMethodsOfErrorType pk lk fa et err.
Proof.
  unfold analyseMethodsOfErrorType. destruct (et_field et); [|done]. erewrite fold_phase_same; [reflexivity|]. cbn beta. intros s f.
  destruct (receiver_ident pk f) as [i|]; [|done]. destruct (pk_funcs pk !! f) as [fn|]; [|done]. destruct (i_obj i) as [o|]; [|done]. by rewrite assigned_codes_same.
Qed.
Lemma tag_type_same err t : tagErrorType pk lk fa' err t = tagErrorType pk lk fa err t.
Proof.
  pose proof type_methods_same as E. unfold tagErrorType. revert E.
  generalize (analyseMethodsOfErrorType pk lk fa') (analyseMethodsOfErrorType pk lk fa) (analyseCodeMethod pk). intros A B code E.
  destruct (getNamedType err) as [n|]; [|done]. destruct (ti_underlying _ n); try done.
  all: destruct (getCodeFuncFromError pk lk err) as [[f rc]|]; [|done]; destruct (pk_funcs pk !! f) as [fn|]; [|done];
    destruct (code fn rc t) as [[[et|] d]| |]; cbn [pbind]; [|done..]; by rewrite E.
Qed.
End tag.


Lemma pfold_sim {A S} (R : S -> S -> Prop) (f g : S -> A -> phase S) l s1 s2 x ds :
  (forall a s1 s2 x ds, R s1 s2 -> f s1 a = Ok (x, ds) -> exists y, R x y /\ g s2 a = Ok (y, ds)) ->
  R s1 s2 -> pfold f s1 l = Ok (x, ds) -> exists y, R x y /\ pfold g s2 l = Ok (y, ds).
Proof.
  intros H. revert s1 s2 ds. induction l as [|a l IH]; intros s1 s2 ds HR; cbn [pfold].
  - intros [= <- <-]. by exists s2.
  - unfold pbind. destruct (f s1 a) as [[s1' d1]| |] eqn:E1; [|done|done]. destruct (pfold f s1' l) as [[x' d2]| |] eqn:E2; [|done|done]. intros [= <- <-].
    destruct (H _ _ _ _ _ HR E1) as (s2'&HR'&->). destruct (IH _ _ _ HR' E2) as (y&HR2&->). by exists y.
Qed.

Section during.
Context (pk : package) (strict : bool) (ord : orders) (fa fa' : facts) (r : run) (Hs : same_but_codes fa fa').
Notation lk := (collectFunctions pk).
Definition matching (x y : facts) : Prop :=
  same_but_codes x y /\ fa_codes x = fa_codes fa /\ fa_codes y = fa_codes fa' /\ forall c, still_declares c fa fa' -> still_declares c x y.
Lemma matching_add n et x y : matching x y -> matching (add_type_fact n et x) (add_type_fact n et y).
Proof.
  intros ((H1&H2&H3&H4)&E1&E2&H5). unfold add_type_fact. split_and!; cbn [fa_codes fa_ctor fa_type fa_iface]; try done.
  - split_and!; try done. cbn [fa_type]. intros o. destruct (decide (o = n)) as [->|Ho]; [|by rewrite !lookup_insert_ne].
    rewrite !lookup_insert. by constructor.
  - intros c Hc. destruct (H5 c Hc) as [G1 G2]. split; [exact G1|]. cbn [fa_type]. intros o e e'. destruct (decide (o = n)) as [->|Ho].
    + rewrite !lookup_insert. by intros [= <-] [= <-].
    + rewrite !lookup_insert_ne by done. apply G2.
Qed.
Lemma types_grow x ds : findAndTagErrorTypes pk lk fa = Ok (x, ds) -> exists y, matching x y /\ findAndTagErrorTypes pk lk fa' = Ok (y, ds).
Proof.
  unfold findAndTagErrorTypes. apply pfold_sim; [|done]. intros g fa1 fa2 x1 d1 HR. apply pfold_sim; [|done]. clear -Hs. intros spec fa1 fa2 x d HR.
  unfold tag_spec. destruct spec as [t|]; [|intros [= <- <-]; by exists fa2]. destruct (ti_defs _ _) as [o|]; [|done]. cbn zeta.
  destruct (if ti_implements_ree _ _ then _ else _) as [err|]; [|intros [= <- <-]; by exists fa2].
  rewrite <-(tag_type_same pk lk fa1 fa2 (proj1 (proj1 HR))).
  destruct (tagErrorType pk lk fa2 err t) as [[[msg|[[n et]|]] d1]| |]; cbn; try done.
  - intros [= <- <-]. by exists fa2.
  - intros [= <- <-]. eexists. split; [by apply matching_add|done].
  - intros [= <- <-]. by exists fa2.
Qed.
Definition changed_run (y : facts) (is : gmap gostring iface) (d2 : list diag) : run :=
  Run y is (r_funcs r) (r_claims r) (r_loop r) (r_end r) (r_d1 r) d2 (r_d3 r) (r_d4 r).
Lemma prepared_grow : prepared pk strict ord fa r -> exists y is d2, matching (r_types r) y /\ (forall n, option_Forall2 like (r_ifaces r !! n) (is !! n)) /\
  prepared pk strict ord fa' (changed_run y is d2).
Proof.
  intros [T I F C]. destruct (types_grow _ _ T) as (y&HR&T'). destruct (interfaces_sim pk (r_types r) y _ (proj1 (proj2 (proj1 HR))) _ _ _ I) as (is&d2&His&I').
  exists y, is, d2. split; [done|]. split; [done|]. constructor; [exact T'|exact I'|exact F|exact C].
Qed.
Lemma codes_grow {A} (key : A -> option (tobj * codeset)) l (m m' : gmap tobj codeset) :
  (forall o, (exists s, m !! o = Some s) <-> (exists s, m' !! o = Some s)) ->
  let ins := foldl (fun m a => match key a with Some (k, v) => <[ k := v ]> m | None => m end) in
  (forall o, (exists s, ins m l !! o = Some s) <-> (exists s, ins m' l !! o = Some s)) /\
  forall c, (forall o s s', m !! o = Some s -> m' !! o = Some s' -> c ∈ s -> c ∈ s') ->
    forall o s s', ins m l !! o = Some s -> ins m' l !! o = Some s' -> c ∈ s -> c ∈ s'.
Proof.
  intros H. cbv zeta. revert m m' H. induction l as [|a l IH]; intros m m' H; [done|]. cbn [foldl]. destruct (key a) as [[k v]|]; [|by apply IH].
  destruct (IH (<[k:=v]> m) (<[k:=v]> m')) as [G1 G2].
  { intros o. destruct (decide (o = k)) as [->|Ho]; [rewrite !lookup_insert; naive_solver|]. rewrite !lookup_insert_ne by done. apply H. }
  split; [exact G1|]. intros c Hc. apply G2. intros o s s'. destruct (decide (o = k)) as [->|Ho].
  - rewrite !lookup_insert. by intros [= <-] [= <-].
  - rewrite !lookup_insert_ne by done. apply Hc.
Qed.
Notation fd := (facts_during pk ord r).
Lemma during_grow y is d2 : matching (r_types r) y -> (forall n, option_Forall2 like (r_ifaces r !! n) (is !! n)) ->
  same_but_codes fd (facts_during pk ord (changed_run y is d2)) /\
  forall c, still_declares c fa fa' -> still_declares c fd (facts_during pk ord (changed_run y is d2)).
Proof.
  intros ((H1&H2&H3&H4)&E1&E2&H5) His.
  unfold facts_during, changed_run. rewrite !export_ctor_fields, !export_interfaces_fields. cbn [r_types r_ifaces r_claims fa_codes fa_ctor fa_type fa_iface].
  rewrite H1, <-(dom_like _ _ His). unfold same_but_codes, still_declares. cbn [fa_codes fa_ctor fa_type fa_iface].
  pose proof (ifaces_like _ _ (or_ifaces ord (dom (r_ifaces r))) His) as Hl. revert Hl.
  generalize (omap (fun n => r_ifaces r !! n) (or_ifaces ord (dom (r_ifaces r)))) (omap (fun n => is !! n) (or_ifaces ord (dom (r_ifaces r)))). intros l l' Hl.
  rewrite !(put_keys (method_key pk)), <-(method_keys pk (or_methods ord) l l' Hl).
  destruct (codes_grow (fun x => x) (method_key pk <$> (l ≫= iface_methods (or_methods ord))) (fa_codes (r_types r)) (fa_codes y) H3) as [G1 G2].
  split; [split_and!; [done|by apply iface_keys|exact G1|exact H4]|]. intros c Hc. destruct (H5 c Hc) as [G3 G4]. split; [apply G2; exact G3|exact G4].
Qed.
End during.
