(** * C45: documentation does not influence the analysis of code (error types, interfaces, facts). *)
From Coq Require Import Ascii String.
From stdpp Require Import base list gmap relations sets.
From Verif Require Import GoString ErrorCode Scc Engine CodeSet Annotation Constant GoAst Taint Extract Analyse Phase ErrorTypes Claims Interfaces Conversions
  Verify SpecRun SpecClaims SpecInterfaces PhaseProofs ClaimsProofs FactProofs RunProofs InterfacesProofs PropInterfaces PropFacts PropOrder
  ArrangeProofs ArrangePhases SpecRedoc RedocProofs.

Section types.
Context (pk : package) (docs : fid -> option gostring).
Notation pk' := (with_docs docs pk).
Notation info := (pk_info pk).

Lemma receiver_field_redoc f : receiver_field pk' f = receiver_field pk f.
Proof.
  unfold receiver_field. rewrite funcs_redoc. destruct (pk_funcs pk !! f) as [fn|]; [|done]. cbn [fmap option_fmap option_map redoc fn_decl].
  by destruct (fn_decl fn).
Qed.
Lemma method_of_redoc err f : is_method_of pk' err f = is_method_of pk err f.
Proof. unfold is_method_of. by rewrite receiver_field_redoc. Qed.
Lemma receiver_ident_redoc f : receiver_ident pk' f = receiver_ident pk f.
Proof. unfold receiver_ident. by rewrite receiver_field_redoc. Qed.
Lemma code_func_redoc lk err : getCodeFuncFromError pk' lk err = getCodeFuncFromError pk lk err.
Proof.
  unfold getCodeFuncFromError. destruct (lk_methods lk !! str "Code") as [l|]; [|done].
  assert (list_find (fun f => is_method_of pk' err f = true) l = list_find (fun f => is_method_of pk err f = true) l) as ->.
  { induction l as [|f l IH]; [done|]. cbn [list_find]. destruct (decide (is_method_of pk err f = true)) as [H|H].
    - rewrite decide_True; [done|]. by rewrite method_of_redoc.
    - rewrite decide_False; [by rewrite IH|]. by rewrite method_of_redoc. }
  destruct (list_find _ l) as [[k f]|]; [|done]. cbn. by rewrite receiver_ident_redoc.
Qed.
Lemma methods_redoc lk err : collectMethodsForErrorType pk' lk err = collectMethodsForErrorType pk lk err.
Proof.
  unfold collectMethodsForErrorType. destruct (getNamedType err) as [n|]; [|done]. change (pk_info pk') with info.
  induction (ti_named_methods info n) as [|name l IH]; [done|]. cbn [flat_map]. rewrite IH. f_equal.
  induction (default [] (lk_methods lk !! name)) as [|f k IHk]; [done|]. cbn [List.filter]. by rewrite method_of_redoc, IHk.
Qed.
Lemma type_methods_redoc lk fa et err : analyseMethodsOfErrorType pk' lk fa et err = analyseMethodsOfErrorType pk lk fa et err.
Proof.
  unfold analyseMethodsOfErrorType. destruct (et_field et); [|done]. rewrite methods_redoc.
  rewrite (fold_phase_same _ (fun assigned f => match receiver_ident pk f with
      | None => pret assigned
      | Some r => match pk_funcs pk !! f, i_obj r with
          | Some fn, Some o => pbind (eff_result (findCodesAssignedToErrorCodeField pk fa fn (Some et) o)) (fun new => pret (assigned ∪ new))
          | _, _ => pret assigned end end)); [done|].
  intros s f. rewrite receiver_ident_redoc. destruct (receiver_ident pk f) as [r|]; [|done]. rewrite funcs_redoc.
  destruct (pk_funcs pk !! f) as [fn|]; [|done]. cbn [fmap option_fmap option_map]. destruct (i_obj r) as [o|]; [|done]. by rewrite assigned_redoc.
Qed.
Lemma name_redoc d fn : func_name (redoc d fn) = func_name fn.
Proof. unfold func_name. cbn [redoc fn_decl]. by destruct (fn_decl fn). Qed.
Lemma ident_taint_redoc d fn rec rec' i st : (forall n st, rec n st = rec' n st) ->
  analyseReturnedIdentTaint pk' (redoc d fn) rec i st = analyseReturnedIdentTaint pk fn rec' i st.
Proof.
  intros H. unfold analyseReturnedIdentTaint. rewrite taint_redoc. cbv zeta. destruct (negb _); [done|].
  destruct (peach _ _) as [[? ?]| |]; cbn [pbind]; [|done|done]. destruct (peach _ _) as [[? ?]| |]; cbn [pbind]; [|done|done].
  rewrite (fold_phase_same _ (fun st e => rec' e st)); [done|]. intros; apply H.
Qed.
Lemma expression_redoc d fn r k n st : analyseReturnedExpression pk' (redoc d fn) r k n st = analyseReturnedExpression pk fn r k n st.
Proof.
  revert n st. induction k as [|k IH]; intros n st; [done|]. cbn [analyseReturnedExpression]. cbv zeta. rewrite name_redoc.
  change (pk_info pk') with (pk_info pk).
  destruct (ti_value (pk_info pk) (node_id (unparen n))) as [v|]; [done|].
  match goal with |- match ?x with _ => _ end = _ => destruct x as [sel|] end; [done|].
  destruct (as_ident (unparen n)) as [i|]; [|done]. by apply ident_taint_redoc.
Qed.
Lemma returned_redoc d fn r st n : analyse_return pk' (redoc d fn) r st n = analyse_return pk fn r st n.
Proof.
  unfold analyse_return. destruct (node_kids n) as [|e [|]]; [|apply expression_redoc|done]. unfold analyseNamedReturn.
  change (fn_type (redoc d fn)) with (fn_type fn).
  destruct (ft_results (fn_type fn)) as [[|f [|]]|]; [done| |done|done]. destruct (f_names f) as [|i [|]]; [done| |done].
  apply ident_taint_redoc. intros. apply expression_redoc.
Qed.
Lemma code_method_redoc d fn r t : analyseCodeMethod pk' (redoc d fn) r t = analyseCodeMethod pk fn r t.
Proof. unfold analyseCodeMethod. rewrite (fold_phase_same _ (analyse_return pk fn r)); [done|]. intros. apply returned_redoc. Qed.
Lemma tag_type_redoc lk fa err t : tagErrorType pk' lk fa err t = tagErrorType pk lk fa err t.
Proof.
  unfold tagErrorType. destruct (getNamedType err) as [n|]; [|done]. rewrite code_func_redoc. change (pk_info pk') with info.
  destruct (getCodeFuncFromError pk lk err) as [[f r]|]; [|reflexivity]. rewrite funcs_redoc.
  destruct (pk_funcs pk !! f) as [fn|]; [|reflexivity]. cbn [fmap option_fmap option_map].
  rewrite code_method_redoc. destruct (analyseCodeMethod pk fn r t) as [[[et|] d]| |]; cbn [pbind]; [|reflexivity..].
  rewrite type_methods_redoc. reflexivity.
Qed.
Lemma tag_spec_redoc lk id fa spec : tag_spec pk' lk id fa spec = tag_spec pk lk id fa spec.
Proof.
  unfold tag_spec. destruct spec as [t|]; [|reflexivity]. change (pk_info pk') with info. destruct (ti_defs info (i_id (tsp_name t))) as [o|]; [|reflexivity].
  cbn zeta. destruct (if ti_implements_ree info (ti_objtype info o) then _ else _) as [err|]; [|reflexivity]. rewrite tag_type_redoc. reflexivity.
Qed.
Lemma types_redoc lk fa : findAndTagErrorTypes pk' lk fa = findAndTagErrorTypes pk lk fa.
Proof.
  unfold findAndTagErrorTypes. change (pk_gendecls pk') with (pk_gendecls pk). apply fold_phase_same. intros s g. apply fold_phase_same. intros. apply tag_spec_redoc.
Qed.
Lemma returning_redoc each funcs ds funcs' ds' : findErrorReturningFunctions pk each = Ok (funcs, ds) -> findErrorReturningFunctions pk' each = Ok (funcs', ds') ->
  funcs' = funcs /\ ds' = ds.
Proof.
  intros (_&->&->)%find_returning (_&->&->)%find_returning.
  assert (forall f, returns_error pk' f = returns_error pk f /\ result_reports pk' f = result_reports pk f) as H.
  { intros f. unfold returns_error, result_reports. rewrite funcs_redoc. by destruct (pk_funcs pk !! f). }
  split.
  - induction each as [|f l IH]; [done|]. rewrite !filter_cons. destruct (H f) as [E _].
    destruct (decide (returns_error pk f = true)) as [?|?]; [rewrite decide_True by (by rewrite E)|rewrite decide_False by (by rewrite E)]; by rewrite IH.
  - induction each as [|f l IH]; [done|]. cbn. destruct (H f) as [_ E]. by rewrite IH, E.
Qed.
Lemma object_redoc f o : object_of pk' f o <-> object_of pk f o.
Proof.
  unfold object_of. rewrite funcs_redoc. split.
  - intros (fn&d&Hf&Hd&Ho). destruct (pk_funcs pk !! f) as [gn|]; [|done]. injection Hf as <-. cbn [redoc fn_decl] in Hd.
    destruct (fn_decl gn) as [e|] eqn:E; [|done]. injection Hd as <-. by exists gn, e.
  - intros (fn&d&Hf&Hd&Ho). rewrite Hf. exists (redoc (docs f) fn), (DeclInfo (dc_name d) (dc_recv d) (docs f)). split_and!; [done| |exact Ho].
    cbn [redoc fn_decl]. by rewrite Hd.
Qed.
Lemma definitions_redoc : distinct_definitions pk -> distinct_definitions pk'.
Proof.
  intros H x y o Hx Hy. assert (forall z, defines pk' z o -> defines pk z o) as Hz.
  { intros [f|n|i n]; cbn [defines]; [apply object_redoc|done|done]. }
  by apply (H x y o); apply Hz.
Qed.
Lemma interfaces_redoc : interfaces_ok pk -> interfaces_ok pk'.
Proof. intros [H1 H2 H3]. by constructor. Qed.

Context (strict : bool) (ord ord' : orders) (fa : facts) (r r' : run).
Context (Hord : orders_ok (collectFunctions pk) ord) (Hord' : orders_ok (collectFunctions pk') ord') (Hok : interfaces_ok pk) (Hdd : distinct_definitions pk).
Context (Hr : prepared pk strict ord fa r) (Hr' : prepared pk' strict ord' fa r').
Lemma orders_redoc : orders_ok (collectFunctions pk) ord'.
Proof. rewrite <-(collect_redoc pk docs). exact Hord'. Qed.
Lemma types_agree : r_types r' = r_types r /\ r_d1 r' = r_d1 r.
Proof.
  pose proof (pr_types _ _ _ _ _ Hr) as H. pose proof (pr_types _ _ _ _ _ Hr') as H'. rewrite collect_redoc, types_redoc, H in H'. by injection H' as -> ->.
Qed.
Lemma ifaces_agree : r_ifaces r' = r_ifaces r /\ r_d2 r ≡ₚ r_d2 r'.
Proof.
  pose proof (pr_ifaces _ _ _ _ _ Hr) as H. pose proof (pr_ifaces _ _ _ _ _ Hr') as H'. rewrite (proj1 types_agree) in H'.
  change (findErrorReturningInterfaces pk (r_types r) (or_embedded ord') (or_embedding ord') = Ok (r_ifaces r', r_d2 r')) in H'.
  pose proof (C27_order_independent pk (r_types r) _ _ _ _ Hok (ok_embedded _ _ Hord) (ok_embedded _ _ Hord') (ok_embedding _ _ Hord) (ok_embedding _ _ Hord')) as HI.
  rewrite H, H' in HI. destruct HI as [-> HI]. done.
Qed.
Lemma funcs_agree : r_funcs r ≡ₚ r_funcs r' /\ r_d3 r ≡ₚ r_d3 r'.
Proof.
  pose proof (pr_funcs _ _ _ _ _ Hr) as H. pose proof (pr_funcs _ _ _ _ _ Hr') as H'.
  destruct (findErrorReturningFunctions pk (or_each ord')) as [[fs ds]| |] eqn:E.
  - destruct (returning_redoc _ _ _ _ _ E H') as [-> ->]. apply find_returning in H as (_&->&->), E as (_&->&->).
    assert (or_each ord ≡ₚ or_each ord') as He by (by rewrite (ok_each _ _ Hord), (ok_each _ _ orders_redoc)).
    split; by rewrite He.
  - exfalso. destruct (prepared_other pk strict fa Hok ord ord' r Hord orders_redoc Hr) as [r2 H2]. pose proof (pr_funcs _ _ _ _ _ H2). congruence.
  - exfalso. destruct (prepared_other pk strict fa Hok ord ord' r Hord orders_redoc Hr) as [r2 H2]. pose proof (pr_funcs _ _ _ _ _ H2). congruence.
Qed.
Lemma ctor_during (q : package) o1 r1 : fa_ctor (facts_during q o1 r1) = fa_ctor (facts_after q o1 r1).
Proof. unfold facts_after. by rewrite export_codes_fields. Qed.
Lemma during_redoc : (forall o p, declares_position pk o p <-> declares_position pk' o p) -> facts_during pk' ord' r' = facts_during pk ord r.
Proof.
  intros Hpos.
  assert (fa_ctor (facts_during pk' ord' r') = fa_ctor (facts_during pk ord r)) as Hc.
  { rewrite !ctor_during. apply map_eq. intros o. apply option_eq. intros p.
    rewrite (C30_constructor_facts pk strict ord fa r Hr Hord Hdd).
    rewrite (C30_constructor_facts pk' strict ord' fa r' Hr' Hord' (definitions_redoc Hdd)). by setoid_rewrite Hpos. }
  destruct (prepared_other pk strict fa Hok ord ord' r Hord orders_redoc Hr) as [r2 H2].
  pose proof (during_same pk strict fa Hok Hdd ord ord' r r2 Hord orders_redoc Hr H2) as E.
  destruct (prepared_agree pk strict fa Hok ord ord' r r2 Hord orders_redoc Hr H2) as [A1 A2 _ _ _ _ _].
  revert Hc. rewrite E. unfold facts_during. rewrite !export_ctor_fields, !export_interfaces_fields. cbn [fa_codes fa_ctor fa_type fa_iface].
  rewrite A1, A2, (proj1 types_agree), (proj1 ifaces_agree). intros ->. reflexivity.
Qed.
End types.
