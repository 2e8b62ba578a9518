(** * C44: the order of the declarations does not matter. *)
From Coq Require Import Ascii String.
From stdpp Require Import base list gmap relations sets.
From Verif Require SpecLookup.
From Verif Require Import GoString ErrorCode Scc Engine SpecEngine EngineProofs CodeSet Annotation Constant GoAst Taint Extract
  Analyse SpecCodes SpecTaint SpecMay SpecProgram SpecClaims SpecInterfaces Termination Phase ErrorTypes Claims Interfaces Conversions Verify SpecRun SpecEnd
  LookupProofs PropLookup ExprProofs ClaimsProofs PhaseProofs RunProofs ProgramProofs MainLoop CheckEngine RunChecks SpecReports PropConversions SpecCrash SpecSites SpecLiterals
  PropFacts PropEnd PropCrash PropOrder SpecArrange ArrangeProofs ArrangePhases.

(** ** The conversions in another order *)
Lemma steps_flat orders (l : list site) : (forall k s, orders k s ≡ₚ elements s) ->
  steps orders (CSite <$> l) ≡ₚ l ≫= fun s => Some <$> site_steps elements s.
Proof.
  intros Ho. induction l as [|s l IH]; [done|]. cbn [fmap list_fmap steps]. change (list_fmap site conv CSite l) with (CSite <$> l).
  change ((s :: l) ≫= ?f) with (f s ++ (l ≫= f)). cbv beta. apply Permutation_app; [|exact IH]. apply fmap_Permutation.
  unfold site_steps. destruct (decide _); [done|]. destruct (s_value s); try done; apply fmap_Permutation, Ho.
Qed.

Section ending.
Context (pk : package) (strict : bool) (ord : orders) (fa : facts) (r : run).
Notation lk := (collectFunctions pk).
Notation fd := (facts_during pk ord r).
Notation fe := (facts_after pk ord r).
Notation plan2 := (plan pk lk fe (or_tracked ord)).
Notation depth := (run_depth pk ord r).
Context (Hord : orders_ok lk ord) (Hr : looped pk strict ord fa r) (Hus : usable_functions pk fd) (Hrec : no_literal_recursion pk lk fd)
  (Hap : literals_apart pk lk fd).
Definition with_end (st : est diag) : run :=
  Run (r_types r) (r_ifaces r) (r_funcs r) (r_claims r) (r_loop r) st (r_d1 r) (r_d2 r) (r_d3 r) (r_d4 r).
Lemma with_end_looped st : looped pk strict ord fa (with_end st).
Proof. destruct Hr as [[] ?]. constructor; [by constructor|done]. Qed.

Lemma checks_rearranged cs cs' st : cs ≡ₚ all_conversions pk fe -> cs' ≡ₚ all_conversions pk fe ->
  check_all pk lk fe plan2 depth (or_checks ord) cs (r_loop r) = Ok st ->
  exists st', check_all pk lk fe plan2 depth (or_checks ord) cs' (r_loop r) = Ok st' /\ e_diags st ≡ₚ e_diags st'.
Proof.
  intros Hcs Hcs' E.
  pose proof (checks_post pk strict ord fa (with_end st) Hord (with_end_looped st) Hus Hrec cs E) as P1.
  destruct (steps_sites pk (or_checks ord) cs (ep_safe _ _ _ _ P1)) as [sites1 Hs1]. subst cs.
  destruct (Permutation_map_inv CSite sites1 (symmetry Hcs)) as (sites&Hs&Hp1).
  change (conversion_sites pk ord r sites) in Hs.
  destruct (Permutation_map_inv CSite sites1 (transitivity Hcs' (symmetry Hcs))) as (sites'&->&Hp'). change (List.map CSite sites') with (CSite <$> sites') in *.
  assert (forall s, s ∈ sites1 <-> s ∈ sites) as Hss1 by (intros s; by rewrite Hp1).
  assert (forall s, s ∈ sites' <-> s ∈ sites) as Hss' by (intros s; by rewrite <-Hp', Hp1).
  assert (sites1 ≡ₚ sites') as Hpp by done.
  assert (steps (or_checks ord) (CSite <$> sites1) ≡ₚ steps (or_checks ord) (CSite <$> sites')) as Hst.
  { rewrite !steps_flat by apply (ok_checks _ _ Hord). by apply bind_perm. }
  set (Q := step_queries pk lk fe (steps (or_checks ord) (CSite <$> sites1))).
  assert (forall g, late_function pk ord r g <-> ~ checked_function pk ord r g /\ exists f, f ∈ Q /\ rtc (passes_on pk lk fe) f g) as Hlate.
  { intros g. split.
    - intros H. split; [apply H|]. by apply (late_query pk ord r Hord sites sites1 Hs Hss1).
    - intros [H1 H2]. by apply (queries_late pk ord r Hord sites sites1 Hs Hss1). }
  destruct (checked_list pk strict ord fa r Hord Hr Hus) as (fs&Hfn&Hfs).
  destruct (late_list pk ord r Hord Hus fs Hfs) as (late&Hln&Hl).
  assert (NoDup ((fs ≫= literal_requests pk fd) ++ (late ≫= literal_requests pk fe))) as Hnd.
  { destruct (lp_once _ _ _ _ _ _ _ (run_loop pk strict ord fa r Hr Hord Hus Hrec)) as (fs1&Hn1&Hf1&Ho1&Hi1).
    destruct (ep_once _ _ _ _ P1) as (fs2&Hn2&Hf2&Ho2&Hi2).
    assert (forall g, g ∈ fs1 <-> checked_function pk ord r g) as Hf1'.
    { intros g. rewrite Hf1. unfold checked_function. by setoid_rewrite (declared_claims pk strict ord fa r Hord Hr). }
    assert (forall g, g ∈ fs2 <-> late_function pk ord r g) as Hf2' by (intros g; rewrite Hf2, Hlate; done).
    assert (fs ≡ₚ fs1) as -> by (apply NoDup_Permutation; [done|done|]; intros g; by rewrite Hfs, Hf1').
    assert (late ≡ₚ fs2) as -> by (apply NoDup_Permutation; [done|done|]; intros g; by rewrite Hl, Hf2').
    rewrite (bind_ext (literal_requests pk fd) (fun g => direct_list (plan pk lk fd (or_tracked ord) g)) fs1)
      by (intros g _; symmetry; by apply plan_requests).
    rewrite (bind_ext (literal_requests pk fe) (fun g => direct_list (plan2 g)) fs2)
      by (intros g _; symmetry; by apply plan_requests, usable_after).
    apply NoDup_app. split_and!; [done| |done]. intros x Hx1%Hi1%Hf1' Hx2%Hi2%Hf2'. by destruct Hx2. }
  destruct (checks_run pk strict ord fa r Hord Hr Hus Hrec sites sites' Hs Hss' fs late Hap Hfs Hl Hnd) as [[st' E']|[(s&m&Hin&Hc&Hm)|(g&Hg&Hp)]].
  2:{ exfalso. pose proof (ep_safe _ _ _ _ P1) as Hsafe. rewrite Forall_forall in Hsafe. apply (Hsafe (Some (s, m))).
      - apply (in_steps pk ord Hord). split; [by apply Hss1|done].
      - split; [by destruct Hc as (_&_&?)|]. by apply LookupProofs.searchMethodType_none. }
  2:{ exfalso. apply Hp. apply Hlate in Hg as [H1 H2]. exact (ep_calm _ _ _ _ P1 g H1 H2). }
  exists st'. split; [exact E'|].
  pose proof (checks_post pk strict ord fa (with_end st') Hord (with_end_looped st') Hus Hrec (CSite <$> sites') E') as P2.
  destruct P1 as [_ _ _ F1 (gs&Hgn&Hgs) D1 _]. destruct P2 as [_ _ _ F2 _ D2 _]. cbn [with_end r_end r_loop] in *.
  change (facts_after pk ord (with_end st)) with fe in *. change (facts_after pk ord (with_end st')) with fe in *.
  change (checked_function pk ord (with_end st)) with (checked_function pk ord r) in *. change (checked_function pk ord (with_end st')) with (checked_function pk ord r) in *.
  set (Q' := step_queries pk lk fe (steps (or_checks ord) (CSite <$> sites'))) in *. fold Q in F1, D1, Hgs.
  assert (forall g, g ∈ Q <-> g ∈ Q') as Hq by (intros g; unfold Q, Q', step_queries; by rewrite Hst).
  assert (forall g, (exists f, f ∈ Q /\ rtc (passes_on pk lk fe) f g) <-> exists f, f ∈ Q' /\ rtc (passes_on pk lk fe) f g) as Hqs
    by (intros g; by setoid_rewrite Hq).
  assert (e_found st = e_found st') as Efe.
  { apply map_eq. intros g. specialize (F1 g). specialize (F2 g). specialize (Hqs g).
    destruct (e_found st !! g) as [s|], (e_found st' !! g) as [s'|]; [|exfalso; tauto|exfalso; tauto|done].
    f_equal. apply set_eq. intros c. destruct F1 as [_ ->], F2 as [_ ->]. done. }
  rewrite (D1 gs Hgn Hgs), (D2 gs Hgn) by (intros g; by rewrite Hgs, <-Hqs). rewrite Efe. do 2 apply Permutation_app_head.
  unfold step_reports. by apply bind_perm.
Qed.
End ending.

(** ** The same iteration orders *)
Section compare.
Context (pk : package) (ds : list fid) (gs : list gendecl) (ts : list topdecl).
Notation pk' := (with_lists pk ds gs ts).
Notation lk := (collectFunctions pk).
Notation lk' := (collectFunctions pk').
Context (Hra : rearranged pk pk') (Hon : declared_once pk) (Hok : interfaces_ok pk) (Hdd : distinct_definitions pk).
Notation Hlk := (lookup_same pk pk' Hra Hon Hdd).

Lemma find_plan fa tr fuel f st :
  find_codes_in_func (plan pk' lk' fa tr) fuel f st = find_codes_in_func (plan pk lk fa tr) fuel f st.
Proof. apply (find_same _ _ ∅); [|set_solver]. intros g _. apply (plan_same pk ds gs ts lk lk' Hlk). Qed.
Lemma verify_plans (P P' : fid -> eff diag) fuel claims todo st :
  (forall f st, find_codes_in_func P' fuel f st = find_codes_in_func P fuel f st) ->
  verify_claims pk' P' fuel claims todo st = verify_claims pk P fuel claims todo st.
Proof.
  intros H. revert st. induction todo as [|f todo IH]; intros st; [exact (eq_refl (Ok st))|]. cbn [verify_claims]. rewrite H.
  change (mismatch_diag pk') with (mismatch_diag pk).
  destruct (match e_found st !! f with Some codes => _ | None => _ end) as [[codes st1]| |]; [apply IH|done|done].
Qed.
Lemma verify_same fa tr fuel claims todo st :
  verify_claims pk' (plan pk' lk' fa tr) fuel claims todo st = verify_claims pk (plan pk lk fa tr) fuel claims todo st.
Proof. apply verify_plans. intros. apply find_plan. Qed.
Lemma fuel_same fa fa' tr : run_fuel pk' lk' fa fa' tr (lookup_all lk') = run_fuel pk lk fa fa' tr (lookup_all lk).
Proof.
  assert (forall fb, program_functions pk' lk' fb tr (lookup_all lk') = program_functions pk lk fb tr (lookup_all lk)) as H.
  { intros fb. unfold program_functions.
    assert (forall (P P' : fid -> eff diag) (l l' : list fid) (D : gset fid), (forall f, P' f = P f) -> l' ≡ₚ l ->
      list_to_set l' ∪ D ∪ list_to_set (elements D ≫= fun f => call_list (P' f)) =@{gset fid} list_to_set l ∪ D ∪ list_to_set (elements D ≫= fun f => call_list (P f))) as E.
    { intros P P' l l' D HP Hl. assert (list_to_set l' =@{gset fid} list_to_set l) as ->.
      { apply set_eq. intros f. rewrite !elem_of_list_to_set. by rewrite Hl. }
      assert ((elements D ≫= fun f => call_list (P' f)) = (elements D ≫= fun f => call_list (P f))) as ->; [|reflexivity].
      apply bind_ext. intros f _. by rewrite HP. }
    apply E; [intros f; apply (plan_same pk ds gs ts lk lk' Hlk)|exact (lookup_all_same pk pk' Hra Hon Hdd)]. }
  unfold run_fuel. by rewrite !H.
Qed.
Lemma check_all_plans (P P' : fid -> eff diag) fa fuel orders cs st :
  (forall f st, find_codes_in_func P' fuel f st = find_codes_in_func P fuel f st) ->
  check_all pk' lk' fa P' fuel orders cs st = check_all pk lk fa P fuel orders cs st.
Proof.
  intros HP.
  assert (forall s st m, check_method pk' lk' fa P' fuel s st m = check_method pk lk fa P fuel s st m) as Hm.
  { intros s st1 m. unfold check_method. destruct (s_iface s !! m); [|reflexivity]. change (conversion_message pk') with (conversion_message pk).
    assert (implemented_codes pk' lk' fa P' fuel (s_value s) m st1 = implemented_codes pk lk fa P fuel (s_value s) m st1) as ->; [|reflexivity].
    unfold implemented_codes. change (searchMethodType pk') with (searchMethodType pk). change (searchMethod pk') with (searchMethod pk).
    rewrite (sl_method _ _ _ Hlk). destruct (searchMethodType pk (s_value s) m); [|reflexivity]. destruct (fa_codes fa !! _); [reflexivity|].
    destruct (searchMethod pk lk (s_value s) m) as [g|]; [|reflexivity]. by rewrite HP. }
  assert (forall s ms st, check_methods pk' lk' fa P' fuel s ms st = check_methods pk lk fa P fuel s ms st) as Hms.
  { intros s ms. induction ms as [|m ms IH]; intros st1; [exact (eq_refl (Ok st1))|]. cbn [check_methods]. rewrite Hm.
    destruct (check_method pk lk fa P fuel s st1 m); [apply IH|reflexivity|reflexivity]. }
  revert st. induction cs as [|[s|] cs IH]; intros st; [exact (eq_refl (Ok st))| |exact (eq_refl Panicked)]. cbn [check_all].
  assert (check_site pk' lk' fa P' fuel (orders (length cs)) s st = check_site pk lk fa P fuel (orders (length cs)) s st) as ->.
  { unfold check_site. destruct (decide _); [reflexivity|]. destruct (s_value s); first [apply Hms|reflexivity]. }
  destruct (check_site pk lk fa P fuel (orders (length cs)) s st); [apply IH|reflexivity|reflexivity].
Qed.
Lemma check_all_same fa tr fuel orders cs st :
  check_all pk' lk' fa (plan pk' lk' fa tr) fuel orders cs st = check_all pk lk fa (plan pk lk fa tr) fuel orders cs st.
Proof. apply check_all_plans. intros. apply find_plan. Qed.
Lemma conversions_same fa : all_conversions pk' fa ≡ₚ all_conversions pk fa.
Proof.
  unfold all_conversions. change (top_conversions pk') with (top_conversions pk). change (pk_top pk') with ts.
  rewrite (ra_top _ _ Hra : ts ≡ₚ pk_top pk). done.
Qed.
Context (strict : bool) (ord : orders) (fa : facts) (Hord : orders_ok lk ord).
Context (Hus : forall r, prepared pk strict ord fa r -> functions_ok pk (facts_during pk ord r)).
Lemma run_same : same_outcome (runVerify pk strict ord fa) (runVerify pk' strict ord fa).
Proof.
  pose proof (C21_terminates pk strict ord fa Hord) as T1.
  pose proof (C21_terminates pk' strict ord fa (proj1 (orders_same pk pk' Hra Hon Hdd ord) Hord)) as T2.
  unfold runVerify in *. pose proof (types_same pk pk' Hra Hon fa) as HT.
  destruct (findAndTagErrorTypes pk lk fa) as [[fa1 d1]| |] eqn:E1; destruct (findAndTagErrorTypes pk' lk' fa) as [[fa1' d1']| |]; try (exfalso; exact HT); [|exact Logic.I].
  destruct HT as [<- Hd1]. cbn [pbind] in *.
  pose proof (interfaces_same pk ds gs ts Hra Hok fa1 (or_embedded ord) (or_embedding ord)) as HI.
  destruct (findErrorReturningInterfaces pk fa1 (or_embedded ord) (or_embedding ord)) as [[ifaces d2]| |] eqn:E2;
    destruct (findErrorReturningInterfaces pk' fa1 (or_embedded ord) (or_embedding ord)) as [[ifaces' d2']| |]; try (exfalso; exact HI); [|exact Logic.I].
  destruct HI as [<- Hd2]. cbn [pbind] in *.
  change (exportInterfaceFacts pk') with (exportInterfaceFacts pk) in *.
  change (findErrorReturningFunctions pk') with (findErrorReturningFunctions pk) in *.
  change (findClaimedErrorCodes pk') with (findClaimedErrorCodes pk) in *.
  change (exportErrorConstructorFacts pk') with (exportErrorConstructorFacts pk) in *.
  change (exportErrorCodeFacts pk') with (exportErrorCodeFacts pk) in *.
  destruct (findErrorReturningFunctions pk (or_each ord)) as [[funcs d3]| |] eqn:E3; [|done|done]. cbn [pbind] in *.
  destruct (findClaimedErrorCodes pk strict funcs) as [[claims d4]| |] eqn:E4; [|done|done]. cbn [pbind] in *.
  rewrite verify_same, fuel_same in *.
  set (r0 := Run fa1 ifaces funcs claims est_start est_start d1 d2 d3 d4).
  assert (prepared pk strict ord fa r0) as Hp by (by constructor). destruct (Hus r0 Hp) as (Hu&Hl&Ha).
  set (fd := exportErrorConstructorFacts pk claims _ _) in *. set (fe := exportErrorCodeFacts pk claims _ fd) in *.
  destruct (verify_claims pk (plan pk lk fd (or_tracked ord)) _ claims _ est_start) as [st| |] eqn:E5; [|done|done].
  rewrite check_all_same in *.
  set (r1 := Run fa1 ifaces funcs claims st st d1 d2 d3 d4).
  assert (looped pk strict ord fa r1) as Hr1 by (constructor; [by constructor|exact E5]).
  pose proof (checks_rearranged pk strict ord fa r1 Hord Hr1 Hu Hl Ha) as Hch.
  pose proof (conversions_same fe) as Hcv.
  set (CA := check_all pk lk fe (plan pk lk fe (or_tracked ord)) _ (or_checks ord)) in *.
  destruct (CA (all_conversions pk fe) st) as [st1| |] eqn:E6; [| |done].
  - destruct (Hch _ (all_conversions pk' fe) st1 (reflexivity _) Hcv E6) as (st2&E7&Hd). change (CA (all_conversions pk' fe) st = Ok st2) in E7. rewrite E7.
    cbn. split; [done|]. rewrite Hd1, Hd2. do 4 apply Permutation_app_head. exact Hd.
  - destruct (CA (all_conversions pk' fe) st) as [st2| |] eqn:E7; [|done|done].
    destruct (Hch _ (all_conversions pk fe) st2 Hcv (reflexivity _) E7) as (st1&E8&_). change (CA (all_conversions pk fe) st = Ok st1) in E8. congruence.
Qed.
End compare.

(** Files and declarations may be handed over in any order, and be iterated over in any order: the same facts are exported, the same
    diagnostics are reported (up to their order), and the analyzer crashes for both or none. *)
Theorem C44_rearranged pk pk' strict ord ord' fa :
  rearranged pk pk' -> orders_ok (collectFunctions pk) ord -> orders_ok (collectFunctions pk') ord' ->
  declared_once pk -> interfaces_ok pk -> distinct_definitions pk -> (forall w n, occurs pk w n -> ~ ill_formed pk w n) ->
  (forall r, prepared pk strict ord fa r -> usable_functions pk (facts_during pk ord r) /\
    no_literal_recursion pk (collectFunctions pk) (facts_during pk ord r) /\ literals_apart pk (collectFunctions pk) (facts_during pk ord r)) ->
  match runVerify pk strict ord fa, runVerify pk' strict ord' fa with
  | Ok (facts, diags), Ok (facts', diags') => facts = facts' /\ diags ≡ₚ diags'
  | Panicked, Panicked => True
  | _, _ => False
  end.
Proof.
  intros Hra Hord Hord' Hon Hok Hdd Hwf Hus.
  assert (orders_ok (collectFunctions pk) ord') as Hord2 by (by apply (orders_same pk pk' Hra Hon Hdd)).
  pose proof (C18_order_independent pk strict ord ord' fa Hord Hord2 Hok Hdd Hwf Hus) as H1.
  pose proof (rearranged_lists _ _ Hra) as Ep.
  assert (same_outcome (runVerify pk strict ord' fa) (runVerify pk' strict ord' fa)) as H2.
  { rewrite Ep. apply run_same; try done; [by rewrite <-Ep|].
    intros r' Hr'. destruct (prepared_other pk strict fa Hok ord' ord r' Hord2 Hord Hr') as [r Hr].
    rewrite <-(during_same pk strict fa Hok Hdd _ _ _ _ Hord Hord2 Hr Hr'). by apply Hus. }
  unfold same_outcome in H2. clear -H1 H2.
  destruct (runVerify pk strict ord fa) as [[f1 d1]| |], (runVerify pk strict ord' fa) as [[f2 d2]| |], (runVerify pk' strict ord' fa) as [[f3 d3]| |]; try done.
  destruct H1 as [-> H1], H2 as [-> H2]. split; [done|]. by rewrite H1.
Qed.
