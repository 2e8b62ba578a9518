(** * C23: exactly when the analyzer crashes. *)
From Coq Require Import Ascii String.
From stdpp Require Import base list gmap relations sets.
From Verif Require SpecLookup LookupProofs PropLookup.
From Verif Require Import GoString ErrorCode Scc Engine SpecEngine EngineProofs EngineTheorems CodeSet CodeSetProofs Annotation Constant GoAst Taint Extract
  Analyse SpecCodes SpecTaint SpecMay SpecProgram SpecEvents SpecClaims Termination Phase PhaseProofs ErrorTypes Claims Interfaces Conversions Verify SpecRun SpecEnd SpecReports
  RunEngine ExprProofs MayProofs OwnProofs ProgramProofs ObserveProofs EventProofs MainLoop FactProofs ClaimsProofs RunProofs CheckEngine RunChecks PropRun PropConversions PropEvents
  EndProofs PropEnd DocParser SpecCodeMethod PropErrorTypes SpecSites PropSites SpecLiterals EngineOnce SafeEngine EdgeProofs SpecCrash.

(** ** Function literals assigned to variables *)
Section requests.
Context (pk : package).
Notation lk := (collectFunctions pk).
Lemma plan_requests known order f : usable_functions pk known -> direct_list (plan pk lk known order f) = literal_requests pk known f.
Proof.
  intros Hus. unfold literal_requests, plan. destruct (pk_funcs pk !! f) as [fn|] eqn:Ef; [|done]. destruct (Hus f fn Ef) as [_ Hb].
  destruct (fn_body fn) as [body|] eqn:Eb; [|done]. unfold function_effect.
  destruct (findErrorCodesInFunctionReturnStmts pk lk known fn) as [c v]. cbn [direct_list].
  by rewrite !(no_direct _ (fields_calls pk known fn body Eb _)).
Qed.
(** The members of the list. *)
Theorem C23_requests known f g : usable_functions pk known -> literals_apart pk lk known ->
  g ∈ literal_requests pk known f <-> exists fn e, pk_funcs pk !! f = Some fn /\ error_call pk fn e /\ literal_call pk known fn e g.
Proof.
  intros Hus Hap. unfold literal_requests. split; [by apply (package_directs pk lk known elements Hus)|]. intros (fn&e&Hf&He&Hl).
  assert (calls (plan pk lk known elements) f g) as Hc.
  { apply (package_calls pk lk known elements Hus). exists fn, e. split_and!; [done|done|]. destruct Hl as [i o a id kids H1 H2 H3 H4 H5 H6].
    eapply ct_variable; [done|done|done|done|done|]. by eapply vt_literal. }
  unfold calls in Hc. rewrite call_split in Hc. apply elem_of_app in Hc as [Hc|Hc]; [|done]. exfalso.
  apply (package_edges pk lk known elements f g Hus) in Hc as (fn'&e'&Hf'&He'&Ho). by apply (proj2 (Hap f fn e g Hf He Hl) f fn' e').
Qed.
Lemma apart_requests known f g : usable_functions pk known -> literals_apart pk lk known -> g ∈ literal_requests pk known f ->
  (forall fn, ~ known_function pk g fn) /\ forall order f', g ∉ edge_list (plan pk lk known order f').
Proof.
  intros Hus Hap (fn&e&Hf&He&Hl)%(C23_requests known f g Hus Hap). destruct (Hap f fn e g Hf He Hl) as [H1 H2]. split; [done|].
  intros order f' (fn'&e'&Hf'&He'&Ho)%(package_edges pk lk known order f' g Hus). by apply (H2 f' fn' e').
Qed.
Lemma no_requests known f : usable_functions pk known -> no_literal_calls pk known -> literal_requests pk known f = [].
Proof.
  intros Hus Hno. destruct (literal_requests pk known f) as [|g l] eqn:E; [done|]. exfalso.
  destruct (package_directs pk lk known elements Hus f g) as (fn&e&Hf&He&Hl); [unfold literal_requests in E; rewrite E; by left|]. by eapply Hno.
Qed.
End requests.
Lemma bind_ext {A B} (F F' : A -> list B) l : (forall x, x ∈ l -> F x = F' x) -> l ≫= F = l ≫= F'.
Proof.
  induction l as [|x l IH]; intros H; [done|]. cbn [mbind list_bind]. f_equal; [apply H; by left|]. apply IH. intros y ?. apply H. by right.
Qed.

Section crash.
Context (pk : package) (strict : bool) (ord : orders) (fa : facts) (r : run).
Notation lk := (collectFunctions pk).
Context (Hord : orders_ok lk ord).
Notation fd := (facts_during pk ord r).
Notation fe := (facts_after pk ord r).
Notation Htr := (tracked_order pk ord Hord).
Notation plan1 := (plan pk lk fd (or_tracked ord)).
Notation plan2 := (plan pk lk fe (or_tracked ord)).

Lemma crash_cause g fa' : usable_functions pk fa' -> ~ no_panic (plan pk lk fa' (or_tracked ord) g) ->
  pk_funcs pk !! g = None \/ exists fn, pk_funcs pk !! g = Some fn /\ function_event pk lk fa' fn Crashed.
Proof.
  intros Hus Hn. destruct (pk_funcs pk !! g) as [fn|] eqn:E; [right|by left].
  destruct (proj1 (plan_panics pk lk fa' (or_tracked ord) Htr Hus g ltac:(by rewrite E)) Hn) as (fn'&Hf&He). rewrite E in Hf. injection Hf as <-. eauto.
Qed.

(** ** The loop *)
Section loop.
Context (Hr : prepared pk strict ord fa r) (Hus : usable_functions pk fd) (Hrec : no_literal_recursion pk lk fd).
Lemma prepared_declared f : f ∈ or_claims ord 1 (dom (r_claims r)) <-> declared_function pk f.
Proof.
  rewrite (claims_order pk ord r Hord). unfold declared_function. split.
  - intros [[codes param] H]. apply (prepared_claims pk strict ord fa r Hr Hord) in H as (fn&?&?&?). exists fn, codes, param. done.
  - intros (fn&codes&param&?&?&?). exists (Claim codes param). apply (prepared_claims pk strict ord fa r Hr Hord). eauto.
Qed.
Lemma prepared_checked g : checked_function pk ord r g <-> exists f, f ∈ or_claims ord 1 (dom (r_claims r)) /\ reaches plan1 f g.
Proof.
  unfold checked_function. split; intros (f&Hf&Hg); exists f; (split; [by apply prepared_declared|]); by apply (package_reaches pk lk fd (or_tracked ord) Hus).
Qed.
Lemma checked_list : exists fs, NoDup fs /\ forall g, g ∈ fs <-> checked_function pk ord r g.
Proof.
  destruct (reachable_list plan1 _ _ (package_finite pk lk fd (or_tracked ord) (or_claims ord 1 (dom (r_claims r))))) as (fs&Hn&Hfs).
  exists fs. split; [done|]. intros g. by rewrite Hfs, prepared_checked.
Qed.
Lemma loop_runs fs : literals_apart pk lk fd -> (forall g, g ∈ fs <-> checked_function pk ord r g) -> NoDup (fs ≫= literal_requests pk fd) ->
  (exists st, verify_claims pk plan1 (run_depth pk ord r) (r_claims r) (or_claims ord 1 (dom (r_claims r))) est_start = Ok st) \/
  exists g, checked_function pk ord r g /\ ~ no_panic (plan1 g).
Proof.
  intros Hap Hfs Hnd. set (todo := or_claims ord 1 (dom (r_claims r))).
  pose proof (verify_analyse pk plan1 (run_depth pk ord r) (r_claims r) [] todo est_start) as H.
  change (pre [] est_start) with (est_start (D := diag)) in H.
  pose proof (package_direct_back pk lk fd (or_tracked ord) Hus Hrec) as Hb.
  assert (direct_ok (restrict fs plan1) (fun f => f ∈ todo)) as Hd.
  { apply restrict_ok; [done| |].
    - rewrite (bind_ext _ (literal_requests pk fd)); [done|]. intros x _. by apply plan_requests.
    - intros f g Hf Hg. rewrite plan_requests in Hg by done. destruct (apart_requests pk fd f g Hus Hap Hg) as [H1 H2]. split; [|by intros f' _].
      intros (fn&?&?&Hk&_)%prepared_declared. by destruct (H1 fn). }
  rewrite (analyse_agree plan1 (restrict fs plan1)) in H.
  2:{ intros f h Hf Hh. unfold restrict. rewrite decide_True; [done|]. apply Hfs, prepared_checked. eauto. }
  assert (finite_program (restrict fs plan1) (program_functions pk lk fd (or_tracked ord) todo) todo) as Hfin.
  { destruct (package_finite pk lk fd (or_tracked ord) todo) as [F1 F2]. split; [|done]. intros f g ? [_ ?]%restrict_calls. by eapply F1. }
  pose proof (analyse_start (restrict fs plan1) (run_depth pk ord r) _ todo (direct_ok_back _ _ Hd) Hfin) as HA.
  destruct (analyse_all (restrict fs plan1) (run_depth pk ord r) todo est_start) as [[res st2]| |].
  - left. destruct H as (ds&->&_). eauto.
  - right. destruct HA as [(f&g&Hf&Hg&Hn)|HA]; [| |by destruct (HA Hd)].
    { etrans; [apply (prepared_depth pk strict ord fa r Hr Hord fd)|]. unfold run_depth, run_fuel. lia. }
    exists g. split; [apply prepared_checked; exists f; split; [done|by eapply restrict_reaches]|].
    intros Hp. apply Hn. unfold restrict. by destruct (decide _).
  - destruct HA; [|done]. etrans; [apply (prepared_depth pk strict ord fa r Hr Hord fd)|]. unfold run_depth, run_fuel. lia.
Qed.
End loop.

(** ** The conversions *)
Lemma convs_sites (l : list conv) : CPanic ∈ l \/ exists sites : list site, l = CSite <$> sites.
Proof.
  induction l as [|[s|] l [IH|[sites ->]]]; [by right; exists []|left; by right|right; by exists (s :: sites)|left; by left|left; by left].
Qed.
Lemma in_steps (sites : list site) s m : Some (s, m) ∈ steps (or_checks ord) (CSite <$> sites) <-> s ∈ sites /\ compared s m.
Proof.
  induction sites as [|s' l IH]; [cbn; rewrite !elem_of_nil; tauto|]. cbn [fmap list_fmap steps]. rewrite elem_of_app, elem_of_cons.
  fold (fmap CSite l). unfold fmap in IH. rewrite IH. clear IH.
  destruct (site_steps_shape _ s' (ok_checks _ _ Hord (length (CSite <$> l)))) as (ms&_&Hms&E). unfold fmap in *. rewrite E.
  fold (fmap (M := list) (fun m0 => (s', m0)) ms). split.
  - intros [(q&[= <-]&(m'&[= -> ->]&Hm)%elem_of_list_fmap)%elem_of_list_fmap|[? ?]]; [|tauto]. split; [by left|by apply Hms].
  - intros [[->|?] Hc]; [left|by right]. apply elem_of_list_fmap. exists (s', m). split; [done|]. apply elem_of_list_fmap. exists m. split; [done|]. by apply Hms.
Qed.
Lemma no_none_steps (sites : list site) : None ∉ steps (or_checks ord) (CSite <$> sites).
Proof.
  induction sites as [|s' l IH]; [cbn; apply not_elem_of_nil|]. cbn [fmap list_fmap steps]. rewrite elem_of_app.
  intros [(q&?&_)%elem_of_list_fmap|?]; [done|]. by apply IH.
Qed.

Section checks.
Context (Hr : looped pk strict ord fa r) (Hus : usable_functions pk fd) (Hrec : no_literal_recursion pk lk fd).
Notation checked := (checked_function pk ord r).
Notation planG := (given (e_found (r_loop r)) plan2).
Section some_order.
(** The sites, in any order. *)
Context (sites sites' : list site) (Hs : conversion_sites pk ord r sites) (Hss : forall s, s ∈ sites' <-> s ∈ sites).
Notation the_steps := (steps (or_checks ord) (CSite <$> sites')).
Notation queries := (step_queries pk lk fe the_steps).
Lemma queries_late g : ~ checked g ->
  (exists f, f ∈ queries /\ rtc (passes_on pk lk fe) f g) -> late_function pk ord r g.
Proof.
  intros Hn (f&Hq&Hg). split; [done|]. unfold step_queries in Hq. apply elem_of_list_omap in Hq as (p&Hp&Hq).
  destruct p as [[s m]|]; [|done]. cbn [mbind option_bind] in Hq. unfold step_query in Hq. cbn [fst snd] in Hq.
  destruct (searchMethodType pk (s_value s) m) as [o|] eqn:Eo; [|done]. destruct (fa_codes fe !! o) eqn:Ef; [done|].
  apply in_steps in Hp as [?%Hss ?].
  apply LookupProofs.searchMethodType_spec in Eo. apply PropLookup.C39_method in Hq. exists sites, s, m, o, f. done.
Qed.
Lemma late_query g : late_function pk ord r g -> exists f, f ∈ queries /\ rtc (passes_on pk lk fe) f g.
Proof.
  intros [_ (sites0&s&m&o&f&Hs0&Hin&Hc&Ho&Hn&Hf&Hg)]. apply LookupProofs.searchMethodType_spec in Ho. apply PropLookup.C39_method in Hf.
  exists f. split; [|done]. unfold step_queries. apply elem_of_list_omap. exists (Some (s, m)). split.
  - unfold conversion_sites in Hs, Hs0. rewrite Hs in Hs0. apply in_steps. split; [|done]. apply Hss.
    assert (CSite s ∈ CSite <$> sites) as (s0&[= ->]&?)%elem_of_list_fmap; [|done]. rewrite Hs0. apply elem_of_list_fmap. by exists s.
  - cbn [mbind option_bind]. unfold step_query. cbn [fst snd]. by rewrite Ho, Hn.
Qed.
Notation Hus' := (usable_after pk ord r Hus).
Lemma apart_after : literals_apart pk lk fd -> literals_apart pk lk fe.
Proof.
  intros Hap f fn e g Hf He Hl. apply (Hap f fn e g Hf He). eapply literal_call_less; [exact (after_codes pk ord r)| |exact Hl]. symmetry. apply after_fields.
Qed.
(** A literal that a function of the second phase asks for has not been analysed before, if it has not been asked for before. *)
Lemma late_request fs late f g : literals_apart pk lk fd -> (forall g, g ∈ fs <-> checked g) -> (forall g, g ∈ late <-> late_function pk ord r g) ->
  NoDup ((fs ≫= literal_requests pk fd) ++ (late ≫= literal_requests pk fe)) -> f ∈ late -> g ∈ literal_requests pk fe f ->
  (forall fn, ~ known_function pk g fn) /\ ~ checked g /\ forall f', g ∉ edge_list (plan2 f').
Proof.
  intros Hap Hfs Hl Hnd Hf Hg. pose proof (apart_after Hap) as Hap'. destruct (apart_requests pk fe f g Hus' Hap' Hg) as [H1 H2]. split_and!; [done| |done].
  intros (d&Hd&Hdg). apply rtc_inv_r in Hdg as [<-|(h&Hdh&Hhg)].
  { destruct Hd as (fn&?&?&Hk&_). by apply (H1 fn). }
  assert (calls plan1 h g) as Hc by (by apply (package_calls pk lk fd (or_tracked ord) Hus)). unfold calls in Hc. rewrite call_split in Hc.
  apply elem_of_app in Hc as [Hc|Hc].
  - apply (package_edges pk lk fd (or_tracked ord) h g Hus) in Hc as (fn'&e'&Hf'&He'&Ho).
    apply (C23_requests pk fe f g Hus' Hap') in Hg as (fn&e&Hfn&He&Hlc). by apply (proj2 (Hap' f fn e g Hfn He Hlc) h fn' e').
  - rewrite plan_requests in Hc by done. apply NoDup_app in Hnd as (_&Hdis&_). apply (Hdis g); apply elem_of_list_bind; [|by eauto].
    exists h. split; [done|]. apply Hfs. by exists d.
Qed.
Lemma checks_run fs late : literals_apart pk lk fd ->
  (forall g, g ∈ fs <-> checked g) -> (forall g, g ∈ late <-> late_function pk ord r g) ->
  NoDup ((fs ≫= literal_requests pk fd) ++ (late ≫= literal_requests pk fe)) ->
  (exists st, check_all pk lk fe plan2 (run_depth pk ord r) (or_checks ord) (CSite <$> sites') (r_loop r) = Ok st) \/
  (exists s m, s ∈ sites /\ compared s m /\ (forall o, ~ SpecLookup.has_method pk (s_value s) m o)) \/
  exists g, late_function pk ord r g /\ ~ no_panic (plan2 g).
Proof.
  intros Hap Hfs Hl Hnd. rewrite check_all_steps.
  pose proof (steps_are_known (or_checks ord) (CSite <$> sites') (ok_checks _ _ Hord)) as Hk.
  assert (check_steps pk lk fe plan2 (run_depth pk ord r) the_steps (r_loop r) <> OutOfFuel) as Hfuel.
  { apply steps_ends. intros g st1 Hg E.
    assert (g ∈ lookup_all lk) as Hkn by by eapply queries_known.
    pose proof (find_ends plan2 (program_functions pk lk fe (or_tracked ord) (lookup_all lk))
      ltac:(intros ? ? ? ?; by eapply program_closed) (run_depth pk ord r) g st1) as H.
    rewrite E in H. apply H.
    - unfold program_functions. rewrite !elem_of_union, elem_of_list_to_set. auto.
    - eapply Nat.le_lt_trans; [apply (subseteq_size _ (program_functions pk lk fe (or_tracked ord) (lookup_all lk))); set_solver|].
      unfold run_depth, run_fuel. lia. }
  destruct (check_steps pk lk fe plan2 (run_depth pk ord r) the_steps (r_loop r)) as [st| |] eqn:E; [by eauto| |done]. right. clear Hfuel.
  apply steps_panic in E as [Hp|Ha]; [|..|done].
  { left. apply Exists_exists in Hp as (p&Hp&Hpp). destruct p as [[s m]|].
    - apply in_steps in Hp as [?%Hss ?]. destruct Hpp as [_ Hpp]. pose proof (proj1 (LookupProofs.searchMethodType_none _ _ _) Hpp). by exists s, m.
    - by apply no_none_steps in Hp. }
  pose proof (lp_inv _ _ _ _ _ _ _ (run_loop pk strict ord fa r Hr Hord Hus Hrec)) as HI1.
  set (G := e_found (r_loop r)) in *.
  assert (forall g, is_Some (G !! g) <-> checked g) as HG by (exact (checked_found pk strict ord fa r Hord Hr Hus Hrec)).
  set (roots := fun f => f ∈ queries \/ checked f).
  assert (forall g, visited (r_loop r) g <-> checked g) as Hvis.
  { intros g. pose proof (i_found _ _ _ _ _ _ HI1 g) as Hif. fold G in Hif. rewrite <-HG, Hif. split; [|tauto].
    intros ?. split; [done|]. apply not_elem_of_nil. }
  set (plan2' := restrict late plan2). set (planG' := given G plan2').
  pose proof (inv_rebase plan1 plan2' _ roots (r_loop r) [] ∅ HI1 ltac:(intros f Hf; right; by apply Hvis)) as HI. fold G in HI. fold planG' in HI.
  set (U := program_functions pk lk fe (or_tracked ord) (lookup_all lk)).
  assert (forall f g, calls planG' f g -> calls planG f g) as Hcalls.
  { intros f g [H1 H2]%given_calls. apply given_calls. split; [done|]. by apply restrict_calls in H2 as [_ H2]. }
  assert (forall f g, f ∈ U -> calls planG' f g -> g ∈ U) as HU.
  { intros f g Hf Hc%Hcalls. apply given_calls in Hc as [_ Hc]. by eapply program_closed. }
  assert (forall f, f ∈ late -> planG f = plan2 f) as HGl.
  { intros f Hf%Hl. unfold given. fold G. destruct (G !! f) eqn:EG; [|done]. destruct (proj1 Hf). apply HG. rewrite EG. eauto. }
  assert (direct_ok planG' roots) as Hd.
  { apply (direct_ok_same (restrict late planG)).
    { intros f. unfold planG', plan2', restrict, given. fold G. by destruct (G !! f), (decide (f ∈ late)). }
    apply restrict_ok.
    - intros f g Hg Hgf. assert (g ∈ direct_list (plan2 f)) as Hg2.
      { unfold given in Hg. destruct (_ !! f); [by apply elem_of_nil in Hg|done]. }
      apply (package_direct_back pk lk fe (or_tracked ord) Hus' (literals_after pk ord r Hrec) f g Hg2).
      clear -Hgf. induction Hgf as [|a b c Hc _ IH]; [apply rtc_refl|]. eapply rtc_l; [|exact IH]. by apply given_calls in Hc as [_ Hc].
    - rewrite (bind_ext _ (literal_requests pk fe)); [by apply NoDup_app in Hnd as (_&_&?)|]. intros x Hx. rewrite HGl by done. apply plan_requests, Hus'.
    - intros f g Hf Hg. rewrite HGl, (plan_requests pk fe _ _ Hus') in Hg by done.
      destruct (late_request fs late f g Hap Hfs Hl Hnd Hf Hg) as (H1&H2&H3). split.
      + intros [Hq|Hq]; [|done]. apply queries_known, known_spec in Hq as [fn Hq]. by apply (H1 fn).
      + intros f' Hf'. rewrite HGl by done. apply H3. }
  rewrite (analyse_same plan2 planG (dom G)) in Ha.
  2:{ intros g Hg. unfold given. fold G. by rewrite (not_elem_of_dom_1 _ _ Hg). }
  2:{ intros g [s Hs']%elem_of_dom. apply elem_of_dom. apply (Hvis g), HG. by exists s. }
  rewrite (analyse_agree planG planG') in Ha.
  2:{ intros f h Hf Hh. unfold planG', plan2', given, restrict. fold G. destruct (G !! h) eqn:EG; [done|]. rewrite decide_True; [done|].
      assert (~ checked h) as Hng by (rewrite <-HG, EG; by intros []).
      apply Hl. apply queries_late; [done|]. exists f. split; [done|]. by apply (given_reaches pk strict ord fa r Hord Hr Hus Hrec). }
  pose proof (analyse_all_ok planG' roots (dom G) (e_comps (r_loop r)) (direct_ok_back _ _ Hd) U HU (run_depth pk ord r) queries (r_loop r) HI) as Hok.
  rewrite Ha in Hok. destruct Hok as [(f&g&Hf&Hg&Hn)|Hok]; [| | |by destruct (Hok Hd)].
  { intros f Hf. split; [|by left]. unfold U, program_functions. rewrite !elem_of_union, elem_of_list_to_set. left; left. by eapply queries_known. }
  { unfold unvisited. etrans; [apply (subseteq_size _ U); set_solver|]. unfold run_depth, run_fuel. fold U. lia. }
  right. exists g. unfold planG', plan2', given, restrict in Hn. destruct (G !! g) eqn:Eg; [by destruct Hn|].
  destruct (decide (g ∈ late)) as [Hgl|]; [|by destruct Hn]. split; [by apply Hl|done].
Qed.
End some_order.
Lemma late_list (fs : list fid) : (forall g, g ∈ fs <-> checked g) -> exists late, NoDup late /\ forall g, g ∈ late <-> late_function pk ord r g.
Proof.
  intros Hck. destruct (convs_sites (all_conversions pk fe)) as [Hp|[sites Hs]].
  { exists []. split; [constructor|]. intros g. split; [by intros ?%elem_of_nil|]. intros [_ (sites&s&m&o&f&Hs&_)]. unfold conversion_sites in Hs.
    rewrite Hs in Hp. by apply elem_of_list_fmap in Hp as (?&?&_). }
  set (queries := step_queries pk lk fe (steps (or_checks ord) (CSite <$> sites))).
  destruct (reachable_list plan2 _ _ (package_finite pk lk fe (or_tracked ord) queries)) as (l&Hn&Hfs).
  exists (filter (fun g => g ∉ fs) l). split; [by apply NoDup_filter|]. intros g.
  rewrite elem_of_list_filter, Hck, Hfs.
  assert ((exists f, f ∈ queries /\ reaches plan2 f g) <-> exists f, f ∈ queries /\ rtc (passes_on pk lk fe) f g) as Hq.
  { split; intros (f&?&H); exists f; (split; [done|]); by apply (package_reaches pk lk fe (or_tracked ord) (usable_after pk ord r Hus)). }
  rewrite Hq. split.
  - intros [H1 H2]. by apply (queries_late sites sites Hs).
  - intros H. split; [apply H|by apply (late_query sites sites Hs)].
Qed.
End checks.

(** ** From the declarations on *)
Definition continues (r' : run) : Prop :=
  r_types r' = r_types r /\ r_ifaces r' = r_ifaces r /\ r_funcs r' = r_funcs r /\ r_claims r' = r_claims r /\
  r_d1 r' = r_d1 r /\ r_d2 r' = r_d2 r /\ r_d3 r' = r_d3 r /\ r_d4 r' = r_d4 r.
End crash.

Section same.
Context (pk : package) (strict : bool) (ord : orders) (fa : facts).
Notation lk := (collectFunctions pk).
Lemma continues_eq r r' : continues r r' -> r' = Run (r_types r) (r_ifaces r) (r_funcs r) (r_claims r) (r_loop r') (r_end r') (r_d1 r) (r_d2 r) (r_d3 r) (r_d4 r).
Proof. destruct r, r'. intros (?&?&?&?&?&?&?&?). cbn in *. by subst. Qed.

Theorem C23_crash_or_complete r : orders_ok lk ord -> prepared pk strict ord fa r ->
  usable_functions pk (facts_during pk ord r) -> no_literal_recursion pk lk (facts_during pk ord r) -> literals_apart pk lk (facts_during pk ord r) ->
  (forall w n, occurs pk w n -> ~ ill_formed pk w n) ->
  run_crash pk ord r \/ asked_twice pk ord r \/ exists r', continues r r' /\ completes pk strict ord fa r'.
Proof.
  intros Hord Hr Hus Hrec Hap Hwf.
  destruct (checked_list pk strict ord fa r Hord Hr Hus) as (fs&Hfn&Hfs).
  destruct (late_list pk ord r Hord Hus fs Hfs) as (late&Hln&Hl).
  destruct (decide (NoDup ((fs ≫= literal_requests pk (facts_during pk ord r)) ++ (late ≫= literal_requests pk (facts_after pk ord r))))) as [Hnd|Hnd].
  2:{ right. left. exists fs, late. done. }
  destruct (loop_runs pk strict ord fa r Hord Hr Hus Hrec fs Hap Hfs) as [[st Hst]|(g&Hg&Hp)]; [by apply NoDup_app in Hnd as (?&_&_)|..].
  2:{ left. apply crash_cause in Hp as [E|(fn&E&Hev)]; [|by eapply rc_checked|done|done]. eapply rc_missing; [by left|done]. }
  set (r1 := Run (r_types r) (r_ifaces r) (r_funcs r) (r_claims r) st st (r_d1 r) (r_d2 r) (r_d3 r) (r_d4 r)).
  assert (looped pk strict ord fa r1) as Hr1.
  { constructor; [|exact Hst]. destruct Hr. by constructor. }
  destruct (convs_sites (all_conversions pk (facts_after pk ord r))) as [H|[sites Hs]].
  { apply (C29_panics pk _ Hwf) in H as (w&n&t&pos&ms&?&?&?). left. by eapply rc_conversion. }
  destruct (checks_run pk strict ord fa r1 Hord Hr1 Hus Hrec sites sites Hs (fun _ => iff_refl _) fs late Hap Hfs Hl Hnd) as [[st' Hst']|[([ms t v pos]&m&Hin&(Hvt&Hvn&Hm)&Hsm)|(g&Hg&Hp)]].
  - right. right. exists (Run (r_types r) (r_ifaces r) (r_funcs r) (r_claims r) st st' (r_d1 r) (r_d2 r) (r_d3 r) (r_d4 r)). split; [done|].
    rewrite <-Hs in Hst'. destruct Hr. constructor; done.
  - left. cbn in *. apply (C29_run pk ord r1 sites) in Hin as (w&n&Ho&Hc&Hi); [|exact Hs]. by eapply rc_method.
  - left. apply crash_cause in Hp as [E|(fn&E&Hev)]; [|by eapply (rc_late pk ord r g)|done|by eapply usable_after].
    eapply rc_missing; [right; exact Hg|done].
Qed.
Theorem C23_completes_safe r : orders_ok lk ord -> prepared pk strict ord fa r ->
  usable_functions pk (facts_during pk ord r) -> no_literal_recursion pk lk (facts_during pk ord r) ->
  (forall w n, occurs pk w n -> ~ ill_formed pk w n) ->
  (exists r', continues r r' /\ completes pk strict ord fa r') -> ~ run_crash pk ord r /\ ~ asked_twice pk ord r.
Proof.
  intros Hord Hr Hus Hrec Hwf.
  intros (r'&Hc&Hr'). apply continues_eq in Hc.
    assert (facts_during pk ord r' = facts_during pk ord r) as Efd by (by rewrite Hc).
    assert (facts_after pk ord r' = facts_after pk ord r) as Efe by (by rewrite Hc).
    assert (forall g, checked_function pk ord r g <-> checked_function pk ord r' g) as Hck.
    { intros g. unfold checked_function. by rewrite Efd. }
    assert (forall sites, conversion_sites pk ord r sites <-> conversion_sites pk ord r' sites) as Hcs.
    { intros sites. unfold conversion_sites. by rewrite Efe. }
    assert (forall g, late_function pk ord r g <-> late_function pk ord r' g) as Hlt.
    { intros g. unfold late_function. rewrite Hck, Efe. by setoid_rewrite Hcs. }
    rewrite <-Efd in Hus, Hrec. split.
  { intros Hcr. pose proof (C23_no_crash_events pk strict ord fa r' Hord Hr' Hus Hrec) as Hno.
    destruct (the_sites pk strict ord fa r' Hord Hr' Hus Hrec) as [sites Hs].
    destruct Hcr as [g fn Hg Hf He|g fn Hg Hf He|g Hg Hf|w n t pos ms Ho Hcv Hi|w n t v pos ms m Ho Hcv Hi Hm Hvt Hvn Hsm].
    + apply Hno. eapply an_checked; [by apply Hck|done|by rewrite Efd].
    + apply Hno. eapply an_late; [by apply Hlt|done|by rewrite Efe].
    + destruct Hg as [Hg|Hg].
      * destruct (no_panic_exists pk lk (facts_during pk ord r') (or_tracked ord) g) as [? ?]; [|congruence].
        apply (checked_safe pk strict ord fa r' Hord Hr' Hus Hrec). by apply Hck.
      * destruct (no_panic_exists pk lk (facts_after pk ord r') (or_tracked ord) g) as [? ?]; [|congruence].
        apply (late_safe pk strict ord fa r' Hord Hr' Hus Hrec). by apply Hlt.
    + assert (CPanic ∈ all_conversions pk (facts_after pk ord r)) as H by (apply C29_panics; [done|]; eauto 10).
      rewrite <-Efe in H. unfold conversion_sites in Hs. rewrite Hs in H. by apply elem_of_list_fmap in H as (?&?&?).
    + assert (Site ms t v pos ∈ sites) as Hin by (eapply C29_run; [exact Hs|rewrite Efe; eauto]).
      pose proof (ep_safe _ _ _ _ (run_checks pk strict ord fa r' Hord Hr' Hus Hrec)) as Hsf.
      unfold conversion_sites in Hs. rewrite Hs in Hsf. rewrite Forall_forall in Hsf. apply (Hsf (Some (Site ms t v pos, m))); [|split; [done|by apply LookupProofs.searchMethodType_none]].
      apply (in_steps pk ord); [done|]. split; [done|]. done. }
  intros (fs&late&Hfn&Hfs&Hln&Hl&Hnd). apply Hnd. clear Hnd.
  destruct (lp_once _ _ _ _ _ _ _ (run_loop pk strict ord fa r' Hr' Hord Hus Hrec)) as (fs1&Hn1&Hf1&Ho1&Hi1).
  destruct (ep_once _ _ _ _ (run_checks pk strict ord fa r' Hord Hr' Hus Hrec)) as (fs2&Hn2&Hf2&Ho2&Hi2).
  assert (forall g, g ∈ fs1 <-> checked_function pk ord r g) as Hf1'.
  { intros g. rewrite Hf1, Hck. unfold checked_function. by setoid_rewrite (declared_claims pk strict ord fa r' Hord Hr'). }
  assert (forall g, g ∈ fs2 <-> late_function pk ord r g) as Hf2'.
  { intros g. rewrite Hf2, Hlt. symmetry. apply (late_queries pk strict ord fa r' Hord Hr' Hus Hrec). }
  assert (fs ≡ₚ fs1) as -> by (apply NoDup_Permutation; [done|done|]; intros g; by rewrite Hfs, Hf1').
  assert (late ≡ₚ fs2) as -> by (apply NoDup_Permutation; [done|done|]; intros g; by rewrite Hl, Hf2').
  assert (usable_functions pk (facts_after pk ord r')) as Hus2 by (by eapply usable_after).
  rewrite (bind_ext (literal_requests pk (facts_during pk ord r)) (fun g => direct_list (plan pk lk (facts_during pk ord r') (or_tracked ord) g)) fs1)
    by (intros g _; rewrite <-Efd; symmetry; by apply plan_requests).
  rewrite (bind_ext (literal_requests pk (facts_after pk ord r)) (fun g => direct_list (plan pk lk (facts_after pk ord r') (or_tracked ord) g)) fs2)
    by (intros g _; rewrite <-Efe; symmetry; by apply plan_requests).
  apply NoDup_app. split_and!; [done| |done]. intros x Hx1%Hi1%Hf1' Hx2%Hi2%Hf2'. by destruct Hx2.
Qed.
End same.

(** ** The phases before *)
Section phases.
Lemma pfold_panicked {A S} (f : S -> A -> phase S) s l : pfold f s l = Panicked -> exists a s', a ∈ l /\ f s' a = Panicked.
Proof.
  revert s. induction l as [|a l IH]; intros s E; [done|]. cbn [pfold] in E. destruct (f s a) as [[s1 d]| |] eqn:Ef; cbn [pbind] in E; [| |done].
  - destruct (pfold f s1 l) as [[]| |] eqn:E1; [done| |done]. destruct (IH _ E1) as (a'&s'&?&?). exists a', s'. split; [by right|done].
  - exists a, s. split; [by left|done].
Qed.
Lemma pfold_panics {A S} (f : S -> A -> phase S) a s l : (forall s a, ends (f s a)) -> a ∈ l -> (forall s, f s a = Panicked) -> pfold f s l = Panicked.
Proof.
  intros He Ha Hp. revert s. induction Ha as [x l|x b l Hb IH]; intros s; cbn [pfold].
  - by rewrite Hp.
  - specialize (He s b). unfold ends in He. destruct (f s b) as [[s1 d]| |]; unfold pbind; [by rewrite (IH Hp)|reflexivity|by destruct He].
Qed.
Context (pk : package).
Lemma returns_panics ft : checkFunctionReturnsError pk ft = Panicked <-> ft_results ft = Some [].
Proof.
  unfold checkFunctionReturnsError. destruct (ft_results ft) as [[|a l]|]; [done| |done].
  split; [|done]. destruct (last (a :: l)) as [x|] eqn:E.
  2:{ exfalso. assert (forall (b : field) l, is_Some (last (b :: l))) as H; [|by destruct (H a l); congruence].
      clear. intros b l. revert b. induction l as [|c l IH]; intros b; [by eexists|]. apply IH. }
  destruct (is_error_type pk (f_type x)); [done|]. intros H. exfalso.
  match goal with H : pbind ?m _ = _ |- _ => destruct m as [[]| |] eqn:Ee; cbn in H; try done end.
  unfold peach in Ee. apply pfold_panicked in Ee as (y&u&_&E2). revert E2. cbn beta. unfold ptell, pret. destruct (is_error_type pk (f_type y)); discriminate.
Qed.
Lemma declares_panics id name doc ft : checkIfInterfaceMethodDeclaresErrors pk id name doc ft = Panicked <-> ft_results ft = Some [].
Proof.
  rewrite <-returns_panics. unfold checkIfInterfaceMethodDeclaresErrors. destruct (checkFunctionReturnsError pk ft) as [[b d]| |]; cbn [pbind]; [|done|done].
  split; [|done]. intros H. exfalso. destruct b; cbn [negb] in H; [|done].
  destruct (findErrorDocs doc); [|done]. destruct (decide _); [done|]. destruct (_ && _); [|done]. by destruct (_ && _).
Qed.
Lemma element_panics id i e : collect_element pk id i e = Panicked <-> exists id' m doc ft, e = IMethod id' m doc ft /\ ft_results ft = Some [].
Proof.
  destruct e as [id' m doc ft| | |]; cbn [collect_element]; [|by split; [|intros (?&?&?&?&?&?)]..].
  pose proof (declares_panics id m doc ft) as H.
  destruct (checkIfInterfaceMethodDeclaresErrors pk id m doc ft) as [[b d]| |]; cbn [pbind].
  - split; [intros E; exfalso; by destruct b as [|[]]|]. intros (?&?&?&?&[= <- <- <- <-]&E). by apply H in E.
  - split; [|done]. intros _. exists id', m, doc, ft. split; [done|]. by apply H.
  - split; [done|]. intros (?&?&?&?&[= <- <- <- <-]&E). by apply H in E.
Qed.
Lemma element_ends id i e : ends (collect_element pk id i e).
Proof. unfold collect_element, checkIfInterfaceMethodDeclaresErrors. pose proof (check_returns_ends pk). ends_auto. Qed.
Lemma interface_panics spec : checkIfErrorReturningInterface pk spec = Panicked <->
  exists name id elems id' m doc ft, spec = Some (TypeSpec name (XInterface id elems)) /\ IMethod id' m doc ft ∈ elems /\ ft_results ft = Some [].
Proof.
  unfold checkIfErrorReturningInterface. split.
  - destruct spec as [[name x]|]; [|done]. destruct x as [|id elems|]; try done. destruct elems as [|e elems]; [done|].
    intros H. match goal with H : pbind ?m _ = _ |- _ => destruct m as [[]| |] eqn:Ee; cbn [pbind pret] in H; try done end.
    apply pfold_panicked in Ee as (e'&s'&He&E2). apply element_panics in E2 as (id'&m&doc&ft&->&?). eauto 12.
  - intros (name&id&elems&id'&m&doc&ft&->&Hin&Hft). destruct elems as [|e elems]; [by apply elem_of_nil in Hin|].
    rewrite (pfold_panics _ (IMethod id' m doc ft)); [done| |done|].
    + intros; apply element_ends.
    + intros s. apply element_panics. eauto 8.
Qed.
Lemma interface_ends spec : ends (checkIfErrorReturningInterface pk spec).
Proof. unfold checkIfErrorReturningInterface. pose proof element_ends. ends_auto. Qed.
Lemma spec_ends m spec : ends (collect_spec pk m spec).
Proof. unfold collect_spec. pose proof interface_ends. ends_auto. Qed.
Lemma spec_panics m spec : collect_spec pk m spec = Panicked <-> checkIfErrorReturningInterface pk spec = Panicked.
Proof.
  unfold collect_spec. destruct (checkIfErrorReturningInterface pk spec) as [[[i|] d]| |]; cbn [pbind]; try done.
  split; [|done]. destruct (decide _); [done|]. by destruct (decide _).
Qed.
Definition method_results : Prop := exists g name id elems id' m doc ft, g ∈ pk_gendecls pk /\ Some (TypeSpec name (XInterface id elems)) ∈ gd_specs g /\
  IMethod id' m doc ft ∈ elems /\ ft_results ft = Some [].
Lemma collect_panics : collect_interfaces pk = Panicked <-> method_results.
Proof.
  unfold collect_interfaces. split.
  - intros (g&s&Hg&(sp&s'&Hsp&E)%pfold_panicked)%pfold_panicked. apply spec_panics, interface_panics in E as (name&id&elems&id'&m&doc&ft&->&?&?).
    exists g, name, id, elems, id', m, doc, ft. done.
  - intros (g&name&id&elems&id'&m&doc&ft&Hg&Hsp&Hin&Hft). apply (pfold_panics _ g); [|done|].
    + intros. apply ends_fold. intros. apply spec_ends.
    + intros s. apply (pfold_panics _ _ _ _ spec_ends Hsp). intros s'. apply spec_panics, interface_panics. eauto 12.
Qed.
(** Embedding does not panic. *)
Definition calm {A} (m : phase A) : Prop := m <> Panicked.
Lemma calm_bind {A B} (m : phase A) (k : A -> phase B) : calm m -> (forall a, calm (k a)) -> calm (pbind m k).
Proof.
  unfold calm, pbind. intros Hm Hk. destruct m as [[a d]| |]; [|done|done]. specialize (Hk a). by destruct (k a) as [[b d']| |].
Qed.
Lemma calm_fold {A S} (f : S -> A -> phase S) s l : (forall s a, calm (f s a)) -> calm (pfold f s l).
Proof. intros H E. apply pfold_panicked in E as (a&s'&_&E). by apply (H s' a). Qed.
Context (fa : facts) (order : nid -> gset gostring -> list gostring).
Lemma add_calm i add l pos : calm (addEmbeddedInterfaceErrorMethods i add l pos).
Proof.
  unfold addEmbeddedInterfaceErrorMethods. apply calm_fold. intros s m. destruct (add !! m); [|done].
  destruct (if_methods s !! m); [|done]. apply calm_bind; [|done]. unfold checkEmbeddedInterfaceErrorMethodCodes. destruct (checkIfErrorCodesMatch _) as [[] ?]; done.
Qed.
Lemma dfs_calm n i m : calm (embeddingInterfaceDFS pk fa order n i m).
Proof.
  revert i m. induction n as [|n IH]; intros i m; [done|]. cbn [embeddingInterfaceDFS]. apply calm_bind; [|by intros []].
  apply calm_fold. intros [i' m'] [id name|id]; cbn [embed_one].
  - apply calm_bind.
    + destruct (m'.2 !! name); [apply IH|done].
    + intros m2. destruct (m2.1 !! name); [|done]. apply calm_bind; [apply add_calm|done].
  - destruct (importErrorInterfaceFact fa (ti_type (pk_info pk) id)); [|done]. apply calm_bind; [apply add_calm|done].
Qed.
Lemma interfaces_panic names : findErrorReturningInterfaces pk fa order names = Panicked <-> method_results.
Proof.
  rewrite <-collect_panics. unfold findErrorReturningInterfaces. destruct (collect_interfaces pk) as [[m d]| |]; cbn [pbind]; [|done|done].
  split; [|done]. intros E. exfalso.
  match goal with H : context [findErrorReturningEmbeddingInterfaces ?a ?b ?c ?d ?e] |- _ =>
    assert (calm (findErrorReturningEmbeddingInterfaces a b c d e)) as Hc; [|destruct (findErrorReturningEmbeddingInterfaces a b c d e) as [[]| |]; cbn in E; done] end.
  unfold findErrorReturningEmbeddingInterfaces. apply calm_fold. intros s a. destruct (s.2 !! a); [apply dfs_calm|done].
Qed.
Lemma functions_panic each : (forall f, f ∈ each <-> f ∈ lookup_all (collectFunctions pk)) ->
  findErrorReturningFunctions pk each = Panicked <-> exists f fn, known_function pk f fn /\ ft_results (fn_type fn) = Some [].
Proof.
  intros He. unfold findErrorReturningFunctions. split.
  - intros (f&s&Hf&E)%pfold_panicked. apply He, known_spec in Hf as [fn Hk]. exists f, fn. split; [done|].
    destruct Hk as (b&a&_&Hf&_). rewrite Hf in E. apply returns_panics.
    destruct (checkFunctionReturnsError pk (fn_type fn)) as [[]| |]; done.
  - intros (f&fn&Hk&Hr). apply (pfold_panics _ f).
    + pose proof (check_returns_ends pk). intros. ends_auto.
    + apply He, known_spec. eauto.
    + intros s. destruct Hk as (b&a&_&Hf&_). rewrite Hf. apply returns_panics in Hr. by rewrite Hr.
Qed.
End phases.

(** ** The whole run *)
Theorem C23_exact_literals pk strict ord fa :
  orders_ok (collectFunctions pk) ord -> types_usable pk -> (forall w n, occurs pk w n -> ~ ill_formed pk w n) ->
  (forall r, prepared pk strict ord fa r -> usable_functions pk (facts_during pk ord r) /\
    no_literal_recursion pk (collectFunctions pk) (facts_during pk ord r) /\ literals_apart pk (collectFunctions pk) (facts_during pk ord r)) ->
  runVerify pk strict ord fa = Panicked <-> empty_results pk \/ exists r, prepared pk strict ord fa r /\ (run_crash pk ord r \/ asked_twice pk ord r).
Proof.
  intros Hord Htu Hwf Hall.
  assert (empty_results pk <-> method_results pk \/ exists f fn, known_function pk f fn /\ ft_results (fn_type fn) = Some []) as Hem.
  { split.
    - intros [f fn ? ?|g name id elems id' m doc ft ? ? ? ?]; [right; eauto|left; do 8 eexists; eauto].
    - intros [(g&name&id&elems&id'&m&doc&ft&?&?&?&?)|(f&fn&?&?)]; [by eapply er_method|by eapply er_function]. }
  pose proof (C21_terminates pk strict ord fa Hord) as Hend.
  assert ((exists fa' ds, runVerify pk strict ord fa = Ok (fa', ds)) <-> exists r, completes pk strict ord fa r) as Hco.
  { split.
    - intros (fa'&ds&(r&?&_)%runVerify_completes). eauto.
    - intros [r Hr]. exists (facts_after pk ord r), (r_diags r). apply runVerify_completes. eauto. }
  assert (forall f, f ∈ or_each ord <-> f ∈ lookup_all (collectFunctions pk)) as Hea.
  { intros f. by rewrite (ok_each _ _ Hord). }
  split.
  - intros E.
    assert (forall r, ~ completes pk strict ord fa r) as Hnc.
    { intros r Hr. destruct Hco as [_ Hco]. destruct Hco as (fa'&ds&E'); [eauto|]. congruence. }
    destruct (C25_error_types pk fa Htu) as (outs&fa1&E1&_). revert E1. generalize (concat (map snd outs)).
    intros d1 E1.
    destruct (findErrorReturningInterfaces pk fa1 (or_embedded ord) (or_embedding ord)) as [[ifaces d2]| |] eqn:E2.
    2:{ left. apply Hem. left. by eapply interfaces_panic. }
    2:{ by apply interfaces_end in E2. }
    destruct (findErrorReturningFunctions pk (or_each ord)) as [[funcs d3]| |] eqn:E3.
    2:{ left. apply Hem. right. by eapply functions_panic. }
    2:{ by apply functions_ends in E3. }
    destruct (findClaimedErrorCodes pk strict funcs) as [[claims d4]| |] eqn:E4.
    2:{ exfalso. unfold findClaimedErrorCodes in E4. apply pfold_panicked in E4 as (f&s&Hf&E4). apply find_returning in E3 as (Hk&->&_).
        apply elem_of_list_filter in Hf as [_ Hf]. destruct (Hk f Hf) as (fn&E5&_). rewrite E5 in E4.
        assert (calm (claim_of pk strict fn)) as Hcalm.
        { unfold claim_of, findErrorCodeParamIdent. destruct (findErrorDocs _); [|by apply calm_bind].
          apply calm_bind.
          - destruct (decide _); [done|]. repeat first [done | apply calm_bind; [|intros ?] | match goal with |- calm (match ?x with _ => _ end) => destruct x end].
          - intros [p|]; [|done]. repeat first [done | apply calm_bind; [|intros ?] | match goal with |- calm (match ?x with _ => _ end) => destruct x end]. }
        destruct (claim_of pk strict fn) as [[]| |]; done. }
    2:{ by apply claims_end in E4. }
    right. set (r := Run fa1 ifaces funcs claims est_start est_start d1 d2 d3 d4).
    assert (prepared pk strict ord fa r) as Hp by by constructor. exists r. split; [done|]. destruct (Hall r Hp) as (Hus&Hrec&Hap).
    destruct (C23_crash_or_complete pk strict ord fa r Hord Hp Hus Hrec Hap Hwf) as [?|[?|(r'&_&?)]]; [by left|by right|]. by destruct (Hnc r').
  - intros H. destruct (runVerify pk strict ord fa) as [[fa' ds]| |] eqn:E; [|done|done]. exfalso.
    destruct (proj1 Hco) as [r Hr]; [eauto|]. pose proof Hr as [E1 E2 E3 E4 _ _]. destruct H as [H|(r'&Hp&Hcr)].
    + apply Hem in H as [H|H].
      * apply (interfaces_panic pk (r_types r) (or_embedded ord) (or_embedding ord)) in H. congruence.
      * apply (functions_panic pk _ Hea) in H. congruence.
    + destruct (Hall r' Hp) as (Hus&Hrec&_). destruct (C23_completes_safe pk strict ord fa r' Hord Hp Hus Hrec Hwf) as [Hs1 Hs2]; [|by destruct Hcr].
      exists r. split; [|done]. destruct Hp as [P1 P2 P3 P4]. rewrite E1 in P1. injection P1 as H1 H1'. rewrite <-H1, E2 in P2. injection P2 as H2 H2'.
      rewrite E3 in P3. injection P3 as H3 H3'. rewrite <-H3, E4 in P4. injection P4 as H4 H4'. by split_and!.
Qed.

(** Without calls of literals through variables. *)
Lemma no_calls_apart pk lk fa : no_literal_calls pk fa -> literals_apart pk lk fa.
Proof. intros Hno f fn e g Hf He Hl. exfalso. by eapply Hno. Qed.
Lemma no_calls_once pk ord r : usable_functions pk (facts_during pk ord r) -> no_literal_calls pk (facts_during pk ord r) -> ~ asked_twice pk ord r.
Proof.
  intros Hus Hno (fs&late&_&_&_&_&Hnd). apply Hnd.
  assert (usable_functions pk (facts_after pk ord r)) as Hus' by (by apply usable_after).
  assert (no_literal_calls pk (facts_after pk ord r)) as Hno' by (eapply no_literal_calls_less; [by apply after_codes| |exact Hno]; symmetry; apply after_fields).
  rewrite (bind_ext _ (fun _ => []) fs), (bind_ext _ (fun _ => []) late); [|intros; by apply no_requests..].
  assert (forall l : list fid, (l ≫= fun _ => @nil fid) = []) as E by (intros l; by induction l). rewrite !E. constructor.
Qed.
Theorem C23_exact pk strict ord fa :
  orders_ok (collectFunctions pk) ord -> types_usable pk -> (forall w n, occurs pk w n -> ~ ill_formed pk w n) ->
  (forall r, prepared pk strict ord fa r -> usable_functions pk (facts_during pk ord r) /\ no_literal_calls pk (facts_during pk ord r)) ->
  runVerify pk strict ord fa = Panicked <-> empty_results pk \/ exists r, prepared pk strict ord fa r /\ run_crash pk ord r.
Proof.
  intros Hord Htu Hwf Hall. rewrite (C23_exact_literals pk strict ord fa Hord Htu Hwf).
  - apply or_iff_compat_l. split; intros (r&Hp&H); exists r; (split; [done|]); [|by left]. destruct H as [?|H]; [done|].
    destruct (Hall r Hp) as [Hus Hno]. by apply no_calls_once in H.
  - intros r Hp. destruct (Hall r Hp) as [Hus Hno]. split_and!; [done|by apply no_literal_calls_recursion|by apply no_calls_apart].
Qed.
(** If two functions analysed call the same literal, through whatever variables, it is asked for twice. *)
Theorem C23_two_callers pk strict ord fa r f f' g : orders_ok (collectFunctions pk) ord -> prepared pk strict ord fa r ->
  usable_functions pk (facts_during pk ord r) -> literals_apart pk (collectFunctions pk) (facts_during pk ord r) ->
  checked_function pk ord r f -> checked_function pk ord r f' -> f <> f' ->
  (exists fn e, pk_funcs pk !! f = Some fn /\ error_call pk fn e /\ literal_call pk (facts_during pk ord r) fn e g) ->
  (exists fn e, pk_funcs pk !! f' = Some fn /\ error_call pk fn e /\ literal_call pk (facts_during pk ord r) fn e g) ->
  asked_twice pk ord r.
Proof.
  intros Hord Hr Hus Hap Hf Hf' Hne Hc Hc'.
  destruct (checked_list pk strict ord fa r Hord Hr Hus) as (fs&Hn&Hfs). destruct (late_list pk ord r Hord Hus fs Hfs) as (late&Hn'&Hl).
  exists fs, late. split_and!; [done..|]. intros [Hnd _]%NoDup_app. apply Hne.
  apply (bind_nodup_same (literal_requests pk (facts_during pk ord r)) fs f f' g Hnd); [by apply Hfs|by apply Hfs|by apply C23_requests..].
Qed.
