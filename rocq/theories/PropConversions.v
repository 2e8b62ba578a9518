(** * C28: what is reported about conversions to error interfaces. *)
From Coq Require Import Ascii String.
From stdpp Require Import base list gmap relations sets sorting.
From Verif Require SpecLookup LookupProofs PropLookup.
From Verif Require Import GoString ErrorCode Scc Engine SpecEngine EngineProofs EngineTheorems CodeSet CodeSetProofs Annotation Constant GoAst Taint Extract
  Analyse SpecCodes SpecTaint SpecMay SpecProgram SpecClaims Termination Phase ErrorTypes Claims Interfaces Conversions Verify SpecRun SpecEnd SpecReports
  RunEngine MayProofs OwnProofs ProgramProofs ObserveProofs MainLoop FactProofs ClaimsProofs RunProofs PropFacts CheckEngine RunChecks PropCodeSet PropRun.

Section run.
Context (pk : package) (strict : bool) (ord : orders) (fa : facts) (r : run).
Notation lk := (collectFunctions pk).
Context (Hord : orders_ok lk ord) (Hr : completes pk strict ord fa r).
Notation fd := (facts_during pk ord r).
Notation fe := (facts_after pk ord r).
Context (Hus : usable_functions pk fd) (Hlit : no_literal_recursion pk lk fd).
Notation the_steps := (steps (or_checks ord) (all_conversions pk fe)).
Notation plan2 := (plan pk lk fe (or_tracked ord)).
Notation val := (fun g => default ∅ (e_found (r_end r) !! g)).

(** ** The sites *)
Lemma steps_sites orders l : Forall (fun p => ~ step_panics pk p) (steps orders l) -> exists sites, l = CSite <$> sites.
Proof.
  induction l as [|[s|] l IH]; cbn [steps].
  - by exists [].
  - intros [_ H]%Forall_app. destruct (IH H) as [sites ->]. by exists (s :: sites).
  - intros [[] _]%Forall_cons. done.
Qed.
Lemma the_sites : exists sites, conversion_sites pk ord r sites.
Proof. eapply steps_sites, ep_safe, run_checks; done. Qed.
Lemma sites_unique sites sites' : conversion_sites pk ord r sites -> conversion_sites pk ord r sites' -> sites = sites'.
Proof. unfold conversion_sites. intros ->. revert sites'. induction sites as [|s l IH]; intros [|s' l'] E; try done. injection E as <- E. f_equal. by apply IH. Qed.
Lemma site_steps_compared order s m : (forall x, order x ≡ₚ elements x) -> (s, m) ∈ site_steps order s <-> compared s m.
Proof.
  intros Ho. unfold site_steps, compared. destruct (decide (s_value s = s_target s)) as [E|E]; [rewrite elem_of_nil; tauto|].
  assert ((s, m) ∈ ((fun m => (s, m)) <$> order (dom (s_iface s))) <-> is_Some (s_iface s !! m)) as H.
  { rewrite elem_of_list_fmap. setoid_rewrite Ho. setoid_rewrite elem_of_elements. setoid_rewrite elem_of_dom. split.
    - intros (m'&[= ->]&?). done.
    - intros ?. by exists m. }
  destruct (s_value s); rewrite ?elem_of_nil, ?H; try (split; [intros ?|by intros (_&_&?)]; by split_and!); tauto.
Qed.
Lemma site_steps_shape order s : (forall x, order x ≡ₚ elements x) ->
  exists ms, NoDup ms /\ (forall m, m ∈ ms <-> compared s m) /\ site_steps order s = (fun m => (s, m)) <$> ms.
Proof.
  intros Ho. assert (exists ms, NoDup ms /\ site_steps order s = (fun m => (s, m)) <$> ms) as (ms&Hnd&E).
  { unfold site_steps. destruct (decide _); [exists []; split; [constructor|done]|].
    assert (NoDup (order (dom (s_iface s)))) by (rewrite Ho; apply NoDup_elements).
    destruct (s_value s); eauto. exists []. split; [constructor|done]. }
  exists ms. split_and!; [done| |done]. intros m. rewrite <-(site_steps_compared order s m Ho), E, elem_of_list_fmap. split.
  - eauto.
  - intros (?&[= ->]&?). done.
Qed.

(** ** The codes of a method *)
Lemma method_codes_sound s m o c : searchMethodType pk (s_value s) m = Some o -> c ∈ step_codes pk lk fe val (s, m) ->
  method_codes pk ord r (s_value s) m o c.
Proof.
  intros Ho. unfold step_codes, method_codes. cbn [fst snd]. rewrite Ho. intros Hc. split; [by apply LookupProofs.searchMethodType_spec|].
  destruct (fa_codes fe !! o) as [codes|] eqn:Ef; [left; eauto|]. right. split; [done|].
  destruct (searchMethod pk lk (s_value s) m) as [g|] eqn:Eg; [|by apply elem_of_empty in Hc]. exists g. split; [by apply PropLookup.C39_method|].
  pose proof (ep_found _ _ _ _ (run_checks pk strict ord fa r Hord Hr Hus Hlit) g) as H.
  destruct (e_found (r_end r) !! g) as [x|]; cbn [default from_option id] in Hc; [|by apply elem_of_empty in Hc].
  destruct H as [_ H]. eapply (ends_with_sound pk strict ord fa r Hord Hr Hus Hlit), H, Hc.
Qed.
Lemma method_codes_complete s m o c : compared s m -> (exists sites, conversion_sites pk ord r sites /\ s ∈ sites) ->
  agree_everywhere pk c -> method_codes pk ord r (s_value s) m o c -> c ∈ step_codes pk lk fe val (s, m).
Proof.
  intros Hcm (sites&Hs&Hin) Hag (Ho&Hc). apply LookupProofs.searchMethodType_spec in Ho. unfold step_codes. cbn [fst snd]. rewrite Ho.
  destruct Hc as [(x&->&?)|(Hn&g&Hg&Hc)]; [done|]. apply PropLookup.C39_method in Hg. rewrite Hn, Hg.
  pose proof (ep_found _ _ _ _ (run_checks pk strict ord fa r Hord Hr Hus Hlit) g) as H.
  destruct (e_found (r_end r) !! g) as [x|]; cbn [default from_option id].
  - destruct H as [_ H]. eapply H, (ends_with_complete pk strict ord fa r Hord Hr Hus Hlit); done.
  - destruct H. right. exists g. split; [|apply rtc_refl]. unfold step_queries. apply elem_of_list_omap. exists (Some (s, m)). split.
    + unfold conversion_sites in Hs. rewrite Hs. clear -Hin Hcm Hord. induction sites as [|s' l IH]; [by apply elem_of_nil in Hin|].
      cbn [fmap list_fmap steps]. apply elem_of_app. apply elem_of_cons in Hin as [<-|Hin]; [left|right; by apply IH].
      apply elem_of_list_fmap. exists (s, m). split; [done|]. apply site_steps_compared; [apply (ok_checks _ _ Hord)|done].
    + cbn [mbind option_bind]. unfold step_query. cbn [fst snd]. by rewrite Ho, Hn.
Qed.
Lemma step_verdict s m : compared s m -> (exists sites, conversion_sites pk ord r sites /\ s ∈ sites) -> searchMethodType pk (s_value s) m <> None ->
  conversion_verdict pk ord r s m (step_report pk lk fe val (s, m)).
Proof.
  intros Hcm Hin Hne. destruct (searchMethodType pk (s_value s) m) as [o|] eqn:Eo; [|done].
  pose proof Hcm as (Hv&Hnil&[declared Hd]).
  unfold step_report. cbn [fst snd]. rewrite Hd.
  set (found := step_codes pk lk fe val (s, m)) in *. set (excess := sort_strings (elements (found ∖ declared))).
  assert (listing excess (found ∖ declared)) as Hl.
  { split_and!.
    - unfold excess. rewrite sort_strings_perm. apply NoDup_elements.
    - apply sort_strings_sorted.
    - intros v. unfold excess. by rewrite sort_strings_perm, elem_of_elements. }
  assert (conversion_verdict pk ord r s m (match excess with [] => [] | _ => [Diag (s_pos s) (excess_message pk (s_target s) m excess)] end)) as H.
  { econstructor; [done|by apply LookupProofs.searchMethodType_spec| | |done].
    - intros c Hc. by apply method_codes_sound.
    - intros c Hag Hc. by eapply method_codes_complete. }
  destruct (decide (found ∖ declared = ∅)) as [E|E].
  - assert (excess = []) as Ex; [|by rewrite Ex in H].
    destruct excess as [|x l]; [done|]. destruct Hl as (_&_&Hl). assert (x ∈ found ∖ declared) by (apply Hl; by left). set_solver.
  - destruct excess as [|x l] eqn:Ex.
    + exfalso. apply E. apply set_eq. intros v. destruct Hl as (_&_&Hl). rewrite <-(Hl v). set_solver.
    + replace (conversion_message pk (s_target s) m (x :: l)) with (excess_message pk (s_target s) m (x :: l)); [done|].
      unfold conversion_message, excess_message, quoted, format_strings. rewrite <-!app_assoc. reflexivity.
Qed.

Lemma late_queries g : late_function pk ord r g <->
  ~ checked_function pk ord r g /\ exists f, f ∈ step_queries pk lk fe the_steps /\ rtc (passes_on pk lk fe) f g.
Proof.
  unfold late_function. apply and_iff_compat_l. destruct the_sites as [sites Hs]. split.
  - intros (sites'&s&m&o&f&Hs'&Hin&Hc&Ho&Hn&Hf&Hg). apply LookupProofs.searchMethodType_spec in Ho. apply PropLookup.C39_method in Hf. rewrite (sites_unique _ _ Hs' Hs) in Hin. exists f. split; [|done].
    unfold step_queries. apply elem_of_list_omap. exists (Some (s, m)). split.
    + unfold conversion_sites in Hs. rewrite Hs. clear -Hin Hc Hord. induction sites as [|s' l IH]; [by apply elem_of_nil in Hin|].
      cbn [fmap list_fmap steps]. apply elem_of_app. apply elem_of_cons in Hin as [<-|Hin]; [left|right; by apply IH].
      apply elem_of_list_fmap. exists (s, m). split; [done|]. apply site_steps_compared; [apply (ok_checks _ _ Hord)|done].
    + cbn [mbind option_bind]. unfold step_query. cbn [fst snd]. by rewrite Ho, Hn.
  - intros (f&Hq&Hg). unfold step_queries in Hq. apply elem_of_list_omap in Hq as (p&Hp&Hq).
    destruct p as [[s m]|]; [|done]. cbn [mbind option_bind] in Hq. unfold step_query in Hq. cbn [fst snd] in Hq.
    destruct (searchMethodType pk (s_value s) m) as [o|] eqn:Eo; [|done]. destruct (fa_codes fe !! o) eqn:Ef; [done|].
    assert (s ∈ sites /\ compared s m) as [Hin Hc].
    { unfold conversion_sites in Hs. rewrite Hs in Hp. clear -Hp Hord. induction sites as [|s' l IH]; [by apply elem_of_nil in Hp|].
      cbn [fmap list_fmap steps] in Hp. apply elem_of_app in Hp as [Hp|Hp].
      - apply elem_of_list_fmap in Hp as (q&[= <-]&Hq). destruct (site_steps_shape _ s' (ok_checks _ _ Hord (length (CSite <$> l)))) as (ms&_&Hms&E).
        rewrite E in Hq. apply elem_of_list_fmap in Hq as (m'&[= -> ->]&Hm). split; [by left|]. by apply Hms.
      - apply IH in Hp as [? ?]. split; [by right|done]. }
    apply LookupProofs.searchMethodType_spec in Eo. apply PropLookup.C39_method in Hq. exists sites, s, m, o, f. done.
Qed.

(** ** C28 *)
(** The reports about conversions: for every conversion of a value to an error interface and every method of the interface, one report iff
    the method of the value has codes that the interface does not declare; it lists them in order.  In addition there are the reports about
    the functions that were analysed for this. *)
Theorem C28_conversions : exists sites vs fs,
  conversion_sites pk ord r sites /\ Forall2 (site_verdict pk ord r) sites vs /\
  NoDup fs /\ (forall g, g ∈ fs <-> late_function pk ord r g) /\
  e_diags (r_end r) ≡ₚ e_diags (r_loop r) ++ (fs ≫= fun g => reports (plan2 g)) ++ concat vs.
Proof.
  destruct (run_checks pk strict ord fa r Hord Hr Hus Hlit) as [Hsafe _ _ _ (fs&Hnd&Hfs) Hd _]. specialize (Hd fs Hnd Hfs).
  destruct the_sites as [sites Hs].
  assert (forall l, (forall s, s ∈ l -> s ∈ sites) -> Forall (fun p => ~ step_panics pk p) (steps (or_checks ord) (CSite <$> l)) ->
    exists vs, Forall2 (site_verdict pk ord r) l vs /\ step_reports pk lk fe val (steps (or_checks ord) (CSite <$> l)) = concat vs) as H.
  { intros l. induction l as [|s l IH]; intros Hin HF.
    { exists []. split; [constructor|done]. }
    cbn [fmap list_fmap steps] in HF |- *. apply Forall_app in HF as [H1 H2].
    destruct IH as (vs&Hvs&E); [intros ? ?; apply Hin; by right|done|].
    destruct (site_steps_shape _ s (ok_checks _ _ Hord (length (CSite <$> l)))) as (ms&Hms1&Hms2&Ems). fold (fmap CSite l) in Ems, H1.
    unfold fmap in *. rewrite Ems in H1 |- *.
    exists ((ms ≫= fun m => step_report pk lk fe val (s, m)) :: vs). split.
    - constructor; [|done]. exists ms, ((fun m => step_report pk lk fe val (s, m)) <$> ms). split_and!; [done|done| |].
      + apply Forall2_fmap_r, Forall_Forall2_diag, Forall_forall. intros m Hm. apply step_verdict; [by apply Hms2| |].
        * exists sites. split; [done|]. apply Hin. by left.
        * intros En. rewrite Forall_forall in H1. apply (H1 (Some (s, m))); [|split; [|done]; by apply Hms2].
          apply elem_of_list_fmap. exists (s, m). split; [done|]. apply elem_of_list_fmap. by exists m.
      + clear. induction ms as [|m ms IH]; [done|]. cbn. by rewrite IH.
    - unfold step_reports in *. rewrite bind_app, E. cbn [concat]. f_equal. clear. induction ms as [|m ms IH]; [done|]. cbn. f_equal. apply IH. }
  destruct (H sites) as (vs&Hvs&E); [done|by rewrite <-Hs|].
  exists sites, vs, fs. split_and!; [done|done|done| |].
  - intros g. by rewrite Hfs, late_queries.
  - rewrite Hd. unfold conversion_sites in Hs. by rewrite Hs, E.
Qed.

(** Reading the verdicts: a code in excess is reported ... *)
Theorem C28_excess_reported sites s m o declared c :
  conversion_sites pk ord r sites -> s ∈ sites -> s_value s <> s_target s -> s_value s <> TUntypedNil ->
  s_iface s !! m = Some declared -> method_codes pk ord r (s_value s) m o c -> agree_everywhere pk c -> c ∉ declared ->
  exists excess, c ∈ excess /\ (forall c', c' ∈ excess -> method_codes pk ord r (s_value s) m o c' /\ c' ∉ declared) /\
    Diag (s_pos s) (excess_message pk (s_target s) m excess) ∈ r_diags r.
Proof.
  intros Hs Hin Hv Hn Hd Hc Hag Hnd. destruct C28_conversions as (sites'&vs&fs&Hs'&Hvs&_&_&Hp). rewrite (sites_unique _ _ Hs' Hs) in Hvs.
  apply elem_of_list_lookup in Hin as [k Hk]. destruct (Forall2_lookup_l _ _ _ _ _ Hvs Hk) as (v&Hvk&(ms&ws&_&Hms&Hws&->)).
  assert (m ∈ ms) as Hm by (apply Hms; split_and!; eauto). apply elem_of_list_lookup in Hm as [j Hj].
  destruct (Forall2_lookup_l _ _ _ _ _ Hws Hj) as (w&Hw&Hver). destruct Hver as [o' declared' found excess Hd' Ho' Hsound Hcomp (Hnd'&Hso&Hl)].
  rewrite Hd in Hd'. injection Hd' as <-. pose proof Hc as (Ho&_). apply LookupProofs.searchMethodType_spec in Ho, Ho'. rewrite Ho in Ho'. injection Ho' as <-.
  assert (c ∈ excess) as Hce by (apply Hl, elem_of_difference; auto).
  exists excess. split_and!; [done| |].
  - intros c' [? ?]%Hl%elem_of_difference. split; [by apply Hsound|done].
  - unfold r_diags. rewrite !elem_of_app. do 4 right. rewrite Hp, !elem_of_app. right. right. apply elem_of_list_In, in_concat.
    exists (concat ws). split; [by eapply elem_of_list_In, elem_of_list_lookup_2|].
    apply in_concat. eexists. split; [by eapply elem_of_list_In, elem_of_list_lookup_2|].
    apply elem_of_list_In. destruct excess; [by apply elem_of_nil in Hce|]. by left.
Qed.
(** ... and nothing else is. *)
Theorem C28_nothing_else s ds d : site_verdict pk ord r s ds -> d ∈ ds ->
  exists m o declared excess, s_value s <> s_target s /\ s_value s <> TUntypedNil /\ s_iface s !! m = Some declared /\
    d = Diag (s_pos s) (excess_message pk (s_target s) m excess) /\ excess <> [] /\ StronglySorted str_le excess /\ NoDup excess /\
    (forall c, c ∈ excess -> method_codes pk ord r (s_value s) m o c /\ c ∉ declared) /\
    (forall c, agree_everywhere pk c -> method_codes pk ord r (s_value s) m o c -> c ∉ declared -> c ∈ excess).
Proof.
  intros (ms&vs&Hnd&Hms&Hvs&->) Hd. apply elem_of_list_In, in_concat in Hd as (v&Hv&Hd). apply elem_of_list_In in Hv, Hd.
  apply elem_of_list_lookup in Hv as [k Hk]. destruct (Forall2_lookup_r _ _ _ _ _ Hvs Hk) as (m&Hm&Hver).
  apply elem_of_list_lookup_2, Hms in Hm as (?&?&_). destruct Hver as [o declared found excess Hd' Ho' Hsound Hcomp (Hnd'&Hso&Hl)].
  destruct excess as [|x l]; [by apply elem_of_nil in Hd|]. apply elem_of_list_singleton in Hd. exists m, o, declared, (x :: l). split_and!; try done.
  - intros c [? ?]%Hl%elem_of_difference. split; [by apply Hsound|done].
  - intros c Hag Hc Hnc. apply Hl, elem_of_difference. split; [by apply Hcomp|done].
Qed.
End run.
