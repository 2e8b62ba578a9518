(** * C48: reports about conversions that an edit elsewhere does not change. *)
From Coq Require Import Ascii String.
From stdpp Require Import base list gmap relations sets sorting.
From Verif Require SpecLookup LookupProofs PropLookup.
From Verif Require Import GoString ErrorCode Scc Engine SpecEngine EngineProofs EngineTheorems CodeSet CodeSetProofs Annotation Constant GoAst Taint Extract
  Analyse SpecCodes SpecTaint SpecMay SpecProgram SpecLocal SpecClaims SpecInterfaces SpecCodeMethod Termination Phase ErrorTypes Claims Interfaces Conversions Verify
  SpecRun SpecEnd SpecSites SpecReports RunEngine MainLoop FactProofs RunProofs PropFacts CheckEngine RunChecks PropCodeSet PropOrder PropSites PropConversions PropLocal PropRedoc SpecEdit
  EditProofs EditPhases PropEdit SpecSettled.
Local Open Scope list_scope.

(** ** What the engine reports is part of the plan. *)
Section engine.
Context (plan : fid -> eff diag).
Definition from_plan (d : diag) : Prop := exists h, d ∈ reports (plan h).
Definition extends (Q : diag -> Prop) (st st' : est diag) : Prop := exists ds, e_diags st' = e_diags st ++ ds /\ Forall Q ds.
Lemma extends_refl Q st st' : e_diags st' = e_diags st -> extends Q st st'.
Proof. intros E. exists []. rewrite app_nil_r. split; [done|constructor]. Qed.
Lemma extends_trans Q st1 st2 st3 : extends Q st1 st2 -> extends Q st2 st3 -> extends Q st1 st3.
Proof. intros (d1&E1&F1) (d2&E2&F2). exists (d1 ++ d2). rewrite E2, E1, app_assoc. split; [done|]. by apply Forall_app. Qed.
Lemma extends_mono (Q Q' : diag -> Prop) st st' : (forall d, Q d -> Q' d) -> extends Q st st' -> extends Q' st st'.
Proof. intros H (ds&E&F). exists ds. split; [done|]. by eapply Forall_impl. Qed.
Lemma eval_reports rec f e st s st' : (forall g st1 s1 st2, rec g st1 = Ok (s1, st2) -> extends from_plan st1 st2) ->
  eval_eff rec f e st = Ok (s, st') -> extends (fun d => d ∈ reports e \/ from_plan d) st st'.
Proof.
  intros Hrec. revert st s st'. induction e as [x|a IHa b IHb|a IHa x|d|g|g|]; intros st s st' H; cbn [eval_eff reports] in *.
  - injection H as _ <-. by apply extends_refl.
  - destruct (eval_eff rec f a st) as [[s1 st1]| |] eqn:Ea; [|done|done]. destruct (eval_eff rec f b st1) as [[s2 st2]| |] eqn:Eb; [|done|done].
    injection H as _ <-. apply IHa in Ea. apply IHb in Eb. eapply extends_trans.
    + eapply extends_mono; [|exact Ea]. intros d [?|?]; [left; apply elem_of_app; by left|by right].
    + eapply extends_mono; [|exact Eb]. intros d [?|?]; [left; apply elem_of_app; by right|by right].
  - destruct (eval_eff rec f a st) as [[s1 st1]| |] eqn:Ea; [|done|done]. injection H as _ <-. by apply IHa in Ea.
  - injection H as _ <-. exists [d]. split; [done|]. repeat constructor.
  - destruct (scc_edge f g (e_scc st)) as [[[] sc]|] eqn:Es; [| |done].
    + destruct (rec g _) as [[codes st1]| |] eqn:Er; [|done|done]. destruct (scc_after f g (e_scc st1)); [|done]. injection H as _ <-.
      apply Hrec in Er as (ds&E&F). exists ds. cbn [set_scc e_diags] in *. split; [done|]. eapply Forall_impl; [exact F|intros ? ?; by right].
    + injection H as _ <-. by apply extends_refl.
  - apply Hrec in H. eapply extends_mono; [|exact H]. by right.
  - done.
Qed.
Lemma find_reports fuel f st s st' : find_codes_in_func plan fuel f st = Ok (s, st') -> extends from_plan st st'.
Proof.
  revert f st s st'. induction fuel as [|n IH]; intros f st s st' H; [done|]. cbn [find_codes_in_func] in H.
  unfold scc_visit in H. destruct (sc_vertices (e_scc st) !! f) as [v|] eqn:Ev; [done|].
  destruct (eval_eff _ f (plan f) _) as [[result st1]| |] eqn:Ee; [|done|done].
  apply eval_reports in Ee; [|exact IH].
  assert (extends from_plan st st1) as E1.
  { destruct Ee as (ds&E&F). exists ds. split; [exact E|]. eapply Forall_impl; [exact F|]. intros d [Hd|Hd]; [by exists f|done]. }
  clear Ee. eapply extends_trans; [exact E1|]. apply extends_refl. revert H.
  unfold scc_end. destruct (sc_vertices (e_scc st1) !! f); [|done].
  destruct (negb _); [by intros [= _ <-]|].
  destruct (pop_until _ _) as [[popped rest]|]; [|done].
  destruct (unify_component _ _) as [u found']. by intros [= _ <-].
Qed.
End engine.

(** ** The checks *)
Section steps.
Context (pk : package) (lk : lookup_table) (fa : facts) (plan : fid -> eff diag) (fuel : nat).
(** The report about a method the codes of which are known. *)
Definition known_report (s : site) (m : gostring) : list diag :=
  match searchMethodType pk (s_value s) m with
  | Some o => match fa_codes fa !! o, s_iface s !! m with
              | Some codes, Some declared =>
                if decide (codes ∖ declared = ∅) then []
                else [Diag (s_pos s) (conversion_message pk (s_target s) m (sort_strings (elements (codes ∖ declared))))]
              | _, _ => []
              end
  | None => []
  end.
Definition step_known_report (p : option (site * gostring)) : list diag := match p with Some (s, m) => known_report s m | None => [] end.
Definition new_report (l : list (option (site * gostring))) (d : diag) : Prop :=
  from_plan plan d \/ exists s m excess, Some (s, m) ∈ l /\ (forall codes, ~ settled pk fa s m codes) /\ excess <> [] /\
    d = Diag (s_pos s) (conversion_message pk (s_target s) m excess).
Lemma new_cons p l d : new_report l d -> new_report (p :: l) d.
Proof. intros [?|(s&m&ex&?&?)]; [by left|right]. exists s, m, ex. split; [by right|done]. Qed.
Lemma settled_spec s m codes : settled pk fa s m codes <-> exists o, searchMethodType pk (s_value s) m = Some o /\ fa_codes fa !! o = Some codes.
Proof. unfold settled. by setoid_rewrite LookupProofs.searchMethodType_spec. Qed.
Lemma sorted_nonempty (s : codeset) : s <> ∅ -> sort_strings (elements s) <> [].
Proof.
  intros H E. apply H. apply set_eq. intros v. rewrite <-elem_of_elements, <-(sort_strings_perm (elements s)), E. rewrite elem_of_nil. set_solver.
Qed.
Lemma steps_known l st st' : check_steps pk lk fa plan fuel l st = Ok st' ->
  exists rest, e_diags st' ≡ₚ e_diags st ++ (l ≫= step_known_report) ++ rest /\ Forall (new_report l) rest.
Proof.
  revert st. induction l as [|[[s m]|] l IH]; intros st H; cbn [check_steps] in H; [| |done].
  { injection H as <-. exists []. rewrite !app_nil_r. split; [done|constructor]. }
  destruct (check_method pk lk fa plan fuel s st m) as [st1| |] eqn:Em; [|done|done].
  apply IH in H as (rest&Hp&Hrest).
  assert (exists ds, e_diags st1 ≡ₚ e_diags st ++ known_report s m ++ ds /\ Forall (new_report (Some (s, m) :: l)) ds) as (ds&Hds&Hnew).
  { unfold check_method in Em. unfold known_report. destruct (s_iface s !! m) as [declared|] eqn:Ei.
    2:{ injection Em as <-. exists []. split; [|constructor]. destruct (searchMethodType _ _ _) as [o|]; [destruct (fa_codes fa !! o)|]; by rewrite !app_nil_r. }
    unfold implemented_codes in Em. destruct (searchMethodType pk (s_value s) m) as [o|] eqn:Eo; [|done].
    destruct (fa_codes fa !! o) as [codes|] eqn:Ef.
    { exists []. split; [|constructor]. case_decide; injection Em as <-; cbn [add_diag e_diags]; by rewrite !app_nil_r. }
    assert (forall codes, ~ settled pk fa s m codes) as Hun.
    { intros codes (o'&Ho&Hc)%settled_spec. congruence. }
    assert (forall found st0, extends (from_plan plan) st st0 ->
      (if decide (found ∖ declared = ∅) then Ok st0 else Ok (add_diag (Diag (s_pos s) (conversion_message pk (s_target s) m (sort_strings (elements (found ∖ declared))))) st0)) = Ok st1 ->
      exists ds, e_diags st1 ≡ₚ e_diags st ++ [] ++ ds /\ Forall (new_report (Some (s, m) :: l)) ds) as G.
    { intros found st0 (ds&E&F) Hst. assert (Forall (new_report (Some (s, m) :: l)) ds) as F' by (eapply Forall_impl; [exact F|intros ? ?; by left]).
      destruct (decide _) as [D|D]; injection Hst as <-.
      - exists ds. rewrite E. by split.
      - exists (ds ++ [Diag (s_pos s) (conversion_message pk (s_target s) m (sort_strings (elements (found ∖ declared))))]). cbn [add_diag e_diags]. rewrite E, <-app_assoc. split; [done|].
        apply Forall_app. split; [done|]. apply Forall_singleton. right. eexists s, m, _. split_and!; [by left|done|by apply sorted_nonempty|done]. }
    destruct (searchMethod pk lk (s_value s) m) as [g|].
    - destruct (e_found st !! g) as [found|] eqn:Eg.
      + eapply G; [|exact Em]. by apply extends_refl.
      + destruct (find_codes_in_func plan fuel g st) as [[found st0]| |] eqn:Efi; [|done|done]. eapply G; [|exact Em]. by eapply find_reports.
    - eapply G; [|exact Em]. by apply extends_refl. }
  exists (ds ++ rest). split.
  - rewrite Hp, Hds. cbn [mbind list_bind step_known_report]. unfold mbind. rewrite <-!app_assoc. do 2 apply Permutation_app_head.
    rewrite !app_assoc. apply Permutation_app_tail. apply Permutation_app_comm.
  - apply Forall_app. split; [done|]. eapply Forall_impl; [exact Hrest|]. intros d. apply new_cons.
Qed.
End steps.

(** ** The reports about one conversion, and about one declaration *)
Section said.
Context (pk : package) (fa : facts).
Definition methods_of (s : site) : list gostring :=
  if decide (s_value s = s_target s) then [] else match s_value s with TUntypedNil => [] | _ => elements (dom (s_iface s)) end.
Definition site_said (s : site) : list diag := methods_of s ≫= known_report pk fa s.
Definition conv_said (c : conv) : list diag := match c with CSite s => site_said s | CPanic => [] end.
Definition decl_said (x : topdecl) : list diag := top_conversions pk fa x ≫= conv_said.
Lemma methods_compared s m : m ∈ methods_of s <-> compared s m.
Proof.
  pose proof (site_steps_compared elements s m (fun x => reflexivity _)) as H. rewrite <-H. unfold methods_of, site_steps.
  destruct (decide _); [by rewrite !elem_of_nil|]. destruct (s_value s); rewrite ?elem_of_nil, ?elem_of_list_fmap; try done; (split; [eauto|by intros (?&[= ->]&?)]).
Qed.
Lemma methods_nodup s : NoDup (methods_of s).
Proof. unfold methods_of. destruct (decide _); [constructor|]. destruct (s_value s); try apply NoDup_elements; constructor. Qed.
Lemma site_steps_methods order s : (forall x, order x ≡ₚ elements x) -> site_steps order s ≡ₚ (fun m => (s, m)) <$> methods_of s.
Proof.
  intros Ho. unfold site_steps, methods_of. destruct (decide _); [done|]. destruct (s_value s); try (by apply fmap_Permutation, Ho). done.
Qed.
Lemma settled_dec s m : (exists codes, settled pk fa s m codes) \/ (forall codes, ~ settled pk fa s m codes).
Proof.
  destruct (searchMethodType pk (s_value s) m) as [o|] eqn:Eo.
  - destruct (fa_codes fa !! o) as [codes|] eqn:Ec.
    + left. exists codes. apply settled_spec. eauto.
    + right. intros codes (o'&?&?)%settled_spec. congruence.
  - right. intros codes (o'&?&?)%settled_spec. congruence.
Qed.
Lemma known_verdict s m codes : compared s m -> settled pk fa s m codes -> settled_verdict pk fa s m (known_report pk fa s m).
Proof.
  intros (_&_&[declared Hd]) Hse. pose proof Hse as (o&Ho&Hc)%settled_spec. unfold known_report. rewrite Ho, Hc, Hd.
  set (excess := sort_strings (elements (codes ∖ declared))).
  assert (listing excess (codes ∖ declared)) as Hl.
  { split_and!.
    - unfold excess. rewrite sort_strings_perm. apply NoDup_elements.
    - apply sort_strings_sorted.
    - intros v. unfold excess. by rewrite sort_strings_perm, elem_of_elements. }
  pose proof (settled_verdict_intro pk fa s m declared codes excess Hd Hse Hl) as H.
  destruct (decide (codes ∖ declared = ∅)) as [E|E].
  - assert (excess = []) as Ex; [|by rewrite Ex in H].
    destruct excess as [|x l]; [done|]. destruct Hl as (_&_&Hl). assert (x ∈ codes ∖ declared) as Hx by (apply Hl; by left). rewrite E in Hx. by apply elem_of_empty in Hx.
  - assert (excess <> []) as Hne by (by apply sorted_nonempty). destruct excess as [|x l] eqn:Ex; [done|].
    replace (conversion_message pk (s_target s) m (x :: l)) with (excess_message pk (s_target s) m (x :: l)); [done|].
    unfold conversion_message, excess_message, quoted, format_strings. rewrite <-!app_assoc. reflexivity.
Qed.
Lemma site_said_spec s : settled_site pk fa s (site_said s).
Proof.
  unfold settled_site. set (is_known := fun m => exists codes, settled pk fa s m codes).
  assert (forall ms, NoDup ms -> (forall m, m ∈ ms -> compared s m) -> exists ms' vs, NoDup ms' /\ (forall m, m ∈ ms' <-> m ∈ ms /\ is_known m) /\
    Forall2 (settled_verdict pk fa s) ms' vs /\ ms ≫= known_report pk fa s = concat vs) as H.
  { intros ms. induction ms as [|m ms IH]; intros Hnd Hc.
    { exists [], []. split_and!; [constructor| |constructor|done]. intros m. rewrite elem_of_nil. tauto. }
    apply NoDup_cons in Hnd as [Hn Hnd]. destruct IH as (ms'&vs&H1&H2&H3&H4); [done|intros ? ?; apply Hc; by right|].
    destruct (settled_dec s m) as [[codes Hs]|Hs].
    - exists (m :: ms'), (known_report pk fa s m :: vs). split_and!.
      + apply NoDup_cons. split; [|done]. by intros [? _]%H2.
      + intros m'. rewrite !elem_of_cons, H2. split; [|tauto]. intros [->|?]; [|tauto]. split; [by left|by exists codes].
      + constructor; [|done]. eapply known_verdict; [apply Hc; by left|done].
      + rewrite bind_cons, H4. reflexivity.
    - exists ms', vs. split_and!; [done| |done|].
      + intros m'. rewrite H2, elem_of_cons. split; [tauto|]. intros [[->|?] Hk]; [|tauto]. destruct Hk as [codes Hk]. by destruct (Hs codes).
      + assert (known_report pk fa s m = []) as E.
        { unfold known_report. destruct (searchMethodType pk (s_value s) m) as [o|] eqn:Eo; [|done]. destruct (fa_codes fa !! o) as [codes|] eqn:Ec; [|done].
          destruct (Hs codes). apply settled_spec. eauto. }
        rewrite bind_cons, H4, E. reflexivity. }
  destruct (H (methods_of s)) as (ms&vs&H1&H2&H3&H4); [apply methods_nodup|intros m; apply methods_compared|].
  exists ms, vs. split_and!; [done| |done|exact H4]. intros m. by rewrite H2, methods_compared.
Qed.
Lemma steps_said orders l : (forall k x, orders k x ≡ₚ elements x) -> (steps orders (CSite <$> l)) ≫= step_known_report pk fa ≡ₚ l ≫= site_said.
Proof.
  intros Ho. induction l as [|s l IH]; [done|]. cbn [fmap list_fmap steps]. rewrite bind_app. cbn [mbind list_bind] in *. unfold fmap in IH.
  rewrite IH. apply Permutation_app_tail.
  assert (forall p : list (site * gostring), (Some <$> p) ≫= step_known_report pk fa = p ≫= (fun q => known_report pk fa q.1 q.2)) as E.
  { intros p. induction p as [|[s' m'] p IHp]; [done|]. cbn. unfold mbind in IHp. f_equal. exact IHp. }
  unfold fmap, mbind in *. rewrite E. pose proof (bind_perm (fun q : site * gostring => known_report pk fa q.1 q.2) _ _ (site_steps_methods (orders (length (list_fmap _ _ CSite l))) s (Ho _))) as Hp.
  unfold mbind in Hp. rewrite Hp. unfold site_said. clear. induction (methods_of s) as [|m ms IH]; [done|]. cbn. unfold mbind in IH. by apply Permutation_app_head.
Qed.
End said.

Lemma bind_concat {A B} (f : A -> list B) l : l ≫= f = concat (f <$> l).
Proof. induction l as [|x l IH]; [done|]. rewrite bind_cons, IH. done. Qed.

(** ** One run *)
Section run.
Context (pk : package) (strict : bool) (ord : orders) (fa : facts) (r : run).
Notation lk := (collectFunctions pk).
Context (Hord : orders_ok lk ord) (Hr : completes pk strict ord fa r).
Notation fe := (facts_after pk ord r).
Notation plan2 := (plan pk lk fe (or_tracked ord)).

Lemma checks_settled : exists sites rest, conversion_sites pk ord r sites /\
  e_diags (r_end r) ≡ₚ e_diags (r_loop r) ++ (sites ≫= site_said pk fe) ++ rest /\ Forall (unsettled_report pk fe plan2 sites) rest.
Proof.
  pose proof (co_end _ _ _ _ _ Hr) as E. rewrite check_all_steps in E.
  pose proof (steps_are_known (or_checks ord) (all_conversions pk fe) (ok_checks _ _ Hord)) as Hk.
  pose proof (steps_analyse pk lk fe plan2 (run_depth pk ord r) (e_diags (r_loop r)) (steps (or_checks ord) (all_conversions pk fe)) (bare (r_loop r)) (r_end r) Hk) as H.
  rewrite pre_bare in H. destruct (H E) as (Hsafe&_). clear H.
  destruct (steps_sites pk _ _ Hsafe) as [sites Hs]. exists sites.
  apply steps_known in E as (rest&Hp&Hrest). exists rest. split_and!; [exact Hs| |].
  - rewrite Hp. apply Permutation_app_head, Permutation_app_tail. rewrite Hs. apply steps_said, (ok_checks _ _ Hord).
  - eapply Forall_impl; [exact Hrest|]. intros d [[h Hh]|(s&m&excess&Hin&Hun&Hne&->)]; [by eapply ur_function|].
    rewrite Hs in Hin. assert (s ∈ sites /\ compared s m) as [? ?].
    { clear -Hin Hord. induction sites as [|s' l IH]; [by apply elem_of_nil in Hin|]. cbn [fmap list_fmap steps] in Hin. apply elem_of_app in Hin as [Hin|Hin].
      - apply elem_of_list_fmap in Hin as (q&[= <-]&Hq).
        destruct (site_steps_shape _ s' (ok_checks _ _ Hord (length (CSite <$> l)))) as (ms&_&Hms&Em). unfold fmap in *. rewrite Em in Hq.
        apply elem_of_list_fmap in Hq as (m'&[= -> ->]&Hm). split; [by left|]. by apply Hms.
      - apply IH in Hin as [? ?]. split; [by right|done]. }
    eapply ur_method; try done. f_equal. destruct excess as [|x l]; [done|]. unfold conversion_message, excess_message, quoted, format_strings. rewrite <-!app_assoc. reflexivity.
Qed.

(** Whatever the functions of the package look like: for every conversion to an error interface and every method with declared codes there is
    exactly one verdict - the declared codes are compared with those of the interface -, and all other reports made while conversions are
    checked are about function bodies, or about methods that do not declare codes. *)
Theorem C28_declared : exists sites vs rest,
  conversion_sites pk ord r sites /\ Forall2 (settled_site pk fe) sites vs /\
  e_diags (r_end r) ≡ₚ e_diags (r_loop r) ++ concat vs ++ rest /\ Forall (unsettled_report pk fe plan2 sites) rest.
Proof.
  destruct checks_settled as (sites&rest&Hs&Hp&Hrest). exists sites, (site_said pk fe <$> sites), rest. split_and!; [done| |by rewrite <-bind_concat|done].
  apply Forall2_fmap_r, Forall_Forall2_diag, Forall_forall. intros s _. apply site_said_spec.
Qed.

(** The same, by declarations. *)
Lemma decl_sites x : x ∈ pk_top pk -> exists sites, top_conversions pk fe x = CSite <$> sites.
Proof.
  destruct checks_settled as (sites&_&Hs&_). unfold conversion_sites, all_conversions in Hs. revert sites Hs.
  induction (pk_top pk) as [|y l IH]; intros sites Hs Hx; [by apply elem_of_nil in Hx|]. cbn [flat_map] in Hs. symmetry in Hs.
  apply fmap_app_inv in Hs as (s1&s2&H1&H2&->). apply elem_of_cons in Hx as [->|Hx]; [by exists s1|]. by apply (IH s2).
Qed.
Lemma sites_in_spec x sites : top_conversions pk fe x = CSite <$> sites -> sites_in pk fe x sites.
Proof.
  intros E m t v pos. assert (Site m t v pos ∈ sites <-> CSite (Site m t v pos) ∈ top_conversions pk fe x) as ->.
  { rewrite E, elem_of_list_fmap. split; [eauto|]. by intros (?&[= <-]&?). }
  assert (CSite (Site m t v pos) ∈ top_conversions pk fe x <-> exists w n, lies_in pk x w n /\ CSite (Site m t v pos) ∈ node_conversions pk fe w n) as ->.
  { destruct x as [f|n0]; cbn [top_conversions lies_in].
    - destruct (pk_funcs pk !! f) as [fn|] eqn:Ef.
      2:{ rewrite elem_of_nil. split; [done|]. by intros (?&?&(?&?&?&_)&_). }
      destruct (fn_body fn) as [b|] eqn:Eb.
      2:{ rewrite elem_of_nil. split; [done|]. intros (?&?&(?&?&[= <-]&?&_)&_). congruence. }
      rewrite tree_spec. split.
      + intros (w&n&?&?). exists w, n. split; [|done]. exists fn, b. done.
      + intros (w&n&(fn'&b'&[= <-]&?&?)&?). exists w, n. split; [congruence|done].
    - apply tree_spec. }
  split.
  - intros (w&n&Hl&H). apply conversions_found in H as [(t'&m'&v'&pos'&Hc&Hm&H)|[? _]]; [|done]. destruct v' as [v'|]; [|done].
    injection H as <- <- <- <-. split; [done|]. eauto.
  - intros (Hm&w&n&Hl&Hc). exists w, n. split; [done|]. exact (converts_found pk fe w n t (Some v) pos m Hc Hm).
Qed.
Lemma decl_said_spec x : x ∈ pk_top pk -> exists sites vs, sites_in pk fe x sites /\ Forall2 (settled_site pk fe) sites vs /\ decl_said pk fe x = concat vs.
Proof.
  intros Hx. destruct (decl_sites x Hx) as [sites E]. exists sites, (site_said pk fe <$> sites). split_and!.
  - by apply sites_in_spec.
  - apply Forall2_fmap_r, Forall_Forall2_diag, Forall_forall. intros s _. apply site_said_spec.
  - unfold decl_said. rewrite E, <-bind_concat. clear. induction sites as [|s l IH]; [done|]. rewrite fmap_cons, !bind_cons, IH. done.
Qed.
Lemma checks_by_declaration : exists sites rest, conversion_sites pk ord r sites /\
  e_diags (r_end r) ≡ₚ e_diags (r_loop r) ++ (pk_top pk ≫= decl_said pk fe) ++ rest /\ Forall (unsettled_report pk fe plan2 sites) rest.
Proof.
  destruct checks_settled as (sites&rest&Hs&Hp&Hrest). exists sites, rest. split_and!; [done| |done]. rewrite Hp. apply Permutation_app_head, Permutation_app_tail.
  unfold conversion_sites, all_conversions in Hs. clear -Hs. revert sites Hs. induction (pk_top pk) as [|y l IH]; intros sites Hs.
  - symmetry in Hs. apply fmap_nil_inv in Hs as ->. done.
  - cbn [flat_map] in Hs. symmetry in Hs. apply fmap_app_inv in Hs as (s1&s2&H1&H2&->). rewrite bind_app, bind_cons. rewrite (IH s2 H2). apply Permutation_app_tail.
    unfold decl_said. rewrite H1. clear. induction s1 as [|s l IH]; [done|]. rewrite fmap_cons, !bind_cons. cbn [conv_said]. by apply Permutation_app_head.
Qed.
End run.

(** ** Two versions *)
Section edit.
Context (pk : package) (funcs' : gmap fid func) (top' : list topdecl).
Notation pk' := (with_bodies funcs' top' pk).
Lemma tree_untouched fa w n : (forall m g, m ∈ walk n -> as_funclit m = Some g -> funcs' !! g = pk_funcs pk !! g) ->
  tree_conversions pk' fa w n = tree_conversions pk fa w n.
Proof.
  revert w n. fix IH 2. intros w [id k kids] H. rewrite !tree_unfold. cbn [node_kids].
  assert (inner pk' w (Node id k kids) = inner pk w (Node id k kids)) as Ei.
  { unfold inner. destruct (as_funclit (Node id k kids)) as [g|] eqn:Eg; [|done]. cbn [with_bodies pk_funcs].
    rewrite (H (Node id k kids) g); [done| |done]. cbn [walk]. by left. }
  rewrite Ei. generalize (inner pk w (Node id k kids)). intros w0. f_equal.
  assert (forall m g, m ∈ flat_map walk kids -> as_funclit m = Some g -> funcs' !! g = pk_funcs pk !! g) as Hk.
  { intros m g Hm. apply H. cbn [walk]. by right. }
  clear H Ei. induction kids as [|c kids IHk]; [done|]. cbn [flat_map] in *. f_equal.
  - apply IH. intros m g Hm. apply Hk. apply elem_of_app. by left.
  - apply IHk. intros m g Hm. apply Hk. apply elem_of_app. by right.
Qed.
Lemma top_untouched fa x : untouched_decl pk funcs' x -> top_conversions pk' fa x = top_conversions pk fa x.
Proof.
  destruct x as [f|n]; cbn [untouched_decl top_conversions with_bodies pk_funcs].
  - intros [Hf Hl]. rewrite Hf. destruct (pk_funcs pk !! f) as [fn|] eqn:Ef; [|done]. destruct (fn_body fn) as [b|] eqn:Eb; [|done].
    apply tree_untouched. intros m g Hm. apply (Hl fn); [done|]. unfold body_nodes. by rewrite Eb.
  - intros H. by apply tree_untouched.
Qed.
Lemma decl_untouched fa x : untouched_decl pk funcs' x -> decl_said pk' fa x = decl_said pk fa x.
Proof. intros H. unfold decl_said. by rewrite top_untouched. Qed.
End edit.

(** If bodies of functions are edited (see C48_facts), then the same is said about the conversions in every declaration that was not edited,
    as far as methods are concerned that declare codes.  (For others, see C48_refuted_conversions.) *)
Theorem C48_conversions pk funcs' top' strict ord ord' fa r r' :
  same_headers pk funcs' -> (forall f, error_method pk f -> untouched pk funcs' f) ->
  orders_ok (collectFunctions pk) ord -> orders_ok (collectFunctions (with_bodies funcs' top' pk)) ord' ->
  interfaces_ok pk -> distinct_definitions pk ->
  completes pk strict ord fa r -> completes (with_bodies funcs' top' pk) strict ord' fa r' ->
  let pk' := with_bodies funcs' top' pk in let known := facts_after pk ord r in
  exists said said' sites sites' rest rest',
    e_diags (r_end r) ≡ₚ e_diags (r_loop r) ++ (pk_top pk ≫= said) ++ rest /\
    e_diags (r_end r') ≡ₚ e_diags (r_loop r') ++ (top' ≫= said') ++ rest' /\
    (forall x, x ∈ pk_top pk -> exists ss vs, sites_in pk known x ss /\ Forall2 (settled_site pk known) ss vs /\ said x = concat vs) /\
    (forall x, x ∈ top' -> exists ss vs, sites_in pk' known x ss /\ Forall2 (settled_site pk' known) ss vs /\ said' x = concat vs) /\
    (forall x, untouched_decl pk funcs' x -> said' x = said x) /\
    conversion_sites pk ord r sites /\ Forall (unsettled_report pk known (plan pk (collectFunctions pk) known (or_tracked ord)) sites) rest /\
    conversion_sites pk' ord' r' sites' /\ Forall (unsettled_report pk' known (plan pk' (collectFunctions pk') known (or_tracked ord')) sites') rest'.
Proof.
  intros Hh Hem Hord Hord' Hok Hdd Hr Hr'. cbv zeta.
  pose proof (facts_after_bodies pk funcs' top' strict ord ord' fa r r' Hh Hem Hord Hord' Hok Hdd Hr Hr') as Ef.
  destruct (checks_by_declaration pk strict ord fa r Hord Hr) as (sites&rest&Hs&Hp&Hrest).
  destruct (checks_by_declaration (with_bodies funcs' top' pk) strict ord' fa r' Hord' Hr') as (sites'&rest'&Hs'&Hp'&Hrest').
  rewrite Ef in Hp', Hrest'.
  exists (decl_said pk (facts_after pk ord r)), (decl_said (with_bodies funcs' top' pk) (facts_after pk ord r)), sites, sites', rest, rest'. split_and!; try done.
  - intros x. apply (decl_said_spec pk strict ord fa r Hord Hr).
  - intros x Hx. pose proof (decl_said_spec (with_bodies funcs' top' pk) strict ord' fa r' Hord' Hr' x Hx) as H. rewrite Ef in H. exact H.
  - intros x Hx. by apply decl_untouched.
Qed.
