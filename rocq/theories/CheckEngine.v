(** * The conversion checks (interfaces_verify.go 33-99, 484-527) in terms of the engine. *)
From stdpp Require Import base list gmap relations sets.
From Verif Require Import GoString ErrorCode Scc Engine SpecEngine EngineProofs EngineTheorems CodeSet Constant GoAst Taint Extract
  Analyse Termination Phase ErrorTypes Claims Interfaces Conversions Verify RunEngine MainLoop.

(** ** Replacing the plan of functions that have already been visited *)
Section same.
Context {D : Type}.
Notation vdom st := (dom (sc_vertices (e_scc st)) : gset fid).
Definition grows_only (st : est D) (r : outcome (codeset * est D)) : Prop :=
  match r with Ok (_, st') => vdom st ⊆ vdom st' | Panicked => True | OutOfFuel => True end.

Lemma low_dom vs f k vs' : set_low vs f k = Some vs' -> (dom vs : gset fid) ⊆ dom vs'.
Proof. unfold set_low. destruct (vs !! f); intros [= <-]. rewrite dom_insert_L. set_solver. Qed.
Lemma off_dom l vs : (dom (foldl off_stack vs l) : gset fid) = dom vs.
Proof.
  revert vs. induction l as [|x l IH]; intros vs; [done|]. cbn. rewrite IH. unfold off_stack. by rewrite dom_alter_L.
Qed.
Lemma eval_grows rec f e st : (forall g st1, grows_only st1 (rec g st1)) -> grows_only st (eval_eff rec f e st).
Proof.
  intros Hrec. revert st. induction e as [s|a IHa b IHb|a IHa s|d|g|g|]; intros st; cbn [eval_eff].
  - by cbn.
  - specialize (IHa st). destruct (eval_eff rec f a st) as [[s1 st1]| |]; try done. cbn in IHa.
    specialize (IHb st1). destruct (eval_eff rec f b st1) as [[s2 st2]| |]; try done. cbn in *. by etrans.
  - specialize (IHa st). by destruct (eval_eff rec f a st) as [[s1 st1]| |].
  - by cbn.
  - unfold scc_edge. destruct (sc_vertices (e_scc st) !! g) as [t|] eqn:Eg.
    + destruct (v_on t); [|by cbn].
      destruct (set_low _ _ _) as [vs|] eqn:Es; [|done]. cbn. by eapply low_dom.
    + pose proof (Hrec g (set_scc st (e_scc st))) as Hr.
      destruct (rec g _) as [[codes st1]| |]; try done. cbn in Hr.
      unfold scc_after. destruct (sc_vertices (e_scc st1) !! g); [|done].
      destruct (set_low _ _ _) as [vs|] eqn:Es; [|done]. cbn. etrans; [exact Hr|]. by eapply low_dom.
  - apply Hrec.
  - done.
Qed.
Lemma find_grows plan fuel f (st : est D) : grows_only st (find_codes_in_func plan fuel f st).
Proof.
  revert f st. induction fuel as [|n IH]; intros f st; [done|]. cbn [find_codes_in_func].
  unfold scc_visit. destruct (sc_vertices (e_scc st) !! f) as [v|] eqn:Ev; [done|].
  set (st0 := set_scc st _).
  assert (vdom st0 = {[f]} ∪ vdom st) as Hd.
  { unfold st0. cbn. by rewrite dom_insert_L. }
  pose proof (eval_grows (find_codes_in_func plan n) f (plan f) st0 IH) as He.
  destruct (eval_eff _ f (plan f) st0) as [[result st1]| |]; try done. unfold grows_only in He. rewrite Hd in He.
  unfold scc_end. destruct (sc_vertices (e_scc st1) !! f); [|done].
  destruct (negb _); [cbn; set_solver|].
  destruct (pop_until _ _) as [[popped rest]|]; [|done].
  destruct (unify_component _ _) as [u found']. cbn. rewrite off_dom. set_solver.
Qed.
Lemma eval_same rec rec' f e V (st : est D) : V ⊆ vdom st ->
  (forall g st1, V ⊆ vdom st1 -> rec g st1 = rec' g st1 /\ grows_only st1 (rec' g st1)) ->
  eval_eff rec f e st = eval_eff rec' f e st.
Proof.
  intros HV Hrec. assert (forall g st1, V ⊆ vdom st1 -> grows_only st1 (rec' g st1)) as Hg by (intros; by apply Hrec).
  cut (eval_eff rec f e st = eval_eff rec' f e st /\ grows_only st (eval_eff rec' f e st)); [by intros []|].
  revert st HV. induction e as [s|a IHa b IHb|a IHa s|d|g|g|]; intros st HV; cbn [eval_eff].
  - by split; [|cbn].
  - destruct (IHa st HV) as [-> Ha]. destruct (eval_eff rec' f a st) as [[s1 st1]| |]; try done. cbn in Ha.
    destruct (IHb st1) as [-> Hb]; [set_solver|]. destruct (eval_eff rec' f b st1) as [[s2 st2]| |]; try done.
    split; [done|]. cbn in *. set_solver.
  - destruct (IHa st HV) as [-> Ha]. by destruct (eval_eff rec' f a st) as [[s1 st1]| |].
  - by split; [|cbn].
  - unfold scc_edge. destruct (sc_vertices (e_scc st) !! g) as [t|] eqn:Eg.
    + destruct (v_on t); [|by split; [|cbn]].
      destruct (set_low _ _ _) as [vs|] eqn:Es; [|done]. split; [done|]. cbn. by eapply low_dom.
    + destruct (Hrec g (set_scc st (e_scc st)) HV) as [-> Hr].
      destruct (rec' g _) as [[codes st1]| |]; try done. cbn in Hr.
      unfold scc_after. destruct (sc_vertices (e_scc st1) !! g); [|done].
      destruct (set_low _ _ _) as [vs|] eqn:Es; [|done]. split; [done|]. cbn. etrans; [exact Hr|]. by eapply low_dom.
  - by apply Hrec.
  - done.
Qed.
Lemma find_same (plan plan' : fid -> eff D) V : (forall g, g ∉ V -> plan g = plan' g) ->
  forall fuel f st, V ⊆ vdom st -> find_codes_in_func plan fuel f st = find_codes_in_func plan' fuel f st.
Proof.
  intros Hp. induction fuel as [|n IH]; intros f st HV; [done|]. cbn [find_codes_in_func].
  unfold scc_visit. destruct (sc_vertices (e_scc st) !! f) as [v|] eqn:Ev; [done|].
  assert (plan f = plan' f) as ->.
  { apply Hp. intros Hf. apply HV, elem_of_dom in Hf as [? ?]. congruence. }
  set (st0 := set_scc st _).
  assert (V ⊆ vdom st0) as HV0.
  { unfold st0. cbn. rewrite dom_insert_L. set_solver. }
  rewrite (eval_same (find_codes_in_func plan n) (find_codes_in_func plan' n) f (plan' f) V); [done|done|].
  intros g st1 HV1. split; [by apply IH|]. apply find_grows.
Qed.
Lemma analyse_same (plan plan' : fid -> eff D) V : (forall g, g ∉ V -> plan g = plan' g) ->
  forall fuel todo st, V ⊆ vdom st -> analyse_all plan fuel todo st = analyse_all plan' fuel todo st.
Proof.
  intros Hp fuel todo. induction todo as [|f todo IH]; intros st HV; [done|]. cbn [analyse_all].
  rewrite (find_same plan plan' V Hp fuel f st HV). pose proof (find_grows plan' fuel f st) as Hg.
  destruct (e_found st !! f).
  - by rewrite IH.
  - destruct (find_codes_in_func plan' fuel f st) as [[codes st1]| |]; [|done|done]. rewrite IH; [done|]. cbn in Hg. set_solver.
Qed.

(** A finished analysis continued with another plan: what has been found counts as given. *)
Definition given (found : gmap fid codeset) (plan : fid -> eff D) (f : fid) : eff D :=
  match found !! f with Some s => EffSet s | None => plan f end.
Lemma given_calls found plan f g : calls (given found plan) f g <-> found !! f = None /\ calls plan f g.
Proof.
  unfold calls, given. destruct (found !! f) as [s|]; cbn.
  - rewrite elem_of_nil. split; [done|]. by intros [].
  - split; [done|]. by intros [].
Qed.
Lemma given_may found plan f s c : found !! f = Some s -> may (given found plan) f c <-> c ∈ s.
Proof.
  intros Hf. split.
  - intros H. revert f c H s Hf.
    assert ((forall f c, may (given found plan) f c -> forall s, found !! f = Some s -> c ∈ s) /\
            (forall e c, from (given found plan) e c -> forall s, e = EffSet s -> c ∈ s)) as [H _]; [|exact H].
    apply may_from_ind; try (by intros).
    + intros f c _ IH s Hf. apply IH. unfold given. by rewrite Hf.
    + intros f g c [Hr _] _ IH s Hf. destruct Hr as [|a b d Hc _]; [by apply IH|].
      apply given_calls in Hc as [? _]. congruence.
    + intros s c Hc s' [= <-]. done.
  - intros Hc. apply may_own. unfold given. rewrite Hf. by constructor.
Qed.
Lemma inv_rebase plan plan' (roots roots' : fid -> Prop) (st : est D) comps base : inv plan roots base comps st [] ->
  (forall f, visited st f -> roots' f) ->
  inv (given (e_found st) plan') roots' (dom (e_found st)) (e_comps st) st [].
Proof.
  intros HI Hro. pose proof (empty_path _ _ _ _ _ HI) as Hstk.
  assert (forall n, visited st n <-> is_Some (e_found st !! n)) as Hvis.
  { intros n. rewrite (i_found _ _ _ _ _ _ HI n). split; [|tauto]. intros ?. split; [done|]. apply not_elem_of_nil. }
  assert (forall n, popped st n <-> visited st n) as Hpop.
  { intros n. unfold popped. rewrite Hstk. split; [tauto|]. intros ?. split; [done|]. apply not_elem_of_nil. }
  constructor; rewrite ?Hstk; try (by intros; decompose_elem_of_list).
  - apply (i_bound _ _ _ _ _ _ HI).
  - apply (i_inj _ _ _ _ _ _ HI).
  - rewrite <-Hstk. apply (i_on _ _ _ _ _ _ HI).
  - intros l1 l2 Hl a b Ha. destruct l1; [by apply elem_of_nil in Ha|done].
  - intros n g Hn%Hpop%Hvis [E _]%given_calls. destruct Hn. congruence.
  - intros n Hn%Hpop%Hvis. destruct Hn as [s Hs]. exists s. split; [done|]. intros c. by rewrite given_may.
  - intros n. rewrite Hvis. split; [|tauto]. intros ?. split; [done|]. apply not_elem_of_nil.
  - intros n Hn. left. by apply Hro.
  - intros n s c Hs Hc. by rewrite given_may.
  - intros l1 p l2 Hl. by destruct l1.
  - intros n Hn%elem_of_dom. by apply Hpop, Hvis.
  - exists []. split_and!.
    + by rewrite app_nil_r.
    + intros n. rewrite Hpop, Hvis, elem_of_dom. split; [by left|]. intros [?|(C&HC&_)]; [done|]. by apply elem_of_nil in HC.
    + constructor.
    + intros C x HC. by apply elem_of_nil in HC.
    + intros cs1 C cs2 H. by destruct cs1.
Qed.
End same.

(** ** The checks as a list of steps *)
Section steps.
Context (pk : package) (lk : lookup_table) (fa : facts) (plan : fid -> eff diag) (fuel : nat).
Notation info := (pk_info pk).

(** The methods checked; [None]: the analyzer panics. *)
Definition site_steps (order : gset gostring -> list gostring) (s : site) : list (site * gostring) :=
  if decide (s_value s = s_target s) then []
  else match s_value s with TUntypedNil => [] | _ => (fun m => (s, m)) <$> order (dom (s_iface s)) end.
Fixpoint steps (orders : nat -> gset gostring -> list gostring) (l : list conv) : list (option (site * gostring)) :=
  match l with
  | [] => []
  | CPanic :: _ => [None]
  | CSite s :: l' => (Some <$> site_steps (orders (length l')) s) ++ steps orders l'
  end.
Fixpoint check_steps (l : list (option (site * gostring))) (st : est diag) : outcome (est diag) :=
  match l with
  | [] => Ok st
  | None :: _ => Panicked
  | Some (s, m) :: l' => match check_method pk lk fa plan fuel s st m with
                         | Ok st' => check_steps l' st'
                         | Panicked => Panicked
                         | OutOfFuel => OutOfFuel
                         end
  end.
Lemma check_methods_steps s ms l st :
  match check_methods pk lk fa plan fuel s ms st with
  | Ok st' => check_steps l st'
  | Panicked => Panicked
  | OutOfFuel => OutOfFuel
  end = check_steps ((Some <$> ((fun m => (s, m)) <$> ms)) ++ l) st.
Proof.
  revert st. induction ms as [|m ms IH]; intros st; [done|]. cbn [fmap list_fmap app check_steps check_methods].
  by destruct (check_method pk lk fa plan fuel s st m).
Qed.
Lemma check_all_steps orders l st : check_all pk lk fa plan fuel orders l st = check_steps (steps orders l) st.
Proof.
  revert st. induction l as [|[s|] l IH]; intros st; [done| |done]. cbn [check_all steps].
  unfold check_site, site_steps. destruct (decide _); [by apply IH|].
  destruct (s_value s); try (rewrite <-check_methods_steps; destruct (check_methods _ _ _ _ _ _ _ _); by auto). by apply IH.
Qed.

(** The function whose codes are needed, if any; the codes, given those of the functions of the package; the report. *)
Definition step_query (p : site * gostring) : option fid :=
  match searchMethodType pk (s_value p.1) p.2 with
  | Some o => match fa_codes fa !! o with Some _ => None | None => searchMethod pk lk (s_value p.1) p.2 end
  | None => None
  end.
Definition step_codes (val : fid -> codeset) (p : site * gostring) : codeset :=
  match searchMethodType pk (s_value p.1) p.2 with
  | Some o => match fa_codes fa !! o with
              | Some codes => codes
              | None => match searchMethod pk lk (s_value p.1) p.2 with Some g => val g | None => ∅ end
              end
  | None => ∅
  end.
Definition step_report (val : fid -> codeset) (p : site * gostring) : list diag :=
  match s_iface p.1 !! p.2 with
  | None => []
  | Some codes =>
    let unexpected := step_codes val p ∖ codes in
    if decide (unexpected = ∅) then []
    else [Diag (s_pos p.1) (conversion_message pk (s_target p.1) p.2 (sort_strings (elements unexpected)))]
  end.
Definition step_panics (p : option (site * gostring)) : Prop :=
  match p with
  | None => True
  | Some (s, m) => is_Some (s_iface s !! m) /\ searchMethodType pk (s_value s) m = None
  end.
Definition step_known (p : option (site * gostring)) : Prop :=
  match p with Some (s, m) => is_Some (s_iface s !! m) | None => True end.
Definition step_queries (l : list (option (site * gostring))) : list fid :=
  omap (fun p => p ≫= step_query) l.
Definition step_reports (val : fid -> codeset) (l : list (option (site * gostring))) : list diag :=
  l ≫= fun p => match p with Some p => step_report val p | None => [] end.

Lemma steps_analyse ds l st st' : Forall step_known l -> check_steps l (pre ds st) = Ok st' ->
  Forall (fun p => ~ step_panics p) l /\
  exists res st2 ds', analyse_all plan fuel (step_queries l) st = Ok (res, st2) /\ st' = with_diags ds' st2 /\
    forall val, (forall g s, (g, s) ∈ res -> val g = s) -> ds' ≡ₚ ds ++ e_diags st2 ++ step_reports val l.
Proof.
  revert ds st. induction l as [|[[s m]|] l IH]; intros ds st Hk E; cbn [check_steps] in E; [| |done].
  { injection E as <-. split; [constructor|]. exists [], st, (ds ++ e_diags st). split_and!; [done|done|]. intros. cbn. by rewrite app_nil_r. }
  apply Forall_cons in Hk as [[codes Hm] Hk]. cbn in Hm.
  unfold check_method in E. rewrite Hm in E.
  destruct (implemented_codes pk lk fa plan fuel (s_value s) m (pre ds st)) as [[found st1]| |] eqn:Ei; [|done|done].
  (* the query *)
  assert (~ step_panics (Some (s, m)) /\ exists st0 pres, st1 = pre ds st0 /\
    (forall rest, analyse_all plan fuel (omap (fun p => p ≫= step_query) [Some (s, m)] ++ rest) st =
      match analyse_all plan fuel rest st0 with Ok (r, st2) => Ok (pres ++ r, st2) | Panicked => Panicked | OutOfFuel => OutOfFuel end) /\
    forall val, (forall g s, (g, s) ∈ pres -> val g = s) -> step_codes val (s, m) = found) as (Hnp&st0&pres&->&Hana&Hval).
  { unfold implemented_codes in Ei. cbn [step_panics omap list_omap mbind option_bind].
    unfold step_query, step_codes. cbn [fst snd].
    destruct (searchMethodType pk (s_value s) m) as [o|] eqn:Eo; [|done]. split; [by intros []|].
    destruct (fa_codes fa !! o) as [codes'|] eqn:Ef.
    - injection Ei as <- <-. exists st, []. split_and!; [done| |done]. intros rest. cbn [app].
      by destruct (analyse_all plan fuel rest st) as [[]| |].
    - destruct (searchMethod pk lk (s_value s) m) as [g|] eqn:Eg.
      + fold (query plan fuel g (pre ds st)) in Ei. rewrite query_frame in Ei.
        destruct (query plan fuel g st) as [[codes' st0]| |] eqn:Eq; [|done|done]. cbn [pre_out] in Ei. injection Ei as -> <-.
        exists st0, [(g, found)]. split_and!; [done| |].
        * intros rest. cbn [app analyse_all]. fold (query plan fuel g st). rewrite Eq.
          by destruct (analyse_all plan fuel rest st0) as [[]| |].
        * intros val Hv. apply Hv. by left.
      + injection Ei as <- <-. exists st, []. split_and!; [done| |done]. intros rest. cbn [app].
        by destruct (analyse_all plan fuel rest st) as [[]| |]. }
  set (rep := if decide (found ∖ codes = ∅) then []
    else [Diag (s_pos s) (conversion_message pk (s_target s) m (sort_strings (elements (found ∖ codes))))]).
  assert (check_steps l (pre (ds ++ e_diags st0 ++ rep) (bare st0)) = Ok st') as E2.
  { rewrite <-E. unfold rep. destruct (decide _).
    - f_equal. unfold pre, bare. cbn. by rewrite !app_nil_r.
    - f_equal. unfold pre, bare, add_diag. cbn. by rewrite app_nil_r, app_assoc. }
  apply IH in E2 as (Hnps&res&st2&ds'&Ha&->&Hd); [|done]. split; [by constructor|].
  assert (analyse_all plan fuel (step_queries l) st0 = Ok (res, pre (e_diags st0) st2)) as Ha'.
  { rewrite <-(pre_bare st0) at 1. rewrite analyse_frame, Ha. done. }
  exists (pres ++ res), (pre (e_diags st0) st2), ds'. split_and!.
  - change (Some (s, m) :: l) with ([Some (s, m)] ++ l). unfold step_queries. rewrite omap_app, Hana.
    fold (step_queries l). by rewrite Ha'.
  - done.
  - intros val Hv. rewrite (Hd val).
    2:{ intros g s' Hg. apply Hv, elem_of_app. by right. }
    unfold step_reports. cbn [mbind list_bind]. unfold step_report. cbn [fst snd]. rewrite Hm, Hval.
    2:{ intros g s' Hg. apply Hv, elem_of_app. by left. }
    cbn zeta. fold rep. cbn [pre e_diags]. rewrite <-!app_assoc.
    apply Permutation_app_head, Permutation_app_head. rewrite !app_assoc. apply Permutation_app_tail, Permutation_app_comm.
Qed.
Lemma steps_panic l st : Forall step_known l -> check_steps l st = Panicked ->
  Exists step_panics l \/ analyse_all plan fuel (step_queries l) st = Panicked.
Proof.
  revert st. induction l as [|[[s m]|] l IH]; intros st Hk E; cbn [check_steps] in E; [done| |by left; left].
  apply Forall_cons in Hk as [[codes Hm] Hk]. cbn in Hm. unfold check_method in E. rewrite Hm in E.
  assert (forall st0 st1, match check_steps l (pre st0 st1) with Panicked => True | _ => False end ->
    Exists step_panics l \/ analyse_all plan fuel (step_queries l) st1 = Panicked) as IH'.
  { intros d1 st1 H. destruct (check_steps l (pre d1 st1)) eqn:E1; try done.
    destruct (IH _ Hk E1) as [?|Ha]; [by left|]. right. rewrite analyse_frame in Ha.
    by destruct (analyse_all plan fuel (step_queries l) st1) as [[]| |]. }
  assert (forall found st1, match (if decide (found ∖ codes = ∅) then Ok st1
       else Ok (add_diag (Diag (s_pos s) (conversion_message pk (s_target s) m (sort_strings (elements (found ∖ codes))))) st1)) with
     | Ok st' => check_steps l st' | Panicked => Panicked | OutOfFuel => OutOfFuel end = Panicked ->
     Exists step_panics l \/ analyse_all plan fuel (step_queries l) st1 = Panicked) as IH2.
  { intros found st1 H. destruct (decide _).
    - apply (IH' [] st1). replace (pre [] st1) with st1 by by destruct st1. by rewrite H.
    - assert (forall d, check_steps l (add_diag d st1) = Panicked -> Exists step_panics l \/ analyse_all plan fuel (step_queries l) st1 = Panicked) as G; [|by eapply G].
      intros d Hd. replace (add_diag d st1) with (pre (e_diags st1 ++ [d]) (bare st1)) in Hd.
      2:{ unfold pre, bare, add_diag. cbn. by rewrite app_nil_r. }
      destruct (IH' (e_diags st1 ++ [d]) (bare st1)) as [?|Ha]; [by rewrite Hd|by left|]. right.
      rewrite <-(pre_bare st1). rewrite analyse_frame, Ha. done. }
  unfold implemented_codes in E.
  destruct (searchMethodType pk (s_value s) m) as [o|] eqn:Eo.
  2:{ left. left. cbn. by rewrite Hm. }
  assert (step_query (s, m) = match fa_codes fa !! o with Some _ => None | None => searchMethod pk lk (s_value s) m end) as Hq.
  { unfold step_query. cbn [fst snd]. by rewrite Eo. }
  unfold step_queries in *. cbn [omap list_omap mbind option_bind]. rewrite Hq.
  destruct (fa_codes fa !! o) as [codes'|] eqn:Ef.
  { destruct (IH2 _ _ E) as [?|?]; [by left; right|by right]. }
  destruct (searchMethod pk lk (s_value s) m) as [g|] eqn:Eg.
  2:{ destruct (IH2 _ _ E) as [?|?]; [by left; right|by right]. }
  cbn [analyse_all].
  destruct (match e_found st !! g with Some codes => Ok (codes, st) | None => find_codes_in_func plan fuel g st end) as [[found st1]| |]; [|by right|done].
  destruct (IH2 _ _ E) as [?|Ha]; [by left; right|right]. cbn in Ha. by rewrite Ha.
Qed.
Lemma steps_ends l st : (forall g st, g ∈ step_queries l -> find_codes_in_func plan fuel g st <> OutOfFuel) -> check_steps l st <> OutOfFuel.
Proof.
  revert st. induction l as [|[[s m]|] l IH]; intros st Hq; cbn [check_steps]; [done| |done].
  assert (forall st, check_steps l st <> OutOfFuel) as IH'.
  { intros st1. apply IH. intros g st2 Hg. apply Hq. unfold step_queries in *. cbn [omap list_omap mbind option_bind].
    destruct (step_query (s, m)); [by right|done]. }
  unfold check_method. destruct (s_iface s !! m); [|by apply IH'].
  unfold implemented_codes.
  destruct (searchMethodType pk (s_value s) m) as [o|] eqn:Eo; [|done].
  destruct (fa_codes fa !! o) as [codes'|] eqn:Ef; [destruct (decide _); by apply IH'|].
  destruct (searchMethod pk lk (s_value s) m) as [g0|] eqn:Eg; [|destruct (decide _); by apply IH'].
  destruct (e_found st !! g0); [destruct (decide _); by apply IH'|].
  assert (find_codes_in_func plan fuel g0 st <> OutOfFuel) as Hn.
  { apply Hq. unfold step_queries. cbn [omap list_omap mbind option_bind]. unfold step_query at 1. cbn [fst snd].
    rewrite Eo, Ef, Eg. by left. }
  destruct (find_codes_in_func plan fuel g0 st) as [[found st1]| |]; [destruct (decide _); by apply IH'|done|done].
Qed.
End steps.
