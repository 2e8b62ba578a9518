(** * Proofs: the conversion checks at the end of a run (analyse.go 160). *)
From stdpp Require Import base list gmap relations sets.
From Verif Require Import GoString ErrorCode Scc Engine SpecEngine EngineProofs EngineTheorems CodeSet Annotation Constant GoAst Taint Extract
  Analyse SpecCodes SpecTaint SpecMay SpecProgram SpecClaims Termination Phase ErrorTypes Claims Interfaces Conversions Verify SpecRun SpecEnd RunEngine SafeEngine EngineOnce
  MayProofs OwnProofs ProgramProofs ObserveProofs MainLoop FactProofs ClaimsProofs RunProofs PropFacts CheckEngine VocabularyProofs.

(** ** More facts, fewer calls *)
Section facts.
Context (pk : package) (lk : lookup_table) (f1 f2 : facts).
Context (Hcodes : forall o s, fa_codes f1 !! o = Some s -> exists s', fa_codes f2 !! o = Some s').
Context (Htype : fa_type f1 = fa_type f2) (Hctor : fa_ctor f1 = fa_ctor f2).
Lemma declares_less cal : (forall s, ~ declares f2 cal s) -> forall s, ~ declares f1 cal s.
Proof. intros H s (o&->&Ho). destruct (Hcodes o s Ho) as [s' Hs']. by destruct (H s'); exists o. Qed.
Lemma conversion_same f s : conversion_codes pk f1 f s <-> conversion_codes pk f2 f s.
Proof. unfold conversion_codes. by rewrite Htype. Qed.
Lemma value_target_less e g : value_target pk lk f2 e g -> value_target pk lk f1 e g.
Proof.
  intros [id kids ->|H1 H2 H3]; [by eapply vt_literal|]. apply vt_name; [done| |done]. by apply declares_less.
Qed.
Lemma call_target_less fn f g : call_target pk lk f2 fn f g -> call_target pk lk f1 fn f g.
Proof.
  intros [H1 H2 H3|i o e H1 H2 H3 H4 H5 H6].
  - apply ct_package; [by apply declares_less| |done]. intros E s. rewrite conversion_same. by apply H2.
  - eapply ct_variable; [by apply declares_less| |done|done|done|by apply value_target_less]. intros E s. rewrite conversion_same. by apply H2.
Qed.
Lemma literal_call_less fn f g : literal_call pk f2 fn f g -> literal_call pk f1 fn f g.
Proof.
  intros [i o e id kids H1 H2 H3 H4 H5 H6]. econstructor; [by apply declares_less| |done..].
  intros E s. rewrite conversion_same. by apply H2.
Qed.
Lemma passes_on_less f g : passes_on pk lk f2 f g -> passes_on pk lk f1 f g.
Proof. intros (fn&e&?&?&?). exists fn, e. split_and!; [done|done|]. by apply call_target_less. Qed.
Lemma no_literal_calls_less : no_literal_calls pk f1 -> no_literal_calls pk f2.
Proof. intros H f fn e g Hf He Hl. eapply H; [done|done|]. by apply literal_call_less. Qed.
Lemma no_literal_recursion_less : no_literal_recursion pk lk f1 -> no_literal_recursion pk lk f2.
Proof.
  intros H f fn e g Hf He Hl Hr. eapply H; [done|done|by apply literal_call_less|].
  clear -Hr Hcodes Htype. induction Hr as [|a b c Hp _ IH]; [apply rtc_refl|]. eapply rtc_l; [by apply passes_on_less|done].
Qed.
Lemma usable_same : usable_functions pk f1 -> usable_functions pk f2.
Proof.
  intros H f fn Hf. destruct (H f fn Hf) as [[U1 U2 U3 U4 U5] Hb]. split; [|done]. constructor; try done.
  intros i. unfold constructor_param, code_parameter. rewrite <-Hctor. apply U3.
Qed.
End facts.

Section checks.
Context (pk : package) (strict : bool) (ord : orders) (fa : facts) (r : run).
Notation lk := (collectFunctions pk).
Context (Hord : orders_ok lk ord) (Hr : looped pk strict ord fa r).
Notation fd := (facts_during pk ord r).
Notation fe := (facts_after pk ord r).
Context (Hus : usable_functions pk fd) (Hlit : no_literal_recursion pk lk fd).
Notation plan1 := (plan pk lk fd (or_tracked ord)).
Notation plan2 := (plan pk lk fe (or_tracked ord)).
Notation checked := (checked_function pk ord r).

Lemma after_fields : fa_type fe = fa_type fd /\ fa_ctor fe = fa_ctor fd.
Proof. unfold facts_after. rewrite export_codes_fields. done. Qed.
Lemma after_codes o s : fa_codes fd !! o = Some s -> exists s', fa_codes fe !! o = Some s'.
Proof.
  intros H. destruct (fa_codes fe !! o) as [s'|] eqn:E; [eauto|]. exfalso.
  unfold facts_after in E. rewrite export_codes_fields in E. cbn [fa_codes] in E.
  revert E H. generalize (or_claims ord 2 (dom (r_claims r))). intros l. generalize (fa_codes fd).
  induction l as [|f l IH]; intros m E H; cbn [foldl] in E; [congruence|].
  revert E. destruct (codes_key pk (r_claims r) f) as [[o' s']|]; [|intros E; by apply (IH m E H)].
  intros E. destruct (decide (o' = o)) as [->|Hne].
  - assert (forall m' : gmap tobj codeset, is_Some (m' !! o) -> is_Some (foldl (fun m a => match codes_key pk (r_claims r) a with Some (k, v) => <[k:=v]> m | None => m end) m' l !! o)) as G.
    { clear. induction l as [|f l IH]; intros m' Hm; [done|]. cbn [foldl]. apply IH. destruct (codes_key pk (r_claims r) f) as [[k v]|]; [|done].
      destruct (decide (k = o)) as [->|]; [rewrite lookup_insert; eauto|by rewrite lookup_insert_ne]. }
    destruct (G (<[o:=s']> m)) as [? ?]; [rewrite lookup_insert; eauto|]. congruence.
  - apply (IH _ E). by rewrite lookup_insert_ne.
Qed.
Lemma usable_after : usable_functions pk fe.
Proof. eapply usable_same; [|exact Hus]. symmetry. apply after_fields. Qed.
Lemma literals_after : no_literal_recursion pk lk fe.
Proof. eapply no_literal_recursion_less; [exact after_codes| |exact Hlit]. symmetry. apply after_fields. Qed.
Lemma passes_after f g : passes_on pk lk fe f g -> passes_on pk lk fd f g.
Proof. apply passes_on_less; [exact after_codes|]. symmetry. apply after_fields. Qed.
Lemma checked_closed f g : checked f -> rtc (passes_on pk lk fe) f g -> checked g.
Proof.
  intros (d&Hd&H1) H2. exists d. split; [done|]. etrans; [exact H1|]. clear -H2. induction H2 as [|x y z Hp _ IH]; [done|].
  eapply rtc_l; [by apply passes_after|exact IH].
Qed.
Lemma declared_claims f : f ∈ or_claims ord 1 (dom (r_claims r)) <-> declared_function pk f.
Proof.
  rewrite (claims_order pk ord r Hord). unfold declared_function. split.
  - intros [[codes param] H]. apply (run_claims pk strict ord fa r Hr Hord) in H as (fn&?&?&?). exists fn, codes, param. done.
  - intros (fn&codes&param&?&?&?). exists (Claim codes param). apply (run_claims pk strict ord fa r Hr Hord). eauto.
Qed.
Lemma checked_found g : is_Some (e_found (r_loop r) !! g) <-> checked g.
Proof.
  pose proof (lp_found _ _ _ _ _ _ _ (run_loop pk strict ord fa r Hr Hord Hus Hlit) g) as H.
  assert ((exists f, f ∈ or_claims ord 1 (dom (r_claims r)) /\ rtc (passes_on pk lk fd) f g) <-> checked g) as E.
  { unfold checked_function. by setoid_rewrite declared_claims. }
  destruct (e_found (r_loop r) !! g) as [s|].
  - rewrite <-E. split; [intros _; by destruct H|by eauto].
  - rewrite <-E. split; [by intros []|]. by intros ?.
Qed.
Lemma checked_dec f : checked f \/ ~ checked f.
Proof. rewrite <-checked_found. destruct (e_found (r_loop r) !! f); [left; eauto|right; by intros []]. Qed.

(** ** The plan of the second phase *)
Notation planG := (given (e_found (r_loop r)) plan2).
Lemma given_step f g : calls planG f g <-> ~ checked f /\ passes_on pk lk fe f g.
Proof.
  rewrite given_calls, (package_calls pk lk fe (or_tracked ord) usable_after), <-checked_found.
  rewrite eq_None_not_Some. done.
Qed.
Lemma given_reaches f g : ~ checked g -> reaches planG f g <-> rtc (passes_on pk lk fe) f g.
Proof.
  intros Hg. split.
  - induction 1 as [|x y z H _ IH]; [done|]. eapply rtc_l; [by apply given_step|by apply IH].
  - induction 1 as [|x y z H H1 IH]; [apply rtc_refl|]. eapply rtc_l; [|by apply IH]. apply given_step. split; [|done].
    intros Hx. apply Hg. eapply checked_closed; [exact Hx|]. eapply rtc_l; [exact H|exact H1].
Qed.
Lemma given_mutual f g : ~ checked f -> mutual planG f g <-> recursive_with pk lk fe f g.
Proof.
  intros Hf. unfold mutual, recursive_with. split.
  - intros [H1 H2]. apply given_reaches in H2; [|done]. split; [|done].
    apply given_reaches; [|done]. intros Hg. apply Hf. by eapply checked_closed.
  - intros [H1 H2]. assert (~ checked g) as Hg by (intros Hg; apply Hf; by eapply checked_closed).
    split; by apply given_reaches.
Qed.
Lemma ends_with_least (P : fid -> gostring -> Prop) :
  (forall f c, checked f -> may_return pk lk fd f c -> P f c) ->
  (forall f fn c, ~ checked f -> pk_funcs pk !! f = Some fn -> own_code pk lk fe P fn c -> P f c) ->
  (forall f g c, ~ checked f -> recursive_with pk lk fe f g -> P g c -> P f c) ->
  forall f c, ends_with pk ord r f c -> P f c.
Proof.
  intros H0 H1 H2. fix IH 3. intros f c [f' c' Hc Hm|f' fn c' Hc Hf Ho|f' g c' Hc Hr' Hg].
  - by apply H0.
  - exact (H1 f' fn c' Hc Hf (own_code_mono pk lk fe (ends_with pk ord r) P c' (fun g => IH g c') fn Ho)).
  - exact (H2 f' g c' Hc Hr' (IH g c' Hg)).
Qed.
Lemma loop_value g s : e_found (r_loop r) !! g = Some s -> forall c, c ∈ s <-> may plan1 g c.
Proof.
  intros E. pose proof (lp_found _ _ _ _ _ _ _ (run_loop pk strict ord fa r Hr Hord Hus Hlit) g) as H. rewrite E in H. by destruct H.
Qed.
Notation Htr := (tracked_order pk ord Hord).
Lemma list_may l c f c' : may (plan_list l c) f c' <-> f ∈ l /\ c' = c.
Proof. apply (plan_list_may pk fd (or_tracked ord) (tracked_order pk ord Hord) Hus). Qed.
Lemma ends_with_sound f c : may planG f c -> ends_with pk ord r f c.
Proof.
  assert ((forall f c, may planG f c -> ends_with pk ord r f c) /\
    (forall e c, from planG e c -> exists l, (forall g, g ∈ l -> ends_with pk ord r g c) /\ from (plan_list l c) e c)) as [H _]; [|apply H].
  apply may_from_ind.
  - intros f' c' Hf (l&Hl&Hfl). destruct (e_found (r_loop r) !! f') as [s|] eqn:Ec.
    + apply ew_checked; [by apply checked_found; rewrite Ec|].
      apply (may_return_sound pk lk fd (or_tracked ord) (tracked_order pk ord Hord) Hus). apply (loop_value f' s Ec).
      unfold given in Hf. rewrite Ec in Hf. by apply from_set_iff in Hf.
    + assert (~ checked f') as Hnc by (rewrite <-checked_found, Ec; by intros []).
      unfold given in Hfl. rewrite Ec in Hfl. unfold Analyse.plan in Hfl.
      destruct (pk_funcs pk !! f') as [fn|] eqn:Ef; [|by apply from_panic_iff in Hfl].
      destruct (usable_after f' fn Ef) as [Hu Hb]. destruct (fn_body fn) as [body|] eqn:Eb; [|done].
      apply ew_own with fn; [done|done|]. eapply own_code_mono; [|eapply own_sound; [exact Eb|by apply (us_typed _ _ _ Hu)|by apply (us_scoped _ _ _ Hu)|exact Hu|exact (tracked_order pk ord Hord)|exact Hfl]].
      intros g [Hg _]%list_may. by apply Hl.
  - intros f' g c' Hm _ IH. destruct (checked_dec f') as [Hc|Hc].
    + destruct Hm as [H1 _]. destruct H1 as [|x y z H1 _]; [done|]. by apply given_step in H1 as [? _].
    + eapply ew_recursive; [done| |exact IH]. by apply given_mutual.
  - intros s c' Hc. exists []. split; [by intros ? ?%elem_of_nil|by constructor].
  - intros a b c' _ (l&Hl&Hf). exists l. split; [done|by apply from_union_l].
  - intros a b c' _ (l&Hl&Hf). exists l. split; [done|by apply from_union_r].
  - intros a s c' _ (l&Hl&Hf) Hs. exists l. split; [done|by constructor].
  - intros g c' _ IH. exists [g]. split; [by intros ? ->%elem_of_list_singleton|]. constructor. apply list_may. split; [by left|done].
  - intros g c' _ IH. exists [g]. split; [by intros ? ->%elem_of_list_singleton|]. constructor. apply list_may. split; [by left|done].
Qed.
Lemma ends_with_complete f c : agree_everywhere pk c -> ends_with pk ord r f c -> may planG f c.
Proof.
  intros Hag H. revert Hag. revert f c H. apply (ends_with_least (fun f c => agree_everywhere pk c -> may planG f c)).
  - intros f c [s Hs]%checked_found Hm Hag. rewrite (given_may _ _ _ s) by done. apply (loop_value f s Hs).
    by apply (may_return_complete pk lk fd (or_tracked ord) (tracked_order pk ord Hord) Hus).
  - intros f fn c Hnc Hf Ho Hag. destruct (usable_after f fn Hf) as [Hu Hb]. destruct (fn_body fn) as [body|] eqn:Eb; [|done].
    apply may_own. unfold given at 2. rewrite <-checked_found, <-eq_None_not_Some in Hnc. rewrite Hnc. unfold Analyse.plan at 2. rewrite Hf.
    eapply own_complete; [exact Eb|by apply (us_typed _ _ _ Hu)|by apply (us_scoped _ _ _ Hu)|exact Hu|exact (tracked_order pk ord Hord)|by eapply Hag|].
    eapply own_code_mono; [|exact Ho]. intros g Hg. by apply Hg.
  - intros f g c Hnc Hrw Hg Hag. eapply may_recursive; [by apply given_mutual|]. by apply Hg.
Qed.

(** ** The functions analysed in the second phase, and all diagnostics *)
Context (cs : list conv).   (* the conversions, in any order *)
Notation the_steps := (steps (or_checks ord) cs).
Notation queries := (step_queries pk lk fe the_steps).
Lemma steps_are_known orders l : (forall k s, orders k s ≡ₚ elements s) -> Forall step_known (steps orders l).
Proof.
  intros Ho. induction l as [|[s|] l IH]; cbn [steps]; [constructor| |by repeat constructor].
  apply Forall_app. split; [|done]. apply Forall_forall. intros p (q&->&Hq)%elem_of_list_fmap.
  assert (exists m, q = (s, m) /\ m ∈ orders (length l) (dom (s_iface s))) as (m&->&Hm).
  { unfold site_steps in Hq. destruct (decide _); [by apply elem_of_nil in Hq|].
    destruct (s_value s); try (apply elem_of_list_fmap in Hq as (m&->&Hm); by exists m). by apply elem_of_nil in Hq. }
  cbn. rewrite Ho in Hm. by apply elem_of_elements, elem_of_dom in Hm.
Qed.
Lemma search_known value m g : searchMethod pk lk value m = Some g -> g ∈ lookup_all lk.
Proof.
  unfold searchMethod. destruct (lk_methods lk !! m) as [ms|] eqn:Em; [|done]. destruct (searchMethodType pk value m); [|done].
  destruct (list_find _ ms) as [[k g']|] eqn:Ef; [|done]. intros [= <-]. apply list_find_Some in Ef as (Hk&_&_).
  unfold lookup_all. apply elem_of_app. right. apply elem_of_list_In, in_concat. exists ms. split; [|by eapply elem_of_list_In, elem_of_list_lookup_2].
  apply elem_of_list_In, elem_of_list_fmap. exists (m, ms). split; [done|]. by apply elem_of_map_to_list.
Qed.
Lemma queries_known g : g ∈ queries -> g ∈ lookup_all lk.
Proof.
  unfold step_queries. intros (p&_&Hp)%elem_of_list_omap. destruct p as [p|]; [|done]. cbn [mbind option_bind] in Hp.
  unfold step_query in Hp. destruct (searchMethodType pk (s_value p.1) p.2); [|done]. destruct (fa_codes fe !! t); [done|]. by eapply search_known.
Qed.
Record end_post : Prop := {
  ep_safe : Forall (fun p => ~ step_panics pk p) the_steps;
  ep_calm : forall g, ~ checked g -> (exists f, f ∈ queries /\ rtc (passes_on pk lk fe) f g) -> no_panic (plan2 g);
  ep_kept : forall g s, e_found (r_loop r) !! g = Some s -> e_found (r_end r) !! g = Some s;
  ep_found : forall g, match e_found (r_end r) !! g with
             | Some s => (checked g \/ exists f, f ∈ queries /\ rtc (passes_on pk lk fe) f g) /\ forall c, c ∈ s <-> may planG g c
             | None => ~ (checked g \/ exists f, f ∈ queries /\ rtc (passes_on pk lk fe) f g)
             end;
  ep_list : exists fs, NoDup fs /\ forall g, g ∈ fs <-> ~ checked g /\ exists f, f ∈ queries /\ rtc (passes_on pk lk fe) f g;
  ep_diags : forall fs, NoDup fs -> (forall g, g ∈ fs <-> ~ checked g /\ exists f, f ∈ queries /\ rtc (passes_on pk lk fe) f g) ->
    e_diags (r_end r) ≡ₚ e_diags (r_loop r) ++ (fs ≫= fun g => reports (plan2 g)) ++
      step_reports pk lk fe (fun g => default ∅ (e_found (r_end r) !! g)) the_steps;
  ep_once : exists fs, NoDup fs /\ (forall g, g ∈ fs <-> ~ checked g /\ exists f, f ∈ queries /\ rtc (passes_on pk lk fe) f g) /\
    NoDup (fs ≫= fun g => direct_list (plan2 g)) /\ forall x, x ∈ (fs ≫= fun g => direct_list (plan2 g)) -> x ∈ fs
}.
Lemma checks_post :
  check_all pk lk fe plan2 (run_depth pk ord r) (or_checks ord) cs (r_loop r) = Ok (r_end r) -> end_post.
Proof.
  intros E. rewrite check_all_steps in E.
  pose proof (steps_are_known (or_checks ord) cs (ok_checks _ _ Hord)) as Hk.
  pose proof (steps_analyse pk lk fe plan2 (run_depth pk ord r) (e_diags (r_loop r)) the_steps (bare (r_loop r)) (r_end r) Hk) as H.
  rewrite pre_bare in H. destruct (H E) as (Hsafe&res&st2&ds'&Ha&Hend&Hds). clear H.
  pose proof (lp_inv _ _ _ _ _ _ _ (run_loop pk strict ord fa r Hr Hord Hus Hlit)) as HI0.
  set (G := e_found (r_loop r)) in *.
  assert (inv plan1 (fun f => f ∈ or_claims ord 1 (dom (r_claims r))) ∅ [] (bare (r_loop r)) []) as HI1.
  { by apply inv_with_diags. }
  pose proof (inv_rebase plan1 plan2 _ (fun _ => True) (bare (r_loop r)) [] ∅ HI1 (fun _ _ => Logic.I)) as HI.
  cbn [e_found e_comps bare] in HI. fold G in HI.
  assert (forall g, visited (bare (r_loop r)) g <-> checked g) as Hvis.
  { intros g. rewrite <-checked_found. rewrite (i_found _ _ _ _ _ _ HI1 g). split; [|tauto].
    intros ?. split; [done|]. apply not_elem_of_nil. }
  set (U := program_functions pk lk fe (or_tracked ord) (lookup_all lk)).
  assert (forall f g, f ∈ U -> calls planG f g -> g ∈ U) as HU.
  { intros f g Hf [_ Hc]%given_calls. by eapply program_closed. }
  assert (direct_back planG) as Hd.
  { intros f g Hg Hgf. assert (g ∈ direct_list (plan2 f)) as Hg2.
    { unfold given in Hg. destruct (_ !! f); [by apply elem_of_nil in Hg|done]. }
    apply (package_direct_back pk lk fe (or_tracked ord) usable_after literals_after f g Hg2).
    clear -Hgf. induction Hgf as [|a b c Hc _ IH]; [apply rtc_refl|]. eapply rtc_l; [|exact IH]. by apply given_calls in Hc as [_ Hc]. }
  pose proof (analyse_once plan2 (run_depth pk ord r) queries (bare (r_loop r))) as Honce. rewrite Ha in Honce.
  rewrite (analyse_same plan2 planG (dom G)) in Ha.
  2:{ intros g Hg. unfold given. by rewrite (not_elem_of_dom_1 _ _ Hg). }
  2:{ intros g [s Hs]%elem_of_dom. apply elem_of_dom. apply (Hvis g), checked_found. exists s. exact Hs. }
  pose proof (analyse_all_ok planG (fun _ => True) (dom G) (e_comps (r_loop r)) Hd U HU (run_depth pk ord r) queries (bare (r_loop r)) HI) as Hok.
  rewrite Ha in Hok. destruct Hok as [A1 A2 A3 A4 A5 A6].
  { intros f Hf. split; [|done]. unfold U, program_functions. rewrite !elem_of_union, elem_of_list_to_set. left; left. by apply queries_known. }
  { unfold unvisited. etrans; [apply (subseteq_size _ U); set_solver|]. unfold run_depth, run_fuel. fold U. lia. }
  assert (forall g, is_Some (e_found st2 !! g) <-> visited st2 g) as Hf2.
  { intros g. rewrite (i_found _ _ _ _ _ _ A1 g). split; [tauto|]. intros ?. split; [done|]. apply not_elem_of_nil. }
  assert (forall g, visited st2 g <-> checked g \/ exists f, f ∈ queries /\ rtc (passes_on pk lk fe) f g) as Hv2.
  { intros g. rewrite A4, Hvis. split.
    - intros [?|(f&Hf&Hfg)]; [by left|]. destruct (checked_dec g) as [Hc|Hc]; [by left|]. right. exists f. split; [done|]. by apply given_reaches.
    - intros [?|(f&Hf&Hfg)]; [by left|]. destruct (checked_dec g) as [Hc|Hc]; [by left|]. right. exists f. split; [done|]. by apply given_reaches. }
  assert (e_found (r_end r) = e_found st2) as Hfe by (by rewrite Hend).
  assert (forall g s, e_found st2 !! g = Some s -> forall c, c ∈ s <-> may planG g c) as Hex.
  { intros g s Hs. destruct (i_exact _ _ _ _ _ _ A1 g) as (s'&Hs'&He).
    - split; [by apply Hf2; rewrite Hs|]. rewrite (empty_path _ _ _ _ _ A1). apply not_elem_of_nil.
    - rewrite Hs in Hs'. injection Hs' as <-. done. }
  destruct A6 as (nv&Hnd&Hnv&Hdg).
  assert (forall g, g ∈ nv <-> ~ checked g /\ exists f, f ∈ queries /\ rtc (passes_on pk lk fe) f g) as Hnv'.
  { intros g. rewrite Hnv, Hv2, Hvis. tauto. }
  constructor.
  - done.
  - intros g Hng Hg. destruct (analyse_safe planG (run_depth pk ord r) queries (bare (r_loop r)) _ _ Ha g) as [H|H].
    + apply elem_of_dom, Hv2. by right.
    + apply elem_of_dom in H. destruct Hng. by apply Hvis.
    + unfold given in H. fold G in H. destruct (G !! g) eqn:EG; [|done]. destruct Hng. apply checked_found. unfold G in EG. by rewrite EG.
  - intros g s Hs. rewrite Hfe, A5; [done|]. apply Hvis, checked_found. by rewrite Hs.
  - intros g. rewrite Hfe. destruct (e_found st2 !! g) as [s|] eqn:Es.
    + split; [|by apply Hex]. apply Hv2, Hf2. by rewrite Es.
    + rewrite <-Hv2, <-Hf2, Es. by intros [].
  - by exists nv.
  - intros fs Hfs Hfs'. rewrite Hfe. rewrite Hend at 1. cbn [e_diags with_diags].
    rewrite (Hds (fun g => default ∅ (e_found st2 !! g))).
    + cbn in Hdg. rewrite Hdg. apply Permutation_app_head, Permutation_app_tail.
      assert (nv ≡ₚ fs) as <-; [apply NoDup_Permutation; [done|done|]; intros g; by rewrite Hnv', Hfs'|].
      assert (forall l, (forall g, g ∈ l -> g ∈ nv) -> (l ≫= fun n => reports (planG n)) = l ≫= fun n => reports (plan2 n)) as Hl; [|by rewrite Hl].
      intros l. induction l as [|n l IH]; intros Hsub; [done|]. cbn [mbind list_bind]. f_equal.
      * assert (G !! n = None) as En; [|unfold given; fold G; by rewrite En].
        apply eq_None_not_Some. unfold G. rewrite checked_found. apply Hnv', Hsub. by left.
      * apply IH. intros g Hg. apply Hsub. by right.
    + intros g s Hg. assert (g ∈ queries) as Hq by (rewrite <-A2; apply elem_of_list_fmap; by exists (g, s)).
      destruct (e_found st2 !! g) as [s'|] eqn:Es'.
      * cbn. apply set_eq. intros c. by rewrite (Hex g s' Es' c), (A3 g s Hg c).
      * exfalso. assert (is_Some (e_found st2 !! g)) as [? ?]; [|congruence]. apply Hf2, Hv2. right. exists g. split; [done|apply rtc_refl].
  - destruct Honce as (_&nv'&Hnd1&Hnv1&Ho1&Ho2). exists nv'. split_and!; [done| |done|done]. intros g. rewrite Hnv1, !elem_of_dom.
    pose proof (Hv2 g) as H2. pose proof (Hvis g) as H1. unfold visited in H1, H2. rewrite H1, H2. tauto.
Qed.
End checks.
Lemma run_checks pk strict ord fa r : orders_ok (collectFunctions pk) ord -> completes pk strict ord fa r ->
  usable_functions pk (facts_during pk ord r) -> no_literal_recursion pk (collectFunctions pk) (facts_during pk ord r) -> end_post pk ord r (all_conversions pk (facts_after pk ord r)).
Proof. intros Hord Hr Hus Hlit. apply (checks_post pk strict ord fa r Hord Hr Hus Hlit). exact (co_end _ _ _ _ _ Hr). Qed.
