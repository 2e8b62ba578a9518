(** * Proofs: the main loop of the analyzer on a package (analyse.go 144-153). *)
From stdpp Require Import base list gmap relations sets.
From Verif Require Import GoString ErrorCode Scc Engine SpecEngine EngineProofs EngineTheorems CodeSet Annotation Constant GoAst Taint Extract
  Analyse SpecCodes SpecTaint SpecMay SpecProgram Termination Phase ErrorTypes Claims Interfaces Conversions Verify RunEngine SafeEngine EngineOnce
  OwnProofs ProgramProofs ObserveProofs.

Section loop.
Context (pk : package) (lk : lookup_table) (fa : facts) (order : gset oid -> list oid).
Context (Horder : forall s o, o ∈ order s <-> o ∈ s) (Hus : usable_functions pk fa) (Hlit : no_literal_recursion pk lk fa).
Notation plan := (plan pk lk fa order).

Lemma package_directs f g : g ∈ direct_list (plan f) ->
  exists fn e, pk_funcs pk !! f = Some fn /\ error_call pk fn e /\ literal_call pk fa fn e g.
Proof.
  unfold Analyse.plan. destruct (pk_funcs pk !! f) as [fn|] eqn:Ef; [|cbn; intros H; by apply not_elem_of_nil in H].
  destruct (Hus f fn Ef) as [Hu Hb]. destruct (fn_body fn) as [body|] eqn:Eb; [|done].
  intros H. apply (function_directs pk lk fa fn body Eb Hu) in H as (e&He&Hl). eauto.
Qed.
Lemma package_direct_back : direct_back plan.
Proof.
  intros f g (fn&e&Hf&He&Hl)%package_directs Hr. eapply Hlit; [done|done|done|].
  by apply (package_reaches pk lk fa order Hus).
Qed.
Lemma package_direct_ok roots : no_literal_calls pk fa -> direct_ok plan roots.
Proof. intros Hno f g (fn&e&Hf&He&Hl)%package_directs. exfalso. by eapply Hno. Qed.
Lemma package_finite todo : finite_program plan (program_functions pk lk fa order todo) todo.
Proof.
  split.
  - intros f g Hf Hg. by eapply program_closed.
  - intros f Hf. unfold program_functions. rewrite !elem_of_union, elem_of_list_to_set. auto.
Qed.

(** Everything about the state after the loop. *)
Record loop_post (claims : gmap fid claim) (todo : list fid) (st : est diag) : Prop := {
  lp_inv : inv plan (fun f => f ∈ todo) ∅ [] st [];
  lp_found : forall g, match e_found st !! g with
             | Some s => (exists f, f ∈ todo /\ rtc (passes_on pk lk fa) f g) /\ forall c, c ∈ s <-> may plan g c
             | None => ~ exists f, f ∈ todo /\ rtc (passes_on pk lk fa) f g
             end;
  lp_safe : forall g, (exists f, f ∈ todo /\ rtc (passes_on pk lk fa) f g) -> no_panic (plan g);
  lp_diags : forall fs, NoDup fs -> (forall g, g ∈ fs <-> exists f, f ∈ todo /\ rtc (passes_on pk lk fa) f g) ->
             e_diags st ≡ₚ (fs ≫= fun g => reports (plan g)) ++ (todo ≫= fun f => mismatch_diag pk claims f (default ∅ (e_found st !! f)));
  lp_list : exists fs, NoDup fs /\ forall g, g ∈ fs <-> exists f, f ∈ todo /\ rtc (passes_on pk lk fa) f g;
  lp_once : exists fs, NoDup fs /\ (forall g, g ∈ fs <-> exists f, f ∈ todo /\ rtc (passes_on pk lk fa) f g) /\
            NoDup (fs ≫= fun g => direct_list (plan g)) /\ forall x, x ∈ (fs ≫= fun g => direct_list (plan g)) -> x ∈ fs
}.
Lemma reach_equiv (todo : list fid) g : (exists f, f ∈ todo /\ reaches plan f g) <-> exists f, f ∈ todo /\ rtc (passes_on pk lk fa) f g.
Proof. split; intros (f&?&H); exists f; (split; [done|]); by apply (package_reaches pk lk fa order Hus). Qed.
Lemma inv_with_diags {D} (pl : fid -> eff D) roots base comps (st : est D) ds path :
  inv pl roots base comps st path -> inv pl roots base comps (Est (e_scc st) (e_found st) ds (e_comps st)) path.
Proof. intros []. constructor; done. Qed.
Lemma verify_loop fuel claims todo st : size (program_functions pk lk fa order todo) <= fuel ->
  verify_claims pk plan fuel claims todo est_start = Ok st -> loop_post claims todo st.
Proof.
  intros Hf E. pose proof (verify_analyse pk plan fuel claims [] todo est_start) as H.
  change (pre [] est_start) with (est_start (D := diag)) in H.
  destruct (analyse_all plan fuel todo est_start) as [[res st2]| |] eqn:Ea; [|congruence|congruence].
  destruct H as (ds&E2&Hds). rewrite E in E2. injection E2 as ->.
  pose proof package_direct_back as Hd. pose proof (package_finite todo) as Hp.
  pose proof (analyse_start plan fuel _ todo Hd Hp Hf) as HA. rewrite Ea in HA.
  destruct (engine_exact plan fuel _ todo res st2 Hd Hp Hf Ea) as [Hnames Hex].
  pose proof (engine_found plan fuel _ todo res st2 Hd Hp Hf Ea) as Hfound.
  assert (forall f s, (f, s) ∈ res -> e_found st2 !! f = Some s) as Hres.
  { intros f s Hs. assert (f ∈ todo) as Hft.
    { rewrite <-Hnames. apply elem_of_list_fmap. by exists (f, s). }
    specialize (Hfound f). destruct (e_found st2 !! f) as [s'|].
    - f_equal. apply set_eq. intros c. destruct Hfound as [_ ->]. symmetry. by apply Hex.
    - destruct Hfound. exists f. split; [done|apply rtc_refl]. }
  assert (mismatches pk claims res = todo ≫= fun f => mismatch_diag pk claims f (default ∅ (e_found st2 !! f))) as Hm.
  { unfold mismatches. rewrite <-Hnames. clear -Hres. induction res as [|[f s] res IH]; [done|].
    cbn [fmap list_fmap mbind list_bind fst snd]. rewrite (Hres f s) by (by left). cbn [default]. f_equal.
    apply IH. intros f' s' ?. apply Hres. by right. }
  constructor.
  - apply inv_with_diags. by destruct HA.
  - intros g. cbn [e_found with_diags]. specialize (Hfound g). destruct (e_found st2 !! g).
    + by rewrite <-reach_equiv.
    + by rewrite <-reach_equiv.
  - intros g Hg%reach_equiv. destruct HA as [_ _ _ HV _ _].
    destruct (analyse_safe plan fuel todo est_start res st2 Ea g) as [H|H]; [|by apply elem_of_dom in H as [? ?]|done].
    apply elem_of_dom, HV. by right.
  - intros fs Hnd Hfs. cbn [e_found e_diags with_diags]. rewrite Hds. cbn [app]. rewrite Hm.
    rewrite (engine_reports plan fuel _ todo res st2 Hd Hp Hf Ea fs Hnd); [done|].
    intros g. by rewrite Hfs, reach_equiv.
  - destruct (engine_reachable_list plan fuel _ todo res st2 Hd Hp Hf Ea) as (fs&?&Hfs). exists fs. split; [done|].
    intros g. by rewrite Hfs, reach_equiv.
  - pose proof (analyse_once plan fuel todo est_start) as Ho. rewrite Ea in Ho. destruct Ho as (_&nv&Hnd&Hnv&Ho1&Ho2).
    exists nv. split_and!; [done| |done|done]. intros g. rewrite Hnv, <-reach_equiv. destruct HA as [_ _ _ HV _ _]. rewrite elem_of_dom. split.
    + intros [Hg _]. apply HV in Hg as [Hg|Hg]; [|done]. destruct Hg as [? Hg]. done.
    + intros Hg. split; [apply HV; by right|]. by intros [? ?]%elem_of_dom.
Qed.
Lemma verify_ends fuel claims todo st0 : size (program_functions pk lk fa order todo) < fuel ->
  verify_claims pk plan fuel claims todo st0 <> OutOfFuel.
Proof.
  intros Hf. pose proof (verify_analyse pk plan fuel claims (e_diags st0) todo (bare st0)) as H. rewrite pre_bare in H.
  assert (analyse_all plan fuel todo (bare st0) <> OutOfFuel) as He.
  { apply (analyse_ends plan (program_functions pk lk fa order todo)); [by eapply program_closed| |done].
    intros f ?. by apply package_finite. }
  destruct (analyse_all plan fuel todo (bare st0)) as [[res st2]| |]; [|congruence|done].
  destruct H as (?&->&_). done.
Qed.
End loop.
