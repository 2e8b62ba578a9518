(** * C47: C17 for one function: what is found for a function is exact if it and the functions the errors of which it may return can be
    tracked, whatever the other functions of the package look like. *)
From Coq Require Import Ascii String.
From stdpp Require Import base list gmap relations sets sorting.
From Verif Require Import GoString ErrorCode Scc Engine SpecEngine EngineProofs EngineTheorems CodeSet CodeSetProofs Annotation Constant GoAst Taint Extract
  Analyse SpecCodes SpecTaint SpecMay SpecProgram SpecLocal SpecClaims Termination Phase ErrorTypes Claims Interfaces Conversions Verify SpecRun SpecEnd RunEngine
  OwnProofs ProgramProofs LocalProofs MainLoop FactProofs ClaimsProofs RunProofs PropFacts CheckEngine RunChecks PropCodeSet.
Local Open Scope list_scope.

(** ** Reports are only added. *)
Lemma find_extends plan fuel f (st : est diag) s st' : find_codes_in_func plan fuel f st = Ok (s, st') -> exists ds, e_diags st' = e_diags st ++ ds.
Proof.
  intros H. pose proof (find_frame plan fuel (e_diags st) f (bare st)) as E. rewrite pre_bare, H in E.
  destruct (find_codes_in_func plan fuel f (bare st)) as [[s1 st1]| |]; [|done|done]. cbn in E. injection E as -> ->. exists (e_diags st1). done.
Qed.
Lemma implemented_extends pk lk fa plan fuel t m st s st' : implemented_codes pk lk fa plan fuel t m st = Ok (s, st') -> exists ds, e_diags st' = e_diags st ++ ds.
Proof.
  assert (forall x y : codeset, Ok (x, st) = Ok (y, st') -> exists ds, e_diags st' = e_diags st ++ ds) as H0.
  { intros x y [= _ <-]. exists []. by rewrite app_nil_r. }
  unfold implemented_codes. destruct (searchMethodType pk t m) as [o|]; [|done].
  destruct (fa_codes fa !! o); [apply H0|]. destruct (searchMethod pk lk t m) as [g|]; [|apply H0].
  destruct (e_found st !! g); [apply H0|]. apply find_extends.
Qed.
Lemma method_extends pk lk fa plan fuel s st m st' : check_method pk lk fa plan fuel s st m = Ok st' -> exists ds, e_diags st' = e_diags st ++ ds.
Proof.
  unfold check_method. destruct (s_iface s !! m); [|intros [= <-]; exists []; by rewrite app_nil_r].
  destruct (implemented_codes _ _ _ _ _ _ _ _) as [[found st1]| |] eqn:E; [|done|done].
  apply implemented_extends in E as [ds E]. case_decide; intros [= <-]; [by exists ds|].
  eexists. cbn. rewrite E, <-app_assoc. reflexivity.
Qed.
Lemma steps_extend pk lk fa plan fuel l st st' : check_steps pk lk fa plan fuel l st = Ok st' -> exists ds, e_diags st' = e_diags st ++ ds.
Proof.
  revert st. induction l as [|[[s m]|] l IH]; intros st; cbn [check_steps]; [intros [= <-]; exists []; by rewrite app_nil_r| |done].
  destruct (check_method pk lk fa plan fuel s st m) as [st1| |] eqn:E; [|done|done]. apply method_extends in E as [d1 E].
  intros [d2 E2]%IH. exists (d1 ++ d2). by rewrite E2, E, app_assoc.
Qed.

Section run.
Context (pk : package) (strict : bool) (ord : orders) (fa : facts) (r : run).
Notation lk := (collectFunctions pk).
Context (Hord : orders_ok lk ord) (Hr : completes pk strict ord fa r).
Notation fd := (facts_during pk ord r).
Context (Hlit : no_literal_cycle pk lk).
Notation plan1 := (plan pk lk fd (or_tracked ord)).
Notation may := (may_return pk lk fd).
Notation found f := (e_found (r_loop r) !! f).
Notation todo := (or_claims ord 1 (dom (r_claims r))).

Lemma end_extends : exists ds, e_diags (r_end r) = e_diags (r_loop r) ++ ds.
Proof. pose proof (co_end _ _ _ _ _ Hr) as H. rewrite check_all_steps in H. by eapply steps_extend. Qed.

(** *** The loop *)
Lemma local_loop :
  (forall f s, found f = Some s -> forall c, c ∈ s <-> SpecEngine.may plan1 f c) /\
  (forall f, f ∈ todo -> is_Some (found f)) /\
  exists fs, NoDup fs /\ (forall g, g ∈ fs <-> exists f, f ∈ todo /\ reaches plan1 f g) /\
    e_diags (r_loop r) ≡ₚ (fs ≫= fun g => reports (plan1 g)) ++ (todo ≫= fun f => mismatch_diag pk (r_claims r) f (default ∅ (found f))).
Proof.
  pose proof (lo_loop _ _ _ _ _ Hr) as E. set (fuel := run_depth pk ord r) in E.
  assert (size (program_functions pk lk fd (or_tracked ord) todo) <= fuel) as Hf.
  { etrans; [apply (depth_enough pk strict ord fa r Hr Hord)|]. unfold fuel, run_depth, run_fuel. lia. }
  clearbody fuel.
  pose proof (verify_analyse pk plan1 fuel (r_claims r) [] todo est_start) as H.
  change (pre [] est_start) with (est_start (D := diag)) in H.
  destruct (analyse_all plan1 fuel todo est_start) as [[res st2]| |] eqn:Ea; [|congruence|congruence].
  destruct H as (ds&E2&Hds). rewrite E in E2.
  assert (r_loop r = Est (e_scc st2) (e_found st2) ds (e_comps st2)) as El by (injection E2; done). clear E2.
  pose proof (local_direct_back pk lk fd (or_tracked ord) Hlit) as Hd. pose proof (package_finite pk lk fd (or_tracked ord) todo) as Hp.
  destruct (engine_exact plan1 fuel _ todo res st2 Hd Hp Hf Ea) as [Hnames Hex].
  pose proof (engine_found plan1 fuel _ todo res st2 Hd Hp Hf Ea) as Hfound.
  assert (forall f s, (f, s) ∈ res -> e_found st2 !! f = Some s) as Hres.
  { intros f s Hs. assert (f ∈ todo) as Hft.
    { rewrite <-Hnames. apply elem_of_list_fmap. by exists (f, s). }
    specialize (Hfound f). destruct (e_found st2 !! f) as [s'|].
    - f_equal. apply set_eq. intros c. destruct Hfound as [_ ->]. symmetry. by apply Hex.
    - destruct Hfound. exists f. split; [done|apply rtc_refl]. }
  assert (mismatches pk (r_claims r) res = todo ≫= fun f => mismatch_diag pk (r_claims r) f (default ∅ (e_found st2 !! f))) as Hm.
  { unfold mismatches. rewrite <-Hnames. clear -Hres. induction res as [|[f s] res IH]; [done|].
    cbn [fmap list_fmap mbind list_bind fst snd]. rewrite (Hres f s) by (by left). cbn [default]. f_equal.
    apply IH. intros f' s' ?. apply Hres. by right. }
  rewrite El. cbn [e_found e_diags]. split_and!.
  - intros f s Hs c. specialize (Hfound f). rewrite Hs in Hfound. by destruct Hfound.
  - intros f Hft. specialize (Hfound f). destruct (e_found st2 !! f); [eauto|]. destruct Hfound. exists f. split; [done|apply rtc_refl].
  - destruct (engine_reachable_list plan1 fuel _ todo res st2 Hd Hp Hf Ea) as (fs&Hnd&Hfs). exists fs. split_and!; [done|done|].
    rewrite <-Hm. rewrite Hds. cbn [app]. apply Permutation_app_tail. exact (engine_reports plan1 fuel _ todo res st2 Hd Hp Hf Ea fs Hnd Hfs).
Qed.

(** *** What is found *)
Theorem C47_sound f s c : usable_from pk lk fd f -> found f = Some s -> c ∈ s -> may f c.
Proof.
  intros Hus Hs Hc. apply (local_sound pk lk fd (or_tracked ord) (tracked_order pk ord Hord)); [done|]. by apply (proj1 local_loop f s Hs).
Qed.
Theorem C47_complete f s c : usable_from pk lk fd f -> agree_from pk lk fd f c -> found f = Some s -> may f c -> c ∈ s.
Proof.
  intros Hus Hag Hs Hm. apply (proj1 local_loop f s Hs). by apply (local_complete pk lk fd (or_tracked ord) (tracked_order pk ord Hord)).
Qed.
Lemma declared_todo f : f ∈ todo <-> declared_function pk f.
Proof. exact (declared_claims pk strict ord fa r Hord Hr f). Qed.
Theorem C47_found f : declared_function pk f -> is_Some (found f).
Proof. intros H. by apply local_loop, declared_todo. Qed.

(** *** The verdict *)
(** The comparison of the declaration of [f] with what [f] may return; nothing is said if [f] cannot be tracked. *)
Inductive local_verdict (f : fid) : list diag -> Prop :=
| local_verdict_intro fn codes param s missing unused :
    known_function pk f fn -> returns_error_last pk (fn_type fn) -> declares_codes pk fn codes param ->
    (usable_from pk lk fd f -> forall c, c ∈ s -> may f c) ->
    (usable_from pk lk fd f -> forall c, agree_from pk lk fd f c -> may f c -> c ∈ s) ->
    listing missing (s ∖ codes) -> listing unused (codes ∖ s) ->
    local_verdict f (match missing, unused with [], [] => [] | _, _ => [Diag (fn_pos fn) (expected_message (func_name fn) missing unused)] end).

Lemma local_mismatch f : declared_function pk f -> local_verdict f (mismatch_diag pk (r_claims r) f (default ∅ (found f))).
Proof.
  intros Hdf. destruct (C47_found f Hdf) as [s Hs]. destruct Hdf as (fn&codes&param&Hk&Hret&Hd).
  assert (r_claims r !! f = Some (Claim codes param)) as Hc by (apply (run_claims pk strict ord fa r Hr Hord); eauto).
  assert (pk_funcs pk !! f = Some fn) as Hf by (destruct Hk as (?&?&_&?&_); done).
  unfold mismatch_diag. rewrite Hf, Hc, Hs. cbn [default from_option id cl_codes].
  assert (match_orders_ok s codes (some_orders s codes)) as Ho.
  { unfold some_orders. assert (forall x : codeset, order_of x (elements x)) as Hx by (intros x; unfold order_of; reflexivity). split_and!; cbn; try apply Hx. }
  destruct (C12_mismatch_report (func_name fn) s codes (some_orders s codes) Ho) as [H1 H2].
  assert (exists missing unused, listing missing (s ∖ codes) /\ listing unused (codes ∖ s) /\
    match reportIfCodesDoNotMatch (func_name fn) (some_orders s codes) with Some msg => [Diag (fn_pos fn) msg] | None => [] end =
    match missing, unused with [], [] => [] | _, _ => [Diag (fn_pos fn) (expected_message (func_name fn) missing unused)] end) as (m&u&Hm&Hu&->).
  { destruct (decide (s = codes)) as [E|E].
    - rewrite (H1 E). exists [], []. subst. split_and!; [| |done]; (split_and!; [constructor|constructor|]; intros v; set_solver).
    - destruct (H2 E) as (m&u&Hm&Hu&->). exists m, u. split_and!; [done|done|]. destruct m, u; try done. exfalso. apply E.
      apply set_eq. intros v. destruct Hm as (_&_&Hm), Hu as (_&_&Hu). specialize (Hm v). specialize (Hu v).
      rewrite elem_of_difference, elem_of_nil in Hm, Hu. destruct (decide (v ∈ s)), (decide (v ∈ codes)); tauto. }
  econstructor; try done.
  - intros Hus c. by apply C47_sound.
  - intros Hus c Hag. by apply C47_complete.
Qed.
(** Among the diagnostics of the run there is exactly one verdict for each function that declares codes (besides other diagnostics). *)
Theorem C47_verdicts : exists ds vs rest,
  NoDup ds /\ (forall f, f ∈ ds <-> declared_function pk f) /\ Forall2 local_verdict ds vs /\ r_diags r ≡ₚ rest ++ concat vs.
Proof.
  destruct local_loop as (_&_&fs&_&_&Hrest). set (rest := fs ≫= fun g => reports (plan1 g)) in Hrest. destruct end_extends as [more Hmore].
  exists todo, ((fun f => mismatch_diag pk (r_claims r) f (default ∅ (found f))) <$> todo), (r_d1 r ++ r_d2 r ++ r_d3 r ++ r_d4 r ++ more ++ rest).
  split_and!.
  - rewrite (ok_claims _ _ Hord). apply NoDup_elements.
  - intros f. apply declared_todo.
  - apply Forall2_fmap_r. apply Forall_Forall2_diag. apply Forall_forall. intros f Hf. by apply local_mismatch, declared_todo.
  - unfold r_diags. rewrite Hmore, Hrest.
    replace (concat ((fun f => mismatch_diag pk (r_claims r) f (default ∅ (found f))) <$> todo))
      with (todo ≫= fun f => mismatch_diag pk (r_claims r) f (default ∅ (found f))).
    + rewrite <-!app_assoc. do 4 apply Permutation_app_head. rewrite (app_assoc rest). apply Permutation_app_comm.
    + clear. induction todo as [|f l IH]; [done|]. cbn. by rewrite IH.
Qed.
(** If nothing is reported, then the declarations of the functions that can be tracked are exact. *)
Theorem C47_clean f fn codes param : r_diags r = [] -> known_function pk f fn -> returns_error_last pk (fn_type fn) ->
  declares_codes pk fn codes param -> usable_from pk lk fd f ->
  (forall c, c ∈ codes -> may f c) /\ forall c, agree_from pk lk fd f c -> may f c -> c ∈ codes.
Proof.
  intros Hnil Hk Hret Hd Hus. destruct C47_verdicts as (ds&vs&rest&_&Hds&Hvs&Hp).
  assert (f ∈ ds) as Hf by (apply Hds; by exists fn, codes, param).
  rewrite Hnil in Hp. apply Permutation_nil in Hp. apply app_eq_nil in Hp as [_ Hp].
  apply elem_of_list_lookup in Hf as [i Hi]. destruct (Forall2_lookup_l _ _ _ _ _ Hvs Hi) as (v&Hv&Hverdict).
  assert (v = []) as Hv0.
  { destruct v as [|d v]; [done|]. assert (d ∈ concat vs) as Hin; [|rewrite Hp in Hin; by apply elem_of_nil in Hin].
    apply elem_of_list_In, in_concat. exists (d :: v). split; apply elem_of_list_In; [by eapply elem_of_list_lookup_2|by left]. }
  destruct Hverdict as [fn' codes' param' s missing unused Hk' _ Hd' Hsound Hcomplete Hm Hu].
  destruct missing, unused; try discriminate Hv0.
  assert (fn' = fn) as ->. { destruct Hk as (?&?&_&H1&_), Hk' as (?&?&_&H2&_). congruence. }
  assert (codes' = codes) as ->. { apply claim_result_spec in Hd, Hd'. congruence. }
  destruct Hm as (_&_&Hm), Hu as (_&_&Hu).
  assert (forall c, c ∈ s <-> c ∈ codes) as E.
  { intros c. specialize (Hm c). specialize (Hu c). rewrite elem_of_difference, elem_of_nil in Hm, Hu. destruct (decide (c ∈ s)), (decide (c ∈ codes)); tauto. }
  split; [intros c Hc; apply (Hsound Hus); by apply E|]. intros c Hag Hc. apply E. by apply (Hcomplete Hus).
Qed.
End run.
