(** * C45: documentation does not influence the analysis of code. *)
From Coq Require Import Ascii String.
From stdpp Require Import base list gmap relations sets sorting.
From Verif Require Import GoString ErrorCode Scc Engine SpecEngine CodeSet CodeSetProofs Annotation Constant GoAst Taint Extract Analyse SpecCodes SpecMessages
  SpecMay SpecProgram SpecClaims SpecInterfaces Phase ErrorTypes Claims Interfaces Conversions Verify SpecRun SpecEnd MainLoop FactProofs ClaimsProofs RunProofs PropFacts
  CheckEngine RunChecks PropCodeSet PropRun PropOrder ArrangeProofs SpecRedoc RedocProofs RedocPhases.

Section judge.
Context (pk : package) (strict : bool) (ord : orders) (fa : facts) (r : run).
Notation lk := (collectFunctions pk).
Context (Hord : orders_ok lk ord) (Hr : completes pk strict ord fa r).
Notation fd := (facts_during pk ord r).
Context (Hus : usable_functions pk fd) (Hlit : no_literal_recursion pk lk fd).
Lemma mismatch_judged found f : (forall g s, e_found (r_loop r) !! g = Some s -> s = found g) -> declared_function pk f ->
  judged pk found f (mismatch_diag pk (r_claims r) f (default ∅ (e_found (r_loop r) !! f))).
Proof.
  intros Hfound (fn&codes&param&Hk&Hret&Hd). assert (is_Some (e_found (r_loop r) !! f)) as [s Hs].
  { apply (C33_analysed pk strict ord fa r Hord Hr Hus Hlit). exists f. split; [by exists fn, codes, param|]. apply rtc_refl. }
  pose proof (Hfound f s Hs) as ->.
  assert (r_claims r !! f = Some (Claim codes param)) as Hc by (apply (run_claims pk strict ord fa r Hr Hord); eauto).
  assert (pk_funcs pk !! f = Some fn) as Hf by (destruct Hk as (?&?&_&?&_); done).
  unfold mismatch_diag. rewrite Hf, Hc, Hs. cbn [default from_option id cl_codes]. set (s := found f) in *.
  destruct (C12_mismatch_report (func_name fn) s codes (some_orders s codes) (some_orders_ok s codes)) as [H1 H2].
  change (func_name fn) with (name_of fn) in *.
  assert (exists missing unused, listing missing (s ∖ codes) /\ listing unused (codes ∖ s) /\
    match reportIfCodesDoNotMatch (name_of fn) (some_orders s codes) with Some msg => [Diag (fn_pos fn) msg] | None => [] end =
    match missing, unused with [], [] => [] | _, _ => [Diag (fn_pos fn) (expected_message (name_of fn) missing unused)] end) as (m&u&Hm&Hu&->).
  { destruct (decide (s = codes)) as [E|E].
    - rewrite (H1 E). exists [], []. subst. split_and!; [| |done]; (split_and!; [constructor|constructor|]; intros v; set_solver).
    - destruct (H2 E) as (m&u&Hm&Hu&->). exists m, u. split_and!; [done|done|]. destruct m, u; try done. exfalso. apply E.
      apply set_eq. intros v. destruct Hm as (_&_&Hm), Hu as (_&_&Hu). specialize (Hm v). specialize (Hu v).
      rewrite elem_of_difference, elem_of_nil in Hm, Hu. destruct (decide (v ∈ s)), (decide (v ∈ codes)); tauto. }
  by econstructor.
Qed.
Lemma run_explained found says : (forall g s, e_found (r_loop r) !! g = Some s -> s = found g) ->
  (forall g, says g ≡ₚ reports (plan pk lk fd (or_tracked ord) g)) -> explains pk ord r found says.
Proof.
  intros Hfound Hsays.
  destruct (run_loop pk strict ord fa r Hr Hord Hus Hlit) as [_ _ _ Hdiags (fs&Hnd&Hfs) _].
  set (ds := or_claims ord 1 (dom (r_claims r))) in *.
  exists fs, ds, ((fun f => mismatch_diag pk (r_claims r) f (default ∅ (e_found (r_loop r) !! f))) <$> ds).
  assert (forall f, f ∈ ds <-> declared_function pk f) as Hds by (intros f; exact (declared_claims pk strict ord fa r Hord Hr f)).
  split_and!; [done| | |done| |].
  - intros g. rewrite Hfs. unfold checked_function. by setoid_rewrite Hds.
  - unfold ds. rewrite (ok_claims _ _ Hord). apply NoDup_elements.
  - apply Forall2_fmap_r. apply Forall_Forall2_diag. apply Forall_forall. intros f Hf. apply mismatch_judged; [done|]. by apply Hds.
  - rewrite (Hdiags fs Hnd Hfs). apply Permutation_app.
    + apply bind_perm_ext. intros g _. symmetry. apply Hsays.
    + clear. induction ds as [|f ds IH]; [done|]. cbn. by rewrite IH.
Qed.
End judge.

Section redoc.
Context (pk : package) (docs : fid -> option gostring) (strict : bool) (ord ord' : orders) (fa : facts) (r r' : run).
Notation pk' := (with_docs docs pk).
Notation lk := (collectFunctions pk).
Notation lk' := (collectFunctions pk').
Context (Hord : orders_ok lk ord) (Hord' : orders_ok lk' ord') (Hok : interfaces_ok pk) (Hdd : distinct_definitions pk).
Context (Hr : completes pk strict ord fa r) (Hr' : completes pk' strict ord' fa r').
Context (Hpos : forall o p, declares_position pk o p <-> declares_position pk' o p).
Context (Hus : usable_functions pk (facts_during pk ord r)) (Hlit : no_literal_recursion pk lk (facts_during pk ord r)).
Context (Hus' : usable_functions pk' (facts_during pk' ord' r')) (Hlit' : no_literal_recursion pk' lk' (facts_during pk' ord' r')).

Lemma plans_alike f : alike (plan pk' lk' (facts_during pk' ord' r') (or_tracked ord') f) (plan pk lk (facts_during pk ord r) (or_tracked ord) f).
Proof.
  rewrite (during_redoc pk docs strict ord ord' fa r r' Hord Hord' Hok Hdd Hr Hr' Hpos), collect_redoc, plan_redoc. apply plan_alike. intros s.
  by rewrite (ok_tracked _ _ Hord), (ok_tracked _ _ Hord').
Qed.
Lemma found_redoc f s s' : e_found (r_loop r) !! f = Some s -> e_found (r_loop r') !! f = Some s' -> s' = s.
Proof.
  intros Hs Hs'. apply set_eq. intros c.
  rewrite (loop_value pk strict ord fa r Hord Hr Hus Hlit f s Hs c), (loop_value pk' strict ord' fa r' Hord' Hr' Hus' Hlit' f s' Hs' c).
  apply alike_may. intros g. apply plans_alike.
Qed.
End redoc.

(** What is reported about the body of a function (C20 says what that is). *)
Definition said_about (pk : package) (ord : orders) (r : run) (g : fid) : list diag :=
  reports (plan pk (collectFunctions pk) (facts_during pk ord r) (or_tracked ord) g).

(** Rewriting the documentation of functions - any of them, in any way that does not change which parameters are declared to be error codes -
    changes neither the error types and interfaces found, nor the codes found for a function, nor what is said about its body: it changes
    only which functions are analysed, and what their codes are compared with. *)
Theorem C45_documentation pk docs strict ord ord' fa r r' :
  orders_ok (collectFunctions pk) ord -> orders_ok (collectFunctions (with_docs docs pk)) ord' -> interfaces_ok pk -> distinct_definitions pk ->
  completes pk strict ord fa r -> completes (with_docs docs pk) strict ord' fa r' ->
  (forall o p, declares_position pk o p <-> declares_position (with_docs docs pk) o p) ->
  usable_functions pk (facts_during pk ord r) -> no_literal_recursion pk (collectFunctions pk) (facts_during pk ord r) ->
  usable_functions (with_docs docs pk) (facts_during (with_docs docs pk) ord' r') ->
  no_literal_recursion (with_docs docs pk) (collectFunctions (with_docs docs pk)) (facts_during (with_docs docs pk) ord' r') ->
  r_types r' = r_types r /\ r_ifaces r' = r_ifaces r /\ r_funcs r' ≡ₚ r_funcs r /\
  r_d1 r' = r_d1 r /\ r_d2 r' ≡ₚ r_d2 r /\ r_d3 r' ≡ₚ r_d3 r /\
  exists found,
    (forall f s, e_found (r_loop r) !! f = Some s -> s = found f) /\ (forall f s, e_found (r_loop r') !! f = Some s -> s = found f) /\
    explains pk ord r found (said_about pk ord r) /\ explains (with_docs docs pk) ord' r' found (said_about pk ord r).
Proof.
  intros Hord Hord' Hok Hdd Hr Hr' Hpos Hus Hlit Hus' Hlit'.
  destruct (types_agree pk docs strict ord ord' fa r r' Hr Hr') as [? ?].
  destruct (ifaces_agree pk docs strict ord ord' fa r r' Hord Hord' Hok Hr Hr') as [? ?].
  destruct (funcs_agree pk docs strict ord ord' fa r r' Hord Hord' Hok Hr Hr') as [? ?].
  split_and!; [done..|].
  set (found := fun f => default (default ∅ (e_found (r_loop r') !! f)) (e_found (r_loop r) !! f)).
  assert (forall f s, e_found (r_loop r) !! f = Some s -> s = found f) as F1 by (intros f s E; unfold found; by rewrite E).
  assert (forall f s, e_found (r_loop r') !! f = Some s -> s = found f) as F2.
  { intros f s E. unfold found. rewrite E. cbn [default from_option]. destruct (e_found (r_loop r) !! f) as [s1|] eqn:E1; [|done]. cbn.
    by apply (found_redoc pk docs strict ord ord' fa r r' Hord Hord' Hok Hdd Hr Hr' Hpos Hus Hlit Hus' Hlit' f). }
  exists found. split_and!; [done|done| |].
  - by apply (run_explained pk strict ord fa r Hord Hr Hus Hlit).
  - apply (run_explained _ strict ord' fa r' Hord' Hr' Hus' Hlit' _ _ F2). intros g. symmetry.
    by apply (plans_alike pk docs strict ord ord' fa r r' Hord Hord' Hok Hdd Hr Hr' Hpos g).
Qed.

(** One round of corrections is enough: if the new documentation declares the codes that were found, no function is reported to declare
    other codes than it returns; only what was reported about the bodies of the functions before remains. *)
Theorem C45_corrected pk docs strict ord ord' fa r r' :
  orders_ok (collectFunctions pk) ord -> orders_ok (collectFunctions (with_docs docs pk)) ord' -> interfaces_ok pk -> distinct_definitions pk ->
  completes pk strict ord fa r -> completes (with_docs docs pk) strict ord' fa r' ->
  (forall o p, declares_position pk o p <-> declares_position (with_docs docs pk) o p) ->
  usable_functions pk (facts_during pk ord r) -> no_literal_recursion pk (collectFunctions pk) (facts_during pk ord r) ->
  usable_functions (with_docs docs pk) (facts_during (with_docs docs pk) ord' r') ->
  no_literal_recursion (with_docs docs pk) (collectFunctions (with_docs docs pk)) (facts_during (with_docs docs pk) ord' r') ->
  (forall f fn codes param, known_function (with_docs docs pk) f fn -> returns_error_last (with_docs docs pk) (fn_type fn) ->
    declares_codes (with_docs docs pk) fn codes param -> e_found (r_loop r) !! f = Some codes) ->
  exists fs, NoDup fs /\ (forall g, g ∈ fs <-> checked_function (with_docs docs pk) ord' r' g) /\ e_diags (r_loop r') ≡ₚ fs ≫= said_about pk ord r.
Proof.
  intros Hord Hord' Hok Hdd Hr Hr' Hpos Hus Hlit Hus' Hlit' Hfix.
  destruct (C45_documentation pk docs strict ord ord' fa r r' Hord Hord' Hok Hdd Hr Hr' Hpos Hus Hlit Hus' Hlit') as (_&_&_&_&_&_&found&F1&F2&_&(fs'&ds'&vs'&?&?&?&?&J&E')).
  exists fs'. split_and!; [done|done|].
  assert (concat vs' = []) as Ev.
  { clear -J Hfix F1. induction J as [|f v ds vs Hj J IH]; [done|]. cbn [concat]. rewrite IH, app_nil_r.
    destruct Hj as [fn codes param missing unused Hk Hret Hd Hm Hu]. pose proof (F1 f codes (Hfix f fn codes param Hk Hret Hd)) as E. rewrite <-E in Hm, Hu.
    assert (missing = []) as -> by (apply elem_of_nil_inv; intros x Hx; destruct Hm as (_&_&Hm); apply Hm in Hx; set_solver).
    assert (unused = []) as -> by (apply elem_of_nil_inv; intros x Hx; destruct Hu as (_&_&Hu); apply Hu in Hx; set_solver). done. }
  by rewrite E', Ev, app_nil_r.
Qed.
