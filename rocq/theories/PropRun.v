(** * C10, C16, C17, C33, C35, C36: the codes found, and the verdict about the functions that declare codes. *)
From Coq Require Import Ascii String.
From stdpp Require Import base list gmap relations sets sorting.
From Verif Require Import GoString ErrorCode Scc Engine SpecEngine EngineProofs EngineTheorems CodeSet CodeSetProofs Annotation Constant GoAst Taint Extract
  Analyse SpecCodes SpecTaint SpecMay SpecProgram SpecClaims Termination Phase ErrorTypes Claims Interfaces Conversions Verify SpecRun SpecEnd RunEngine
  MayProofs OwnProofs ProgramProofs ObserveProofs MainLoop FactProofs ClaimsProofs RunProofs PropFacts CheckEngine RunChecks PropCodeSet.

Section run.
Context (pk : package) (strict : bool) (ord : orders) (fa : facts) (r : run).
Notation lk := (collectFunctions pk).
Context (Hord : orders_ok lk ord) (Hr : completes pk strict ord fa r).
Notation fd := (facts_during pk ord r).
Notation fe := (facts_after pk ord r).
Context (Hus : usable_functions pk fd) (Hlit : no_literal_recursion pk lk fd).
Notation plan1 := (plan pk lk fd (or_tracked ord)).
Notation may := (may_return pk lk fd).
(** The codes found for [f] when the declarations are compared with the code (lookup.foundCodes). *)
Notation found f := (e_found (r_loop r) !! f).

(** ** C33, second half: only functions that declare codes, and what they call, are analysed before the conversions. *)
Theorem C33_analysed g : is_Some (found g) <-> checked_function pk ord r g.
Proof. exact (checked_found pk strict ord fa r Hord Hr Hus Hlit g). Qed.

(** ** C17 *)
Theorem C17_sound f s c : found f = Some s -> c ∈ s -> may f c.
Proof.
  intros Hs Hc. apply (may_return_sound pk lk fd (or_tracked ord) (tracked_order pk ord Hord) Hus).
  by apply (loop_value pk strict ord fa r Hord Hr Hus Hlit f s Hs).
Qed.
Theorem C17_complete f s c : found f = Some s -> agree_everywhere pk c -> may f c -> c ∈ s.
Proof.
  intros Hs Ha Hm. apply (loop_value pk strict ord fa r Hord Hr Hus Hlit f s Hs).
  by apply (may_return_complete pk lk fd (or_tracked ord) (tracked_order pk ord Hord) Hus).
Qed.

(** What the codes of a function consist of (equations). *)
Theorem C17_equations f c : may f c <->
  (exists fn, pk_funcs pk !! f = Some fn /\ own_code pk lk fd may fn c) \/ exists g, f <> g /\ recursive_with pk lk fd f g /\ may g c.
Proof.
  split.
  - revert f c. apply (may_return_least pk lk fd).
    + intros f fn c Hf Ho. left. exists fn. split; [done|]. eapply own_code_mono; [|exact Ho]. intros g [(gn&Hg&Hgo)|(h&_&Hh&Hm)].
      * by eapply mr_own.
      * by eapply mr_recursive.
    + intros f g c Hrw H. destruct (decide (f = g)) as [->|Hne]; [done|]. right. exists g. split_and!; [done|done|].
      destruct H as [(gn&Hg&Hgo)|(h&_&Hh&Hm)]; [by eapply mr_own|by eapply mr_recursive].
  - intros [(fn&Hf&Ho)|(g&_&Hrw&Hm)]; [by eapply mr_own|by eapply mr_recursive].
Qed.
(** ... and they are the least such sets. *)
Theorem C17_least (P : fid -> gostring -> Prop) :
  (forall f fn c, pk_funcs pk !! f = Some fn -> own_code pk lk fd P fn c -> P f c) ->
  (forall f g c, recursive_with pk lk fd f g -> P g c -> P f c) ->
  forall f c, may f c -> P f c.
Proof. apply may_return_least. Qed.

(** ** C16 *)
Theorem C16_common f g s : recursive_with pk lk fd f g -> found f = Some s ->
  found g = Some s /\ forall h hn c, recursive_with pk lk fd f h -> pk_funcs pk !! h = Some hn -> own_code pk lk fd may hn c ->
    agree_everywhere pk c -> c ∈ s.
Proof.
  intros [H1 H2] Hs. assert (checked_function pk ord r f) as (d&Hd&Hdf) by (apply C33_analysed; by rewrite Hs). split.
  - assert (is_Some (found g)) as [s' Hs'].
    { apply C33_analysed. exists d. split; [done|]. by etrans. }
    rewrite Hs'. f_equal. apply set_eq. intros c.
    rewrite (loop_value pk strict ord fa r Hord Hr Hus Hlit f s Hs c), (loop_value pk strict ord fa r Hord Hr Hus Hlit g s' Hs' c).
    split; intros Hm; (eapply may_recursive; [|exact Hm]); apply (package_mutual pk lk fd (or_tracked ord) Hus); done.
  - intros h hn c Hrw Hh Ho Ha. eapply C17_complete; [done|done|]. eapply mr_recursive; [exact Hrw|]. by eapply mr_own.
Qed.

(** ** The verdict *)
(** [missing] are the codes found but not declared, [unused] the ones declared but not found; a report is made iff there are any. *)
Inductive verdict (f : fid) : list diag -> Prop :=
| verdict_intro fn codes param s missing unused :
    known_function pk f fn -> returns_error_last pk (fn_type fn) -> declares_codes pk fn codes param ->
    (forall c, c ∈ s -> may f c) -> (forall c, agree_everywhere pk c -> may f c -> c ∈ s) ->
    listing missing (s ∖ codes) -> listing unused (codes ∖ s) ->
    verdict f (match missing, unused with [], [] => [] | _, _ => [Diag (fn_pos fn) (expected_message (func_name fn) missing unused)] end).

Lemma some_orders_ok s codes : match_orders_ok s codes (some_orders s codes).
Proof.
  unfold some_orders. assert (forall x : codeset, order_of x (elements x)) as Ho by (intros x; unfold order_of; reflexivity).
  split_and!; cbn; try apply Ho.
Qed.
Lemma mismatch_verdict f : declared_function pk f -> verdict f (mismatch_diag pk (r_claims r) f (default ∅ (found f))).
Proof.
  intros (fn&codes&param&Hk&Hret&Hd). assert (is_Some (found f)) as [s Hs].
  { apply C33_analysed. exists f. split; [by exists fn, codes, param|]. apply rtc_refl. }
  assert (r_claims r !! f = Some (Claim codes param)) as Hc by (apply (run_claims pk strict ord fa r Hr Hord); eauto).
  assert (pk_funcs pk !! f = Some fn) as Hf by (destruct Hk as (?&?&_&?&_); done).
  unfold mismatch_diag. rewrite Hf, Hc, Hs. cbn [default from_option id cl_codes].
  destruct (C12_mismatch_report (func_name fn) s codes (some_orders s codes) (some_orders_ok s codes)) as [H1 H2].
  assert (exists missing unused, listing missing (s ∖ codes) /\ listing unused (codes ∖ s) /\
    match reportIfCodesDoNotMatch (func_name fn) (some_orders s codes) with Some msg => [Diag (fn_pos fn) msg] | None => [] end =
    match missing, unused with [], [] => [] | _, _ => [Diag (fn_pos fn) (expected_message (func_name fn) missing unused)] end) as (m&u&Hm&Hu&->).
  { destruct (decide (s = codes)) as [E|E].
    - rewrite (H1 E). exists [], []. subst. split_and!; [| |done]; (split_and!; [constructor|constructor|]; intros v; set_solver).
    - destruct (H2 E) as (m&u&Hm&Hu&->). exists m, u. split_and!; [done|done|]. destruct m, u; try done. exfalso. apply E.
      apply set_eq. intros v. destruct Hm as (_&_&Hm), Hu as (_&_&Hu). specialize (Hm v). specialize (Hu v).
      rewrite elem_of_difference, elem_of_nil in Hm, Hu. destruct (decide (v ∈ s)), (decide (v ∈ codes)); tauto. }
  econstructor; try done.
  - intros c. by apply C17_sound.
  - intros c. by apply C17_complete.
Qed.

(** All diagnostics of the comparison of declarations and code: the reports about the functions analysed (C20), and the verdict about
    each function that declares codes. *)
Theorem C17_verdicts : exists fs ds vs,
  NoDup fs /\ (forall g, g ∈ fs <-> checked_function pk ord r g) /\
  NoDup ds /\ (forall f, f ∈ ds <-> declared_function pk f) /\ Forall2 verdict ds vs /\
  e_diags (r_loop r) ≡ₚ (fs ≫= fun g => reports (plan1 g)) ++ concat vs.
Proof.
  destruct (run_loop pk strict ord fa r Hr Hord Hus Hlit) as [_ _ _ Hdiags (fs&Hnd&Hfs) _].
  set (ds := or_claims ord 1 (dom (r_claims r))) in *.
  exists fs, ds, ((fun f => mismatch_diag pk (r_claims r) f (default ∅ (found f))) <$> ds).
  assert (forall f, f ∈ ds <-> declared_function pk f) as Hds by (intros f; exact (declared_claims pk strict ord fa r Hord Hr f)).
  split_and!; [done| | |done| |].
  - intros g. rewrite Hfs. unfold checked_function. by setoid_rewrite Hds.
  - unfold ds. rewrite (ok_claims _ _ Hord). apply NoDup_elements.
  - apply Forall2_fmap_r. apply Forall_Forall2_diag. apply Forall_forall. intros f Hf. by apply mismatch_verdict, Hds.
  - rewrite (Hdiags fs Hnd Hfs). f_equiv. clear. induction ds as [|f ds IH]; [done|]. cbn. by rewrite IH.
Qed.
End run.
