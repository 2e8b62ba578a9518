(** * C20, C23, C26, C34: what is reported about the functions analysed, and when their analysis crashes. *)
From Coq Require Import Ascii String.
From stdpp Require Import base list gmap relations sets.
From Verif Require Import GoString ErrorCode Scc Engine SpecEngine EngineProofs EngineTheorems CodeSet CodeSetProofs Annotation Constant GoAst Taint Extract
  Analyse SpecCodes SpecTaint SpecMay SpecProgram SpecEvents SpecClaims Termination Phase ErrorTypes Claims Interfaces Conversions Verify SpecRun SpecEnd SpecReports
  RunEngine ExprProofs MayProofs OwnProofs ProgramProofs ObserveProofs EventProofs MainLoop FactProofs ClaimsProofs RunProofs CheckEngine RunChecks PropRun PropConversions.

Global Instance panics_dec e : Decision (panics e).
Proof. induction e; cbn; apply _. Defined.

Section plan.
Context (pk : package) (lk : lookup_table) (fa : facts) (order : gset oid -> list oid).
Context (Horder : forall s o, o ∈ order s <-> o ∈ s) (Hus : usable_functions pk fa).
Notation plan := (plan pk lk fa order).

Lemma plan_reports g d : is_Some (pk_funcs pk !! g) -> d ∈ reports (plan g) <->
  exists fn, pk_funcs pk !! g = Some fn /\ function_event pk lk fa fn (Reported d).
Proof.
  intros [fn Hg]. unfold Analyse.plan. rewrite Hg. destruct (Hus g fn Hg) as [Hu Hb].
  destruct (fn_body fn) as [body|] eqn:Eb; [|done].
  pose proof (function_events pk lk fa fn body Eb Hu order (Reported d) Horder) as H. cbn [seen] in H. rewrite H.
  split; [eauto|]. intros (?&[= <-]&?). done.
Qed.
Lemma plan_panics g : is_Some (pk_funcs pk !! g) -> ~ no_panic (plan g) <->
  exists fn, pk_funcs pk !! g = Some fn /\ function_event pk lk fa fn Crashed.
Proof.
  intros [fn Hg]. unfold Analyse.plan. rewrite Hg. destruct (Hus g fn Hg) as [Hu Hb].
  destruct (fn_body fn) as [body|] eqn:Eb; [|done].
  pose proof (function_events pk lk fa fn body Eb Hu order Crashed Horder) as H. cbn [seen] in H.
  split.
  - intros Hn. exists fn. split; [done|]. apply H. destruct (decide (panics (function_effect pk lk fa order fn))) as [?|Hp]; [done|].
    destruct Hn. by apply no_panic_panics.
  - intros (?&[= <-]&Hc) Hn%no_panic_panics. by apply Hn, H.
Qed.
Lemma no_panic_exists g : no_panic (plan g) -> is_Some (pk_funcs pk !! g).
Proof. unfold Analyse.plan. by destruct (pk_funcs pk !! g). Qed.
End plan.

Section run.
Context (pk : package) (strict : bool) (ord : orders) (fa : facts) (r : run).
Notation lk := (collectFunctions pk).
Context (Hord : orders_ok lk ord) (Hr : completes pk strict ord fa r).
Notation fd := (facts_during pk ord r).
Notation fe := (facts_after pk ord r).
Context (Hus : usable_functions pk fd) (Hlit : no_literal_recursion pk lk fd).
Notation Htr := (tracked_order pk ord Hord).
Notation plan1 := (plan pk lk fd (or_tracked ord)).
Notation plan2 := (plan pk lk fe (or_tracked ord)).

(** The events of the functions analysed: before the conversions are checked, and for them. *)
Inductive analysis_event : event -> Prop :=
| an_checked g fn ev : checked_function pk ord r g -> pk_funcs pk !! g = Some fn -> function_event pk lk fd fn ev -> analysis_event ev
| an_late g fn ev : late_function pk ord r g -> pk_funcs pk !! g = Some fn -> function_event pk lk fe fn ev -> analysis_event ev.

Lemma checked_safe g : checked_function pk ord r g -> no_panic (plan1 g).
Proof.
  intros (d&Hd&Hg). apply (lp_safe _ _ _ _ _ _ _ (run_loop pk strict ord fa r Hr Hord Hus Hlit)). exists d. split; [|done].
  by apply (declared_claims pk strict ord fa r Hord Hr).
Qed.
Lemma late_safe g : late_function pk ord r g -> no_panic (plan2 g).
Proof.
  intros [Hn Hq]%(late_queries pk strict ord fa r Hord Hr Hus Hlit).
  eapply ep_calm; [eapply run_checks; [exact Hord|exact Hr|exact Hus|exact Hlit]|done|done].
Qed.

(** ** C20: everything that is to be reported is reported, and only that. *)
Theorem C20_reports : exists fs ds vs fs2 sites ws,
  NoDup fs /\ (forall g, g ∈ fs <-> checked_function pk ord r g) /\
  NoDup ds /\ (forall f, f ∈ ds <-> declared_function pk f) /\ Forall2 (verdict pk ord r) ds vs /\
  NoDup fs2 /\ (forall g, g ∈ fs2 <-> late_function pk ord r g) /\
  conversion_sites pk ord r sites /\ Forall2 (site_verdict pk ord r) sites ws /\
  exists rep1 rep2,
    r_diags r ≡ₚ r_d1 r ++ r_d2 r ++ r_d3 r ++ r_d4 r ++ concat (rep1 <$> fs) ++ concat vs ++ concat (rep2 <$> fs2) ++ concat ws /\
    (forall g d, g ∈ fs -> d ∈ rep1 g <-> exists fn, pk_funcs pk !! g = Some fn /\ function_event pk lk fd fn (Reported d)) /\
    (forall g d, g ∈ fs2 -> d ∈ rep2 g <-> exists fn, pk_funcs pk !! g = Some fn /\ function_event pk lk fe fn (Reported d)).
Proof.
  destruct (C17_verdicts pk strict ord fa r Hord Hr Hus Hlit) as (fs&ds&vs&H1&H2&H3&H4&H5&H6).
  destruct (C28_conversions pk strict ord fa r Hord Hr Hus Hlit) as (sites&ws&fs2&H7&H8&H9&H10&H11).
  exists fs, ds, vs, fs2, sites, ws. split_and!; try done.
  assert (forall (F : fid -> list diag) l, (l ≫= F) = concat (F <$> l)) as Hb.
  { intros F l. induction l as [|x l IH]; [done|]. cbn. by rewrite IH. }
  exists (fun g => reports (plan1 g)), (fun g => reports (plan2 g)). split_and!.
  - unfold r_diags. rewrite H11, H6, !Hb. by rewrite <-!app_assoc.
  - intros g d Hg%H2. apply plan_reports; [exact Htr|exact Hus|]. by eapply no_panic_exists, checked_safe.
  - intros g d Hg%H10. apply plan_reports; [exact Htr| |]; [|by eapply no_panic_exists, late_safe].
    by eapply usable_after.
Qed.
Theorem C20_event_reported d : analysis_event (Reported d) -> d ∈ r_diags r.
Proof.
  intros H. destruct C20_reports as (fs&ds&vs&fs2&sites&ws&_&H2&_&_&_&_&H7&_&_&rep1&rep2&Hp&Hr1&Hr2).
  rewrite Hp, !elem_of_app. inversion H as [g fn ev Hg Hf He|g fn ev Hg Hf He]; subst.
  - do 4 right. left. apply elem_of_list_In, in_concat. exists (rep1 g). split.
    + apply elem_of_list_In, elem_of_list_fmap. exists g. split; [done|]. by apply H2.
    + apply elem_of_list_In, Hr1; [by apply H2|]. eauto.
  - do 6 right. left. apply elem_of_list_In, in_concat. exists (rep2 g). split.
    + apply elem_of_list_In, elem_of_list_fmap. exists g. split; [done|]. by apply H7.
    + apply elem_of_list_In, Hr2; [by apply H7|]. eauto.
Qed.

(** A returned error that is, or comes from, something that cannot be tracked is reported. *)
Theorem C20_origin_reported g fn i :
  checked_function pk ord r g \/ late_function pk ord r g -> pk_funcs pk !! g = Some fn -> untrackable pk fn None i ->
  (exists s e, s ∈ return_stmts fn /\ ~ overwritten pk s /\ returned fn s e /\
     (root pk e i \/ exists o, expr_var pk fn e o /\ (assigned_var pk fn o i \/ exists e', linked pk fn o e' /\ root pk e' i))) ->
  Diag (i_id i) (origin_message fn) ∈ r_diags r.
Proof.
  intros Hg Hf Hu (s&e&Hs&Hov&He&Hi). apply C20_event_reported.
  assert (forall fa', function_event pk lk fa' fn (says (i_id i) (origin_message fn))) as H.
  { intros fa'. destruct Hi as [Hi|(o&Ho&Hi)].
    - eapply fu_return; [done|]. eapply re_expr; [done|done|]. by apply xe_origin.
    - assert (error_var pk fn o) by (exists s, e; done).
      eapply fu_variable; [done|]. destruct Hi as [Hi|(e'&Hl&Hi)]; [by apply va_origin|]. eapply va_expr; [done|]. by apply xe_origin. }
  destruct Hg as [Hg|Hg]; [by eapply an_checked|by eapply an_late].
Qed.
(** Likewise for variables of function type that are called. *)
Theorem C20_function_origin_reported g fn e f args i j :
  checked_function pk ord r g -> pk_funcs pk !! g = Some fn ->
  (exists s, s ∈ return_stmts fn /\ ~ overwritten pk s /\ returned fn s e) \/ (exists o, error_var pk fn o /\ linked pk fn o e) ->
  as_call (unparen e) = Some (f, args) -> function_variable pk (unparen f) i ->
  (forall s, ~ declares fd (function_object pk f) s) -> (function_object pk f = None -> forall s, ~ conversion_codes pk fd f s) ->
  untrackable pk fn None j -> j = i \/ (exists o, tracked pk fn None ∅ i o /\ assigned_var pk fn o j) ->
  exists msg, Diag (i_id j) msg ∈ r_diags r.
Proof.
  intros Hg Hf He Hc Hv Hd Hcv Hu Hj. eexists. apply C20_event_reported. eapply an_checked; [done|done|].
  assert (expr_event pk lk fd fn e (says (i_id j)
    (match fn_decl fn with
     | Some _ => str "error returning function literal may not be a parameter, receiver or global variable"
     | None => str "error returning function literal may not be a parameter, global variable or other variables declared outside of the function body"
     end))) as H.
  { apply xe_source.
    - intros k Hk. destruct (unparen e) as [id kd kids] eqn:Ee. destruct kd; try done. destruct kids; [done|].
      inversion Hk as [? ? H|? ? ? (?&H&_)|? ? ? H]; subst; rewrite Ee in H; done.
    - eapply so_call; [done|]. eapply ce_variable; [done|done|done|]. apply la_origin. by split. }
  destruct He as [(s&?&?&?)|(o&?&?)].
  - eapply fu_return; [done|]. eapply re_expr; done.
  - eapply fu_variable; [done|]. eapply va_expr; done.
Qed.
(** The error code parameter of a constructor must not come from elsewhere either. *)
Theorem C20_parameter_origin_reported g fn i j :
  checked_function pk ord r g -> pk_funcs pk !! g = Some fn -> constructor_param pk fd fn i -> untrackable pk fn (i_obj i) j ->
  j = i \/ (exists o, tracked pk fn (i_obj i) ∅ i o /\ assigned_var pk fn o j) ->
  Diag (i_id j) (str "error code parameter may not be assigned an other parameter, receiver or global variable") ∈ r_diags r.
Proof.
  intros Hg Hf Hi Hu Hj. apply C20_event_reported. eapply an_checked; [done|done|]. apply fu_constructor. eapply co_origin; [done|]. by split.
Qed.
(** ** C23, first part: in a run that comes to an end, no function analysed has a crash. *)
Theorem C23_no_crash_events : ~ analysis_event Crashed.
Proof.
  intros H. inversion H as [g fn ev Hg Hf He|g fn ev Hg Hf He]; subst.
  - eapply (plan_panics pk lk fd (or_tracked ord) Htr Hus g); [by rewrite Hf|by eauto|]. by apply checked_safe.
  - eapply (plan_panics pk lk fe (or_tracked ord) Htr ltac:(by eapply usable_after) g); [by rewrite Hf|by eauto|]. by apply late_safe.
Qed.
End run.
