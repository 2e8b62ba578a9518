(** * The recursions of the analysis end, whatever the program looks like. *)
From Coq Require Import Ascii String.
From stdpp Require Import base list gmap sets.
From Verif Require Import GoString ErrorCode Scc Engine SpecEngine CodeSet Constant GoAst Taint Extract Analyse TaintProofs.

(** ** Variable tracking *)
Section spread.
Context (pk : package) (fn : func) (param : option oid) (body : node) (Hbody : fn_body fn = Some body).
Notation universe := (universe pk param).

Record grows (st st' : tstate) : Prop := {
  gr_ok : ts_ok st' = ts_ok st;
  gr_visited : ts_visited st ⊆ ts_visited st';
  gr_universe : forall o, o ∈ ts_visited st' -> o ∈ ts_visited st \/ o ∈ universe;
  gr_found : (ts_exprs st' = ts_exprs st /\ ts_destructs st' = ts_destructs st) \/ exists o, o ∈ ts_visited st' /\ o ∉ ts_visited st
}.
Lemma in_scope_universe st i o : i_obj i = Some o ->
  ((match i_obj i with Some o => bool_decide (o ∈ ts_blocked st) | None => false end)
     || isIdentOriginOutsideFunctionScope pk fn i) &&
  negb (match param with Some p => bool_decide (i_obj i = Some p) | None => false end) = false ->
  i_name i <> str "nil" -> o ∈ universe.
Proof.
  intros Ho H Hn. unfold TaintProofs.universe. apply elem_of_union.
  destruct (decide (o ∈ dom (pk_objs pk))) as [|Hd]; [by left|right].
  apply andb_false_iff in H as [H|H].
  - apply orb_false_iff in H as [_ H]. unfold isIdentOriginOutsideFunctionScope in H.
    rewrite decide_False, Ho in H by done. unfold obj_of in H. apply not_elem_of_dom in Hd. rewrite Hd in H. cbn in H.
    apply orb_false_iff in H as [H _]. apply N.leb_gt in H. lia.
  - apply negb_false_iff in H. destruct param as [p|]; [|done].
    apply bool_decide_eq_true in H. rewrite Ho in H. injection H as <-. by apply elem_of_singleton.
Qed.
Lemma findSpread_grows fuel i st : size (universe ∖ ts_visited st) < fuel -> grows st (findSpread pk fn param fuel i st).
Proof.
  revert i st. induction fuel as [|n IH]; intros i st Hfuel; [lia|].
  cbn [findSpread].
  assert (grows st st) as Hrefl by (split; [done|done|by left|by left]).
  destruct ((_ || _) && negb _) eqn:Echk; [split; [done|done|by left|by left]|].
  case_decide as Hnil; [done|].
  destruct (i_obj i) as [o|] eqn:Eo; [|done].
  destruct (decide (o ∈ ts_visited st)) as [Hvis|Hvis]; [exact Hrefl|].
  assert (o ∈ universe) as Hou.
  { eapply (in_scope_universe st i); [exact Eo| |done]. rewrite Eo. exact Echk. }
  rewrite Hbody, spread_nodes_items, spread_init_items. unfold run_items. rewrite <-foldl_app.
  set (st1 := mark_visited o st). set (rec := findSpread pk fn param n) in *.
  assert (forall l st2, ts_ok st2 = ts_ok st -> ts_visited st1 ⊆ ts_visited st2 ->
    (forall o, o ∈ ts_visited st2 -> o ∈ ts_visited st \/ o ∈ universe) ->
    let st' := foldl (run_item rec) st2 l in
    ts_ok st' = ts_ok st /\ ts_visited st1 ⊆ ts_visited st' /\
    (forall o, o ∈ ts_visited st' -> o ∈ ts_visited st \/ o ∈ universe)) as H.
  { induction l as [|it l IHl]; intros st2 Hok Hv Hu; [done|]. cbn [foldl].
    assert (ts_ok (run_item rec st2 it) = ts_ok st2 /\ ts_visited st2 ⊆ ts_visited (run_item rec st2 it) /\
      forall o, o ∈ ts_visited (run_item rec st2 it) -> o ∈ ts_visited st2 \/ o ∈ universe) as (H1&H2&H3).
    { destruct it as [e|d|j|os]; cbn; auto.
      destruct (IH j st2) as [G1 G2 G3 _].
      - assert (size (universe ∖ ts_visited st2) < size (universe ∖ ts_visited st)); [|lia].
        apply subset_size. apply strict_spec_alt. split.
        + assert (ts_visited st ⊆ ts_visited st1) by (cbn; set_solver). set_solver.
        + intros Heq. assert (o ∈ universe ∖ ts_visited st) as Ho by set_solver.
          rewrite <-Heq in Ho. apply elem_of_difference in Ho as [_ Ho]. apply Ho, Hv. cbn. set_solver.
      - auto. }
    apply IHl.
    - congruence.
    - set_solver.
    - intros o' Ho'. destruct (H3 o' Ho') as [?|?]; auto. }
  destruct (H (items_init pk o ++ flat_map (items_node pk o) (walk body)) st1) as (H1&H2&H3).
  - done.
  - done.
  - cbn. intros o' [->%elem_of_singleton|?]%elem_of_union; auto.
  - split.
    + done.
    + etrans; [|exact H2]. cbn. set_solver.
    + done.
    + right. exists o. split; [|done]. apply H2. cbn. set_solver.
Qed.
Lemma taintSpread_grows V i : grows (TState [] [] [] V ∅ true) (taintSpread pk fn param V i).
Proof.
  apply findSpread_grows. unfold spread_fuel. cbn. pose proof (universe_size pk param) as Hs.
  assert (size (universe ∖ V) <= size universe) by (apply subseteq_size; set_solver). lia.
Qed.
Lemma findSpread_fuel n m i st : size (universe ∖ ts_visited st) < n -> size (universe ∖ ts_visited st) < m ->
  findSpread pk fn param n i st = findSpread pk fn param m i st.
Proof.
  revert m i st. induction n as [|n IH]; intros [|m] i st Hn Hm; [lia|lia|lia|].
  cbn [findSpread].
  destruct ((_ || _) && negb _) eqn:Echk; [done|].
  case_decide as Hnil; [done|].
  destruct (i_obj i) as [o|] eqn:Eo; [|done].
  destruct (decide (o ∈ ts_visited st)) as [Hvis|Hvis]; [done|].
  assert (o ∈ universe) as Hou.
  { eapply (in_scope_universe st i); [exact Eo| |done]. rewrite Eo. exact Echk. }
  rewrite Hbody, !spread_nodes_items, !spread_init_items. unfold run_items. rewrite <-!foldl_app.
  assert (ts_visited (mark_visited o st) = {[o]} ∪ ts_visited st) as Hst1 by done.
  generalize (items_init pk o ++ flat_map (items_node pk o) (walk body)).
  assert ({[o]} ∪ ts_visited st ⊆ ts_visited (mark_visited o st)) as Hsub by done.
  revert Hsub. clear Hst1. generalize (mark_visited o st). intros st2 Hsub l. revert st2 Hsub.
  induction l as [|it l IHl]; intros st2 Hsub; [done|]. cbn [foldl].
  assert (size (universe ∖ ts_visited st2) < size (universe ∖ ts_visited st)) as Hlt.
  { apply subset_size. apply strict_spec_alt. split; [set_solver|].
    intros Heq. assert (o ∈ universe ∖ ts_visited st) as Ho by set_solver.
    rewrite <-Heq in Ho. set_solver. }
  assert (run_item (findSpread pk fn param n) st2 it = run_item (findSpread pk fn param m) st2 it) as ->.
  { destruct it as [e|d|j|os]; cbn; try done. apply IH; lia. }
  apply IHl. etrans; [exact Hsub|].
  destruct it as [e|d|j|os]; cbn; try done. apply (gr_visited _ _ (findSpread_grows m j st2 ltac:(lia))).
Qed.
End spread.

(** ** Expressions *)
Section expr.
Context (pk : package) (lk : lookup_table) (fa : facts) (fn : func) (body : node) (Hbody : fn_body fn = Some body).
Notation universe := (dom (pk_objs pk) : gset oid).

Definition fuel_ok (V : gset oid) (n : nat) : Prop := size (universe ∖ V) < n.
Lemma fuel_ok_mono V V' n : V ⊆ V' -> fuel_ok V n -> fuel_ok V' n.
Proof. unfold fuel_ok. intros HV H. eapply Nat.le_lt_trans; [|exact H]. apply subseteq_size. set_solver. Qed.
Definition rec_same (V : gset oid) (rec rec' : expr_analysis) : Prop :=
  forall V' e, V ⊆ V' -> rec V' e = rec' V' e /\ V' ⊆ (rec V' e).2.
Lemma rec_same_mono V V' rec rec' : V ⊆ V' -> rec_same V rec rec' -> rec_same V' rec rec'.
Proof. intros HV H V'' e ?. apply H. set_solver. Qed.
Lemma codes_of_exprs_same V rec rec' es : rec_same V rec rec' ->
  forall V', V ⊆ V' -> codes_of_exprs rec V' es = codes_of_exprs rec' V' es /\ V' ⊆ (codes_of_exprs rec V' es).2.
Proof.
  intros H. induction es as [|e es IH]; intros V' HV; [done|]. cbn.
  destruct (H V' e HV) as [E HV']. rewrite <-E. destruct (rec V' e) as [c v1] eqn:Er. cbn in HV'.
  destruct (IH v1) as [E' HV'']; [set_solver|]. rewrite <-E'. destruct (codes_of_exprs rec v1 es) as [c' v2]. cbn in *.
  split; [done|set_solver].
Qed.
Lemma codes_of_destruct_same V rec rec' d : rec_same V rec rec' ->
  forall V', V ⊆ V' -> codes_of_destruct pk lk fa rec fn V' d = codes_of_destruct pk lk fa rec' fn V' d /\
    V' ⊆ (codes_of_destruct pk lk fa rec fn V' d).2.
Proof.
  intros H V' HV. unfold codes_of_destruct. destruct (unparen (de_source d)) as [id k kids].
  destruct k; try done.
  - destruct kids as [|f args]; [done|]. destruct (ti_type _ _) as [[]|]; try done. by case_decide.
  - destruct kids as [|x [|]]; try done. by apply H.
Qed.
Lemma codes_of_destructs_same V rec rec' ds : rec_same V rec rec' ->
  forall V', V ⊆ V' -> codes_of_destructs pk lk fa rec fn V' ds = codes_of_destructs pk lk fa rec' fn V' ds /\
    V' ⊆ (codes_of_destructs pk lk fa rec fn V' ds).2.
Proof.
  intros H. induction ds as [|e ds IH]; intros V' HV; [done|]. cbn.
  destruct (codes_of_destruct_same V rec rec' e H V' HV) as [E HV']. rewrite <-E.
  destruct (codes_of_destruct pk lk fa rec fn V' e) as [c v1] eqn:Er. cbn in HV'.
  destruct (IH v1) as [E' HV'']; [set_solver|]. rewrite <-E'. destruct (codes_of_destructs pk lk fa rec fn v1 ds) as [c' v2]. cbn in *.
  split; [done|set_solver].
Qed.
Lemma ident_taint_same V n m rec rec' i :
  fuel_ok V (S n) -> fuel_ok V (S m) ->
  (forall V', fuel_ok V' n -> fuel_ok V' m -> rec_same V' rec rec') ->
  findErrorCodesFromIdentTaint pk lk fa rec fn V i = findErrorCodesFromIdentTaint pk lk fa rec' fn V i /\
  V ⊆ (findErrorCodesFromIdentTaint pk lk fa rec fn V i).2.
Proof.
  intros Hn Hm Hrec. unfold findErrorCodesFromIdentTaint.
  destruct (taintSpread_grows pk fn None body Hbody V i) as [Hok Hv Hu Hf].
  set (r := taintSpread pk fn None V i) in *. clearbody r. rewrite Hok. cbn [ts_ok negb].
  cbn in Hv, Hu, Hf.
  destruct Hf as [[-> ->]|(o&Ho&HoV)].
  { cbn. done. }
  assert (size (universe ∖ ts_visited r) < size (universe ∖ V)) as Hlt.
  { apply subset_size. apply strict_spec_alt. split; [set_solver|].
    intros Heq. destruct (Hu o Ho) as [?|Ho2]; [done|]. unfold TaintProofs.universe in Ho2.
    assert (o ∈ universe ∖ V) as Ho3 by set_solver. rewrite <-Heq in Ho3. set_solver. }
  assert (rec_same (ts_visited r) rec rec') as Hs.
  { apply Hrec; unfold fuel_ok in *; lia. }
  destruct (codes_of_exprs_same _ _ _ (ts_exprs r) Hs (ts_visited r)) as [E1 H1]; [done|]. rewrite <-E1.
  destruct (codes_of_exprs rec (ts_visited r) (ts_exprs r)) as [c1 v1] eqn:Ec. cbn in H1.
  destruct (codes_of_destructs_same _ _ _ (ts_destructs r) Hs v1) as [E2 H2]; [done|]. rewrite <-E2.
  destruct (codes_of_destructs pk lk fa rec fn v1 (ts_destructs r)) as [c2 v2]. cbn in *.
  split; [done|set_solver].
Qed.
Lemma expression_same n m V : fuel_ok V n -> fuel_ok V m ->
  rec_same V (findErrorCodesInExpression pk lk fa fn n) (findErrorCodesInExpression pk lk fa fn m).
Proof.
  revert m V. induction n as [|n IH]; intros m V Hn Hm V' e HV; [unfold fuel_ok in Hn; lia|].
  destruct m as [|m]; [unfold fuel_ok in Hm; lia|].
  apply (fuel_ok_mono V V') in Hn; [|done]. apply (fuel_ok_mono V V') in Hm; [|done].
  cbn [findErrorCodesInExpression].
  assert (forall i, findErrorCodesFromIdentTaint pk lk fa (findErrorCodesInExpression pk lk fa fn n) fn V' i =
    findErrorCodesFromIdentTaint pk lk fa (findErrorCodesInExpression pk lk fa fn m) fn V' i /\
    V' ⊆ (findErrorCodesFromIdentTaint pk lk fa (findErrorCodesInExpression pk lk fa fn n) fn V' i).2) as Hid.
  { intros i. apply (ident_taint_same V' n m); try done. intros V'' ??. by apply IH. }
  destruct (unparen e) as [id k kids]. destruct k; try done; try apply Hid.
  - destruct kids as [|? [|[? [] ?] [|]]]; try done; apply Hid.
  - destruct kids as [|x [|]]; try done. destruct (_ && _); [|done]. destruct (as_ident _); [apply Hid|done].
  - destruct typ; done.
Qed.
End expr.

Lemma function_fuel pk lk fa fn body V e fuel : fn_body fn = Some body -> expr_fuel pk <= fuel ->
  findErrorCodesInExpression pk lk fa fn fuel V e = findErrorCodesInExpression pk lk fa fn (expr_fuel pk) V e /\
  V ⊆ (findErrorCodesInExpression pk lk fa fn (expr_fuel pk) V e).2.
Proof.
  intros Hb Hf.
  assert (fuel_ok pk V (expr_fuel pk)) as H.
  { unfold fuel_ok, expr_fuel. rewrite <-(size_dom (D := gset oid) (pk_objs pk)).
    assert (size ((dom (pk_objs pk) : gset oid) ∖ V) <= size (dom (pk_objs pk) : gset oid)) by (apply subseteq_size; set_solver). lia. }
  assert (fuel_ok pk V fuel) as H' by (unfold fuel_ok in *; lia).
  destruct (expression_same pk lk fa fn body Hb (expr_fuel pk) fuel V H H' V e) as [-> ?]; done.
Qed.

(** ** The engine *)
Section engine.
Context {D : Type} (plan : fid -> eff D) (U : gset fid) (U_closed : forall f g, f ∈ U -> calls plan f g -> g ∈ U).
Notation vdom st := (dom (sc_vertices (e_scc st)) : gset fid).

Definition step_ok (st : est D) (r : outcome (codeset * est D)) : Prop :=
  match r with Ok (_, st') => vdom st ⊆ vdom st' | Panicked => True | OutOfFuel => False end.
Lemma set_low_dom vs f k vs' : set_low vs f k = Some vs' -> (dom vs : gset fid) ⊆ dom vs'.
Proof. unfold set_low. destruct (vs !! f); intros [= <-]. rewrite dom_insert_L. set_solver. Qed.
Lemma eval_ends rec f e st : f ∈ U -> (forall g, g ∈ call_list e -> g ∈ U) ->
  f ∈ vdom st ->
  (forall g st1, g ∈ U -> f ∈ vdom st1 -> vdom st ⊆ vdom st1 -> step_ok st1 (rec g st1)) ->
  step_ok st (eval_eff rec f e st).
Proof.
  intros Hf. revert st. induction e as [s|a IHa b IHb|a IHa s|d|g|g|]; intros st HU Hv Hrec; cbn [eval_eff call_list] in *.
  - by cbn.
  - assert (step_ok st (eval_eff rec f a st)) as Ha.
    { apply IHa; try done. intros g Hg. apply HU, elem_of_app. by left. }
    destruct (eval_eff rec f a st) as [[s1 st1]| |]; try done. cbn in Ha.
    assert (step_ok st1 (eval_eff rec f b st1)) as Hb.
    { apply IHb; [intros g Hg; apply HU, elem_of_app; by right|by apply Ha|].
      intros g st2 ???. apply Hrec; try done. by etrans. }
    destruct (eval_eff rec f b st1) as [[s2 st2]| |]; try done. cbn in *. by etrans.
  - specialize (IHa st HU Hv Hrec). by destruct (eval_eff rec f a st) as [[s1 st1]| |].
  - by cbn.
  - unfold scc_edge. destruct (sc_vertices (e_scc st) !! g) as [t|] eqn:Eg.
    + destruct (v_on t); [|by cbn].
      destruct (set_low _ _ _) as [vs|] eqn:Es; [|done]. cbn. by eapply set_low_dom.
    + assert (step_ok (set_scc st (e_scc st)) (rec g (set_scc st (e_scc st)))) as Hr.
      { apply Hrec; try done. apply HU. by apply elem_of_list_singleton. }
      destruct (rec g _) as [[codes st1]| |]; try done. cbn in Hr.
      unfold scc_after. destruct (sc_vertices (e_scc st1) !! g); [|done].
      destruct (set_low _ _ _) as [vs|] eqn:Es; [|done]. cbn. etrans; [exact Hr|]. by eapply set_low_dom.
  - apply Hrec; try done. apply HU. by apply elem_of_list_singleton.
  - done.
Qed.
Lemma off_stack_dom l vs : (dom (foldl off_stack vs l) : gset fid) = dom vs.
Proof.
  revert vs. induction l as [|x l IH]; intros vs; [done|]. cbn. rewrite IH. unfold off_stack. by rewrite dom_alter_L.
Qed.
Lemma find_ends fuel f st : f ∈ U -> size (U ∖ vdom st) < fuel -> step_ok st (find_codes_in_func plan fuel f st).
Proof.
  revert f st. induction fuel as [|n IH]; intros f st Hf Hfuel; [lia|]. cbn [find_codes_in_func].
  unfold scc_visit. destruct (sc_vertices (e_scc st) !! f) as [v|] eqn:Ev; [done|].
  set (st0 := set_scc st _).
  assert (vdom st0 = {[f]} ∪ vdom st) as Hd.
  { unfold st0. cbn. by rewrite dom_insert_L. }
  assert (step_ok st0 (eval_eff (find_codes_in_func plan n) f (plan f) st0)) as He.
  { apply eval_ends; [done|by eauto|set_solver|]. intros g st1 Hg Hf1 Hsub. apply IH; [done|].
    assert (size (U ∖ vdom st1) < size (U ∖ vdom st)); [|lia].
    apply subset_size. apply strict_spec_alt. split; [set_solver|].
    intros Heq. assert (f ∈ U ∖ vdom st) as Ho.
    { apply elem_of_difference. split; [done|]. by apply not_elem_of_dom. }
    rewrite <-Heq in Ho. set_solver. }
  destruct (eval_eff _ f (plan f) st0) as [[result st1]| |]; try done. unfold step_ok in He. rewrite Hd in He.
  unfold scc_end. destruct (sc_vertices (e_scc st1) !! f); [|done].
  destruct (negb _); [cbn; set_solver|].
  destruct (pop_until _ _) as [[popped rest]|]; [|done].
  destruct (unify_component _ _) as [u found']. cbn. rewrite off_stack_dom. set_solver.
Qed.
Lemma analyse_ends fuel todo st : (forall f, f ∈ todo -> f ∈ U) -> size U < fuel ->
  analyse_all plan fuel todo st <> OutOfFuel.
Proof.
  intros Ht Hfuel. revert st. induction todo as [|f todo IH]; intros st; [done|]. cbn [analyse_all].
  assert (forall st, analyse_all plan fuel todo st <> OutOfFuel) as IH'.
  { apply IH. intros g Hg. apply Ht. by right. }
  clear IH.
  assert (match e_found st !! f with Some codes => Ok (codes, st) | None => find_codes_in_func plan fuel f st end <> OutOfFuel) as Hs.
  { destruct (e_found st !! f); [done|].
    assert (step_ok st (find_codes_in_func plan fuel f st)) as H.
    { apply find_ends; [apply Ht; by left|].
      assert (size (U ∖ vdom st) <= size U) by (apply subseteq_size; set_solver). lia. }
    by destruct (find_codes_in_func plan fuel f st). }
  destruct (match e_found st !! f with Some codes => Ok (codes, st) | None => find_codes_in_func plan fuel f st end) as [[codes st1]| |]; try done.
  specialize (IH' st1). by destruct (analyse_all plan fuel todo st1) as [[rest st2]| |].
Qed.
End engine.

(** The functions of a package, and those they call. *)
Section package.
Context (pk : package) (lk : lookup_table) (fa : facts) (order : gset oid -> list oid).
Definition program_functions (todo : list fid) : gset fid :=
  list_to_set todo ∪ dom (pk_funcs pk) ∪ list_to_set (elements (dom (pk_funcs pk) : gset fid) ≫= fun f => call_list (plan pk lk fa order f)).
Lemma program_closed todo f g : f ∈ program_functions todo -> calls (plan pk lk fa order) f g -> g ∈ program_functions todo.
Proof.
  unfold program_functions, calls. intros _ Hc.
  destruct (decide (f ∈ (dom (pk_funcs pk) : gset fid))) as [Hf|Hf].
  - apply elem_of_union_r. apply elem_of_list_to_set, elem_of_list_bind. exists f. split; [done|]. by apply elem_of_elements.
  - unfold plan in Hc. apply not_elem_of_dom in Hf. rewrite Hf in Hc. by apply elem_of_nil in Hc.
Qed.
End package.
