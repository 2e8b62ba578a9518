(** * Counting how often a function is analysed.

    The engine does not look at the diagnostics; so the same engine can be run with a plan that, in addition, records the name of
    the function as soon as its analysis begins.  [find_erase] says that this changes nothing else. *)
From stdpp Require Import base list gmap sets.
From Verif Require Import GoString ErrorCode Scc Engine SpecEngine Termination.

Section counting.
Context {D : Type}.
Notation entry := (D + fid)%type.
Notation vdom st := (dom (sc_vertices (e_scc st)) : gset fid).

Fixpoint eff_map {A B} (h : A -> B) (e : eff A) : eff B :=
  match e with
  | EffSet s => EffSet s
  | EffUnion a b => EffUnion (eff_map h a) (eff_map h b)
  | EffDiff a s => EffDiff (eff_map h a) s
  | EffReport d => EffReport (h d)
  | EffCallEdge g => EffCallEdge g
  | EffCallDirect g => EffCallDirect g
  | EffPanic => EffPanic
  end.
(** The analysis of [f], which begins with an entry in the log. *)
Definition logged (plan : fid -> eff D) (f : fid) : eff entry := EffUnion (EffReport (inr f)) (eff_map inl (plan f)).
Definition diags_of (l : list entry) : list D := omap (fun x => match x with inl d => Some d | inr _ => None end) l.
Definition log_of (l : list entry) : list fid := omap (fun x => match x with inl _ => None | inr f => Some f end) l.
(** Without the log. *)
Definition erase (st : est entry) : est D := Est (e_scc st) (e_found st) (diags_of (e_diags st)) (e_comps st).
Definition erase_out (r : outcome (codeset * est entry)) : outcome (codeset * est D) :=
  match r with Ok (c, st) => Ok (c, erase st) | Panicked => Panicked | OutOfFuel => OutOfFuel end.

Lemma erase_scc st s : erase (set_scc st s) = set_scc (erase st) s.
Proof. done. Qed.
Lemma eval_erase rec rec' f e st : (forall g st, rec' g (erase st) = erase_out (rec g st)) ->
  eval_eff rec' f e (erase st) = erase_out (eval_eff rec f (eff_map inl e) st).
Proof.
  intros Hrec. revert st. induction e as [s|a IHa b IHb|a IHa s|d|g|g|]; intros st; cbn [eval_eff eff_map].
  - done.
  - rewrite IHa. destruct (eval_eff rec f (eff_map inl a) st) as [[s1 st1]| |]; [|done|done]. cbn [erase_out].
    rewrite IHb. by destruct (eval_eff rec f (eff_map inl b) st1) as [[s2 st2]| |].
  - rewrite IHa. by destruct (eval_eff rec f (eff_map inl a) st) as [[s1 st1]| |].
  - cbn [erase_out]. unfold erase, diags_of. cbn [e_scc e_found e_diags e_comps]. by rewrite omap_app.
  - change (e_scc (erase st)) with (e_scc st). change (e_found (erase st)) with (e_found st).
    destruct (scc_edge f g (e_scc st)) as [[[] s]|]; [|done|done].
    rewrite <-erase_scc, Hrec. destruct (rec g _) as [[codes st1]| |]; [|done|done]. cbn [erase_out].
    change (e_scc (erase st1)) with (e_scc st1). by destruct (scc_after f g (e_scc st1)).
  - apply Hrec.
  - done.
Qed.
(** The log has no influence. *)
Lemma find_erase plan fuel f st : find_codes_in_func plan fuel f (erase st) = erase_out (find_codes_in_func (logged plan) fuel f st).
Proof.
  revert f st. induction fuel as [|n IH]; intros f st; [done|]. cbn [find_codes_in_func].
  change (e_scc (erase st)) with (e_scc st). destruct (scc_visit f (e_scc st)) as [s|]; [|done].
  change (logged plan f) with (EffUnion (EffReport (inr f)) (eff_map inl (plan f)) : eff entry). cbn [eval_eff]. match goal with |- context [eval_eff _ _ (eff_map inl _) ?x] => set (st0 := x) end.
  replace (set_scc (erase st) s) with (erase st0).
  2:{ unfold st0, erase, set_scc, diags_of. cbn. f_equal. rewrite omap_app. cbn. by rewrite app_nil_r. }
  rewrite (eval_erase (find_codes_in_func (logged plan) n) (find_codes_in_func plan n)) by apply IH.
  destruct (eval_eff _ f (eff_map inl (plan f)) st0) as [[result st1]| |]; [|done|done]. cbn [erase_out].
  change (e_scc (erase st1)) with (e_scc st1). change (e_found (erase st1)) with (e_found st1). rewrite (left_id_L ∅ (∪)).
  destruct (scc_end f (e_scc st1)) as [[[component|] s1]|]; [|done|done].
  by destruct (unify_component _ component) as [u found'].
Qed.
Lemma analyse_erase plan fuel todo st : analyse_all plan fuel todo (erase st) =
  match analyse_all (logged plan) fuel todo st with Ok (res, st') => Ok (res, erase st') | Panicked => Panicked | OutOfFuel => OutOfFuel end.
Proof.
  revert st. induction todo as [|f todo IH]; intros st; [done|]. cbn [analyse_all]. change (e_found (erase st)) with (e_found st).
  destruct (e_found st !! f) as [codes|].
  - rewrite IH. by destruct (analyse_all (logged plan) fuel todo st) as [[]| |].
  - rewrite find_erase. destruct (find_codes_in_func (logged plan) fuel f st) as [[codes st1]| |]; [|done|done]. cbn [erase_out].
    rewrite IH. by destruct (analyse_all (logged plan) fuel todo st1) as [[]| |].
Qed.

(** What has been entered in the log: functions visited, each once. *)
Record log_post (st st' : est entry) : Prop := {
  lg_new : exists l, log_of (e_diags st') = log_of (e_diags st) ++ l /\ NoDup l /\ vdom st' = vdom st ∪ list_to_set l /\
           forall g, g ∈ l -> g ∉ vdom st
}.
Definition log_out (st : est entry) (r : outcome (codeset * est entry)) : Prop :=
  match r with Ok (_, st') => log_post st st' | _ => True end.
Lemma log_refl st st' : log_of (e_diags st') = log_of (e_diags st) -> vdom st' = vdom st -> log_post st st'.
Proof.
  intros Hl Hd. constructor. exists []. rewrite app_nil_r. split_and!; [done|constructor| |by intros ? ?%elem_of_nil]. rewrite Hd. set_solver.
Qed.
Lemma log_trans st1 st2 st3 : log_post st1 st2 -> log_post st2 st3 -> log_post st1 st3.
Proof.
  intros [(l1&E1&N1&D1&F1)] [(l2&E2&N2&D2&F2)]. constructor. exists (l1 ++ l2). split_and!.
  - by rewrite E2, E1, app_assoc.
  - apply NoDup_app. split_and!; [done| |done]. intros g Hg1 Hg2. apply (F2 g Hg2). rewrite D1. set_solver.
  - rewrite D2, D1, list_to_set_app_L. set_solver.
  - intros g [Hg|Hg]%elem_of_app; [by apply F1|]. intros Hd. apply (F2 g Hg). rewrite D1. set_solver.
Qed.
Lemma low_same_dom vs f k vs' : set_low vs f k = Some vs' -> (dom vs' : gset fid) = dom vs.
Proof.
  unfold set_low. destruct (vs !! f) eqn:E; intros [= <-]. rewrite dom_insert_L. assert (f ∈ (dom vs : gset fid)) by (apply elem_of_dom; eauto).
  set_solver.
Qed.
Lemma eval_log rec f e st : (forall g st1, log_out st1 (rec g st1)) -> log_out st (eval_eff rec f (eff_map inl e) st).
Proof.
  intros Hrec. revert st. induction e as [s|a IHa b IHb|a IHa s|d|g|g|]; intros st; cbn [eval_eff eff_map].
  - cbn. by apply log_refl.
  - specialize (IHa st). destruct (eval_eff rec f (eff_map inl a) st) as [[s1 st1]| |]; [|done|done]. specialize (IHb st1).
    destruct (eval_eff rec f (eff_map inl b) st1) as [[s2 st2]| |]; [|done|done]. cbn in *. by eapply log_trans.
  - specialize (IHa st). by destruct (eval_eff rec f (eff_map inl a) st) as [[s1 st1]| |].
  - cbn. apply log_refl; [|done]. cbn. unfold log_of. rewrite omap_app. cbn. by rewrite app_nil_r.
  - unfold scc_edge. destruct (sc_vertices (e_scc st) !! g) as [t|] eqn:Eg.
    + destruct (v_on t); [|by apply log_refl].
      destruct (set_low _ _ _) as [vs|] eqn:Es; [|done]. cbn. apply log_refl; [done|]. cbn. by eapply low_same_dom.
    + pose proof (Hrec g (set_scc st (e_scc st))) as Hr. destruct (rec g _) as [[codes st1]| |]; [|done|done]. cbn in Hr.
      unfold scc_after. destruct (sc_vertices (e_scc st1) !! g); [|done].
      destruct (set_low _ _ _) as [vs|] eqn:Es; [|done]. cbn. apply (log_trans st st1).
      * destruct Hr as [(l&?&?&?&?)]. constructor. by exists l.
      * apply log_refl; [done|]. cbn. by eapply low_same_dom.
  - apply Hrec.
  - done.
Qed.
Lemma find_log plan fuel f st : log_out st (find_codes_in_func (logged plan) fuel f st).
Proof.
  revert f st. induction fuel as [|n IH]; intros f st; [done|]. cbn [find_codes_in_func].
  unfold scc_visit. destruct (sc_vertices (e_scc st) !! f) as [v|] eqn:Ev; [done|].
  change (logged plan f) with (EffUnion (EffReport (inr f)) (eff_map inl (plan f)) : eff entry). cbn [eval_eff]. match goal with |- context [eval_eff _ _ (eff_map inl _) ?x] => set (st0 := x) end.
  assert (log_post st st0) as H0.
  { constructor. exists [f]. unfold st0. cbn. unfold log_of. rewrite omap_app. cbn. split_and!; [done|apply NoDup_singleton| |].
    - rewrite dom_insert_L. set_solver.
    - intros g ->%elem_of_list_singleton. by apply not_elem_of_dom. }
  pose proof (eval_log (find_codes_in_func (logged plan) n) f (plan f) st0 IH) as He.
  destruct (eval_eff _ f (eff_map inl (plan f)) st0) as [[result st1]| |]; [|done|done]. cbn in He.
  pose proof (log_trans _ _ _ H0 He) as H1.
  unfold scc_end. destruct (sc_vertices (e_scc st1) !! f); [|done].
  destruct (negb _); [cbn; apply (log_trans _ _ _ H1); by apply log_refl|].
  destruct (pop_until _ _) as [[popped rest]|]; [|done].
  destruct (unify_component _ _) as [u found']. cbn. apply (log_trans _ _ _ H1). apply log_refl; [done|]. cbn.
  apply off_stack_dom.
Qed.
Lemma analyse_log plan fuel todo st : match analyse_all (logged plan) fuel todo st with Ok (_, st') => log_post st st' | _ => True end.
Proof.
  revert st. induction todo as [|f todo IH]; intros st; cbn [analyse_all]; [by apply log_refl|].
  assert (log_out st (match e_found st !! f with Some codes => Ok (codes, st) | None => find_codes_in_func (logged plan) fuel f st end)) as H.
  { destruct (e_found st !! f); [by apply log_refl|apply find_log]. }
  destruct (match e_found st !! f with Some codes => _ | None => _ end) as [[codes st1]| |]; [|done|done]. cbn in H.
  specialize (IH st1). destruct (analyse_all (logged plan) fuel todo st1) as [[res st2]| |]; [|done|done]. by eapply log_trans.
Qed.
End counting.
