(** * Consequences of EngineProofs for complete analyses starting from the initial state. *)
From stdpp Require Import base list gmap relations sets.
From Verif Require Import GoString ErrorCode Scc Engine SpecEngine EngineProofs.

Section thms.
Context {D : Type} (plan : fid -> eff D).

(** The static condition: a finite set of functions closed under calls, contains the functions to analyse. *)
Definition finite_program (U : gset fid) (todo : list fid) : Prop :=
  (forall f g, f ∈ U -> calls plan f g -> g ∈ U) /\ forall f, f ∈ todo -> f ∈ U.
(** Nothing reachable from [todo] executes a panicking operation of its own. *)
Definition no_panics (todo : list fid) : Prop :=
  forall f g, f ∈ todo -> reaches plan f g -> no_panic (plan g).

Lemma direct_ok_back roots : direct_ok plan roots -> direct_back plan.
Proof. intros H f g Hg. by destruct (H f g Hg) as (_&_&?&_). Qed.

Lemma analyse_start fuel U todo :
  direct_back plan -> finite_program U todo -> size U <= fuel ->
  match analyse_all plan fuel todo est_start with
  | Ok (res, st') => all_post plan (fun f => f ∈ todo) ∅ [] todo est_start res st'
  | Panicked => (exists f f', f ∈ todo /\ reaches plan f f' /\ ~ no_panic (plan f')) \/ ~ direct_ok plan (fun f => f ∈ todo)
  | OutOfFuel => ~ direct_ok plan (fun f => f ∈ todo)
  end.
Proof.
  intros Hd [Hc Ht] Hf. apply (analyse_all_ok plan _ ∅ [] Hd U Hc).
  - apply inv_start.
  - auto.
  - unfold unvisited. etrans; [|exact Hf]. apply subseteq_size. set_solver.
Qed.

(** The analysis terminates with a result unless an operation panics; it never panics by itself. *)
Lemma engine_total fuel U todo :
  direct_ok plan (fun f => f ∈ todo) -> finite_program U todo -> size U <= fuel -> no_panics todo ->
  exists res st, analyse_all plan fuel todo est_start = Ok (res, st).
Proof.
  intros Hd Hp Hf Hn. pose proof (analyse_start fuel U todo (direct_ok_back _ Hd) Hp Hf) as H.
  destruct (analyse_all plan fuel todo est_start) as [[res st]| |]; [eauto| |done].
  destruct H as [(f&f'&?&?&[])|H]; [|done]. by apply (Hn f).
Qed.
Lemma engine_terminates fuel U todo :
  direct_ok plan (fun f => f ∈ todo) -> finite_program U todo -> size U <= fuel ->
  analyse_all plan fuel todo est_start <> OutOfFuel.
Proof.
  intros Hd Hp Hf E. pose proof (analyse_start fuel U todo (direct_ok_back _ Hd) Hp Hf) as H. by rewrite E in H.
Qed.

Lemma engine_exact fuel U todo res st :
  direct_back plan -> finite_program U todo -> size U <= fuel ->
  analyse_all plan fuel todo est_start = Ok (res, st) ->
  res.*1 = todo /\ forall f s, (f, s) ∈ res -> forall c, c ∈ s <-> may plan f c.
Proof.
  intros Hd Hp Hf E. pose proof (analyse_start fuel U todo Hd Hp Hf) as H. rewrite E in H. destruct H. done.
Qed.

(** The cache holds the exact result of every function reachable from [todo], and of no other. *)
Lemma engine_found fuel U todo res st :
  direct_back plan -> finite_program U todo -> size U <= fuel ->
  analyse_all plan fuel todo est_start = Ok (res, st) ->
  forall g, match e_found st !! g with
            | Some s => (exists f, f ∈ todo /\ reaches plan f g) /\ forall c, c ∈ s <-> may plan g c
            | None => ~ exists f, f ∈ todo /\ reaches plan f g
            end.
Proof.
  intros Hd Hp Hf E g. pose proof (analyse_start fuel U todo Hd Hp Hf) as H. rewrite E in H. destruct H as [HI _ _ Hv _ _].
  destruct (e_found st !! g) as [s|] eqn:Eg.
  - assert (visited st g) as Hg by (apply (i_found _ _ _ _ _ _ HI); by rewrite Eg).
    split.
    + apply Hv in Hg as [Hg|?]; [by destruct (start_unvisited (D := D) g)|done].
    + destruct (i_exact _ _ _ _ _ _ HI g) as (s'&Hs'&He).
      * split; [done|]. rewrite (empty_path _ _ _ _ _ HI). apply not_elem_of_nil.
      * rewrite Eg in Hs'. by injection Hs' as <-.
  - intros Hr. assert (is_Some (e_found st !! g)) as [? ?]; [|congruence].
    apply (i_found _ _ _ _ _ _ HI). split; [|apply not_elem_of_nil]. apply Hv. by right.
Qed.

(** Each reachable function's own diagnostics are reported, once. *)
Lemma engine_reports fuel U todo res st :
  direct_back plan -> finite_program U todo -> size U <= fuel ->
  analyse_all plan fuel todo est_start = Ok (res, st) ->
  forall fs, NoDup fs -> (forall g, g ∈ fs <-> exists f, f ∈ todo /\ reaches plan f g) ->
  e_diags st ≡ₚ (fs ≫= fun g => reports (plan g)).
Proof.
  intros Hd Hp Hf E fs Hnd Hfs. pose proof (analyse_start fuel U todo Hd Hp Hf) as H. rewrite E in H. destruct H as [_ _ _ Hv _ Hr].
  destruct Hr as (nv&Hnd'&Hnv&Hdg). cbn in Hdg. rewrite Hdg.
  assert (nv ≡ₚ fs) as ->; [|done]. apply NoDup_Permutation; [done|done|]. intros n. rewrite Hnv, Hfs, Hv. split.
  - intros [[Hn|?] _]; [by destruct (start_unvisited (D := D) n)|done].
  - intros ?. split; [by right|]. apply start_unvisited.
Qed.
Lemma engine_reachable_list fuel U todo res st :
  direct_back plan -> finite_program U todo -> size U <= fuel ->
  analyse_all plan fuel todo est_start = Ok (res, st) ->
  exists fs, NoDup fs /\ forall g, g ∈ fs <-> exists f, f ∈ todo /\ reaches plan f g.
Proof.
  intros Hd Hp Hf E. pose proof (analyse_start fuel U todo Hd Hp Hf) as H. rewrite E in H. destruct H as [_ _ _ Hv _ Hr].
  destruct Hr as (nv&Hnd'&Hnv&Hdg). exists nv. split; [done|]. intros n. rewrite Hnv, Hv. split.
  - intros [[Hn|?] _]; [by destruct (start_unvisited (D := D) n)|done].
  - intros ?. split; [by right|]. apply start_unvisited.
Qed.

(** Two processing orders give the same cache and the same diagnostics. *)
Lemma engine_order fuel fuel' U todo todo' res res' st st' :
  direct_back plan -> finite_program U todo -> size U <= fuel -> size U <= fuel' ->
  (forall f, f ∈ todo <-> f ∈ todo') ->
  analyse_all plan fuel todo est_start = Ok (res, st) ->
  analyse_all plan fuel' todo' est_start = Ok (res', st') ->
  (forall f s s', (f, s) ∈ res -> (f, s') ∈ res' -> s = s') /\
  e_found st = e_found st' /\ e_diags st ≡ₚ e_diags st'.
Proof.
  intros Hd Hp Hf Hf' Htt E E'.
  assert (finite_program U todo') as Hp'.
  { destruct Hp as [H1 H2]. split; [done|]. intros f. rewrite <-Htt. auto. }
  destruct (engine_exact _ _ _ _ _ Hd Hp Hf E) as [_ H1].
  destruct (engine_exact _ _ _ _ _ Hd Hp' Hf' E') as [_ H2].
  split_and!.
  - intros f s s' Hs Hs'. apply set_eq. intros c. by rewrite (H1 f s Hs), (H2 f s' Hs').
  - apply map_eq. intros g. pose proof (engine_found _ _ _ _ _ Hd Hp Hf E g) as G.
    pose proof (engine_found _ _ _ _ _ Hd Hp' Hf' E' g) as G'.
    assert ((exists f, f ∈ todo /\ reaches plan f g) <-> (exists f, f ∈ todo' /\ reaches plan f g)) as Heq.
    { split; intros (f&?&?); exists f; (split; [by apply Htt|done]). }
    destruct (e_found st !! g) as [s|], (e_found st' !! g) as [s'|].
    + f_equal. apply set_eq. intros c. destruct G as [_ ->], G' as [_ ->]. done.
    + destruct G as [G _]. by apply Heq in G.
    + destruct G' as [G' _]. by apply Heq in G'.
    + done.
  - destruct (engine_reachable_list _ _ _ _ _ Hd Hp Hf E) as (fs&Hnd&Hfs).
    rewrite (engine_reports _ _ _ _ _ Hd Hp Hf E fs Hnd Hfs).
    rewrite (engine_reports _ _ _ _ _ Hd Hp' Hf' E' fs Hnd); [done|].
    intros g. rewrite Hfs. split; intros (f&?&?); exists f; (split; [by apply Htt|done]).
Qed.

(** Members of one strongly connected component share one set. *)
Lemma engine_mutual fuel U todo res st f g s s' :
  direct_back plan -> finite_program U todo -> size U <= fuel ->
  analyse_all plan fuel todo est_start = Ok (res, st) ->
  mutual plan f g -> e_found st !! f = Some s -> e_found st !! g = Some s' -> s = s'.
Proof.
  intros Hd Hp Hf E [Hfg Hgf] Hs Hs'. pose proof (engine_found _ _ _ _ _ Hd Hp Hf E f) as G.
  pose proof (engine_found _ _ _ _ _ Hd Hp Hf E g) as G'. rewrite Hs in G. rewrite Hs' in G'.
  destruct G as [_ G], G' as [_ G']. apply set_eq. intros c. rewrite G, G'.
  split; intros Hm; by eapply may_recursive.
Qed.
End thms.

(** Growing the own codes of functions. *)
Inductive eff_le {D} : eff D -> eff D -> Prop :=
| le_set s s' : s ⊆ s' -> eff_le (EffSet s) (EffSet s')
| le_union a b a' b' : eff_le a a' -> eff_le b b' -> eff_le (EffUnion a b) (EffUnion a' b')
| le_more a a' b : eff_le a a' -> eff_le a (EffUnion a' b)
| le_diff a a' s : eff_le a a' -> eff_le (EffDiff a s) (EffDiff a' s)
| le_report d d' : eff_le (EffReport d) d'
| le_call g : eff_le (EffCallEdge g) (EffCallEdge g)
| le_direct g : eff_le (EffCallDirect g) (EffCallDirect g)
| le_panic : eff_le EffPanic EffPanic.
Lemma eff_le_refl {D} (e : eff D) : eff_le e e.
Proof. induction e; by constructor. Qed.
Lemma eff_le_calls {D} (e e' : eff D) g : eff_le e e' -> g ∈ call_list e -> g ∈ call_list e'.
Proof.
  induction 1; cbn; rewrite ?elem_of_app; try tauto. intros Hg. by apply elem_of_nil in Hg.
Qed.
Lemma may_mono {D} (plan plan' : fid -> eff D) : (forall f, eff_le (plan f) (plan' f)) ->
  forall f c, may plan f c -> may plan' f c.
Proof.
  intros Hle.
  assert (forall f g, reaches plan f g -> reaches plan' f g) as Hr.
  { intros f g. induction 1 as [|a b c Hab _ IH]; [apply rtc_refl|]. eapply rtc_l; [|exact IH].
    unfold calls in *. by eapply eff_le_calls. }
  assert ((forall f c, may plan f c -> may plan' f c) /\
          (forall e c, from plan e c -> forall e', eff_le e e' -> from plan' e' c)) as [H _]; [|done].
  apply may_from_ind.
  - intros f c _ IH. apply may_own. by apply IH.
  - intros f g c [? ?] _ IH. eapply may_recursive; [|exact IH]. split; auto.
  - intros s c Hc e' He. remember (EffSet s) as e0. induction He; simplify_eq.
    + constructor. set_solver.
    + apply from_union_l. auto.
  - intros a b c _ IH e' He. remember (EffUnion a b) as e0. induction He; simplify_eq.
    + apply from_union_l. auto.
    + apply from_union_l. auto.
  - intros a b c _ IH e' He. remember (EffUnion a b) as e0. induction He; simplify_eq.
    + apply from_union_r. auto.
    + apply from_union_l. auto.
  - intros a s c _ IH Hc e' He. remember (EffDiff a s) as e0. induction He; simplify_eq.
    + apply from_union_l. auto.
    + constructor; auto.
  - intros g c _ IH e' He. remember (EffCallEdge g) as e0. induction He; simplify_eq.
    + apply from_union_l. auto.
    + constructor; auto.
  - intros g c _ IH e' He. remember (EffCallDirect g) as e0. induction He; simplify_eq.
    + apply from_union_l. auto.
    + constructor; auto.
Qed.
