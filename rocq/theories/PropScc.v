(** * C13-C15: the scc package. *)
From stdpp Require Import base list gmap relations sets.
From Verif Require Import GoString ErrorCode Scc Engine SpecEngine SpecScc EngineProofs EngineTheorems.

(** ** The driver is the engine on a plan that only calls. *)
Definition edges (l : list fid) : eff unit := foldr (fun y e => EffUnion (EffCallEdge y) e) (EffSet ∅) l.
Definition call_plan (succ : fid -> list fid) (x : fid) : eff unit := edges (succ x).
Section bridge.
Context (succ : fid -> list fid).
Notation plan := (call_plan succ).
Notation est := (est unit).

Local Lemma call_list_edges l : call_list (edges l) = l.
Proof. induction l as [|y l IH]; cbn; [done|by f_equal]. Qed.
Local Lemma no_panic_edges l : no_panic (edges l).
Proof. induction l; cbn; done. Qed.
Local Lemma direct_list_edges l : direct_list (edges l) = [].
Proof. induction l; cbn; done. Qed.
Local Lemma calls_edge x y : calls plan x y <-> edge succ x y.
Proof. unfold calls, call_plan. by rewrite call_list_edges. Qed.
Local Lemma reaches_path x y : reaches plan x y <-> path_to succ x y.
Proof.
  split; intros H; (induction H as [|a b c Hs H IH]; [apply rtc_refl|]); (eapply rtc_l; [|exact IH]); by apply calls_edge.
Qed.
Local Lemma mutual_connected x y : mutual plan x y <-> strongly_connected succ x y.
Proof. unfold mutual, strongly_connected. by rewrite !reaches_path. Qed.

Definition outc {A} (o : outcome (A * est)) : option dstate :=
  match o with Ok (_, st) => Some (e_scc st, e_comps st) | _ => None end.

Local Lemma edges_eval rec visit x l st :
  (forall y st, outc (rec y st) = visit y (e_scc st, e_comps st)) ->
  outc (eval_eff rec x (edges l) st) = drive_edges visit x l (e_scc st, e_comps st).
Proof.
  intros Hrec. revert st. induction l as [|y l IH]; intros st; cbn [edges foldr eval_eff drive_edges fst snd]; [done|].
  fold (edges l).
  destruct (scc_edge x y (e_scc st)) as [[[] s]|]; [| |done].
  - specialize (Hrec y (set_scc st s)). cbn in Hrec. rewrite <-Hrec. clear Hrec.
    destruct (rec y (set_scc st s)) as [[c st1]| |]; cbn; [|done|done].
    destruct (scc_after x y (e_scc st1)) as [s1|]; [|done].
    specialize (IH (set_scc st1 s1)). cbn in IH. rewrite <-IH.
    destruct (eval_eff rec x (edges l) (set_scc st1 s1)) as [[? ?]| |]; done.
  - specialize (IH (set_scc st s)). cbn in IH. rewrite <-IH.
    destruct (eval_eff rec x (edges l) (set_scc st s)) as [[? ?]| |]; done.
Qed.
Local Lemma drive_find fuel x st :
  outc (find_codes_in_func plan fuel x st) = drive succ fuel x (e_scc st, e_comps st).
Proof.
  revert x st. induction fuel as [|n IH]; intros x st; [done|]. cbn [find_codes_in_func drive fst].
  destruct (scc_visit x (e_scc st)) as [s|]; [|done].
  pose proof (edges_eval (find_codes_in_func plan n) (drive succ n) x (succ x) (set_scc st s)) as E.
  cbn [e_scc e_comps set_scc] in E. cbn [snd]. rewrite <-E by apply IH.
  change (edges (succ x)) with (plan x). destruct (eval_eff _ x (plan x) (set_scc st s)) as [[c st1]| |]; cbn [outc fst snd]; [|done|done].
  destruct (scc_end x (e_scc st1)) as [[[C|] s1]|]; [|done|done].
  destruct (unify_component _ C) as [u f']. done.
Qed.
End bridge.

(** Everything about a complete run of the driver over a finite graph. *)
Record scc_run (succ : fid -> list fid) (starts : list fid) (s : scc_state) (comps : list (list fid)) : Prop := {
  r_visited : forall x, is_Some (sc_vertices s !! x) <-> exists y, y ∈ starts /\ path_to succ y x;
  r_stack : sc_stack s = [];
  r_nodes : forall x, x ∈ concat comps <-> is_Some (sc_vertices s !! x);
  r_once : NoDup (concat comps);
  r_scc : forall C x, C ∈ comps -> x ∈ C -> forall y, y ∈ C <-> strongly_connected succ x y;
  r_topo : forall before C after, comps = before ++ C :: after ->
     C <> [] /\ forall x y, x ∈ C -> path_to succ x y -> y ∈ concat before \/ y ∈ C
}.

Section run.
Context (succ : fid -> list fid) (U : gset fid) (Hclosed : forall x y, x ∈ U -> y ∈ succ x -> y ∈ U).
Notation plan := (call_plan succ).

Local Definition pre (d : dstate) (starts0 : list fid) (d0 : est unit) : Prop :=
  d = (e_scc d0, e_comps d0) /\ inv plan (fun _ => True) ∅ [] d0 [] /\
  forall x, is_Some (sc_vertices d.1 !! x) <-> exists y, y ∈ starts0 /\ path_to succ y x.

Local Lemma closed' : forall f g, f ∈ U -> calls plan f g -> g ∈ U.
Proof. intros f g Hf Hg. apply calls_edge in Hg. by apply (Hclosed f). Qed.
Local Lemma direct' : direct_ok plan (fun _ => True).
Proof. intros f g Hg. unfold call_plan in Hg. rewrite direct_list_edges in Hg. by apply elem_of_nil in Hg. Qed.

Local Lemma drive_all_ok fuel starts starts0 d d0 :
  pre d starts0 d0 -> size U <= fuel -> (forall x, x ∈ starts -> x ∈ U) ->
  exists d' d0', drive_all succ fuel starts d = Some d' /\ pre d' (starts0 ++ starts) d0'.
Proof.
  revert starts0 d d0. induction starts as [|x starts IH]; intros starts0 d d0 Hpre Hfuel HU; cbn.
  { exists d, d0. by rewrite app_nil_r. }
  destruct Hpre as (->&HI&Hvis). cbn in Hvis |- *.
  destruct (sc_vertices (e_scc d0) !! x) as [v|] eqn:Ex.
  - destruct (IH (starts0 ++ [x]) (e_scc d0, e_comps d0) d0) as (d'&d0'&H1&H2).
    + split_and!; [done|done|]. cbn. intros z. rewrite Hvis. split.
      * intros (y&?&?). exists y. set_solver.
      * intros (y&Hy&Hz). apply elem_of_app in Hy as [Hy| ->%elem_of_list_singleton]; [eauto|].
        assert (is_Some (sc_vertices (e_scc d0) !! x)) as (y&?&?)%Hvis by (rewrite Ex; eauto).
        exists y. split; [done|]. by etrans.
    + done.
    + set_solver.
    + exists d', d0'. split; [done|]. by rewrite <-app_assoc in H2.
  - assert (~ visited d0 x) as Hnv by (unfold visited, vs; rewrite Ex; by intros [? ?]).
    pose proof (drive_find succ fuel x d0) as Hd.
    assert (unvisited U d0 <= fuel) as Hf.
    { unfold unvisited. etrans; [|exact Hfuel]. apply subseteq_size. set_solver. }
    pose proof (find_ok plan (fun _ => True) ∅ [] (direct_ok_back _ _ direct') U closed' fuel x [] d0 HI (HU x ltac:(by left)) Hf (or_introl Logic.I)) as Hok.
    specialize (Hok ltac:(intros p Hp; by apply elem_of_nil in Hp)).
    rewrite <-Hd. clear Hd.
    destruct (find_codes_in_func plan fuel x d0) as [[cs d1]| |].
    2:{ destruct Hok as [(f&_&Hn)|[?|Hn]]; [|done|by destruct (Hn direct')]. destruct Hn. apply no_panic_edges. }
    2:{ destruct Hok as [?|Hn]; [done|by destruct (Hn direct')]. }
    cbn [outc].
    destruct (IH (starts0 ++ [x]) (e_scc d1, e_comps d1) d1) as (d'&d0'&H1&H2).
    + split_and!; [done|apply Hok|]. cbn. intros z.
      pose proof (q_inv _ _ _ _ _ _ _ _ _ Hok) as HI1.
      pose proof (visit_ext _ _ _ _ _ _ _ _ _ Hok) as E.
      split.
      * intros Hz. destruct (decide (z ∈ dom (vs d0))) as [Hz0%elem_of_dom|Hz0].
        -- apply Hvis in Hz0 as (y&?&?). exists y. set_solver.
        -- assert (~ visited d0 z) as Hz1 by (intros ?; by apply Hz0, elem_of_dom).
           destruct (q_prov _ _ _ _ _ _ _ _ _ Hok z Hz Hz1) as (_&y&->%elem_of_list_singleton&Hr).
           exists x. split; [set_solver|]. by apply reaches_path.
      * intros (y&Hy&Hp).
        assert (popped d1 y) as Hpy.
        { split.
          - apply elem_of_app in Hy as [Hy| ->%elem_of_list_singleton].
            + apply (x_vis _ _ E). apply Hvis. exists y. split; [done|apply rtc_refl].
            + apply (q_self _ _ _ _ _ _ _ _ _ Hok).
          - rewrite (empty_path _ _ _ _ _ HI1). apply not_elem_of_nil. }
        assert (forall a b, path_to succ a b -> popped d1 a -> popped d1 b) as Hrp.
        { induction 1 as [|a b c Hab H' IH']; intros Ha; [done|]. apply IH'. apply (i_closed _ _ _ _ _ _ HI1 a b Ha). by apply calls_edge. }
        apply (Hrp y z Hp Hpy).
    + done.
    + set_solver.
    + exists d', d0'. split; [exact H1|]. by rewrite <-app_assoc in H2.
Qed.

Lemma scc_run_ok fuel starts : size U <= fuel -> (forall x, x ∈ starts -> x ∈ U) ->
  exists s comps, drive_all succ fuel starts (scc_start, []) = Some (s, comps) /\ scc_run succ starts s comps.
Proof.
  intros Hfuel HU.
  destruct (drive_all_ok fuel starts [] (scc_start, []) est_start) as ([s comps]&d0&Hd&Hpre); [|done|done|].
  { split_and!; [done|apply inv_start|]. cbn. intros x. rewrite lookup_empty. split; [by intros [? ?]|]. intros (y&Hy&_). by apply elem_of_nil in Hy. }
  exists s, comps. split; [done|]. destruct Hpre as (Heq&HI&Hvis). injection Heq as -> ->. cbn in Hvis.
  pose proof (empty_path _ _ _ _ _ HI) as Hstk.
  destruct (i_comps _ _ _ _ _ _ HI) as (cs&Hcs&Hpop&Hnd&Hscc&Htopo). cbn in Hcs. rewrite Hcs.
  constructor.
  - exact Hvis.
  - exact Hstk.
  - intros x. fold (vs d0). fold (visited d0 x). split.
    + intros Hx. apply elem_of_list_In, in_concat in Hx as (C&HC%elem_of_list_In&Hx%elem_of_list_In).
      assert (popped d0 x) as [? _]; [|done]. apply Hpop. right. eauto.
    + intros Hx. assert (popped d0 x) as Hp by (split; [done|rewrite Hstk; apply not_elem_of_nil]).
      apply Hpop in Hp as [Hp|(C&HC&Hx')]; [by apply elem_of_empty in Hp|].
      apply elem_of_list_In, in_concat. exists C. split; by apply elem_of_list_In.
  - done.
  - intros C x HC Hx y. rewrite <-mutual_connected. by apply (Hscc C x).
  - intros before C after Heq. destruct (Htopo before C after Heq) as [H1 H2]. split; [done|].
    intros x y Hx Hp. apply reaches_path in Hp. destruct (H2 x y Hx Hp) as [He|?]; [by apply elem_of_empty in He|done].
Qed.
End run.

(** ** C13: the components are exactly the strongly connected components. *)
Theorem C13_components_are_sccs (succ : fid -> list fid) (nodes : gset fid) fuel starts :
  (forall x y, x ∈ nodes -> y ∈ succ x -> y ∈ nodes) -> (forall x, x ∈ starts -> x ∈ nodes) -> size nodes <= fuel ->
  exists s comps, drive_all succ fuel starts (scc_start, []) = Some (s, comps) /\
    NoDup (concat comps) /\
    (forall x, x ∈ concat comps <-> exists y, y ∈ starts /\ path_to succ y x) /\
    (forall C x, C ∈ comps -> x ∈ C -> forall y, y ∈ C <-> strongly_connected succ x y).
Proof.
  intros Hc Hs Hf. destruct (scc_run_ok succ nodes Hc fuel starts Hf Hs) as (s&comps&Hd&[]).
  exists s, comps. split_and!; [done|done| |done]. intros x. by rewrite r_nodes0, r_visited0.
Qed.

(** ** C14: reverse topological order, and the stack is empty in between. *)
Theorem C14_reverse_topological (succ : fid -> list fid) (nodes : gset fid) fuel starts :
  (forall x y, x ∈ nodes -> y ∈ succ x -> y ∈ nodes) -> (forall x, x ∈ starts -> x ∈ nodes) -> size nodes <= fuel ->
  exists s comps, drive_all succ fuel starts (scc_start, []) = Some (s, comps) /\ sc_stack s = [] /\
    forall before C after, comps = before ++ C :: after ->
      C <> [] /\ forall x y, x ∈ C -> path_to succ x y -> y ∈ concat before \/ y ∈ C.
Proof.
  intros Hc Hs Hf. destruct (scc_run_ok succ nodes Hc fuel starts Hf Hs) as (s&comps&Hd&[]).
  exists s, comps. split_and!; done.
Qed.

(** ** C15: protocol safety. *)
Lemma scc_do_visited c s s' n : scc_do c s = Some s' ->
  (is_Some (sc_vertices s' !! n) <-> is_Some (sc_vertices s !! n) \/ c = CVisit n).
Proof.
  destruct c as [m|m|a b|a b]; cbn.
  - unfold scc_visit. destruct (sc_vertices s !! m) eqn:E; [done|]. intros [= <-]. cbn.
    destruct (decide (n = m)) as [->|Hne].
    + rewrite lookup_insert. split; [by right|by eexists].
    + rewrite lookup_insert_ne by done. split; [by left|]. intros [?|[= ->]]; done.
  - unfold scc_end. destruct (sc_vertices s !! m) as [v|]; [|done]. case_match.
    + intros [= <-]. split; [by left|]. by intros [?|?].
    + destruct (pop_until m (sc_stack s)) as [[popped rest]|]; [|done]. cbn. intros [= <-]. cbn.
      rewrite off_stack_lookup. case_decide; rewrite ?fmap_is_Some; (split; [by left|by intros [?|?]]).
  - unfold scc_edge. destruct (sc_vertices s !! b) as [t|]; [|cbn; intros [= <-]; split; [by left|by intros [?|?]]].
    case_match; [|cbn; intros [= <-]; split; [by left|by intros [?|?]]].
    unfold set_low. destruct (sc_vertices s !! a) as [v|] eqn:E; [|done]. cbn. intros [= <-]. cbn.
    destruct (decide (n = a)) as [->|Hne].
    + rewrite lookup_insert, E. split; [left; by eexists|by eexists].
    + rewrite lookup_insert_ne by done. split; [by left|by intros [?|?]].
  - unfold scc_after. destruct (sc_vertices s !! b) as [t|]; [|done].
    unfold set_low. destruct (sc_vertices s !! a) as [v|] eqn:E; [|done]. cbn. intros [= <-]. cbn.
    destruct (decide (n = a)) as [->|Hne].
    + rewrite lookup_insert, E. split; [left; by eexists|by eexists].
    + rewrite lookup_insert_ne by done. split; [by left|by intros [?|?]].
Qed.

Lemma scc_history_visited cs s s' n : scc_history cs s = Some s' ->
  (is_Some (sc_vertices s' !! n) <-> is_Some (sc_vertices s !! n) \/ CVisit n ∈ cs).
Proof.
  revert s. induction cs as [|c cs IH]; cbn; intros s.
  - intros [= <-]. rewrite elem_of_nil. tauto.
  - destruct (scc_do c s) as [s1|] eqn:E; [|done]. intros Hh. rewrite (IH s1 Hh), (scc_do_visited _ _ _ n E), elem_of_cons.
    split; [intros [[?| ->]|?]|intros [?|[<-|?]]]; auto.
Qed.

(** After any history of protocol calls, Visit panics exactly for the nodes visited before. *)
Theorem C15_visit_panics_iff_visited cs s n : scc_history cs scc_start = Some s ->
  (scc_visit n s = None <-> CVisit n ∈ cs).
Proof.
  intros Hh. pose proof (scc_history_visited _ _ _ n Hh) as Hv. cbn in Hv. rewrite lookup_empty in Hv.
  unfold scc_visit. destruct (sc_vertices s !! n) eqn:E.
  - split; [|done]. intros _. destruct (proj1 Hv) as [[? ?]|?]; [by eexists|done|done].
  - split; [done|]. intros Hin. destruct (proj2 Hv) as [? ?]; [by right|done].
Qed.
(** The other calls panic only for nodes not visited before; HandleEdge asks to recurse exactly for those. *)
Theorem C15_edge_recurses_iff_new cs s a b : scc_history cs scc_start = Some s -> CVisit a ∈ cs ->
  exists r s', scc_edge a b s = Some (r, s') /\ (r = true <-> CVisit b ∉ cs).
Proof.
  intros Hh Ha. pose proof (scc_history_visited _ _ _ a Hh) as Hva. pose proof (scc_history_visited _ _ _ b Hh) as Hvb.
  cbn in Hva, Hvb. rewrite lookup_empty in Hva, Hvb.
  unfold scc_edge. destruct (sc_vertices s !! b) as [t|] eqn:Eb.
  - assert (CVisit b ∈ cs) as Hb by (destruct (proj1 Hvb) as [[? ?]|?]; [by eexists|done|done]).
    destruct (v_on t).
    + unfold set_low. destruct (proj2 Hva) as [v Hv]; [by right|]. rewrite Hv. eexists _, _. split; [done|]. split; done.
    + eexists _, _. split; [done|]. split; done.
  - eexists _, _. split; [done|]. split; [|done]. intros _ Hin. destruct (proj2 Hvb) as [? ?]; [by right|done].
Qed.
Theorem C15_after_safe cs s a b : scc_history cs scc_start = Some s -> CVisit a ∈ cs -> CVisit b ∈ cs ->
  is_Some (scc_after a b s).
Proof.
  intros Hh Ha Hb. pose proof (scc_history_visited _ _ _ a Hh) as Hva. pose proof (scc_history_visited _ _ _ b Hh) as Hvb.
  unfold scc_after. destruct (proj2 Hvb) as [t Ht]; [by right|]. rewrite Ht.
  unfold set_low. destruct (proj2 Hva) as [v Hv]; [by right|]. rewrite Hv. by eexists.
Qed.
(** A depth-first driver never panics and visits each reachable node, once. *)
Theorem C15_driver_safe (succ : fid -> list fid) (nodes : gset fid) fuel starts :
  (forall x y, x ∈ nodes -> y ∈ succ x -> y ∈ nodes) -> (forall x, x ∈ starts -> x ∈ nodes) -> size nodes <= fuel ->
  exists s comps, drive_all succ fuel starts (scc_start, []) = Some (s, comps) /\
    forall x, is_Some (sc_vertices s !! x) <-> exists y, y ∈ starts /\ path_to succ y x.
Proof.
  intros Hc Hs Hf. destruct (scc_run_ok succ nodes Hc fuel starts Hf Hs) as (s&comps&Hd&[]).
  exists s, comps. split_and!; done.
Qed.

(** ** A concrete run: 1 -> 2 -> 3 -> 2, 3 -> 4, 4 -> 4, 5 -> 1, started at 1 and 5. *)
Definition ex_succ (x : fid) : list fid :=
  match x with 1 => [2] | 2 => [3; 2] | 3 => [2; 4] | 4 => [4] | 5 => [1; 4] | _ => [] end%N.
Example ex_run : (snd <$> drive_all ex_succ 5 [1; 5]%N (scc_start, [])) = Some [[4]; [2; 3]; [1]; [5]]%N.
Proof. vm_compute. reflexivity. Qed.
Example ex_closed : (forall x y, x ∈ (list_to_set [1; 2; 3; 4; 5] : gset fid)%N -> y ∈ ex_succ x ->
  y ∈ (list_to_set [1; 2; 3; 4; 5] : gset fid)%N) /\ size (list_to_set [1; 2; 3; 4; 5] : gset fid)%N <= 5.
Proof.
  split; [|vm_compute; lia]. intros x y. rewrite !elem_of_list_to_set. rewrite !elem_of_cons, elem_of_nil.
  intros [->|[->|[->|[->|[->|[]]]]]]; cbn; rewrite ?elem_of_cons, elem_of_nil; naive_solver.
Qed.
Example ex_history : is_Some (scc_history [CVisit 1%N; CEdge 1%N 2%N; CVisit 2%N; CEdge 2%N 1%N; CEnd 2%N; CAfter 1%N 2%N; CEnd 1%N] scc_start).
Proof. vm_compute. eauto. Qed.

Print Assumptions C13_components_are_sccs.
Print Assumptions C14_reverse_topological.
Print Assumptions C15_visit_panics_iff_visited.
Print Assumptions C15_edge_recurses_iff_new.
Print Assumptions C15_after_safe.
Print Assumptions C15_driver_safe.
