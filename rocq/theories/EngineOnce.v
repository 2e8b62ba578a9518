(** * Proofs: function literals called through variables.  The engine panics if it is asked for the same literal twice; so if it does not, each is asked for
    once, and then it does not panic for any other order of the functions either. *)
From stdpp Require Import base list gmap relations sets.
From Verif Require Import GoString ErrorCode Scc Engine SpecEngine EngineProofs EngineTheorems SafeEngine.

Section once.
Context {D : Type}.
Notation vdom st := (dom (sc_vertices (e_scc st)) : gset fid).

(** ** What is not executed does not matter *)
Lemma eval_agree rec rec' f (e : eff D) st : (forall g st, g ∈ call_list e -> rec g st = rec' g st) -> eval_eff rec f e st = eval_eff rec' f e st.
Proof.
  revert st. induction e as [s|a IHa b IHb|a IHa s|d|g|g|]; intros st H; cbn [eval_eff call_list] in *; try done.
  - rewrite IHa by (intros; apply H, elem_of_app; by left). destruct (eval_eff rec' f a st) as [[s1 st1]| |]; [|done|done].
    by rewrite IHb by (intros; apply H, elem_of_app; by right).
  - by rewrite IHa.
  - destruct (scc_edge f g (e_scc st)) as [[[|] s]|]; [|done|done]. by rewrite H by by left.
  - apply H. by left.
Qed.
Lemma find_agree (p p' : fid -> eff D) fuel f st : (forall h, reaches p f h -> p' h = p h) -> find_codes_in_func p fuel f st = find_codes_in_func p' fuel f st.
Proof.
  revert f st. induction fuel as [|n IH]; intros f st H; [done|]. cbn [find_codes_in_func]. destruct (scc_visit f (e_scc st)) as [s|]; [|done].
  rewrite (H f (rtc_refl _ _)).
  rewrite (eval_agree (find_codes_in_func p n) (find_codes_in_func p' n) f (p f)); [done|]. intros g st' Hg. apply IH. intros h Hh. apply H. by eapply rtc_l.
Qed.
Lemma analyse_agree (p p' : fid -> eff D) fuel todo st : (forall f h, f ∈ todo -> reaches p f h -> p' h = p h) -> analyse_all p fuel todo st = analyse_all p' fuel todo st.
Proof.
  revert st. induction todo as [|f todo IH]; intros st H; cbn [analyse_all]; [done|].
  rewrite (find_agree p p' fuel f st) by (intros; apply (H f); [by left|done]).
  destruct (match e_found st !! f with Some codes => _ | None => _ end) as [[codes st1]| |]; [|done|done].
  rewrite IH; [done|]. intros f' h ?. apply H. by right.
Qed.

(** ** If it does not panic, each literal is asked for once *)
Section done.
Context (plan : fid -> eff D).
Notation dl := (fun f => direct_list (plan f)).
(** The functions visited between two states, and the literals asked for by them. *)
Definition new_once (own : list fid) (st st' : est D) : Prop :=
  vdom st ⊆ vdom st' /\
  exists nv, NoDup nv /\ (forall n, n ∈ nv <-> n ∈ vdom st' /\ n ∉ vdom st) /\ NoDup (own ++ (nv ≫= dl)) /\ forall x, x ∈ own ++ (nv ≫= dl) -> x ∈ nv.
Lemma once_same st st' : vdom st' = vdom st -> new_once [] st st'.
Proof.
  intros E. split; [set_solver|]. exists []. split_and!; [constructor| |constructor|by intros ? ?%elem_of_nil].
  intros n. rewrite E. split; [by intros ?%elem_of_nil|tauto].
Qed.
Lemma once_trans own1 own2 st st1 st2 : new_once own1 st st1 -> new_once own2 st1 st2 -> new_once (own1 ++ own2) st st2.
Proof.
  intros (M1&n1&D1&V1&N1&I1) (M2&n2&D2&V2&N2&I2). split; [set_solver|].
  assert (own1 ++ own2 ++ ((n1 ++ n2) ≫= dl) ≡ₚ (own1 ++ (n1 ≫= dl)) ++ (own2 ++ (n2 ≫= dl))) as Hp.
  { rewrite bind_app, <-!(assoc_L (++)). f_equiv. apply Permutation_app_swap_app. }
  exists (n1 ++ n2). split_and!.
  - apply NoDup_app. split_and!; [done| |done]. intros n H1%V1 H2%V2. tauto.
  - intros n. rewrite elem_of_app, V1, V2. split; [set_solver|]. intros [H3 H1]. destruct (decide (n ∈ vdom st1)); [by left|by right].
  - rewrite <-(assoc_L (++)), Hp. apply NoDup_app. split_and!; [done| |done]. intros x Hx Hx'. apply I1, V1 in Hx. apply I2, V2 in Hx'. tauto.
  - intros x. rewrite <-(assoc_L (++)), Hp, elem_of_app. intros [H|H]; apply elem_of_app; [left; by apply I1|right; by apply I2].
Qed.
Lemma once_dom own st st1 st' : vdom st1 = vdom st' -> new_once own st st1 -> new_once own st st'.
Proof. intros E. unfold new_once. by rewrite E. Qed.
Lemma once_dom_l own st st1 st' : vdom st1 = vdom st -> new_once own st1 st' -> new_once own st st'.
Proof. intros E. unfold new_once. by rewrite E. Qed.

(** A visit of [f]. *)
Definition visit_once (f : fid) (st st' : est D) : Prop := f ∉ vdom st /\ new_once [] st st' /\ new_once [f] st st'.
Definition rec_once (rec : fid -> est D -> outcome (codeset * est D)) : Prop :=
  forall g st, match rec g st with Ok (_, st') => visit_once g st st' | _ => True end.
Lemma eval_once rec f e st : rec_once rec -> match eval_eff rec f e st with Ok (_, st') => new_once (direct_list e) st st' | _ => True end.
Proof.
  intros Hrec. revert st. induction e as [s|a IHa b IHb|a IHa s|d|g|g|]; intros st; cbn [eval_eff direct_list].
  - by apply once_same.
  - specialize (IHa st). destruct (eval_eff rec f a st) as [[s1 st1]| |]; [|done|done].
    specialize (IHb st1). destruct (eval_eff rec f b st1) as [[s2 st2]| |]; [|done|done]. by eapply once_trans.
  - specialize (IHa st). by destruct (eval_eff rec f a st) as [[s1 st1]| |].
  - by apply once_same.
  - unfold scc_edge. destruct (sc_vertices (e_scc st) !! g) as [t|] eqn:Eg.
    + destruct (v_on t); [|by apply once_same].
      destruct (set_low _ _ _) as [vs|] eqn:Es; [|done]. apply once_same. cbn. by rewrite (low_dom_eq plan _ _ _ _ Es).
    + pose proof (Hrec g (set_scc st (e_scc st))) as Hr. destruct (rec g _) as [[codes st1]| |]; try done.
      unfold scc_after. destruct (sc_vertices (e_scc st1) !! g); [|done].
      destruct (set_low _ _ _) as [vs|] eqn:Es; [|done]. destruct Hr as (_&Hr&_).
      eapply (once_dom_l _ _ (set_scc st (e_scc st))); [done|]. eapply once_dom; [|exact Hr]. cbn. by rewrite (low_dom_eq plan _ _ _ _ Es).
  - pose proof (Hrec g st) as Hr. destruct (rec g st) as [[codes st1]| |]; [|done|done]. apply Hr.
  - done.
Qed.
Lemma find_once fuel : rec_once (find_codes_in_func plan fuel).
Proof.
  induction fuel as [|n IH]; intros f st; [done|]. cbn [find_codes_in_func].
  unfold scc_visit. destruct (sc_vertices (e_scc st) !! f) as [v|] eqn:Ev; [done|]. set (st0 := set_scc st _).
  assert (vdom st0 = {[f]} ∪ vdom st) as Hd by (unfold st0; cbn; by rewrite dom_insert_L).
  assert (f ∉ vdom st) as Hf by (by apply not_elem_of_dom).
  pose proof (eval_once (find_codes_in_func plan n) f (plan f) st0 IH) as He.
  destruct (eval_eff _ f (plan f) st0) as [[result st1]| |]; [|done|done].
  assert (visit_once f st st1) as Hv.
  { split; [done|]. destruct He as (M&nv&D1&V&N&I). rewrite Hd in M, V.
    assert (f ∉ nv) as Hfn by (intros ?%V; set_solver).
    assert (NoDup (f :: nv)) as Hnd by (by apply NoDup_cons).
    assert (forall m, m ∈ f :: nv <-> m ∈ vdom st1 /\ m ∉ vdom st) as Hm.
    { intros m. rewrite elem_of_cons, V. split; [intros [->|?]; set_solver|]. intros [H1 H2]. destruct (decide (m = f)); [by left|right; set_solver]. }
    split; (split; [set_solver|]); exists (f :: nv); (split_and!; [done|done| |]); cbn [mbind list_bind app].
    - done.
    - intros x Hx. right. by apply I.
    - apply NoDup_cons. split; [|done]. intros Hx. by apply Hfn, I.
    - intros x [->|Hx]%elem_of_cons; [by left|]. right. by apply I. }
  assert (forall st2, vdom st1 = vdom st2 -> visit_once f st st2) as Hfin.
  { intros st2 E. destruct Hv as (?&?&?). split_and!; [done|by eapply once_dom|by eapply once_dom]. }
  unfold scc_end. destruct (sc_vertices (e_scc st1) !! f); [|done].
  destruct (negb _); [by apply Hfin|].
  destruct (pop_until _ _) as [[popped rest]|]; [|done].
  destruct (unify_component _ _) as [u found']. apply Hfin. cbn. by rewrite off_dom_eq.
Qed.
Lemma analyse_once fuel todo st : match analyse_all plan fuel todo st with Ok (_, st') => new_once [] st st' | _ => True end.
Proof.
  revert st. induction todo as [|f todo IH]; intros st; cbn [analyse_all]; [by apply once_same|].
  pose proof (find_once fuel f st) as Hf.
  destruct (e_found st !! f).
  - specialize (IH st). by destruct (analyse_all plan fuel todo st) as [[rest st2]| |].
  - destruct (find_codes_in_func plan fuel f st) as [[codes st1]| |]; [|done|done].
    specialize (IH st1). destruct (analyse_all plan fuel todo st1) as [[rest st2]| |]; [|done|done].
    destruct Hf as (_&Hf&_). by apply (once_trans [] []  st st1 st2).
Qed.
End done.

(** ** If each literal is asked for once, it does not panic for this reason *)
(** The functions called with HandleEdge. *)
Fixpoint edge_list (e : eff D) : list fid :=
  match e with
  | EffUnion a b => edge_list a ++ edge_list b
  | EffDiff a _ => edge_list a
  | EffCallEdge g => [g]
  | _ => []
  end.
Lemma call_split (e : eff D) : call_list e ≡ₚ edge_list e ++ direct_list e.
Proof.
  induction e as [s|a IHa b IHb|a IHa s|d|g|g|]; cbn; try done. rewrite IHa, IHb, <-!(assoc_L (++)). f_equiv. apply Permutation_app_swap_app.
Qed.
Lemma bind_nodup_same {A} (F : fid -> list A) fs f f' x : NoDup (fs ≫= F) -> f ∈ fs -> f' ∈ fs -> x ∈ F f -> x ∈ F f' -> f = f'.
Proof.
  induction fs as [|h fs IH]; intros Hn Hf Hf' Hx Hx'; [by apply elem_of_nil in Hf|]. cbn [mbind list_bind] in Hn. apply NoDup_app in Hn as (_&Hd&Hn).
  apply elem_of_cons in Hf as [->|Hf], Hf' as [->|Hf']; [done|..]; [exfalso; eapply Hd; [exact Hx|]|exfalso; eapply Hd; [exact Hx'|]|by apply IH];
    apply elem_of_list_bind; eauto.
Qed.
Lemma bind_nodup_in {A} (F : fid -> list A) fs f : NoDup (fs ≫= F) -> f ∈ fs -> NoDup (F f).
Proof.
  induction fs as [|h fs IH]; intros Hn Hf; [by apply elem_of_nil in Hf|]. cbn [mbind list_bind] in Hn. apply NoDup_app in Hn as (H1&_&Hn).
  apply elem_of_cons in Hf as [->|Hf]; [done|by apply IH].
Qed.
Definition restrict (fs : list fid) (p : fid -> eff D) (f : fid) : eff D := if decide (f ∈ fs) then p f else EffSet ∅.
Lemma restrict_calls fs p f g : calls (restrict fs p) f g <-> f ∈ fs /\ calls p f g.
Proof.
  unfold calls, restrict. destruct (decide _); [tauto|]. cbn. split; [by intros ?%elem_of_nil|tauto].
Qed.
Lemma restrict_reaches fs p f g : reaches (restrict fs p) f g -> reaches p f g.
Proof. induction 1 as [|x y z Hs _ IH]; [apply rtc_refl|]. apply restrict_calls in Hs as [_ Hs]. by eapply rtc_l. Qed.
Lemma restrict_directs fs p f : direct_list (restrict fs p f) = if decide (f ∈ fs) then direct_list (p f) else [].
Proof. unfold restrict. by destruct (decide _). Qed.
Lemma restrict_ok fs (p : fid -> eff D) (roots : fid -> Prop) : direct_back p ->
  NoDup (fs ≫= fun f => direct_list (p f)) ->
  (forall f g, f ∈ fs -> g ∈ direct_list (p f) -> ~ roots g /\ forall f', f' ∈ fs -> g ∉ edge_list (p f')) ->
  direct_ok (restrict fs p) roots.
Proof.
  intros Hb Hn Ha f g Hg. rewrite restrict_directs in Hg. destruct (decide (f ∈ fs)) as [Hf|Hf]; [|by apply elem_of_nil in Hg].
  destruct (Ha f g Hf Hg) as [Hr He]. split_and!.
  - done.
  - intros f' [Hf' Hc]%restrict_calls. unfold calls in Hc. rewrite call_split, elem_of_app in Hc. destruct Hc as [Hc|Hc]; [by destruct (He f')|].
    symmetry. by eapply (bind_nodup_same (fun f => direct_list (p f))).
  - intros H%restrict_reaches. by eapply Hb.
  - assert (g ∈ call_list (p f)) as Hin by (rewrite call_split; apply elem_of_app; by right).
    unfold restrict. rewrite decide_True by done. apply elem_of_list_split in Hin as (l1&l2&E). exists l1, l2. split; [done|]. intros Hx.
    assert (NoDup (g :: direct_list (p f)) -> False) as Hfalse by (intros H; by apply NoDup_cons in H as [? _]).
    pose proof (call_split (p f)) as Hp. rewrite E in Hp. assert (g :: l1 ++ l2 ≡ₚ edge_list (p f) ++ direct_list (p f)) as Hp2 by (rewrite <-Hp; apply Permutation_middle).
    pose proof (bind_nodup_in _ _ _ Hn Hf) as Hnd. cbn in Hnd. apply elem_of_list_split in Hg as (d1&d2&Ed). rewrite Ed in Hp2, Hnd.
    assert (l1 ++ l2 ≡ₚ edge_list (p f) ++ d1 ++ d2) as Hp3.
    { apply (Permutation_cons_inv (a := g)). rewrite Hp2. rewrite (app_assoc (edge_list (p f))). rewrite <-Permutation_middle. by rewrite <-app_assoc. }
    rewrite Hp3 in Hx. apply elem_of_app in Hx as [Hx|Hx]; [by apply (He f Hf)|].
    assert (g :: d1 ++ d2 ≡ₚ d1 ++ g :: d2) as Hp4 by apply Permutation_middle. rewrite <-Hp4 in Hnd. apply NoDup_cons in Hnd as [Hnd _]. done.
Qed.

(** ** The functions reached can be listed *)
Definition only_edges (l : list fid) : eff D := foldr (fun y e => EffUnion (EffCallEdge y) e) (EffSet ∅) l.
Lemma only_calls l : call_list (only_edges l) = l /\ direct_list (only_edges l) = [] /\ no_panic (only_edges l).
Proof. induction l as [|x l (IH1&IH2&IH3)]; [done|]. cbn [only_edges foldr]. fold (only_edges l). cbn [call_list direct_list no_panic]. by rewrite IH1, IH2. Qed.
Lemma reachable_list (p : fid -> eff D) U todo : finite_program p U todo -> exists fs, NoDup fs /\ forall g, g ∈ fs <-> exists f, f ∈ todo /\ reaches p f g.
Proof.
  intros Hfin. set (p' := fun f => only_edges (call_list (p f))).
  assert (forall f g, calls p' f g <-> calls p f g) as Hc by (intros f g; unfold calls, p'; by rewrite (proj1 (only_calls _))).
  assert (forall f g, reaches p' f g <-> reaches p f g) as Hr.
  { intros f g. split; (induction 1 as [|x y z H _ IH]; [apply rtc_refl|]; eapply rtc_l; [by apply Hc|exact IH]). }
  assert (finite_program p' U todo) as Hfin'.
  { destruct Hfin as [H1 H2]. split; [|done]. intros f g ? ?%Hc. by eapply H1. }
  assert (direct_ok p' (fun f => f ∈ todo)) as Hd.
  { intros f g Hg. unfold p' in Hg. rewrite (proj1 (proj2 (only_calls _))) in Hg. by apply elem_of_nil in Hg. }
  destruct (engine_total p' (size U) U todo Hd Hfin' (Nat.le_refl _)) as (res&st&E).
  { intros f ? g ?. apply only_calls. }
  destruct (engine_reachable_list p' (size U) U todo res st (direct_ok_back _ _ Hd) Hfin' (Nat.le_refl _) E) as (fs&Hn&Hfs).
  exists fs. split; [done|]. intros g. rewrite Hfs. by setoid_rewrite Hr.
Qed.
Lemma reaches_same_calls (p p' : fid -> eff D) f g : (forall a b, calls p' a b -> calls p a b) -> reaches p' f g -> reaches p f g.
Proof. intros Hc. induction 1 as [|x y z Hs _ IH]; [apply rtc_refl|]. eapply rtc_l; [by apply Hc|exact IH]. Qed.
Lemma direct_ok_same (p p' : fid -> eff D) roots : (forall f, call_list (p f) = call_list (p' f) /\ direct_list (p f) = direct_list (p' f)) ->
  direct_ok p roots -> direct_ok p' roots.
Proof.
  intros H Hd f g Hg. rewrite <-(proj2 (H f)) in Hg. destruct (Hd f g Hg) as (H1&H2&H3&H4).
  assert (forall a b, calls p' a b -> calls p a b) as Hc by (intros a b; unfold calls; by rewrite (proj1 (H a))).
  split_and!; [done| | |].
  - intros f' Hf'. by apply H2, Hc.
  - intros Hr. by apply H3, (reaches_same_calls p p').
  - by rewrite <-(proj1 (H f)).
Qed.
End once.
