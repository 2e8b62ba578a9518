(** * Proofs: if the engine does not crash, no function it has analysed executes a crashing operation. *)
From stdpp Require Import base list gmap relations sets.
From Verif Require Import GoString ErrorCode Scc Engine SpecEngine.

Section safe.
Context {D : Type} (plan : fid -> eff D).
Notation vdom st := (dom (sc_vertices (e_scc st)) : gset fid).
Definition new_safe (st : est D) (r : outcome (codeset * est D)) : Prop :=
  match r with Ok (_, st') => forall g, g ∈ vdom st' -> g ∈ vdom st \/ no_panic (plan g) | _ => True end.

Lemma low_dom_eq vs f k vs' : set_low vs f k = Some vs' -> (dom vs' : gset fid) = dom vs.
Proof.
  unfold set_low. destruct (vs !! f) eqn:E; intros [= <-]. rewrite dom_insert_L.
  assert (f ∈ (dom vs : gset fid)) by (apply elem_of_dom; eauto). set_solver.
Qed.
Lemma off_dom_eq l vs : (dom (foldl off_stack vs l) : gset fid) = dom vs.
Proof.
  revert vs. induction l as [|x l IH]; intros vs; [done|]. cbn. rewrite IH. unfold off_stack. by rewrite dom_alter_L.
Qed.
Lemma eval_safe rec f e st : (forall g st1, new_safe st1 (rec g st1)) ->
  new_safe st (eval_eff rec f e st) /\ ((exists s st', eval_eff rec f e st = Ok (s, st')) -> no_panic e).
Proof.
  intros Hrec. revert st. induction e as [s|a IHa b IHb|a IHa s|d|g|g|]; intros st; cbn [eval_eff no_panic].
  - split; [cbn; auto|done].
  - destruct (IHa st) as [Ha Ha']. destruct (eval_eff rec f a st) as [[s1 st1]| |]; [|by split; [|intros (?&?&?)]..]. cbn in Ha.
    destruct (IHb st1) as [Hb Hb']. destruct (eval_eff rec f b st1) as [[s2 st2]| |]; [|by split; [|intros (?&?&?)]..]. cbn in Hb. split.
    + cbn. intros g Hg. destruct (Hb g Hg); auto.
    + intros _. split; [apply Ha'|apply Hb']; eauto.
  - destruct (IHa st) as [Ha Ha']. destruct (eval_eff rec f a st) as [[s1 st1]| |]; [|by split; [|intros (?&?&?)]..].
    split; [done|]. intros _. apply Ha'; eauto.
  - split; [cbn; auto|done].
  - split; [|done]. unfold scc_edge. destruct (sc_vertices (e_scc st) !! g) as [t|] eqn:Eg.
    + destruct (v_on t); [|cbn; auto].
      destruct (set_low _ _ _) as [vs|] eqn:Es; [|done]. cbn. rewrite (low_dom_eq _ _ _ _ Es). auto.
    + pose proof (Hrec g (set_scc st (e_scc st))) as Hr.
      destruct (rec g _) as [[codes st1]| |]; try done. cbn in Hr.
      unfold scc_after. destruct (sc_vertices (e_scc st1) !! g); [|done].
      destruct (set_low _ _ _) as [vs|] eqn:Es; [|done]. cbn. rewrite (low_dom_eq _ _ _ _ Es). auto.
  - split; [apply Hrec|done].
  - split; [done|]. by intros (?&?&?).
Qed.
Lemma find_safe fuel f (st : est D) : new_safe st (find_codes_in_func plan fuel f st).
Proof.
  revert f st. induction fuel as [|n IH]; intros f st; [done|]. cbn [find_codes_in_func].
  unfold scc_visit. destruct (sc_vertices (e_scc st) !! f) as [v|] eqn:Ev; [done|].
  set (st0 := set_scc st _).
  assert (vdom st0 = {[f]} ∪ vdom st) as Hd.
  { unfold st0. cbn. by rewrite dom_insert_L. }
  destruct (eval_safe (find_codes_in_func plan n) f (plan f) st0 IH) as [He Hnp].
  destruct (eval_eff _ f (plan f) st0) as [[result st1]| |]; try done. unfold new_safe in He. rewrite Hd in He.
  assert (forall g, g ∈ vdom st1 -> g ∈ vdom st \/ no_panic (plan g)) as Hall.
  { intros g [[->%elem_of_singleton|?]%elem_of_union|?]%He; [|by left|by right]. right. apply Hnp. eauto. }
  unfold scc_end. destruct (sc_vertices (e_scc st1) !! f); [|done].
  destruct (negb _); [cbn; auto|].
  destruct (pop_until _ _) as [[popped rest]|]; [|done].
  destruct (unify_component _ _) as [u found']. cbn. by rewrite off_dom_eq.
Qed.
Lemma analyse_safe fuel todo st res st' : analyse_all plan fuel todo st = Ok (res, st') ->
  forall g, g ∈ vdom st' -> g ∈ vdom st \/ no_panic (plan g).
Proof.
  revert st res. induction todo as [|f todo IH]; intros st res E g Hg; cbn [analyse_all] in E.
  { injection E as <- <-. by left. }
  pose proof (find_safe fuel f st) as Hf.
  destruct (e_found st !! f).
  - destruct (analyse_all plan fuel todo st) as [[rest st2]| |] eqn:Ea; [|done|done]. injection E as <- <-. by eapply IH.
  - destruct (find_codes_in_func plan fuel f st) as [[codes st1]| |]; [|done|done].
    destruct (analyse_all plan fuel todo st1) as [[rest st2]| |] eqn:Ea; [|done|done]. injection E as <- <-.
    destruct (IH _ _ Ea g Hg) as [?|?]; [|by right]. by apply Hf.
Qed.
End safe.
