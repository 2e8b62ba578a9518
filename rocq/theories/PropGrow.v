(** * C49: what is found for a function depends on the codes that dependencies declare monotonically, and code by code. *)
From stdpp Require Import base list gmap relations sets sorting.
From Verif Require Import GoString ErrorCode Scc Engine CodeSet Annotation Constant GoAst Taint Extract
  Analyse SpecCodes SpecTaint SpecMay SpecProgram SpecLocal SpecClaims SpecInterfaces SpecRun SpecEnd Phase ErrorTypes Claims Interfaces Conversions Verify
  MainLoop RunProofs PropCodeSet PropOrder PropLocal SpecGrow GrowProofs.

Lemma more_still c fa fa' : declares_more fa fa' -> still_declares c fa fa'.
Proof. intros (_&H1&H2). split; [intros o s s' Ho Ho' Hc; by apply (H1 o s s')|intros o et et' Ho Ho' Hc; by apply (H2 o et et')]. Qed.
(** If nothing new declares the code, everything that has it now has had it before. *)
Lemma not_newly c fa fa' : same_but_codes fa fa' -> newly_declared c fa fa' \/ still_declares c fa' fa.
Proof.
  intros Hs. destruct (decide (map_Exists (fun o t' => c ∈ t' /\ c ∉ default ∅ (fa_codes fa !! o)) (fa_codes fa'))) as [(o&t'&Ho'&Ht'&Ht)|Hno].
  { left; left. destruct (proj2 (proj1 (proj2 (proj2 Hs)) o)) as [t Ho]; [eauto|]. exists o, t, t'. rewrite Ho in Ht. done. }
  destruct (decide (map_Exists (fun o et' => c ∈ et_codes et' /\ c ∉ default ∅ (et_codes <$> fa_type fa !! o)) (fa_type fa'))) as [(o&t'&Ho'&Ht'&Ht)|Hno2].
  { left; right. destruct (type_here fa fa' Hs o t' Ho') as (t&Ho&_). exists o, t, t'. rewrite Ho in Ht. done. }
  right. split.
  - intros o t' t Ho' Ho Ht'. destruct (decide (c ∈ t)) as [|Ht]; [done|]. destruct Hno. exists o, t'. rewrite Ho. done.
  - intros o t' t Ho' Ho Ht'. destruct (decide (c ∈ et_codes t)) as [|Ht]; [done|]. destruct Hno2. exists o, t'. rewrite Ho. done.
Qed.

Section runs.
Context (pk : package) (strict : bool) (ord ord' : orders) (fa fa' : facts) (r r' : run).
Notation lk := (collectFunctions pk).
Context (Hord : orders_ok lk ord) (Hord' : orders_ok lk ord').
Context (Hok : interfaces_ok pk) (Hd : distinct_definitions pk) (Hlit : no_literal_cycle pk lk).
Context (Hr : completes pk strict ord fa r) (Hr' : completes pk strict ord' fa' r').
Notation fd := (facts_during pk ord r).
Notation fd' := (facts_during pk ord' r').
Notation found f := (e_found (r_loop r) !! f).
Notation found' f := (e_found (r_loop r') !! f).

Lemma facts_grow : same_but_codes fa fa' -> same_but_codes fd fd' /\ forall c, still_declares c fa fa' -> still_declares c fd fd'.
Proof.
  intros Hs. assert (prepared pk strict ord fa r) as Hp by (destruct Hr; by constructor).
  assert (prepared pk strict ord' fa' r') as Hp' by (destruct Hr'; by constructor).
  destruct (prepared_grow pk strict ord fa fa' r Hs Hp) as (y&is&d2&Hy&His&Hy'). pose proof (during_grow pk ord fa fa' r y is d2 Hy His) as H.
  by rewrite (during_same pk strict fa' Hok Hd ord ord' (changed_run r y is d2) r' Hord Hord' Hy' Hp') in H.
Qed.

(** If every function that is known to declare [c] still declares it, then [c] is still found. *)
Theorem C49_codes f s s' c : same_but_codes fa fa' -> still_declares c fa fa' ->
  usable_from pk lk fd f -> agree_from pk lk fd f c -> found f = Some s -> found' f = Some s' -> c ∈ s -> c ∈ s'.
Proof.
  intros Hs Hc Hus Hag Hf Hf' Hin. destruct (facts_grow Hs) as [Hs2 Hc2].
  apply (C47_complete pk strict ord' fa' r' Hord' Hr' Hlit f s' c); [| |done|].
  - by apply (usable_from_grow pk lk fd fd').
  - by apply (agree_from_grow pk lk fd fd').
  - apply (may_return_grow pk lk fd fd' c Hs2 (Hc2 c Hc)). by apply (C47_sound pk strict ord fa r Hord Hr Hlit f s c).
Qed.
(** If the dependencies declare more codes, no code is lost. *)
Theorem C49_more f s s' : declares_more fa fa' -> usable_from pk lk fd f -> (forall c, agree_from pk lk fd f c) ->
  found f = Some s -> found' f = Some s' -> s ⊆ s'.
Proof.
  intros Hm Hus Hag Hf Hf' c Hin. apply (C49_codes f s s' c); try done; [by apply Hm|]. by apply more_still.
Qed.
(** Functions are found in both runs. *)
Theorem C49_found f : declared_function pk f -> is_Some (found f) /\ is_Some (found' f).
Proof. intros H. split; [apply (C47_found pk strict ord fa r Hord Hr Hlit f H)|apply (C47_found pk strict ord' fa' r' Hord' Hr' Hlit f H)]. Qed.
End runs.

(** A code that is found only with the new facts is one that some dependency did not declare before. *)
Theorem C49_new pk strict ord ord' fa fa' r r' f s s' c :
  orders_ok (collectFunctions pk) ord -> orders_ok (collectFunctions pk) ord' -> interfaces_ok pk -> distinct_definitions pk ->
  no_literal_cycle pk (collectFunctions pk) -> completes pk strict ord fa r -> completes pk strict ord' fa' r' -> same_but_codes fa fa' ->
  usable_from pk (collectFunctions pk) (facts_during pk ord r) f -> agree_from pk (collectFunctions pk) (facts_during pk ord r) f c ->
  e_found (r_loop r) !! f = Some s -> e_found (r_loop r') !! f = Some s' -> c ∉ s -> c ∈ s' ->
  newly_declared c fa fa'.
Proof.
  intros Hord Hord' Hok Hd Hlit Hr Hr' Hs Hus Hag Hf Hf' Hn Hin.
  destruct (not_newly c fa fa' Hs) as [|Hst]; [done|].
  destruct Hn. destruct (facts_grow pk strict ord ord' fa fa' r r' Hord Hord' Hok Hd Hr Hr' Hs) as [Hs2 _].
  eapply (C49_codes pk strict ord' ord fa' fa r' r Hord' Hord Hok Hd Hlit Hr' Hr f s' s c (same_sym _ _ Hs)); [exact Hst| | |done|done|done].
  - by apply (usable_from_grow pk (collectFunctions pk) _ _ f Hs2).
  - by apply (agree_from_grow pk (collectFunctions pk) _ _ f c Hs2).
Qed.

(** ** An update of a dependency *)
Section update.
Context (pk : package) (strict : bool) (ord ord' : orders) (fa fa' : facts) (r r' : run).
Notation lk := (collectFunctions pk).
Context (Hord : orders_ok lk ord) (Hord' : orders_ok lk ord').
Context (Hok : interfaces_ok pk) (Hd : distinct_definitions pk) (Hlit : no_literal_cycle pk lk).
Context (Hr : completes pk strict ord fa r) (Hr' : completes pk strict ord' fa' r').
Notation fd := (facts_during pk ord r).
Notation fd' := (facts_during pk ord' r').

(** What is said about [f]: nothing, or that codes are missing in its documentation, all of which the dependencies did not declare before. *)
Inductive updated_verdict (f : fid) : list diag -> Prop :=
| updated_verdict_intro fn codes param missing :
    known_function pk f fn -> declares_codes pk fn codes param ->
    NoDup missing -> StronglySorted str_le missing ->
    (forall c, c ∈ missing <-> c ∉ codes /\ may_return pk lk fd' f c) ->
    (forall c, c ∈ missing -> newly_declared c fa fa') ->
    updated_verdict f (match missing with [] => [] | _ => [Diag (fn_pos fn) (expected_message (func_name fn) missing [])] end).

Lemma new_code f c : same_but_codes fa fa' -> ~ may_return pk lk fd f c -> may_return pk lk fd' f c -> newly_declared c fa fa'.
Proof.
  intros Hs Hn Hm.
  destruct (not_newly c fa fa' Hs) as [|Hst]; [done|].
  destruct Hn. destruct (facts_grow pk strict ord' ord fa' fa r' r Hord' Hord Hok Hd Hr' Hr (same_sym _ _ Hs)) as [Hs2 Hc2].
  apply (may_return_grow pk lk fd' fd c Hs2); [|done]. by apply Hc2.
Qed.
(** The package is analysed again after its dependencies have come to declare more codes.  If nothing was reported before, all that is said
    about the documented codes of functions that can be tracked is that new codes of the dependencies are missing. *)
Theorem C49_update : r_diags r = [] -> declares_more fa fa' -> exists ds vs rest,
  NoDup ds /\ (forall f, f ∈ ds <-> declared_function pk f) /\
  Forall2 (fun f v => usable_from pk lk fd f -> (forall c, agree_from pk lk fd f c) -> updated_verdict f v) ds vs /\
  r_diags r' ≡ₚ rest ++ concat vs.
Proof.
  intros Hnil Hmore. pose proof (proj1 Hmore) as Hs. destruct (C47_verdicts pk strict ord' fa' r' Hord' Hr' Hlit) as (ds&vs&rest&Hnd&Hds&Hvs&Hp).
  exists ds, vs, rest. split_and!; [done|done| |done]. eapply Forall2_impl; [exact Hvs|]. cbn beta. clear ds vs rest Hnd Hds Hvs Hp.
  intros f v [fn codes param s missing unused Hk Hret Hdc Hsound Hcomplete Hm Hu] Hus Hag.
  destruct (C47_clean pk strict ord fa r Hord Hr Hlit f fn codes param Hnil Hk Hret Hdc Hus) as [Hc1 Hc2].
  destruct (facts_grow pk strict ord ord' fa fa' r r' Hord Hord' Hok Hd Hr Hr' Hs) as [Hs2 Hm2].
  assert (usable_from pk lk fd' f) as Hus' by by apply (usable_from_grow pk lk fd fd').
  assert (forall c, agree_from pk lk fd' f c) as Hag' by (intros c; by apply (agree_from_grow pk lk fd fd')).
  assert (forall c, c ∈ s <-> may_return pk lk fd' f c) as Es by (intros c; split; [by apply Hsound|by apply Hcomplete]).
  assert (codes ⊆ s) as Hsub.
  { intros c Hc. apply Es. apply (may_return_grow pk lk fd fd' c Hs2); [|by apply Hc1]. apply Hm2. by apply more_still. }
  assert (unused = []) as ->.
  { destruct Hu as (_&_&Hu). destruct unused as [|c l]; [done|]. exfalso. assert (c ∈ codes ∖ s) as H by (apply Hu; by left). set_solver. }
  destruct Hm as (M1&M2&Hm).
  assert (forall c, c ∈ missing <-> c ∉ codes /\ may_return pk lk fd' f c) as Em.
  { intros c. rewrite Hm, elem_of_difference, Es. tauto. }
  econstructor; try done. intros c [Hn Hmc]%Em. apply (new_code f c Hs); [|done]. intros Hold. apply Hn. by apply Hc2.
Qed.
End update.
