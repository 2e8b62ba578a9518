(** * No recursion of the phases outside of the main loop is ever cut off. *)
From Coq Require Import Ascii String.
From stdpp Require Import base list gmap sets.
From Verif Require Import GoString ErrorCode Scc Engine CodeSet Constant GoAst Taint Extract Analyse TaintProofs Termination Phase PhaseProofs ErrorTypes
  Claims Interfaces.

(** ** The error types *)
(** The end is reached and nothing is removed from the set of variables that have been dealt with. *)
Definition keeps (V : gset oid) (m : phase cstate) : Prop :=
  match m with Ok (st, _) => V ⊆ cs_visited st | Panicked => True | OutOfFuel => False end.
Lemma keeps_ends V m : keeps V m -> ends m.
Proof. unfold ends. by destruct m as [[]| |]. Qed.
Lemma keeps_bind {A} V (m : phase A) k : ends m -> (forall a, keeps V (k a)) -> keeps V (pbind m k).
Proof.
  unfold ends, keeps, pbind. intros Hm Hk. destruct m as [[a d]| |]; [|done|done]. specialize (Hk a). by destruct (k a) as [[]| |].
Qed.
Lemma keeps_ret V st : V ⊆ cs_visited st -> keeps V (pret st).
Proof. done. Qed.
Lemma keeps_fold {A} V (f : cstate -> A -> phase cstate) l st : V ⊆ cs_visited st ->
  (forall st a, V ⊆ cs_visited st -> a ∈ l -> keeps (cs_visited st) (f st a)) -> keeps (cs_visited st) (pfold f st l).
Proof.
  revert st. induction l as [|a l IH]; intros st HV Hf; cbn [pfold]; [by apply keeps_ret|].
  pose proof (Hf st a HV ltac:(by left)) as H. unfold pbind. destruct (f st a) as [[st' d]| |]; [|done|done]. cbn in H.
  assert (keeps (cs_visited st') (pfold f st' l)) as H2.
  { apply IH; [set_solver|]. intros st2 b HV2 Hb. apply Hf; [done|by right]. }
  destruct (pfold f st' l) as [[]| |]; [|done|done]. cbn in *. set_solver.
Qed.
Lemma keeps_weaken V V' m : V ⊆ V' -> keeps V' m -> keeps V m.
Proof. intros HV. unfold keeps. destruct m as [[]| |]; [|done|done]. set_solver. Qed.

Section code_method.
Context (pk : package) (fn : func) (receiver : option ident) (body : node) (Hbody : fn_body fn = Some body).
Notation universe := (universe pk None).

Lemma ident_taint_keeps rec n i st :
  size (universe ∖ cs_visited st) < S n ->
  (forall e st, size (universe ∖ cs_visited st) < n -> keeps (cs_visited st) (rec e st)) ->
  keeps (cs_visited st) (analyseReturnedIdentTaint pk fn rec i st).
Proof.
  intros Hn Hrec. unfold analyseReturnedIdentTaint. cbn zeta.
  destruct (taintSpread_grows pk fn None body Hbody (cs_visited st) i) as [_ Hv Hu Hf].
  set (r := taintSpread pk fn None (cs_visited st) i) in *. clearbody r. cbn [ts_visited ts_exprs ts_destructs] in Hv, Hu, Hf.
  destruct (negb (ts_ok r)); [done|]. apply keeps_bind; [ends_auto|]. intros _. apply keeps_bind; [ends_auto|]. intros _.
  eapply keeps_weaken; [exact Hv|]. change (ts_visited r) with (cs_visited (CState (ts_visited r) (cs_codes st) (cs_field st))).
  destruct Hf as [[-> _]|(o&Ho&Hno)]; [by cbn|].
  assert (size (universe ∖ ts_visited r) < n \/ o ∉ universe) as Hs.
  { destruct (decide (o ∈ universe)) as [Hou|]; [left|by right].
    assert (universe ∖ ts_visited r ⊂ universe ∖ cs_visited st) as Hlt%subset_size; [|lia].
    apply strict_spec_alt. split; [set_solver|]. intros Heq. assert (o ∈ universe ∖ cs_visited st) as H by set_solver.
    rewrite <-Heq in H. set_solver. }
  destruct Hs as [Hs|Hs].
  2:{ exfalso. destruct (Hu o Ho); done. }
  apply (keeps_fold (ts_visited r)); [done|]. intros st' e HV _. apply Hrec.
  eapply Nat.le_lt_trans; [|exact Hs]. apply subseteq_size. set_solver.
Qed.
Lemma expression_keeps n e st : size (universe ∖ cs_visited st) < n -> keeps (cs_visited st) (analyseReturnedExpression pk fn receiver n e st).
Proof.
  revert e st. induction n as [|n IH]; intros e st Hn; [lia|]. cbn [analyseReturnedExpression].
  destruct (ti_value _ _).
  - destruct (getErrorCodeFromConstant _ _) as [v|msg]; [|apply keeps_bind; [done|by cbn]].
    destruct (decide _); apply keeps_ret; done.
  - set (fld := match as_selector _ with Some _ => _ | None => _ end). destruct fld as [sel|].
    + destruct (cs_field st) as [f|]; [|by apply keeps_ret].
      destruct (decide _); [by apply keeps_ret|]. apply keeps_bind; [done|by cbn].
    + destruct (as_ident (unparen e)) as [i|]; [|apply keeps_bind; [done|by cbn]].
      apply (ident_taint_keeps _ n); [done|]. intros. by apply IH.
Qed.
Lemma enough st : size (universe ∖ cs_visited st) < code_fuel pk.
Proof.
  unfold code_fuel. pose proof (universe_size pk None) as Hs.
  assert (size (universe ∖ cs_visited st) <= size universe) by (apply subseteq_size; set_solver). lia.
Qed.
Lemma return_keeps st stmt : keeps (cs_visited st) (analyse_return pk fn receiver st stmt).
Proof.
  unfold analyse_return, analyseNamedReturn. destruct (node_kids stmt) as [|e [|]]; [|by apply expression_keeps, enough|done].
  destruct (ft_results _) as [[|f [|]]|]; try done. destruct (f_names f) as [|i [|]]; try done.
  apply (ident_taint_keeps _ (code_fuel pk)).
  - pose proof (enough st). lia.
  - intros. by apply expression_keeps.
Qed.
End code_method.

Section types.
Context (pk : package).
Lemma code_method_ends fn receiver ts : ends (analyseCodeMethod pk fn receiver ts).
Proof.
  unfold analyseCodeMethod. apply ends_bind.
  - destruct (fn_body fn) as [body|] eqn:Eb; [|done]. apply (keeps_ends ∅).
    change (∅ : gset oid) with (cs_visited (CState ∅ ∅ None)) at 1. apply (keeps_fold ∅); [done|]. intros st stmt _ _. by apply (return_keeps pk fn receiver body).
  - intros st. ends_auto.
Qed.
Lemma error_types_end lk fa : ends (findAndTagErrorTypes pk lk fa).
Proof.
  unfold findAndTagErrorTypes, tag_spec, tagErrorType, analyseMethodsOfErrorType. pose proof code_method_ends. ends_auto.
Qed.

(** ** The interfaces *)
Context (fa : facts) (order : nid -> gset gostring -> list gostring).
(** The end is reached, and nothing is added to the interfaces left to look at. *)
Definition shrinks {A} (proj : A -> gmap gostring iface) (m0 : gmap gostring iface) (m : phase A) : Prop :=
  match m with Ok (a, _) => proj a ⊆ m0 | Panicked => True | OutOfFuel => False end.
Lemma shrinks_ends {A} proj m0 (m : phase A) : shrinks proj m0 m -> ends m.
Proof. unfold ends. by destruct m as [[]| |]. Qed.
Lemma shrinks_bind {A B} proj m0 (m : phase A) (k : A -> phase B) : ends m -> (forall a, shrinks proj m0 (k a)) -> shrinks proj m0 (pbind m k).
Proof.
  unfold ends, shrinks, pbind. intros Hm Hk. destruct m as [[a d]| |]; [|done|done]. specialize (Hk a). by destruct (k a) as [[]| |].
Qed.
Lemma add_methods_ends i add ord pos : ends (addEmbeddedInterfaceErrorMethods i add ord pos).
Proof. unfold addEmbeddedInterfaceErrorMethods, checkEmbeddedInterfaceErrorMethodCodes. ends_auto. Qed.
Notation rest := (fun m : imaps => m.2).
Notation state_rest := (fun s : iface * imaps => s.2.2).
Lemma embed_one_shrinks dfs s e :
  (forall j (m : imaps) name, m.2 !! name = Some j -> m.2 ⊆ s.2.2 -> shrinks rest m.2 (dfs j m)) ->
  shrinks state_rest s.2.2 (embed_one pk fa order dfs s e).
Proof.
  intros Hd. destruct s as [i m]. cbn [fst snd] in *. destruct e as [nid name|nid]; cbn [embed_one].
  - match goal with |- context [pbind ?x _] => set (sub := x) end.
    assert (shrinks rest m.2 sub) as H.
    { unfold sub. destruct (m.2 !! name) as [j|] eqn:Ej; [by eapply Hd|]. cbn. done. }
    clearbody sub. destruct sub as [[m' d]| |]; [|done|done].
    match goal with |- shrinks _ _ (pbind _ ?k) => assert (shrinks state_rest m.2 (k m')) as Hk end.
    { cbn beta. cbn in H. destruct (m'.1 !! name) as [j|]; [|exact H]. apply shrinks_bind; [apply add_methods_ends|]. intros i'. exact H. }
    unfold shrinks, pbind in *. by destruct (match m'.1 !! name with Some _ => _ | None => _ end) as [[]| |].
  - destruct (importErrorInterfaceFact _ _) as [methods|]; [|by cbn]. apply shrinks_bind; [apply add_methods_ends|]. by cbn.
Qed.
Lemma embed_all_shrinks dfs s l :
  (forall j (m : imaps) name, m.2 !! name = Some j -> m.2 ⊆ s.2.2 -> shrinks rest m.2 (dfs j m)) ->
  shrinks state_rest s.2.2 (pfold (embed_one pk fa order dfs) s l).
Proof.
  revert s. induction l as [|e l IH]; intros s Hd; cbn [pfold]; [by cbn|].
  pose proof (embed_one_shrinks dfs s e Hd) as H. unfold pbind. destruct (embed_one _ _ _ dfs s e) as [[s' d]| |]; [|done|done]. cbn in H.
  assert (shrinks state_rest s'.2.2 (pfold (embed_one pk fa order dfs) s' l)) as H2.
  { apply IH. intros j m name Hj Hm. eapply Hd; [exact Hj|]. by etrans. }
  destruct (pfold _ s' l) as [[]| |]; [|done|done]. cbn in *. by etrans.
Qed.
(** The interfaces are kept under their names. *)
Definition keyed (m : gmap gostring iface) : Prop := forall name i, m !! name = Some i -> i_name (if_ident i) = name.
Lemma keyed_sub (m m' : gmap gostring iface) : m' ⊆ m -> keyed m -> keyed m'.
Proof. intros Hs H name i Hi. apply H. by eapply lookup_weaken. Qed.
Lemma dfs_shrinks fuel name i m : m.2 !! name = Some i -> size m.2 <= fuel -> keyed m.2 ->
  shrinks rest m.2 (embeddingInterfaceDFS pk fa order fuel i m).
Proof.
  revert name i m. induction fuel as [|n IH]; intros name i m Hi Hs Hk.
  { assert (size m.2 = 0) as H by lia. apply map_size_empty_inv in H. rewrite H in Hi. by apply lookup_empty_Some in Hi. }
  cbn [embeddingInterfaceDFS]. set (m1 := (m.1, delete (i_name (if_ident i)) m.2)).
  assert (m1.2 ⊆ m.2) as Hsub by apply delete_subseteq.
  assert (size m1.2 <= n) as Hs1.
  { cbn. rewrite (Hk _ _ Hi), map_size_delete, Hi. lia. }
  pose proof (embed_all_shrinks (embeddingInterfaceDFS pk fa order n) (i, m1) (if_embeds i)) as H. cbn [fst snd] in H.
  assert (shrinks state_rest m1.2 (pfold (embed_one pk fa order (embeddingInterfaceDFS pk fa order n)) (i, m1) (if_embeds i))) as H1.
  { apply H. intros j m2 name' Hj Hm2. eapply IH; [exact Hj| |].
    - etrans; [|exact Hs1]. rewrite <-!(size_dom (D := gset gostring)). apply subseteq_size. by apply subseteq_dom.
    - eapply keyed_sub; [|exact Hk]. by etrans. }
  unfold pbind. destruct (pfold _ _ _) as [[[i' m2] d]| |]; [|done|done]. cbn in H1.
  destruct (decide _); cbn; by etrans.
Qed.
Lemma embedding_ends names m : keyed m.2 -> ends (findErrorReturningEmbeddingInterfaces pk fa order names m).
Proof.
  intros Hk. unfold findErrorReturningEmbeddingInterfaces. cbn zeta. generalize (names (dom m.2)). intros l.
  assert (m.2 ⊆ m.2) as Hs by done. revert Hs. generalize m at 1 4. revert l.
  induction l as [|name l IH]; intros m' Hs; cbn [pfold]; [done|].
  assert (shrinks rest m'.2 (match m'.2 !! name with Some i => embeddingInterfaceDFS pk fa order (S (size m.2)) i m' | None => pret m' end)) as H.
  { destruct (m'.2 !! name) as [i|] eqn:Ei; [|by cbn]. eapply dfs_shrinks; [exact Ei| |by eapply keyed_sub].
    apply Nat.le_le_succ_r. rewrite <-!(size_dom (D := gset gostring)). apply subseteq_size. by apply subseteq_dom. }
  unfold ends, pbind. destruct (match m'.2 !! name with Some i => _ | None => _ end) as [[m2 d]| |]; [|done|done]. cbn in H.
  assert (m2.2 ⊆ m.2) as Hs2 by by etrans. specialize (IH m2 Hs2). unfold ends in IH.
  match goal with |- context [pfold ?f m2 l] => by destruct (pfold f m2 l) as [[]| |] end.
Qed.

Definition keyed_result {A} (proj : A -> gmap gostring iface) (m : phase A) : Prop :=
  match m with Ok (a, _) => keyed (proj a) | Panicked => True | OutOfFuel => True end.
Lemma keyed_fold {A S : Type} (proj : S -> gmap gostring iface) (f : S -> A -> phase S) s l :
  (forall s a, keyed (proj s) -> keyed_result proj (f s a)) -> keyed (proj s) -> keyed_result proj (pfold f s l).
Proof.
  intros Hf. revert s. induction l as [|a l IH]; intros s Hs; cbn [pfold]; [done|]. specialize (Hf s a Hs). unfold pbind.
  destruct (f s a) as [[s' d]| |]; [|done|done]. cbn in Hf. specialize (IH s' Hf). by destruct (pfold f s' l) as [[]| |].
Qed.
Lemma collect_keyed : keyed_result rest (collect_interfaces pk).
Proof.
  unfold collect_interfaces. apply keyed_fold; [|intros name i H; cbn in H; by rewrite lookup_empty in H].
  intros m g Hm. apply keyed_fold; [|done]. clear m Hm. intros m spec Hm. unfold collect_spec, pbind.
  destruct (checkIfErrorReturningInterface pk spec) as [[[i|] d]| |]; [|done|done|done].
  destruct (decide _); [|destruct (decide _); done]. cbn. intros name j. rewrite lookup_insert_Some. intros [[<- ->]|[_ Hj]]; [done|]. by apply Hm.
Qed.
Lemma interfaces_end names : ends (findErrorReturningInterfaces pk fa order names).
Proof.
  unfold findErrorReturningInterfaces. pose proof collect_keyed as Hk. pose proof (collect_ends pk) as He. unfold ends in *.
  unfold pbind at 1. destruct (collect_interfaces pk) as [[m d]| |]; [|done|done]. cbn in Hk.
  pose proof (embedding_ends names m Hk) as H. unfold ends in H.
  match goal with |- context [pbind ?x _] => by destruct x as [[]| |] end.
Qed.
End types.
