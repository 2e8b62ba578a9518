(** * C18: the iteration orders over maps do not matter. *)
From Coq Require Import Ascii String.
From stdpp Require Import base list gmap relations sets.
From Verif Require Import GoString ErrorCode Scc Engine SpecEngine EngineProofs EngineTheorems CodeSet CodeSetProofs Annotation Constant GoAst Taint Extract
  Analyse SpecCodes SpecTaint SpecMay SpecProgram SpecClaims SpecInterfaces Termination Phase ErrorTypes Claims Interfaces Conversions Verify SpecRun SpecEnd
  RunEngine SafeEngine ExprProofs MayProofs OwnProofs ProgramProofs ObserveProofs MainLoop PhaseProofs FactProofs ClaimsProofs InterfacesProofs PropInterfaces
  RunProofs PropFacts CheckEngine VocabularyProofs RunChecks SpecReports SpecEvents SpecSites SpecLiterals SpecCrash PropConversions PropSites PropCrash PropEnd.

(** ** Effects that differ in the order of their parts *)
Definition alike (e e' : eff diag) : Prop := (forall O, additive O -> O e <-> O e') /\ reports e ≡ₚ reports e'.
Lemma alike_refl e : alike e e.
Proof. done. Qed.
Lemma alike_sym e e' : alike e e' -> alike e' e.
Proof. intros [H1 H2]. split; [|by symmetry]. intros O HO. symmetry. by apply H1. Qed.
Lemma alike_calls (p p' : fid -> eff diag) : (forall f, alike (p f) (p' f)) -> forall f g, calls p f g <-> calls p' f g.
Proof. intros H f g. apply (proj1 (H f) (fun e => g ∈ call_list e)). apply additive_calls. Qed.
Lemma reaches_same (p p' : fid -> eff diag) : (forall f g, calls p f g -> calls p' f g) -> forall f g, reaches p f g -> reaches p' f g.
Proof. intros H f g. induction 1 as [|x y z Hs _ IH]; [apply rtc_refl|]. eapply rtc_l; [by apply H|exact IH]. Qed.
Lemma alike_may_1 (p p' : fid -> eff diag) : (forall f, alike (p f) (p' f)) -> forall f c, may p f c -> may p' f c.
Proof.
  intros H.
  assert (forall f g, mutual p f g -> mutual p' f g) as Hm.
  { intros f g [? ?]. split; (eapply reaches_same; [|done]); intros a b ?; by apply (alike_calls p p' H). }
  assert ((forall f c, may p f c -> may p' f c) /\ (forall e c, from p e c -> from p' e c)) as [G _]; [|exact G].
  apply may_from_ind; intros.
  - apply may_own. by apply (proj1 (H f) (fun e => from p' e c) (additive_from p' c)).
  - eapply may_recursive; [by apply Hm|done].
  - by apply from_set.
  - by apply from_union_l.
  - by apply from_union_r.
  - by apply from_diff.
  - by apply from_call.
  - by apply from_direct.
Qed.
Lemma alike_may (p p' : fid -> eff diag) : (forall f, alike (p f) (p' f)) -> forall f c, may p f c <-> may p' f c.
Proof. intros H f c. split; apply alike_may_1; [done|]. intros g. by apply alike_sym. Qed.
Lemma alike_given found (p p' : fid -> eff diag) : (forall f, alike (p f) (p' f)) -> forall f, alike (given found p f) (given found p' f).
Proof. intros H f. unfold given. by destruct (found !! f). Qed.

Lemma reports_all l : reports (eff_all l) = l ≫= reports.
Proof.
  unfold eff_all. assert (forall e, reports (foldl EffUnion e l) = reports e ++ (l ≫= reports)) as H.
  { induction l as [|x l IH]; intros e; cbn [foldl mbind list_bind]; [by rewrite app_nil_r|]. rewrite IH. cbn [reports]. by rewrite app_assoc. }
  by rewrite H.
Qed.
Lemma bind_perm {A B} (f : A -> list B) l l' : l ≡ₚ l' -> l ≫= f ≡ₚ l' ≫= f.
Proof. by intros ->. Qed.
Lemma bind_perm_ext {A B} (f f' : A -> list B) l : (forall x, x ∈ l -> f x ≡ₚ f' x) -> l ≫= f ≡ₚ l ≫= f'.
Proof.
  induction l as [|x l IH]; intros H; [done|]. cbn [mbind list_bind]. rewrite (H x) by (by left). rewrite IH; [done|].
  intros y ?. apply H. by right.
Qed.
Lemma plan_alike pk lk fa (o o' : gset oid -> list oid) : (forall s, o s ≡ₚ o' s) -> forall f, alike (plan pk lk fa o f) (plan pk lk fa o' f).
Proof.
  intros Ho f. unfold plan. destruct (pk_funcs pk !! f) as [fn|]; [|done]. unfold function_effect.
  destruct (findErrorCodesInFunctionReturnStmts pk lk fa fn) as [c v]. unfold findCodesAssignedToErrorCodeFields. split.
  - intros O HO. rewrite !(ad_union _ HO), !(obs_all _ _ HO). setoid_rewrite elem_of_list_fmap. setoid_rewrite (Ho v). done.
  - cbn [reports]. rewrite !reports_all. apply Permutation_app_head. apply bind_perm. by rewrite (Ho v).
Qed.

(** ** The phases before *)
Lemma foldl_same {K A B} `{Countable K} (key : A -> option (K * B)) (l l' : list A) (m : gmap K B) :
  (forall a b k v w, a ∈ l -> b ∈ l -> key a = Some (k, v) -> key b = Some (k, w) -> v = w) -> (forall a, a ∈ l <-> a ∈ l') ->
  foldl (fun m a => match key a with Some (k, v) => <[ k := v ]> m | None => m end) m l =
  foldl (fun m a => match key a with Some (k, v) => <[ k := v ]> m | None => m end) m l'.
Proof.
  intros Hk Hl. apply map_eq. intros k. apply option_eq. intros v. rewrite !foldl_insert; [|intros a b ? ? ? Ha Hb; apply Hk; by apply Hl|done].
  setoid_rewrite Hl. done.
Qed.

Section same.
Context (pk : package) (strict : bool) (fa : facts).
Notation lk := (collectFunctions pk).
Notation info := (pk_info pk).
Context (Hok : interfaces_ok pk) (Hd : distinct_definitions pk).

(** The results of the two runs before the loop. *)
Record agreeing (r r' : run) : Prop := {
  ag_types : r_types r' = r_types r;
  ag_ifaces : r_ifaces r' = r_ifaces r;
  ag_claims : r_claims r' = r_claims r;
  ag_d1 : r_d1 r' = r_d1 r;
  ag_d2 : r_d2 r ≡ₚ r_d2 r';
  ag_d3 : r_d3 r ≡ₚ r_d3 r';
  ag_d4 : r_d4 r ≡ₚ r_d4 r'
}.
Lemma prepared_agree ord ord' r r' : orders_ok lk ord -> orders_ok lk ord' -> prepared pk strict ord fa r -> prepared pk strict ord' fa r' -> agreeing r r'.
Proof.
  intros Hord Hord' [T I F C] [T' I' F' C']. rewrite T in T'. injection T' as T1 T2. rewrite <-T1 in *.
  pose proof (C27_order_independent pk (r_types r) _ _ _ _ Hok (ok_embedded _ _ Hord) (ok_embedded _ _ Hord') (ok_embedding _ _ Hord) (ok_embedding _ _ Hord')) as HI.
  rewrite I, I' in HI. destruct HI as [HI1 HI2].
  apply find_returning in F as (_&Ef&Ed3), F' as (_&Ef'&Ed3').
  assert (or_each ord ≡ₚ or_each ord') as He by (by rewrite (ok_each _ _ Hord), (ok_each _ _ Hord')).
  assert (r_funcs r ≡ₚ r_funcs r') as Hf by (rewrite Ef, Ef'; by rewrite He).
  apply find_claims in C as (_&C&Ed4), C' as (_&C'&Ed4').
  constructor; [done|done| |done|done| |].
  - apply map_eq. intros f. rewrite C, C'. destruct (decide (f ∈ r_funcs r)) as [H|H].
    + rewrite decide_True; [done|]. by rewrite <-Hf.
    + rewrite decide_False; [done|]. by rewrite <-Hf.
  - rewrite Ed3, Ed3'. by rewrite He.
  - rewrite Ed4, Ed4'. by rewrite Hf.
Qed.
Lemma prepared_other ord ord' r : orders_ok lk ord -> orders_ok lk ord' -> prepared pk strict ord fa r -> exists r', prepared pk strict ord' fa r'.
Proof.
  intros Hord Hord' [T I F C].
  pose proof (C27_order_independent pk (r_types r) _ _ _ _ Hok (ok_embedded _ _ Hord) (ok_embedded _ _ Hord') (ok_embedding _ _ Hord) (ok_embedding _ _ Hord')) as HI.
  rewrite I in HI. destruct (findErrorReturningInterfaces pk (r_types r) (or_embedded ord') (or_embedding ord')) as [[ifaces' d2']| |] eqn:I'; [|done|done].
  apply find_returning in F as (F&Ef&_). apply find_claims in C as (C&C2&_).
  assert (or_each ord ≡ₚ or_each ord') as He by (by rewrite (ok_each _ _ Hord), (ok_each _ _ Hord')).
  set (funcs' := filter (fun f => returns_error pk f = true) (or_each ord')).
  assert (findErrorReturningFunctions pk (or_each ord') = Ok (funcs', or_each ord' ≫= result_reports pk)) as F'.
  { apply find_returning. split; [|done]. intros f Hf. apply F. by rewrite He. }
  assert (forall f, f ∈ funcs' <-> f ∈ r_funcs r) as Hf by (intros f; rewrite Ef; unfold funcs'; by rewrite He).
  assert (findClaimedErrorCodes pk strict funcs' = Ok (r_claims r, funcs' ≫= func_diags pk strict)) as C'.
  { apply find_claims. split_and!; [|intros f; rewrite C2; destruct (decide (f ∈ r_funcs r)) as [H|H]|done].
    - intros f Hin. by apply C, Hf.
    - by rewrite decide_True by (by apply Hf).
    - rewrite decide_False; [done|]. by rewrite Hf. }
  exists (Run (r_types r) ifaces' funcs' (r_claims r) (r_loop r) (r_loop r) (r_d1 r) d2' (or_each ord' ≫= result_reports pk) (funcs' ≫= func_diags pk strict)). by constructor.
Qed.

(** ** The facts *)
Lemma during_same ord ord' r r' : orders_ok lk ord -> orders_ok lk ord' -> prepared pk strict ord fa r -> prepared pk strict ord' fa r' ->
  facts_during pk ord r = facts_during pk ord' r'.
Proof.
  intros Hord Hord' Hr Hr'. pose proof (prepared_agree _ _ _ _ Hord Hord' Hr Hr') as [A1 A2 A3 _ _ _ _].
  unfold facts_during. rewrite !export_ctor_fields, !export_interfaces_fields. cbn [fa_codes fa_ctor fa_type fa_iface]. rewrite A1, A2, A3. f_equal.
  - apply foldl_same.
    + intros [i m] [j n] k v w. rewrite !elem_of_list_bind. unfold iface_methods. intros (i'&Hi&Hi') (j'&Hj&Hj').
      apply elem_of_list_fmap in Hi as (m'&[= <- <-]&Hm), Hj as (n'&[= <- <-]&Hn).
      apply (run_iface_list pk ord r Hord) in Hi' as [ni Hi], Hj' as [nj Hj]. unfold method_key. cbn [fst snd].
      destruct (if_methods i !! m) as [[[nm|] ci]|] eqn:Emi; [|done|done]. destruct (if_methods j !! n) as [[[nm'|] cj]|] eqn:Emj; [|done|done].
      destruct (ti_defs info (i_id nm)) as [o|] eqn:Eo; [|done]. destruct (ti_defs info (i_id nm')) as [o'|] eqn:Eo'; [|done].
      intros [= -> ->] [= -> ->].
      pose proof Emi as Fi. pose proof Emj as Fj.
      apply (run_own_method pk strict ord fa r Hr Hord Hok _ _ _ _ _ Hi) in Emi as (id&elems&mid&doc&ft&D1&D2&<-&D3).
      apply (run_own_method pk strict ord fa r Hr Hord Hok _ _ _ _ _ Hj) in Emj as (id'&elems'&mid'&doc'&ft'&D1'&D2'&<-&D3').
      assert (DMethod (if_ident i) nm = DMethod (if_ident j) nm') as [= E1 E2] by (eapply Hd; cbn; eauto 10).
      destruct (run_interface pk strict ord fa r Hr Hord Hok _ _ Hi) as (_&_&_&Ni), (run_interface pk strict ord fa r Hr Hord Hok _ _ Hj) as (_&_&_&Nj).
      assert (i = j) as <- by congruence. rewrite E2 in Fi. congruence.
    + intros [i m]. rewrite !elem_of_list_bind. unfold iface_methods.
      assert (forall ord, orders_ok lk ord -> forall i, (i ∈ omap (fun n => r_ifaces r !! n) (or_ifaces ord (dom (r_ifaces r)))) <-> exists n, r_ifaces r !! n = Some i) as Hl.
      { intros o Ho j. exact (run_iface_list pk o r Ho j). }
      split; (intros (j&Hj&Hj'); exists j; (split; [|by rewrite Hl in *])).
      * apply elem_of_list_fmap in Hj as (m'&[= -> ->]&Hm). apply elem_of_list_fmap. exists m'. split; [done|].
        rewrite (ok_methods _ _ Hord) in Hm. by rewrite (ok_methods _ _ Hord').
      * apply elem_of_list_fmap in Hj as (m'&[= -> ->]&Hm). apply elem_of_list_fmap. exists m'. split; [done|].
        rewrite (ok_methods _ _ Hord') in Hm. by rewrite (ok_methods _ _ Hord).
  - apply foldl_same.
    + intros f g k v w _ _ (c&i&Hc&Ho&Hp)%ctor_key_spec (c'&i'&Hc'&Ho'&Hp')%ctor_key_spec.
      assert (f = g) as <- by (eapply (distinct_functions pk Hd); done). congruence.
    + intros f. rewrite (ok_claims _ _ Hord), (ok_claims _ _ Hord'). done.
  - apply foldl_same.
    + intros i j k v w Hi Hj Hv Hw. apply (run_iface_list pk ord r Hord) in Hi, Hj.
      pose proof (iface_same pk strict ord fa r Hr Hord Hok Hd _ _ _ _ _ Hi Hj Hv Hw) as ->. congruence.
    + intros i. rewrite !elem_of_list_omap. setoid_rewrite (ok_ifaces _ _ Hord). setoid_rewrite (ok_ifaces _ _ Hord'). done.
Qed.
Lemma after_same ord ord' r r' : orders_ok lk ord -> orders_ok lk ord' -> prepared pk strict ord fa r -> prepared pk strict ord' fa r' ->
  facts_after pk ord r = facts_after pk ord' r'.
Proof.
  intros Hord Hord' Hr Hr'. pose proof (prepared_agree _ _ _ _ Hord Hord' Hr Hr') as [A1 A2 A3 _ _ _ _].
  unfold facts_after. rewrite !export_codes_fields, (during_same _ _ _ _ Hord Hord' Hr Hr'), A3. f_equal. apply foldl_same.
  - intros f g k v w _ _ (c&Hc&Ho&->)%codes_key_spec (c'&Hc'&Ho'&->)%codes_key_spec.
    assert (f = g) as <- by (eapply (distinct_functions pk Hd); done). congruence.
  - intros f. rewrite (ok_claims _ _ Hord), (ok_claims _ _ Hord'). done.
Qed.

(** ** The loop and the conversions *)
Section both.
Context (ord ord' : orders) (r r' : run) (Hord : orders_ok lk ord) (Hord' : orders_ok lk ord').
Lemma tracked_same s : or_tracked ord s ≡ₚ or_tracked ord' s.
Proof. by rewrite (ok_tracked _ _ Hord), (ok_tracked _ _ Hord'). Qed.
Lemma claims_same k s : or_claims ord k s ≡ₚ or_claims ord' k s.
Proof. by rewrite (ok_claims _ _ Hord), (ok_claims _ _ Hord'). Qed.
Lemma loop_same : looped pk strict ord fa r -> looped pk strict ord' fa r' -> usable_functions pk (facts_during pk ord r) -> no_literal_recursion pk lk (facts_during pk ord r) ->
  e_found (r_loop r) = e_found (r_loop r') /\ e_diags (r_loop r) ≡ₚ e_diags (r_loop r').
Proof.
  intros Hr Hr' Hus Hlit. pose proof (prepared_agree _ _ _ _ Hord Hord' Hr Hr') as [A1 A2 A3 _ _ _ _].
  pose proof (during_same _ _ _ _ Hord Hord' Hr Hr') as Ed.
  pose proof (run_loop pk strict ord fa r Hr Hord Hus Hlit) as [_ F1 _ D1 (fs&Hnd&Hfs) _].
  rewrite Ed in Hus, Hlit.
  pose proof (run_loop pk strict ord' fa r' Hr' Hord' Hus Hlit) as [_ F2 _ D2 _ _].
  rewrite A3, <-Ed in *.
  pose proof (plan_alike pk lk (facts_during pk ord r) _ _ tracked_same) as Hal.
  assert (e_found (r_loop r) = e_found (r_loop r')) as Ef.
  { apply map_eq. intros g. specialize (F1 g). specialize (F2 g).
    assert ((exists f, f ∈ or_claims ord 1 (dom (r_claims r)) /\ rtc (passes_on pk lk (facts_during pk ord r)) f g) <->
      exists f, f ∈ or_claims ord' 1 (dom (r_claims r)) /\ rtc (passes_on pk lk (facts_during pk ord r)) f g) as Hcl.
    { by setoid_rewrite (claims_same 1 (dom (r_claims r))). }
    destruct (e_found (r_loop r) !! g) as [s|], (e_found (r_loop r') !! g) as [s'|]; [|exfalso; tauto|exfalso; tauto|done].
    f_equal. apply set_eq. intros c. destruct F1 as [_ ->], F2 as [_ ->]. by apply alike_may. }
  split; [done|]. rewrite (D1 fs Hnd Hfs). rewrite (D2 fs Hnd).
  2:{ intros g. rewrite Hfs. by setoid_rewrite (claims_same 1 (dom (r_claims r))). }
  rewrite Ef. apply Permutation_app.
  - apply bind_perm_ext. intros g _. apply (Hal g).
  - apply bind_perm. apply claims_same.
Qed.
Lemma steps_same l : steps (or_checks ord) l ≡ₚ steps (or_checks ord') l.
Proof.
  induction l as [|[s|] l IH]; [done| |done]. cbn [steps]. rewrite IH. apply Permutation_app_tail. apply fmap_Permutation.
  unfold site_steps. destruct (decide _); [done|]. destruct (s_value s); try done; apply fmap_Permutation; by rewrite (ok_checks _ _ Hord), (ok_checks _ _ Hord').
Qed.
Lemma end_same : completes pk strict ord fa r -> completes pk strict ord' fa r' -> usable_functions pk (facts_during pk ord r) -> no_literal_recursion pk lk (facts_during pk ord r) ->
  e_diags (r_end r) ≡ₚ e_diags (r_end r').
Proof.
  intros Hr Hr' Hus Hlit. destruct (loop_same Hr Hr' Hus Hlit) as [Ef Edi].
  pose proof (during_same _ _ _ _ Hord Hord' Hr Hr') as Ed. pose proof (after_same _ _ _ _ Hord Hord' Hr Hr') as Ea.
  pose proof (checks_post pk strict ord fa r Hord Hr Hus Hlit _ (co_end _ _ _ _ _ Hr)) as [_ _ _ F1 (fs&Hnd&Hfs) D1 _].
  rewrite Ed in Hus, Hlit.
  pose proof (checks_post pk strict ord' fa r' Hord' Hr' Hus Hlit _ (co_end _ _ _ _ _ Hr')) as [_ _ _ F2 _ D2 _].
  assert (forall g, checked_function pk ord r g <-> checked_function pk ord' r' g) as Hc by (intros g; unfold checked_function; by rewrite Ed).
  rewrite <-Ea, <-Ef in *.
  set (fe := facts_after pk ord r) in *.
  pose proof (plan_alike pk lk fe _ _ tracked_same) as Hal.
  pose proof (steps_same (all_conversions pk fe)) as Hst.
  assert (forall g, g ∈ step_queries pk lk fe (steps (or_checks ord) (all_conversions pk fe)) <-> g ∈ step_queries pk lk fe (steps (or_checks ord') (all_conversions pk fe))) as Hq.
  { intros g. unfold step_queries. by rewrite Hst. }
  assert (forall g, (exists f, f ∈ step_queries pk lk fe (steps (or_checks ord) (all_conversions pk fe)) /\ rtc (passes_on pk lk fe) f g) <->
    exists f, f ∈ step_queries pk lk fe (steps (or_checks ord') (all_conversions pk fe)) /\ rtc (passes_on pk lk fe) f g) as Hqs.
  { intros g. by setoid_rewrite Hq. }
  assert (e_found (r_end r) = e_found (r_end r')) as Efe.
  { apply map_eq. intros g. specialize (F1 g). specialize (F2 g). specialize (Hc g). specialize (Hqs g).
    destruct (e_found (r_end r) !! g) as [s|], (e_found (r_end r') !! g) as [s'|]; [|exfalso; tauto|exfalso; tauto|done].
    f_equal. apply set_eq. intros c. destruct F1 as [_ ->], F2 as [_ ->]. apply alike_may. by apply alike_given. }
  rewrite (D1 fs Hnd Hfs), (D2 fs Hnd) by (intros g; by rewrite Hfs, <-Hc, <-Hqs). rewrite Edi, Efe. apply Permutation_app_head. apply Permutation_app.
  - apply bind_perm_ext. intros g _. apply (Hal g).
  - unfold step_reports. by apply bind_perm.
Qed.
End both.

(** ** Crashes *)
Lemma crash_same ord ord' r r' : orders_ok lk ord -> orders_ok lk ord' -> prepared pk strict ord fa r -> prepared pk strict ord' fa r' ->
  run_crash pk ord r -> run_crash pk ord' r'.
Proof.
  intros Hord Hord' Hr Hr'. pose proof (during_same _ _ _ _ Hord Hord' Hr Hr') as Ed. pose proof (after_same _ _ _ _ Hord Hord' Hr Hr') as Ea.
  assert (forall g, checked_function pk ord r g -> checked_function pk ord' r' g) as Hc by (intros g; unfold checked_function; by rewrite Ed).
  assert (forall g, late_function pk ord r g -> late_function pk ord' r' g) as Hl.
  { intros g. unfold late_function, checked_function, conversion_sites. by rewrite Ed, Ea. }
  intros [g fn H1 H2 H3|g fn H1 H2 H3|g H1 H2|w n t pos ms H1 H2 H3|w n t v pos ms m H1 H2 H3 H4 H5 H6 H7].
  - eapply rc_checked; [by apply Hc|done|by rewrite <-Ed].
  - eapply rc_late; [by apply Hl|done|by rewrite <-Ea].
  - eapply rc_missing; [|done]. destruct H1; [left; by apply Hc|right; by apply Hl].
  - eapply rc_conversion; [done|done|by rewrite <-Ea].
  - eapply rc_method; [done|done|by rewrite <-Ea|done..].
Qed.
Lemma twice_same ord ord' r r' : orders_ok lk ord -> orders_ok lk ord' -> prepared pk strict ord fa r -> prepared pk strict ord' fa r' ->
  asked_twice pk ord r -> asked_twice pk ord' r'.
Proof.
  intros Hord Hord' Hr Hr'. pose proof (during_same _ _ _ _ Hord Hord' Hr Hr') as Ed. pose proof (after_same _ _ _ _ Hord Hord' Hr Hr') as Ea.
  unfold asked_twice, late_function, checked_function, conversion_sites. by rewrite Ed, Ea.
Qed.
(** What is required of the functions of the package. *)
Definition functions_ok (known : facts) : Prop :=
  usable_functions pk known /\ no_literal_recursion pk lk known /\ literals_apart pk lk known.
Lemma completes_other ord ord' : orders_ok lk ord -> orders_ok lk ord' -> (forall w n, occurs pk w n -> ~ ill_formed pk w n) ->
  (forall r, prepared pk strict ord fa r -> functions_ok (facts_during pk ord r)) ->
  (exists r, completes pk strict ord fa r) -> exists r', completes pk strict ord' fa r'.
Proof.
  intros Hord Hord' Hwf Hus [r Hr]. destruct (prepared_other ord ord' r Hord Hord' Hr) as [r' Hr'].
  pose proof (during_same _ _ _ _ Hord Hord' Hr Hr') as Ed. destruct (Hus r Hr) as (Hu&Hl&Ha). pose proof Hu as Hu'. pose proof Hl as Hl'. pose proof Ha as Ha'. rewrite Ed in Hu', Hl', Ha'.
  destruct (C23_completes_safe pk strict ord fa r Hord Hr Hu Hl Hwf) as [S1 S2]; [exists r; split; [by split_and!|done]|].
  destruct (C23_crash_or_complete pk strict ord' fa r' Hord' Hr' Hu' Hl' Ha' Hwf) as [H|[H|(r2&_&H)]]; [..|by exists r2]; exfalso.
  - apply S1. exact (crash_same ord' ord r' r Hord' Hord Hr' Hr H).
  - apply S2. exact (twice_same ord' ord r' r Hord' Hord Hr' Hr H).
Qed.
End same.

(** The analyzer gives the same result for all iteration orders: the same facts, the same diagnostics up to their order, and it
    crashes for all or none. *)
Theorem C18_order_independent pk strict ord ord' fa :
  orders_ok (collectFunctions pk) ord -> orders_ok (collectFunctions pk) ord' ->
  interfaces_ok pk -> distinct_definitions pk -> (forall w n, occurs pk w n -> ~ ill_formed pk w n) ->
  (forall r, prepared pk strict ord fa r -> usable_functions pk (facts_during pk ord r) /\
    no_literal_recursion pk (collectFunctions pk) (facts_during pk ord r) /\ literals_apart pk (collectFunctions pk) (facts_during pk ord r)) ->
  match runVerify pk strict ord fa, runVerify pk strict ord' fa with
  | Ok (facts, diags), Ok (facts', diags') => facts = facts' /\ diags ≡ₚ diags'
  | Panicked, Panicked => True
  | _, _ => False
  end.
Proof.
  intros Hord Hord' Hok Hd Hwf Hus.
  pose proof (C21_terminates pk strict ord fa Hord) as Hend. pose proof (C21_terminates pk strict ord' fa Hord') as Hend'.
  assert (forall r, prepared pk strict ord' fa r -> functions_ok pk (facts_during pk ord' r)) as Hus'.
  { intros r' Hr'. destruct (prepared_other pk strict fa Hok ord' ord r' Hord' Hord Hr') as [r Hr].
    rewrite <-(during_same pk strict fa Hok Hd _ _ _ _ Hord Hord' Hr Hr'). by apply Hus. }
  destruct (runVerify pk strict ord fa) as [[f1 d1]| |] eqn:E1; [| |done];
  destruct (runVerify pk strict ord' fa) as [[f2 d2]| |] eqn:E2; try done.
  - apply runVerify_completes in E1 as (r&Hr&->&->), E2 as (r'&Hr'&->&->). destruct (Hus r Hr) as (Hu&Hl&_).
    split; [exact (after_same pk strict fa Hok Hd ord ord' r r' Hord Hord' Hr Hr')|].
    pose proof (prepared_agree pk strict fa Hok _ _ _ _ Hord Hord' Hr Hr') as [_ _ _ A4 A5 A6 A7].
    unfold r_diags. rewrite A4, A5, A6, A7. do 4 apply Permutation_app_head. exact (end_same pk strict fa Hok Hd ord ord' r r' Hord Hord' Hr Hr' Hu Hl).
  - apply runVerify_completes in E1 as (r&Hr&->&->). destruct (completes_other pk strict fa Hok Hd ord ord' Hord Hord' Hwf Hus) as [r' Hr']; [by exists r|].
    assert (runVerify pk strict ord' fa = Ok (facts_after pk ord' r', r_diags r')); [|congruence]. apply runVerify_completes. by exists r'.
  - apply runVerify_completes in E2 as (r&Hr&->&->). destruct (completes_other pk strict fa Hok Hd ord' ord Hord' Hord Hwf Hus') as [r' Hr']; [by exists r|].
    assert (runVerify pk strict ord fa = Ok (facts_after pk ord r', r_diags r')); [|congruence]. apply runVerify_completes. by exists r'.
Qed.
