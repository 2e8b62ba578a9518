From Coq Require Import Ascii String.
From stdpp Require Import base list gmap relations.
From Verif Require Import GoString ErrorCode Scc Engine CodeSet Annotation Constant GoAst Taint Extract Analyse Phase ErrorTypes Claims Interfaces Conversions Verify
  SpecCodes SpecTaint SpecMay SpecLocal SpecClaims SpecInterfaces SpecRun SpecEnd Checkers LocalChecker InterfaceChecker ExampleBase ExampleOrder PropOrder SpecGrow PropGrow GoAst.
Local Open Scope list_scope.
Local Open Scope N_scope.

(** What growdep exports, and what it exports after Write has been changed to return (and declare) one more code. *)
Definition g_dep_ord : orders := some_run_orders (collectFunctions t_growdep).
Definition g_dep_run : run := run_of t_growdep false g_dep_ord no_facts.
Definition g_facts : facts := facts_after t_growdep g_dep_ord g_dep_run.
(** ... Full, the code of which is a constant, can have another one, and the documentation of Save in the interface Store, too. *)
Definition g_more_codes : codeset := {[ str "dep-full"; str "dep-over" ]}.
Definition g_save : codeset := {[ str "dep-store"; str "dep-quota" ]}.
Definition g_store : gmap gostring codeset := {[ str "Save" := g_save ]}.
Definition g_facts' : facts := Facts (<[ 72 := g_save ]> (<[ 54 := {[ str "dep-closed"; str "dep-broken" ]} ]> (fa_codes g_facts))) (fa_ctor g_facts)
  (<[ 55 := ErrorType g_more_codes None ]> (fa_type g_facts)) (<[ 61 := g_store ]> (fa_iface g_facts)).
Definition g_ord : orders := some_run_orders (collectFunctions t_grow).
Definition g_run : run := run_of t_grow false g_ord g_facts.
Definition g_ord' : orders := other_run_orders (collectFunctions t_grow).
Definition g_run' : run := run_of t_grow false g_ord' g_facts'.
Definition g_closed : codeset := {[ str "dep-closed" ]}.
Definition g_full : codeset := {[ str "dep-closed"; str "dep-broken" ]}.
Lemma g_orders : orders_ok (collectFunctions t_grow) g_ord.
Proof. apply some_run_orders_ok. Qed.
Lemma g_completes : completes t_grow false g_ord g_facts g_run.
Proof. apply run_of_ok. vm_compute. reflexivity. Qed.
Lemma g_orders' : orders_ok (collectFunctions t_grow) g_ord'.
Proof. apply other_run_orders_ok. Qed.
Lemma g_completes' : completes t_grow false g_ord' g_facts' g_run'.
Proof. apply run_of_ok. vm_compute. reflexivity. Qed.
Lemma g_codes : fa_codes g_facts !! (54 : tobj) = Some g_closed.
Proof. apply (bool_decide_unpack _). vm_compute. exact Logic.I. Qed.
Lemma g_codes_save : fa_codes g_facts !! (72 : tobj) = Some {[ str "dep-store" ]}.
Proof. apply (bool_decide_unpack _). vm_compute. exact Logic.I. Qed.
Lemma g_iface : exists ms, fa_iface g_facts !! (61 : tobj) = Some ms /\ dom g_store = dom ms.
Proof.
  assert (option_map dom (fa_iface g_facts !! (61 : tobj)) = Some (dom g_store)) as H by (apply (bool_decide_unpack _); vm_compute; exact Logic.I).
  revert H. generalize (fa_iface g_facts !! (61 : tobj)). intros [ms|]; [|discriminate]. intros E. exists ms. split; [reflexivity|]. by apply (inj Some) in E.
Qed.
Lemma g_iface' : fa_iface g_facts' = <[ 61 := g_store ]> (fa_iface g_facts).
Proof. reflexivity. Qed.
Lemma g_type : fa_type g_facts !! (55 : tobj) = Some (ErrorType {[ str "dep-full" ]} None).
Proof.
  assert (option_map et_field (fa_type g_facts !! (55 : tobj)) = Some None) as H1 by (vm_compute; reflexivity).
  assert (option_map et_codes (fa_type g_facts !! (55 : tobj)) = Some {[ str "dep-full" ]}) as H2 by (apply (bool_decide_unpack _); vm_compute; exact Logic.I).
  revert H1 H2. generalize (fa_type g_facts !! (55 : tobj)). intros [[x y]|]; cbn; [|discriminate]. by intros [= ->] [= ->].
Qed.
Lemma g_codes' : fa_codes g_facts' = <[ 72 := g_save ]> (<[ 54 := g_full ]> (fa_codes g_facts)).
Proof. reflexivity. Qed.
Lemma g_type' : fa_type g_facts' = <[ 55 := ErrorType g_more_codes None ]> (fa_type g_facts).
Proof. reflexivity. Qed.
Lemma g_closed_full : g_closed ⊆ g_full.
Proof. intros c Hc. apply elem_of_singleton in Hc as ->. unfold g_full. apply elem_of_union_l, elem_of_singleton. reflexivity. Qed.
Lemma g_save_more : ({[ str "dep-store" ]} : codeset) ⊆ g_save.
Proof. intros c Hc. apply elem_of_singleton in Hc as ->. unfold g_save. apply elem_of_union_l, elem_of_singleton. reflexivity. Qed.
Lemma g_full_more : ({[ str "dep-full" ]} : codeset) ⊆ g_more_codes.
Proof. intros c Hc. apply elem_of_singleton in Hc as ->. unfold g_more_codes. apply elem_of_union_l, elem_of_singleton. reflexivity. Qed.
Lemma g_not_empty : g_more_codes = ∅ <-> ({[ str "dep-full" ]} : codeset) = ∅.
Proof. split; intros H; exfalso; apply (f_equal (fun s => bool_decide (s = ∅))) in H; vm_compute in H; discriminate. Qed.
Lemma g_more : declares_more g_facts g_facts'.
Proof.
  pose proof g_codes as H. pose proof g_codes_save as Hs. pose proof g_codes' as H'. pose proof g_type as T. pose proof g_type' as T'.
  pose proof g_iface as I. pose proof g_iface' as I'.
  assert (fa_ctor g_facts' = fa_ctor g_facts) as E1 by reflexivity. unfold declares_more, same_but_codes. rewrite E1, H', T', I'. clear E1 H' T' I'.
  pose proof g_closed_full as S1. pose proof g_full_more as S2. pose proof g_not_empty as S3. pose proof g_save_more as S4. revert H Hs T I S1 S2 S3 S4.
  generalize (fa_codes g_facts) (fa_type g_facts) (fa_iface g_facts) g_store g_save g_full g_closed g_more_codes ({[ str "dep-full" ]} : codeset) ({[ str "dep-store" ]} : codeset).
  intros m t i store save full closed more one old H Hs T [ms [I1 I2]] S1 S2 S3 S4.
  assert (forall o : tobj, (o = 72 /\ m !! o = Some old /\ (<[72:=save]> (<[54:=full]> m)) !! o = Some save) \/
    (o = 54 /\ m !! o = Some closed /\ (<[72:=save]> (<[54:=full]> m)) !! o = Some full) \/ (<[72:=save]> (<[54:=full]> m)) !! o = m !! o) as Hm.
  { intros o. destruct (decide (o = (72 : tobj))) as [->|H1]; [left; by rewrite lookup_insert|]. rewrite lookup_insert_ne by congruence.
    destruct (decide (o = (54 : tobj))) as [->|H2]; [right; left; by rewrite lookup_insert|]. rewrite lookup_insert_ne by congruence. by right; right. }
  split; [|split]; [split; [reflexivity|split; [|split]]| |]; intros o.
  - destruct (decide (o = (61 : tobj))) as [->|Ho]; [rewrite lookup_insert, I1; by constructor|]. rewrite lookup_insert_ne by congruence.
    destruct (i !! o); by constructor.
  - destruct (Hm o) as [(->&E1&E2)|[(->&E1&E2)| ->]]; [rewrite E1, E2; split; intros _; eauto..|done].
  - destruct (decide (o = (55 : tobj))) as [->|Ho]; [rewrite lookup_insert, T; constructor; split; done|]. rewrite lookup_insert_ne by congruence.
    destruct (t !! o) as [e|]; constructor. done.
  - intros s s'. destruct (Hm o) as [(->&E1&E2)|[(->&E1&E2)| ->]].
    + rewrite E1, E2. intros [= <-] [= <-]. exact S4.
    + rewrite E1, E2. intros [= <-] [= <-]. exact S1.
    + by intros -> [= <-].
  - intros s s'. destruct (decide (o = (55 : tobj))) as [->|Ho].
    + rewrite T, lookup_insert. intros [= <-] [= <-]. exact S2.
    + rewrite lookup_insert_ne by congruence. by intros -> [= <-].
Qed.
(** Fill (function 4) returns a value of type growdep.Full (object 55); Put (function 2) returns the errors of put (3), which returns those of growdep.Write (object 54). *)
Lemma g_usable : usable_from t_grow (collectFunctions t_grow) (facts_during t_grow g_ord g_run) 2.
Proof. apply usable_from_spec. vm_compute. reflexivity. Qed.
Lemma g_agree c : agree_from t_grow (collectFunctions t_grow) (facts_during t_grow g_ord g_run) 2 c.
Proof. apply agree_from_spec. vm_compute. reflexivity. Qed.
Lemma g_usable_fill : usable_from t_grow (collectFunctions t_grow) (facts_during t_grow g_ord g_run) 4.
Proof. apply usable_from_spec. vm_compute. reflexivity. Qed.
Lemma g_agree_fill c : agree_from t_grow (collectFunctions t_grow) (facts_during t_grow g_ord g_run) 4 c.
Proof. apply agree_from_spec. vm_compute. reflexivity. Qed.
Lemma g_found_fill : e_found (r_loop g_run) !! 4 = Some {[ str "dep-full" ]}.
Proof. apply (bool_decide_unpack _). vm_compute. exact Logic.I. Qed.
Lemma g_found_fill' : e_found (r_loop g_run') !! 4 = Some g_more_codes.
Proof. apply (bool_decide_unpack _). vm_compute. exact Logic.I. Qed.
Lemma g_new_fill : str "dep-over" ∉ ({[ str "dep-full" ]} : codeset).
Proof. intros H%elem_of_singleton. discriminate H. Qed.
Lemma g_new_fill' : str "dep-over" ∈ g_more_codes.
Proof. unfold g_more_codes. apply elem_of_union_r, elem_of_singleton. reflexivity. Qed.
Lemma g_cycle : no_literal_cycle t_grow (collectFunctions t_grow).
Proof. apply cycle_check_spec. vm_compute. reflexivity. Qed.
Lemma g_found : e_found (r_loop g_run) !! 2 = Some g_closed.
Proof. apply (bool_decide_unpack _). vm_compute. exact Logic.I. Qed.
Lemma g_found' : e_found (r_loop g_run') !! 2 = Some g_full.
Proof. apply (bool_decide_unpack _). vm_compute. exact Logic.I. Qed.
Lemma g_new : str "dep-broken" ∉ g_closed.
Proof. unfold g_closed. intros H%elem_of_singleton. discriminate H. Qed.
Lemma g_new' : str "dep-broken" ∈ g_full.
Proof. unfold g_full. apply elem_of_union_r, elem_of_singleton. reflexivity. Qed.
Theorem C49_example :
  r_diags g_dep_run = [] /\ r_diags g_run = [] /\ declares_more g_facts g_facts' /\ interfaces_ok t_grow /\ distinct_definitions t_grow /\
  g_closed ⊆ g_full /\
  newly_declared (str "dep-broken") g_facts g_facts' /\ newly_declared (str "dep-over") g_facts g_facts' /\
  (r_diags g_run') = [Diag 57 (str "function ""Fill"" has a mismatch of declared and actual error codes: missing codes: [dep-over]");
    Diag 30 (str "function ""Put"" has a mismatch of declared and actual error codes: missing codes: [dep-broken]");
    Diag 80 (str "function ""Keep"" has a mismatch of declared and actual error codes: missing codes: [dep-quota]");
    Diag 6 (str "function ""Copy"" has a mismatch of declared and actual error codes: missing codes: [dep-broken]")].
Proof.
  assert (interfaces_ok t_grow) as Hi by (apply (interfaces_check_spec t_grow t_grow_rank); vm_compute; reflexivity).
  assert (distinct_definitions t_grow) as Hd by (apply definitions_check_spec; vm_compute; reflexivity).
  split_and!.
  - vm_compute. reflexivity.
  - vm_compute. reflexivity.
  - exact g_more.
  - exact Hi.
  - exact Hd.
  - exact (C49_more t_grow false g_ord g_ord' g_facts g_facts' g_run g_run' g_orders g_orders' Hi Hd g_cycle g_completes g_completes' 2 _ _ g_more g_usable g_agree g_found g_found').
  - exact (C49_new t_grow false g_ord g_ord' g_facts g_facts' g_run g_run' 2 _ _ (str "dep-broken") g_orders g_orders' Hi Hd g_cycle g_completes g_completes' (proj1 g_more) g_usable (g_agree _) g_found g_found' g_new g_new').
  - exact (C49_new t_grow false g_ord g_ord' g_facts g_facts' g_run g_run' 4 _ _ (str "dep-over") g_orders g_orders' Hi Hd g_cycle g_completes g_completes' (proj1 g_more) g_usable_fill (g_agree_fill _) g_found_fill g_found_fill' g_new_fill g_new_fill').
  - vm_compute. reflexivity.
Qed.
(** C49_update applies to this pair of runs: what is said about Put is that its documentation lacks dep-broken. *)
Theorem C49_example_update : exists ds vs rest, NoDup ds /\ (forall f, f ∈ ds <-> declared_function t_grow f) /\
  Forall2 (fun f v => f = 2 -> updated_verdict t_grow g_ord' g_facts g_facts' g_run' f v) ds vs /\ r_diags g_run' ≡ₚ rest ++ concat vs.
Proof.
  destruct C49_example as (_&H&_&Hi&Hd&_).
  destruct (C49_update t_grow false g_ord g_ord' g_facts g_facts' g_run g_run' g_orders g_orders' Hi Hd g_cycle g_completes g_completes' H g_more) as (ds&vs&rest&H1&H2&H3&H4).
  exists ds, vs, rest. split; [exact H1|]. split; [exact H2|]. split; [|exact H4].
  eapply Forall2_impl; [exact H3|]. cbn beta. intros f v Hv ->. exact (Hv g_usable g_agree).
Qed.
