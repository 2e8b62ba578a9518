(** * C48: what editing the bodies of functions may change. *)
From Coq Require Import Ascii String.
From stdpp Require Import base list gmap relations sets sorting.
From Verif Require Import GoString ErrorCode Scc Engine SpecEngine CodeSet CodeSetProofs Annotation Constant GoAst Taint Extract Analyse SpecCodes SpecTaint
  SpecMessages SpecMay SpecProgram SpecLocal SpecClaims SpecInterfaces SpecCodeMethod Phase ErrorTypes Claims Interfaces Conversions Verify SpecRun SpecEnd
  MainLoop EngineProofs ExprProofs ObserveProofs FactProofs ClaimsProofs RunProofs PropFacts CheckEngine RunChecks PropOrder LocalProofs PropLocal PropClaims ArrangeProofs ArrangePhases PropInterfaces PropRedoc SpecEdit EditProofs EditPhases.
Local Open Scope list_scope.

(** ** Plans that agree on part of the program *)
Section part.
Context (p p' : fid -> eff diag) (U : fid -> Prop).
Context (Hal : forall f, U f -> alike (p f) (p' f)) (Hcl : forall f g, U f -> calls p f g -> U g).
Lemma part_calls f g : U f -> calls p f g <-> calls p' f g.
Proof. intros Hf. apply (proj1 (Hal f Hf) (fun e => g ∈ call_list e)). apply additive_calls. Qed.
Lemma part_reaches f g : U f -> reaches p f g -> U g /\ reaches p' f g.
Proof.
  intros Hf H. revert Hf. induction H as [x|x y z Hs _ IH]; intros Hx; [split; [done|apply rtc_refl]|].
  destruct (IH (Hcl _ _ Hx Hs)) as [? ?]. split; [done|]. eapply rtc_l; [by apply part_calls|done].
Qed.
Lemma part_may f c : U f -> may p f c -> may p' f c.
Proof.
  assert ((forall f c, may p f c -> U f -> may p' f c) /\ (forall e c, from p e c -> (forall g, g ∈ call_list e -> U g) -> from p' e c)) as [G _]; [|intros ? ?; by apply G].
  apply may_from_ind.
  - intros f0 c0 _ IH Hf. apply may_own. apply (proj1 (Hal f0 Hf) (fun e => from p' e c0) (additive_from p' c0)). apply IH. intros g Hg. by apply (Hcl f0).
  - intros f0 g c0 [H1 H2] _ IH Hf. destruct (part_reaches f0 g Hf H1) as [Hg H1']. destruct (part_reaches g f0 Hg H2) as [_ H2'].
    eapply may_recursive; [by split|by apply IH].
  - intros s c0 Hs _. by apply from_set.
  - intros a b c0 _ IH Hu. apply from_union_l, IH. intros g Hg. apply Hu. cbn. set_solver.
  - intros a b c0 _ IH Hu. apply from_union_r, IH. intros g Hg. apply Hu. cbn. set_solver.
  - intros a s c0 _ IH Hs Hu. apply from_diff; [|done]. by apply IH.
  - intros g c0 _ IH Hu. apply from_call, IH, Hu. cbn. set_solver.
  - intros g c0 _ IH Hu. apply from_direct, IH, Hu. cbn. set_solver.
Qed.
End part.

Lemma ctor_during (q : package) o1 r1 : fa_ctor (facts_during q o1 r1) = fa_ctor (facts_after q o1 r1).
Proof. unfold facts_after. by rewrite export_codes_fields. Qed.

(** ** If only bodies are edited *)
Section bodies.
Context (pk : package) (funcs' : gmap fid func) (top' : list topdecl) (strict : bool) (ord ord' : orders) (fa : facts) (r r' : run).
Notation pk' := (with_bodies funcs' top' pk).
Notation lk := (collectFunctions pk).
Notation lk' := (collectFunctions pk').
Context (Hheads : same_headers pk funcs') (Hem : forall f, error_method pk f -> untouched pk funcs' f).
Context (Hord : orders_ok lk ord) (Hord' : orders_ok lk' ord') (Hok : interfaces_ok pk) (Hdd : distinct_definitions pk).
Lemma headers_signatures : same_signatures pk funcs'.
Proof. intros f Hf. destruct (Hheads f Hf) as (fn&fn'&E&E'&Hp&Hd&Ht). exists fn, fn'. split_and!; [done|done|]. split_and!; [done|done|by rewrite Hd]. Qed.
Context (Hr : prepared pk strict ord fa r) (Hr' : prepared pk' strict ord' fa r').
Lemma facts_after_bodies : facts_after pk' ord' r' = facts_after pk ord r.
Proof.
  assert (orders_ok lk ord') as Ho by (rewrite <-(collect_edit pk funcs' top' headers_signatures); exact Hord').
  pose proof (prepared_edit pk funcs' top' headers_signatures Hem strict fa Hheads ord' r' Ho Hr') as Hb.
  rewrite (after_edit pk funcs' top' headers_signatures Hem strict fa ord' r' Ho Hb). symmetry.
  exact (after_same pk strict fa Hok Hdd ord ord' r r' Hord Ho Hr Hb).
Qed.
End bodies.

Section edit.
Context (pk : package) (funcs' : gmap fid func) (top' : list topdecl) (strict : bool) (ord ord' : orders) (fa : facts) (r r' : run).
Notation pk' := (with_bodies funcs' top' pk).
Notation lk := (collectFunctions pk).
Notation lk' := (collectFunctions pk').
Context (Hh : same_signatures pk funcs') (Hem : forall f, error_method pk f -> untouched pk funcs' f).
Context (Hord : orders_ok lk ord) (Hord' : orders_ok lk' ord') (Hok : interfaces_ok pk) (Hdd : distinct_definitions pk) (Hdd' : distinct_definitions pk').
Context (Hpos : forall o p, declares_position pk o p <-> declares_position pk' o p).
Lemma orders_edit : orders_ok lk ord'.
Proof. rewrite <-(collect_edit pk funcs' top' Hh). exact Hord'. Qed.
Section before.
Context (Hr : prepared pk strict ord fa r) (Hr' : prepared pk' strict ord' fa r').
Lemma types_agree : r_types r' = r_types r /\ r_d1 r' = r_d1 r.
Proof.
  pose proof (pr_types _ _ _ _ _ Hr) as H. pose proof (pr_types _ _ _ _ _ Hr') as H'.
  rewrite (collect_edit pk funcs' top' Hh), (types_edit pk funcs' top' Hh Hem), H in H'. by injection H' as -> ->.
Qed.
Lemma ifaces_agree : r_ifaces r' = r_ifaces r /\ r_d2 r ≡ₚ r_d2 r'.
Proof.
  pose proof (pr_ifaces _ _ _ _ _ Hr) as H. pose proof (pr_ifaces _ _ _ _ _ Hr') as H'. rewrite (proj1 types_agree) in H'.
  change (findErrorReturningInterfaces pk (r_types r) (or_embedded ord') (or_embedding ord') = Ok (r_ifaces r', r_d2 r')) in H'.
  pose proof (C27_order_independent pk (r_types r) _ _ _ _ Hok (ok_embedded _ _ Hord) (ok_embedded _ _ Hord') (ok_embedding _ _ Hord) (ok_embedding _ _ Hord')) as HI.
  rewrite H, H' in HI. destruct HI as [-> HI]. done.
Qed.
Lemma funcs_agree : r_funcs r ≡ₚ r_funcs r' /\ r_d3 r ≡ₚ r_d3 r'.
Proof.
  pose proof (pr_funcs _ _ _ _ _ Hr) as H. pose proof (funcs_edit pk funcs' top' Hh Hem ord' r' orders_edit (pr_funcs _ _ _ _ _ Hr')) as H'.
  apply find_returning in H as (_&->&->), H' as (_&->&->).
  assert (or_each ord ≡ₚ or_each ord') as He by (by rewrite (ok_each _ _ Hord), (ok_each _ _ orders_edit)). split; by rewrite He.
Qed.
Lemma funcs_declared f : f ∈ r_funcs r -> f ∈ pk_decls pk.
Proof. exact (funcs_decl pk funcs' Hh Hem ord r f Hord (pr_funcs _ _ _ _ _ Hr)). Qed.
Lemma claims_agree f : untouched pk funcs' f -> r_claims r' !! f = r_claims r !! f.
Proof.
  intros [Hf _]. pose proof (pr_claims _ _ _ _ _ Hr) as (_&C&_)%find_claims. pose proof (pr_claims _ _ _ _ _ Hr') as (_&C'&_)%find_claims. rewrite C, C'.
  assert (func_claim pk' f = func_claim pk f) as -> by (unfold func_claim; cbn [with_bodies pk_funcs]; rewrite Hf; reflexivity).
  destruct (decide (f ∈ r_funcs r)) as [Hi|Hi]; [rewrite decide_True; [done|]|rewrite decide_False; [done|]]; by rewrite <-(proj1 funcs_agree).
Qed.
Lemma facts_during_edit : facts_during pk' ord' r' = facts_during pk ord r.
Proof.
  assert (fa_ctor (facts_during pk' ord' r') = fa_ctor (facts_during pk ord r)) as Hc.
  { rewrite !ctor_during. apply map_eq. intros o. apply option_eq. intros p.
    rewrite (C30_constructor_facts pk strict ord fa r Hr Hord Hdd). rewrite (C30_constructor_facts pk' strict ord' fa r' Hr' Hord' Hdd'). by setoid_rewrite Hpos. }
  destruct (prepared_other pk strict fa Hok ord ord' r Hord orders_edit Hr) as [r2 H2].
  pose proof (during_same pk strict fa Hok Hdd ord ord' r r2 Hord orders_edit Hr H2) as E.
  destruct (prepared_agree pk strict fa Hok ord ord' r r2 Hord orders_edit Hr H2) as [A1 A2 _ _ _ _ _].
  revert Hc. rewrite E. unfold facts_during. rewrite !export_ctor_fields, !export_interfaces_fields. cbn [fa_codes fa_ctor fa_type fa_iface].
  rewrite A1, A2, (proj1 types_agree), (proj1 ifaces_agree). intros ->. reflexivity.
Qed.
Lemma after_rest : fa_ctor (facts_after pk' ord' r') = fa_ctor (facts_after pk ord r) /\ fa_type (facts_after pk' ord' r') = fa_type (facts_after pk ord r) /\
  fa_iface (facts_after pk' ord' r') = fa_iface (facts_after pk ord r).
Proof. unfold facts_after. rewrite facts_during_edit, !export_codes_fields. done. Qed.
Lemma objects_distinct (q : package) : distinct_definitions q -> distinct_objects q.
Proof. intros H f g o Hf Hg. by injection (H (DFunc f) (DFunc g) o Hf Hg). Qed.
Lemma codes_at (q : package) o1 r1 f o s : orders_ok (collectFunctions q) o1 -> prepared q strict o1 fa r1 -> distinct_definitions q -> object_of q f o ->
  fa_codes (facts_after q o1 r1) !! o = Some s <->
  (exists c, r_claims r1 !! f = Some c /\ s = cl_codes c) \/ (r_claims r1 !! f = None /\ fa_codes (facts_during q o1 r1) !! o = Some s).
Proof.
  intros Ho1 Hp Hq Ho. pose proof (objects_distinct q Hq) as Hd. unfold facts_after. rewrite (export_codes_lookup q Hd) by (intros g; by apply (claims_order q o1 r1 Ho1)). split.
  - intros [(g&c&Hc&Hg&->)|[Hn Hs]]; [left|right].
    + assert (g = f) as -> by (by apply (Hd g f o)). eauto.
    + split; [|done]. apply eq_None_not_Some. intros [c Hc]. apply Hn. eauto.
  - intros [(c&Hc&->)|[Hn Hs]]; [left; eauto|right]. split; [|done]. intros (g&c&Hc&Hg). assert (g = f) as -> by (by apply (Hd g f o)). congruence.
Qed.
Lemma codes_agree f o : f ∈ pk_decls pk -> untouched pk funcs' f -> object_of pk f o ->
  fa_codes (facts_after pk' ord' r') !! o = fa_codes (facts_after pk ord r) !! o.
Proof.
  intros Hd Hu Ho. assert (object_of pk' f o) as Ho' by (by apply (object_edit pk funcs' top' Hh f o Hd)). apply option_eq. intros s.
  rewrite (codes_at pk' ord' r' f o s Hord' Hr' Hdd' Ho'), (codes_at pk ord r f o s Hord Hr Hdd Ho), facts_during_edit, (claims_agree f Hu). done.
Qed.
End before.

Context (Hr : completes pk strict ord fa r) (Hr' : completes pk' strict ord' fa r').
Context (Hlit : no_literal_cycle pk lk) (Hlit' : no_literal_cycle pk' lk').
Notation fd := (facts_during pk ord r).
Notation fd' := (facts_during pk' ord' r').
Notation plan1 := (plan pk lk fd (or_tracked ord)).
Notation plan2 := (plan pk' lk' fd' (or_tracked ord')).
Notation found f := (e_found (r_loop r) !! f).
Notation found' f := (e_found (r_loop r') !! f).
Notation unaffected f := (unaffected pk funcs' f).

Lemma unaffected_self f : unaffected f -> untouched pk funcs' f.
Proof. intros H. apply H, rtc_refl. Qed.
Lemma unaffected_calls f g : unaffected f -> calls plan1 f g -> unaffected g.
Proof. intros H Hc h Hg. apply H. eapply rtc_l; [exact (local_mentions pk lk fd (or_tracked ord) f g Hc)|done]. Qed.
Lemma alike_edit f : untouched pk funcs' f -> alike (plan1 f) (plan2 f).
Proof.
  intros Hf. rewrite (facts_during_edit Hr Hr'). rewrite (collect_edit pk funcs' top' Hh). rewrite (plan_edit pk funcs' top' Hh fd _ f Hf).
  apply plan_alike. intros s. by rewrite (ok_tracked _ _ Hord), (ok_tracked _ _ Hord').
Qed.
Lemma unaffected_calls' f g : unaffected f -> calls plan2 f g -> unaffected g.
Proof. intros H Hc. apply (unaffected_calls f g H). eapply (part_calls plan1 plan2 (fun f => untouched pk funcs' f) alike_edit); [by apply unaffected_self|done]. Qed.
Lemma may_edit f c : unaffected f -> may plan1 f c <-> may plan2 f c.
Proof.
  intros Hf. split.
  - apply (part_may plan1 plan2 (fun f => unaffected f)); [|exact unaffected_calls|done]. intros g Hg. by apply alike_edit, unaffected_self.
  - apply (part_may plan2 plan1 (fun f => unaffected f)); [|exact unaffected_calls'|done]. intros g Hg. by apply alike_sym, alike_edit, unaffected_self.
Qed.
Lemma found_edit f s s' : unaffected f -> found f = Some s -> found' f = Some s' -> s' = s.
Proof.
  intros Hf Hs Hs'. apply set_eq. intros c.
  rewrite (proj1 (local_loop pk strict ord fa r Hord Hr Hlit) f s Hs c), (proj1 (local_loop pk' strict ord' fa r' Hord' Hr' Hlit') f s' Hs' c).
  symmetry. by apply may_edit.
Qed.
Lemma declared_edit f : untouched pk funcs' f -> declared_function pk' f <-> declared_function pk f.
Proof.
  intros Hu. rewrite <-(declared_todo pk strict ord fa r Hord Hr), <-(declared_todo pk' strict ord' fa r' Hord' Hr').
  rewrite (ok_claims _ _ Hord), (ok_claims _ _ Hord'), !elem_of_elements, !elem_of_dom. by rewrite (claims_agree Hr Hr' f Hu).
Qed.
End edit.

(** Whatever is written in the bodies of functions - except the methods of error types - the facts that the analysis of other packages
    depends on are the same: they come from declarations alone. *)
Theorem C48_facts pk funcs' top' strict ord ord' fa known diags known' diags' :
  same_headers pk funcs' -> (forall f, error_method pk f -> untouched pk funcs' f) ->
  orders_ok (collectFunctions pk) ord -> orders_ok (collectFunctions (with_bodies funcs' top' pk)) ord' ->
  interfaces_ok pk -> distinct_definitions pk ->
  runVerify pk strict ord fa = Ok (known, diags) -> runVerify (with_bodies funcs' top' pk) strict ord' fa = Ok (known', diags') ->
  known' = known.
Proof.
  intros Hh Hem Hord Hord' Hok Hdd (r&Hr&->&_)%runVerify_completes (r'&Hr'&->&_)%runVerify_completes.
  exact (facts_after_bodies pk funcs' top' strict ord ord' fa r r' Hh Hem Hord Hord' Hok Hdd Hr Hr').
Qed.
(** If documentation is rewritten, too - but no position of an error code parameter -, only the codes declared by the edited functions
    change. *)
Theorem C48_facts_documentation pk funcs' top' strict ord ord' fa known diags known' diags' :
  same_signatures pk funcs' -> (forall f, error_method pk f -> untouched pk funcs' f) ->
  orders_ok (collectFunctions pk) ord -> orders_ok (collectFunctions (with_bodies funcs' top' pk)) ord' ->
  interfaces_ok pk -> distinct_definitions pk -> distinct_definitions (with_bodies funcs' top' pk) ->
  (forall o p, declares_position pk o p <-> declares_position (with_bodies funcs' top' pk) o p) ->
  runVerify pk strict ord fa = Ok (known, diags) -> runVerify (with_bodies funcs' top' pk) strict ord' fa = Ok (known', diags') ->
  fa_ctor known' = fa_ctor known /\ fa_type known' = fa_type known /\ fa_iface known' = fa_iface known /\
  forall f o, f ∈ pk_decls pk -> untouched pk funcs' f -> object_of pk f o -> fa_codes known' !! o = fa_codes known !! o.
Proof.
  intros Hh Hem Hord Hord' Hok Hdd Hdd' Hpos (r&Hr&->&_)%runVerify_completes (r'&Hr'&->&_)%runVerify_completes.
  destruct (after_rest pk funcs' top' strict ord ord' fa r r' Hh Hem Hord Hord' Hok Hdd Hdd' Hpos Hr Hr') as (?&?&?). split_and!; [done..|].
  exact (codes_agree pk funcs' top' strict ord ord' fa r r' Hh Hem Hord Hord' Hok Hdd Hdd' Hpos Hr Hr').
Qed.

Section theorems.
Context (pk : package) (funcs' : gmap fid func) (top' : list topdecl) (strict : bool) (ord ord' : orders) (fa : facts) (r r' : run).
Notation pk' := (with_bodies funcs' top' pk).
Notation lk := (collectFunctions pk).
Notation lk' := (collectFunctions pk').
Context (Hh : same_signatures pk funcs') (Hem : forall f, error_method pk f -> untouched pk funcs' f).
Context (Hord : orders_ok lk ord) (Hord' : orders_ok lk' ord') (Hok : interfaces_ok pk) (Hdd : distinct_definitions pk) (Hdd' : distinct_definitions pk').
Context (Hpos : forall o p, declares_position pk o p <-> declares_position pk' o p).
Context (Hr : completes pk strict ord fa r) (Hr' : completes pk' strict ord' fa r').
Context (Hlit : no_literal_cycle pk lk) (Hlit' : no_literal_cycle pk' lk').

(** The same codes are found for a function that was not edited and does not mention, not even indirectly, an edited one. *)
Theorem C48_found f : declared_function pk f -> unaffected pk funcs' f ->
  exists s, e_found (r_loop r) !! f = Some s /\ e_found (r_loop r') !! f = Some s.
Proof.
  intros Hf Hu. destruct (C47_found pk strict ord fa r Hord Hr Hlit f Hf) as [s Hs].
  assert (declared_function pk' f) as Hf'.
  { apply (declared_edit pk funcs' top' strict ord ord' fa r r' Hh Hem Hord Hord' Hr Hr' f (unaffected_self pk funcs' f Hu)). exact Hf. }
  destruct (C47_found pk' strict ord' fa r' Hord' Hr' Hlit' f Hf') as [s' Hs'].
  pose proof (found_edit pk funcs' top' strict ord ord' fa r r' Hh Hem Hord Hord' Hok Hdd Hdd' Hpos Hr Hr' Hlit Hlit' f s s' Hu Hs Hs') as ->. by exists s.
Qed.

(** The diagnostics of both runs.  Those about types and signatures are the same; for a function that was not edited so is what is said about
    its documentation; for an unaffected function [g] (see above) so is what is said about its body, and the comparison of what was found
    for it with what it declares; [late] is about conversions to interfaces: see C48_conversions. *)
Theorem C48_diagnostics : NoDup (pk_decls pk) -> exists before before' es docs docs' fs fs' ds ds' verdict verdict' late late',
  r_diags r ≡ₚ before ++ (es ≫= docs) ++ (fs ≫= said_about pk ord r) ++ (ds ≫= verdict) ++ late /\
  r_diags r' ≡ₚ before' ++ (es ≫= docs') ++ (fs' ≫= said_about pk' ord' r') ++ (ds' ≫= verdict') ++ late' /\
  e_diags (r_end r) = e_diags (r_loop r) ++ late /\ e_diags (r_end r') = e_diags (r_loop r') ++ late' /\
  before ≡ₚ before' /\
  NoDup es /\ (forall f, f ∈ es <-> exists fn, known_function pk f fn /\ returns_error_last pk (fn_type fn)) /\
  (forall f fn, pk_funcs pk !! f = Some fn -> exists a b, exactly (doc_report pk fn) a /\ exactly (strict_report pk fn) b /\
    docs f = a ++ (if strict then b else [])) /\
  (forall f fn, funcs' !! f = Some fn -> exists a b, exactly (doc_report pk' fn) a /\ exactly (strict_report pk' fn) b /\
    docs' f = a ++ (if strict then b else [])) /\
  (forall f, untouched pk funcs' f -> docs f = docs' f) /\
  NoDup fs /\ NoDup fs' /\ NoDup ds /\ NoDup ds' /\
  (forall f, f ∈ ds <-> declared_function pk f) /\ (forall f, f ∈ ds' <-> declared_function pk' f) /\
  (forall f, untouched pk funcs' f -> declared_function pk f <-> declared_function pk' f) /\
  (forall f, f ∈ ds -> local_verdict pk ord r f (verdict f)) /\ (forall f, f ∈ ds' -> local_verdict pk' ord' r' f (verdict' f)) /\
  (forall f, f ∈ ds -> unaffected pk funcs' f -> verdict f = verdict' f) /\
  (forall f, declared_function pk f -> f ∈ fs) /\ (forall f, declared_function pk' f -> f ∈ fs') /\
  (forall g, unaffected pk funcs' g -> said_about pk ord r g ≡ₚ said_about pk' ord' r' g) /\
  (forall g, g ∈ fs -> g ∉ fs' -> exists f, declared_function pk f /\ ~ unaffected pk funcs' f /\ rtc (mentions_function pk lk) f g) /\
  (forall g, g ∈ fs' -> g ∉ fs -> exists f, declared_function pk' f /\ ~ unaffected pk funcs' f /\ rtc (mentions_function pk' lk') f g).
Proof.
  intros Hnodup. destruct (local_loop pk strict ord fa r Hord Hr Hlit) as (F1&_&fs&Hnd&Hfs&Hd). destruct (local_loop pk' strict ord' fa r' Hord' Hr' Hlit') as (F2&_&fs'&Hnd'&Hfs'&Hd').
  destruct (end_extends pk strict ord fa r Hr) as [late Hl]. destruct (end_extends pk' strict ord' fa r' Hr') as [late' Hl'].
  destruct (types_agree pk funcs' top' strict ord ord' fa r r' Hh Hem Hr Hr') as [_ E1].
  destruct (ifaces_agree pk funcs' top' strict ord ord' fa r r' Hh Hem Hord Hord' Hok Hr Hr') as [_ E2].
  destruct (funcs_agree pk funcs' top' strict ord ord' fa r r' Hh Hem Hord Hord' Hr Hr') as [Ef E3].
  pose proof (pr_claims _ _ _ _ _ Hr) as (_&_&E4)%find_claims. pose proof (pr_claims _ _ _ _ _ Hr') as (_&_&E4')%find_claims.
  assert (forall f, untouched pk funcs' f -> declared_function pk f <-> declared_function pk' f) as Hdecl.
  { intros f Hu. symmetry. exact (declared_edit pk funcs' top' strict ord ord' fa r r' Hh Hem Hord Hord' Hr Hr' f Hu). }
  pose proof (declared_todo pk strict ord fa r Hord Hr) as Hds. pose proof (declared_todo pk' strict ord' fa r' Hord' Hr') as Hds'.
  set (ds := or_claims ord 1 (dom (r_claims r))) in *. set (ds' := or_claims ord' 1 (dom (r_claims r'))) in *.
  set (verdict := fun f => mismatch_diag pk (r_claims r) f (default ∅ (e_found (r_loop r) !! f))).
  set (verdict' := fun f => mismatch_diag pk' (r_claims r') f (default ∅ (e_found (r_loop r') !! f))).
  exists (r_d1 r ++ r_d2 r ++ r_d3 r), (r_d1 r' ++ r_d2 r' ++ r_d3 r'), (r_funcs r), (func_diags pk strict), (func_diags pk' strict), fs, fs', ds, ds', verdict, verdict', late, late'.
  split_and!.
  - unfold r_diags. rewrite Hl, Hd, E4. rewrite <-!app_assoc. reflexivity.
  - unfold r_diags. rewrite Hl', Hd', E4'. rewrite <-!app_assoc. do 3 apply Permutation_app_head. apply Permutation_app_tail. apply bind_perm. symmetry. exact Ef.
  - exact Hl.
  - exact Hl'.
  - rewrite E1, E2, E3. done.
  - pose proof (pr_funcs _ _ _ _ _ Hr) as (_&->&_)%find_returning. apply NoDup_filter. rewrite (ok_each _ _ Hord). by apply known_nodup.
  - exact (run_funcs _ _ _ _ _ Hr Hord).
  - intros f fn Hf. exists (claim_diags pk fn), (strict_diags pk fn). split_and!; [apply claim_diags_spec|apply strict_diags_spec|]. unfold func_diags. by rewrite Hf.
  - intros f fn Hf. exists (claim_diags pk' fn), (strict_diags pk' fn). split_and!; [apply claim_diags_spec|apply strict_diags_spec|].
    unfold func_diags. cbn [with_bodies pk_funcs]. by rewrite Hf.
  - intros f [Hf _]. unfold func_diags. cbn [with_bodies pk_funcs]. rewrite Hf. reflexivity.
  - done.
  - done.
  - unfold ds. rewrite (ok_claims _ _ Hord). apply NoDup_elements.
  - unfold ds'. rewrite (ok_claims _ _ Hord'). apply NoDup_elements.
  - exact Hds.
  - exact Hds'.
  - exact Hdecl.
  - intros f Hf. apply (local_mismatch pk strict ord fa r Hord Hr Hlit). by apply Hds.
  - intros f Hf. apply (local_mismatch pk' strict ord' fa r' Hord' Hr' Hlit'). by apply Hds'.
  - intros f Hf Hu. destruct (C48_found f (proj1 (Hds f) Hf) Hu) as (s&Hs&Hs'). unfold verdict, verdict'. rewrite Hs, Hs'. unfold mismatch_diag. cbn [with_bodies pk_funcs].
    rewrite (proj1 (unaffected_self pk funcs' f Hu)).
    by rewrite (claims_agree pk funcs' top' strict ord ord' fa r r' Hh Hem Hord Hord' Hr Hr' f (unaffected_self pk funcs' f Hu)).
  - intros f Hf. apply Hfs. exists f. split; [by apply Hds|apply rtc_refl].
  - intros f Hf. apply Hfs'. exists f. split; [by apply Hds'|apply rtc_refl].
  - intros g Hu. pose proof (alike_edit pk funcs' top' strict ord ord' fa r r' Hh Hem Hord Hord' Hok Hdd Hdd' Hpos Hr Hr' g (unaffected_self pk funcs' g Hu)) as [_ H]. exact H.
  - intros g Hg Hn. apply Hfs in Hg as (f&Hf&Hg). apply Hds in Hf. exists f. split_and!; [done| |].
    + intros Hu. apply Hn, Hfs'. exists f. split; [by apply Hds', Hdecl; [apply unaffected_self|]|].
      eapply (part_reaches _ _ (fun f => unaffected pk funcs' f)); [| |exact Hu|exact Hg].
      * intros x Hx. apply (alike_edit pk funcs' top' strict ord ord' fa r r' Hh Hem Hord Hord' Hok Hdd Hdd' Hpos Hr Hr'). by apply unaffected_self.
      * intros x y. apply (unaffected_calls pk funcs' ord r).
    + clear -Hg. induction Hg as [|x y z H _ IH]; [apply rtc_refl|]. eapply rtc_l; [by eapply local_mentions|done].
  - intros g Hg Hn. apply Hfs' in Hg as (f&Hf&Hg). apply Hds' in Hf. exists f. split_and!; [done| |].
    + intros Hu. apply Hn, Hfs. exists f. split; [by apply Hds, Hdecl; [apply unaffected_self|]|].
      eapply (part_reaches _ _ (fun f => unaffected pk funcs' f)); [| |exact Hu|exact Hg].
      * intros x Hx. apply alike_sym, (alike_edit pk funcs' top' strict ord ord' fa r r' Hh Hem Hord Hord' Hok Hdd Hdd' Hpos Hr Hr'). by apply unaffected_self.
      * intros x y. apply (unaffected_calls' pk funcs' top' strict ord ord' fa r r'); done.
    + clear -Hg. induction Hg as [|x y z H _ IH]; [apply rtc_refl|]. eapply rtc_l; [by eapply local_mentions|done].
Qed.
End theorems.
