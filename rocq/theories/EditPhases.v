(** * C48: the phases before the analysis of functions, after the bodies of some functions have been edited. *)
From Coq Require Import Ascii String.
From stdpp Require Import base list gmap relations sets.
From Verif Require Import GoString ErrorCode Scc Engine CodeSet Annotation Constant GoAst Taint Extract Analyse Phase ErrorTypes Claims Interfaces Conversions
  Verify SpecCodes SpecTaint SpecRun SpecClaims SpecInterfaces SpecCodeMethod SpecLocal PhaseProofs ClaimsProofs FactProofs RunProofs InterfacesProofs
  PropInterfaces PropFacts PropOrder PropErrorTypes ArrangeProofs ArrangePhases SpecEdit EditProofs.

Lemma fold_phase_in {A S} (f g : S -> A -> phase S) s l : (forall s a, a ∈ l -> f s a = g s a) -> pfold f s l = pfold g s l.
Proof.
  revert s. induction l as [|a l IH]; intros s H; [exact (eq_refl (pret s))|]. cbn [pfold]. rewrite H by (by left). destruct (g s a) as [[s' d]| |]; cbn [pbind]; [|done|done].
  rewrite IH; [done|]. intros s1 b Hb. apply H. by right.
Qed.

Section types.
Context (pk : package) (funcs' : gmap fid func) (top' : list topdecl).
Notation pk' := (with_bodies funcs' top' pk).
Notation info := (pk_info pk).
Notation lk := (collectFunctions pk).
Context (Hh : same_signatures pk funcs').

Lemma receiver_field_edit f : f ∈ pk_decls pk -> receiver_field pk' f = receiver_field pk f.
Proof.
  intros Hf. destruct (Hh f Hf) as (fn&fn'&E&E'&Hs). unfold receiver_field. cbn [with_bodies pk_funcs]. rewrite E, E'.
  exact (signature_fields fn fn' (fun p => match p.2 with Some (x :: _) => Some x | _ => None end) None Hs).
Qed.
Lemma method_of_edit err f : f ∈ pk_decls pk -> is_method_of pk' err f = is_method_of pk err f.
Proof. intros Hf. unfold is_method_of. by rewrite receiver_field_edit. Qed.
Lemma receiver_ident_edit f : f ∈ pk_decls pk -> receiver_ident pk' f = receiver_ident pk f.
Proof. intros Hf. unfold receiver_ident. by rewrite receiver_field_edit. Qed.
Lemma named_decl name f : f ∈ default [] (lk_methods lk !! name) -> f ∈ pk_decls pk.
Proof. rewrite methods_named. by intros [_ H]%elem_of_list_filter. Qed.
Lemma code_func_edit err : getCodeFuncFromError pk' lk err = getCodeFuncFromError pk lk err.
Proof.
  unfold getCodeFuncFromError. destruct (lk_methods lk !! str "Code") as [l|] eqn:El; [|done].
  assert (forall f, f ∈ l -> f ∈ pk_decls pk) as Hl. { intros f Hf. apply (named_decl (str "Code")). by rewrite El. }
  rewrite (list_find_same (fun f => is_method_of pk' err f = true) (fun f => is_method_of pk err f = true) l).
  2: { intros f Hf. rewrite method_of_edit by (by apply Hl). done. }
  destruct (list_find _ l) as [[k f]|] eqn:E; [|done]. cbn. rewrite receiver_ident_edit; [done|].
  apply Hl. apply list_find_Some in E as (E&_&_). by eapply elem_of_list_lookup_2.
Qed.
Lemma methods_edit err : collectMethodsForErrorType pk' lk err = collectMethodsForErrorType pk lk err.
Proof.
  unfold collectMethodsForErrorType. destruct (getNamedType err) as [n|]; [|done]. change (pk_info pk') with info.
  induction (ti_named_methods info n) as [|name l IH]; [done|]. cbn [flat_map]. rewrite IH. f_equal.
  pose proof (named_decl name) as Hd. induction (default [] (lk_methods lk !! name)) as [|f k IHk]; [done|]. cbn [List.filter].
  rewrite method_of_edit by (apply Hd; by left). rewrite IHk; [done|]. intros g Hg. apply Hd. by right.
Qed.
Lemma type_methods_edit fa et err : (forall f, f ∈ collectMethodsForErrorType pk lk err -> untouched pk funcs' f) ->
  analyseMethodsOfErrorType pk' lk fa et err = analyseMethodsOfErrorType pk lk fa et err.
Proof.
  intros Hu. unfold analyseMethodsOfErrorType. destruct (et_field et); [|done]. rewrite methods_edit.
  rewrite (fold_phase_in _ (fun assigned f => match receiver_ident pk f with
      | None => pret assigned
      | Some r => match pk_funcs pk !! f, i_obj r with
          | Some fn, Some o => pbind (eff_result (findCodesAssignedToErrorCodeField pk fa fn (Some et) o)) (fun new => pret (assigned ∪ new))
          | _, _ => pret assigned end end)); [done|].
  intros s f Hf. assert (f ∈ pk_decls pk) as Hd by (by apply methods_of_type in Hf as (?&?&_&_&?&_)).
  rewrite receiver_ident_edit by done. destruct (receiver_ident pk f) as [r|]; [|done]. cbn [with_bodies pk_funcs]. rewrite (proj1 (Hu f Hf)). reflexivity.
Qed.

Section function.
Context (fn : func) (Hlits : forall n g, n ∈ body_nodes fn -> as_funclit n = Some g -> funcs' !! g = pk_funcs pk !! g).
Lemma ident_taint_edit rec rec' i st : (forall n st, rec n st = rec' n st) ->
  analyseReturnedIdentTaint pk' fn rec i st = analyseReturnedIdentTaint pk fn rec' i st.
Proof.
  intros H. unfold analyseReturnedIdentTaint. rewrite (taint_edit pk funcs' top' fn Hlits). cbv zeta. destruct (negb _); [done|].
  destruct (peach _ _) as [[? ?]| |]; cbn [pbind]; [|done|done]. destruct (peach _ _) as [[? ?]| |]; cbn [pbind]; [|done|done].
  rewrite (fold_phase_same _ (fun st e => rec' e st)); [done|]. intros; apply H.
Qed.
Lemma expression_edit r k n st : analyseReturnedExpression pk' fn r k n st = analyseReturnedExpression pk fn r k n st.
Proof.
  revert n st. induction k as [|k IH]; intros n st; [done|]. cbn [analyseReturnedExpression]. cbv zeta.
  change (pk_info pk') with (pk_info pk).
  destruct (ti_value (pk_info pk) (node_id (unparen n))) as [v|]; [done|].
  match goal with |- match ?x with _ => _ end = _ => destruct x as [sel|] end; [done|].
  destruct (as_ident (unparen n)) as [i|]; [|done]. by apply ident_taint_edit.
Qed.
Lemma returned_edit r st n : analyse_return pk' fn r st n = analyse_return pk fn r st n.
Proof.
  unfold analyse_return. destruct (node_kids n) as [|e [|]]; [|apply expression_edit|done]. unfold analyseNamedReturn.
  destruct (ft_results (fn_type fn)) as [[|f [|]]|]; [done| |done|done]. destruct (f_names f) as [|i [|]]; [done| |done].
  apply ident_taint_edit. intros. apply expression_edit.
Qed.
Lemma code_method_edit r t : analyseCodeMethod pk' fn r t = analyseCodeMethod pk fn r t.
Proof. unfold analyseCodeMethod. rewrite (fold_phase_same _ (analyse_return pk fn r)); [done|]. intros. apply returned_edit. Qed.
End function.

Lemma tag_type_edit fa err t : (forall f, method_for pk err f -> untouched pk funcs' f) -> tagErrorType pk' lk fa err t = tagErrorType pk lk fa err t.
Proof.
  intros Hu. unfold tagErrorType. destruct (getNamedType err) as [n|]; [|done]. rewrite code_func_edit. change (pk_info pk') with info.
  destruct (getCodeFuncFromError pk lk err) as [[f r]|] eqn:Ec; [|reflexivity].
  apply code_func_some in Ec as ((?&?&_&_&Hm&_)&_&_). destruct (Hu f Hm) as [Ef Hl].
  cbn [with_bodies pk_funcs]. rewrite Ef. destruct (pk_funcs pk !! f) as [fn|] eqn:Hf; [|reflexivity].
  rewrite (code_method_edit fn) by (intros m g; by apply Hl). destruct (analyseCodeMethod pk fn r t) as [[[et|] d]| |]; cbn [pbind]; [|reflexivity..].
  rewrite type_methods_edit; [reflexivity|]. intros g Hg. apply Hu. by apply methods_of_type in Hg as (?&?&_&_&_&_&?).
Qed.
Context (Hem : forall f, error_method pk f -> untouched pk funcs' f).
Lemma types_edit fa : findAndTagErrorTypes pk' lk fa = findAndTagErrorTypes pk lk fa.
Proof.
  unfold findAndTagErrorTypes. change (pk_gendecls pk') with (pk_gendecls pk). apply fold_phase_in. intros s g Hg. apply fold_phase_in. intros s1 spec Hs.
  unfold tag_spec. destruct spec as [t|]; [|reflexivity]. change (pk_info pk') with info. destruct (ti_defs info (i_id (tsp_name t))) as [o|] eqn:Eo; [|reflexivity].
  cbn zeta. destruct (if ti_implements_ree info (ti_objtype info o) then _ else _) as [err|] eqn:Ee; [|reflexivity]. rewrite tag_type_edit; [reflexivity|].
  intros f Hf. apply Hem. exists g, t, err. split_and!; [done|done| |done]. exists o. split; [done|].
  destruct (ti_implements_ree info (ti_objtype info o)); [left; by injection Ee as <-|right].
  destruct (ti_implements_ree info (TPointer (ti_objtype info o))); [|done]. by injection Ee as <-.
Qed.

(** ** Signatures, documentation and definitions *)
Lemma known_decl f : f ∈ lookup_all lk -> f ∈ pk_decls pk.
Proof. intros (fn&?&?&E&_)%known_spec. rewrite E. set_solver. Qed.
Lemma returns_edit f : f ∈ pk_decls pk -> returns_error pk' f = returns_error pk f /\ result_reports pk' f = result_reports pk f.
Proof.
  intros Hf. destruct (Hh f Hf) as (fn&fn'&E&E'&_&Ht&_). unfold returns_error, result_reports. cbn [with_bodies pk_funcs]. by rewrite E, E', Ht.
Qed.
Lemma bind_same {A B} (f g : A -> list B) l : (forall x, x ∈ l -> f x = g x) -> l ≫= f = l ≫= g.
Proof. induction l as [|a l IH]; intros H; [done|]. cbn. rewrite H by (by left). f_equal. apply IH. intros x Hx. apply H. by right. Qed.
Lemma filter_same {A} (P Q : A -> Prop) `{forall x, Decision (P x)} `{forall x, Decision (Q x)} (l : list A) : (forall x, x ∈ l -> P x <-> Q x) -> filter P l = filter Q l.
Proof.
  induction l as [|a l IH]; intros HPQ; [done|]. rewrite !filter_cons. rewrite IH by (intros x Hx; apply HPQ; by right).
  destruct (decide (P a)) as [Hp|Hp], (decide (Q a)) as [Hq|Hq]; [done| | |done].
  - exfalso. apply Hq, HPQ; [by left|done].
  - exfalso. apply Hp, HPQ; [by left|done].
Qed.
Context (strict : bool) (fa : facts).
Lemma funcs_edit ord r : orders_ok lk ord -> findErrorReturningFunctions pk' (or_each ord) = Ok (r_funcs r, r_d3 r) ->
  findErrorReturningFunctions pk (or_each ord) = Ok (r_funcs r, r_d3 r).
Proof.
  intros Hord F. assert (forall f, f ∈ or_each ord -> f ∈ pk_decls pk) as He by (intros f Hf; apply known_decl; by rewrite <-(ok_each _ _ Hord)).
  apply find_returning in F as (F&Ef&Ed). apply find_returning. split_and!.
  - intros f Hf. destruct (Hh f (He f Hf)) as (fn&fn'&E&E'&_&Ht&_). destruct (F f Hf) as (x&Hx&Hn). cbn [with_bodies pk_funcs] in Hx. exists fn. split; [done|].
    rewrite <-Ht. congruence.
  - rewrite Ef. apply filter_same. intros f Hf. by rewrite (proj1 (returns_edit f (He f Hf))).
  - rewrite Ed. apply bind_same. intros f Hf. by apply returns_edit, He.
Qed.
Lemma funcs_decl ord r f : orders_ok lk ord -> findErrorReturningFunctions pk (or_each ord) = Ok (r_funcs r, r_d3 r) -> f ∈ r_funcs r -> f ∈ pk_decls pk.
Proof. intros Hord (_&->&_)%find_returning [_ H]%elem_of_list_filter. apply known_decl. by rewrite <-(ok_each _ _ Hord). Qed.
Lemma object_edit f o : f ∈ pk_decls pk -> object_of pk' f o <-> object_of pk f o.
Proof. intros Hf. rewrite <-!decl_obj_spec. by rewrite (decl_obj_edit pk funcs' top' Hh f Hf). Qed.

(** ** The facts, if the documentation is the same, too *)
Lemma foldl_in {A S} (f g : S -> A -> S) s l : (forall s a, a ∈ l -> f s a = g s a) -> foldl f s l = foldl g s l.
Proof. revert s. induction l as [|a l IH]; intros s H; [done|]. cbn [foldl]. rewrite H by (by left). apply IH. intros s1 b Hb. apply H. by right. Qed.
Lemma claimed_decl ord r f : orders_ok lk ord -> prepared pk strict ord fa r -> f ∈ dom (r_claims r) -> f ∈ pk_decls pk.
Proof.
  intros Hord [_ _ F C] [c Hf]%elem_of_dom. apply find_claims in C as (_&C&_). rewrite C in Hf.
  destruct (decide (f ∈ r_funcs r)) as [H|]; [|done]. exact (funcs_decl ord r f Hord F H).
Qed.
Lemma during_edit ord r : orders_ok lk ord -> prepared pk strict ord fa r -> facts_during pk' ord r = facts_during pk ord r.
Proof.
  intros Hord Hr. unfold facts_during. change (exportInterfaceFacts pk') with (exportInterfaceFacts pk). unfold exportErrorConstructorFacts. apply foldl_in.
  intros s f Hf. rewrite (decl_obj_edit pk funcs' top' Hh f); [done|]. apply (claimed_decl ord r f Hord Hr). apply elem_of_elements. by rewrite <-(ok_claims _ _ Hord).
Qed.
Lemma after_edit ord r : orders_ok lk ord -> prepared pk strict ord fa r -> facts_after pk' ord r = facts_after pk ord r.
Proof.
  intros Hord Hr. unfold facts_after. rewrite (during_edit ord r Hord Hr). unfold exportErrorCodeFacts. apply foldl_in.
  intros s f Hf. rewrite (decl_obj_edit pk funcs' top' Hh f); [done|]. apply (claimed_decl ord r f Hord Hr). apply elem_of_elements. by rewrite <-(ok_claims _ _ Hord).
Qed.
Context (Hheads : same_headers pk funcs').
Lemma header_edit f : f ∈ pk_decls pk -> func_claim pk' f = func_claim pk f /\ func_diags pk' strict f = func_diags pk strict f.
Proof.
  intros Hf. destruct (Hheads f Hf) as (fn&fn'&E&E'&Hp&Hd&Ht). unfold func_claim, func_diags. cbn [with_bodies pk_funcs].
  rewrite E, E'. destruct fn as [p d t b bp be], fn' as [p' d' t' b' bp' be']. cbn [fn_pos fn_decl fn_type] in Hp, Hd, Ht. subst p' d' t'. split_and!; reflexivity.
Qed.
Lemma prepared_edit ord r : orders_ok lk ord -> prepared pk' strict ord fa r -> prepared pk strict ord fa r.
Proof.
  intros Hord [T I F C]. rewrite (collect_edit pk funcs' top' Hh) in T. rewrite types_edit in T. apply (funcs_edit ord r Hord) in F.
  assert (forall f, f ∈ r_funcs r -> f ∈ pk_decls pk) as Hfs by (intros f; exact (funcs_decl ord r f Hord F)).
  apply find_claims in C as (C&C2&Ec). constructor; [exact T|exact I|exact F|].
  apply find_claims. split_and!.
  - intros f Hf. destruct (Hh f (Hfs f Hf)) as (fn&?&E&_). eauto.
  - intros f. rewrite C2. destruct (decide (f ∈ r_funcs r)) as [Hf|Hf]; [|done]. by apply header_edit, Hfs.
  - rewrite Ec. apply bind_same. intros f Hf. by apply header_edit, Hfs.
Qed.
End types.
