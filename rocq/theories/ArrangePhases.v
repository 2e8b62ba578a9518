(** * C44: the order of the declarations does not matter (types and interfaces). *)
From Coq Require Import Ascii String.
From stdpp Require Import base list gmap relations sets.
From Verif Require SpecLookup.
From Verif Require Import GoString ErrorCode Scc Engine SpecEngine EngineProofs CodeSet Annotation Constant GoAst Taint Extract
  Analyse SpecCodes SpecTaint SpecMay SpecProgram SpecClaims SpecInterfaces Termination Phase ErrorTypes Claims Interfaces Conversions Verify SpecRun SpecEnd
  LookupProofs PropLookup ExprProofs ClaimsProofs PhaseProofs EndProofs InterfacesProofs PropInterfaces PropFacts PropErrorTypes PropCrash PropOrder SpecArrange ArrangeProofs.

(** ** Phases whose steps do not depend on each other *)
Section steps.
Context {A B S : Type} (I : S -> Prop) (f : S -> A -> phase S) (out : A -> outcome (B * list diag)) (add : B -> S -> S).
Context (Hf : forall s a, I s -> f s a = match out a with Ok (b, d) => Ok (add b s, d) | Panicked => Panicked | OutOfFuel => OutOfFuel end).
Context (HI : forall s b, I s -> I (add b s)).
Lemma pfold_steps s l : I s -> match pfold f s l with
  | Ok (s', d) => exists bs ds, Forall2 (fun a bd => out a = Ok bd) l (zip bs ds) /\ length bs = length l /\ length ds = length l /\ s' = foldl (fun s b => add b s) s bs /\ d = concat ds
  | _ => exists a, a ∈ l /\ forall x, out a <> Ok x
  end.
Proof.
  revert s. induction l as [|a l IH]; intros s Hs; cbn [pfold].
  { exists [], []. split_and!; [constructor|done..]. }
  rewrite Hf by done. destruct (out a) as [[b d]| |] eqn:E; cbn [pbind]; [|exists a; split; [by left|by rewrite E]..].
  specialize (IH (add b s) (HI _ _ Hs)). destruct (pfold f (add b s) l) as [[s' d']| |].
  - destruct IH as (bs&ds&H1&H2&H3&->&->). exists (b :: bs), (d :: ds). split_and!; [by constructor|cbn; lia|cbn; lia|done|done].
  - destruct IH as (a'&?&?). exists a'. split; [by right|done].
  - destruct IH as (a'&?&?). exists a'. split; [by right|done].
Qed.
(** The results of the steps. *)
Definition value (a : A) : option B := match out a with Ok (b, _) => Some b | _ => None end.
Definition said (a : A) : list diag := match out a with Ok (_, d) => d | _ => [] end.
Lemma pfold_values s l : I s -> (forall a, a ∈ l -> exists x, out a = Ok x) ->
  pfold f s l = Ok (foldl (fun s a => match value a with Some b => add b s | None => s end) s l, l ≫= said).
Proof.
  revert s. induction l as [|a l IH]; intros s Hs Hall; [done|]. cbn [pfold]. rewrite Hf by done. destruct (Hall a) as [[b d] E]; [by left|].
  rewrite E. cbn [pbind]. rewrite IH; [|by apply HI|intros ? ?; apply Hall; by right]. cbn [foldl]. change ((a :: l) ≫= said) with (said a ++ (l ≫= said)).
  unfold value at 3, said at 2. rewrite E. done.
Qed.
Lemma pfold_panic s l : I s -> (exists a, a ∈ l /\ forall x, out a <> Ok x) -> forall r, pfold f s l <> Ok r.
Proof.
  intros Hs (a&Ha&Hn) [s' d] E. pose proof (pfold_steps s l Hs) as H. rewrite E in H. destruct H as (bs&ds&H&_).
  apply elem_of_list_lookup in Ha as [k Hk]. eapply Forall2_lookup_l in H as (x&_&?); [|exact Hk]. by apply (Hn x).
Qed.
End steps.

Lemma filter_same {A} (P : A -> Prop) `{forall x, Decision (P x)} (l l' : list A) : l ≡ₚ l' -> NoDup l ->
  (forall x y, x ∈ l -> y ∈ l -> P x -> P y -> x = y) -> filter P l = filter P l'.
Proof.
  intros Hp Hnd Hu. assert (filter P l ≡ₚ filter P l') as Hpf by (by rewrite Hp).
  assert (forall x y, x ∈ filter P l -> y ∈ filter P l -> x = y) as Hu'.
  { intros x y [? ?]%elem_of_list_filter [? ?]%elem_of_list_filter. by apply Hu. }
  pose proof (NoDup_filter P _ Hnd) as Hn. destruct (filter P l) as [|x [|y k]].
  - symmetry. by apply Permutation_nil.
  - symmetry. by apply Permutation_singleton_l in Hpf.
  - exfalso. apply NoDup_cons in Hn as [Hn _]. apply Hn. rewrite (Hu' x y); [by left|by left|by right; left].
Qed.
Lemma find_head {A B} (P : A -> Prop) `{forall x, Decision (P x)} (g : A -> B) (l : list A) :
  (list_find P l ≫= fun p => Some (g p.2)) = g <$> head (filter P l).
Proof.
  induction l as [|x l IH]; [done|]. cbn [list_find]. rewrite filter_cons. destruct (decide (P x)); [done|].
  rewrite <-IH. by destruct (list_find P l) as [[]|].
Qed.

Section tags.
Context (pk : package) (ds : list fid) (gs : list gendecl) (ts : list topdecl).
Notation pk' := (with_lists pk ds gs ts).
Context (Hra : rearranged pk pk') (Hon : declared_once pk).
Notation info := (pk_info pk).
Notation lk := (collectFunctions pk).
Notation lk' := (collectFunctions pk').

Lemma subset_named err n t : getNamedType err = Some n -> errorTypesSubset (Some t) err = true -> getNamedType t = Some n.
Proof.
  intros Hn. unfold errorTypesSubset. rewrite orb_true_iff, bool_decide_eq_true. intros [-> |H]; [done|].
  destruct err; try done. apply bool_decide_eq_true in H as ->. done.
Qed.
Lemma methods_unique err n name : getNamedType err = Some n -> forall x y,
  x ∈ filter (named_method pk name) (pk_decls pk) -> y ∈ filter (named_method pk name) (pk_decls pk) ->
  is_method_of pk err x = true -> is_method_of pk err y = true -> x = y.
Proof.
  intros Hn.
  assert (forall x, x ∈ filter (named_method pk name) (pk_decls pk) -> is_method_of pk err x = true ->
    x ∈ pk_decls pk /\ SpecLookup.declares_method pk x name /\ method_of_type pk x n) as H.
  { intros x [Hx%named_method_spec Hin]%elem_of_list_filter Hm. split; [done|]. split; [done|]. unfold is_method_of, receiver_field in Hm.
    unfold method_of_type. destruct (pk_funcs pk !! x) as [fn|]; [|done]. destruct (fn_decl fn) as [d|] eqn:Ed; [|done].
    destruct (dc_recv d) as [[|r rs]|] eqn:Er; [done| |done]. destruct (ti_type info (f_type r)) as [t|] eqn:Et; [|done].
    exists fn, d, r, rs, t. split_and!; try done. by eapply subset_named. }
  intros x y Hx Hy Hmx Hmy. destruct (H x Hx Hmx) as (?&?&?), (H y Hy Hmy) as (?&?&?). by eapply (on_methods _ Hon).
Qed.
Lemma named_perm name : filter (named_method pk name) (pk_decls pk) ≡ₚ filter (named_method pk name) ds.
Proof. symmetry. apply filter_Permutation. exact (ra_decls _ _ Hra). Qed.
Lemma named_nodup name : NoDup (filter (named_method pk name) (pk_decls pk)).
Proof. apply NoDup_filter, (on_functions _ Hon). Qed.
Lemma code_func_same err n : getNamedType err = Some n -> getCodeFuncFromError pk' lk' err = getCodeFuncFromError pk lk err.
Proof.
  intros Hn. rewrite !code_func_find. change (receiver_ident pk') with (receiver_ident pk).
  rewrite !(find_head _ (fun f => (f, receiver_ident pk f))). f_equal. f_equal.
  change (is_method_of pk') with (is_method_of pk). change (pk_decls pk') with ds. symmetry.
  apply filter_same; [exact (named_perm _)|apply named_nodup|]. by apply methods_unique with n.
Qed.
Lemma list_filter_same (P : fid -> bool) (l l' : list fid) : l ≡ₚ l' -> NoDup l ->
  (forall x y, x ∈ l -> y ∈ l -> P x = true -> P y = true -> x = y) -> List.filter P l' = List.filter P l.
Proof.
  intros Hp Hnd Hu. assert (forall k, List.filter P k = filter (fun x => P x = true) k) as E.
  { intros k. induction k as [|x k IH]; [done|]. rewrite filter_cons. cbn [List.filter]. rewrite IH. destruct (P x) eqn:Ex.
    - by rewrite decide_True.
    - by rewrite decide_False. }
  rewrite !E. symmetry. by apply filter_same.
Qed.
Lemma collect_same err : collectMethodsForErrorType pk' lk' err = collectMethodsForErrorType pk lk err.
Proof.
  unfold collectMethodsForErrorType. destruct (getNamedType err) as [n|] eqn:Hn; [|done].
  change (ti_named_methods (pk_info pk') n) with (ti_named_methods info n). induction (ti_named_methods info n) as [|name l IH]; [done|].
  cbn [flat_map]. f_equal; [|exact IH]. rewrite !methods_named. change (is_method_of pk') with (is_method_of pk).
  apply list_filter_same; [exact (named_perm _)|apply named_nodup|]. by apply methods_unique with n.
Qed.

(** ** The facts of other types do not matter *)
Context (fa0 : facts).
Notation I := (fun fa => fa_ctor fa = fa_ctor fa0).
Lemma string_facts (q : package) fa fn e : I fa -> extractErrorCodeFromStringExpression q fa fn e = extractErrorCodeFromStringExpression q fa0 fn e.
Proof.
  assert (forall fa1 fa2, fa_ctor fa1 = fa_ctor fa2 -> extractErrorCodeFromStringExpression q fa1 fn e = extractErrorCodeFromStringExpression q fa2 fn e) as H; [|apply H].
  intros [c1 k1 t1 i1] [c2 k2 t2 i2]. cbn. intros <-. reflexivity.
Qed.
Lemma lhs_facts fa fn o rhs same lhs i et : I fa -> code_field_lhs pk' fa fn o rhs same i lhs (Some et) = code_field_lhs pk fa0 fn o rhs same i lhs (Some et).
Proof.
  intros HI. revert i et. induction lhs as [|l lhs IH]; intros i et; [done|]. cbn [code_field_lhs].
  destruct (as_selector l) as [[x sel]|]; [|apply IH]. destruct (as_ident x) as [xi|]; [|apply IH]. destruct (decide _); [apply IH|].
  destruct (et_field et) as [[fname p]|]; [|done]. destruct (decide _); [apply IH|]. destruct same; cbn [negb].
  - destruct (rhs !! i) as [r|]; [|done]. rewrite IH. f_equal. change (extractErrorCodeFromStringExpression pk') with (extractErrorCodeFromStringExpression pk).
    by apply string_facts.
  - destruct rhs; [done|]. by rewrite IH.
Qed.
Lemma methods_facts fa et err : I fa -> analyseMethodsOfErrorType pk' lk' fa et err = analyseMethodsOfErrorType pk lk fa0 et err.
Proof.
  intros HI. unfold analyseMethodsOfErrorType. destruct (et_field et); [|done]. rewrite collect_same.
  assert (forall l (s : codeset), pfold (fun assigned f => match receiver_ident pk' f with
      | None => pret assigned
      | Some r => match pk_funcs pk' !! f, i_obj r with
          | Some fn, Some o => pbind (eff_result (findCodesAssignedToErrorCodeField pk' fa fn (Some et) o)) (fun new => pret (assigned ∪ new))
          | _, _ => pret assigned end end) s l =
    pfold (fun assigned f => match receiver_ident pk f with
      | None => pret assigned
      | Some r => match pk_funcs pk !! f, i_obj r with
          | Some fn, Some o => pbind (eff_result (findCodesAssignedToErrorCodeField pk fa0 fn (Some et) o)) (fun new => pret (assigned ∪ new))
          | _, _ => pret assigned end end) s l) as ->; [|done].
  intros l. induction l as [|f l IH]; intros s; [exact (eq_refl (pret s))|]. cbn [pfold]. change (receiver_ident pk') with (receiver_ident pk).
  change (pk_funcs pk') with (pk_funcs pk).
  destruct (receiver_ident pk f) as [r|]; [|cbn [pret pbind]; by rewrite IH]. destruct (pk_funcs pk !! f) as [fn|]; [|cbn [pret pbind]; by rewrite IH].
  destruct (i_obj r) as [o|]; [|cbn [pret pbind]; by rewrite IH].
  assert (findCodesAssignedToErrorCodeField pk' fa fn (Some et) o = findCodesAssignedToErrorCodeField pk fa0 fn (Some et) o) as ->.
  { unfold findCodesAssignedToErrorCodeField. destruct (fn_body fn) as [b|]; [|done]. f_equal. apply map_same. intros [lhs rhs]. by apply lhs_facts. }
  destruct (eff_result _) as [[new d]| |]; cbn [pret pbind]; [|done|done]. by rewrite IH.
Qed.
Lemma fold_phase_same {A S} (f g : S -> A -> phase S) s l : (forall s a, f s a = g s a) -> pfold f s l = pfold g s l.
Proof. intros H. revert s. induction l as [|a l IH]; intros s; [exact (eq_refl (pret s))|]. cbn [pfold]. rewrite H. destruct (g s a) as [[s' d]| |]; cbn [pbind]; [|done|done]. by rewrite IH. Qed.
Lemma ident_taint_same fn rec rec' i st : (forall n st, rec n st = rec' n st) ->
  analyseReturnedIdentTaint pk' fn rec i st = analyseReturnedIdentTaint pk fn rec' i st.
Proof.
  intros H. unfold analyseReturnedIdentTaint. rewrite taint_same. cbv zeta. destruct (negb _); [done|]. 
  destruct (peach _ _) as [[? ?]| |]; cbn [pbind]; [|done|done]. destruct (peach _ _) as [[? ?]| |]; cbn [pbind]; [|done|done].
  rewrite (fold_phase_same _ (fun st e => rec' e st)); [done|]. intros; apply H.
Qed.
Lemma expression_same fn r k n st : analyseReturnedExpression pk' fn r k n st = analyseReturnedExpression pk fn r k n st.
Proof.
  revert n st. induction k as [|k IH]; intros n st; [done|]. cbn [analyseReturnedExpression]. cbv zeta.
  change (pk_info pk') with (pk_info pk).
  destruct (ti_value (pk_info pk) (node_id (unparen n))) as [v|]; [done|].
  match goal with |- match ?x with _ => _ end = _ => destruct x as [sel|] end; [done|].
  destruct (as_ident (unparen n)) as [i|]; [|done]. by apply ident_taint_same.
Qed.
Lemma returned_same fn r st n : analyse_return pk' fn r st n = analyse_return pk fn r st n.
Proof.
  unfold analyse_return. destruct (node_kids n) as [|e [|]]; [|apply expression_same|done]. unfold analyseNamedReturn.
  destruct (ft_results (fn_type fn)) as [[|f [|]]|]; [done| |done|done]. destruct (f_names f) as [|i [|]]; [done| |done].
  apply ident_taint_same. intros. apply expression_same.
Qed.
Lemma code_method_same fn r t : analyseCodeMethod pk' fn r t = analyseCodeMethod pk fn r t.
Proof. unfold analyseCodeMethod. rewrite (fold_phase_same _ (analyse_return pk fn r)); [done|]. intros. apply returned_same. Qed.
Lemma type_facts fa err t : I fa -> tagErrorType pk' lk' fa err t = tagErrorType pk lk fa0 err t.
Proof.
  intros HI. unfold tagErrorType. destruct (getNamedType err) as [n|] eqn:Hn; [|done]. rewrite (code_func_same err n Hn).
  change (ti_underlying (pk_info pk') n) with (ti_underlying info n). change (pk_funcs pk') with (pk_funcs pk).
  change (ti_objname (pk_info pk') n) with (ti_objname info n).
  destruct (getCodeFuncFromError pk lk err) as [[f r]|]; [|reflexivity]. destruct (pk_funcs pk !! f) as [fn|]; [|reflexivity].
  rewrite code_method_same. destruct (analyseCodeMethod pk fn r t) as [[[et|] d]| |]; cbn [pbind]; [|reflexivity..].
  rewrite (methods_facts fa et err HI). reflexivity.
Qed.

(** One specification. *)
Definition tagged (a : nid * option typespec) : phase (option (tobj * errortype)) :=
  match a.2 with
  | None => pret None
  | Some ts =>
    match ti_defs info (i_id (tsp_name ts)) with
    | None => ppanic
    | Some o =>
      match (if ti_implements_ree info (ti_objtype info o) then Some (ti_objtype info o)
             else if ti_implements_ree info (TPointer (ti_objtype info o)) then Some (TPointer (ti_objtype info o)) else None) with
      | None => pret None
      | Some err =>
        let* r := tagErrorType pk lk fa0 err ts in
        match r with
        | inl msg => let* _ := ptell a.1 msg in pret None
        | inr x => pret x
        end
      end
    end
  end.
Definition add_tagged (x : option (tobj * errortype)) (fa : facts) : facts :=
  match x with Some (n, et) => add_type_fact n et fa | None => fa end.
Lemma tag_step fa a : I fa -> tag_spec pk' lk' a.1 fa a.2 =
  match tagged a with Ok (b, d) => Ok (add_tagged b fa, d) | Panicked => Panicked | OutOfFuel => OutOfFuel end.
Proof.
  intros HI. destruct a as [id spec]. unfold tag_spec, tagged. cbn [fst snd]. destruct spec as [t|]; [|reflexivity].
  change (pk_info pk') with info. destruct (ti_defs info (i_id (tsp_name t))) as [o|]; [|reflexivity]. cbn zeta.
  destruct (if ti_implements_ree info (ti_objtype info o) then _ else _) as [err|]; [|reflexivity]. rewrite type_facts by done.
  destruct (tagErrorType pk lk fa0 err t) as [[[msg|[[n et]|]] d]| |]; try reflexivity; cbn; by rewrite ?app_nil_r.
Qed.
Definition spec_nodes (l : list gendecl) : list (nid * option typespec) := l ≫= fun g => (fun s => (gd_id g, s)) <$> gd_specs g.
Lemma pfold_map {A B S} (f : S -> B -> phase S) (h : A -> B) s l : pfold f s (h <$> l) = pfold (fun s a => f s (h a)) s l.
Proof. revert s. induction l as [|a l IH]; intros s; [done|]. cbn [fmap list_fmap pfold]. destruct (f s (h a)) as [[s1 d]| |]; cbn [pbind]; [|done|done]. change (list_fmap _ _ h l) with (h <$> l). by rewrite IH. Qed.
Lemma pfold_ext {A S} (f g : S -> A -> phase S) s l : (forall s a, f s a = g s a) -> pfold f s l = pfold g s l.
Proof. intros H. revert s. induction l as [|a l IH]; intros s; [done|]. cbn [pfold]. rewrite H. destruct (g s a) as [[s1 d]| |]; cbn [pbind]; [|done|done]. by rewrite IH. Qed.
Lemma tags_flat (q : package) l fa : findAndTagErrorTypes q l fa = pfold (fun fa a => tag_spec q l a.1 fa a.2) fa (spec_nodes (pk_gendecls q)).
Proof.
  unfold findAndTagErrorTypes, spec_nodes. rewrite <-pfold_flat. apply pfold_ext. intros s g. by rewrite pfold_map.
Qed.
End tags.
Lemma rearranged_refl pk : rearranged pk pk.
Proof. by split. Qed.

Section types.
Context (pk pk' : package) (Hra : rearranged pk pk') (Hon : declared_once pk) (fa : facts).
Notation lk := (collectFunctions pk).
Notation lk' := (collectFunctions pk').
Lemma steps_pk a s : fa_ctor s = fa_ctor fa -> tag_spec pk lk a.1 s a.2 =
  match tagged pk fa a with Ok (b, d) => Ok (add_tagged b s, d) | Panicked => Panicked | OutOfFuel => OutOfFuel end.
Proof.
  intros H. pose proof (tag_step pk (pk_decls pk) (pk_gendecls pk) (pk_top pk)) as T. rewrite <-lists_self in T. by apply T; [apply rearranged_refl|..].
Qed.
Lemma steps_pk' a s : fa_ctor s = fa_ctor fa -> tag_spec pk' lk' a.1 s a.2 =
  match tagged pk fa a with Ok (b, d) => Ok (add_tagged b s, d) | Panicked => Panicked | OutOfFuel => OutOfFuel end.
Proof.
  intros H. pose proof (tag_step pk (pk_decls pk') (pk_gendecls pk') (pk_top pk')) as T. rewrite <-(rearranged_lists _ _ Hra) in T. by apply T.
Qed.
Notation key := (fun a => match value (tagged pk fa) a with Some (Some x) => Some x | _ => None end).
Lemma add_all l s : foldl (fun s a => match value (tagged pk fa) a with Some b => add_tagged b s | None => s end) s l =
  Facts (fa_codes s) (fa_ctor s) (foldl (fun m a => match key a with Some (k, v) => <[ k := v ]> m | None => m end) (fa_type s) l) (fa_iface s).
Proof.
  revert s. induction l as [|a l IH]; intros s; cbn [foldl]; [by destruct s|]. rewrite IH.
  destruct (value (tagged pk fa) a) as [[[n et]|]|]; destruct s; reflexivity.
Qed.
Lemma key_type id t n et : id ∈ pk_gendecls pk -> Some t ∈ gd_specs id -> key (gd_id id, Some t) = Some (n, et) -> declares_error_type pk t n.
Proof.
  intros Hg Hs. unfold value, tagged. cbn [fst snd]. destruct (ti_defs (pk_info pk) (i_id (tsp_name t))) as [o|] eqn:Eo; [|done].
  assert (forall err (x : option (tobj * errortype)) d, tagErrorType pk lk fa err t = Ok (inr x, d) -> x = Some (n, et) -> getNamedType err = Some n) as Hn.
  { intros err x d. unfold tagErrorType. destruct (getNamedType err) as [n'|]; [|done]. intros E ->.
    assert (n' = n); [|congruence]. destruct (ti_underlying (pk_info pk) n'); try done;
    (destruct (getCodeFuncFromError pk lk err) as [[f r]|]; [|done]; destruct (pk_funcs pk !! f) as [fn|]; [|done];
     destruct (analyseCodeMethod pk fn r t) as [[[et1|] d1]| |]; cbn [pbind] in E; [|done..];
     destruct (analyseMethodsOfErrorType pk lk fa et1 err) as [[et2 d2]| |]; cbn in E; congruence). }
  intros E. exists id, o. split_and!; try done.
  - destruct (ti_implements_ree _ (ti_objtype _ o)); [by left|]. destruct (ti_implements_ree _ (TPointer _)); [by right|done].
  - assert (forall err, getNamedType err = Some n -> err = ti_objtype (pk_info pk) o \/ err = TPointer (ti_objtype (pk_info pk) o) -> getNamedType (ti_objtype (pk_info pk) o) = Some n) as Hp.
    { intros err H [-> | ->]; exact H. }
    destruct (if ti_implements_ree _ (ti_objtype _ o) then _ else _) as [err|] eqn:Ec; [|done]. apply (Hp err).
    + destruct (tagErrorType pk lk fa err t) as [[[msg|x] d]| |] eqn:Et; cbn in E; try done. apply (Hn err x d Et). by destruct x.
    + destruct (ti_implements_ree _ (ti_objtype _ o)); [left; congruence|]. destruct (ti_implements_ree _ (TPointer _)); [right; congruence|done].
Qed.
Lemma key_node id id' t : key (id, Some t) = key (id', Some t).
Proof.
  unfold value, tagged. cbn [fst snd]. destruct (ti_defs (pk_info pk) (i_id (tsp_name t))) as [o|]; [|done].
  destruct (if ti_implements_ree _ (ti_objtype _ o) then _ else _) as [err|]; [|done].
  by destruct (tagErrorType pk lk fa err t) as [[[msg|x] d]| |].
Qed.
Lemma nodes_elem l a : a ∈ spec_nodes l <-> exists g, g ∈ l /\ a.1 = gd_id g /\ a.2 ∈ gd_specs g.
Proof.
  unfold spec_nodes. rewrite elem_of_list_bind. setoid_rewrite elem_of_list_fmap. split.
  - intros (g&(s&->&?)&?). by exists g.
  - intros (g&?&?&?). exists g. split; [|done]. exists a.2. split; [|done]. destruct a; cbn in *; congruence.
Qed.
(** Both runs give the same facts, or crash. *)
Definition same_outcome {A} (m m' : phase A) : Prop :=
  match m, m' with
  | Ok (x, d), Ok (x', d') => x = x' /\ d ≡ₚ d'
  | Panicked, Panicked => True
  | _, _ => False
  end.
Lemma types_same : same_outcome (findAndTagErrorTypes pk lk fa) (findAndTagErrorTypes pk' lk' fa).
Proof.
  pose proof (error_types_end pk lk fa) as E1. pose proof (error_types_end pk' lk' fa) as E2. unfold ends in *. rewrite !tags_flat in *.
  set (L := spec_nodes (pk_gendecls pk)) in *. set (L' := spec_nodes (pk_gendecls pk')) in *.
  assert (L' ≡ₚ L) as HL by (apply bind_perm, (ra_gendecls _ _ Hra)).
  pose proof (fun s a H => steps_pk a s H) as S1. pose proof (fun s a H => steps_pk' a s H) as S2.
  assert (forall s b, fa_ctor s = fa_ctor fa -> fa_ctor (add_tagged b s) = fa_ctor fa) as HI by (intros s [[n et]|] H; exact H).
  assert ({forall a, a ∈ L -> exists x, tagged pk fa a = Ok x} + {exists a, a ∈ L /\ forall x, tagged pk fa a <> Ok x}) as [Hall|Hex].
  { clear. induction L as [|a L [IH|IH]]; [left; by intros ? ?%elem_of_nil| |right].
    - destruct (tagged pk fa a) as [x| |] eqn:E.
      + left. intros b [-> |Hb]%elem_of_cons; [by eexists|by apply IH].
      + right. exists a. split; [by left|by rewrite E].
      + right. exists a. split; [by left|by rewrite E].
    - destruct IH as (b&?&?). exists b. split; [by right|done]. }
  - rewrite (pfold_values _ _ _ _ S1 HI fa L eq_refl Hall), (pfold_values _ _ _ _ S2 HI fa L' eq_refl) by (intros a; rewrite HL; apply Hall).
    cbn [same_outcome]. split; [|apply bind_perm; by rewrite HL]. rewrite !add_all. f_equal. apply foldl_same; [|intros a; by rewrite HL].
    intros [i1 s1] [i2 s2] n v w H1 H2 K1 K2. apply nodes_elem in H1 as (g1&Hg1&E1'&Hs1), H2 as (g2&Hg2&E2'&Hs2).
    cbn [fst] in E1', E2'. cbn [snd] in Hs1, Hs2. subst i1 i2.
    destruct s1 as [t1|]; [|done]. destruct s2 as [t2|]; [|done].
    assert (t1 = t2) as -> by exact (on_types _ Hon _ _ _ (key_type _ _ _ _ Hg1 Hs1 K1) (key_type _ _ _ _ Hg2 Hs2 K2)).
    rewrite (key_node _ (gd_id g2)) in K1. congruence.
  - pose proof (pfold_panic _ _ _ _ S1 HI fa L eq_refl Hex) as P1.
    assert (exists a, a ∈ L' /\ forall x, tagged pk fa a <> Ok x) as Hex' by (destruct Hex as (a&?&?); exists a; by rewrite HL).
    pose proof (pfold_panic _ _ _ _ S2 HI fa L' eq_refl Hex') as P2.
    destruct (pfold _ fa L) as [x| |]; [by destruct (P1 x)| |done]. by destruct (pfold _ fa L') as [x| |]; [destruct (P2 x)| |].
Qed.
End types.

(** ** Interfaces *)
Section interfaces.
Context (pk : package) (ds : list fid) (gs : list gendecl) (ts : list topdecl).
Notation pk' := (with_lists pk ds gs ts).
Context (Hra : rearranged pk pk') (Hok : interfaces_ok pk).
Lemma specs_same : all_specs pk ≡ₚ all_specs pk'.
Proof. apply bind_perm. symmetry. exact (ra_gendecls _ _ Hra). Qed.
Lemma maps_same : maps0 pk' = maps0 pk.
Proof.
  unfold maps0. change (plain_key pk') with (plain_key pk). change (embedding_key pk') with (embedding_key pk).
  assert (forall a b i j, a ∈ all_specs pk' -> b ∈ all_specs pk' -> spec_interface pk a = Some i -> spec_interface pk b = Some j ->
    i_name (if_ident i) = i_name (if_ident j) -> i = j) as Hu.
  { intros a b i j Ha Hb. rewrite <-specs_same in Ha, Hb. by apply (spec_interface_inj pk Hok). }
  f_equal; apply foldl_same; try (intros a; by rewrite specs_same); intros a b k v w Ha Hb.
  - unfold plain_key. destruct (spec_interface pk a) as [i|] eqn:Ei; [|done]. destruct (spec_interface pk b) as [j|] eqn:Ej; [|done].
    repeat (destruct (decide _); try done). intros [= <- <-] [= E <-]. exact (Hu _ _ _ _ Ha Hb Ei Ej (eq_sym E)).
  - unfold embedding_key. destruct (spec_interface pk a) as [i|] eqn:Ei; [|done]. destruct (spec_interface pk b) as [j|] eqn:Ej; [|done].
    repeat (destruct (decide _); try done). intros [= <- <-] [= E <-]. exact (Hu _ _ _ _ Ha Hb Ei Ej (eq_sym E)).
Qed.
Lemma interfaces_same fa embedded names : same_outcome (findErrorReturningInterfaces pk fa embedded names) (findErrorReturningInterfaces pk' fa embedded names).
Proof.
  assert (same_outcome (collect_interfaces pk) (collect_interfaces pk')) as H.
  { pose proof (collect_ends pk) as E1. pose proof (collect_ends pk') as E2. unfold ends in *.
    destruct (collect_interfaces pk) as [[m d]| |] eqn:C1; [| |done]; (destruct (collect_interfaces pk') as [[m' d']| |] eqn:C2; [| |done]).
    - apply collect_all in C1 as (_&->&->), C2 as (_&->&->). split; [by rewrite maps_same|]. change (spec_diags pk') with (spec_diags pk).
      apply bind_perm, specs_same.
    - apply collect_all in C1 as (Hs&_&_). assert (collect_interfaces pk' = Ok (maps0 pk', all_specs pk' ≫= spec_diags pk')); [|congruence].
      apply collect_all. split; [|done]. change (Forall spec_ok (all_specs pk')). by rewrite <-specs_same.
    - apply collect_all in C2 as (Hs&_&_). assert (collect_interfaces pk = Ok (maps0 pk, all_specs pk ≫= spec_diags pk)); [|congruence].
      apply collect_all. split; [|done]. change (Forall spec_ok (all_specs pk')) in Hs. by rewrite specs_same.
    - done. }
  unfold findErrorReturningInterfaces.
  change (findErrorReturningEmbeddingInterfaces pk' fa embedded names) with (findErrorReturningEmbeddingInterfaces pk fa embedded names).
  pose proof (interfaces_end pk fa embedded names) as E1. unfold ends, findErrorReturningInterfaces in E1.
  destruct (collect_interfaces pk) as [[m d]| |]; destruct (collect_interfaces pk') as [[m' d']| |]; try done.
  destruct H as [<- Hd]. cbn [pbind] in *.
  destruct (findErrorReturningEmbeddingInterfaces pk fa embedded names m) as [[m2 d2]| |]; cbn in *; [|done|done]. split; [done|].
  by rewrite Hd.
Qed.
End interfaces.
