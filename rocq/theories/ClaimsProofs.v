(** * Proofs about the functions analysed and their declarations. *)
From Coq Require Import Ascii String.
From stdpp Require Import base list gmap.
From Verif Require Import GoString ErrorCode Scc Engine DocParser CodeSet Constant Quote GoAst Taint Extract Analyse Phase Claims
  SpecCodes SpecDoc DocParserProofs SpecClaims.

(** ** Loops that neither panic nor report depending on their state *)
Lemma pfold_ok {A S} (f : S -> A -> phase S) (step : S -> A -> S) (tell : A -> list diag) l s :
  (forall s a, a ∈ l -> f s a = Ok (step s a, tell a)) -> pfold f s l = Ok (foldl step s l, l ≫= tell).
Proof.
  revert s. induction l as [|a l IH]; intros s H; [done|]. cbn [pfold]. rewrite H by (by left). cbn [pbind].
  rewrite IH; [done|]. intros s' b Hb. apply H. by right.
Qed.
Lemma pfold_all {A S} (f : S -> A -> phase S) l s r : pfold f s l = Ok r -> forall a, a ∈ l -> exists s' x, f s' a = Ok x.
Proof.
  revert s r. induction l as [|b l IH]; intros s r H a Ha; [by apply elem_of_nil in Ha|].
  cbn [pfold] in H. unfold pbind in H. destruct (f s b) as [[s1 d1]| |] eqn:E; [|done|done].
  destruct (pfold f s1 l) as [[s2 d2]| |] eqn:E2; [|done|done].
  apply elem_of_cons in Ha as [->|Ha]; eauto.
Qed.
Lemma foldl_filter {A} (P : A -> bool) (acc l : list A) :
  foldl (fun acc f => if P f then acc ++ [f] else acc) acc l = acc ++ filter (fun f => P f = true) l.
Proof.
  revert acc. induction l as [|a l IH]; intros acc; [by rewrite app_nil_r|]. cbn [foldl]. rewrite IH, filter_cons.
  destruct (P a); [|done]. rewrite decide_True by done. by rewrite <-app_assoc.
Qed.

Section claims.
Context (pk : package).
Notation info := (pk_info pk).

Lemma is_error_spec r : is_error_type pk (f_type r) = true <-> error_result pk r.
Proof.
  unfold is_error_type, error_result. destruct (ti_type info (f_type r)) as [t|].
  - split; [by eauto|]. by intros (?&[= <-]&?).
  - split; [done|]. by intros (?&?&?).
Qed.

(** checkFunctionReturnsError in closed form. *)
Definition misplaced (r : field) : list diag :=
  if is_error_type pk (f_type r) then [Diag (f_id r) (str "error should be returned as the last argument")] else [].
Definition ends_in_error (ft : functype) : bool :=
  match ft_results ft with
  | Some l => match last l with Some r => is_error_type pk (f_type r) | None => false end
  | None => false
  end.
Definition bad_results (ft : functype) : list diag := if ends_in_error ft then [] else default [] (ft_results ft) ≫= misplaced.
Lemma check_returns ft : checkFunctionReturnsError pk ft =
  match ft_results ft with Some [] => Panicked | _ => Ok (ends_in_error ft, bad_results ft) end.
Proof.
  unfold checkFunctionReturnsError, bad_results, ends_in_error. destruct (ft_results ft) as [l|]; [|done].
  destruct (last l) as [r|] eqn:El.
  - destruct l as [|r0 l0] eqn:Ell; [done|]. rewrite <-Ell. destruct (is_error_type pk (f_type r)) eqn:Er; [done|].
    unfold peach. rewrite (pfold_ok _ (fun _ _ => tt) misplaced).
    2:{ intros s a _. unfold misplaced. by destruct (is_error_type pk (f_type a)). }
    cbn [pbind pret default]. by rewrite app_nil_r.
  - by apply last_None in El as ->.
Qed.
Lemma ends_in_error_spec ft : ends_in_error ft = true <-> returns_error_last pk ft.
Proof.
  unfold ends_in_error, returns_error_last. destruct (ft_results ft) as [l|].
  - destruct (last l) as [r|] eqn:El.
    + rewrite is_error_spec. split; [by eauto 10|]. intros (?&r0&[= <-]&Hr&?). congruence.
    + split; [done|]. intros (?&r0&[= <-]&Hr&?). congruence.
  - split; [done|]. by intros (?&?&?&_).
Qed.

(** ** The loop over all functions *)
Definition returns_error (f : fid) : bool := match pk_funcs pk !! f with Some fn => ends_in_error (fn_type fn) | None => false end.
Definition result_reports (f : fid) : list diag := match pk_funcs pk !! f with Some fn => bad_results (fn_type fn) | None => [] end.
Lemma find_returning each funcs ds : findErrorReturningFunctions pk each = Ok (funcs, ds) <->
  (forall f, f ∈ each -> exists fn, pk_funcs pk !! f = Some fn /\ ft_results (fn_type fn) <> Some []) /\
  funcs = filter (fun f => returns_error f = true) each /\ ds = each ≫= result_reports.
Proof.
  unfold findErrorReturningFunctions. set (F := fun (acc : list fid) (f : fid) => _).
  assert ((forall f, f ∈ each -> exists fn, pk_funcs pk !! f = Some fn /\ ft_results (fn_type fn) <> Some []) ->
    pfold F [] each = Ok (filter (fun f => returns_error f = true) each, each ≫= result_reports)) as H.
  { intros H. rewrite (pfold_ok F (fun acc f => if returns_error f then acc ++ [f] else acc) result_reports).
    - by rewrite (foldl_filter returns_error [] each).
    - intros s f Hf. unfold F, returns_error, result_reports. destruct (H f Hf) as (fn&->&Hn). rewrite check_returns.
      destruct (ft_results (fn_type fn)) as [[|r l]|]; [done| |]; cbn [pbind pret]; by rewrite app_nil_r. }
  split.
  - intros E. assert (forall f, f ∈ each -> exists fn, pk_funcs pk !! f = Some fn /\ ft_results (fn_type fn) <> Some []) as Ha.
    { intros f Hf. destruct (pfold_all _ _ _ _ E f Hf) as (s'&x&Ex). unfold F in Ex.
      destruct (pk_funcs pk !! f) as [fn|]; [|done]. exists fn. split; [done|]. rewrite check_returns in Ex.
      by intros E2; rewrite E2 in Ex. }
    rewrite (H Ha) in E. injection E as <- <-. done.
  - intros (Ha&->&->). auto.
Qed.

(** ** Parameters *)
Lemma find_names_spec name names pos :
  match find_param_names name names pos with
  | inl (i, p) => exists q, p = pos + q /\ names !! q = Some i /\ i_name i = name /\ forall k j, k < q -> names !! k = Some j -> i_name j <> name
  | inr p => p = pos + length names /\ forall k j, names !! k = Some j -> i_name j <> name
  end.
Proof.
  revert pos. induction names as [|n names IH]; intros pos; cbn [find_param_names]; [by split; [cbn; lia|]|].
  case_decide as Hn; cycle 1.
  - exists 0. split; [lia|]. split; [done|]. split; [done|]. intros k j Hk. lia.
  - specialize (IH (S pos)). destruct (find_param_names name names (S pos)) as [[i p]|p].
    + destruct IH as (q&->&Hq&Hi&Hf). exists (S q). split; [lia|]. split; [done|]. split; [done|].
      intros [|k] j Hk Hj; [by injection Hj as <-|]. apply (Hf k); [lia|done].
    + destruct IH as [-> Hf]. split; [cbn; lia|]. intros [|k] j Hj; [by injection Hj as <-|]. by apply (Hf k).
Qed.
Lemma find_param_spec name fields pos :
  match find_param name fields pos with
  | Some (i, p) => exists q, p = pos + q /\ concat (map f_names fields) !! q = Some i /\ i_name i = name /\
      forall k j, k < q -> concat (map f_names fields) !! k = Some j -> i_name j <> name
  | None => forall k j, concat (map f_names fields) !! k = Some j -> i_name j <> name
  end.
Proof.
  revert pos. induction fields as [|f fields IH]; intros pos; cbn [find_param map concat]; [done|].
  pose proof (find_names_spec name (f_names f) pos) as Hn. destruct (find_param_names name (f_names f) pos) as [[i p]|p].
  - destruct Hn as (q&->&Hq&Hi&Hf). exists q. split; [done|]. split; [by apply lookup_app_l_Some|]. split; [done|].
    intros k j Hk Hj. apply (Hf k); [done|]. rewrite lookup_app_l in Hj; [done|]. apply lookup_lt_Some in Hq. lia.
  - destruct Hn as [-> Hn]. specialize (IH (pos + length (f_names f))).
    destruct (find_param name fields (pos + length (f_names f))) as [[i p]|].
    + destruct IH as (q&->&Hq&Hi&Hf). exists (length (f_names f) + q). split; [lia|]. split.
      { rewrite lookup_app_r by lia. by replace (length (f_names f) + q - length (f_names f)) with q by lia. }
      split; [done|]. intros k j Hk Hj. apply lookup_app_Some in Hj as [Hj|[Hl Hj]]; [by apply (Hn k)|].
      apply (Hf (k - length (f_names f))); [lia|done].
    + intros k j Hj. apply lookup_app_Some in Hj as [Hj|[Hl Hj]]; [by apply (Hn k)|]. by apply (IH _ _ Hj).
Qed.
Lemma find_param_some ft name i p : find_param name (ft_params ft) 0 = Some (i, p) <-> param_named ft name p i.
Proof.
  pose proof (find_param_spec name (ft_params ft) 0) as H. unfold param_named, param_list. split.
  - intros E. rewrite E in H. by destruct H as (q&->&H).
  - intros (Hp&Hi&Hf). destruct (find_param name (ft_params ft) 0) as [[i' p']|].
    + destruct H as (q&->&Hq&Hi'&Hf'). cbn [Nat.add] in *. destruct (lt_eq_lt_dec p q) as [[Hlt|Heq]|Hlt].
      * by destruct (Hf' p i Hlt Hp).
      * subst q. rewrite Hp in Hq. by injection Hq as <-.
      * by destruct (Hf q i' Hlt Hq).
    + by destruct (H p i).
Qed.
Lemma find_param_none ft name : find_param name (ft_params ft) 0 = None <-> forall p i, ~ param_named ft name p i.
Proof.
  split.
  - intros E p i H. apply find_param_some in H. congruence.
  - intros H. destruct (find_param name (ft_params ft) 0) as [[i p]|] eqn:E; [|done]. apply find_param_some in E. by destruct (H p i).
Qed.
Lemma is_string_spec i : is_string_type (ti_type info (i_id i)) = true <-> string_typed pk i.
Proof.
  unfold is_string_type, string_typed. destruct (ti_type info (i_id i)) as [[]|]; try (split; congruence).
  rewrite bool_decide_eq_true. split; congruence.
Qed.

(** ** One function *)
Definition doc_of (fn : func) : option gostring := match fn_decl fn with Some d => dc_doc d | None => None end.
Definition param_result (fn : func) (name : gostring) : option (option (ident * nat)) :=
  if decide (name = []) then Some None
  else match find_param name (ft_params (fn_type fn)) 0 with
       | Some (i, p) => if is_string_type (ti_type info (i_id i)) then Some (Some (i, p)) else None
       | None => None
       end.
Definition param_diags (fn : func) (name : gostring) : list diag :=
  if decide (name = []) then []
  else match find_param name (ft_params (fn_type fn)) 0 with
       | Some (i, p) => if is_string_type (ti_type info (i_id i)) then []
                        else [Diag (i_id i) (str "error code parameter " ++ quote (ti_is_print (pk_info pk)) name ++ str " has to be of type string")]
       | None => [Diag (ft_id (fn_type fn)) (str "declared error code parameter " ++ quote (ti_is_print (pk_info pk)) name ++ str " could not be found in parameter list")]
       end.
Lemma param_ident_ok fn name : findErrorCodeParamIdent pk (fn_type fn) name = Ok (param_result fn name, param_diags fn name).
Proof.
  unfold findErrorCodeParamIdent, param_result, param_diags. case_decide; [done|].
  destruct (find_param _ _ _) as [[i p]|]; [|done]. by destruct (is_string_type _).
Qed.
Definition claim_result (fn : func) : option claim :=
  match findErrorDocs (doc_of fn) with
  | inl r => match param_result fn (dr_param r) with
             | Some param => if bool_decide (dr_codes r = ∅) && negb (dr_none r) && bool_decide (param = None) then None
                             else Some (Claim (dr_codes r) param)
             | None => None
             end
  | inr _ => None
  end.
Definition claim_diags (fn : func) : list diag :=
  match findErrorDocs (doc_of fn) with
  | inl r => param_diags fn (dr_param r)
  | inr e => [Diag (fn_pos fn) (str "function " ++ quoted (func_name fn) ++ str " has odd docstring: " ++ doc_message e)]
  end.
Definition strict_diags (fn : func) : list diag :=
  match findErrorDocs (doc_of fn) with
  | inl r => if bool_decide (dr_codes r = ∅) && negb (dr_none r) && bool_decide (dr_param r = []) && negb (is_cause_method pk fn)
                && is_exported (ti_is_upper info) (func_name fn)
             then [Diag (fn_pos fn) (str "function " ++ quoted (func_name fn) ++ str " is exported, but does not declare any error codes")]
             else []
  | inr _ => []
  end.
Lemma claim_ok strict fn : claim_of pk strict fn = Ok (claim_result fn, claim_diags fn ++ if strict : bool then strict_diags fn else []).
Proof.
  unfold claim_of, claim_result, claim_diags, strict_diags, doc_of. destruct (findErrorDocs _) as [r|e].
  2:{ cbn. by destruct strict. }
  rewrite param_ident_ok. unfold param_result, param_diags. cbn [pbind]. destruct (decide (dr_param r = [])) as [Hp|Hp].
  - rewrite (bool_decide_eq_true_2 _ Hp). rewrite (bool_decide_eq_true_2 (None = None)) by done. rewrite !andb_true_r.
    destruct (bool_decide (dr_codes r = ∅) && negb (dr_none r)); cbn [andb negb].
    2:{ by destruct strict. }
    destruct (is_cause_method pk fn); cbn [andb negb]; [by destruct strict|].
    destruct strict; cbn [andb]; [|done]. by destruct (is_exported _ _).
  - rewrite (bool_decide_eq_false_2 _ Hp). rewrite !andb_false_r. cbn [andb].
    destruct (find_param _ _ _) as [[i p]|].
    + destruct (is_string_type _).
      * rewrite (bool_decide_eq_false_2 (Some (i, p) = None)) by done. rewrite andb_false_r. by destruct strict.
      * by destruct strict.
    + by destruct strict.
Qed.

Lemma docs_mean fn r : findErrorDocs (doc_of fn) = inl r <-> exists doc, documented fn doc /\ doc_means doc r.
Proof.
  unfold doc_of, documented, findErrorDocs. split.
  - intros E. destruct (fn_decl fn) as [d|].
    + exists (dc_doc d). split; [done|]. destruct (dc_doc d) as [doc|]; [by constructor; apply run_docs_declares|]. injection E as <-. constructor.
    + exists None. split; [done|]. injection E as <-. constructor.
  - intros (doc&Hd&Hm). destruct Hm as [|doc r Hm].
    + destruct (fn_decl fn) as [d|]; [|done]. by rewrite Hd.
    + destruct (fn_decl fn) as [d|]; [|done]. rewrite Hd. by apply run_docs_declares.
Qed.
Lemma docs_odd fn e : findErrorDocs (doc_of fn) = inr e <-> exists doc, documented fn doc /\ doc_odd doc e.
Proof.
  unfold doc_of, documented, findErrorDocs, doc_odd. split.
  - intros E. destruct (fn_decl fn) as [d|]; [|done]. exists (dc_doc d). split; [done|].
    destruct (dc_doc d) as [doc|]; [|done]. exists doc. split; [done|]. by apply run_docs_malformed.
  - intros (doc&Hd&d'&->&Hm). destruct (fn_decl fn) as [d|]; [|done]. rewrite Hd. by apply run_docs_malformed.
Qed.
Lemma param_result_spec fn name param : param_result fn name = Some param <-> declared_param pk (fn_type fn) name param.
Proof.
  unfold param_result, declared_param. case_decide as Hn.
  - split; [by intros [= <-]|]. destruct param as [[i p]|]; [by intros [? _]|done].
  - destruct (find_param _ _ _) as [[i p]|] eqn:E.
    + destruct (is_string_type _) eqn:Es.
      * split.
        -- intros [= <-]. split; [done|]. by rewrite <-find_param_some, <-is_string_spec.
        -- destruct param as [[i' p']|]; [|done]. rewrite <-find_param_some. intros (_&E'&_). congruence.
      * split; [done|]. destruct param as [[i' p']|]; [|done]. rewrite <-find_param_some, <-is_string_spec. intros (_&E'&Hs).
        rewrite E in E'. injection E' as -> ->. congruence.
    + split; [done|]. destruct param as [[i' p']|]; [|done]. rewrite <-find_param_some. intros (_&E'&_). congruence.
Qed.
Lemma claim_result_spec fn codes param : claim_result fn = Some (Claim codes param) <-> declares_codes pk fn codes param.
Proof.
  unfold claim_result, declares_codes. split.
  - destruct (findErrorDocs (doc_of fn)) as [r|] eqn:E; [|done]. apply docs_mean in E as (doc&Hd&Hm).
    destruct (param_result fn (dr_param r)) as [param'|] eqn:Ep; [|done].
    destruct (bool_decide (dr_codes r = ∅)) eqn:E1; destruct (dr_none r) eqn:E2; destruct (bool_decide (param' = None)) eqn:E3; cbn [negb andb]; try done;
    intros [= <- <-]; exists doc, r; (split; [done|]; split; [done|]; split; [done|]; split; [by apply param_result_spec|]);
    try (right; by left); try (left; exact (bool_decide_eq_false_1 _ E1)); try (right; right; exact (bool_decide_eq_false_1 _ E3)).
  - intros (doc&r&Hd&Hm&->&Hp&Hor). assert (findErrorDocs (doc_of fn) = inl r) as -> by (apply docs_mean; eauto).
    apply param_result_spec in Hp as ->.
    destruct (bool_decide (dr_codes r = ∅)) eqn:E1; [|done]. destruct (dr_none r) eqn:E2; [done|]. destruct (bool_decide (param = None)) eqn:E3; [|done].
    apply bool_decide_eq_true in E1, E3. by destruct Hor as [?|[?|?]].
Qed.
Lemma cause_spec fn : is_cause_method pk fn = true <-> cause_method pk fn.
Proof.
  unfold is_cause_method, cause_method. split.
  - destruct (fn_decl fn) as [d|]; [|done]. destruct (dc_recv d) as [[|r [|]]|] eqn:Er; try done.
    destruct (ti_type info (f_type r)) as [t|] eqn:Et; [|done]. rewrite andb_true_iff, bool_decide_eq_true. intros [? ?]. exists d, r, t. eauto.
  - intros (d&r&t&->&->&->&->&Hn). by apply bool_decide_eq_true.
Qed.

(** ** The loop over the functions returning errors *)
Definition func_claim (f : fid) : option claim := pk_funcs pk !! f ≫= claim_result.
Definition func_diags (strict : bool) (f : fid) : list diag :=
  match pk_funcs pk !! f with Some fn => claim_diags fn ++ (if strict then strict_diags fn else []) | None => [] end.
Lemma find_claims strict (funcs : list fid) claims ds : findClaimedErrorCodes pk strict funcs = Ok (claims, ds) <->
  (forall f, f ∈ funcs -> is_Some (pk_funcs pk !! f)) /\
  (forall f, claims !! f = if decide (f ∈ funcs) then func_claim f else None) /\ ds = funcs ≫= func_diags strict.
Proof.
  unfold findClaimedErrorCodes. set (F := fun (acc : gmap fid claim) (f : fid) => _).
  set (step := fun (acc : gmap fid claim) (f : fid) => match func_claim f with Some c => <[ f := c ]> acc | None => acc end).
  assert (forall l acc f, foldl step acc l !! f = if decide (f ∈ l) then match func_claim f with Some c => Some c | None => acc !! f end else acc !! f) as Hstep.
  { clear. intros l. induction l as [|a l IH]; intros acc f; cbn [foldl].
    { rewrite decide_False; [done|]. apply not_elem_of_nil. }
    rewrite IH. unfold step. destruct (decide (f = a)) as [->|Hne].
    - rewrite (decide_True (P := a ∈ a :: l)) by (by left). destruct (func_claim a) as [c|]; rewrite ?lookup_insert; by case_decide.
    - assert ((match func_claim a with Some c => <[ a := c ]> acc | None => acc end) !! f = acc !! f) as ->.
      { destruct (func_claim a); [|done]. by rewrite lookup_insert_ne. }
      destruct (decide (f ∈ l)) as [Hl|Hl].
      + rewrite decide_True by (by right). done.
      + rewrite decide_False; [done|]. by intros [?|?]%elem_of_cons. }
  assert ((forall f, f ∈ funcs -> is_Some (pk_funcs pk !! f)) -> pfold F ∅ funcs = Ok (foldl step ∅ funcs, funcs ≫= func_diags strict)) as H.
  { intros H. apply pfold_ok. intros s f Hf. unfold F, step, func_claim, func_diags. destruct (H f Hf) as [fn ->].
    rewrite claim_ok. cbn [pbind pret mbind option_bind]. by rewrite app_nil_r. }
  assert (forall f, foldl step ∅ funcs !! f = if decide (f ∈ funcs) then func_claim f else None) as Hs.
  { intros f. rewrite Hstep. rewrite lookup_empty. case_decide; [|done]. by destruct (func_claim f). }
  split.
  - intros E. assert (forall f, f ∈ funcs -> is_Some (pk_funcs pk !! f)) as Ha.
    { intros f Hf. destruct (pfold_all _ _ _ _ E f Hf) as (s'&x&Ex). unfold F in Ex. by destruct (pk_funcs pk !! f). }
    rewrite (H Ha) in E. injection E as <- <-. done.
  - intros (Ha&Hc&->). rewrite (H Ha). do 2 f_equal. apply map_eq. intros f. by rewrite Hs, Hc.
Qed.

(** ** The functions known by name *)
Lemma is_method_spec fn : isMethod fn = true <-> is_method fn.
Proof.
  unfold isMethod, is_method. split.
  - destruct (fn_decl fn) as [d|]; [|done]. destruct (dc_recv d) as [[|r [|]]|] eqn:Er; try done. eauto.
  - by intros (d&r&->&->).
Qed.
Notation collect l := (foldl (collect_one pk) (Lookup ∅ ∅) l).
Lemma collect_functions l n f : lk_functions (collect l) !! n = Some f <->
  exists before after fn, l = before ++ f :: after /\ pk_funcs pk !! f = Some fn /\ ~ is_method fn /\ name_of fn = n /\
    forall g gn, g ∈ after -> pk_funcs pk !! g = Some gn -> ~ is_method gn -> name_of gn <> n.
Proof.
  revert n f. induction l as [|a l IH] using rev_ind; intros n f.
  { cbn. split; [done|]. by intros ([]&?&?&?&_). }
  rewrite foldl_snoc. unfold collect_one at 1. set (lk := collect l) in *.
  destruct (pk_funcs pk !! a) as [an|] eqn:Ea.
  - destruct (isMethod an) eqn:Em; cbn [lk_functions].
    + apply is_method_spec in Em. rewrite IH. split; intros (before&after&fn&E&Hf&Hm&Hn&Ha).
      * exists before, (after ++ [a]), fn. rewrite E. split; [by rewrite <-app_assoc|]. do 3 (split; [done|]).
        intros g gn [Hg|Hg]%elem_of_app Hgn Hmg; [by eapply Ha|]. apply elem_of_list_singleton in Hg as ->. congruence.
      * destruct after as [|b after _] using rev_ind.
        { apply app_inj_tail in E as [-> ->]. rewrite Ea in Hf. injection Hf as ->. done. }
        rewrite app_comm_cons, app_assoc in E. apply app_inj_tail in E as [-> ->]. exists before, after, fn. do 4 (split; [done|]).
        intros g gn Hg. apply Ha. apply elem_of_app. by left.
    + assert (~ is_method an) as Hm by (rewrite <-is_method_spec; by rewrite Em).
      change (func_name an) with (name_of an). destruct (decide (name_of an = n)) as [<-|Hne].
      * rewrite lookup_insert. split.
        -- intros [= <-]. exists l, [], an. split; [done|]. do 3 (split; [done|]). by intros ? ? ?%elem_of_nil.
        -- intros (before&after&fn&E&Hf&Hm'&Hn&Ha). destruct after as [|b after _] using rev_ind.
           { apply app_inj_tail in E as [-> ->]. done. }
           rewrite app_comm_cons, app_assoc in E. apply app_inj_tail in E as [-> ->].
           destruct (Ha b an); [|done|done|done]. apply elem_of_app. right. by left.
      * rewrite lookup_insert_ne by done. rewrite IH. split; intros (before&after&fn&E&Hf&Hm'&Hn&Ha).
        -- exists before, (after ++ [a]), fn. rewrite E. split; [by rewrite <-app_assoc|]. do 3 (split; [done|]).
           intros g gn [Hg|Hg]%elem_of_app Hgn Hmg; [by eapply Ha|]. apply elem_of_list_singleton in Hg as ->. congruence.
        -- destruct after as [|b after _] using rev_ind.
           { apply app_inj_tail in E as [-> ->]. rewrite Ea in Hf. injection Hf as ->. done. }
           rewrite app_comm_cons, app_assoc in E. apply app_inj_tail in E as [-> ->]. exists before, after, fn. do 4 (split; [done|]).
           intros g gn Hg. apply Ha. apply elem_of_app. by left.
  - rewrite IH. split; intros (before&after&fn&E&Hf&Hm&Hn&Ha).
    + exists before, (after ++ [a]), fn. rewrite E. split; [by rewrite <-app_assoc|]. do 3 (split; [done|]).
      intros g gn [Hg|Hg]%elem_of_app Hgn Hmg; [by eapply Ha|]. apply elem_of_list_singleton in Hg as ->. congruence.
    + destruct after as [|b after _] using rev_ind.
      { apply app_inj_tail in E as [-> ->]. congruence. }
      rewrite app_comm_cons, app_assoc in E. apply app_inj_tail in E as [-> ->]. exists before, after, fn. do 4 (split; [done|]).
      intros g gn Hg. apply Ha. apply elem_of_app. by left.
Qed.
Definition has_name (n : gostring) (f : fid) : bool :=
  match pk_funcs pk !! f with Some fn => isMethod fn && bool_decide (name_of fn = n) | None => false end.
Lemma collect_methods l n : default [] (lk_methods (collect l) !! n) = filter (fun f => has_name n f = true) l.
Proof.
  revert n. induction l as [|a l IH] using rev_ind; intros n; [done|].
  rewrite foldl_snoc, filter_app, <-IH. unfold collect_one at 1. set (lk := collect l) in *. rewrite filter_cons, filter_nil.
  assert (has_name n a = match pk_funcs pk !! a with Some fn => isMethod fn && bool_decide (name_of fn = n) | None => false end) as Hh by done.
  destruct (pk_funcs pk !! a) as [an|]; [|by rewrite decide_False, app_nil_r by (by rewrite Hh)].
  destruct (isMethod an); cbn [lk_methods andb] in *; [|by rewrite decide_False, app_nil_r by (by rewrite Hh)].
  change (func_name an) with (name_of an). destruct (decide (name_of an = n)) as [<-|Hne].
  - rewrite lookup_insert. rewrite decide_True; [done|]. rewrite Hh. by apply bool_decide_eq_true.
  - rewrite lookup_insert_ne by done. rewrite decide_False, app_nil_r; [done|]. rewrite Hh. by rewrite bool_decide_eq_true.
Qed.
Lemma known_spec f : f ∈ lookup_all (collectFunctions pk) <-> exists fn, known_function pk f fn.
Proof.
  unfold lookup_all, collectFunctions, known_function. rewrite elem_of_app. split.
  - intros [H|H].
    + apply elem_of_list_fmap in H as ([n f']&->&H). apply elem_of_map_to_list in H. cbn [snd].
      apply collect_functions in H as (before&after&fn&E&Hf&Hm&<-&Ha). exists fn, before, after. auto.
    + apply elem_of_list_In, in_concat in H as (ms&Hms&Hf). apply elem_of_list_In in Hms, Hf.
      apply elem_of_list_fmap in Hms as ([n ms']&->&H). apply elem_of_map_to_list in H. cbn [snd] in Hf.
      pose proof (collect_methods (pk_decls pk) n) as Hc. rewrite H in Hc. cbn [default from_option id] in Hc. rewrite Hc in Hf.
      apply elem_of_list_filter in Hf as [Hn Hf]. unfold has_name in Hn. destruct (pk_funcs pk !! f) as [fn|]; [|done].
      apply andb_true_iff in Hn as [Hm _]. apply is_method_spec in Hm. apply elem_of_list_split in Hf as (b&a&->). exists fn, b, a. auto.
  - intros (fn&before&after&E&Hf&Hor). destruct (isMethod fn) eqn:Em.
    + right. apply elem_of_list_In, in_concat.
      assert (f ∈ default [] (lk_methods (collect (pk_decls pk)) !! name_of fn)) as Hin.
      { rewrite collect_methods. apply elem_of_list_filter. split.
        - unfold has_name. rewrite Hf, Em. by apply bool_decide_eq_true.
        - rewrite E. apply elem_of_app. right. by left. }
      destruct (lk_methods (collect (pk_decls pk)) !! name_of fn) as [ms|] eqn:Ems; [|by apply elem_of_nil in Hin].
      exists ms. rewrite <-!elem_of_list_In. split; [|done]. apply elem_of_list_fmap. exists (name_of fn, ms). split; [done|]. by apply elem_of_map_to_list.
    + left. apply elem_of_list_fmap. exists (name_of fn, f). split; [done|]. apply elem_of_map_to_list, collect_functions.
      assert (~ is_method fn) as Hm by (rewrite <-is_method_spec; by rewrite Em).
      exists before, after, fn. do 4 (split; [done|]). by destruct Hor.
Qed.
Lemma known_nodup : NoDup (pk_decls pk) -> NoDup (lookup_all (collectFunctions pk)).
Proof.
  intros Hnd. unfold lookup_all, collectFunctions. set (lk := collect (pk_decls pk)).
  assert (forall n ms, lk_methods lk !! n = Some ms -> ms = filter (fun f => has_name n f = true) (pk_decls pk)) as Hms.
  { intros n ms E. rewrite <-collect_methods. fold lk. by rewrite E. }
  assert (forall n f, lk_functions lk !! n = Some f -> exists fn, pk_funcs pk !! f = Some fn /\ ~ is_method fn /\ name_of fn = n) as Hfs.
  { intros n f (?&?&fn&_&?&?&?&_)%collect_functions. eauto. }
  apply NoDup_app. split; [|split].
  - apply NoDup_fmap_2_strong; [|apply NoDup_map_to_list]. intros [n f] [n' f'] H1%elem_of_map_to_list H2%elem_of_map_to_list E.
    cbn [snd] in E. subst f'. apply Hfs in H1 as (fn&Hf&_&<-). apply Hfs in H2 as (fn'&Hf'&_&<-). congruence.
  - intros f [[n f'] [-> H1%elem_of_map_to_list]]%elem_of_list_fmap Hc. cbn [snd] in Hc. apply Hfs in H1 as (fn&Hf&Hm&_).
    apply elem_of_list_In, in_concat in Hc as (ms&Hin&Hfm). apply elem_of_list_In in Hin, Hfm.
    apply elem_of_list_fmap in Hin as ([n' ms']&->&H2%elem_of_map_to_list). apply Hms in H2. cbn [snd] in Hfm. rewrite H2 in Hfm.
    apply elem_of_list_filter in Hfm as [Hn _]. unfold has_name in Hn. rewrite Hf in Hn. apply andb_true_iff in Hn as [Hn _]. by apply is_method_spec in Hn.
  - assert (forall n ms, (n, ms) ∈ map_to_list (lk_methods lk) -> ms = filter (fun f => has_name n f = true) (pk_decls pk)) as H
      by (intros n ms ?%elem_of_map_to_list; auto).
    pose proof (NoDup_fst_map_to_list (lk_methods lk)) as Hk. revert H Hk. generalize (map_to_list (lk_methods lk)) as kl.
    induction kl as [|[n ms] kl IH]; intros H Hk; [constructor|]. cbn [fmap list_fmap concat fst snd] in *. apply NoDup_cons in Hk as [Hn Hk].
    apply NoDup_app. split; [|split].
    + rewrite (H n ms) by (by left). by apply NoDup_filter.
    + intros f Hf Hc. rewrite (H n ms) in Hf by (by left). apply elem_of_list_filter in Hf as [Hf _].
      apply elem_of_list_In, in_concat in Hc as (ms'&Hin&Hfm). apply elem_of_list_In in Hin, Hfm.
      apply elem_of_list_fmap in Hin as ([n' ms'']&->&Hin). rewrite (H n' ms'') in Hfm by (by right). cbn [snd] in Hfm.
      apply elem_of_list_filter in Hfm as [Hf' _]. apply Hn. apply elem_of_list_fmap. exists (n', ms''). split; [|done]. cbn [fst].
      unfold has_name in Hf, Hf'. destruct (pk_funcs pk !! f) as [fn|]; [|done]. apply andb_true_iff in Hf as [_ Hf], Hf' as [_ Hf'].
      apply bool_decide_eq_true in Hf, Hf'. congruence.
    + apply IH; [|done]. intros n' ms' ?. apply H. by right.
Qed.
End claims.
