(** * C24, C30 - C33: which functions are checked and what they declare. *)
From Coq Require Import Ascii String.
From stdpp Require Import base list gmap relations sets.
From Verif Require Import GoString ErrorCode Scc Engine SpecEngine EngineProofs EngineTheorems CodeSet DocParser Annotation Constant GoAst Taint Extract
  Analyse SpecCodes SpecDoc SpecTaint SpecMay SpecProgram Termination Phase ErrorTypes Claims Interfaces Conversions Verify SpecRun RunEngine
  OwnProofs ProgramProofs ObserveProofs MainLoop SpecClaims ClaimsProofs FactProofs RunProofs.

Section claims.
Context (pk : package).
Notation info := (pk_info pk).
Notation lk := (collectFunctions pk).

(** ** C32 *)
Lemma bad_results_spec ft : misplaced_errors pk ft (bad_results pk ft).
Proof.
  unfold misplaced_errors, bad_results. destruct (ends_in_error pk ft) eqn:E.
  - split; [done|]. intros []. by apply ends_in_error_spec.
  - split; [intros H; apply ends_in_error_spec in H; congruence|]. intros _.
    generalize (default [] (ft_results ft)) as l. induction l as [|r l IH]; [done|]. cbn [mbind list_bind]. rewrite IH, filter_cons.
    unfold misplaced at 1. destruct (is_error_type pk (f_type r)) eqn:Er.
    + rewrite decide_True by (by apply is_error_spec). done.
    + rewrite decide_False; [done|]. intros H. apply is_error_spec in H. congruence.
Qed.
Theorem C32_misplaced_errors strict ord fa r : completes pk strict ord fa r -> orders_ok lk ord -> NoDup (pk_decls pk) ->
  exists known misplaced, NoDup known /\ (forall f, f ∈ known <-> exists fn, known_function pk f fn) /\
    (forall f fn, f ∈ known -> pk_funcs pk !! f = Some fn -> misplaced_errors pk (fn_type fn) (misplaced f)) /\
    r_d3 r ≡ₚ (known ≫= misplaced).
Proof.
  intros Hr Hord Hnd. exists (or_each ord), (result_reports pk). split_and!.
  - rewrite (ok_each _ _ Hord). by apply known_nodup.
  - intros f. by rewrite (ok_each _ _ Hord), known_spec.
  - intros f fn _ Hf. unfold result_reports. rewrite Hf. apply bad_results_spec.
  - by pose proof (co_funcs _ _ _ _ _ Hr) as (_&_&->)%find_returning.
Qed.
(** They are not checked. *)
Theorem C32_not_checked strict ord fa r : completes pk strict ord fa r -> orders_ok lk ord ->
  forall f fn, pk_funcs pk !! f = Some fn -> ~ returns_error_last pk (fn_type fn) -> r_claims r !! f = None.
Proof.
  intros Hr Hord f fn Hf Hn. destruct (r_claims r !! f) as [[codes param]|] eqn:E; [|done].
  apply (run_claims _ _ _ _ _ Hr Hord) in E as (fn'&(?&?&_&Hf'&_)&Hret&_). congruence.
Qed.

(** ** C31 *)
Lemma claim_diags_spec fn : exactly (doc_report pk fn) (claim_diags pk fn).
Proof.
  unfold claim_diags. destruct (findErrorDocs (doc_of fn)) as [r|e] eqn:E.
  - assert (forall r', (exists doc, documented fn doc /\ doc_means doc r') -> r' = r) as Hr.
    { intros r' H. apply docs_mean in H. congruence. }
    assert (forall e, ~ exists doc, documented fn doc /\ doc_odd doc e) as Ho.
    { intros e H. apply docs_odd in H. congruence. }
    pose proof E as (doc&Hd&Hm)%docs_mean. unfold param_diags. case_decide as Hp.
    { intros d []; [eapply Ho; eauto|assert (r0 = r) by eauto; congruence|assert (r0 = r) by eauto; congruence]. }
    destruct (find_param _ _ _) as [[i p]|] eqn:Ep.
    + apply find_param_some in Ep. destruct (is_string_type _) eqn:Es.
      * apply is_string_spec in Es. intros d []; [eapply Ho; eauto| |]; assert (r0 = r) as -> by eauto.
        -- by eapply H2.
        -- apply find_param_some in H2, Ep. rewrite Ep in H2. injection H2 as -> ->. done.
      * intros d. split.
        -- intros []; [exfalso; eapply Ho; eauto| |]; assert (r0 = r) as -> by eauto.
           ++ by destruct (H2 i p).
           ++ apply find_param_some in H2, Ep. rewrite Ep in H2. injection H2 as -> ->. done.
        -- intros ->. eapply rep_no_string; [done|done|done|done|]. rewrite <-is_string_spec. by rewrite Es.
    + pose proof (proj1 (find_param_none _ _) Ep) as Hn. clear Ep. rename Hn into Ep. intros d. split.
      * intros []; [exfalso; eapply Ho; eauto|by assert (r0 = r) as -> by eauto|]; assert (r0 = r) as -> by eauto. by destruct (Ep p i).
      * intros ->. eapply rep_no_param; [done|done|done|]. intros i p. apply Ep.
  - assert (forall r', ~ exists doc, documented fn doc /\ doc_means doc r') as Hr.
    { intros r' H. apply docs_mean in H. congruence. }
    pose proof E as (doc&Hd&Hm)%docs_odd. intros d. split.
    + intros []; [|exfalso; eapply Hr; eauto..]. assert (e0 = e) as ->; [|done].
      assert (findErrorDocs (doc_of fn) = inr e0) as E' by (apply docs_odd; eauto). congruence.
    + intros ->. by eapply rep_odd.
Qed.
Lemma upper_ascii r : (r < 128)%N -> r ∈ str "ABCDEFGHIJKLMNOPQRSTUVWXYZ" <-> between 65 r 90 = true.
Proof.
  intros _. change (str "ABCDEFGHIJKLMNOPQRSTUVWXYZ")
    with [65;66;67;68;69;70;71;72;73;74;75;76;77;78;79;80;81;82;83;84;85;86;87;88;89;90]%N.
  rewrite !elem_of_cons, elem_of_nil. unfold between. rewrite andb_true_iff, !N.leb_le. lia.
Qed.
Lemma is_exported_spec name : is_exported (ti_is_upper (pk_info pk)) name = true <-> exported_name pk name.
Proof.
  unfold is_exported, exported_name. destruct name as [|b s]; [split; [done|by intros (?&?&?&_)]|].
  unfold runes. cbn [runes_from]. destruct (decode_rune (b :: s)) as [r w]. destruct (r <? 128)%N eqn:E.
  - apply N.ltb_lt in E. rewrite <-upper_ascii by done. split.
    + intros H. by exists r, (runes_from (w - 1) s); auto.
    + intros (?&?&[= <- _]&[H|[H _]]); [done|lia].
  - apply N.ltb_ge in E. split.
    + intros H. by exists r, (runes_from (w - 1) s); auto.
    + intros (?&?&[= <- _]&[H|[_ H]]); [|done]. exfalso.
      assert (Forall (fun x => x < 128)%N (str "ABCDEFGHIJKLMNOPQRSTUVWXYZ")) as HF by (apply (bool_decide_unpack _); vm_compute; exact Logic.I).
      rewrite Forall_forall in HF. apply HF in H. lia.
Qed.
Lemma strict_diags_spec fn : exactly (strict_report pk fn) (strict_diags pk fn).
Proof.
  unfold strict_diags. destruct (findErrorDocs (doc_of fn)) as [r|e] eqn:E.
  - assert (forall r', (exists doc, documented fn doc /\ doc_means doc r') -> r' = r) as Hr.
    { intros r' H. apply docs_mean in H. congruence. }
    pose proof E as (doc&Hd&Hm)%docs_mean.
    destruct (_ && is_exported _ _) eqn:Eb.
    + rewrite !andb_true_iff, !negb_true_iff, !bool_decide_eq_true in Eb. destruct Eb as [[[[E1 E2] E3] E4] E5].
      intros d. split; [by intros []|]. intros ->. eapply rep_strict; try done; [by apply is_exported_spec|]. intros H. apply cause_spec in H. congruence.
    + intros d []. assert (r0 = r) as -> by eauto. rewrite <-not_true_iff_false in Eb. apply Eb.
      rewrite !andb_true_iff, !negb_true_iff, !bool_decide_eq_true. split_and!; try done; [|by apply is_exported_spec].
      apply not_true_iff_false. by rewrite cause_spec.
  - intros d []. assert (findErrorDocs (doc_of fn) = inl r) by (apply docs_mean; eauto). congruence.
Qed.
(** The diagnostics about documentations are exactly these, once for every function that returns an error as its last
    result; the ones about missing documentations are reported iff the flag is set. *)
Theorem C31_documentation_reports strict ord fa r : completes pk strict ord fa r -> orders_ok lk ord -> NoDup (pk_decls pk) ->
  exists doc undocumented, NoDup (r_funcs r) /\
    (forall f, f ∈ r_funcs r <-> exists fn, known_function pk f fn /\ returns_error_last pk (fn_type fn)) /\
    (forall f fn, pk_funcs pk !! f = Some fn -> exactly (doc_report pk fn) (doc f) /\ exactly (strict_report pk fn) (undocumented f)) /\
    r_d4 r = (r_funcs r ≫= fun f => doc f ++ if strict then undocumented f else []).
Proof.
  intros Hr Hord Hnd.
  exists (fun f => match pk_funcs pk !! f with Some fn => claim_diags pk fn | None => [] end),
         (fun f => match pk_funcs pk !! f with Some fn => strict_diags pk fn | None => [] end). split_and!.
  - pose proof (co_funcs _ _ _ _ _ Hr) as (_&->&_)%find_returning. apply NoDup_filter. rewrite (ok_each _ _ Hord). by apply known_nodup.
  - exact (run_funcs _ _ _ _ _ Hr Hord).
  - intros f fn ->. split; [apply claim_diags_spec|apply strict_diags_spec].
  - pose proof (co_claims _ _ _ _ _ Hr) as (_&_&->)%find_claims. generalize (r_funcs r) as l. intros l.
    induction l as [|f l IH]; [done|]. cbn [mbind list_bind]. f_equal; [|exact IH]. unfold func_diags.
    destruct (pk_funcs pk !! f); [done|]. by destruct strict.
Qed.
(** The flag has no influence on anything else. *)
Lemma claims_flag funcs :
  match findClaimedErrorCodes pk false funcs, findClaimedErrorCodes pk true funcs with
  | Ok (claims, ds), Ok (claims', ds') => claims = claims' /\ exists extra, ds' ≡ₚ ds ++ extra /\
      forall d, d ∈ extra -> exists f fn, pk_funcs pk !! f = Some fn /\ strict_report pk fn d
  | Panicked, Panicked => True
  | _, _ => False
  end.
Proof.
  unfold findClaimedErrorCodes. generalize (∅ : gmap fid claim) as acc. induction funcs as [|f funcs IH]; intros acc; cbn [pfold].
  { split; [done|]. exists []. split; [done|]. by intros d ?%elem_of_nil. }
  destruct (pk_funcs pk !! f) as [fn|] eqn:Ef; [|done]. rewrite !claim_ok. cbn [pbind pret]. rewrite !app_nil_r.
  specialize (IH (match claim_result pk fn with Some c => <[ f := c ]> acc | None => acc end)).
  destruct (pfold _ _ funcs) as [[claims ds]| |]; [| |done]; destruct (pfold _ _ funcs) as [[claims' ds']| |]; try done.
  destruct IH as [-> (extra&Hp&He)]. split; [done|]. exists (strict_diags pk fn ++ extra). split.
  - rewrite Hp. rewrite <-!app_assoc. apply Permutation_app_head. rewrite !app_assoc. apply Permutation_app_tail. apply Permutation_app_comm.
  - intros d [Hd|Hd]%elem_of_app; [|by apply He]. exists f, fn. split; [done|]. pose proof (strict_diags_spec fn) as Hs.
    destruct (strict_diags pk fn) as [|d0 [|]]; [by apply elem_of_nil in Hd| |done]. apply elem_of_list_singleton in Hd as ->. by apply Hs.
Qed.
Theorem C31_flag_only_adds ord fa :
  match runVerify pk false ord fa, runVerify pk true ord fa with
  | Ok (facts, ds), Ok (facts', ds') => facts = facts' /\ exists extra, ds' ≡ₚ ds ++ extra /\
      forall d, d ∈ extra -> exists f fn, pk_funcs pk !! f = Some fn /\ strict_report pk fn d
  | Panicked, Panicked => True
  | OutOfFuel, OutOfFuel => True
  | _, _ => False
  end.
Proof.
  unfold runVerify, pbind. destruct (findAndTagErrorTypes _ _ _) as [[fa1 d1]| |]; [|done|done].
  destruct (findErrorReturningInterfaces _ _ _ _) as [[ifaces d2]| |]; [|done|done].
  destruct (findErrorReturningFunctions _ _) as [[funcs d3]| |]; [|done|done].
  pose proof (claims_flag funcs) as H.
  destruct (findClaimedErrorCodes pk false funcs) as [[claims ds]| |], (findClaimedErrorCodes pk true funcs) as [[claims' ds']| |]; try done.
  destruct H as [<- (extra&Hp&He)].
  destruct (verify_claims _ _ _ _ _ _) as [st| |]; [|done|done].
  destruct (check_all _ _ _ _ _ _ _ _) as [st'| |]; [|done|done].
  split; [done|]. exists extra. split; [|done]. rewrite Hp, <-!app_assoc. do 4 apply Permutation_app_head. apply Permutation_app_comm.
Qed.

(** ** C30, C33 *)
(** What is declared. *)
Theorem C30_declarations strict ord fa r : completes pk strict ord fa r -> orders_ok lk ord ->
  forall f codes param, r_claims r !! f = Some (Claim codes param) <->
    exists fn, known_function pk f fn /\ returns_error_last pk (fn_type fn) /\ declares_codes pk fn codes param.
Proof. intros Hr Hord. exact (run_claims _ _ _ _ _ Hr Hord). Qed.

(** ** C24 *)
(** The position recorded for a constructor is that of the first parameter with the declared name. *)
Theorem C24_recorded_position strict ord fa r : completes pk strict ord fa r -> orders_ok lk ord ->
  forall f codes i p, r_claims r !! f = Some (Claim codes (Some (i, p))) ->
  exists fn doc m, pk_funcs pk !! f = Some fn /\ documented fn doc /\ doc_means doc m /\
    param_named (fn_type fn) (dr_param m) p i /\ string_typed pk i.
Proof.
  intros Hr Hord f codes i p (fn&(b&a&_&Hf&_)&_&(doc&m&Hd&Hm&_&(_&Hp&Hs)&_))%(run_claims _ _ _ _ _ Hr Hord). eauto 10.
Qed.
(** Looking a position up gives the parameter at this position, and the other way round, in a function whose parameters are all
    named (Go allows either that or none to be named) and distinct. *)
Lemma param_ident_names_spec t names pos :
  match param_ident_names t names pos with
  | inl i => exists q, t = pos + q /\ names !! q = Some i
  | inr p => p = pos + length names /\ (t < pos \/ p <= t)
  end.
Proof.
  revert pos. induction names as [|n names IH]; intros pos; cbn [param_ident_names length]; [lia|].
  case_decide as Hp; [exists 0; split; [lia|done]|]. specialize (IH (S pos)).
  destruct (param_ident_names t names (S pos)) as [i|p].
  - destruct IH as (q&->&Hq). exists (S q). split; [lia|done].
  - lia.
Qed.
Lemma param_ident_spec t fields pos : (forall f, f ∈ fields -> f_names f <> []) -> pos <= t ->
  param_ident t fields pos = concat (map f_names fields) !! (t - pos).
Proof.
  revert pos. induction fields as [|f fields IH]; intros pos Hn Hle; cbn [param_ident map concat]; [done|].
  pose proof (param_ident_names_spec t (f_names f) pos) as H.
  destruct (f_names f) as [|n0 names0] eqn:En; [by destruct (Hn f); [left|]|]. rewrite <-En in *.
  destruct (param_ident_names t (f_names f) pos) as [i|p].
  - destruct H as (q&->&Hq). replace (pos + q - pos) with q by lia. symmetry. by apply lookup_app_l_Some.
  - destruct H as [-> Hor]. rewrite IH; [|intros f' ?; apply Hn; by right|lia]. rewrite lookup_app_r by lia. f_equal. lia.
Qed.
Theorem C24_position_to_parameter ft p : (forall f, f ∈ ft_params ft -> f_names f <> []) ->
  getParamIdent ft p = param_list ft !! p.
Proof. intros Hn. unfold getParamIdent, param_list. rewrite param_ident_spec by (done || lia). by rewrite Nat.sub_0_r. Qed.
Lemma param_position_names_spec o names pos :
  match param_position_names o names pos with
  | inl p => exists q i, p = pos + q /\ names !! q = Some i /\ i_obj i = Some o /\ forall k j, k < q -> names !! k = Some j -> i_obj j <> Some o
  | inr p => p = pos + length names /\ forall k j, names !! k = Some j -> i_obj j <> Some o
  end.
Proof.
  revert pos. induction names as [|n names IH]; intros pos; cbn [param_position_names length]; [by split; [lia|]|].
  case_decide as Hn.
  - exists 0, n. split; [lia|]. split; [done|]. split; [done|]. intros k j Hk. lia.
  - specialize (IH (S pos)). destruct (param_position_names o names (S pos)) as [p|p].
    + destruct IH as (q&i&->&Hq&Hi&Hf). exists (S q), i. split; [lia|]. split; [done|]. split; [done|].
      intros [|k] j Hk Hj; [by injection Hj as <-|]. apply (Hf k); [lia|done].
    + destruct IH as [-> Hf]. split; [lia|]. intros [|k] j Hj; [by injection Hj as <-|]. by apply (Hf k).
Qed.
Lemma param_position_spec o fields pos : (forall f, f ∈ fields -> f_names f <> []) ->
  match param_position o fields pos with
  | Some p => exists q i, p = pos + q /\ concat (map f_names fields) !! q = Some i /\ i_obj i = Some o /\
      forall k j, k < q -> concat (map f_names fields) !! k = Some j -> i_obj j <> Some o
  | None => forall k j, concat (map f_names fields) !! k = Some j -> i_obj j <> Some o
  end.
Proof.
  revert pos. induction fields as [|f fields IH]; intros pos Hne; cbn [param_position map concat]; [done|].
  pose proof (param_position_names_spec o (f_names f) pos) as Hn.
  destruct (f_names f) as [|n0 names0] eqn:En; [by destruct (Hne f); [left|]|]. rewrite <-En in *.
  destruct (param_position_names o (f_names f) pos) as [p|p].
  - destruct Hn as (q&i&->&Hq&Hi&Hf). exists q, i. split; [done|]. split; [by apply lookup_app_l_Some|]. split; [done|].
    intros k j Hk Hj. apply (Hf k); [done|]. rewrite lookup_app_l in Hj; [done|]. apply lookup_lt_Some in Hq. lia.
  - destruct Hn as [-> Hn]. specialize (IH (pos + length (f_names f)) ltac:(intros ? ?; apply Hne; by right)).
    destruct (param_position o fields (pos + length (f_names f))) as [p|].
    + destruct IH as (q&i&->&Hq&Hi&Hf). exists (length (f_names f) + q), i. split; [lia|]. split.
      { rewrite lookup_app_r by lia. by replace (length (f_names f) + q - length (f_names f)) with q by lia. }
      split; [done|]. intros k j Hk Hj. apply lookup_app_Some in Hj as [Hj|[Hl Hj]]; [by apply (Hn k)|].
      apply (Hf (k - length (f_names f))); [lia|done].
    + intros k j Hj. apply lookup_app_Some in Hj as [Hj|[Hl Hj]]; [by apply (Hn k)|]. by apply (IH _ _ Hj).
Qed.
Theorem C24_parameter_to_position ft i p : (forall f, f ∈ ft_params ft -> f_names f <> []) ->
  (forall p q j k, param_list ft !! p = Some j -> param_list ft !! q = Some k -> i_obj j = i_obj k -> p = q) ->
  getParamPosition ft i = Some p <-> exists j, param_list ft !! p = Some j /\ i_obj i = i_obj j /\ i_obj i <> None.
Proof.
  intros Hn Hinj. unfold getParamPosition. destruct (i_obj i) as [o|]; [|split; [done|by intros (?&_&_&?)]].
  pose proof (param_position_spec o (ft_params ft) 0 Hn) as H. fold (param_list ft) in H. destruct (param_position o (ft_params ft) 0) as [p'|].
  - destruct H as (q&j&->&Hq&Hj&_). cbn [Nat.add] in *. split.
    + intros [= <-]. exists j. by rewrite Hj.
    + intros (j'&Hp&Ho&_). f_equal. eapply Hinj; [done|done|congruence].
  - split; [done|]. intros (j&Hp&Ho&_). by destruct (H p j).
Qed.
End claims.
