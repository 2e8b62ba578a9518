(** * Proofs: the codes the analysis of a function finds are those of the specification. *)
From Coq Require Import Ascii String.
From stdpp Require Import base list gmap sets.
From Verif Require Import GoString ErrorCode Scc Engine SpecEngine CodeSet Annotation Constant GoAst Taint Extract Analyse
  SpecCodes SpecTaint SpecMay GoStringProofs ErrorCodeProofs CodeSetProofs TaintProofs Termination ExprProofs.

(** ** Constants *)
Lemma quoted_runes_valid is_print s : Forall (fun c => alnum c \/ c = 45%N) s -> quoted_runes_from is_print 0 s = length s.
Proof.
  induction 1 as [|b s Hb _ IH]; [done|]. cbn [quoted_runes_from].
  assert ((b < 128)%N) as Hlt. { unfold alnum, letter in Hb. lia. }
  rewrite (decode_rune_ascii b s Hlt). cbn [Nat.sub]. rewrite IH. cbn [length].
  unfold quoted_width, rune_error.
  assert ((b =? 65533)%N = false) as -> by (apply N.eqb_neq; lia). cbn [andb].
  assert (((b =? 34)%N || (b =? 92)%N) = false) as ->.
  { apply orb_false_iff. rewrite !N.eqb_neq. unfold alnum, letter in Hb. lia. }
  assert ((b <? 128)%N = true) as -> by (by apply N.ltb_lt).
  assert (between 32 b 126 = true) as ->; [|done]. apply between_true. unfold alnum, letter in Hb. lia.
Qed.
Lemma constant_spec is_print v c : c <> [] ->
  getErrorCodeFromConstant is_print v = inl c <-> v = CString c /\ valid_code c /\ length c <= 70.
Proof.
  intros Hc. unfold getErrorCodeFromConstant, unquote_of_String. destruct v as [s|]; [|split; [done|by intros [? _]]].
  split.
  - destruct (Nat.ltb_spec 72 (2 + quoted_runes_from is_print 0 s)) as [|Hle]; [done|].
    case_decide as Hs; [intros [= <-]; done|].
    destruct (isErrorCodeValid s) eqn:Ev; [|done]. intros [= <-]. apply isErrorCodeValid_correct in Ev.
    split_and!; [done|done|]. rewrite quoted_runes_valid in Hle; [lia|by apply valid_code_chars].
  - intros ([= ->]&Hv&Hl). rewrite quoted_runes_valid by (by apply valid_code_chars).
    destruct (Nat.ltb_spec 72 (2 + length c)); [lia|]. rewrite decide_False by done.
    apply isErrorCodeValid_correct in Hv. by rewrite Hv.
Qed.

(** ** Inversion of [from] *)
Section from.
Context (plan : fid -> eff diag).
Notation from := (from plan).
Lemma from_set_iff s c : from (EffSet s) c <-> c ∈ s.
Proof. split; [by inversion 1|by constructor]. Qed.
Lemma from_union_iff a b c : from (EffUnion a b) c <-> from a c \/ from b c.
Proof. apply (ad_union _ (additive_from plan c)). Qed.
Lemma from_none c : ~ from eff_none c.
Proof. apply (ad_none _ (additive_from plan c)). Qed.
Lemma from_diff_iff a s c : from (EffDiff a s) c <-> from a c /\ c ∉ s.
Proof. split; [by inversion 1|]. intros [? ?]. by constructor. Qed.
Lemma from_report_iff at_ m c : ~ from (report at_ m) c.
Proof. by inversion 1. Qed.
Lemma from_panic_iff c : ~ from EffPanic c.
Proof. by inversion 1. Qed.
Lemma from_call_iff g c : from (EffCallEdge g) c <-> may plan g c.
Proof. split; [by inversion 1|by constructor]. Qed.
Lemma from_direct_iff g c : from (EffCallDirect g) c <-> may plan g c.
Proof. split; [by inversion 1|by constructor]. Qed.
Lemma from_all_iff l c : from (eff_all l) c <-> exists x, x ∈ l /\ from x c.
Proof. apply (obs_all _ _ (additive_from plan c)). Qed.
Lemma from_discard e c : call_list e = [] -> ~ from (discard e) c.
Proof.
  induction e; cbn; intros Hc.
  - rewrite from_set_iff. set_solver.
  - apply app_nil in Hc as [? ?]. rewrite from_union_iff. intros [?|?]; [by apply IHe1|by apply IHe2].
  - rewrite from_diff_iff. intros [? _]. by apply IHe.
  - by inversion 1.
  - done.
  - done.
  - by inversion 1.
Qed.
End from.

Section may.
Context (pk : package) (lk : lookup_table) (fa : facts) (fn : func) (plan : fid -> eff diag).
Notation info := (pk_info pk).
Notation from := (from plan).
Notation M := (may plan).
Notation constant_code := (constant_code pk).

(** ** Extraction *)
Lemma from_string_expr e c : from (extractErrorCodeFromStringExpression pk fa fn e) c <-> constant_code e c.
Proof.
  unfold extractErrorCodeFromStringExpression, SpecMay.constant_code. destruct (ti_value info (node_id e)) as [v|] eqn:Ev.
  - destruct (getErrorCodeFromConstant (ti_is_print info) v) as [code|msg] eqn:Eg.
    + case_decide as Hc.
      * subst code. split; [by intros ?%from_none|]. intros ([= ->]&Hv&Hl).
        assert (c <> []) as Hne by (by apply valid_code_nonempty).
        assert (getErrorCodeFromConstant (ti_is_print info) (CString c) = inl c) by (by apply constant_spec). congruence.
      * rewrite from_set_iff, elem_of_singleton. apply constant_spec in Eg as (->&?&?); [|done]. split.
        -- by intros ->.
        -- by intros ([= ->]&_).
    + split; [by intros ?%from_report_iff|]. intros ([= ->]&Hv&Hl).
      assert (c <> []) as Hne by (by apply valid_code_nonempty).
      assert (getErrorCodeFromConstant (ti_is_print info) (CString c) = inl c) by (by apply constant_spec). congruence.
  - split; [|by intros [? _]].
    destruct (as_ident (unparen e)) as [i|]; [|by intros ?%from_report_iff].
    destruct (getParamPosition (fn_type fn) i) as [p|]; [|by intros ?%from_report_iff].
    unfold checkIfExprIsErrorCodeParam. case_decide; [by intros ?%from_none|by intros ?%from_report_iff].
Qed.
Lemma string_expr_calls e : call_list (extractErrorCodeFromStringExpression pk fa fn e) = [].
Proof.
  unfold extractErrorCodeFromStringExpression. destruct (ti_value info (node_id e)) as [v|].
  - destruct (getErrorCodeFromConstant (ti_is_print info) v); [by case_decide|done].
  - destruct (as_ident (unparen e)) as [i|]; [|done].
    destruct (getParamPosition (fn_type fn) i) as [p|]; [|done]. unfold checkIfExprIsErrorCodeParam. by case_decide.
Qed.
Lemma find_keyed_spec name elts seen :
  match find_keyed name elts seen with
  | (Some v, _) => exists before kv after key, elts = before ++ kv :: after /\
      (forall e, e ∈ before -> exists k i v', as_keyvalue e = Some (k, v') /\ as_ident k = Some i /\ i_name i <> name) /\
      as_keyvalue kv = Some (key, v) /\ (exists i, as_ident key = Some i /\ i_name i = name)
  | (None, s) => (s = true -> seen = true \/ exists e0, elts !! 0 = Some e0 /\ as_keyvalue e0 <> None) /\
      (s = false -> seen = false /\ forall e0, elts !! 0 = Some e0 -> as_keyvalue e0 = None) /\
      forall before kv after key v, elts = before ++ kv :: after ->
      (forall e, e ∈ before -> exists k i v', as_keyvalue e = Some (k, v') /\ as_ident k = Some i /\ i_name i <> name) ->
      as_keyvalue kv = Some (key, v) -> (exists i, as_ident key = Some i /\ i_name i = name) -> False
  end.
Proof.
  revert seen. induction elts as [|e elts IH]; intros seen; cbn [find_keyed].
  { split_and!; [auto|by intros ->|]. by intros [|b before] kv after key v H. }
  destruct (as_keyvalue e) as [[k v]|] eqn:Ekv.
  2: { split_and!; [auto| |].
       - intros ->. split; [done|]. intros e0 [= <-]. done.
       - intros [|b before] kv after key v H1 H2 H3 H4; injection H1 as ? ?; subst; [congruence|].
         destruct (H2 b) as (?&?&?&?&_); [by left|]. congruence. }
  destruct (as_ident k) as [i|] eqn:Ei.
  2: { split_and!; [|done|].
       - intros _. right. exists e. split; [done|]. congruence.
       - intros [|b before] kv after key v' H1 H2 H3 H4; injection H1 as ? ?; subst.
         + rewrite Ekv in H3. injection H3 as -> ->. destruct H4 as (?&?&_). congruence.
         + destruct (H2 b) as (?&?&?&?&?&_); [by left|]. congruence. }
  case_decide as Hn.
  { exists [], e, elts, k. split_and!; [done|by intros ? ?%elem_of_nil|done|eauto]. }
  specialize (IH true). destruct (find_keyed name elts true) as [[v'|] s].
  - destruct IH as (before&kv&after&key&->&H2&H3&H4). exists (e :: before), kv, after, key. split_and!; [done| |done|done].
    intros e' [->|He']%elem_of_cons; [|by apply H2]. exists k, i, v. done.
  - destruct IH as (I1&I2&I3). split_and!.
    + intros _. right. exists e. split; [done|]. congruence.
    + intros Hs. by destruct (I2 Hs).
    + intros [|b before] kv after key v' H1 H2 H3 H4; injection H1 as ? ?; subst.
      * rewrite Ekv in H3. injection H3 as -> ->. destruct H4 as (i'&?&?). congruence.
      * eapply I3; [done| |exact H3|exact H4]. intros e' He'. apply H2. by right.
Qed.
Lemma find_init_spec name pos at_ e v : find_init name pos at_ e = inl (Some v) <-> field_init name pos e v.
Proof.
  split.
  - revert at_ e. fix IH 2. intros at_ [id k kids]. cbn [find_init]. destruct k; try done.
    + destruct kids as [|x [|]]; try done. intros H. apply fi_paren. by apply (IH at_).
    + destruct is_and; [|done]. destruct kids as [|x [|]]; try done. intros H. apply fi_address. by apply (IH (node_id x)).
    + destruct kids as [|e0 es]; [done|]. clear IH. pose proof (find_keyed_spec name (e0 :: es) false) as H.
      destruct (find_keyed name (e0 :: es) false) as [[v'|] []].
      * intros [= ->]. destruct H as (before&kv&after&key&->&?&?&?). by eapply fi_key.
      * intros [= ->]. destruct H as (before&kv&after&key&->&?&?&?). by eapply fi_key.
      * done.
      * destruct ((e0 :: es) !! pos) as [v'|] eqn:El; [|done]. intros [= ->]. destruct H as (_&H&_).
        destruct (H eq_refl) as [_ H0]. eapply fi_position; [|by apply H0|exact El]. done.
  - intros H. revert at_. induction H as [id x v H IH|id x v H IH|id before key v after kv H1 H2 H3|id elts e0 v H1 H2 H3]; intros at_; cbn [find_init].
    + apply IH.
    + apply IH.
    + pose proof (find_keyed_spec name (before ++ kv :: after) false) as H.
      assert (exists e0 es, before ++ kv :: after = e0 :: es) as (e0&es&E) by (destruct before; cbn; eauto).
      rewrite E in *. destruct (find_keyed name (e0 :: es) false) as [[v'|] s].
      * destruct H as (before'&kv'&after'&key'&E'&G1&G2&G3).
        assert (before ++ kv :: after = before' ++ kv' :: after') as E2 by congruence.
        assert (forall e, (exists k i v', as_keyvalue e = Some (k, v') /\ as_ident k = Some i /\ i_name i <> name) ->
          forall k' v'', as_keyvalue e = Some (k', v'') -> (exists i, as_ident k' = Some i /\ i_name i = name) -> False) as Hex.
        { intros e (k&i&v1&?&?&?) k' v2 ? (i2&?&?). congruence. }
        assert (kv = kv') as ->.
        { clear -E2 H1 H2 H3 G1 G2 G3 Hex. revert before' E2 G1. induction before as [|b before IH]; intros [|b' before'] E2 G1; cbn in E2; injection E2 as Eb E2; subst.
          - done.
          - exfalso. eapply Hex; [apply (G1 b'); by left|exact H2|exact H3].
          - exfalso. eapply Hex; [apply (H1 kv'); by left|exact G2|exact G3].
          - eapply IH; [|exact E2|].
            + intros e He. apply H1. by right.
            + intros e He. apply G1. by right. }
        congruence.
      * destruct H as (_&_&H). exfalso. eapply (H before kv after); [by rewrite E|exact H1|exact H2|exact H3].
    + destruct elts as [|e1 es]; [done|]. injection H1 as ?; subst.
      pose proof (find_keyed_spec name (e0 :: es) false) as H.
      destruct (find_keyed name (e0 :: es) false) as [[v'|] s].
      * destruct H as ([|b before]&kv&after&key&E&G1&G2&G3); injection E as ? ?; subst; [congruence|].
        destruct (G1 b) as (?&?&?&?&_); [by left|]. congruence.
      * destruct H as (Hs&_&_). destruct s.
        -- destruct (Hs eq_refl) as [?|(e1&[= <-]&?)]; congruence.
        -- by rewrite H3.
Qed.
Lemma from_field_code e f c : from (extractFieldErrorCode pk fa fn e f) c <->
  exists v, field_init f.1 f.2 e v /\ constant_code v c.
Proof.
  unfold extractFieldErrorCode, findFieldInitExpression. destruct (find_init f.1 f.2 (node_id e) e) as [[v|]|at_] eqn:Ef.
  - rewrite from_string_expr. apply find_init_spec in Ef as Hi. split; [eauto|].
    intros (v'&Hv&?). apply (find_init_spec _ _ (node_id e)) in Hv. assert (v' = v) as -> by congruence. done.
  - split; [by intros ?%from_none|]. intros (v&Hv&_). apply (find_init_spec _ _ (node_id e)) in Hv. congruence.
  - split; [by intros ?%from_report_iff|]. intros (v&Hv&_). apply (find_init_spec _ _ (node_id e)) in Hv. congruence.
Qed.
Lemma from_affector e c : from (extractErrorCodesFromAffector pk fa fn e) c <-> value_code pk fa e c.
Proof.
  unfold extractErrorCodesFromAffector, checkErrorTypeHasLegibleCode, getErrorTypeForError, value_code.
  destruct (ti_type info (node_id e)) as [t|]; [|cbn; split; [by intros ?%from_report_iff|by intros (?&?&?&?&_)]].
  destruct (ti_implements_ree info t || ti_implements_ree info (TPointer t)) eqn:Er.
  2: { cbn. split; [by intros ?%from_report_iff|]. intros (t'&n&et&[= <-]&Hi&_). apply orb_false_iff in Er as [E1 E2].
       destruct Hi; congruence. }
  cbn [negb]. apply orb_true_iff in Er.
  destruct (getNamedType t) as [n|] eqn:En; [|split; [by intros ?%from_report_iff|intros (t'&n&et&[= <-]&_&?&_); congruence]].
  destruct (fa_type fa !! n) as [et|] eqn:Et; [|split; [by intros ?%from_report_iff|intros (t'&n'&et&[= <-]&_&?&?&_); congruence]].
  rewrite from_union_iff, from_set_iff. split.
  - intros H. exists t, n, et. split_and!; try done. destruct H as [H|H]; [by left|right].
    destruct (et_field et) as [[name pos]|]; [|by apply from_none in H].
    apply from_field_code in H as (v&?&?). exists name, pos, v. done.
  - intros (t'&n'&et'&[= <-]&_&En'&Et'&H). rewrite En in En'. injection En' as <-. rewrite Et in Et'. injection Et' as <-.
    destruct H as [H|(name&pos&v&->&?&?)]; [by left|right]. apply from_field_code. exists v. done.
Qed.
Lemma affector_calls e : call_list (extractErrorCodesFromAffector pk fa fn e) = [].
Proof.
  unfold extractErrorCodesFromAffector. destruct (negb _); [done|].
  destruct (getErrorTypeForError _ _) as [[et|]|]; try done. cbn. destruct (et_field et); [|done].
  unfold extractFieldErrorCode. destruct (findFieldInitExpression _ _ _) as [[]|]; try done. apply string_expr_calls.
Qed.

(** ** Calls *)
Lemma conversion_spec f : extractErrorCodesFromTypeConversion pk fa f <> ∅ <-> exists s, conversion_codes pk fa f s.
Proof.
  unfold extractErrorCodesFromTypeConversion, getErrorTypeForError, conversion_codes. split.
  - destruct (ti_type info (node_id f)) as [t|]; [|done]. destruct (getNamedType t) as [n|] eqn:En; [|done].
    destruct (fa_type fa !! n) as [et|] eqn:Ef; [|done]. intros H. exists (et_codes et), t, n, et. split_and!; try done.
  - by intros (s&t&n&et&->&->&->&<-&H).
Qed.
Lemma conversion_elem f s c : conversion_codes pk fa f s -> c ∈ extractErrorCodesFromTypeConversion pk fa f <-> c ∈ s.
Proof.
  intros (t&n&et&H1&H2&H3&<-&H). unfold extractErrorCodesFromTypeConversion, getErrorTypeForError. by rewrite H1, H2, H3.
Qed.
Lemma from_ctor range cal args c : from (extractErrorCodeFromConstructorCall pk fa fn range cal args) c <->
  exists o p l a, cal = Some o /\ fa_ctor fa !! o = Some p /\ args = Some l /\ l !! p = Some a /\ constant_code a c.
Proof.
  unfold extractErrorCodeFromConstructorCall. destruct cal as [o|]; [|split; [by intros ?%from_none|by intros (?&?&?&?&?&_)]].
  destruct (fa_ctor fa !! o) as [p|] eqn:Ep; [|split; [by intros ?%from_none|intros (?&?&?&?&[= <-]&?&_); congruence]].
  destruct args as [l|]; [|split; [by intros ?%from_report_iff|by intros (?&?&?&?&_&_&?&_)]].
  destruct (l !! p) as [a|] eqn:Ea.
  - rewrite from_string_expr. split; [intros; exists o, p, l, a; done|]. intros (o'&p'&l'&a'&[= <-]&H&[= <-]&?&?). congruence.
  - split; [by intros ?%from_panic_iff|]. intros (o'&p'&l'&a'&[= <-]&H&[= <-]&?&?). congruence.
Qed.
Lemma ctor_calls range cal args : call_list (extractErrorCodeFromConstructorCall pk fa fn range cal args) = [].
Proof.
  unfold extractErrorCodeFromConstructorCall. destruct cal as [o|]; [|done]. destruct (fa_ctor fa !! o) as [p|]; [|done].
  destruct args as [l|]; [|done]. destruct (l !! p); [|done]. apply string_expr_calls.
Qed.
Lemma from_dropped range cal args c : ~ from (discard (extractErrorCodeFromConstructorCall pk fa fn range cal args)) c.
Proof. apply from_discard, ctor_calls. Qed.
End may.
