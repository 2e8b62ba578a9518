(** * Facts about annotations (C08, C09). *)
From Coq Require Import Ascii String ZifyBool ZifyN ZifyNat.
From stdpp Require Import base list sorting gmap.
From Verif Require Import GoString ErrorCode Annotation SpecSpace SpecCodes SpecAnnotation
  GoStringProofs ErrorCodeProofs.
Local Open Scope N_scope.

Lemma trim_padded p t : trim_space p = t <-> padded p t /\ ~ starts_with_space t /\ ~ ends_with_space t.
Proof.
  split.
  - intros <-. destruct (trim_space_spec p) as (l&r&Hl&Hr&Heq&H1&H2).
    split_and!; [|done|done]. exists l, r. done.
  - intros ((w&w'&Hw&Hw'&->)&H1&H2). by apply trim_space_unique.
Qed.
Lemma valid_not_space c : valid_code c -> ~ starts_with_space c /\ ~ ends_with_space c.
Proof. intros Hv. apply valid_code_trim in Hv. by apply (proj1 (trim_padded c c)) in Hv as (_&?&?). Qed.
Lemma trim_padded_valid p c : valid_code c -> trim_space p = c <-> padded p c.
Proof. intros Hv. rewrite trim_padded. pose proof (valid_not_space c Hv). tauto. Qed.

Lemma extract_codes_loop_spec parts R s :
  extract_codes_loop R parts = inl s <->
  exists cs, Forall2 (fun p c => valid_code c /\ padded p c) parts cs /\ s = list_to_set cs ∪ R.
Proof.
  revert R. induction parts as [|p parts IH]; intros R; cbn.
  - split.
    + intros [= <-]. exists []. split; [constructor|]. cbn. set_solver.
    + intros (cs&HF&->). inversion HF; subst. cbn. f_equal. set_solver.
  - destruct (isErrorCodeValid (trim_space p)) eqn:Hv.
    + apply isErrorCodeValid_correct in Hv. rewrite IH. split.
      * intros (cs&HF&->). exists (trim_space p :: cs). split.
        -- constructor; [|done]. split; [done|]. by apply trim_padded_valid.
        -- cbn. set_solver.
      * intros (cs&HF&->). inversion HF as [|? c ? cs' [Hc Hp] HF']; subst. exists cs'. split; [done|].
        apply trim_padded_valid in Hp as ->; [|done]. cbn. set_solver.
    + split; [done|]. intros (cs&HF&->). inversion HF as [|? c ? cs' [Hc Hp] HF']; subst.
      apply trim_padded_valid in Hp; [|done]. apply isErrorCodeValid_correct in Hc. congruence.
Qed.
Lemma extract_codes_spec ann s :
  extractCodesFromStringAnnotation ann = inl s <-> exists cs, code_list ann cs /\ s = list_to_set cs.
Proof.
  unfold extractCodesFromStringAnnotation. case_decide as Hd.
  - split.
    + intros [= <-]. exists []. split; [|done]. constructor. by apply trim_space_nil_inv.
    + intros (cs&Hl&->). destruct Hl as [? ?|parts cs Hne HF]; [done|].
      exfalso. destruct HF as [|p c parts cs (Hv&Hp&_) HF]; [done|].
      assert (exists t, join [44] (p :: parts) = p ++ t) as [t Ht].
      { destruct parts as [|q parts]; [exists []; by rewrite app_nil_r|]. cbn. eexists. done. }
      rewrite Ht in Hd. destruct Hp as (w&w'&Hw&Hw'&->). rewrite <-app_assoc in Hd.
      rewrite trim_space_white_l in Hd by done. destruct (valid_code_chars _ Hv) as [|b c' Hb _].
      { by destruct (valid_code_nonempty [] Hv). }
      cbn [app] in Hd. rewrite trim_space_head in Hd; [done|]. by apply alnum_nonspace.
  - rewrite extract_codes_loop_spec. split.
    + intros (cs&HF&->). exists cs. rewrite union_empty_r_L. split; [|done].
      rewrite <-(join_split 44 ann). apply code_list_some.
      * intros ->. inversion HF as [E|]. by apply (split_on_nonempty 44 ann).
      * pose proof (split_on_no_sep 44 ann) as Hs. change comma with 44 in HF. revert Hs.
        induction HF as [|p c ps cs [Hv Hp] HF IH]; constructor; apply Forall_cons in Hs as [? ?]; [done|auto].
    + intros (cs&Hl&->). exists cs. rewrite union_empty_r_L. split; [|done].
      destruct Hl as [s Hw|parts cs Hne HF]; [by rewrite trim_space_white in Hd|].
      change comma with 44. rewrite split_on_join.
      * eapply Forall2_impl; [exact HF|]. by intros ? ? (?&?&_).
      * intros ->. by inversion HF; subst.
      * clear -HF. induction HF as [|p c ps cs (_&_&?) HF IH]; by constructor.
Qed.

Definition mods_result (R : annotation) (ms : list (bool * gostring)) : annotation :=
  Annotation (an_shouldOverwrite R) (an_overwrite R)
    (codes_signed true ms ∪ an_addCodes R) (codes_signed false ms ∪ an_subCodes R).

Lemma sign_nonspace b : ascii_nonspace (if b : bool then 43 else 45).
Proof. by destruct b; split. Qed.
Lemma signed_not_space m : valid_code m.2 -> ~ starts_with_space (signed m) /\ ~ ends_with_space (signed m).
Proof.
  intros Hv. unfold signed. split; [apply not_starts, sign_nonspace|].
  inversion Hv as [a Ha Heq|a mm z Ha Hm Hz Heq].
  - apply (not_ends a [_]). apply alnum_nonspace. left. by left.
  - apply (not_ends z (_ :: a :: mm)). apply alnum_nonspace. by left.
Qed.
Lemma codes_signed_cons b m ms :
  codes_signed b (m :: ms) = (if decide (m.1 = b) then {[ m.2 ]} else ∅) ∪ codes_signed b ms.
Proof. unfold codes_signed. rewrite filter_cons. case_decide; cbn; set_solver. Qed.

Lemma extract_mods_loop_sound parts R a : Forall (fun p => 32 ∉ p) parts ->
  extract_mods_loop R parts = inl a -> exists ms, mod_parts parts ms /\ a = mods_result R ms.
Proof.
  intros HF. revert R. induction HF as [|p parts Hp HF IH]; intros R; cbn.
  - intros [= <-]. exists []. split; [constructor|]. unfold mods_result, codes_signed. cbn.
    rewrite !union_empty_l_L. by destruct R.
  - destruct (trim_space p) as [|sg code] eqn:Ht.
    + intros (ms&Hms&->)%IH. exists ms. split; [|done]. constructor; [by apply trim_space_nil_inv|done|done].
    + destruct (negb (sg =? 43) && negb (sg =? 45)) eqn:Hs; [done|].
      destruct (isErrorCodeValid code) eqn:Hv; [|done]. apply isErrorCodeValid_correct in Hv.
      apply trim_padded in Ht as (Ht&_&_).
      destruct (sg =? 43) eqn:E43.
      * apply N.eqb_eq in E43 as ->. intros (ms&Hms&->)%IH. exists ((true, code) :: ms). split.
        -- by constructor.
        -- unfold mods_result. rewrite !codes_signed_cons. cbn. rewrite decide_True by done. rewrite decide_False by done.
           f_equal; set_solver.
      * assert (sg = 45) as -> by (destruct (N.eqb_spec sg 45); [done|discriminate]).
        intros (ms&Hms&->)%IH. exists ((false, code) :: ms). split.
        -- by constructor.
        -- unfold mods_result. rewrite !codes_signed_cons. cbn. rewrite decide_False by done. rewrite decide_True by done.
           f_equal; set_solver.
Qed.
Lemma extract_mods_loop_complete parts ms R : mod_parts parts ms ->
  extract_mods_loop R parts = inl (mods_result R ms).
Proof.
  intros H. revert R. induction H as [|p ps ms Hw Hn H IH|p m ps ms Hv Hp Hn H IH]; intros R; cbn.
  - unfold mods_result, codes_signed. cbn. rewrite !union_empty_l_L. by destruct R.
  - by rewrite trim_space_white.
  - destruct (signed_not_space m Hv) as [H1 H2].
    assert (trim_space p = signed m) as -> by by apply trim_padded.
    unfold signed. apply isErrorCodeValid_correct in Hv. destruct m as [[|] c]; cbn in *; rewrite Hv, IH; f_equal;
      unfold mods_result; rewrite !codes_signed_cons; cbn.
    + rewrite decide_True by done. rewrite decide_False by done. f_equal; set_solver.
    + rewrite decide_False by done. rewrite decide_True by done. f_equal; set_solver.
Qed.
Lemma mod_parts_no32 parts ms : mod_parts parts ms -> Forall (fun p => 32 ∉ p) parts.
Proof. induction 1; by constructor. Qed.

Definition request_annotation (q : request) : annotation :=
  match q with
  | Overwrite cs => Annotation true cs ∅ ∅
  | Modify add sub => Annotation false ∅ add sub
  end.

Lemma extract_mods_spec line a :
  line <> [] ->
  extractCodeModificationsFromStringAnnotation empty_annotation line = inl a <->
  exists ms, mod_list line ms /\ a = request_annotation (Modify (codes_signed true ms) (codes_signed false ms)).
Proof.
  intros Hne. unfold extractCodeModificationsFromStringAnnotation. change space with 32.
  assert (forall ms, mods_result empty_annotation ms = request_annotation (Modify (codes_signed true ms) (codes_signed false ms))) as Hres.
  { intros ms. unfold mods_result, empty_annotation. cbn. by rewrite !union_empty_r_L. }
  split.
  - intros (ms&Hms&->)%extract_mods_loop_sound; [|apply split_on_no_sep].
    exists ms. split; [|done]. exists (split_on 32 line). split; [by rewrite join_split|done].
  - intros (ms&(parts&->&Hms)&->). rewrite split_on_join.
    + rewrite (extract_mods_loop_complete _ _ _ Hms). by rewrite Hres.
    + by intros ->.
    + by eapply mod_parts_no32.
Qed.

Lemma request_annotation_inj q q' : request_annotation q = request_annotation q' -> q = q'.
Proof. destruct q, q'; cbn; congruence. Qed.

(** The text "+=..." cannot be a list of signed codes. *)
Lemma mods_not_eq sg t ms : sg = 43 \/ sg = 45 -> ~ mod_list (sg :: 61 :: t) ms.
Proof.
  intros Hsg (parts&Heq&Hp).
  destruct Hp as [|p ps ms Hw Hn Hp|p m ps ms Hv Hpad Hn Hp]; [done| |].
  - destruct p as [|b p].
    { destruct ps; cbn in Heq; [done|]. destruct Hsg; subst; injection Heq; done. }
    assert (b = sg) as -> by (destruct ps; cbn in Heq; by injection Heq).
    apply trim_space_white in Hw. rewrite trim_space_head in Hw; [done|]. by destruct Hsg; subst.
  - destruct (signed_not_space m Hv) as [H1 H2].
    assert (trim_space p = signed m) as Ht by by apply trim_padded.
    destruct p as [|b p]; [done|].
    assert (b = sg) as -> by (destruct ps; cbn in Heq; by injection Heq).
    rewrite trim_space_head in Ht by (by destruct Hsg; subst). unfold signed in Ht. injection Ht as _ Ht.
    destruct p as [|b p].
    { cbn in Ht. rewrite <-Ht in Hv. by apply valid_code_nonempty in Hv. }
    assert (b = 61) as -> by (destruct ps; cbn in Heq; by injection Heq).
    assert (trim_right (61 :: p) = 61 :: trim_right p) as Hr by (by apply (trim_right_after [] 61)).
    rewrite Hr in Ht. destruct m as [bb c]. cbn in *. subst c.
    apply valid_code_chars in Hv. apply Forall_cons in Hv as [[Ha|Ha] _]; [|done].
    unfold alnum, letter in Ha. lia.
Qed.

Lemma parse_annotation_line_spec line a :
  parse_annotation_line line = inl a <-> exists q, annotation_text line q /\ a = request_annotation q.
Proof.
  split.
  - destruct line as [|c rest]; [done|]. cbn [parse_annotation_line].
    destruct (N.eqb_spec c 61) as [->|N1].
    { destruct (extractCodesFromStringAnnotation rest) as [s|e] eqn:E; [|done]. intros [= <-].
      apply extract_codes_spec in E as (cs&Hcs&->). exists (Overwrite (list_to_set cs)). split; [|done].
      by apply (ann_set rest). }
    assert (forall sg, c = sg -> sg = 43 \/ sg = 45 ->
      extractCodeModificationsFromStringAnnotation empty_annotation (c :: rest) = inl a ->
      exists q, annotation_text (c :: rest) q /\ a = request_annotation q) as Hmod.
    { intros sg -> Hsg (ms&Hms&->)%extract_mods_spec; [|done]. eexists. split; [|done]. constructor; [done|].
      exists rest. destruct Hsg as [->| ->]; [by left|by right]. }
    destruct (N.eqb_spec c 43) as [->|N2].
    { destruct rest as [|c1 rest]; [eapply Hmod; eauto|].
      destruct (N.eqb_spec c1 61) as [->|N3]; [|eapply Hmod; eauto].
      destruct (extractCodesFromStringAnnotation rest) as [s|e] eqn:E; [|done]. intros [= <-].
      apply extract_codes_spec in E as (cs&Hcs&->). exists (Modify (list_to_set cs) ∅). split; [|done].
      by apply (ann_add rest). }
    destruct (N.eqb_spec c 45) as [->|N4]; [|done].
    destruct rest as [|c1 rest]; [eapply Hmod; eauto|].
    destruct (N.eqb_spec c1 61) as [->|N3]; [|eapply Hmod; eauto].
    destruct (extractCodesFromStringAnnotation rest) as [s|e] eqn:E; [|done]. intros [= <-].
    apply extract_codes_spec in E as (cs&Hcs&->). exists (Modify ∅ (list_to_set cs)). split; [|done].
    by apply (ann_sub rest).
  - intros (q&Hq&->). destruct Hq as [s cs Hcs|s cs Hcs|s cs Hcs|s ms Hms [t Ht]].
    + assert (extractCodesFromStringAnnotation s = inl (list_to_set cs)) as E by (apply extract_codes_spec; eauto).
      cbn. by rewrite E.
    + assert (extractCodesFromStringAnnotation s = inl (list_to_set cs)) as E by (apply extract_codes_spec; eauto).
      cbn. by rewrite E.
    + assert (extractCodesFromStringAnnotation s = inl (list_to_set cs)) as E by (apply extract_codes_spec; eauto).
      cbn. by rewrite E.
    + assert (s <> []) as Hne by (by destruct Ht as [->| ->]).
      assert (extractCodeModificationsFromStringAnnotation empty_annotation s =
        inl (request_annotation (Modify (codes_signed true ms) (codes_signed false ms)))) as E.
      { apply extract_mods_spec; eauto. }
      destruct Ht as [->| ->]; cbn [str app list_ascii_of_string map] in *.
      * change (N_of_ascii "+") with 43 in *. cbn [parse_annotation_line]. cbn [N.eqb Pos.eqb].
        destruct t as [|c1 t]; [done|]. destruct (N.eqb_spec c1 61) as [->|]; [|done].
        exfalso. by apply (mods_not_eq 43 t ms); [left|].
      * change (N_of_ascii "-") with 45 in *. cbn [parse_annotation_line]. cbn [N.eqb Pos.eqb].
        destruct t as [|c1 t]; [done|]. destruct (N.eqb_spec c1 61) as [->|]; [|done].
        exfalso. by apply (mods_not_eq 45 t ms); [right|].
Qed.

Lemma annotation_text_fun t q q' : annotation_text t q -> annotation_text t q' -> q = q'.
Proof.
  intros H1 H2. apply request_annotation_inj.
  assert (parse_annotation_line t = inl (request_annotation q)) as E1 by (apply parse_annotation_line_spec; eauto).
  assert (parse_annotation_line t = inl (request_annotation q')) as E2 by (apply parse_annotation_line_spec; eauto).
  congruence.
Qed.

(** ** Recognising annotation lines *)
Lemma annotation_line_model l :
  (has_prefix (trim_space l) annotation_indicator = true /\
   annotation_line l (trim_space (trim_prefix (trim_space l) annotation_indicator)))
  \/ (has_prefix (trim_space l) annotation_indicator = false /\ plain_comment l).
Proof.
  destruct (has_prefix (trim_space l) annotation_indicator) eqn:Hp; [left|right]; (split; [done|]).
  - apply has_prefix_spec in Hp as [t Ht]. rewrite Ht, trim_prefix_app.
    destruct (trim_space_spec l) as (w&w'&Hw&Hw'&Heq&_&_). rewrite Ht in Heq.
    exists w, (t ++ w'). split_and!; [done|by rewrite Heq at 1; rewrite <-!app_assoc| | |].
    all: rewrite <-(trim_space_white_r w' t) by done; by apply (trim_padded (t ++ w') _).
  - intros (text&w&t&Hw&->&_). apply has_prefix_false in Hp. apply Hp.
    rewrite trim_space_white_l by done. exists (trim_right t).
    change (str "Error Codes" ++ t) with (69 :: (str "rror Codes" ++ t)). rewrite trim_space_head by done.
    change (annotation_indicator ++ trim_right t) with (69 :: str "rror Codes" ++ trim_right t). f_equal.
    apply (trim_right_after (str "rror Code") 115). done.
Qed.
Lemma annotation_line_text l text : annotation_line l text ->
  has_prefix (trim_space l) annotation_indicator = true /\
  trim_space (trim_prefix (trim_space l) annotation_indicator) = text.
Proof.
  intros Hl. destruct (annotation_line_model l) as [[Hp Hl']|[_ Hno]]; [|destruct Hno; eauto].
  split; [done|]. destruct Hl as (w&t&Hw&->&Hpad&H1&H2).
  rewrite trim_space_white_l by done.
  change (str "Error Codes" ++ t) with (69 :: (str "rror Codes" ++ t)). rewrite trim_space_head by done.
  assert (trim_right (str "rror Codes" ++ t) = str "rror Codes" ++ trim_right t) as ->.
  { by apply (trim_right_after (str "rror Code") 115). }
  change (69 :: str "rror Codes" ++ trim_right t) with (annotation_indicator ++ trim_right t).
  rewrite trim_prefix_app.
  destruct (trim_right_spec t) as (w'&Hw'&Heq&_).
  rewrite <-(trim_space_white_r w' (trim_right t)) by done. rewrite <-Heq. by apply trim_padded.
Qed.
Lemma annotation_lines_total ls : exists ts, annotation_lines ls ts.
Proof.
  induction ls as [|l ls [ts IH]]; [eexists; constructor|].
  destruct (annotation_line_model l) as [[_ H]|[_ H]]; eexists; [by eapply al_text|by apply al_plain].
Qed.

Lemma annotation_text_nonempty t q : annotation_text t q -> t <> [].
Proof. destruct 1 as [| | |s ms Hms [t [->| ->]]]; done. Qed.

(** ** The loop *)
Lemma annotation_loop_none ls R : annotation_lines ls [] -> annotation_loop R ls = (R, []).
Proof.
  remember [] as ts eqn:Ets. induction 1 as [|l ls ts Hl Hls IH|l t ls ts Hl Hls IH]; [done| |done].
  cbn [annotation_loop]. destruct (annotation_line_model l) as [[_ H]|[-> _]]; [destruct Hl; eauto|]. cbn. by apply IH.
Qed.
Lemma annotation_loop_cons ls t ts R : annotation_lines ls (t :: ts) ->
  exists ls', annotation_lines ls' ts /\
  annotation_loop R ls =
    if decide (t = []) then (None, [AnnExpectedOperator])
    else let multiple := match R with Some _ => [AnnMultiple] | None => [] end in
         match parse_annotation_line t with
         | inr e => (None, multiple ++ [e])
         | inl a => let '(r, ds) := annotation_loop (Some a) ls' in (r, multiple ++ ds)
         end.
Proof.
  remember (t :: ts) as ts0 eqn:Ets. induction 1 as [|l ls ts' Hl Hls IH|l t' ls ts' Hl Hls IH]; [done| |].
  - cbn [annotation_loop]. destruct (annotation_line_model l) as [[_ H]|[-> _]]; [destruct Hl; eauto|]. cbn. by apply IH.
  - injection Ets as -> ->. exists ls. split; [done|]. cbn [annotation_loop]. cbv zeta.
    destruct (annotation_line_text l t Hl) as [-> ->]. done.
Qed.

Lemma comment_lines_model groups : groups <> [] ->
  getReturnStmtAnnotations groups = annotation_loop None (comment_lines groups).
Proof. by destruct groups. Qed.

(** No annotation line: no annotation, no diagnostic. *)
Lemma no_annotation groups : annotation_lines (comment_lines groups) [] -> getReturnStmtAnnotations groups = (None, []).
Proof.
  intros H. destruct groups as [|g gs]; [done|]. rewrite comment_lines_model by done. by apply annotation_loop_none.
Qed.
(** One annotation line. *)
Lemma one_annotation groups t : annotation_lines (comment_lines groups) [t] ->
  (exists q, annotation_text t q /\ getReturnStmtAnnotations groups = (Some (request_annotation q), [])) \/
  ((~ exists q, annotation_text t q) /\ exists d, getReturnStmtAnnotations groups = (None, [d])).
Proof.
  intros H. destruct groups as [|g gs].
  { inversion H as [|? ? ? Hp Hn|? ? ? ? Hp Hn]; subst; [by inversion Hn|].
    exfalso. destruct Hp as (w&t'&_&Heq&_). by destruct w. }
  rewrite comment_lines_model by done.
  destruct (annotation_loop_cons _ _ _ None H) as (ls'&Hls'&->). case_decide as Hd.
  - right. split; [|eauto]. intros [q Hq]. by apply annotation_text_nonempty in Hq.
  - destruct (parse_annotation_line t) as [a|e] eqn:E.
    + left. apply parse_annotation_line_spec in E as (q&Hq&->). exists q. split; [done|].
      by rewrite annotation_loop_none.
    + right. split; [|cbn; eauto]. intros [q Hq].
      assert (parse_annotation_line t = inl (request_annotation q)) by (apply parse_annotation_line_spec; eauto).
      congruence.
Qed.
(** Several annotation lines are always reported. *)
Lemma several_annotations groups t t' ts : annotation_lines (comment_lines groups) (t :: t' :: ts) ->
  (getReturnStmtAnnotations groups).2 <> [].
Proof.
  intros H. destruct groups as [|g gs].
  { inversion H as [|? ? ? Hp Hn|? ? ? ? Hp Hn]; subst; by inversion Hn. }
  rewrite comment_lines_model by done.
  destruct (annotation_loop_cons _ _ _ None H) as (ls'&Hls'&->). case_decide; [done|].
  destruct (parse_annotation_line t) as [a|e]; [|done].
  destruct (annotation_loop_cons _ _ _ (Some a) Hls') as (ls2&Hls2&->). case_decide; [done|]. cbn.
  destruct (parse_annotation_line t') as [a'|e]; [|done].
  by destruct (annotation_loop (Some a') ls2).
Qed.
(** A malformed annotation line anywhere: reported, and no annotation is in effect. *)
Lemma annotation_loop_malformed ls ts R : annotation_lines ls ts ->
  (exists t, t ∈ ts /\ ~ exists q, annotation_text t q) ->
  (annotation_loop R ls).1 = None /\ (annotation_loop R ls).2 <> [].
Proof.
  revert ls R. induction ts as [|t ts IH]; intros ls R Hls (t'&Hin&Hbad); [by apply elem_of_nil in Hin|].
  destruct (annotation_loop_cons _ _ _ R Hls) as (ls'&Hls'&->). case_decide; [done|].
  destruct (parse_annotation_line t) as [a|e] eqn:E; [|cbn; split; [done|]; by destruct R].
  apply elem_of_cons in Hin as [->|Hin].
  - apply parse_annotation_line_spec in E as (q&Hq&_). destruct Hbad; eauto.
  - destruct (IH ls' (Some a) Hls') as [H1 H2]; [eauto|].
    destruct (annotation_loop (Some a) ls') as [r ds]. cbn in *. split; [done|]. destruct R; [done|]. done.
Qed.
Lemma malformed_annotation groups ts : annotation_lines (comment_lines groups) ts ->
  (exists t, t ∈ ts /\ ~ exists q, annotation_text t q) ->
  (getReturnStmtAnnotations groups).1 = None /\ (getReturnStmtAnnotations groups).2 <> [].
Proof.
  intros H Hbad. destruct groups as [|g gs].
  { exfalso. inversion H as [|? ? ? Hp Hn|? ? ? ? Hp Hn]; subst; inversion Hn; subst.
    - destruct Hbad as (?&?&_). by eapply elem_of_nil.
    - destruct Hp as (w&t'&_&Heq&_). by destruct w. }
  rewrite comment_lines_model by done. by eapply annotation_loop_malformed.
Qed.
(** Whatever annotation is in effect is one of the annotation lines, the last one. *)
Lemma annotation_loop_last ls ts R a : annotation_lines ls ts ->
  (annotation_loop R ls).1 = Some a ->
  (ts = [] /\ R = Some a) \/ exists t q, last ts = Some t /\ annotation_text t q /\ a = request_annotation q.
Proof.
  revert ls R. induction ts as [|t ts IH]; intros ls R Hls.
  - rewrite annotation_loop_none by done. cbn. intros ->. by left.
  - destruct (annotation_loop_cons _ _ _ R Hls) as (ls'&Hls'&->). case_decide; [done|].
    destruct (parse_annotation_line t) as [a'|e] eqn:E; [|done].
    specialize (IH ls' (Some a') Hls').
    destruct (annotation_loop (Some a') ls') as [r ds]. cbn. intros ->. right.
    destruct (IH eq_refl) as [[-> [= ->]]|(t'&q&Hl&Hq&->)].
    + apply parse_annotation_line_spec in E as (q&Hq&->). exists t, q. done.
    + exists t', q. split_and!; [|done|done]. by destruct ts.
Qed.
Lemma annotation_in_effect groups a : (getReturnStmtAnnotations groups).1 = Some a ->
  exists ts t q, annotation_lines (comment_lines groups) ts /\ last ts = Some t /\ annotation_text t q /\ a = request_annotation q.
Proof.
  intros H. destruct groups as [|g gs]; [done|]. rewrite comment_lines_model in H by done.
  destruct (annotation_lines_total (comment_lines (g :: gs))) as [ts Hts].
  destruct (annotation_loop_last _ _ _ _ Hts H) as [[_ ?]|(t&q&Hl&Hq&->)]; [done|].
  exists ts, t, q. done.
Qed.

(** ** The reports *)
Lemma extract_codes_diag s e : extractCodesFromStringAnnotation s = inr e -> e = AnnInvalidCode /\ ~ exists cs, code_list s cs.
Proof.
  intros H. split.
  - unfold extractCodesFromStringAnnotation in H. case_decide; [done|].
    revert H. generalize (∅ : codeset) (split_on comma s). intros R l. revert R. induction l as [|p l IH]; intros R; cbn; [done|].
    destruct (isErrorCodeValid (trim_space p)); [apply IH|congruence].
  - intros [cs Hcs]. assert (extractCodesFromStringAnnotation s = inl (list_to_set cs)) by (apply extract_codes_spec; eauto). congruence.
Qed.
Lemma extract_mods_diag parts R e : Forall (fun p => 32 ∉ p) parts -> extract_mods_loop R parts = inr e ->
  exists good ms p item rest, parts = good ++ p :: rest /\ mod_parts good ms /\ item_of p item /\ wrong_item item e.
Proof.
  intros HF. revert R. induction HF as [|p parts Hp HF IH]; intros R; cbn; [done|].
  destruct (trim_space p) as [|sg code] eqn:Ht.
  - intros (good&ms&p'&item&rest&->&Hg&Hi&Hw)%IH. exists (p :: good), ms, p', item, rest. split_and!; [done| |done|done].
    constructor; [by apply trim_space_nil_inv|done|done].
  - apply trim_padded in Ht as (Ht1&Ht2&Ht3).
    destruct (negb (sg =? 43) && negb (sg =? 45)) eqn:Hs.
    { intros [= <-]. exists [], [], p, (sg :: code), parts. split_and!; [done|constructor|done|].
      apply andb_true_iff in Hs as [H1 H2]. apply wi_no_sign.
      - intros ->. done.
      - intros ->. done. }
    assert (sg = 43 \/ sg = 45) as Hsg.
    { destruct (N.eqb_spec sg 43); [by left|]. destruct (N.eqb_spec sg 45); [by right|]. done. }
    destruct (isErrorCodeValid code) eqn:Hv.
    2: { intros [= <-]. exists [], [], p, (sg :: code), parts. split_and!; [done|constructor|done|].
      apply wi_code; [done|]. intros Hv'%isErrorCodeValid_correct. congruence. }
    apply isErrorCodeValid_correct in Hv.
    assert (forall b, sg = (if b : bool then 43 else 45) ->
      (exists good ms p' item rest, parts = good ++ p' :: rest /\ mod_parts good ms /\ item_of p' item /\ wrong_item item e) ->
      exists good ms p' item rest, p :: parts = good ++ p' :: rest /\ mod_parts good ms /\ item_of p' item /\ wrong_item item e) as Hc.
    { intros b -> (good&ms&p'&item&rest&->&Hg&Hi&Hw). exists (p :: good), ((b, code) :: ms), p', item, rest.
      split_and!; [done| |done|done]. by constructor. }
    destruct Hsg as [->| ->]; cbn.
    + intros H%IH. by apply (Hc true).
    + intros H%IH. by apply (Hc false).
Qed.
Lemma parse_annotation_diag t e : parse_annotation_line t = inr e -> wrong_text t e.
Proof.
  destruct t as [|c rest]; cbn [parse_annotation_line]; [intros [= <-]; constructor|].
  destruct (N.eqb_spec c 61) as [->|N1].
  { destruct (extractCodesFromStringAnnotation rest) as [s|e'] eqn:E; [done|]. intros [= <-].
    apply extract_codes_diag in E as [-> E]. apply (wt_codes (str "=")); [by left|done]. }
  assert (c = 43 \/ c = 45 -> (forall r, rest <> 61 :: r) ->
    extractCodeModificationsFromStringAnnotation empty_annotation (c :: rest) = inr e -> wrong_text (c :: rest) e) as Hmod.
  { intros Hc Hr H. pose proof (split_on_no_sep 32 (c :: rest)) as HF.
    apply extract_mods_diag in H as (good&ms&p&item&rest'&Heq&Hg&Hi&Hw); [|done]. change space with 32 in Heq.
    rewrite Heq in HF. apply (wt_item _ good ms p item rest' e); [| | |done|done|done|done].
    - exists rest. destruct Hc as [->| ->]; [by left|by right].
    - intros [t [H|H]]; injection H as _ H; by apply (Hr t).
    - rewrite <-Heq. by rewrite join_split. }
  destruct (N.eqb_spec c 43) as [->|N2].
  { destruct rest as [|c1 rest]; [apply Hmod; [by left|done]|].
    destruct (N.eqb_spec c1 61) as [->|N3]; [|apply Hmod; [by left|congruence]].
    destruct (extractCodesFromStringAnnotation rest) as [s|e'] eqn:E; [done|]. intros [= <-].
    apply extract_codes_diag in E as [-> E]. apply (wt_codes (str "+=")); [by right; left|done]. }
  destruct (N.eqb_spec c 45) as [->|N4].
  { destruct rest as [|c1 rest]; [apply Hmod; [by right|done]|].
    destruct (N.eqb_spec c1 61) as [->|N3]; [|apply Hmod; [by right|congruence]].
    destruct (extractCodesFromStringAnnotation rest) as [s|e'] eqn:E; [done|]. intros [= <-].
    apply extract_codes_diag in E as [-> E]. apply (wt_codes (str "-=")); [by right; right|done]. }
  intros [= <-]. by constructor.
Qed.
Lemma extract_mods_wrong good ms p item rest d R : mod_parts good ms -> item_of p item -> wrong_item item d ->
  extract_mods_loop R (good ++ p :: rest) = inr d.
Proof.
  intros Hg (Hp&Hne&H1&H2) Hw. assert (trim_space p = item) as Ht by by apply trim_padded.
  revert R. induction Hg as [|p' ps ms Hwh Hn Hg IH|p' m ps ms Hv Hpad Hn Hg IH]; intros R; cbn.
  - rewrite Ht. destruct Hw as [b s N1 N2|b s Hb Hv].
    + apply N.eqb_neq in N1, N2. by rewrite N1, N2.
    + destruct (isErrorCodeValid s) eqn:E; [by apply isErrorCodeValid_correct in E|]. by destruct Hb as [->| ->].
  - by rewrite trim_space_white.
  - destruct (signed_not_space m Hv) as [K1 K2].
    assert (trim_space p' = signed m) as -> by by apply trim_padded.
    unfold signed. apply isErrorCodeValid_correct in Hv. destruct m as [[|] c]; cbn in *; rewrite Hv; apply IH.
Qed.
Lemma wrong_text_model t d : wrong_text t d -> parse_annotation_line t = inr d.
Proof.
  destruct 1 as [|b s N1 N2 N3|op s Hop Hs|text good ms p item rest d [t Ht] Hne Hj HF Hg Hi Hw]; [done| | |].
  - cbn. apply N.eqb_neq in N1, N2, N3. by rewrite N1, N2, N3.
  - assert (extractCodesFromStringAnnotation s = inr AnnInvalidCode) as E.
    { destruct (extractCodesFromStringAnnotation s) as [r|e] eqn:E; [|by apply extract_codes_diag in E as [-> _]].
      apply extract_codes_spec in E as (cs&Hcs&_). destruct Hs; eauto. }
    destruct Hop as [->|[->| ->]]; cbn; by rewrite E.
  - assert (extractCodeModificationsFromStringAnnotation empty_annotation text = inr d) as E.
    { unfold extractCodeModificationsFromStringAnnotation. change space with 32. rewrite Hj.
      rewrite split_on_join by (done || by destruct good). by apply (extract_mods_wrong good ms p item). }
    destruct Ht as [->| ->]; cbn [str app list_ascii_of_string map] in *.
    + change (N_of_ascii "+") with 43 in *. cbn [parse_annotation_line]. cbn [N.eqb Pos.eqb].
      destruct t as [|c1 t]; [done|]. destruct (N.eqb_spec c1 61) as [->|]; [|done].
      destruct Hne. exists t. by left.
    + change (N_of_ascii "-") with 45 in *. cbn [parse_annotation_line]. cbn [N.eqb Pos.eqb].
      destruct t as [|c1 t]; [done|]. destruct (N.eqb_spec c1 61) as [->|]; [|done].
      destruct Hne. exists t. by right.
Qed.
(** A text is well-formed or it is malformed in exactly one way. *)
Lemma wrong_text_spec t d : parse_annotation_line t = inr d <-> wrong_text t d.
Proof. split; [apply parse_annotation_diag|apply wrong_text_model]. Qed.

Lemma loop_reading ls ts R : annotation_lines ls ts ->
  exists q ds, annotation_loop (request_annotation <$> R) ls = (request_annotation <$> q, ds) /\
  ((exists qs, Forall2 annotation_text ts qs /\ q = last (option_list R ++ qs) /\
      ds = repeat AnnMultiple (length ts - match R with Some _ => 0 | None => 1 end)) \/
   (exists good qs bad rest d, ts = good ++ bad :: rest /\ Forall2 annotation_text good qs /\ wrong_text bad d /\ q = None /\
      ds = repeat AnnMultiple (match R with Some _ => 1 | None => 0 end + length good - (if decide (bad = []) then 1 else 0)) ++ [d])).
Proof.
  revert ls R. induction ts as [|t ts IH]; intros ls R Hls.
  - rewrite annotation_loop_none by done. eexists R, []. split; [done|]. left. exists []. split_and!; [constructor|by destruct R|by destruct R].
  - destruct (annotation_loop_cons _ _ _ (request_annotation <$> R) Hls) as (ls'&Hls'&->). case_decide as Ht.
    { subst t. exists None, [AnnExpectedOperator]. split; [done|]. right. exists [], [], [], ts, AnnExpectedOperator.
      split_and!; [done|constructor|constructor|done|]. rewrite decide_True by done. by destruct R. }
    destruct (parse_annotation_line t) as [a|e] eqn:E.
    + apply parse_annotation_line_spec in E as (q0&Hq0&->).
      destruct (IH ls' (Some q0) Hls') as (q&ds&Hl&Hc). cbn [fmap option_fmap option_map] in Hl. rewrite Hl.
      exists q, (match R with Some _ => [AnnMultiple] | None => [] end ++ ds). split; [by destruct R|].
      destruct Hc as [(qs&HF&->&->)|(good&qs&bad&rest&d&->&HF&Hw&->&->)].
      * left. exists (q0 :: qs). split_and!; [by constructor|by destruct R|].
        destruct R; cbn; by rewrite Nat.sub_0_r.
      * right. exists (t :: good), (q0 :: qs), bad, rest, d. split_and!; [done|by constructor|done|done|].
        rewrite app_assoc. f_equal. destruct R as [r|]; cbn [app length Nat.add]; [|done].
        case_decide; [by rewrite !Nat.sub_succ, ?Nat.sub_0_r|by rewrite ?Nat.sub_0_r].
    + apply wrong_text_spec in E. eexists None, _. split; [reflexivity|]. right. exists [], [], t, ts, e.
      split_and!; [done|constructor|done|done|]. rewrite decide_False by done. by destruct R.
Qed.
Lemma annotated_model groups : exists q ds, annotated groups q ds /\ getReturnStmtAnnotations groups = (request_annotation <$> q, ds).
Proof.
  destruct (annotation_lines_total (comment_lines groups)) as [ts Hts].
  destruct groups as [|g gs].
  { exists None, []. split; [|done]. assert (ts = []) as ->.
    { inversion Hts as [|? ? ? Hp Hn|? ? ? ? Hp Hn]; subst; inversion Hn; subst; [done|].
      destruct Hp as (w&t'&_&Heq&_). by destruct w. }
    exists []. split; [done|]. apply (rd_all [] []). constructor. }
  rewrite comment_lines_model by done.
  destruct (loop_reading _ ts None Hts) as (q&ds&Hl&Hc). exists q, ds. split; [|done]. exists ts. split; [done|].
  destruct Hc as [(qs&HF&->&->)|(good&qs&bad&rest&d&->&HF&Hw&->&->)]; [by apply rd_all|].
  by eapply rd_stop.
Qed.

(** The reading of the texts is unique. *)
Lemma wrong_not_right t d q : wrong_text t d -> annotation_text t q -> False.
Proof.
  intros H1 H2. apply wrong_text_spec in H1.
  assert (parse_annotation_line t = inl (request_annotation q)) by (apply parse_annotation_line_spec; eauto). congruence.
Qed.
Lemma wrong_text_fun t d d' : wrong_text t d -> wrong_text t d' -> d = d'.
Proof. rewrite <-!wrong_text_spec. congruence. Qed.
Lemma texts_fun ts qs qs' : Forall2 annotation_text ts qs -> Forall2 annotation_text ts qs' -> qs = qs'.
Proof.
  intros H. revert qs'. induction H as [|t q ts qs Ht H IH]; intros qs' H'; inversion H'; subst; [done|].
  f_equal; [by eapply annotation_text_fun|by apply IH].
Qed.
Lemma split_unique good bad rest good' bad' rest' qs qs' d d' :
  good ++ bad :: rest = good' ++ bad' :: rest' -> Forall2 annotation_text good qs -> Forall2 annotation_text good' qs' ->
  wrong_text bad d -> wrong_text bad' d' -> good = good' /\ bad = bad'.
Proof.
  revert good' qs qs'. induction good as [|t good IH]; intros [|t' good'] qs qs' Heq H H' Hb Hb'.
  - by injection Heq as -> ->.
  - injection Heq as <- _. inversion H' as [|? q ? ? Hq]; subst. exfalso. exact (wrong_not_right _ _ _ Hb Hq).
  - injection Heq as <- _. inversion H as [|? q ? ? Hq]; subst. exfalso. exact (wrong_not_right _ _ _ Hb' Hq).
  - injection Heq as <- Heq. inversion H; inversion H'; subst.
    edestruct (IH good') as [-> ->]; eauto.
Qed.
Lemma reading_fun ts q ds q' ds' : reading ts q ds -> reading ts q' ds' -> q = q' /\ ds = ds'.
Proof.
  intros [qs HF|good qs bad rest d -> HF Hw] [qs' HF'|good' qs' bad' rest' d' Heq HF' Hw'].
  - by rewrite (texts_fun _ _ _ HF HF').
  - subst ts. apply Forall2_app_inv_l in HF as (l1&l2&_&H2&_). inversion H2 as [|? q0 ? ? Hq]; subst. exfalso. eapply wrong_not_right; [|exact Hq]; eassumption.
  - apply Forall2_app_inv_l in HF' as (l1&l2&_&H2&_). inversion H2 as [|? q0 ? ? Hq]; subst. exfalso. eapply wrong_not_right; [|exact Hq]; eassumption.
  - destruct (split_unique good bad rest good' bad' rest' qs qs' d d' Heq HF HF' Hw Hw') as [-> ->].
    by rewrite (wrong_text_fun bad' d d' Hw Hw').
Qed.
Lemma annotation_line_fun l t t' : annotation_line l t -> annotation_line l t' -> t = t'.
Proof. intros [_ <-]%annotation_line_text [_ <-]%annotation_line_text. done. Qed.
Lemma annotation_lines_fun ls ts ts' : annotation_lines ls ts -> annotation_lines ls ts' -> ts = ts'.
Proof.
  intros H. revert ts'. induction H as [|l ls ts Hp H IH|l t ls ts Ht H IH]; intros ts' H'; inversion H'; subst; [done|by apply IH| | |].
  - destruct Hp; eauto.
  - match goal with K : plain_comment _ |- _ => destruct K; eauto end.
  - f_equal; [by eapply annotation_line_fun|by apply IH].
Qed.
Lemma annotated_fun groups q ds q' ds' : annotated groups q ds -> annotated groups q' ds' -> q = q' /\ ds = ds'.
Proof.
  intros (ts&Hts&H) (ts'&Hts'&H'). rewrite (annotation_lines_fun _ _ _ Hts' Hts) in H'. by eapply reading_fun.
Qed.
Lemma annotated_spec groups q ds : annotated groups q ds <-> getReturnStmtAnnotations groups = (request_annotation <$> q, ds).
Proof.
  destruct (annotated_model groups) as (q0&ds0&H0&E0). split.
  - intros H. by destruct (annotated_fun _ _ _ _ _ H H0) as [-> ->].
  - rewrite E0. intros [= Hq ->]. replace q with q0; [done|].
    destruct q0 as [r|], q as [r'|]; cbn in Hq; try done. injection Hq as Hq. f_equal. by apply request_annotation_inj.
Qed.

(** ** Validity of the codes *)
Definition request_codes (q : request) : codeset :=
  match q with Overwrite cs => cs | Modify add sub => add ∪ sub end.
Lemma code_list_valid s cs c : code_list s cs -> c ∈ cs -> valid_code c.
Proof.
  destruct 1 as [|parts cs _ HF]; intros Hin; [by apply elem_of_nil in Hin|].
  induction HF as [|p c' ps cs (Hv&_) HF IH]; [by apply elem_of_nil in Hin|].
  apply elem_of_cons in Hin as [->|?]; auto.
Qed.
Lemma mod_parts_valid ps ms m : mod_parts ps ms -> m ∈ ms -> valid_code m.2.
Proof.
  induction 1 as [|p ps ms Hw Hn H IH|p m' ps ms Hv Hp Hn H IH]; intros Hin; [by apply elem_of_nil in Hin|auto|].
  apply elem_of_cons in Hin as [->|?]; auto.
Qed.
Lemma elem_of_codes_signed b ms c : c ∈ codes_signed b ms <-> (b, c) ∈ ms.
Proof.
  unfold codes_signed. rewrite elem_of_list_to_set, elem_of_list_fmap. split.
  - intros ([b' c']&->&Hin). apply elem_of_list_filter in Hin as [<- Hin]. done.
  - intros Hin. exists (b, c). split; [done|]. by apply elem_of_list_filter.
Qed.
Lemma request_valid t q c : annotation_text t q -> c ∈ request_codes q -> valid_code c.
Proof.
  destruct 1 as [s cs Hcs|s cs Hcs|s cs Hcs|s ms (parts&->&Hms) _]; cbn; intros Hin.
  - apply elem_of_list_to_set in Hin. by eapply code_list_valid.
  - rewrite union_empty_r_L in Hin. apply elem_of_list_to_set in Hin. by eapply code_list_valid.
  - rewrite union_empty_l_L in Hin. apply elem_of_list_to_set in Hin. by eapply code_list_valid.
  - apply elem_of_union in Hin as [Hin|Hin]; apply elem_of_codes_signed in Hin;
      apply (mod_parts_valid _ _ _ Hms Hin).
Qed.

(** ** Written annotations *)
Lemma white_32 : white [32].
Proof. exists [[32]]. split; [|done]. constructor; [|done]. unfold space_encodings. rewrite !elem_of_cons. tauto. Qed.
Lemma join_comma cs : cs <> [] -> join [44] (map (cons 32) cs) = 32 :: join [44; 32] cs.
Proof.
  induction cs as [|c cs IH]; [done|]. intros _. destruct cs as [|c' cs]; [done|].
  cbn [map]. change (join [44] ((32 :: c) :: (32 :: c') :: map (cons 32) cs))
    with ((32 :: c) ++ [44] ++ join [44] (map (cons 32) (c' :: cs))).
  rewrite IH by done. done.
Qed.
Lemma written_code_list cs : Forall valid_code cs -> code_list (32 :: join [44; 32] cs) cs.
Proof.
  intros HF. destruct cs as [|c cs]; [constructor; apply white_32|].
  rewrite <-join_comma by done. apply code_list_some; [done|]. clear -HF.
  induction HF as [|c' cs' Hv HF IH]; [constructor|]. constructor; [|done]. split_and!; [done| |].
  - exists [32], []. split_and!; [apply white_32|exists []; split; [constructor|done]|by rewrite app_nil_r].
  - apply not_elem_of_cons. split; [done|]. apply valid_code_no_char; [done|]. unfold alnum, letter. lia.
Qed.
Lemma written_mods ms : Forall (fun m => valid_code m.2) ms -> mod_parts (map signed ms) ms.
Proof.
  induction 1 as [|m ms Hv HF IH]; [constructor|]. cbn. constructor; [done| | |done].
  - exists [], []. split_and!; [exists []; split; [constructor|done]..|by rewrite app_nil_r].
  - unfold signed. apply not_elem_of_cons. split; [by destruct m.1|].
    apply valid_code_no_char; [done|]. unfold alnum, letter. lia.
Qed.

Lemma valid_no10' c : valid_code c -> 10 ∉ c.
Proof. intros. apply valid_code_no_char; [done|]. unfold alnum, letter. lia. Qed.
Lemma join_no10 sep l : 10 ∉ sep -> Forall (fun s => 10 ∉ s) l -> 10 ∉ join sep l.
Proof.
  intros Hs. induction 1 as [|s l Hn HF IH]; [apply not_elem_of_nil|].
  destruct l as [|s' l]; [done|]. change (join sep (s :: s' :: l)) with (s ++ sep ++ join sep (s' :: l)).
  rewrite !elem_of_app. tauto.
Qed.

Lemma written_annotation op text q : annotation_text (op ++ text) q -> op <> [] ->
  Forall ascii_nonspace op -> (exists b t, op ++ text = t ++ [b] /\ ascii_nonspace b) -> 10 ∉ op ++ text ->
  getReturnStmtAnnotations [str "Error Codes " ++ op ++ text] = (Some (request_annotation q), []).
Proof.
  intros Hq Hne HF (b&t&Hend&Hb) H10.
  assert (annotation_lines (comment_lines [str "Error Codes " ++ op ++ text]) [op ++ text]) as Hal.
  { unfold comment_lines. cbn [join]. rewrite split_on_nosep.
    - eapply al_text; [|constructor]. exists [], (32 :: op ++ text). split_and!.
      + exists []. split; [constructor|done].
      + done.
      + exists [32], []. split_and!; [apply white_32|exists []; split; [constructor|done]|].
        cbn. by rewrite app_nil_r.
      + destruct op as [|o op]; [done|]. apply Forall_cons in HF as [Ho _]. by apply not_starts.
      + rewrite Hend. by apply not_ends.
    - rewrite elem_of_app. intros [H|H]; [|done]. revert H. apply (bool_decide_unpack _). vm_compute. exact I. }
  destruct (one_annotation _ _ Hal) as [(q'&Hq'&->)|[Hn _]].
  - by rewrite (annotation_text_fun _ _ _ Hq Hq').
  - destruct Hn. eauto.
Qed.
