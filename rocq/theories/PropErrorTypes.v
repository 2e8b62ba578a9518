(** * C25: the facts about error types. *)
From Coq Require Import Ascii String.
From stdpp Require Import base list gmap sets.
From Verif Require Import LookupProofs GoString ErrorCode Scc Engine SpecEngine CodeSet Constant GoAst Taint Extract Analyse SpecCodes SpecTaint SpecMay SpecEvents SpecLookup
  VocabularyProofs Termination ExprProofs MayProofs OwnProofs EventProofs PropLookup Phase PhaseProofs ErrorTypes SpecCodeMethod CodeMethodProofs PropCodeMethod Claims Interfaces
  Conversions Verify SpecRun RunProofs.

(** ** Effects without calls *)
Lemma eff_result_spec (plan : fid -> eff diag) e : call_list e = [] ->
  match eff_result e with
  | Ok (s, ds) => ~ panics e /\ ds = reports e /\ forall c, c ∈ s <-> from plan e c
  | Panicked => panics e
  | OutOfFuel => False
  end.
Proof.
  induction e as [s|a IHa b IHb|a IHa s|g|g|d|]; cbn [call_list eff_result panics reports]; intros Hc; try done.
  - split_and!; [by intros []|done|]. intros c. by rewrite from_set_iff.
  - apply app_nil in Hc as [Ha Hb]. specialize (IHa Ha). specialize (IHb Hb). unfold pbind.
    destruct (eff_result a) as [[s1 d1]| |]; [|by left|done]. destruct (eff_result b) as [[s2 d2]| |]; [|by right|done].
    destruct IHa as (Pa&->&Ca), IHb as (Pb&->&Cb). cbn. split_and!; [tauto|by rewrite app_nil_r|]. intros c.
    by rewrite elem_of_union, Ca, Cb, from_union_iff.
  - specialize (IHa Hc). unfold pbind. destruct (eff_result a) as [[s1 d1]| |]; [|done|done]. destruct IHa as (Pa&->&Ca). cbn.
    split_and!; [done|by rewrite app_nil_r|]. intros c. by rewrite elem_of_difference, Ca, from_diff_iff.
  - split_and!; [by intros []|done|]. intros c. split; [set_solver|]. by inversion 1.
Qed.

Section methods.
Context (pk : package) (fa : facts) (fn : func) (o : oid) (et : errortype) (name : gostring) (pos : nat) (Hfield : et_field et = Some (name, pos)).

Definition entry (rhs : list node) (same : bool) (i : nat) : eff diag :=
  if same then match rhs !! i with Some r => extractErrorCodeFromStringExpression pk fa fn r | None => EffPanic end
  else match rhs with r :: _ => report (node_id r) (str "error code has to be constant value or error code parameter") | [] => EffPanic end.
Lemma field_lhs_known O rhs same i lhs : additive O -> rhs <> [] -> (same = true -> i + length lhs <= length rhs) ->
  O (code_field_lhs pk fa fn o rhs same i lhs (Some et)) <-> exists k, field_selected o name lhs k /\ O (entry rhs same (i + k)).
Proof.
  intros HO Hne. revert i. induction lhs as [|l lhs IH]; intros i Hlen.
  { cbn. split; [by intros ?%(ad_none _ HO)|]. intros (k&(?&?&?&?&?&_)&_). by rewrite lookup_nil in *. }
  assert (O (code_field_lhs pk fa fn o rhs same (S i) lhs (Some et)) <-> exists k, field_selected o name lhs k /\ O (entry rhs same (i + S k))) as IH'.
  { rewrite IH by (intros Hs; specialize (Hlen Hs); cbn in Hlen; lia). split; intros (k&?&?); exists k; (split; [done|]);
      [by replace (i + S k) with (S i + k) by lia|by replace (S i + k) with (i + S k) by lia]. }
  assert ((exists k, field_selected o name (l :: lhs) k /\ O (entry rhs same (i + k))) <->
    (field_selected o name (l :: lhs) 0 /\ O (entry rhs same i)) \/ exists k, field_selected o name lhs k /\ O (entry rhs same (i + S k))) as ->.
  { split.
    - intros ([|k]&Hk&H); [left; by rewrite Nat.add_0_r in H|right]. exists k. done.
    - intros [[? ?]|(k&?&?)]; [exists 0; by rewrite Nat.add_0_r|exists (S k); done]. }
  rewrite <-IH'. clear IH IH'. set (rest := code_field_lhs pk fa fn o rhs same (S i) lhs (Some et)).
  cbn [code_field_lhs]. fold rest.
  assert (forall P : Prop, ~ field_selected o name (l :: lhs) 0 -> O rest <-> (field_selected o name (l :: lhs) 0 /\ P) \/ O rest) as Hskip by tauto.
  destruct (as_selector l) as [[x sel]|] eqn:Es; [|apply Hskip; intros (?&?&?&?&[= <-]&?&_); congruence].
  destruct (as_ident x) as [xi|] eqn:Ex; [|apply Hskip; intros (?&?&?&?&[= <-]&H&?&_); rewrite Es in H; injection H as <- <-; congruence].
  destruct (decide (i_obj xi <> Some o)) as [Ho|Ho%dec_stable].
  { apply Hskip. intros (?&?&?&?&[= <-]&H&H2&?&_). rewrite Es in H. injection H as <- <-. congruence. }
  rewrite Hfield. destruct (decide (name <> i_name sel)) as [Hn|Hn%dec_stable].
  { apply Hskip. intros (?&?&?&?&[= <-]&H&H2&?&?). rewrite Es in H. injection H as <- <-. congruence. }
  assert (field_selected o name (l :: lhs) 0) as Hsel by (exists l, x, sel, xi; done).
  unfold entry. destruct same; cbn [negb].
  - destruct (rhs !! i) as [r|] eqn:Er; [|apply lookup_ge_None in Er; specialize (Hlen eq_refl); cbn in Hlen; lia].
    rewrite (ad_union _ HO). tauto.
  - destruct rhs as [|r rhs]; [done|]. rewrite (ad_union _ HO). tauto.
Qed.

Context (Hrhs : forall body lhs rhs, fn_body fn = Some body -> outer_assignment body lhs rhs -> rhs <> []).
Lemma field_method O : additive O ->
  O (findCodesAssignedToErrorCodeField pk fa fn (Some et) o) <->
  exists body lhs rhs k, fn_body fn = Some body /\ outer_assignment body lhs rhs /\ field_selected o name lhs k /\
    O (entry rhs (bool_decide (length lhs = length rhs)) k).
Proof.
  intros HO. unfold findCodesAssignedToErrorCodeField. destruct (fn_body fn) as [body|] eqn:Eb.
  2: { split; [by intros ?%(ad_none _ HO)|]. by intros (?&?&?&?&?&_). }
  rewrite (obs_all _ _ HO). split.
  - intros (x&Hx&H). apply elem_of_list_fmap in Hx as ([lhs rhs]&->&Hin). apply assigns_pruned_spec in Hin as Hout.
    apply field_lhs_known in H as (k&?&?); [|done|by eapply Hrhs|intros ?%bool_decide_eq_true; lia]. exists body, lhs, rhs, k. done.
  - intros (body'&lhs&rhs&k&[= <-]&Hout&Hk&H). apply assigns_pruned_spec in Hout as Hin.
    eexists. split; [apply elem_of_list_fmap; exists (lhs, rhs); split; [reflexivity|done]|]. cbn.
    apply field_lhs_known; [done|by eapply Hrhs|intros ?%bool_decide_eq_true; lia|]. eauto.
Qed.
Lemma entry_calls rhs same k : call_list (entry rhs same k) = [].
Proof. unfold entry. destruct same; [destruct (rhs !! k); [apply string_expr_calls|done]|by destruct rhs]. Qed.
Lemma additive_no_call g : additive (fun e => g ∈ call_list (D := diag) e).
Proof. apply additive_calls. Qed.
Lemma field_method_calls : call_list (findCodesAssignedToErrorCodeField pk fa fn (Some et) o) = [].
Proof.
  destruct (call_list (findCodesAssignedToErrorCodeField pk fa fn (Some et) o)) as [|g l] eqn:E; [done|].
  assert (g ∈ call_list (findCodesAssignedToErrorCodeField pk fa fn (Some et) o)) as H by (rewrite E; by left).
  apply (field_method (fun e => g ∈ call_list e) (additive_calls g)) in H as (?&?&?&?&_&_&_&H). rewrite entry_calls in H. by apply elem_of_nil in H.
Qed.
Lemma field_method_result : exists s ds, eff_result (findCodesAssignedToErrorCodeField pk fa fn (Some et) o) = Ok (s, ds) /\
  (forall c, c ∈ s <-> code_assigned pk fn o name c) /\ forall d, d ∈ ds <-> assignment_report pk fa fn o name d.
Proof.
  pose proof (eff_result_spec (fun _ => eff_none) _ field_method_calls) as H.
  destruct (eff_result (findCodesAssignedToErrorCodeField pk fa fn (Some et) o)) as [[s ds]| |]; [| |done].
  2: { exfalso. apply (field_method panics additive_panics) in H as (body&lhs&rhs&k&Hb&Ho&Hk&H). unfold entry in H.
    pose proof (Hrhs body lhs rhs Hb Ho) as Hne. case_bool_decide as Hlen.
    - destruct (rhs !! k) as [r|] eqn:Er; [|destruct Hk as (?&?&?&?&Hl&_); apply lookup_lt_Some in Hl; apply lookup_ge_None in Er; lia].
      apply (seen_string pk fa fn r Crashed) in H. inversion H.
    - destruct rhs; [done|]. by cbn in H. }
  destruct H as (_&->&Hc). exists s, (reports (findCodesAssignedToErrorCodeField pk fa fn (Some et) o)). split; [done|]. split.
  - intros c. rewrite Hc, (field_method (fun e => from (fun _ => eff_none) e c) (additive_from _ c)). split.
    + intros (body&lhs&rhs&k&Hb&Ho&Hk&H). unfold entry in H. case_bool_decide as Hlen.
      * destruct (rhs !! k) as [r|] eqn:Er; [|by inversion H]. apply from_string_expr in H. exists body, lhs, rhs, k, r. done.
      * destruct rhs; by inversion H.
    + intros (body&lhs&rhs&k&r&Hb&Ho&Hlen&Hk&Hr&H). exists body, lhs, rhs, k. split_and!; [done..|]. unfold entry.
      rewrite bool_decide_eq_true_2 by done. rewrite Hr. by apply from_string_expr.
  - intros d. rewrite (field_method (fun e => d ∈ reports e) (additive_reports d)). split.
    + intros (body&lhs&rhs&k&Hb&Ho&Hk&H). unfold entry in H. case_bool_decide as Hlen.
      * destruct (rhs !! k) as [r|] eqn:Er; [|by apply elem_of_nil in H]. apply (seen_string pk fa fn r (Reported d)) in H. by eapply ar_value.
      * destruct rhs as [|r rs]; [by apply elem_of_nil in H|]. apply elem_of_list_singleton in H. by eapply ar_several.
    + intros [body lhs rhs k r rs Hb Ho Hk Hlen -> ->|body lhs rhs k r Hb Ho Hk Hlen Hr H]; exists body, lhs; eexists _, k; (split_and!; [done..|]); unfold entry.
      * rewrite bool_decide_eq_false_2 by done. by apply elem_of_list_singleton.
      * rewrite bool_decide_eq_true_2 by done. rewrite Hr. by apply (seen_string pk fa fn r (Reported d)).
Qed.
End methods.

(** ** The methods of a type *)
Section lookup.
Context (pk : package).
Notation info := (pk_info pk).
Notation lk := (collectFunctions pk).

Lemma receiver_field_spec f r name : declares_method pk f name -> receiver_field pk f = Some r <-> receiver_of pk f r.
Proof.
  intros (fn&d&Hf&Hd&(r'&Hr)&_). unfold receiver_field, receiver_of. rewrite Hf, Hd, Hr. split.
  - intros [= ->]. exists fn, d. done.
  - intros (?&?&[= <-]&?&?). congruence.
Qed.
Lemma receiver_field_some f name : declares_method pk f name -> exists r, receiver_field pk f = Some r.
Proof. intros (fn&d&Hf&Hd&(r&Hr)&_). unfold receiver_field. rewrite Hf, Hd, Hr. eauto. Qed.
Lemma is_method_of_spec f name err : declares_method pk f name -> is_method_of pk err f = true <-> method_for pk err f.
Proof.
  intros Hm. unfold is_method_of, method_for. destruct (receiver_field_some f name Hm) as (r&Hr). rewrite Hr.
  pose proof (proj1 (receiver_field_spec f r name Hm) Hr) as Hro. unfold errorTypesSubset. split.
  - destruct (ti_type info (f_type r)) as [t|] eqn:Et; [|done]. intros H%orb_true_iff. exists r, t. split_and!; [done..|].
    destruct H as [H|H]; [left; by apply bool_decide_eq_true in H|right]. destruct err; try done. apply bool_decide_eq_true in H. by subst.
  - intros (r'&t&Hr'&Ht&H). apply (receiver_field_spec f r' name Hm) in Hr'. rewrite Hr in Hr'. injection Hr' as <-. rewrite Ht.
    apply orb_true_iff. destruct H as [->| ->]; [left|right]; by apply bool_decide_eq_true.
Qed.
Lemma receiver_ident_spec f name : declares_method pk f name -> receiver_name pk f (receiver_ident pk f).
Proof.
  intros Hm. unfold receiver_ident, receiver_name. destruct (receiver_field_some f name Hm) as (r&Hr). rewrite Hr. exists r.
  split; [by eapply receiver_field_spec|]. by destruct (f_names r) as [|i [|]].
Qed.
Lemma receiver_name_unique f i j : receiver_name pk f i -> receiver_name pk f j -> i = j.
Proof.
  intros (r&(fn&d&Hf&Hd&Hr)&Hi) (r'&(fn'&d'&Hf'&Hd'&Hr')&Hj). assert (r' = r) as -> by congruence.
  destruct i as [i|], j as [j|]; congruence.
Qed.

Lemma methods_named name : default [] (lk_methods lk !! name) = filter (named_method pk name) (pk_decls pk).
Proof. unfold collectFunctions. rewrite methods_collected. cbn [lk_methods]. by rewrite lookup_empty. Qed.
Lemma code_func_find err : getCodeFuncFromError pk lk err =
  list_find (fun f => is_method_of pk err f = true) (filter (named_method pk (str "Code")) (pk_decls pk)) ≫= fun p => Some (p.2, receiver_ident pk p.2).
Proof. rewrite <-methods_named. unfold getCodeFuncFromError. by destruct (lk_methods lk !! str "Code"). Qed.
Lemma code_func_some err f i : getCodeFuncFromError pk lk err = Some (f, i) -> code_method pk err f /\ receiver_name pk f i /\ exists fn, pk_funcs pk !! f = Some fn.
Proof.
  rewrite code_func_find. intros (p&Hp&[= <- <-])%bind_Some. destruct p as [k f]. cbn [snd].
  pose proof (proj1 (list_find_split _ _ _) (ex_intro _ k Hp)) as (pre&post&Hl&Hx&Hno).
  apply filter_split in Hl as (pre'&post'&Hd&Hpre&Hn%named_method_spec). split_and!.
  - exists pre', post'. split_and!; [done|done|by eapply is_method_of_spec|]. intros g Hg Hgm Hgf. apply (Hno g).
    + rewrite <-Hpre. apply elem_of_list_filter. by rewrite named_method_spec.
    + by eapply is_method_of_spec.
  - by eapply receiver_ident_spec.
  - destruct Hn as (fn&?&?&_). eauto.
Qed.
Lemma code_func_none err : getCodeFuncFromError pk lk err = None -> forall f, ~ code_method pk err f.
Proof.
  rewrite code_func_find. intros H f (pre&post&Hd&Hm&Hf&Hno).
  destruct (list_find _ _) as [[k g]|] eqn:E; [done|]. apply list_find_None in E. rewrite Forall_forall in E.
  apply (E f); [apply elem_of_list_filter; rewrite named_method_spec, Hd; set_solver|by eapply is_method_of_spec].
Qed.

Lemma methods_of_type err g : g ∈ collectMethodsForErrorType pk lk err <->
  exists n name, getNamedType err = Some n /\ name ∈ ti_named_methods info n /\ g ∈ pk_decls pk /\ declares_method pk g name /\ method_for pk err g.
Proof.
  unfold collectMethodsForErrorType. destruct (getNamedType err) as [n|].
  2: { split; [by intros ?%elem_of_nil|by intros (?&?&?&_)]. }
  rewrite elem_of_list_In, in_flat_map. split.
  - intros (name&Hn&Hg). apply filter_In in Hg as [Hg Hm]. rewrite methods_named in Hg.
    apply elem_of_list_In, elem_of_list_filter in Hg as [Hnm%named_method_spec Hg]. exists n, name.
    split_and!; [done|by apply elem_of_list_In|done|done|by eapply is_method_of_spec].
  - intros (n'&name&[= <-]&Hn&Hg&Hd&Hm). exists name. split; [by apply elem_of_list_In|]. apply filter_In.
    split; [|by eapply is_method_of_spec]. rewrite methods_named. apply elem_of_list_In, elem_of_list_filter. by rewrite named_method_spec.
Qed.
Lemma type_method_spec err g gn o : type_method pk err g gn o <->
  g ∈ collectMethodsForErrorType pk lk err /\ pk_funcs pk !! g = Some gn /\ exists i, receiver_ident pk g = Some i /\ i_obj i = Some o.
Proof.
  rewrite methods_of_type. unfold type_method. split.
  - intros (n&name&i&Hn&Hname&Hg&Hd&Hm&Hgn&Hr&Ho). split; [eauto 10|]. split; [done|]. exists i. split; [|done].
    symmetry. eapply (receiver_name_unique g); [done|]. by eapply receiver_ident_spec.
  - intros ((n&name&Hn&Hname&Hg&Hd&Hm)&Hgn&i&Hr&Ho). exists n, name, i. split_and!; try done. rewrite <-Hr. by eapply receiver_ident_spec.
Qed.
End lookup.

(** ** The declarations *)
Lemma string_event_facts pk fa fa' fn e ev : fa_ctor fa = fa_ctor fa' -> string_event pk fa fn e ev -> string_event pk fa' fn e ev.
Proof.
  intros Hc [H|s H1 H2|s H1 H2 H3 H4|i p H1 H2 H3 H4|H1 H2]; [by apply se_not_string|by eapply se_too_long|by eapply se_invalid| |by apply se_dynamic].
  eapply se_parameter; [done..|]. unfold code_parameter in *. by rewrite <-Hc.
Qed.
Lemma assignment_report_facts pk fa fa' gn o name d : fa_ctor fa = fa_ctor fa' -> assignment_report pk fa gn o name d -> assignment_report pk fa' gn o name d.
Proof.
  intros Hc [body lhs rhs k r rs H1 H2 H3 H4 H5 H6|body lhs rhs k r H1 H2 H3 H4 H5 H6]; [by eapply ar_several|].
  eapply ar_value; [done..|]. by eapply string_event_facts.
Qed.

Section tag.
Context (pk : package) (fa0 : facts) (Hus : types_usable pk).
Notation info := (pk_info pk).
Notation lk := (collectFunctions pk).

Lemma methods_result fa et err name pos : fa_ctor fa = fa_ctor fa0 -> et_field et = Some (name, pos) ->
  exists s ds, analyseMethodsOfErrorType pk lk fa et err = Ok (ErrorType (et_codes et ∪ s) (Some (name, pos)), ds) /\
    (forall c, c ∈ s <-> exists g gn o, type_method pk err g gn o /\ code_assigned pk gn o name c) /\
    forall d, d ∈ ds <-> exists g gn o, type_method pk err g gn o /\ assignment_report pk fa0 gn o name d.
Proof.
  intros Hfa Hf. unfold analyseMethodsOfErrorType. rewrite Hf.
  match goal with |- context [pfold ?f _ _] => set (step := f) end.
  set (ms := collectMethodsForErrorType pk lk err).
  assert (forall l a, l ⊆ ms -> exists s ds, pfold step a l = Ok (a ∪ s, ds) /\
    (forall c, c ∈ s <-> exists g gn o, g ∈ l /\ type_method pk err g gn o /\ code_assigned pk gn o name c) /\
    forall d, d ∈ ds <-> exists g gn o, g ∈ l /\ type_method pk err g gn o /\ assignment_report pk fa0 gn o name d) as Hfold.
  { induction l as [|g l IH]; intros a Hsub.
    { exists ∅, []. split; [by rewrite union_empty_r_L|]. split.
      - intros c. split; [set_solver|]. by intros (?&?&?&?%elem_of_nil&_).
      - intros d. split; [by intros ?%elem_of_nil|]. by intros (?&?&?&?%elem_of_nil&_). }
    assert (exists s ds, step a g = Ok (a ∪ s, ds) /\
      (forall c, c ∈ s <-> exists gn o, type_method pk err g gn o /\ code_assigned pk gn o name c) /\
      forall d, d ∈ ds <-> exists gn o, type_method pk err g gn o /\ assignment_report pk fa0 gn o name d) as (s1&d1&E1&Hc1&Hd1).
    { assert (g ∈ ms) as Hg by set_solver.
      pose proof (proj1 (methods_of_type pk err g) Hg) as (n&nm&_&_&_&Hdm&_). pose proof Hdm as (gn&?&Hgn&_).
      subst step. cbn beta. destruct (receiver_ident pk g) as [i|] eqn:Ei.
      2: { exists ∅, []. split; [by rewrite union_empty_r_L|]. split.
        - intros c. split; [set_solver|]. intros (?&?&(_&_&?&?&_)%type_method_spec&_). congruence.
        - intros d. split; [by intros ?%elem_of_nil|]. intros (?&?&(_&_&?&?&_)%type_method_spec&_). congruence. }
      rewrite Hgn. destruct (i_obj i) as [o|] eqn:Eo.
      2: { exfalso. pose proof (receiver_ident_spec pk g nm Hdm) as (r&Hr&Hn). rewrite Ei in Hn. by eapply (tu_receivers _ Hus). }
      destruct (field_method_result pk fa gn o et name pos Hf) as (s&ds&E&Hs&Hd).
      { intros body lhs rhs Hb Ho. by eapply (tu_assign _ Hus). }
      rewrite E. cbn [pbind pret]. exists s, (ds ++ []). split; [done|].
      assert (forall gn' o', type_method pk err g gn' o' <-> gn' = gn /\ o' = o) as Htm.
      { intros gn' o'. rewrite type_method_spec. split.
        - intros (_&?&i'&?&?). split; congruence.
        - intros [-> ->]. eauto. }
      split.
      - intros c. rewrite Hs. split; [intros ?; exists gn, o; by rewrite Htm|]. by intros (?&?&[-> ->]%Htm&?).
      - intros d. rewrite app_nil_r, Hd. split.
        + intros ?. exists gn, o. rewrite Htm. split; [done|]. by eapply assignment_report_facts.
        + intros (?&?&[-> ->]%Htm&?). by eapply assignment_report_facts. }
    destruct (IH (a ∪ s1)) as (s2&d2&E2&Hc2&Hd2); [set_solver|].
    cbn [pfold]. rewrite E1. cbn [pbind]. rewrite E2. exists (s1 ∪ s2), (d1 ++ d2). split; [by rewrite (assoc_L (∪))|]. split.
    - intros c. rewrite elem_of_union, Hc1, Hc2. split.
      + intros [(gn&o&?&?)|(g'&gn&o&?&?&?)]; [exists g, gn, o; set_solver|exists g', gn, o; set_solver].
      + intros (g'&gn&o&[->|?]%elem_of_cons&?&?); [left; eauto|right; eauto 10].
    - intros d. rewrite elem_of_app, Hd1, Hd2. split.
      + intros [(gn&o&?&?)|(g'&gn&o&?&?&?)]; [exists g, gn, o; split; [by left|]; done|exists g', gn, o; split; [by right|]; done].
      + intros (g'&gn&o&[->|?]%elem_of_cons&?&?); [left; eauto|right; eauto 10]. }
  destruct (Hfold ms ∅) as (s&ds&E&Hc&Hd); [done|]. rewrite E. cbn [pbind]. exists s, ds. rewrite union_empty_l_L.
  assert (forall c, c ∈ s <-> exists g gn o, type_method pk err g gn o /\ code_assigned pk gn o name c) as Hc'.
  { intros c. rewrite Hc. split; [intros (?&?&?&_&?); eauto|]. intros (g&gn&o&H1&H2). exists g, gn, o. split; [|done].
    by apply type_method_spec in H1 as [? _]. }
  assert (forall d, d ∈ ds <-> exists g gn o, type_method pk err g gn o /\ assignment_report pk fa0 gn o name d) as Hd'.
  { intros c. rewrite Hd. split; [intros (?&?&?&_&?); eauto|]. intros (g&gn&o&H1&H2). exists g, gn, o. split; [|done].
    by apply type_method_spec in H1 as [? _]. }
  split; [|done]. destruct (decide (s = ∅)) as [->|Hne]; cbn [pret]; rewrite app_nil_r.
  - rewrite union_empty_r_L. destruct et as [c f]. cbn in *. by rewrite Hf.
  - done.
Qed.

Lemma tag_concrete fa err n ts : getNamedType err = Some n -> (forall ms, ti_underlying info n <> TInterface ms) ->
  tagErrorType pk lk fa err ts =
  match getCodeFuncFromError pk lk err with
  | None => pret (inl (str "found no method ""Code() string"""))
  | Some (f, receiver) =>
    match pk_funcs pk !! f with
    | None => ppanic
    | Some fn =>
      let* et := analyseCodeMethod pk fn receiver ts in
      match et with
      | None => pret (inl (str "type " ++ quoted (ti_objname info n)
                            ++ str " is an invalid error type: could not find any error codes"))
      | Some et => let* et' := analyseMethodsOfErrorType pk lk fa et err in pret (inr (Some (n, et')))
      end
    end
  end.
Proof.
  intros Hn Hms. unfold tagErrorType. rewrite Hn. destruct (ti_underlying info n) eqn:E; try done. by edestruct Hms.
Qed.
(** One declaration. *)
Definition add_outcome (fa : facts) (r : option (tobj * errortype)) : facts :=
  match r with Some (n, et) => add_type_fact n et fa | None => fa end.
Lemma tag_one fa at_ g ts : g ∈ pk_gendecls pk -> Some ts ∈ gd_specs g -> fa_ctor fa = fa_ctor fa0 ->
  exists r ds, tag_spec pk lk at_ fa (Some ts) = Ok (add_outcome fa r, ds) /\ tagged pk fa0 at_ ts r (fun d => d ∈ ds).
Proof.
  intros Hg Hts Hfa. cbn [tag_spec]. destruct (ti_defs info (i_id (tsp_name ts))) as [o|] eqn:Eo; [|by destruct (tu_defs _ Hus g ts Hg Hts)].
  set (t := ti_objtype info o).
  set (candidate := if ti_implements_ree info t then Some t else if ti_implements_ree info (TPointer t) then Some (TPointer t) else None).
  assert (forall err, candidate = Some err <-> declared_error pk ts err) as Hcand.
  { intros err. unfold candidate, declared_error. split.
    - intros H. exists o. split; [done|]. fold t. destruct (ti_implements_ree info t); [left|right; destruct (ti_implements_ree info (TPointer t))];
        try done; by injection H as <-.
    - intros (o'&Ho'&H). rewrite Eo in Ho'. injection Ho' as <-. fold t in H. destruct H as [[-> ->]|(->&->&->)]; done. }
  clearbody candidate. destruct candidate as [err|].
  2: { exists None, []. split; [done|]. apply tg_no_error; [|by intros d ?%elem_of_nil]. intros err Herr%Hcand. done. }
  pose proof (proj1 (Hcand err) eq_refl) as Herr. destruct (getNamedType err) as [n|] eqn:En.
  2: { exists None. eexists. unfold tagErrorType. rewrite En. split; [reflexivity|]. eapply tg_unnamed; [done|done|]. intros d. apply elem_of_list_singleton. }
  assert ((exists ms, ti_underlying info n = TInterface ms) \/ forall ms, ti_underlying info n <> TInterface ms) as [(ms&Hms)|Hms].
  { destruct (ti_underlying info n); try (right; congruence). left. eauto. }
  { exists None. eexists. unfold tagErrorType. rewrite En, Hms. split; [reflexivity|]. eapply tg_interface; [done..|]. by intros d ?%elem_of_nil. }
  rewrite (tag_concrete fa err n ts En Hms). destruct (getCodeFuncFromError pk lk err) as [[f receiver]|] eqn:Ef.
  2: { exists None. eexists. split; [reflexivity|]. eapply tg_no_method; [done..|by apply code_func_none|]. intros d. apply elem_of_list_singleton. }
  apply code_func_some in Ef as (Hcm&Hr&fn&Hfn). rewrite Hfn.
  destruct (tu_code _ Hus g ts err f fn Hg Hts Herr Hcm Hfn) as [Hcu Hct].
  destruct (C25_code_method pk fn receiver Hcu Hct ts) as (et&ds&c&fld&E&Hc&Hfld&Het&Hds). rewrite E. cbn [pbind].
  destruct et as [[codes field]|].
  2: { destruct Het as [-> Hv]. exists None. eexists. split; [reflexivity|]. eapply tg_no_codes; [done..|]. intros d.
    rewrite !elem_of_app, Hds, elem_of_cons, !elem_of_nil. tauto. }
  cbn [et_codes et_field] in Het. destruct Het as (->&Hv&Hne). destruct field as [[name p]|].
  - assert (fld = Some name) as -> by (by destruct Hv).
    destruct (methods_result fa (ErrorType c (Some (name, p))) err name p Hfa eq_refl) as (s&ds'&E'&Hs&Hd'). rewrite E'. cbn [pbind].
    eexists (Some (n, _)). eexists. split; [reflexivity|]. eapply tg_field; [done..| |].
    + intros x. cbn [et_codes]. by rewrite elem_of_union, Hs.
    + intros d. cbn [pret]. rewrite !elem_of_app, !elem_of_nil, Hds, Hd'. tauto.
  - eexists (Some (n, _)). eexists. split; [reflexivity|]. eapply tg_constants; try done; [by apply Hne|]. intros d. cbn [pret].
    rewrite !elem_of_app, !elem_of_nil, Hds. tauto.
Qed.

(** All type declarations, in order, with the position at which problems are reported. *)
Definition type_declarations : list (nid * typespec) :=
  flat_map (fun g => omap (fun s => match s with Some ts => Some (gd_id g, ts) | None => None end) (gd_specs g)) (pk_gendecls pk).

Lemma tag_group g specs fa : g ∈ pk_gendecls pk -> specs ⊆ gd_specs g -> fa_ctor fa = fa_ctor fa0 -> exists outs,
  pfold (tag_spec pk lk (gd_id g)) fa specs = Ok (foldl add_outcome fa (map fst outs), concat (map snd outs)) /\
  Forall2 (fun '(at_, ts) '(r, ds) => tagged pk fa0 at_ ts r (fun d => d ∈ ds))
    (omap (fun s => match s with Some ts => Some (gd_id g, ts) | None => None end) specs) outs.
Proof.
  intros Hg. revert fa. induction specs as [|[ts|] specs IH]; intros fa Hsub Hfa.
  - exists []. split; [done|constructor].
  - destruct (tag_one fa (gd_id g) g ts Hg) as (r&ds&E&Ht); [set_solver|done|].
    destruct (IH (add_outcome fa r)) as (outs&E'&Hf); [set_solver|by destruct r as [[]|]|].
    exists ((r, ds) :: outs). cbn [pfold]. rewrite E. cbn [pbind]. rewrite E'. split; [done|]. by constructor.
  - destruct (IH fa) as (outs&E'&Hf); [set_solver|done|]. exists outs. cbn [pfold tag_spec]. cbn [pbind pret]. rewrite E'. done.
Qed.

Lemma tags_fold : exists outs : list (option (tobj * errortype) * list diag),
  findAndTagErrorTypes pk lk fa0 = Ok (foldl add_outcome fa0 (map fst outs), concat (map snd outs)) /\
  Forall2 (fun '(at_, ts) '(r, ds) => tagged pk fa0 at_ ts r (fun d => d ∈ ds)) type_declarations outs.
Proof.
  unfold findAndTagErrorTypes, type_declarations.
  assert (forall l fa, l ⊆ pk_gendecls pk -> fa_ctor fa = fa_ctor fa0 -> exists outs : list (option (tobj * errortype) * list diag),
    pfold (fun fa g => pfold (tag_spec pk lk (gd_id g)) fa (gd_specs g)) fa l = Ok (foldl add_outcome fa (map fst outs), concat (map snd outs)) /\
    Forall2 (fun '(at_, ts) '(r, ds) => tagged pk fa0 at_ ts r (fun d => d ∈ ds))
      (flat_map (fun g => omap (fun s => match s with Some ts => Some (gd_id g, ts) | None => None end) (gd_specs g)) l) outs) as H.
  { induction l as [|g l IH]; intros fa Hsub Hfa; [exists []; split; [done|constructor]|].
    destruct (tag_group g (gd_specs g) fa) as (o1&E1&H1); [set_solver|done|done|].
    destruct (IH (foldl add_outcome fa (map fst o1))) as (o2&E2&H2); [set_solver| |].
    { rewrite <-Hfa. generalize (map fst o1). clear. intros l. revert fa. induction l as [|r l IH]; intros fa; [done|]. cbn. rewrite IH. by destruct r as [[]|]. }
    exists (o1 ++ o2). cbn [pfold]. rewrite E1. cbn [pbind]. rewrite E2. split.
    - by rewrite !map_app, foldl_app, concat_app.
    - cbn [flat_map]. by apply Forall2_app. }
  by apply H.
Qed.
Lemma outcomes_recorded l : types_recorded fa0 l (foldl add_outcome fa0 l).
Proof.
  induction l as [|r l IH] using rev_ind; [by split|]. rewrite foldl_app. cbn [foldl]. destruct IH as [H1 H2 H3 H4].
  assert (forall n, recorded fa0 (l ++ [r]) n = match r with Some (m, et) => if decide (m = n) then Some et else recorded fa0 l n | None => recorded fa0 l n end) as Hr.
  { intros n. unfold recorded. rewrite omap_app. cbn [omap list_omap]. destruct r as [[m et]|]; [|by rewrite app_nil_r].
    destruct (decide (m = n)); [by rewrite last_snoc|by rewrite app_nil_r]. }
  split; [|by destruct r as [[]|]..]. intros n. rewrite Hr. destruct r as [[m et]|]; [|apply H1]. cbn [add_outcome add_type_fact fa_type].
  destruct (decide (m = n)) as [->|Hn]; [by rewrite lookup_insert|]. rewrite lookup_insert_ne by done. apply H1.
Qed.
(** What is recorded about error types, and what is reported, is determined declaration by declaration. *)
Theorem C25_error_types : exists (outs : list (option (tobj * errortype) * list diag)) fa,
  findAndTagErrorTypes pk lk fa0 = Ok (fa, concat (map snd outs)) /\ types_recorded fa0 (map fst outs) fa /\
  Forall2 (fun '(at_, ts) '(r, ds) => tagged pk fa0 at_ ts r (fun d => d ∈ ds)) type_declarations outs.
Proof. destruct tags_fold as (outs&E&H). exists outs. eexists. split; [exact E|]. split; [apply outcomes_recorded|exact H]. Qed.
End tag.

(** In a run: these are the facts about types with which the functions are analysed, and the first diagnostics. *)
Theorem C25_run pk strict ord fa r : types_usable pk -> prepared pk strict ord fa r ->
  exists outs : list (option (tobj * errortype) * list diag),
  types_recorded fa (map fst outs) (r_types r) /\ r_d1 r = concat (map snd outs) /\
  Forall2 (fun '(at_, ts) '(o, ds) => tagged pk fa at_ ts o (fun d => d ∈ ds)) (type_declarations pk) outs.
Proof.
  intros Hus Hr. destruct (C25_error_types pk fa Hus) as (outs&fa'&E&H1&H2). exists outs. rewrite (pr_types _ _ _ _ _ Hr) in E. injection E as -> ->. done.
Qed.
