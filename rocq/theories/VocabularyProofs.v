(** * The helpers of the code compute what the vocabulary of the specification says. *)
From stdpp Require Import base list gmap.
From Verif Require Import GoString ErrorCode Scc CodeSet Annotation Constant GoAst Taint Extract Analyse
  SpecCodes SpecTaint SpecMay SpecEvents.

Lemma node_ind' (P : node -> Prop) : (forall id k kids, (forall n, n ∈ kids -> P n) -> P (Node id k kids)) -> forall n, P n.
Proof.
  intros H. fix IH 1. intros [id k kids]. apply H.
  assert (Forall P kids) as Hall.
  { revert kids. fix IHk 1. intros [|n kids]; [apply Forall_nil_2|apply Forall_cons_2; [apply IH|apply IHk]]. }
  clear IH. rewrite Forall_forall in Hall. done.
Qed.

(** ** Return statements and assignments *)
Lemma filter_flat_map {A B} (p : B -> bool) (f : A -> list B) l :
  List.filter p (flat_map f l) = flat_map (fun x => List.filter p (f x)) l.
Proof. induction l as [|x l IH]; [done|]. cbn. by rewrite List.filter_app, IH. Qed.
Lemma returns_of_spec n : returns_of n = List.filter is_return (own_nodes n).
Proof.
  induction n as [id k kids IH] using node_ind'.
  assert (flat_map returns_of kids = List.filter is_return (flat_map own_nodes kids)) as Hk.
  { rewrite filter_flat_map. induction kids as [|m kids IHk]; [done|]. cbn. rewrite (IH m) by by left. f_equal.
    apply IHk. intros ? ?. apply IH. by right. }
  destruct k; cbn [returns_of own_nodes List.filter is_return node_kind]; done.
Qed.
Lemma return_stmts_list fn body : fn_body fn = Some body -> return_stmts fn = returns_of body.
Proof. intros H. unfold return_stmts. by rewrite H, returns_of_spec. Qed.

Lemma assigns_pruned_spec n lhs rhs : (lhs, rhs) ∈ assigns_pruned n <-> outer_assignment n lhs rhs.
Proof.
  split.
  - induction n as [id k kids IH] using node_ind'. cbn [assigns_pruned].
    destruct (as_assign (Node id k kids)) as [a|] eqn:Ea.
    + intros <-%elem_of_list_singleton. by constructor.
    + intros H. apply elem_of_list_In, in_flat_map in H as (n&Hn&Hm). rewrite <-elem_of_list_In in Hn. rewrite <-elem_of_list_In in Hm.
      by eapply outer_below; [done|exact Hn|apply IH].
  - induction 1 as [n lhs rhs H|n m lhs rhs Hn Hm _ IH]; destruct n as [id k kids]; cbn [assigns_pruned].
    + rewrite H. by left.
    + rewrite Hn. apply elem_of_list_In, in_flat_map. exists m. by rewrite <-!elem_of_list_In.
Qed.

(** ** Called functions *)
Lemma callee_spec pk f : callee pk f = function_object pk f.
Proof. unfold callee, function_object, value_object. done. Qed.

(** ** Parameters *)
Lemma constructor_fact_spec pk fa fn p : importErrorConstructorFact pk fa fn = Some p <-> code_parameter pk fa fn p.
Proof.
  unfold importErrorConstructorFact, code_parameter. split.
  - destruct (fn_decl fn) as [d|]; [|done]. destruct (ti_defs _ _) as [o|] eqn:Eo; [|done]. eauto.
  - intros (d&o&->&->&H). done.
Qed.
Lemma param_ident_names_slots t names pos :
  match param_ident_names t names pos with
  | inl i => exists q, t = pos + q /\ names !! q = Some i
  | inr p => p = pos + length names /\ (t < pos \/ p <= t)
  end.
Proof.
  revert pos. induction names as [|n names IH]; intros pos; cbn [param_ident_names length]; [lia|].
  case_decide as Hp; [exists 0; split; [lia|done]|]. specialize (IH (S pos)).
  destruct (param_ident_names t names (S pos)) as [i|p].
  - destruct IH as (q&->&Hq). exists (S q). split; [lia|done].
  - lia.
Qed.
Notation slots fields := (flat_map (fun f => match f_names f with [] => [None] | names => map Some names end) fields).
Lemma param_ident_slots t fields pos : pos <= t -> param_ident t fields pos = mjoin (slots fields !! (t - pos)).
Proof.
  revert pos. induction fields as [|f fields IH]; intros pos Hle; cbn [param_ident flat_map]; [done|].
  pose proof (param_ident_names_slots t (f_names f) pos) as H.
  destruct (f_names f) as [|n0 names0] eqn:En.
  - case_decide as Hp; [subst; by rewrite Nat.sub_diag|]. rewrite IH by lia.
    replace (t - pos) with (S (t - S pos)) by lia. done.
  - rewrite <-En in *. destruct (param_ident_names t (f_names f) pos) as [i|p].
    + destruct H as (q&->&Hq). replace (pos + q - pos) with q by lia.
      rewrite lookup_app_l by (rewrite fmap_length; by eapply lookup_lt_Some). by rewrite list_lookup_fmap, Hq.
    + destruct H as [-> Hor]. rewrite IH by lia. rewrite lookup_app_r by (rewrite fmap_length; lia). rewrite fmap_length. do 2 f_equal. lia.
Qed.
Lemma getParamIdent_spec ft p i : getParamIdent ft p = Some i <-> parameters ft !! p = Some (Some i).
Proof.
  unfold getParamIdent, parameters. rewrite param_ident_slots, Nat.sub_0_r by lia.
  destruct (slots (ft_params ft) !! p) as [[j|]|]; cbn; split; congruence.
Qed.
Lemma getParamIdent_none ft p : getParamIdent ft p = None <-> forall i, parameters ft !! p <> Some (Some i).
Proof.
  split.
  - intros H i Hi%getParamIdent_spec. congruence.
  - intros H. destruct (getParamIdent ft p) as [i|] eqn:E; [|done]. by apply getParamIdent_spec, H in E.
Qed.
Lemma param_position_names_slots o names pos :
  match param_position_names o names pos with
  | inl p => exists q i, p = pos + q /\ names !! q = Some i /\ i_obj i = Some o /\ forall k j, k < q -> names !! k = Some j -> i_obj j <> Some o
  | inr p => p = pos + length names /\ forall k j, names !! k = Some j -> i_obj j <> Some o
  end.
Proof.
  revert pos. induction names as [|n names IH]; intros pos; cbn [param_position_names length]; [by split; [lia|]|].
  case_decide as Hn.
  - exists 0, n. split; [lia|]. split; [done|]. split; [done|]. intros k j Hk. lia.
  - specialize (IH (S pos)). destruct (param_position_names o names (S pos)) as [p|p].
    + destruct IH as (q&i&->&Hq&Hi&Hf). exists (S q), i. split; [lia|]. split; [done|]. split; [done|].
      intros [|k] j Hk Hj; [by injection Hj as <-|]. apply (Hf k); [lia|done].
    + destruct IH as [-> Hf]. split; [lia|]. intros [|k] j Hj; [by injection Hj as <-|]. by apply (Hf k).
Qed.
Lemma param_position_slots o fields pos :
  match param_position o fields pos with
  | Some p => exists q i, p = pos + q /\ slots fields !! q = Some (Some i) /\ i_obj i = Some o /\
      forall k j, k < q -> slots fields !! k = Some (Some j) -> i_obj j <> Some o
  | None => forall k j, slots fields !! k = Some (Some j) -> i_obj j <> Some o
  end.
Proof.
  revert pos. induction fields as [|f fields IH]; intros pos; cbn [param_position flat_map]; [done|].
  pose proof (param_position_names_slots o (f_names f) pos) as Hn.
  destruct (f_names f) as [|n0 names0] eqn:En.
  - specialize (IH (S pos)). destruct (param_position o fields (S pos)) as [p|].
    + destruct IH as (q&i&->&Hq&Hi&Hf). exists (S q), i. split; [lia|]. split; [done|]. split; [done|].
      intros [|k] j Hk Hj; [done|]. apply (Hf k); [lia|done].
    + intros [|k] j Hj; [done|]. by apply (IH k).
  - rewrite <-En in *. destruct (param_position_names o (f_names f) pos) as [p|p].
    + destruct Hn as (q&i&->&Hq&Hi&Hf). exists q, i. split; [done|].
      split; [apply lookup_app_l_Some; by rewrite list_lookup_fmap, Hq|]. split; [done|].
      intros k j Hk Hj. rewrite lookup_app_l in Hj by (rewrite fmap_length; apply lookup_lt_Some in Hq; lia).
      rewrite list_lookup_fmap in Hj. apply (Hf k); [done|]. by destruct (f_names f !! k); simplify_eq/=.
    + destruct Hn as [-> Hn]. specialize (IH (pos + length (f_names f))).
      assert (forall k j, (map Some (f_names f) ++ slots fields) !! k = Some (Some j) ->
        (k < length (f_names f) /\ f_names f !! k = Some j) \/ exists k', k = length (f_names f) + k' /\ slots fields !! k' = Some (Some j)) as Hsplit.
      { intros k j Hj. destruct (decide (k < length (f_names f))).
        - left. split; [done|]. rewrite lookup_app_l in Hj by by rewrite fmap_length. rewrite list_lookup_fmap in Hj.
          destruct (f_names f !! k); simplify_eq/=; done.
        - right. exists (k - length (f_names f)). split; [lia|]. rewrite lookup_app_r, fmap_length in Hj by (rewrite fmap_length; lia). done. }
      destruct (param_position o fields (pos + length (f_names f))) as [p|].
      * destruct IH as (q&i&->&Hq&Hi&Hf). exists (length (f_names f) + q), i. split; [lia|].
        split; [rewrite lookup_app_r, fmap_length by (rewrite fmap_length; lia); by replace (length (f_names f) + q - length (f_names f)) with q by lia|].
        split; [done|]. intros k j Hk [[_ Hj]|(k'&->&Hj)]%Hsplit; [by eapply Hn|]. apply (Hf k'); [lia|done].
      * intros k j [[_ Hj]|(k'&->&Hj)]%Hsplit; [by eapply Hn|]. by apply (IH k').
Qed.
Lemma getParamPosition_spec fn i p : getParamPosition (fn_type fn) i = Some p <-> parameter_number fn i p.
Proof.
  unfold getParamPosition, parameter_number, parameters. destruct (i_obj i) as [o|].
  2: { split; [done|]. by intros (?&?&?&_). }
  pose proof (param_position_slots o (ft_params (fn_type fn)) 0) as H.
  destruct (param_position o (ft_params (fn_type fn)) 0) as [p'|].
  - destruct H as (q&j&->&Hq&Hj&Hf). split.
    + intros [= <-]. exists o, j. done.
    + intros (o'&j'&[= <-]&Hq'&Hj'&Hf'). f_equal. cbn. destruct (Nat.lt_trichotomy q p) as [Hl|[Hl|Hl]]; [|done|].
      * by destruct (Hf' q j Hl Hq).
      * by destruct (Hf p j' Hl Hq').
  - split; [done|]. intros (o'&j'&[= <-]&Hq'&Hj'&_). by apply H in Hq'.
Qed.
Lemma getParamPosition_none fn i : getParamPosition (fn_type fn) i = None <-> forall p, ~ parameter_number fn i p.
Proof.
  split.
  - intros H p Hp%getParamPosition_spec. congruence.
  - intros H. destruct (getParamPosition (fn_type fn) i) as [p|] eqn:E; [|done]. by apply getParamPosition_spec, H in E.
Qed.
Lemma constructor_param_spec pk fa fn i :
  constructor_param pk fa fn i <-> exists p, importErrorConstructorFact pk fa fn = Some p /\ getParamIdent (fn_type fn) p = Some i.
Proof. unfold constructor_param. setoid_rewrite constructor_fact_spec. setoid_rewrite getParamIdent_spec. done. Qed.
