(** * Computable checks for the presuppositions of PropLocal.v. *)
From stdpp Require Import base list gmap relations.
From Verif Require Import GoString ErrorCode Scc CodeSet Annotation Constant GoAst Taint Extract Analyse Phase Claims SpecCodes SpecTaint SpecMay SpecProgram SpecLocal
  LookupProofs ReturnProofs ProgramProofs Checkers SoundChecker RecursionChecker.

Section check.
Context (pk : package).
Notation lk := (collectFunctions pk).

(** ** Function literals that mention the function they are written in *)
Definition result_idents (fn : func) : list node :=
  match ft_results (fn_type fn) with
  | Some fields => fields ≫= fun fl => (fun i => Node (i_id i) (KIdent (i_name i) (i_obj i)) []) <$> f_names fl
  | None => []
  end.
(** The variables declared by `var` with values that occur in the nodes; the nodes of their initial values. *)
Definition initial_nodes (o : oid) : list node := match ob_decl (obj_of pk o) with DValueSpec _ values => values ≫= walk | _ => [] end.
Definition initial_values (o : oid) : list node := match ob_decl (obj_of pk o) with DValueSpec _ values => values | _ => [] end.
Definition var_of (n : node) : option oid :=
  match as_ident n with
  | Some i => match i_obj i with
              | Some o => match ob_decl (obj_of pk o) with DValueSpec _ (_ :: _) => Some o | _ => None end
              | None => None
              end
  | None => None
  end.
Definition vars_closed (l : list oid) : bool := forallb (fun o => forallb (fun p => bool_decide (p ∈ l)) (omap var_of (initial_nodes o))) l.
Fixpoint more_vars (n : nat) (l : list oid) : list oid :=
  match n with O => l | S n' => if vars_closed l then l else more_vars n' (remove_dups (l ++ (l ≫= fun o => omap var_of (initial_nodes o)))) end.
Definition own_part (fn : func) : list node := body_nodes fn ++ result_idents fn.
Definition vars_of (fn : func) : list oid := more_vars (size (pk_objs pk)) (remove_dups (omap var_of (own_part fn))).
Definition nodes_of (fn : func) : list node := own_part fn ++ (vars_of fn ≫= initial_nodes).
Definition vars_ok (fn : func) : bool :=
  let l := vars_of fn in vars_closed l && forallb (fun o => bool_decide (o ∈ l)) (omap var_of (own_part fn)).

Lemma var_of_spec n i o names values v : as_ident n = Some i -> i_obj i = Some o -> ob_decl (obj_of pk o) = DValueSpec names values -> v ∈ values ->
  var_of n = Some o.
Proof. intros Hi Ho Hd Hv. unfold var_of. rewrite Hi, Ho, Hd. destruct values; [by apply elem_of_nil in Hv|done]. Qed.
Lemma within_listed fn n : vars_ok fn = true -> within pk fn n -> n ∈ nodes_of fn.
Proof.
  unfold vars_ok. cbv zeta. rewrite andb_true_iff, forallb_forall. intros [Hcl Hin] H. induction H as [m H|fields fl i H1 H2 H3|m i o names values v m' Hw IH Hi Ho Hd Hv Hwk].
  - apply elem_of_app. left. apply elem_of_app. by left.
  - apply elem_of_app. left. apply elem_of_app. right. unfold result_idents. rewrite H1. apply elem_of_list_bind. exists fl. split; [|done]. apply elem_of_list_fmap. eauto.
  - apply elem_of_app. right. apply elem_of_list_bind. exists o. split.
    + unfold initial_nodes. rewrite Hd. apply elem_of_list_bind. eauto.
    + pose proof (var_of_spec m i o names values v Hi Ho Hd Hv) as Hvar.
      assert (bool_decide (o ∈ vars_of fn) = true) as Hb; [|by apply bool_decide_eq_true in Hb]. apply elem_of_app in IH as [IH|IH].
      * apply Hin, elem_of_list_In, elem_of_list_omap. eauto.
      * apply elem_of_list_bind in IH as (p&Hm&Hp). unfold vars_closed in Hcl. rewrite forallb_forall in Hcl. apply elem_of_list_In, Hcl in Hp.
        rewrite forallb_forall in Hp. apply Hp, elem_of_list_In, elem_of_list_omap. eauto.
Qed.
Definition mention_table : gmap fid (list fid) := (fun fn => remove_dups (nodes_of fn ≫= denoted pk lk)) <$> pk_funcs pk.
Definition next (t : gmap fid (list fid)) (f : fid) : list fid := default [] (t !! f).
Definition closed_in (t : gmap fid (list fid)) (s : list fid) : bool := forallb (fun x => forallb (fun y => bool_decide (y ∈ s)) (next t x)) s.
Fixpoint all_from (t : gmap fid (list fid)) (n : nat) (s : list fid) : list fid :=
  match n with O => s | S n' => if closed_in t s then s else all_from t n' (remove_dups (s ++ (s ≫= next t))) end.
(** The function literals assigned in the function, or initial values of variables it mentions. *)
Definition literals_of (fn : func) : list fid :=
  remove_dups (omap (fun e => as_funclit (unparen e)) (assigned_rhs fn ++ (omap var_of (nodes_of fn) ≫= initial_values))).
Definition cycle_check : bool :=
  let t := mention_table in
  forallb (fun p : fid * func => vars_ok p.2 &&
    forallb (fun g => let s := all_from t (size t) [g] in bool_decide (g ∈ s) && closed_in t s && negb (bool_decide (p.1 ∈ s))) (literals_of p.2))
    (map_to_list (pk_funcs pk)).

Section ok.
Context (Hok : forall f fn, pk_funcs pk !! f = Some fn -> vars_ok fn = true).
Lemma mentions_listed f g : mentions_function pk lk f g -> g ∈ next mention_table f.
Proof.
  intros (fn&e&Hf&He&Hd). apply within_listed in He; [|by eapply Hok]. unfold next, mention_table. rewrite lookup_fmap, Hf.
  cbn [fmap option_fmap option_map default from_option id].
  apply elem_of_remove_dups, elem_of_list_bind. exists e. split; [by apply denoted_spec|done].
Qed.
Lemma closed_mentions s g f : closed_in mention_table s = true -> g ∈ s -> rtc (mentions_function pk lk) g f -> f ∈ s.
Proof.
  unfold closed_in. rewrite forallb_forall. intros Hc Hg Hr. induction Hr as [|g h f Hm _ IH]; [done|]. apply IH.
  apply elem_of_list_In, Hc in Hg. rewrite forallb_forall in Hg. apply mentions_listed, elem_of_list_In, Hg, bool_decide_eq_true in Hm. done.
Qed.
End ok.
Theorem cycle_check_spec : cycle_check = true -> no_literal_cycle pk lk.
Proof.
  unfold cycle_check. cbv zeta. rewrite forallb_forall. intros H.
  assert (forall f fn, pk_funcs pk !! f = Some fn -> vars_ok fn = true /\ forall g, g ∈ literals_of fn ->
    bool_decide (g ∈ all_from mention_table (size mention_table) [g]) && closed_in mention_table (all_from mention_table (size mention_table) [g]) &&
    negb (bool_decide (f ∈ all_from mention_table (size mention_table) [g])) = true) as H'.
  { intros f fn Hf. specialize (H (f, fn)). rewrite <-elem_of_list_In, elem_of_map_to_list in H. specialize (H Hf). cbn [fst snd] in H.
    apply andb_true_iff in H as [H1 H2]. split; [done|]. rewrite forallb_forall in H2. intros g Hg%elem_of_list_In. by apply H2. }
  clear H. assert (forall f fn, pk_funcs pk !! f = Some fn -> vars_ok fn = true) as Hok by (intros f fn Hf; by apply (H' f fn)).
  intros f fn g Hf Ha Hr. destruct (H' f fn Hf) as [_ Hg]. specialize (Hg g).
  assert (g ∈ literals_of fn) as Hin.
  { unfold literals_of. apply elem_of_remove_dups, elem_of_list_omap. destruct Ha as [n lhs rhs r id kids Hn Ha Hr' Hu|n i o names values v id kids Hn Hi Ho Hd Hv Hu].
    - exists r. split; [|by rewrite Hu]. apply elem_of_app. left. apply elem_of_list_In, in_flat_map. exists n. split; [by apply elem_of_list_In|].
      rewrite Ha. by apply elem_of_list_In.
    - exists v. split; [|by rewrite Hu]. apply elem_of_app. right. apply elem_of_list_bind. exists o. split; [unfold initial_values; by rewrite Hd|].
      apply elem_of_list_omap. exists n. split; [apply within_listed; [by eapply Hok|done]|by eapply var_of_spec]. }
  apply Hg in Hin. rewrite !andb_true_iff, negb_true_iff, bool_decide_eq_true, bool_decide_eq_false in Hin.
  destruct Hin as [[Hi Hcl] Hnot]. apply Hnot. by eapply closed_mentions.
Qed.

(** ** Functions that can be tracked, together with those the errors of which they may return *)
Definition function_ok (g : fid) : bool :=
  match pk_funcs pk !! g with Some gn => usable_b pk gn && bool_decide (fn_body gn <> None) | None => true end.
Definition usable_from_b (f : fid) : bool :=
  let s := reach pk f in bool_decide (f ∈ s) && closed pk s && forallb function_ok s.
Theorem usable_from_spec fa f : usable_from_b f = true -> usable_from pk lk fa f.
Proof.
  unfold usable_from_b. cbv zeta. rewrite !andb_true_iff, bool_decide_eq_true, forallb_forall. intros [[Hin Hcl] Hall] g gn Hr Hg.
  assert (g ∈ reach pk f) as H%elem_of_list_In by by eapply closed_reach.
  apply Hall in H. unfold function_ok in H. rewrite Hg, andb_true_iff, bool_decide_eq_true in H. destruct H as [Hu Hb]. split; [by apply usable_spec|done].
Qed.
Definition agree_fn_b (g : fid) : bool :=
  match pk_funcs pk !! g with
  | Some gn => forallb (fun s => match annotation_of pk s with None => true | Some _ => false end) (return_stmts gn) || (length (return_stmts gn) <=? 1)
  | None => true
  end.
Definition agree_from_b (f : fid) : bool := let s := reach pk f in bool_decide (f ∈ s) && closed pk s && forallb agree_fn_b s.
Theorem agree_from_spec fa f c : agree_from_b f = true -> agree_from pk lk fa f c.
Proof.
  unfold agree_from_b. cbv zeta. rewrite !andb_true_iff, bool_decide_eq_true, forallb_forall. intros [[Hin Hcl] Hall] g gn Hr Hg.
  assert (g ∈ reach pk f) as H%elem_of_list_In by by eapply closed_reach.
  apply Hall in H. unfold agree_fn_b in H. rewrite Hg in H. intros o s s' e e' Hs Hs' _ _ _ _ _ _ (add&sub&Ha&Hc).
  apply orb_true_iff in H as [H|H].
  - rewrite forallb_forall in H. apply elem_of_list_In, H in Hs. apply annotation_is_model in Ha. by rewrite Ha in Hs.
  - apply Nat.leb_le in H. assert (s = s') as <- by (destruct (return_stmts gn) as [|x [|y l]];
      [by apply not_elem_of_nil in Hs|apply elem_of_list_singleton in Hs; apply elem_of_list_singleton in Hs'; congruence|cbn in H; lia]).
    by exists add, sub.
Qed.
End check.
