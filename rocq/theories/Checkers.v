(** * Decidable conditions that imply the presuppositions of the theorems (for concrete packages). *)
From stdpp Require Import base list gmap.
From Verif Require Import GoString ErrorCode Scc CodeSet Annotation Constant GoAst Taint Extract Analyse
  SpecCodes SpecTaint TaintProofs SpecMay SpecProgram AnnotationProofs ReturnProofs.

Section check.
Context (pk : package).
Notation info := (pk_info pk).

(** The initial values of all variables declared by `var`. *)
Definition init_values : list node :=
  flat_map (fun p : oid * object => match ob_decl p.2 with DValueSpec _ values => values | _ => [] end) (map_to_list (pk_objs pk)).
Definition init_values_plain : bool :=
  forallb (fun v => match as_ident (unparen v) with Some i => bool_decide (i_obj i = None) | None => true end) init_values.

Lemma init_values_spec o names values v : ob_decl (obj_of pk o) = DValueSpec names values -> v ∈ values -> v ∈ init_values.
Proof.
  unfold obj_of, init_values. destruct (pk_objs pk !! o) as [x|] eqn:E; [|done]. cbn [default from_option id]. intros H Hv.
  apply elem_of_list_In, in_flat_map. exists (o, x). split; [apply elem_of_list_In; by apply elem_of_map_to_list|].
  cbn. rewrite H. by apply elem_of_list_In.
Qed.
Lemma init_from_self o p : init_values_plain = true -> init_from pk o p -> o = p.
Proof.
  unfold init_values_plain. rewrite forallb_forall. intros H Hi. destruct Hi as [|names values v j o' p H1 H2 H3 H4 _]; [done|].
  assert (v ∈ init_values) as Hv%elem_of_list_In by by eapply init_values_spec.
  apply H in Hv. rewrite H3 in Hv. apply bool_decide_eq_true in Hv. congruence.
Qed.

Section fn.
Context (fn : func).
Notation nodes := (body_nodes fn).

Definition literal_params (n : node) : list oid :=
  match as_funclit n with
  | Some f => match pk_funcs pk !! f with Some lit => param_objs (fn_type lit) | None => [] end
  | None => []
  end.
Definition all_literal_params : list oid := flat_map literal_params nodes.
Lemma literal_param_spec o : literal_param pk fn o -> o ∈ all_literal_params.
Proof.
  intros (n&f&lit&Hn&Hf&Hl&Ho). apply elem_of_list_In, in_flat_map. exists n. split; [by apply elem_of_list_In|].
  unfold literal_params. rewrite Hf, Hl. by apply elem_of_list_In, param_objs_spec.
Qed.
Definition obj_free (i : ident) : bool :=
  match i_obj i with Some o => negb (bool_decide (o ∈ all_literal_params)) | None => true end.
Lemma obj_free_spec i : init_values_plain = true -> obj_free i = true -> not_closure_param pk fn i.
Proof.
  unfold obj_free. intros Hp H o p Ho <-%init_from_self Hl%literal_param_spec; [|done]. rewrite Ho in H.
  apply negb_true_iff, bool_decide_eq_false in H. done.
Qed.

(** Scoping: with the literals seen so far. *)
Definition rhs_objs (n : node) : list oid :=
  match as_assign n with
  | Some (_, rhs) => omap (fun r => as_ident (unparen r) ≫= i_obj) rhs
  | None => []
  end.
Definition literals : list (fid * list oid) := flat_map (fun n => match as_funclit n with Some f => [(f, literal_params n)] | None => [] end) nodes.
Fixpoint scoped_from (seen : list fid) (l : list node) : bool :=
  match l with
  | [] => true
  | n :: l' =>
    forallb (fun o => forallb (fun p : fid * list oid => bool_decide (p.1 ∈ seen) || negb (bool_decide (o ∈ p.2))) literals) (rhs_objs n) &&
    scoped_from (match as_funclit n with Some f => f :: seen | None => seen end) l'
  end.
Lemma scoped_from_spec l1 n l2 seen : scoped_from seen (l1 ++ n :: l2) = true ->
  forall o f ps, o ∈ rhs_objs n -> (f, ps) ∈ literals -> o ∈ ps -> f ∈ seen \/ exists m, m ∈ l1 /\ as_funclit m = Some f.
Proof.
  revert seen. induction l1 as [|m l1 IH]; intros seen; cbn [app scoped_from]; rewrite andb_true_iff; intros [H1 H2] o f ps Ho Hf Hps.
  - rewrite forallb_forall in H1. apply elem_of_list_In, H1 in Ho. rewrite forallb_forall in Ho. apply elem_of_list_In, Ho in Hf. cbn in Hf.
    apply orb_true_iff in Hf as [Hf%bool_decide_eq_true|Hf%negb_true_iff%bool_decide_eq_false]; [by left|done].
  - destruct (IH _ H2 o f ps Ho Hf Hps) as [H|(m'&?&?)].
    + destruct (as_funclit m) as [g|] eqn:Eg; [|by left]. apply elem_of_cons in H as [->|H]; [|by left].
      right. exists m. split; [by left|done].
    + right. exists m'. split; [by right|done].
Qed.
Lemma scoped_spec : init_values_plain = true -> scoped_from [] nodes = true -> scoped pk fn.
Proof.
  intros Hp Hs l1 n l2 lhs rhs r j o p n' f lit Hn Ha Hr Hj Ho <-%init_from_self Hn' Hf Hl Hpar; [|done].
  rewrite Hn in Hs. destruct (scoped_from_spec _ _ _ _ Hs o f (literal_params n')) as [H|H].
  - unfold rhs_objs. rewrite Ha. apply elem_of_list_omap. exists r. split; [done|]. by rewrite Hj.
  - unfold literals. apply elem_of_list_In, in_flat_map. exists n'. split; [by apply elem_of_list_In|]. rewrite Hf. by left.
  - unfold literal_params. rewrite Hf, Hl. by apply param_objs_spec.
  - by apply not_elem_of_nil in H.
  - done.
Qed.

(** Typing. *)
Definition field_target (l : node) : option ident := as_selector l ≫= fun p => as_ident p.1.
Definition typed_b : bool :=
  forallb (fun n => match as_assign n with
    | None => true
    | Some (lhs, _) =>
      let idents := omap field_target lhs in
      forallb (fun i => forallb (fun j => bool_decide (i_obj i = None) || negb (bool_decide (i_obj i = i_obj j)) ||
        bool_decide (ti_type info (i_id i) = ti_type info (i_id j))) idents) idents
    end) nodes.
Lemma typed_spec : typed_b = true -> typed pk fn.
Proof.
  unfold typed_b. rewrite forallb_forall. intros H n lhs rhs l l' x x' sel sel' i j Hn Ha Hl Hl' Hs Hs' Hi Hj Ho Hne.
  apply elem_of_list_In, H in Hn. rewrite Ha in Hn. cbv zeta in Hn. rewrite forallb_forall in Hn.
  assert (forall l x sel i, l ∈ lhs -> as_selector l = Some (x, sel) -> as_ident x = Some i -> In i (omap field_target lhs)) as Hid.
  { intros l0 x0 s0 i0 ? E ?. apply elem_of_list_In, elem_of_list_omap. exists l0. split; [done|]. unfold field_target. by rewrite E. }
  specialize (Hn i (Hid _ _ _ _ Hl Hs Hi)). rewrite forallb_forall in Hn. specialize (Hn j (Hid _ _ _ _ Hl' Hs' Hj)).
  rewrite !orb_true_iff, negb_true_iff, !bool_decide_eq_true, bool_decide_eq_false in Hn. tauto.
Qed.

(** The expressions whose value may be returned. *)
Definition assigned_rhs : list node := flat_map (fun n => match as_assign n with Some (_, rhs) => rhs | None => [] end) nodes.
Definition named_result : list node :=
  match ft_results (fn_type fn) ≫= last with
  | Some fl => match last (f_names fl) with Some i => [Node (i_id i) (KIdent (i_name i) (i_obj i)) []] | None => [] end
  | None => []
  end.
Definition sources : list node :=
  omap (fun s => last (node_kids s)) (return_stmts fn) ++ named_result ++ assigned_rhs ++ init_values.
Definition operands (e : node) : list node :=
  match unparen e with Node _ (KTypeAssert _) [x] => [x] | _ => [] end.
Definition all_sources : list node := sources ++ flat_map operands sources.

Lemma assigned_in o e : assigned pk fn o e -> e ∈ assigned_rhs ++ init_values.
Proof.
  intros [n lhs rhs k l r li Hn Ha _ _ _ _ Hr|names values k l r Hd _ _ _ _ Hr]; apply elem_of_app.
  - left. apply elem_of_list_In, in_flat_map. exists n. split; [by apply elem_of_list_In|]. rewrite Ha. apply elem_of_list_In.
    by eapply elem_of_list_lookup_2.
  - right. eapply init_values_spec; [done|]. by eapply elem_of_list_lookup_2.
Qed.
Lemma several_in o d : assigned_several pk fn o d -> de_source d ∈ assigned_rhs ++ init_values.
Proof.
  intros [n lhs rhs k l r li Hn Ha _ _ _ _ Hr|names values k l r Hd _ _ _ _ Hr]; apply elem_of_app; cbn.
  - left. apply elem_of_list_In, in_flat_map. exists n. split; [by apply elem_of_list_In|]. rewrite Ha. apply elem_of_list_In.
    by eapply elem_of_list_lookup_2.
  - right. eapply init_values_spec; [done|]. by eapply elem_of_list_lookup_2.
Qed.
Lemma returned_in s e : s ∈ return_stmts fn -> returned fn s e -> e ∈ all_sources.
Proof.
  intros Hs Hr. apply elem_of_app. left. apply elem_of_app. destruct Hr as [e Hl|fields fl i Hk Hf Hl Hi].
  - left. apply elem_of_list_omap. eauto.
  - right. apply elem_of_app. left. unfold named_result. rewrite Hf. cbn [mbind option_bind]. rewrite Hl, Hi. by left.
Qed.
Lemma assigned_source e : e ∈ assigned_rhs ++ init_values -> e ∈ sources.
Proof. intros H. apply elem_of_app. right. apply elem_of_app. by right. Qed.
Lemma unparen_idem e : unparen (unparen e) = unparen e.
Proof.
  revert e. fix IH 1. intros [id k kids]. destruct k; try (clear IH; done). destruct kids as [|x [|]]; try (clear IH; done). exact (IH x).
Qed.
(** An error source is (up to parentheses) one of these expressions. *)
Lemma error_source_in e : error_source pk fn e -> exists e', e' ∈ all_sources /\ unparen e' = unparen e.
Proof.
  intros [(s&Hs&_&Hr)|(o&_&[[(e0&He&->&_)|(d&id&t&Hd&Hu)]|(d&Hd&->)])].
  - exists e. split; [by eapply returned_in|done].
  - exists e0. split; [|by rewrite unparen_idem]. apply elem_of_app. left. by eapply assigned_source, assigned_in.
  - exists e. split; [|done]. apply elem_of_app. right. apply elem_of_list_In, in_flat_map. exists (de_source d).
    split; [apply elem_of_list_In; by eapply assigned_source, several_in|]. unfold operands. rewrite Hu. by left.
  - exists (de_source d). split; [|done]. apply elem_of_app. left. by eapply assigned_source, several_in.
Qed.

Definition roots (e : node) : list ident :=
  let u := unparen e in
  option_list (as_ident u) ++
  (match u with Node _ (KUnary true) [x] => option_list (as_ident (unparen x)) | _ => [] end) ++
  (match as_selector u with Some (_, i) => [i] | None => [] end).
Lemma roots_spec e e' i : unparen e' = unparen e -> root pk e i -> i ∈ roots e'.
Proof.
  intros Hu Hr. unfold roots. rewrite Hu. destruct Hr as [e i H|e x i (id&H&_) Hi|e x i H].
  - apply elem_of_app. left. rewrite H. by left.
  - apply elem_of_app. right. apply elem_of_app. left. rewrite H, Hi. by left.
  - apply elem_of_app. right. apply elem_of_app. right. rewrite H. by left.
Qed.
Definition callees (e : node) : list ident :=
  match as_call (unparen e) with Some (f, _) => option_list (as_ident (unparen f)) | None => [] end.

Definition usable_b : bool :=
  init_values_plain && scoped_from [] nodes && typed_b &&
  forallb (fun p => match p with Some i => obj_free i | None => true end) (parameters (fn_type fn)) &&
  forallb (fun e => forallb obj_free (roots e) && forallb obj_free (callees e)) all_sources.
Theorem usable_spec fa : usable_b = true -> usable pk fa fn.
Proof.
  unfold usable_b. rewrite !andb_true_iff, !forallb_forall. intros ((((Hp&Hs)&Ht)&Hpar)&Hsrc).
  assert (forall e e' i, error_source pk fn e -> e' ∈ all_sources -> unparen e' = unparen e ->
    i ∈ roots e' \/ i ∈ callees e' -> not_closure_param pk fn i) as Hfree.
  { intros e e' i _ He' _ Hi. apply elem_of_list_In, Hsrc in He'. rewrite andb_true_iff, !forallb_forall in He'.
    apply obj_free_spec; [done|]. destruct Hi as [Hi|Hi]; apply elem_of_list_In, He' in Hi; done. }
  constructor.
  - by apply scoped_spec.
  - by apply typed_spec.
  - intros i (p&_&Hi). apply obj_free_spec; [done|]. apply (Hpar (Some i)), elem_of_list_In. by eapply elem_of_list_lookup_2.
  - intros e i He Hr. destruct (error_source_in e He) as (e'&He'&Hu). eapply Hfree; [exact He|exact He'|exact Hu|]. left. by eapply roots_spec.
  - intros e f args i He Hc (Hi&_). destruct (error_source_in e He) as (e'&He'&Hu). eapply Hfree; [exact He|exact He'|exact Hu|]. right.
    unfold callees. rewrite Hu, Hc, Hi. by left.
Qed.
Definition no_literal_assigned : bool :=
  forallb (fun e => match as_funclit (unparen e) with Some _ => false | None => true end) (assigned_rhs ++ init_values).
Lemma no_literal_assigned_spec fa e g : no_literal_assigned = true -> ~ literal_call pk fa fn e g.
Proof.
  unfold no_literal_assigned. rewrite forallb_forall. intros H [i o e' id kids _ _ _ _ (e0&He&->&_) Hu].
  apply assigned_in, elem_of_list_In, H in He. rewrite unparen_idem in Hu. by rewrite Hu in He.
Qed.
End fn.

Definition package_ok : bool :=
  forallb (fun p : fid * func => usable_b p.2 && no_literal_assigned p.2 && bool_decide (fn_body p.2 <> None)) (map_to_list (pk_funcs pk)).
Theorem package_ok_spec fa : package_ok = true -> usable_functions pk fa /\ no_literal_calls pk fa.
Proof.
  unfold package_ok. rewrite forallb_forall. intros H.
  assert (forall f fn, pk_funcs pk !! f = Some fn -> usable_b fn && no_literal_assigned fn && bool_decide (fn_body fn <> None) = true) as H'.
  { intros f fn Hf. apply (H (f, fn)), elem_of_list_In. by apply elem_of_map_to_list. }
  split.
  - intros f fn Hf. apply H' in Hf. rewrite !andb_true_iff, bool_decide_eq_true in Hf. destruct Hf as [[Hu _] Hb].
    split; [by apply usable_spec|done].
  - intros f fn e g Hf _. apply H' in Hf. rewrite !andb_true_iff in Hf. destruct Hf as [[_ Hl] _]. by apply no_literal_assigned_spec.
Qed.

(** Function literals may be called through variables, if they return no errors of calls. *)
Definition package_usable : bool :=
  forallb (fun p : fid * func => usable_b p.2 && bool_decide (fn_body p.2 <> None)) (map_to_list (pk_funcs pk)).
Theorem package_usable_spec fa : package_usable = true -> usable_functions pk fa.
Proof.
  unfold package_usable. rewrite forallb_forall. intros H f fn Hf.
  assert (usable_b fn && bool_decide (fn_body fn <> None) = true) as [Hu Hb%bool_decide_eq_true]%andb_true_iff.
  { apply (H (f, fn)), elem_of_list_In. by apply elem_of_map_to_list. }
  split; [by apply usable_spec|done].
Qed.
Definition calls_nothing (fn : func) : bool :=
  forallb (fun e => match as_call (unparen e) with Some _ => false | None => true end) (all_sources fn).
Lemma calls_nothing_spec fn f : calls_nothing fn = true -> ~ error_call pk fn f.
Proof.
  unfold calls_nothing. rewrite forallb_forall. intros H (e&args&Hc&He).
  assert (error_source pk fn e) as Hs.
  { destruct He as [(s&?&?&?)|[(o&?&?)|(o&d&ps&rs&v&?&?&->&_)]]; [left; eauto|right; exists o; eauto|right; exists o; split; [done|]; right; eauto]. }
  destruct (error_source_in fn e Hs) as (e'&He'&Hu). apply elem_of_list_In, H in He'. by rewrite Hu, Hc in He'.
Qed.
Definition simple_literals : bool :=
  forallb (fun p : fid * func => forallb (fun e => match as_funclit (unparen e) with
    | Some g => negb (bool_decide (g = p.1)) && match pk_funcs pk !! g with Some gn => calls_nothing gn | None => true end
    | None => true end) (assigned_rhs p.2 ++ init_values)) (map_to_list (pk_funcs pk)).
Theorem simple_literals_spec lk fa : simple_literals = true -> no_literal_recursion pk lk fa.
Proof.
  unfold simple_literals. rewrite forallb_forall. intros H f fn e g Hf _ [i o e' id kids _ _ _ _ (e0&He&->&_) Hu] Hr.
  specialize (H (f, fn)). cbn [fst snd] in H. rewrite forallb_forall in H. specialize (H (proj1 (elem_of_list_In _ _) (proj2 (elem_of_map_to_list _ _ _) Hf))).
  apply assigned_in, elem_of_list_In, H in He. rewrite unparen_idem in Hu. rewrite Hu in He. cbn in He.
  apply andb_true_iff in He as [Hne%negb_true_iff%bool_decide_eq_false Hn].
  destruct Hr as [|a b c (gn&e1&Hg&He1&_) _]; [done|]. rewrite Hg in Hn. by eapply calls_nothing_spec.
Qed.
End check.

(** ** Annotations *)
(** In every function, either no return statement is annotated or there is only one. *)
Definition agree_b (pk : package) : bool :=
  forallb (fun p : fid * func =>
    forallb (fun s => match annotation_of pk s with None => true | Some _ => false end) (return_stmts p.2) ||
    (length (return_stmts p.2) <=? 1)) (map_to_list (pk_funcs pk)).
Lemma agree_spec pk c g fn : agree_b pk = true -> pk_funcs pk !! g = Some fn -> agree pk fn c.
Proof.
  unfold agree_b. rewrite forallb_forall. intros H Hg o s s' e e' Hs Hs' _ _ _ _ _ _ (add&sub&Ha&Hc).
  specialize (H (g, fn)). rewrite <-elem_of_list_In, elem_of_map_to_list in H. specialize (H Hg). cbn [snd] in H.
  apply orb_true_iff in H as [H|H].
  - rewrite forallb_forall in H. apply elem_of_list_In, H in Hs. apply annotation_is_model in Ha. by rewrite Ha in Hs.
  - apply Nat.leb_le in H. assert (s = s') as <- by (destruct (return_stmts fn) as [|x [|y l]];
      [by apply not_elem_of_nil in Hs|apply elem_of_list_singleton in Hs; apply elem_of_list_singleton in Hs'; congruence|cbn in H; lia]).
    by exists add, sub.
Qed.
