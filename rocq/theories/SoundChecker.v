(** * Decidable conditions that imply [disciplined] and [resolved] (for concrete packages). *)
From Coq Require Import Ascii String.
From stdpp Require Import base list gmap.
From Verif Require Import LookupProofs GoString ErrorCode Scc CodeSet Annotation Constant GoAst Taint Extract Analyse
  SpecCodes SpecTaint SpecMay SpecProgram SpecEvents SpecExec SpecSound Checkers.

(** ** Equality of expressions *)
Global Instance ident_eq_dec : EqDecision ident.
Proof. solve_decision. Defined.
Global Instance constval_eq_dec : EqDecision constval.
Proof. solve_decision. Defined.
Global Instance kind_eq_dec : EqDecision kind.
Proof. solve_decision. Defined.
Global Instance node_eq_dec : EqDecision node.
Proof.
  unfold EqDecision. fix go 1. intros [i k l] [i' k' l'].
  destruct (decide (i = i')); [|right; congruence]. destruct (decide (k = k')); [|right; congruence].
  destruct (@list_eq_dec _ go l l'); [left|right]; congruence.
Defined.
Global Instance objdecl_eq_dec : EqDecision objdecl.
Proof. solve_decision. Defined.
Global Instance errortype_eq_dec : EqDecision errortype.
Proof. solve_decision. Defined.

Section check.
Context (pk : package) (lk : lookup_table) (fa : facts) (fn : func).
Notation info := (pk_info pk).
Notation nodes := (body_nodes fn).

(** ** The lists that correspond to the relations of SpecExec and SpecSound *)
Definition spec_names : list ident := flat_map (fun n => match n with Node _ (KValueSpec names _) _ => names | _ => [] end) nodes.
Definition result_names : list ident := flat_map f_names (default [] (ft_results (fn_type fn))).
Definition mentioned : list ident := omap as_ident nodes ++ spec_names ++ result_names.
Lemma mentioned_spec i : mentions fn i -> i ∈ mentioned.
Proof.
  unfold mentioned. intros [n Hn Hi|id names t values Hn Hi|fields fl Hf Hfl Hi]; rewrite !elem_of_app.
  - left. apply elem_of_list_omap. eauto.
  - right. left. apply elem_of_list_In, in_flat_map. exists (Node id (KValueSpec names t) values). by rewrite <-!elem_of_list_In.
  - right. right. apply elem_of_list_In, in_flat_map. unfold result_names. rewrite Hf. exists fl. by rewrite <-!elem_of_list_In.
Qed.
Definition struct_type (n : nid) : option errortype :=
  match ti_type info n with Some (TNamed t) => fa_type fa !! t | _ => None end.
Lemma struct_type_spec n et : struct_typed pk fa n et <-> struct_type n = Some et.
Proof.
  unfold struct_typed, struct_type. split.
  - intros (t&->&H). done.
  - destruct (ti_type info n) as [[]|]; try discriminate. eauto.
Qed.
Definition is_struct_var (o : oid) : bool :=
  existsb (fun i => bool_decide (i_obj i = Some o) && bool_decide (struct_type (i_id i) <> None)) mentioned.
Lemma is_struct_var_spec o : struct_var pk fa fn o -> is_struct_var o = true.
Proof.
  intros (i&et&Hi&Ho&Ht%struct_type_spec). apply existsb_exists. exists i. split; [by apply elem_of_list_In, mentioned_spec|].
  rewrite andb_true_iff, !bool_decide_eq_true. split; [done|]. by rewrite Ht.
Qed.
Definition value_specs : list (list ident * list node) :=
  flat_map (fun n => match n with Node _ (KValueSpec names _) values => [(names, values)] | _ => [] end) nodes.
Lemma value_specs_spec id names t values : Node id (KValueSpec names t) values ∈ nodes -> (names, values) ∈ value_specs.
Proof.
  intros H. apply elem_of_list_In, in_flat_map. exists (Node id (KValueSpec names t) values). split; [by apply elem_of_list_In|by left].
Qed.
Definition all_writes : list (list node * list node) :=
  omap as_assign nodes ++ ((fun p : list ident * list node => (ident_node <$> p.1, p.2)) <$> value_specs).
Lemma all_writes_spec lhs rhs : writes pk fn lhs rhs -> (lhs, rhs) ∈ all_writes.
Proof.
  intros [n l r Hn Ha _|id names t values Hn Hv]; apply elem_of_app.
  - left. apply elem_of_list_omap. eauto.
  - right. apply elem_of_list_fmap. exists (names, values). split; [done|]. by eapply value_specs_spec.
Qed.
Definition all_ranges : list (list node) :=
  flat_map (fun n => match n with Node _ (KRange k v) kids => [take ((if k then 1 else 0) + (if v then 1 else 0)) kids] | _ => [] end) nodes ++
  flat_map (fun n => match as_assign n with Some (lhs, _) => if ti_compound info (node_id n) then [lhs] else [] | None => [] end) nodes.
Lemma all_ranges_spec lhs : open_targets pk fn lhs -> lhs ∈ all_ranges.
Proof.
  intros [id k v kids Hn|n l r Hn Ha Hc]; apply elem_of_app.
  - left. apply elem_of_list_In, in_flat_map. exists (Node id (KRange k v) kids). split; [by apply elem_of_list_In|by left].
  - right. apply elem_of_list_In, in_flat_map. exists n. split; [by apply elem_of_list_In|]. rewrite Ha, Hc. by left.
Qed.
Definition all_targets : list node := concat (all_writes.*1 ++ all_ranges).
Lemma all_targets_spec lhs l : targets pk fn lhs -> l ∈ lhs -> l ∈ all_targets.
Proof.
  intros H Hl. apply elem_of_list_In, in_concat. exists lhs. split; [|by apply elem_of_list_In].
  apply elem_of_list_In, elem_of_app. destruct H as [[rhs H]|H]; [left|right; by apply all_ranges_spec].
  apply elem_of_list_fmap. exists (lhs, rhs). split; [done|by apply all_writes_spec].
Qed.
Definition error_type_of (e : node) : option errortype :=
  match ti_type info (node_id e) with
  | Some t => match getNamedType t with Some n => fa_type fa !! n | None => None end
  | None => None
  end.
Lemma error_type_of_spec e et : error_type pk fa e et <-> error_type_of e = Some et.
Proof.
  unfold error_type, error_type_of. split.
  - intros (t&n&->&->&H). done.
  - destruct (ti_type info (node_id e)) as [t|]; [|discriminate]. destruct (getNamedType t) as [n|] eqn:E; [|discriminate]. eauto.
Qed.
Definition field_of (l : node) : option node :=
  match as_selector (unparen l) with
  | Some (x, sel) => match error_type_of x with
                     | Some et => match et_field et with Some (name, _) => if decide (name = i_name sel) then Some x else None | None => None end
                     | None => None
                     end
  | None => None
  end.
Lemma field_of_spec l x : code_field pk fa l x <-> field_of l = Some x.
Proof.
  unfold code_field, field_of. split.
  - intros (sel&et&pos&Hs&He%error_type_of_spec&Hf). rewrite Hs, He, Hf. by rewrite decide_True by done.
  - destruct (as_selector (unparen l)) as [[y sel]|]; [|discriminate]. destruct (error_type_of y) as [et|] eqn:E; [|discriminate].
    destruct (et_field et) as [[name pos]|] eqn:Ef; [|discriminate]. destruct (decide (name = i_name sel)) as [->|]; [|discriminate].
    intros [= ->]. exists sel, et, pos. split; [done|]. split; [by apply error_type_of_spec|done].
Qed.
Definition is_code_name (name : gostring) : bool :=
  existsb (fun p : tobj * errortype => match et_field p.2 with Some (f, _) => bool_decide (f = name) | None => false end) (map_to_list (fa_type fa)).
Definition is_promoted (l : node) : bool :=
  match as_selector (unparen l) with Some (x, sel) => bool_decide (field_of l = None) && is_code_name (i_name sel) | None => false end.
Lemma is_promoted_spec l : promoted_field pk fa l -> is_promoted l = true.
Proof.
  intros (x&sel&t&et&pos&Hs&Ht&Hf&Hn). unfold is_promoted. rewrite Hs, andb_true_iff, bool_decide_eq_true. split.
  - destruct (field_of l) as [y|] eqn:E; [|done]. exfalso. apply field_of_spec in E. destruct E as (sel'&et'&pos'&Hs'&?). apply Hn.
    rewrite Hs in Hs'. injection Hs' as <- <-. exists sel, et', pos'. done.
  - apply existsb_exists. exists (t, et). split; [apply elem_of_list_In; by apply elem_of_map_to_list|]. cbn [snd]. rewrite Hf. by apply bool_decide_eq_true.
Qed.
Definition addressed : list node := omap (fun n => match n with Node _ (KUnary true) [x] => Some x | _ => None end) nodes.
Lemma addressed_spec id x : Node id (KUnary true) [x] ∈ nodes -> x ∈ addressed.
Proof. intros H. apply elem_of_list_omap. by exists (Node id (KUnary true) [x]). Qed.
Definition result_type : option nid := f_type <$> (ft_results (fn_type fn) ≫= last).
Definition var_of (l : node) : option oid := as_ident (unparen l) ≫= i_obj.
Lemma var_of_spec l o : names_var l o <-> var_of l = Some o.
Proof.
  unfold names_var, var_of. split.
  - intros (i&->&H). done.
  - destruct (as_ident (unparen l)) as [i|]; [|discriminate]. cbn. eauto.
Qed.
Definition updated_vars : list oid :=
  omap (fun l => match var_of l with Some o => if is_struct_var o then Some o else None | None => field_of l ≫= var_of end) all_targets.
Lemma updated_vars_spec o : updated pk fa fn o -> o ∈ updated_vars.
Proof.
  intros [lhs l Hs Ht Hl Hv%var_of_spec|lhs l x Ht Hl Hf Hv%var_of_spec]; apply elem_of_list_omap; exists l;
    (split; [by eapply all_targets_spec|]).
  - rewrite Hv. by rewrite (is_struct_var_spec _ Hs).
  - destruct Hf as (sel&et&pos&Hs&?&?). assert (var_of l = None) as ->.
    { unfold var_of. destruct (unparen l) as [id [] kids]; try discriminate. done. }
    assert (field_of l = Some x) as ->; [|done]. apply field_of_spec. by exists sel, et, pos.
Qed.
Fixpoint is_composite (e : node) : bool :=
  match e with
  | Node _ KComposite _ => true
  | Node _ KParen [x] => is_composite x
  | Node _ (KUnary true) [x] => is_composite x
  | _ => false
  end.
Lemma is_composite_spec e : is_composite e = true -> composite e.
Proof.
  revert e. fix IH 1. intros [id k kids]. destruct k; try (clear IH; discriminate); cbn [is_composite].
  - destruct kids as [|x [|]]; try (clear IH; discriminate). intros H. constructor. exact (IH x H).
  - destruct is_and; [|clear IH; discriminate]. destruct kids as [|x [|]]; try (clear IH; discriminate). intros H. constructor. exact (IH x H).
  - clear IH. constructor.
Qed.
Definition is_new_error (r : node) : bool :=
  match as_ident (unparen r) with
  | Some i => bool_decide (i_obj i = None) && bool_decide (i_name i = str "nil")
  | None => is_composite (unparen r) && bool_decide (error_type_of (unparen r) <> None)
  end.
Lemma is_new_error_spec r : is_new_error r = true -> new_error pk fa r.
Proof.
  unfold is_new_error. destruct (as_ident (unparen r)) as [i|] eqn:E; rewrite andb_true_iff, ?bool_decide_eq_true.
  - intros [? ?]. left. eauto.
  - intros [? He]. right. split; [by apply is_composite_spec|]. destruct (error_type_of (unparen r)) as [et|] eqn:Ee; [|done].
    exists et. by apply error_type_of_spec.
Qed.
(** Variables whose value may flow into a returned error, a called function or a code. *)
Definition params : list ident := omap (fun p : option ident => p) (parameters (fn_type fn)).
Definition flow_vars : list oid :=
  omap i_obj (flat_map (fun e => roots e ++ callees e) (all_sources pk fn) ++ flat_map callees (omap (fun n => Some n) nodes) ++ params).
Lemma flow_source e i o : e ∈ all_sources pk fn -> i ∈ roots e -> i_obj i = Some o -> o ∈ flow_vars.
Proof.
  intros He Hi Ho. apply elem_of_list_omap. exists i. split; [|done]. apply elem_of_app. left.
  apply elem_of_list_In, in_flat_map. exists e. split; [by apply elem_of_list_In|]. apply elem_of_list_In, elem_of_app. by left.
Qed.
Lemma flow_callee e i o : e ∈ all_sources pk fn -> i ∈ callees e -> i_obj i = Some o -> o ∈ flow_vars.
Proof.
  intros He Hi Ho. apply elem_of_list_omap. exists i. split; [|done]. apply elem_of_app. left.
  apply elem_of_list_In, in_flat_map. exists e. split; [by apply elem_of_list_In|]. apply elem_of_list_In, elem_of_app. by right.
Qed.
Lemma flow_tracked p i o : tracked pk fn p ∅ i o -> (forall o', i_obj i = Some o' -> o' ∈ flow_vars) -> o ∈ flow_vars.
Proof.
  intros H Hi. destruct H as [o (Ho&_)|o j o' _ (e&He&Hj&_) (Ho&_)].
  - by apply Hi.
  - assert (e ∈ all_sources pk fn) as Hs.
    { apply elem_of_app. left. by eapply assigned_source, assigned_in. }
    eapply flow_source; [exact Hs| |exact Ho]. unfold roots. rewrite Hj. by left.
Qed.
Lemma flow_expr_var e o : (forall i, root pk e i -> forall o', i_obj i = Some o' -> o' ∈ flow_vars) -> expr_var pk fn e o -> o ∈ flow_vars.
Proof.
  intros He H. destruct H as [i o Hi Ht|o e' i o' _ Hl Hi Ht].
  - eapply flow_tracked; [exact Ht|by apply He].
  - eapply flow_tracked; [exact Ht|]. intros o'' Ho.
    destruct Hl as [(e0&Hx&->&_)|(d&id&t&Hd&Hu)].
    + eapply (flow_source e0); [| |exact Ho]; [apply elem_of_app; left; by eapply assigned_source, assigned_in|].
      eapply roots_spec; [|exact Hi]. by rewrite unparen_idem.
    + eapply (flow_source e'); [| |exact Ho]; [|by eapply roots_spec].
      apply elem_of_app. right. apply elem_of_list_In, in_flat_map. exists (de_source d).
      split; [apply elem_of_list_In; by eapply assigned_source, several_in|]. unfold operands. rewrite Hu. by left.
Qed.
Lemma flow_error_var o : error_var pk fn o -> o ∈ flow_vars.
Proof.
  intros (s&e&Hs&_&Hr&Hv). eapply flow_expr_var; [|exact Hv]. intros i Hi o' Ho.
  eapply (flow_source e); [by eapply returned_in|by eapply roots_spec|done].
Qed.
Lemma flow_followed o : followed pk fa fn o -> o ∈ flow_vars.
Proof.
  intros [H|f i (e&args&Hc&He) _ (Hi&_) Ht|i (p&_&Hp) Ht].
  - by apply flow_error_var.
  - eapply flow_tracked; [exact Ht|]. intros o' Ho.
    assert (error_source pk fn e) as (e'&He'&Hu)%error_source_in.
    { destruct He as [He|[(v&Hv&Hl)|(v&d&ps&rs&b&Hv&Hd&->&_)]]; [by left|right; exists v; split; [done|by left]|right; exists v; split; [done|right; by exists d]]. }
    eapply (flow_callee e'); [exact He'| |exact Ho]. unfold callees. rewrite Hu, Hc, Hi. by left.
  - eapply flow_tracked; [exact Ht|]. intros o' Ho. apply elem_of_list_omap. exists i. split; [|done].
    rewrite !elem_of_app. right. right. apply elem_of_list_omap. exists (Some i). split; [by eapply elem_of_list_lookup_2|done].
Qed.
Fixpoint outer_assignments (n : node) : list (list node * list node) :=
  match as_assign n with
  | Some p => [p]
  | None => let 'Node _ _ kids := n in flat_map outer_assignments kids
  end.
Lemma outer_assignments_spec n p : In p (outer_assignments n) -> outer_assignment n p.1 p.2.
Proof.
  revert n. fix IH 1. intros [id k kids]. cbn [outer_assignments].
  destruct (as_assign (Node id k kids)) as [q|] eqn:E.
  - clear IH. intros [->|[]]. destruct p. by apply outer_here.
  - assert (forall l, In p (flat_map outer_assignments l) -> exists m, In m l /\ outer_assignment m p.1 p.2) as Hl.
    { clear E. induction l as [|m l IHl]; cbn [flat_map]; [intros []|]. intros [H|H]%in_app_or.
      - exists m. split; [by left|exact (IH m H)].
      - destruct (IHl H) as (m'&?&?). exists m'. split; [by right|done]. }
    intros H. destruct (Hl _ H) as (m&Hm&Ho). eapply outer_below; [exact E| |exact Ho]. by apply elem_of_list_In.
Qed.
Definition zero_vars : list ident :=
  flat_map (fun p : list ident * list node => match p.2 with [] => p.1 | _ => [] end) value_specs ++ result_names.
Lemma zero_vars_spec o et : zero_declared pk fa fn o et ->
  exists i, i ∈ zero_vars /\ i_obj i = Some o /\ struct_type (i_id i) = Some et.
Proof.
  intros (i&Ho&Ht%struct_type_spec&H). exists i. split; [|done]. apply elem_of_app.
  destruct H as [(id&names&t&Hn&Hi)|(fields&fl&Hf&Hfl&Hi)].
  - left. apply elem_of_list_In, in_flat_map. exists (names, []). split; [apply elem_of_list_In; by eapply value_specs_spec|by apply elem_of_list_In].
  - right. apply elem_of_list_In, in_flat_map. unfold result_names. rewrite Hf. exists fl. by rewrite <-!elem_of_list_In.
Qed.
Definition declared_inside_b (o : oid) : bool := bool_decide (inside_from fn < ob_pos (obj_of pk o) /\ ob_pos (obj_of pk o) < fn_body_end fn)%N.
Definition calls_in : list (node * node * list node) :=
  omap (fun n => match as_call n with Some (f, args) => Some (n, f, args) | None => None end) nodes.
Lemma calls_in_spec n f args : n ∈ nodes -> as_call n = Some (f, args) -> (n, f, args) ∈ calls_in.
Proof. intros Hn Hc. apply elem_of_list_omap. exists n. split; [done|]. by rewrite Hc. Qed.
Definition has_defer : bool :=
  existsb (fun n => match n with Node _ (KOther s) _ => bool_decide (s = str "*ast.DeferStmt") | _ => false end) nodes.
Definition result_named : bool :=
  match ft_results (fn_type fn) ≫= last with
  | Some fl => match last (f_names fl) with Some i => bool_decide (i_obj i <> None) | None => false end
  | None => false
  end.

(** ** The conditions *)
Definition disciplined_b : bool :=
  let upd := updated_vars in let flow := flow_vars in let lp := all_literal_params pk fn in
  let outer := match fn_body fn with Some b => outer_assignments b | None => [] end in
  (* di_fields *)
  forallb (fun p : list node * list node => forallb (fun l => match field_of l with
    | Some x => bool_decide (p ∈ outer) && bool_decide (unparen l = l) && bool_decide (as_ident x ≫= i_obj <> None)
    | None => true end) p.1) all_writes &&
  (* di_open_fields *)
  forallb (forallb (fun l => bool_decide (field_of l = None))) all_ranges &&
  (* di_promoted *)
  forallb (fun l => negb (is_promoted l)) all_targets &&
  (* di_field_pointer *)
  forallb (fun l => bool_decide (field_of l = None) && negb (is_promoted l)) addressed &&
  (* di_places *)
  forallb (fun l => bool_decide (as_ident (unparen l) <> None) || bool_decide (struct_type (node_id l) = None)) all_targets &&
  (* di_local *)
  forallb (fun o => declared_inside_b o && bool_decide (o ∉ lp)) upd &&
  (* di_unshared *)
  forallb (fun p : list node * list node => forallb (fun l => match var_of l with
    | Some o => bool_decide (o ∉ upd) || is_struct_var o ||
        match p with ([_], [r]) => is_new_error r | _ => false end
    | None => true end) p.1) all_writes &&
  (* di_unshared_open, di_open *)
  forallb (forallb (fun l => match var_of l with Some o => bool_decide (o ∉ upd) && bool_decide (o ∉ flow) | None => true end)) all_ranges &&
  (* di_zero *)
  forallb (fun i => match i_obj i with
    | Some o => match struct_type (i_id i) with Some et => bool_decide (o ∉ flow) || bool_decide (et_codes et = ∅) | None => true end
    | None => true end) zero_vars &&
  (* di_assert *)
  forallb (fun p : list node * list node => match p.2 with
    | r :: _ => match unparen r with
                | Node _ (KTypeAssert (Some t)) [x] => match struct_type t with Some et => bool_decide (et_codes et = ∅) | None => true end
                | _ => true end
    | [] => true end) all_writes &&
  (* di_exposed *)
  forallb (fun x => match var_of x with Some o => is_struct_var o || (bool_decide (o ∉ upd) && bool_decide (o ∉ flow)) | None => true end) addressed &&
  (* di_defer *)
  (negb has_defer || negb result_named) &&
  (* di_recover *)
  (negb has_defer || match result_type with Some t => match struct_type t with Some et => bool_decide (et_codes et = ∅) | None => true end | None => true end) &&
  (* di_conversion *)
  forallb (fun c : node * node * list node => match function_object pk c.1.2 with
    | None => match error_type_of c.1.2 with Some et => bool_decide (et_codes et = ∅) || bool_decide (et_field et = None) | None => true end
    | Some _ => true end) calls_in &&
  (* di_nil *)
  forallb (fun i => bool_decide (i_obj i = None) || bool_decide (i_name i <> str "nil")) (mentioned ++ params) &&
  (* di_nil_field *)
  forallb (fun n => match as_selector n with Some (_, sel) => bool_decide (i_name sel <> str "nil") | None => true end) nodes.

Lemma fb {A} (f : A -> bool) l x : forallb f l = true -> x ∈ l -> f x = true.
Proof. rewrite forallb_forall. intros H Hx. by apply H, elem_of_list_In. Qed.

Lemma is_struct_var_true o : is_struct_var o = true -> struct_var pk fa fn o.
Proof.
  intros H. apply existsb_exists in H as (i&Hi&Ht). rewrite andb_true_iff, !bool_decide_eq_true in Ht. destruct Ht as [Ho Ht].
  destruct (struct_type (i_id i)) as [et|] eqn:Et; [|done]. apply elem_of_list_In in Hi. exists i, et. split; [|split; [done|by apply struct_type_spec]].
  unfold mentioned in Hi. rewrite !elem_of_app in Hi. destruct Hi as [Hi|[Hi|Hi]].
  - apply elem_of_list_omap in Hi as (n&?&?). by eapply me_body.
  - apply elem_of_list_In, in_flat_map in Hi as ([id k kids]&Hn&Hi). rewrite <-!elem_of_list_In in *.
    destruct k; try (by apply not_elem_of_nil in Hi). by eapply me_declared.
  - apply elem_of_list_In, in_flat_map in Hi as (fl&Hf&Hi). rewrite <-!elem_of_list_In in *.
    destruct (ft_results (fn_type fn)) as [fields|] eqn:Er; [|by apply not_elem_of_nil in Hf]. by eapply me_result.
Qed.
Lemma has_defer_spec : defers fn -> has_defer = true.
Proof.
  intros (id&kids&Hd). apply existsb_exists. eexists. split; [by apply elem_of_list_In, Hd|]. cbn beta iota. by apply bool_decide_eq_true.
Qed.

Theorem disciplined_spec : disciplined_b = true -> disciplined pk fa fn.
Proof.
  unfold disciplined_b. cbv zeta. rewrite !andb_true_iff.
  intros (((((((((((((((H1&H2)&K1)&K2)&H3)&H4)&H5)&H6)&H7)&H8)&K3)&H9)&K4)&H10)&H11)&H12). constructor.
  - intros lhs rhs l x Hw Hl Hf%field_of_spec. pose proof (fb _ _ _ (fb _ _ _ H1 (all_writes_spec _ _ Hw)) Hl) as H. cbn [fst] in H.
    rewrite Hf, !andb_true_iff, !bool_decide_eq_true in H. destruct H as ((Ho&Hu)&Hx). split; [|split; [done|]].
    + destruct (fn_body fn) as [b|]; [|by apply not_elem_of_nil in Ho]. exists b. split; [done|].
      apply elem_of_list_In, outer_assignments_spec in Ho. done.
    + destruct (as_ident x) as [i|]; [|done]. cbn in Hx. destruct (i_obj i) as [o|] eqn:Eo; [|done]. eauto.
  - intros lhs l x Hr Hl Hf%field_of_spec. pose proof (fb _ _ _ (fb _ _ _ H2 (all_ranges_spec _ Hr)) Hl) as H.
    apply bool_decide_eq_true in H. congruence.
  - intros lhs l Ht Hl Hp%is_promoted_spec. pose proof (fb _ _ _ K1 (all_targets_spec _ _ Ht Hl)) as H. cbn beta in H. by rewrite Hp in H.
  - intros (id&l&Hn&H). pose proof (fb _ _ _ K2 (addressed_spec _ _ Hn)) as H'. cbn beta in H'. rewrite andb_true_iff, negb_true_iff, bool_decide_eq_true in H'.
    destruct H' as [H1' H2']. destruct H as [[x Hf%field_of_spec]|Hp%is_promoted_spec]; congruence.
  - intros lhs l et Ht Hl Hi Hs%struct_type_spec. pose proof (fb _ _ _ H3 (all_targets_spec _ _ Ht Hl)) as H.
    rewrite orb_true_iff, !bool_decide_eq_true in H. destruct H; congruence.
  - intros o Hu%updated_vars_spec. pose proof (fb _ _ _ H4 Hu) as H. rewrite andb_true_iff in H. unfold declared_inside_b in H.
    rewrite !bool_decide_eq_true in H. destruct H as [Hd Hlp]. split; [done|]. intros Hl%literal_param_spec. done.
  - intros o lhs rhs l Hu%updated_vars_spec Hs Hw Hl Hv%var_of_spec.
    pose proof (fb _ _ _ (fb _ _ _ H5 (all_writes_spec _ _ Hw)) Hl) as H. cbn [fst] in H. rewrite Hv, !orb_true_iff, bool_decide_eq_true in H.
    destruct H as [[H|H]|H]; [done| |].
    + exfalso. apply Hs. by apply is_struct_var_true.
    + destruct lhs as [|l' [|]]; try discriminate. destruct rhs as [|r [|]]; try discriminate.
      apply elem_of_list_singleton in Hl as ->. exists r. split; [done|]. split; [done|by apply is_new_error_spec].
  - intros o lhs l Hu%updated_vars_spec _ Hr Hl Hv%var_of_spec. pose proof (fb _ _ _ (fb _ _ _ H6 (all_ranges_spec _ Hr)) Hl) as H. cbn beta in H.
    rewrite Hv, andb_true_iff, !bool_decide_eq_true in H. by destruct H.
  - intros o et Hz Hv%flow_error_var. destruct (zero_vars_spec _ _ Hz) as (i&Hi&Ho&Ht). pose proof (fb _ _ _ H7 Hi) as H. cbn beta in H.
    rewrite Ho, Ht, orb_true_iff, !bool_decide_eq_true in H. by destruct H.
  - intros lhs rhs r id t x et l o Hw _ Hr Hu Ht%struct_type_spec _ _ _. pose proof (fb _ _ _ H8 (all_writes_spec _ _ Hw)) as H. cbn [snd] in H.
    destruct rhs as [|r' rhs]; [done|]. cbn in Hr. injection Hr as ->. rewrite Hu, Ht in H. by apply bool_decide_eq_true in H.
  - intros lhs l o Hr Hl Hv%var_of_spec Hf%flow_followed. pose proof (fb _ _ _ (fb _ _ _ H6 (all_ranges_spec _ Hr)) Hl) as H. cbn beta in H.
    rewrite Hv, andb_true_iff, !bool_decide_eq_true in H. by destruct H.
  - intros o (Hns&id&x&i&Hn&Hi&Ho). pose proof (fb _ _ _ K3 (addressed_spec _ _ Hn)) as H. cbn beta in H.
    assert (var_of x = Some o) as Hv by (apply var_of_spec; by exists i). rewrite Hv, orb_true_iff, andb_true_iff, !bool_decide_eq_true in H.
    destruct H as [H|[Hu Hf]]; [by destruct Hns; apply is_struct_var_true|]. split; [by intros ?%flow_followed|by intros ?%updated_vars_spec].
  - intros o Hd%has_defer_spec (fields&fl&i&Hf&Hl&Hi&Ho). rewrite Hd in H9. apply orb_true_iff in H9 as [H|H]; [done|]. apply negb_true_iff in H.
    unfold result_named in H. rewrite Hf in H. cbn [mbind option_bind] in H. rewrite Hl, Hi in H. apply bool_decide_eq_false in H. rewrite Ho in H.
    by apply H.
  - intros fields fl et Hd%has_defer_spec Hf Hl Ht%struct_type_spec. rewrite Hd in K4. apply orb_true_iff in K4 as [H|H]; [done|].
    unfold result_type in H. rewrite Hf in H. cbn [mbind option_bind] in H. rewrite Hl in H. cbn [fmap option_fmap option_map] in H. rewrite Ht in H.
    by apply bool_decide_eq_true in H.
  - intros n f args et Hn Hc Ho He%error_type_of_spec Hne. pose proof (fb _ _ _ H10 (calls_in_spec _ _ _ Hn Hc)) as H. cbn [fst snd] in H.
    rewrite Ho, He, orb_true_iff, !bool_decide_eq_true in H. by destruct H.
  - intros i Hi Hn. assert (i ∈ mentioned ++ params) as Hm.
    { apply elem_of_app. destruct Hi as [Hi|[p Hp]]; [left; by apply mentioned_spec|right]. apply elem_of_list_omap. exists (Some i).
      split; [by eapply elem_of_list_lookup_2|done]. }
    pose proof (fb _ _ _ H11 Hm) as H. rewrite orb_true_iff, !bool_decide_eq_true in H. by destruct H.
  - intros n x sel Hn Hs. pose proof (fb _ _ _ H12 Hn) as H. cbn beta in H. rewrite Hs in H. by apply bool_decide_eq_true in H.
Qed.

(** ** [resolved] *)
Definition denoted (e : node) : list fid :=
  match e with
  | Node _ (KIdent name None) _ => option_list (lk_functions lk !! name)
  | Node _ (KIdent _ (Some o)) _ => match ob_decl (obj_of pk o) with DFunc g => [g] | _ => [] end
  | Node _ (KFuncLit g) _ => [g]
  | Node id KSelector _ => match as_selector e with
      | Some (_, sel) => match ti_selection info id with Some (_, recv) => option_list (searchMethod pk lk recv (i_name sel)) | None => [] end
      | None => []
      end
  | _ => []
  end.
Lemma denoted_spec e g : denotes pk lk e g -> g ∈ denoted e.
Proof.
  intros [id name kids g' H|id name o kids g' H|e' x sel o recv g' Hs _ Ht Hm|id g' kids]; cbn [denoted].
  - rewrite H. by left.
  - rewrite H. by left.
  - destruct e' as [id k kids]. destruct k; try discriminate. unfold denoted. rewrite Hs. cbn [node_id] in Ht. apply searchMethod_spec in Hm. rewrite Ht, Hm. by left.
  - by left.
Qed.
(** The expression cannot denote a function or a variable. *)
Definition names_type (f : node) : bool :=
  bool_decide (denoted f = []) &&
  match f with
  | Node _ (KIdent _ (Some o)) _ => bool_decide (ob_decl (obj_of pk o) = DType)
  | _ => true
  end.
Definition function_uses : list node :=
  ((fun c : node * node * list node => unparen c.1.2) <$> calls_in) ++ (unparen <$> concat (all_writes.*2)).
Lemma function_uses_spec e : function_use pk fn e -> e ∈ function_uses.
Proof.
  intros [n f args Hn Hc|lhs rhs r Hw Hr]; apply elem_of_app.
  - left. apply elem_of_list_fmap. exists (n, f, args). split; [done|by apply calls_in_spec].
  - right. apply elem_of_list_fmap. exists r. split; [done|]. apply elem_of_list_In, in_concat. exists rhs. rewrite <-!elem_of_list_In.
    split; [|done]. apply elem_of_list_fmap. exists (lhs, rhs). split; [done|by apply all_writes_spec].
Qed.
Definition is_type_name (f : node) : bool :=
  match as_ident (unparen f) with Some i => match i_obj i with Some o => bool_decide (ob_decl (obj_of pk o) = DType) | None => false end | None => false end.
Definition is_var (i : ident) : bool := match i_obj i with Some o => ob_is_var (obj_of pk o) | None => false end.
Definition resolved_b : bool :=
  let lp := all_literal_params pk fn in
  (* rs_selector *)
  forallb (fun n => match as_selector n with Some (_, sel) => bool_decide (i_obj sel = None) | None => true end) nodes &&
  (* rs_declared *)
  forallb (fun p : list ident * list node => bool_decide (NoDup (omap i_obj p.1)) && (bool_decide (p.2 = []) ||
    forallb (fun l => match i_obj l with Some o => bool_decide (ob_decl (obj_of pk o) = DValueSpec p.1 p.2) | None => true end) p.1)) value_specs &&
  (* rs_parens *)
  forallb (fun n => bool_decide (ti_value info (node_id n) = ti_value info (node_id (unparen n)))) nodes &&
  (* rs_variable *)
  forallb (fun i => negb (is_var i) || bool_decide (ti_value info (i_id i) = None)) mentioned &&
  (* rs_param *)
  forallb (fun i => match i_obj i with Some o => bool_decide (o ∉ lp) | None => true end) params &&
  (* rs_conversion *)
  forallb (fun c : node * node * list node => 
    negb (is_type_name c.1.2 || (bool_decide (function_object pk c.1.2 = None) && bool_decide (error_type_of c.1.2 <> None))) ||
    (bool_decide (function_object pk c.1.2 = None) && bool_decide (ti_type info (node_id c.1.1) = ti_type info (node_id c.1.2)) &&
     names_type (unparen c.1.2))) calls_in &&
  (* rs_function *)
  forallb (fun e => forallb (fun g => match decl_obj pk g with
    | Some o => bool_decide (value_object pk e = Some o) && negb (ti_is_typename info o)
    | None => true end) (denoted e)) function_uses.

Lemma omap_nodup (names : list ident) k k' l l' o : NoDup (omap i_obj names) -> k' < k ->
  names !! k = Some l -> names !! k' = Some l' -> i_obj l = Some o -> i_obj l' = Some o -> False.
Proof.
  revert k k'. induction names as [|n names IH]; intros k k' Hnd Hlt Hk Hk' Ho Ho'; [done|].
  destruct k as [|k]; [lia|]. cbn in Hk. cbn in Hnd. destruct k' as [|k'].
  - cbn in Hk'. injection Hk' as ->. rewrite Ho' in Hnd. apply NoDup_cons in Hnd as [Hin _]. apply Hin.
    apply elem_of_list_omap. exists l. split; [by eapply elem_of_list_lookup_2|done].
  - cbn in Hk'. eapply (IH k k'); try done; [|lia]. destruct (i_obj n); [by apply NoDup_cons in Hnd as [_ ?]|done].
Qed.

Theorem resolved_spec : resolved_b = true -> resolved pk lk fa fn.
Proof.
  unfold resolved_b. cbv zeta. rewrite !andb_true_iff. intros ((((((H1&H2)&H3)&H4)&H5)&H6)&H7). constructor.
  - intros n x sel Hn Hs. pose proof (fb _ _ _ H1 Hn) as H. cbn beta in H. rewrite Hs in H. by apply bool_decide_eq_true in H.
  - intros id names t values k l o Hn Hv Hl Ho. pose proof (fb _ _ _ H2 (value_specs_spec _ _ _ _ Hn)) as H. cbn [fst snd] in H.
    rewrite andb_true_iff, orb_true_iff, !bool_decide_eq_true in H. destruct H as [Hnd [H|H]]; [done|]. split.
    + pose proof (fb _ _ _ H (elem_of_list_lookup_2 _ _ _ Hl)) as H'. cbn beta in H'. rewrite Ho in H'. by apply bool_decide_eq_true in H'.
    + intros k' l' Hlt Hl' Ho'. by eapply (omap_nodup names k k').
  - intros n Hn. pose proof (fb _ _ _ H3 Hn) as H. by apply bool_decide_eq_true in H.
  - intros i Hi%mentioned_spec (o&Ho&Hv). pose proof (fb _ _ _ H4 Hi) as H. cbn beta in H. unfold is_var in H. rewrite Ho, Hv in H.
    by apply bool_decide_eq_true in H.
  - intros i o (p&_&Hp) Ho Hl%literal_param_spec. assert (i ∈ params) as Hi.
    { apply elem_of_list_omap. exists (Some i). split; [by eapply elem_of_list_lookup_2|done]. }
    pose proof (fb _ _ _ H5 Hi) as H. cbn beta in H. rewrite Ho in H. by apply bool_decide_eq_true in H.
  - intros n f args Hn Hc Hp. pose proof (fb _ _ _ H6 (calls_in_spec _ _ _ Hn Hc)) as H. cbn [fst snd] in H.
    apply orb_true_iff in H as [H|H].
    + exfalso. apply negb_true_iff, orb_false_iff in H as [Ha Hb]. destruct Hp as [(i&o&Hi&Ho&Hd)|(Hf&et&He%error_type_of_spec)].
      * unfold is_type_name in Ha. rewrite Hi, Ho in Ha. by apply bool_decide_eq_false in Ha.
      * apply andb_false_iff in Hb as [Hb|Hb]; apply bool_decide_eq_false in Hb; [done|]. apply Hb. by rewrite He.
    + unfold names_type in H. rewrite !andb_true_iff, !bool_decide_eq_true in H. destruct H as ((Hf&Ht)&Hd&Hty).
      split; [done|]. split; [done|]. split.
      * intros g Hg%denoted_spec. rewrite Hd in Hg. by apply not_elem_of_nil in Hg.
      * intros i o (Hi&Ho&_&Hnt). destruct (unparen f) as [id [name [o'|]| | | | | | | | | | | | | | | | | |] kids]; try discriminate; cbn in Hi; injection Hi as <-; cbn in Ho; [|done].
        injection Ho as ->. by apply bool_decide_eq_true in Hty.
  - intros e g gn d o Hu%function_uses_spec Hg%denoted_spec Hgn Hd Ho. pose proof (fb _ _ _ (fb _ _ _ H7 Hu) Hg) as H. cbn beta in H.
    unfold decl_obj in H. rewrite Hgn, Hd, Ho, andb_true_iff, negb_true_iff, bool_decide_eq_true in H. done.
Qed.
End check.

Definition sound_ok (pk : package) (fa : facts) : bool :=
  forallb (fun p : fid * func => disciplined_b pk fa p.2 && resolved_b pk (collectFunctions pk) fa p.2) (map_to_list (pk_funcs pk)).
Theorem sound_ok_spec pk fa g fn : sound_ok pk fa = true -> pk_funcs pk !! g = Some fn ->
  disciplined pk fa fn /\ resolved pk (collectFunctions pk) fa fn.
Proof.
  unfold sound_ok. rewrite forallb_forall. intros H Hg. specialize (H (g, fn)). cbn [snd] in H.
  rewrite <-elem_of_list_In, elem_of_map_to_list, andb_true_iff in H. destruct (H Hg) as [Hd Hr].
  split; [by apply disciplined_spec|by apply resolved_spec].
Qed.
