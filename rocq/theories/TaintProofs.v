(** * Proofs about variable tracking. *)
From Coq Require Import Ascii String.
From stdpp Require Import base list gmap sets.
From Verif Require Import GoString ErrorCode Scc Constant GoAst Taint SpecTaint.

(** What the processing of one variable does, as a list of steps. *)
Inductive item := IExpr (e : node) | IDest (d : destruct) | IVar (j : ident) | IBlock (os : list oid).

Section items.
Context (pk : package).

Definition item_of_expr (expr : node) : item :=
  let e := unparen expr in
  match as_ident e with
  | Some i => match i_obj i with
              | Some o => if ob_is_var (obj_of pk o) then IVar i else IExpr e
              | None => IExpr e
              end
  | None => IExpr e
  end.
Definition items_init (o : oid) : list item :=
  match ob_decl (obj_of pk o) with
  | DValueSpec names values =>
    match values with
    | [] => []
    | v0 :: _ =>
      match find_value o names 0 with
      | None => []
      | Some (i, n) =>
        if decide (length values = length names)
        then match values !! i with Some v => [item_of_expr v] | None => [] end
        else [IDest (Destruct i n v0)]
      end
    end
  | _ => []
  end.
Fixpoint items_lhs (o : oid) (same : bool) (rhs : list node) (i : nat) (lhs : list node) : list item :=
  match lhs with
  | [] => []
  | l :: lhs' =>
    (match as_ident (unparen l) with
     | Some li =>
       if decide (i_obj li = Some o) then
         if same then match rhs !! i with Some r => [item_of_expr r] | None => [] end
         else match rhs with r :: _ => [IDest (Destruct i li r)] | [] => [] end
       else []
     | None => []
     end) ++ items_lhs o same rhs (S i) lhs'
  end.
Definition items_node (o : oid) (n : node) : list item :=
  match as_funclit n with
  | Some lit => match pk_funcs pk !! lit with Some fn => [IBlock (param_objs (fn_type fn))] | None => [] end
  | None =>
    match as_assign n with
    | Some (lhs, rhs) => items_lhs o (bool_decide (length lhs = length rhs)) rhs 0 lhs
    | None => []
    end
  end.
Definition run_item (rec : ident -> tstate -> tstate) (st : tstate) (it : item) : tstate :=
  match it with
  | IExpr e => add_expr e st
  | IDest d => add_destruct d st
  | IVar j => rec j st
  | IBlock os => block os st
  end.
Definition run_items (rec : ident -> tstate -> tstate) (st : tstate) (l : list item) : tstate :=
  foldl (run_item rec) st l.

Lemma process_item rec e st : processAssignedExpr pk rec e st = run_item rec st (item_of_expr e).
Proof.
  unfold processAssignedExpr, item_of_expr. destruct (as_ident (unparen e)) as [i|]; [|done].
  destruct (i_obj i) as [o|]; [|done]. by destruct (ob_is_var (obj_of pk o)).
Qed.
Lemma spread_init_items rec o st : spread_init pk rec o st = run_items rec st (items_init o).
Proof.
  unfold spread_init, items_init. destruct (ob_decl (obj_of pk o)) as [| |names [|v0 vs]|]; try done.
  destruct (find_value o names 0) as [[i n]|]; [|done]. case_decide; [|done].
  destruct ((v0 :: vs) !! i); [|done]. apply process_item.
Qed.
Lemma spread_lhs_items rec o same rhs i lhs st :
  spread_lhs pk rec o same rhs i lhs st = run_items rec st (items_lhs o same rhs i lhs).
Proof.
  revert i st. induction lhs as [|l lhs IH]; intros i st; [done|].
  cbn [spread_lhs items_lhs]. unfold run_items. rewrite foldl_app. rewrite IH. unfold run_items. f_equal.
  destruct (as_ident (unparen l)) as [li|]; [|done]. case_decide; [|done]. destruct same.
  - destruct (rhs !! i); [|done]. apply process_item.
  - by destruct rhs.
Qed.
Lemma spread_node_items rec o st n : spread_node pk rec o st n = run_items rec st (items_node o n).
Proof.
  unfold spread_node, items_node, blockParams. destruct (as_funclit n) as [lit|].
  - by destruct (pk_funcs pk !! lit).
  - destruct (as_assign n) as [[lhs rhs]|]; [|done]. apply spread_lhs_items.
Qed.
Lemma spread_nodes_items rec o st ns :
  foldl (spread_node pk rec o) st ns = run_items rec st (flat_map (items_node o) ns).
Proof.
  revert st. induction ns as [|n ns IH]; intros st; [done|].
  cbn [foldl flat_map]. rewrite IH, spread_node_items. unfold run_items. by rewrite foldl_app.
Qed.
End items.

Section dfs.
Context (pk : package) (fn : func) (param : option oid).
Notation tracked := (tracked pk fn param).
Notation untrackable := (untrackable pk fn param).
Notation local := (local pk fn param).
Notation assigned := (assigned pk fn).
Notation assigned_var := (assigned_var pk fn).
Notation assigned_expr := (assigned_expr pk fn).
Notation assigned_several := (assigned_several pk fn).
Notation literal_param := (literal_param pk fn).
Notation nodes := (body_nodes fn).

Definition items_of (o : oid) : list item := items_init pk o ++ flat_map (items_node pk o) nodes.

Lemma item_of_expr_var e j : item_of_expr pk e = IVar j <-> as_ident (unparen e) = Some j /\ is_variable pk j.
Proof.
  unfold item_of_expr, is_variable. destruct (as_ident (unparen e)) as [i|]; [|split; [done|by intros [? _]]].
  destruct (i_obj i) as [o|] eqn:Eo.
  - destruct (ob_is_var (obj_of pk o)) eqn:Ev; split.
    + intros [= <-]. eauto.
    + by intros [[= <-] _].
    + done.
    + intros [[= <-] (o'&Ho'&?)]. congruence.
  - split; [done|]. intros [[= <-] (o'&Ho'&?)]. congruence.
Qed.
Lemma item_of_expr_expr e e' : item_of_expr pk e = IExpr e' <->
  e' = unparen e /\ forall j, as_ident e' = Some j -> ~ is_variable pk j.
Proof.
  unfold item_of_expr, is_variable. destruct (as_ident (unparen e)) as [i|] eqn:Ei.
  - destruct (i_obj i) as [o|] eqn:Eo.
    + destruct (ob_is_var (obj_of pk o)) eqn:Ev; split.
      * done.
      * intros [-> H]. destruct (H i Ei). eauto.
      * intros [= <-]. split; [done|]. intros j. rewrite Ei. intros [= <-] (o'&Ho'&?). congruence.
      * by intros [-> _].
    + split.
      * intros [= <-]. split; [done|]. intros j. rewrite Ei. intros [= <-] (o'&Ho'&?). congruence.
      * by intros [-> _].
  - split.
    + intros [= <-]. split; [done|]. intros j. by rewrite Ei.
    + by intros [-> _].
Qed.
Lemma item_of_expr_cases e : (exists j, item_of_expr pk e = IVar j) \/ exists e', item_of_expr pk e = IExpr e'.
Proof.
  unfold item_of_expr. destruct (as_ident (unparen e)) as [i|]; [|eauto].
  destruct (i_obj i) as [o|]; [|eauto]. destruct (ob_is_var (obj_of pk o)); eauto.
Qed.

Lemma find_value_spec o names k0 k n : find_value o names k0 = Some (k, n) <->
  exists k1, k = k0 + k1 /\ names !! k1 = Some n /\ i_obj n = Some o /\
    forall k' l', k' < k1 -> names !! k' = Some l' -> i_obj l' <> Some o.
Proof.
  revert k0. induction names as [|m names IH]; intros k0; cbn [find_value].
  - split; [done|]. by intros (k1&_&?&_).
  - case_decide as Ho.
    + split.
      * intros [= <- <-]. exists 0. split_and!; [lia|done|done|]. intros k' l' Hk. lia.
      * intros ([|k1]&->&Hl&Hobj&Hmin).
        -- cbn in Hl. injection Hl as ->. f_equal. f_equal. lia.
        -- destruct (Hmin 0 m); [lia|done|done].
    + rewrite IH. split.
      * intros (k1&->&Hl&Hobj&Hmin). exists (S k1). split_and!; [lia|done|done|].
        intros [|k'] l' Hk Hl'; [cbn in Hl'; congruence|]. apply (Hmin k'); [lia|done].
      * intros ([|k1]&->&Hl&Hobj&Hmin).
        -- cbn in Hl. congruence.
        -- exists k1. split_and!; [lia|done|done|]. intros k' l' Hk Hl'. apply (Hmin (S k')); [lia|done].
Qed.

(** Abstract version of [assigned]/[assigned_several] for a class of items. *)
Lemma items_init_elem o it : it ∈ items_init pk o <->
  exists names values k l, ob_decl (obj_of pk o) = DValueSpec names values /\
    names !! k = Some l /\ i_obj l = Some o /\
    (forall k' l', k' < k -> names !! k' = Some l' -> i_obj l' <> Some o) /\
    ((length values = length names /\ exists r, values !! k = Some r /\ it = item_of_expr pk r) \/
     (length values <> length names /\ exists r, values !! 0 = Some r /\ it = IDest (Destruct k l r))).
Proof.
  unfold items_init. destruct (ob_decl (obj_of pk o)) as [| |names values|] eqn:Ed.
  1, 2, 4: split; [by intros ?%elem_of_nil|]; intros (?&?&?&?&?&_); done.
  destruct values as [|v0 vs].
  { split; [by intros ?%elem_of_nil|]. intros (?&?&k&l&[= <- <-]&Hl&_&_&[(Hlen&_)|(_&r&Hr&_)]); [|done].
    apply lookup_lt_Some in Hl. cbn in Hlen. lia. }
  destruct (find_value o names 0) as [[i n]|] eqn:Ef.
  - apply find_value_spec in Ef as (k1&->&Hn&Hobj&Hmin). cbn [Nat.add].
    assert (forall k l, names !! k = Some l -> i_obj l = Some o ->
       (forall k' l', k' < k -> names !! k' = Some l' -> i_obj l' <> Some o) -> k = k1 /\ l = n) as Huniq.
    { intros k l Hl Ho Hm. destruct (lt_eq_lt_dec k k1) as [[Hlt| ->]|Hlt].
      - by destruct (Hmin k l Hlt Hl).
      - split; [done|congruence].
      - by destruct (Hm k1 n Hlt Hn). }
    case_decide as Hlen.
    + destruct ((v0 :: vs) !! k1) as [v|] eqn:Ev.
      * rewrite elem_of_list_singleton. split.
        -- intros ->. exists names, (v0 :: vs), k1, n. split_and!; try done. left. split; [done|]. eauto.
        -- intros (?&?&k&l&[= <- <-]&Hl&Ho&Hm&[(_&r&Hr&->)|(?&_)]); [|done].
           destruct (Huniq k l Hl Ho Hm) as [-> ->]. congruence.
      * apply lookup_ge_None in Ev. apply lookup_lt_Some in Hn. lia.
    + rewrite elem_of_list_singleton. split.
      * intros ->. exists names, (v0 :: vs), k1, n. split_and!; try done. right. split; [done|]. eauto.
      * intros (?&?&k&l&[= <- <-]&Hl&Ho&Hm&[(?&_)|(_&r&Hr&->)]); [done|].
        destruct (Huniq k l Hl Ho Hm) as [-> ->]. cbn in Hr. congruence.
  - split; [by intros ?%elem_of_nil|]. intros (?&?&k&l&[= <- <-]&Hl&Ho&Hm&_).
    assert (find_value o names 0 = Some (k, l)); [|congruence]. apply find_value_spec. exists k. done.
Qed.
Lemma items_lhs_elem o same rhs i lhs it : it ∈ items_lhs pk o same rhs i lhs <->
  exists k l li, lhs !! k = Some l /\ as_ident (unparen l) = Some li /\ i_obj li = Some o /\
    if same : bool then exists r, rhs !! (i + k) = Some r /\ it = item_of_expr pk r
    else exists r, rhs !! 0 = Some r /\ it = IDest (Destruct (i + k) li r).
Proof.
  revert i. induction lhs as [|l lhs IH]; intros i; cbn [items_lhs].
  { split; [by intros ?%elem_of_nil|]. by intros (?&?&?&?&_). }
  rewrite elem_of_app, IH. split.
  - intros [H|(k&l'&li&H1&H2&H3&H4)].
    + exists 0. destruct (as_ident (unparen l)) as [li|] eqn:El; [|by apply elem_of_nil in H].
      case_decide; [|by apply elem_of_nil in H]. exists l, li. rewrite Nat.add_0_r. split_and!; try done.
      destruct same.
      * destruct (rhs !! i) as [r|]; [|by apply elem_of_nil in H]. apply elem_of_list_singleton in H. eauto.
      * destruct rhs as [|r rhs]; [by apply elem_of_nil in H|]. apply elem_of_list_singleton in H. eauto.
    + exists (S k), l', li. split_and!; try done. replace (i + S k) with (S i + k) by lia. done.
  - intros ([|k]&l'&li&H1&H2&H3&H4).
    + left. cbn in H1. injection H1 as ->. rewrite H2. rewrite decide_True by done. rewrite Nat.add_0_r in H4.
      destruct same.
      * destruct H4 as (r&->&->). by apply elem_of_list_singleton.
      * destruct H4 as (r&Hr&->). destruct rhs; [done|]. cbn in Hr. injection Hr as ->. by apply elem_of_list_singleton.
    + right. exists k, l', li. split_and!; try done. replace (S i + k) with (i + S k) by lia. done.
Qed.
Lemma items_of_elem o it : it ∈ items_of o <-> it ∈ items_init pk o \/ exists n, n ∈ nodes /\ it ∈ items_node pk o n.
Proof.
  unfold items_of. rewrite elem_of_app, (elem_of_list_In (flat_map _ _) it), in_flat_map.
  split; (intros [?|(n&H1&H2)]; [by left|right; exists n]); split; by apply elem_of_list_In.
Qed.
Lemma param_objs_spec lit o : o ∈ param_objs (fn_type lit) <-> has_parameter lit o.
Proof.
  unfold param_objs, has_parameter. rewrite elem_of_list_In, in_flat_map. split.
  - intros (fl&Hf&Ho). apply elem_of_list_In, elem_of_list_omap in Ho as (i&Hi&Ho). exists fl, i. by rewrite elem_of_list_In.
  - intros (fl&i&Hf&Hi&Ho). exists fl. rewrite <-!elem_of_list_In. split; [done|]. apply elem_of_list_omap. by exists i.
Qed.
Lemma funclit_not_assign n f : as_funclit n = Some f -> as_assign n = None.
Proof. destruct n as [? [] ?]; done. Qed.
Lemma assign_not_funclit n a : as_assign n = Some a -> as_funclit n = None.
Proof. destruct n as [? [] ?]; done. Qed.
Lemma items_of_expr_elem o e it : (it = item_of_expr pk e -> assigned o e -> it ∈ items_of o).
Proof.
  intros -> H. apply items_of_elem. destruct H as [n lhs rhs k l r li Hn Ha Hlen Hl Hli Ho Hr|names values k l r Hd Hlen Hl Ho Hm Hr].
  - right. exists n. split; [done|]. unfold items_node. rewrite (assign_not_funclit _ _ Ha), Ha.
    rewrite bool_decide_true by done. apply items_lhs_elem. exists k, l, li. eauto 10.
  - left. apply items_init_elem. exists names, values, k, l. split_and!; try done. left. eauto.
Qed.
Lemma items_of_assigned o it : it ∈ items_of o -> (forall os, it <> IBlock os) -> (forall d, it <> IDest d) ->
  exists e, assigned o e /\ it = item_of_expr pk e.
Proof.
  intros H Hb Hd. apply items_of_elem in H as [H|(n&Hn&H)].
  - apply items_init_elem in H as (names&values&k&l&Hdc&Hl&Ho&Hm&[(Hlen&r&Hr&->)|(_&r&_&->)]); [|by destruct (Hd (Destruct k l r))].
    exists r. split; [|done]. by eapply assigned_init.
  - unfold items_node in H. destruct (as_funclit n) as [f|].
    { destruct (pk_funcs pk !! f) as [lit|]; [|by apply elem_of_nil in H].
      apply elem_of_list_singleton in H as ->. by destruct (Hb (param_objs (fn_type lit))). }
    destruct (as_assign n) as [[lhs rhs]|] eqn:Ea; [|by apply elem_of_nil in H].
    apply items_lhs_elem in H as (k&l&li&H1&H2&H3&H4). case_bool_decide as Hlen.
    + destruct H4 as (r&Hr&->). exists r. split; [|done]. by eapply assigned_stmt.
    + destruct H4 as (r&Hr&->). by destruct (Hd (Destruct (0 + k) li r)).
Qed.
Lemma items_of_var o j : IVar j ∈ items_of o <-> assigned_var o j.
Proof.
  unfold assigned_var. split.
  - intros H. apply items_of_assigned in H as (e&He&Heq); [|done|done].
    symmetry in Heq. apply item_of_expr_var in Heq as [? ?]. eauto.
  - intros (e&He&Hi&Hv). apply (items_of_expr_elem o e); [|done]. symmetry. by apply item_of_expr_var.
Qed.
Lemma items_of_expr o e : IExpr e ∈ items_of o <-> assigned_expr o e.
Proof.
  unfold assigned_expr. split.
  - intros H. apply items_of_assigned in H as (e'&He&Heq); [|done|done].
    symmetry in Heq. apply item_of_expr_expr in Heq as [? ?]. eauto.
  - intros (e'&He&Hi). apply (items_of_expr_elem o e'); [|done]. symmetry. by apply item_of_expr_expr.
Qed.
Lemma items_of_dest o d : IDest d ∈ items_of o <-> assigned_several o d.
Proof.
  rewrite items_of_elem. split.
  - intros [H|(n&Hn&H)].
    + apply items_init_elem in H as (names&values&k&l&Hdc&Hl&Ho&Hm&[(Hlen&r&Hr&Heq)|(Hlen&r&Hr&[= ->])]).
      * destruct (item_of_expr_cases r) as [[? E]|[? E]]; congruence.
      * by eapply several_init.
    + unfold items_node in H. destruct (as_funclit n) as [f|].
      { destruct (pk_funcs pk !! f); [|by apply elem_of_nil in H]. by apply elem_of_list_singleton in H. }
      destruct (as_assign n) as [[lhs rhs]|] eqn:Ea; [|by apply elem_of_nil in H].
      apply items_lhs_elem in H as (k&l&li&H1&H2&H3&H4). case_bool_decide as Hlen.
      * destruct H4 as (r&Hr&Heq). destruct (item_of_expr_cases r) as [[? E]|[? E]]; congruence.
      * destruct H4 as (r&Hr&[= ->]). by eapply several_stmt.
  - intros [n lhs rhs k l r li Hn Ha Hlen Hl Hli Ho Hr|names values k l r Hd Hlen Hl Ho Hm Hr].
    + right. exists n. split; [done|]. unfold items_node. rewrite (assign_not_funclit _ _ Ha), Ha.
      rewrite bool_decide_false by done. apply items_lhs_elem. exists k, l, li. eauto 10.
    + left. apply items_init_elem. exists names, values, k, l. split_and!; try done. right. eauto.
Qed.
Lemma items_of_block o os : IBlock os ∈ items_of o ->
  exists n f lit, n ∈ nodes /\ as_funclit n = Some f /\ pk_funcs pk !! f = Some lit /\ os = param_objs (fn_type lit).
Proof.
  rewrite items_of_elem. intros [H|(n&Hn&H)].
  - apply items_init_elem in H as (names&values&k&l&Hdc&Hl&Ho&Hm&[(Hlen&r&Hr&Heq)|(Hlen&r&Hr&?)]); [|done].
    destruct (item_of_expr_cases r) as [[? E]|[? E]]; congruence.
  - unfold items_node in H. destruct (as_funclit n) as [f|] eqn:Ef.
    { destruct (pk_funcs pk !! f) as [lit|] eqn:El; [|by apply elem_of_nil in H]. apply elem_of_list_singleton in H as [= ->].
      eauto 10. }
    destruct (as_assign n) as [[lhs rhs]|] eqn:Ea; [|by apply elem_of_nil in H].
    apply items_lhs_elem in H as (k&l&li&H1&H2&H3&H4). case_bool_decide.
    + destruct H4 as (r&Hr&Heq). destruct (item_of_expr_cases r) as [[? E]|[? E]]; congruence.
    + by destruct H4 as (r&Hr&?).
Qed.

Lemma tracked_antitone V V' i o : V ⊆ V' -> tracked V' i o -> tracked V i o.
Proof.
  intros HV. induction 1 as [o ??|o j o' _ IH ???].
  - constructor; set_solver.
  - eapply tracked_step; [exact IH|done|done|set_solver].
Qed.
Lemma tracked_trans V i o j o' : tracked V i o -> assigned_var o j -> tracked V j o' -> tracked V i o'.
Proof.
  intros Ho Hj. induction 1 as [o' ??|o1 j1 o2 _ IH ???].
  - by eapply tracked_step.
  - by eapply tracked_step.
Qed.
Lemma tracked_not_in V i o : tracked V i o -> o ∉ V.
Proof. by destruct 1. Qed.

(** ** Scoping *)
Context (Hsc : scoped pk fn).

Definition ready (B : gset oid) (o : oid) : Prop :=
  forall p, init_from pk o p -> literal_param p -> p ∈ B.
Definition ready_ident (B : gset oid) (i : ident) : Prop := forall o, i_obj i = Some o -> ready B o.
Lemma ready_mono B B' o : B ⊆ B' -> ready B o -> ready B' o.
Proof. intros HB H p ??. apply HB. by eapply H. Qed.
Fixpoint ready_items (B : gset oid) (l : list item) : Prop :=
  match l with
  | [] => True
  | IVar j :: l' => ready_ident B j /\ ready_items B l'
  | IBlock os :: l' => ready_items (list_to_set os ∪ B) l'
  | _ :: l' => ready_items B l'
  end.
Lemma ready_items_mono B B' l : B ⊆ B' -> ready_items B l -> ready_items B' l.
Proof.
  revert B B'. induction l as [|[e|d|j|os] l IH]; intros B B' HB; cbn; [done|eauto|eauto| |].
  - intros [H1 H2]. split; [|eauto]. intros o Ho. eapply ready_mono; eauto.
  - apply IH. set_solver.
Qed.
Lemma ready_items_app B l1 l2 : ready_items B l1 -> (forall B', B ⊆ B' -> (forall os, IBlock os ∈ l1 -> list_to_set os ⊆ B') -> ready_items B' l2) ->
  ready_items B (l1 ++ l2).
Proof.
  revert B. induction l1 as [|[e|d|j|os] l1 IH]; intros B H1 H2; cbn in *.
  - apply H2; [done|]. intros os Hos. by apply elem_of_nil in Hos.
  - apply IH; [done|]. intros B' HB' Hos. apply H2; [done|]. intros os [?|?]%elem_of_cons; [done|auto].
  - apply IH; [done|]. intros B' HB' Hos. apply H2; [done|]. intros os [?|?]%elem_of_cons; [done|auto].
  - destruct H1 as [H1 H1']. split; [done|].
    apply IH; [done|]. intros B' HB' Hos. apply H2; [done|]. intros os [?|?]%elem_of_cons; [done|auto].
  - apply IH; [done|]. intros B' HB' Hos. apply H2; [set_solver|]. intros os' [[= ->]|?]%elem_of_cons; [set_solver|auto].
Qed.
Lemma ready_items_all B l : (forall j, IVar j ∈ l -> ready_ident B j) -> ready_items B l.
Proof.
  revert B. induction l as [|[e|d|j|os] l IH]; intros B H; cbn; [done| | | |].
  - apply IH. intros j Hj. apply H. by right.
  - apply IH. intros j Hj. apply H. by right.
  - split; [apply H; by left|]. apply IH. intros j' Hj. apply H. by right.
  - apply IH. intros j Hj o Ho. eapply ready_mono; [|apply (H j); [by right|done]]. set_solver.
Qed.
Lemma ready_items_of B o : ready B o -> ready_items B (items_of o).
Proof.
  intros HB. unfold items_of. apply ready_items_app.
  - apply ready_items_all. intros j Hj o' Ho'.
    apply items_init_elem in Hj as (names&values&k&l&Hdc&Hl&Ho&Hm&[(Hlen&r&Hr&Heq)|(_&r&_&?)]); [|done].
    symmetry in Heq. apply item_of_expr_var in Heq as [Hi _].
    intros p Hin. apply HB. eapply init_step; [exact Hdc| |exact Hi|exact Ho'|done].
    by eapply elem_of_list_lookup_2.
  - intros B0 _ _.
    assert (forall l1 l2 B', nodes = l1 ++ l2 ->
      (forall n f lit, n ∈ l1 -> as_funclit n = Some f -> pk_funcs pk !! f = Some lit -> list_to_set (param_objs (fn_type lit)) ⊆ B') ->
      ready_items B' (flat_map (items_node pk o) l2)) as H; [|apply (H [] nodes B0); [done|by intros ??? ?%elem_of_nil]].
    intros l1 l2. revert l1. induction l2 as [|n l2 IH]; intros l1 B' Hn HB'; [done|].
    cbn [flat_map]. apply ready_items_app.
    + apply ready_items_all. intros j Hj o' Ho'.
      unfold items_node in Hj. destruct (as_funclit n) as [f|].
      { destruct (pk_funcs pk !! f); [|by apply elem_of_nil in Hj]. by apply elem_of_list_singleton in Hj. }
      destruct (as_assign n) as [[lhs rhs]|] eqn:Ea; [|by apply elem_of_nil in Hj].
      apply items_lhs_elem in Hj as (k&l&li&H1&H2&H3&H4). case_bool_decide; [|by destruct H4 as (?&_&?)].
      destruct H4 as (r&Hr&Heq). symmetry in Heq. apply item_of_expr_var in Heq as [Hi _].
      intros p Hin (m&f&lit&Hm&Hf&Hlit&Hp).
      edestruct (Hsc l1 n l2 lhs rhs r j o' p m f lit) as (m'&Hm'&Hf'); eauto.
      { by eapply elem_of_list_lookup_2. }
      apply (HB' m' f lit); [done|done|done|]. by apply elem_of_list_to_set, param_objs_spec.
    + intros B'' HB'' Hos. apply (IH (l1 ++ [n])).
      { by rewrite <-app_assoc. }
      intros m f lit Hm Hf Hlit. apply elem_of_app in Hm as [Hm| ->%elem_of_list_singleton].
      * etrans; [|exact HB'']. by eapply HB'.
      * apply Hos. unfold items_node. rewrite Hf, Hlit. by apply elem_of_list_singleton.
Qed.

(** ** The invariant *)
Definition is_new (st st' : tstate) (o : oid) : Prop := o ∈ ts_visited st' /\ o ∉ ts_visited st.
Record post (R : ident -> Prop) (X : item -> Prop) (st st' : tstate) : Prop := {
  po_ok : ts_ok st' = ts_ok st;
  po_visited : ts_visited st ⊆ ts_visited st';
  po_blocked : ts_blocked st ⊆ ts_blocked st';
  po_blocked_ok : (forall o, o ∈ ts_blocked st -> literal_param o) -> forall o, o ∈ ts_blocked st' -> literal_param o;
  po_roots : forall j o, R j -> local j o -> o ∈ ts_visited st';
  po_new : forall o, is_new st st' o -> exists j, R j /\ tracked (ts_visited st) j o;
  po_closed : forall o j o', is_new st st' o -> assigned_var o j -> local j o' -> o' ∈ ts_visited st';
  po_exprs : exists l, ts_exprs st' = ts_exprs st ++ l /\
    forall e, e ∈ l <-> X (IExpr e) \/ exists o, is_new st st' o /\ assigned_expr o e;
  po_dests : exists l, ts_destructs st' = ts_destructs st ++ l /\
    forall d, d ∈ l <-> X (IDest d) \/ exists o, is_new st st' o /\ assigned_several o d;
  po_oos : exists l, ts_oos st' = ts_oos st ++ l /\
    forall j, j ∈ l <-> untrackable j /\ (R j \/ exists o, is_new st st' o /\ assigned_var o j)
}.

Lemma is_new_trans st1 st2 st3 o : ts_visited st1 ⊆ ts_visited st2 -> ts_visited st2 ⊆ ts_visited st3 ->
  is_new st1 st3 o <-> is_new st1 st2 o \/ is_new st2 st3 o.
Proof.
  unfold is_new. intros H1 H2. split.
  - intros [? ?]. destruct (decide (o ∈ ts_visited st2)); auto.
  - intros [[? ?]|[? ?]]; split; set_solver.
Qed.
Lemma post_trans R1 X1 R2 X2 st1 st2 st3 :
  post R1 X1 st1 st2 -> post R2 X2 st2 st3 ->
  post (fun j => R1 j \/ R2 j) (fun it => X1 it \/ X2 it) st1 st3.
Proof.
  intros P Q.
  assert (forall o, is_new st1 st3 o <-> is_new st1 st2 o \/ is_new st2 st3 o) as Hnew.
  { intros o. apply is_new_trans; [apply P|apply Q]. }
  pose proof (po_visited _ _ _ _ P) as HPv. pose proof (po_visited _ _ _ _ Q) as HQv.
  split.
  - rewrite (po_ok _ _ _ _ Q). apply P.
  - set_solver.
  - etrans; [apply P|apply Q].
  - intros H. apply (po_blocked_ok _ _ _ _ Q). by apply (po_blocked_ok _ _ _ _ P).
  - intros j o [Hj|Hj] Hl.
    + apply HQv. by eapply (po_roots _ _ _ _ P).
    + by eapply (po_roots _ _ _ _ Q).
  - intros o [Hn|Hn]%Hnew.
    + destruct (po_new _ _ _ _ P o Hn) as (j&?&?). eauto.
    + destruct (po_new _ _ _ _ Q o Hn) as (j&?&Ht). exists j. split; [by right|]. by eapply tracked_antitone.
  - intros o j o' [Hn|Hn]%Hnew Ha Hl.
    + apply HQv. by eapply (po_closed _ _ _ _ P).
    + by eapply (po_closed _ _ _ _ Q).
  - destruct (po_exprs _ _ _ _ P) as (l1&E1&H1), (po_exprs _ _ _ _ Q) as (l2&E2&H2).
    exists (l1 ++ l2). split; [by rewrite E2, E1, app_assoc|]. intros e. rewrite elem_of_app, H1, H2.
    setoid_rewrite Hnew. split.
    + intros [[?|(o&?&?)]|[?|(o&?&?)]]; [by left; left|right; eauto|by left; right|right; eauto].
    + intros [[?|?]|(o&[?|?]&?)]; [by left; left|by right; left|left; right; eauto|right; right; eauto].
  - destruct (po_dests _ _ _ _ P) as (l1&E1&H1), (po_dests _ _ _ _ Q) as (l2&E2&H2).
    exists (l1 ++ l2). split; [by rewrite E2, E1, app_assoc|]. intros e. rewrite elem_of_app, H1, H2.
    setoid_rewrite Hnew. split.
    + intros [[?|(o&?&?)]|[?|(o&?&?)]]; [by left; left|right; eauto|by left; right|right; eauto].
    + intros [[?|?]|(o&[?|?]&?)]; [by left; left|by right; left|left; right; eauto|right; right; eauto].
  - destruct (po_oos _ _ _ _ P) as (l1&E1&H1), (po_oos _ _ _ _ Q) as (l2&E2&H2).
    exists (l1 ++ l2). split; [by rewrite E2, E1, app_assoc|]. intros e. rewrite elem_of_app, H1, H2.
    setoid_rewrite Hnew. split.
    + intros [[? [?|(o&?&?)]]|[? [?|(o&?&?)]]]; (split; [done|]); [by left; left|right; eauto|by left; right|right; eauto].
    + intros [? [[?|?]|(o&[?|?]&?)]]; [left; eauto|right; eauto|left; split; eauto|right; split; eauto].
Qed.
Lemma is_new_refl st o : ~ is_new st st o.
Proof. by intros [? ?]. Qed.
(** A step that changes nothing but appends [X]. *)
Lemma post_iff R R' X X' st st' : (forall j, R j <-> R' j) -> (forall it, (forall os, it <> IBlock os) -> (forall j, it <> IVar j) -> X it <-> X' it) ->
  post R X st st' -> post R' X' st st'.
Proof.
  intros HR HX P. destruct P as [P1 P2 P3 P4 P5 P6 P7 P8 P9 P10]. split; try done.
  - intros j o Hj. apply P5. by apply HR.
  - intros o Ho. destruct (P6 o Ho) as (j&?&?). exists j. split; [by apply HR|done].
  - destruct P8 as (l&E&H). exists l. split; [done|]. intros e. rewrite H, HX by done. done.
  - destruct P9 as (l&E&H). exists l. split; [done|]. intros e. rewrite H, HX by done. done.
  - destruct P10 as (l&E&H). exists l. split; [done|]. intros e. rewrite H, HR. done.
Qed.
Lemma post_simple (R : ident -> Prop) (X : item -> Prop) st st' l1 l2 l3 :
  ts_ok st' = ts_ok st -> ts_visited st' = ts_visited st -> ts_blocked st ⊆ ts_blocked st' ->
  ((forall o, o ∈ ts_blocked st -> literal_param o) -> forall o, o ∈ ts_blocked st' -> literal_param o) ->
  ts_exprs st' = ts_exprs st ++ l1 -> ts_destructs st' = ts_destructs st ++ l2 -> ts_oos st' = ts_oos st ++ l3 ->
  (forall j o, R j -> local j o -> o ∈ ts_visited st) ->
  (forall e, e ∈ l1 <-> X (IExpr e)) -> (forall d, d ∈ l2 <-> X (IDest d)) -> (forall j, j ∈ l3 <-> untrackable j /\ R j) ->
  post R X st st'.
Proof.
  intros H1 H2 H3 H4 H5 H6 H7 H8 H9 H10 H11.
  assert (forall o, ~ is_new st st' o) as Hn. { intros o. unfold is_new. rewrite H2. tauto. }
  split; try done.
  - by rewrite H2.
  - intros j o. rewrite H2. apply H8.
  - intros o Ho. by destruct (Hn o).
  - intros o ?? Ho. by destruct (Hn o).
  - exists l1. split; [done|]. intros e. rewrite H9. split; [by left|]. intros [?|(o&Ho&_)]; [done|by destruct (Hn o)].
  - exists l2. split; [done|]. intros e. rewrite H10. split; [by left|]. intros [?|(o&Ho&_)]; [done|by destruct (Hn o)].
  - exists l3. split; [done|]. intros e. rewrite H11. split; [intros [? ?]; split; [done|by left]|].
    intros [? [?|(o&Ho&_)]]; [done|by destruct (Hn o)].
Qed.

Lemma outside_spec i : isIdentOriginOutsideFunctionScope pk fn i = true <->
  i_name i <> str "nil" /\ forall o, i_obj i = Some o -> ~ declared_inside pk fn o.
Proof.
  unfold isIdentOriginOutsideFunctionScope, declared_inside. change (function_pos fn) with (inside_from fn).
  case_decide as Hn; [split; [done|by intros [? _]]|].
  destruct (i_obj i) as [o|].
  - rewrite orb_true_iff, !N.leb_le. split.
    + intros H. split; [done|]. intros o' [= <-]. lia.
    + intros [_ H]. specialize (H o eq_refl). lia.
  - split; [|done]. intros _. split; [done|]. done.
Qed.
Lemma check_spec st i : ready_ident (ts_blocked st) i -> (forall o, o ∈ ts_blocked st -> literal_param o) ->
  ((match i_obj i with Some o => bool_decide (o ∈ ts_blocked st) | None => false end)
     || isIdentOriginOutsideFunctionScope pk fn i) &&
  negb (match param with Some p => bool_decide (i_obj i = Some p) | None => false end) = true <-> untrackable i.
Proof.
  intros Hr Hb. rewrite andb_true_iff, orb_true_iff, negb_true_iff, outside_spec. unfold untrackable, is_param.
  assert (match param with Some p => bool_decide (i_obj i = Some p) | None => false end = false <->
          ~ exists p, param = Some p /\ i_obj i = Some p) as ->.
  { destruct param as [p|].
    - rewrite bool_decide_eq_false. split; [|eauto]. intros H (p'&[= <-]&?). done.
    - split; [|done]. intros _ (p'&?&_). done. }
  assert (match i_obj i with Some o => bool_decide (o ∈ ts_blocked st) | None => false end = true <->
          exists o, i_obj i = Some o /\ literal_param o) as ->; [|tauto].
  destruct (i_obj i) as [o|] eqn:Eo.
  - rewrite bool_decide_eq_true. split.
    + intros Ho. exists o. split; [done|]. by apply Hb.
    + intros (o'&[= <-]&Hp). apply (Hr o Eo o); [constructor|done].
  - split; [done|]. by intros (?&?&_).
Qed.

Definition universe : gset oid := dom (pk_objs pk) ∪ (match param with Some p => {[ p ]} | None => ∅ end).
Lemma local_universe i o : local i o -> o ∈ universe.
Proof.
  clear Hsc. intros (Ho&Hn&Hu). unfold universe. apply elem_of_union.
  destruct (decide (o ∈ dom (pk_objs pk))) as [|Hd]; [by left|right].
  destruct (decide (param = Some o)) as [->|Hp]; [by apply elem_of_singleton|].
  destruct Hu. split.
  - intros (p&?&?). congruence.
  - right. split; [done|]. intros o' Ho' [H1 H2]. rewrite Ho in Ho'. injection Ho' as <-.
    unfold obj_of in *. apply not_elem_of_dom in Hd. rewrite Hd in H1. cbn in H1. lia.
Qed.
Lemma universe_size : size universe <= S (size (pk_objs pk)).
Proof.
  clear Hsc. unfold universe. rewrite <-(size_dom (D := gset oid) (pk_objs pk)).
  destruct param as [p|].
  - etrans; [apply (subseteq_size _ ({[p]} ∪ dom (pk_objs pk))); set_solver|].
    destruct (decide (p ∈ dom (pk_objs pk))).
    + rewrite subseteq_union_1_L by set_solver. lia.
    + rewrite size_union by set_solver. rewrite size_singleton. lia.
  - rewrite union_empty_r_L. lia.
Qed.

Context (body : node) (Hbody : fn_body fn = Some body).

Lemma findSpread_post fuel i st :
  ready_ident (ts_blocked st) i -> (forall o, o ∈ ts_blocked st -> literal_param o) ->
  size (universe ∖ ts_visited st) < fuel ->
  post (fun j => j = i) (fun _ => False) st (findSpread pk fn param fuel i st).
Proof.
  revert i st. induction fuel as [|n IH]; intros i st Hr Hb Hfuel; [lia|].
  cbn [findSpread].
  pose proof (check_spec st i Hr Hb) as Hchk.
  destruct ((_ || _) && negb _) eqn:Echk.
  { (* out of scope *)
    assert (untrackable i) as Hu by (by apply Hchk). clear Hchk.
    apply (post_simple _ _ _ _ [] [] [i]); try done; cbn; rewrite ?app_nil_r; try done.
    - intros j o -> (?&?&?). done.
    - intros e. split; [by intros ?%elem_of_nil|done].
    - intros e. split; [by intros ?%elem_of_nil|done].
    - intros j. rewrite elem_of_list_singleton. split; [by intros ->|by intros [_ ?]]. }
  assert (~ untrackable i) as Hu. { intros H%Hchk. done. }
  clear Hchk Echk.
  assert (forall (P : Prop), (forall j o, j = i -> local j o -> o ∈ ts_visited st) ->
    post (fun j => j = i) (fun _ => False) st st) as Hskip.
  { intros _ H. apply (post_simple _ _ _ _ [] [] []); rewrite ?app_nil_r; try done.
    - intros e. split; [by intros ?%elem_of_nil|done].
    - intros e. split; [by intros ?%elem_of_nil|done].
    - intros j. split; [by intros ?%elem_of_nil|]. intros [? ->]. done. }
  specialize (Hskip True).
  case_decide as Hnil.
  { apply Hskip. intros j o -> (?&?&?). done. }
  destruct (i_obj i) as [o|] eqn:Eo.
  2: { apply Hskip. intros j o -> (?&?&?). congruence. }
  case_decide as Hvis.
  { apply Hskip. intros j o' -> (?&?&?). congruence. }
  clear Hskip.
  assert (local i o) as Hlocal by done.
  rewrite Hbody. rewrite spread_nodes_items, spread_init_items. unfold run_items. rewrite <-foldl_app.
  assert (walk body = nodes) as -> by (unfold body_nodes; by rewrite Hbody).
  change (items_init pk o ++ flat_map (items_node pk o) nodes) with (items_of o).
  set (st1 := mark_visited o st).
  set (rec := findSpread pk fn param n) in *.
  assert (forall l st2, (forall it, it ∈ l -> it ∈ items_of o) -> ready_items (ts_blocked st2) l ->
     (forall o, o ∈ ts_blocked st2 -> literal_param o) -> ts_visited st1 ⊆ ts_visited st2 ->
     post (fun j => IVar j ∈ l) (fun it => it ∈ l) st2 (foldl (run_item rec) st2 l)) as Hitems.
  { induction l as [|it l IHl]; intros st2 Hsub Hrd Hb2 Hv2.
    { apply (post_simple _ _ _ _ [] [] []); rewrite ?app_nil_r; try done.
      - intros j o' ?%elem_of_nil. done.
      - intros e. split; by intros ?%elem_of_nil.
      - intros e. split; by intros ?%elem_of_nil.
      - intros j. split; [by intros ?%elem_of_nil|]. by intros [_ ?%elem_of_nil]. }
    cbn [foldl].
    assert (post (fun j => IVar j = it) (fun it' => it' = it) st2 (run_item rec st2 it) /\
            ready_items (ts_blocked (run_item rec st2 it)) l) as [Hp Hrd'].
    { destruct it as [e|d|j|os]; cbn [run_item ready_items] in *.
      - split; [|done]. apply (post_simple _ _ _ _ [e] [] []); rewrite ?app_nil_r; try done.
        + intros e'. rewrite elem_of_list_singleton. split; [by intros ->|by intros [= ->]].
        + intros e'. split; [by intros ?%elem_of_nil|done].
        + intros j. split; [by intros ?%elem_of_nil|by intros [_ ?]].
      - split; [|done]. apply (post_simple _ _ _ _ [] [d] []); rewrite ?app_nil_r; try done.
        + intros e'. split; [by intros ?%elem_of_nil|done].
        + intros e'. rewrite elem_of_list_singleton. split; [by intros ->|by intros [= ->]].
        + intros j. split; [by intros ?%elem_of_nil|by intros [_ ?]].
      - destruct Hrd as [Hrj Hrd].
        assert (post (fun j' => j' = j) (fun _ => False) st2 (rec j st2)) as Hp.
        { apply IH; [done|done|].
          assert (size (universe ∖ ts_visited st2) < size (universe ∖ ts_visited st)); [|lia].
          apply subset_size. apply strict_spec_alt. split; [set_solver|].
          intros Heq. assert (o ∈ universe ∖ ts_visited st) as Ho.
          { apply elem_of_difference. split; [by eapply local_universe|done]. }
          rewrite <-Heq in Ho. apply elem_of_difference in Ho as [_ Ho]. apply Ho. apply Hv2. set_solver. }
        split.
        + eapply post_iff; [| |exact Hp].
          * intros j'. split; [by intros ->|by intros [= ->]].
          * intros it' _ Hit. split; [done|]. intros ->. by destruct (Hit j).
        + eapply ready_items_mono; [|exact Hrd]. apply Hp.
      - split; [|done]. apply (post_simple _ _ _ _ [] [] []); rewrite ?app_nil_r; try done.
        + cbn. set_solver.
        + intros H o' [Ho'%elem_of_list_to_set|Ho']%elem_of_union; [|by apply H].
          destruct (items_of_block o os) as (m&f&lit&Hm&Hf&Hlit&->); [apply Hsub; by left|].
          exists m, f, lit. by rewrite <-param_objs_spec.
        + intros e'. split; [by intros ?%elem_of_nil|done].
        + intros e'. split; [by intros ?%elem_of_nil|done].
        + intros j. split; [by intros ?%elem_of_nil|by intros [_ ?]]. }
    assert (post (fun j => IVar j ∈ l) (fun it => it ∈ l) (run_item rec st2 it) (foldl (run_item rec) (run_item rec st2 it) l)) as Hq.
    { apply IHl.
      - intros it' Hit'. apply Hsub. by right.
      - done.
      - by apply (po_blocked_ok _ _ _ _ Hp).
      - etrans; [exact Hv2|]. apply (po_visited _ _ _ _ Hp). }
    eapply post_iff; [| |exact (post_trans _ _ _ _ _ _ _ Hp Hq)].
    - intros j. by rewrite elem_of_cons.
    - intros it' _ _. by rewrite elem_of_cons. }
  specialize (Hitems (items_of o) st1 (fun _ H => H)).
  assert (post (fun j => IVar j ∈ items_of o) (fun it => it ∈ items_of o) st1 (foldl (run_item rec) st1 (items_of o))) as P.
  { apply Hitems; [|done|done]. apply ready_items_of. cbn. by apply Hr. }
  clear Hitems. set (st' := foldl (run_item rec) st1 (items_of o)) in *.
  assert (forall o', is_new st st' o' <-> o' = o \/ is_new st1 st' o') as Hnew.
  { intros o'. unfold is_new. pose proof (po_visited _ _ _ _ P) as Hv. cbn in *. split.
    - intros [? ?]. destruct (decide (o' = o)); [by left|]. right. split; [done|]. set_solver.
    - intros [->|[? ?]]; split; try done; set_solver. }
  split.
  - apply (po_ok _ _ _ _ P).
  - etrans; [|apply (po_visited _ _ _ _ P)]. cbn. set_solver.
  - apply (po_blocked _ _ _ _ P).
  - intros _. by apply (po_blocked_ok _ _ _ _ P).
  - intros j o' -> (Ho'&_&_). rewrite Eo in Ho'. injection Ho' as <-. apply (po_visited _ _ _ _ P). cbn. set_solver.
  - intros o' [->|Ho']%Hnew.
    + exists i. split; [done|]. by constructor.
    + destruct (po_new _ _ _ _ P o' Ho') as (j&Hj&Ht). apply items_of_var in Hj.
      exists i. split; [done|]. eapply tracked_trans; [by constructor|exact Hj|].
      eapply tracked_antitone; [|exact Ht]. cbn. set_solver.
  - intros o1 j o2 [->|Ho1]%Hnew Hj Hl.
    + apply (po_roots _ _ _ _ P j); [by apply items_of_var|done].
    + by eapply (po_closed _ _ _ _ P).
  - destruct (po_exprs _ _ _ _ P) as (l&E&Hl). exists l. split; [exact E|]. intros e. rewrite Hl, items_of_expr.
    setoid_rewrite Hnew. split.
    + intros [?|(o'&?&?)]; right; eauto.
    + intros [?|(o'&[->|?]&?)]; [done|by left|right; eauto].
  - destruct (po_dests _ _ _ _ P) as (l&E&Hl). exists l. split; [exact E|]. intros e. rewrite Hl, items_of_dest.
    setoid_rewrite Hnew. split.
    + intros [?|(o'&?&?)]; right; eauto.
    + intros [?|(o'&[->|?]&?)]; [done|by left|right; eauto].
  - destruct (po_oos _ _ _ _ P) as (l&E&Hl). exists l. split; [exact E|]. intros j. rewrite Hl, items_of_var.
    setoid_rewrite Hnew. split.
    + intros [? [?|(o'&?&?)]]; (split; [done|]); right; eauto.
    + intros [? [->|(o'&[->|?]&?)]]; [done|split; [done|by left]|split; [done|right; eauto]].
Qed.

(** What a complete tracking computes. *)
Theorem taintSpread_exact V i : not_closure_param pk fn i ->
  let r := taintSpread pk fn param V i in
  ts_ok r = true /\
  (forall o, o ∈ ts_visited r <-> o ∈ V \/ tracked V i o) /\
  (forall e, e ∈ ts_exprs r <-> exists o, tracked V i o /\ assigned_expr o e) /\
  (forall d, d ∈ ts_destructs r <-> exists o, tracked V i o /\ assigned_several o d) /\
  (forall j, j ∈ ts_oos r <-> untrackable j /\ (j = i \/ exists o, tracked V i o /\ assigned_var o j)).
Proof.
  intros Hi r.
  assert (post (fun j => j = i) (fun _ => False) (TState [] [] [] V ∅ true) r) as P.
  { apply findSpread_post.
    - intros o Ho p Hin Hp. by destruct (Hi o p Ho Hin).
    - cbn. set_solver.
    - unfold spread_fuel. cbn. pose proof universe_size as Hs.
      assert (size (universe ∖ V) <= size universe) by (apply subseteq_size; set_solver). lia. }
  clearbody r.
  assert (forall o, is_new (TState [] [] [] V ∅ true) r o <-> tracked V i o) as Hnew.
  { intros o. split.
    - intros H. destruct (po_new _ _ _ _ P o H) as (j&->&Ht). done.
    - intros Ht. pose proof (tracked_not_in _ _ _ Ht) as Hn. split; [|done].
      induction Ht as [o ? ?|o j o' Ho IH Hj Hl Hv].
      + by apply (po_roots _ _ _ _ P i).
      + eapply (po_closed _ _ _ _ P); [|exact Hj|exact Hl].
        pose proof (tracked_not_in _ _ _ Ho). split; [by apply IH|done]. }
  split_and!.
  - apply (po_ok _ _ _ _ P).
  - intros o. rewrite <-Hnew. unfold is_new. cbn. pose proof (po_visited _ _ _ _ P) as Hv. cbn in Hv. split.
    + intros ?. destruct (decide (o ∈ V)); auto.
    + intros [?|[? ?]]; [by apply Hv|done].
  - destruct (po_exprs _ _ _ _ P) as (l&E&Hl). cbn in E. intros e. rewrite E, Hl. setoid_rewrite Hnew.
    split; [by intros [?|?]|by right].
  - destruct (po_dests _ _ _ _ P) as (l&E&Hl). cbn in E. intros e. rewrite E, Hl. setoid_rewrite Hnew.
    split; [by intros [?|?]|by right].
  - destruct (po_oos _ _ _ _ P) as (l&E&Hl). cbn in E. intros j. rewrite E, Hl. setoid_rewrite Hnew. done.
Qed.
End dfs.
