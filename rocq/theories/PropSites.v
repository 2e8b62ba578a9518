(** * C29: every conversion to an error interface is checked. *)
From Coq Require Import Ascii String.
From stdpp Require Import base list gmap.
From Verif Require Import GoString ErrorCode Scc Engine CodeSet Constant GoAst Taint Extract Analyse Phase ErrorTypes Claims Interfaces
  Conversions Verify SpecRun SpecReports SpecSites.

Lemma designates_spec t n : designates t n <-> getNamedType t = Some n.
Proof.
  split; [induction 1; done|]. induction t; try done; cbn [getNamedType]; intros H; [injection H as <-; constructor|]. constructor. by apply IHt.
Qed.
Lemma elem_of_imap {A B} (f : nat -> A -> B) l x : x ∈ imap f l <-> exists i a, l !! i = Some a /\ x = f i a.
Proof.
  rewrite elem_of_list_lookup. setoid_rewrite list_lookup_imap. split.
  - intros (i&H). apply fmap_Some in H as (a&?&?). eauto.
  - intros (i&a&H&->). exists i. by rewrite H.
Qed.
Lemma elem_of_concat {A} (ls : list (list A)) x : x ∈ concat ls <-> exists l, l ∈ ls /\ x ∈ l.
Proof. rewrite elem_of_list_In, in_concat. by setoid_rewrite <-elem_of_list_In. Qed.
Lemma elem_of_flat_map {A B} (f : A -> list B) l x : x ∈ flat_map f l <-> exists a, a ∈ l /\ x ∈ f a.
Proof. rewrite elem_of_list_In, in_flat_map. by setoid_rewrite <-elem_of_list_In. Qed.
Lemma elem_of_map {A B} (f : A -> B) l x : x ∈ map f l <-> exists a, a ∈ l /\ x = f a.
Proof. rewrite elem_of_list_In, in_map_iff. setoid_rewrite <-elem_of_list_In. naive_solver. Qed.

Section sites.
Context (pk : package) (fa : facts).
Notation info := (pk_info pk).
Notation type_of n := (ti_type info (node_id n)).

Lemma shape_spec t u : shape pk t u <-> getUnderlyingType pk t = u.
Proof.
  unfold shape, getUnderlyingType. destruct (getNamedType t) as [n|] eqn:E.
  - split; [|intros <-; left; exists n; by rewrite designates_spec]. intros [(n'&H%designates_spec&->)|[H _]]; [congruence|]. by apply designates_spec, H in E.
  - split; [|intros <-; right; split; [|done]]. { by intros [(n'&H%designates_spec&->)|[_ ->]]; [congruence|]. } intros n H%designates_spec. congruence.
Qed.
Lemma interface_spec t m : interface_codes fa t m <-> importErrorInterfaceFact fa (Some t) = Some m.
Proof.
  unfold interface_codes, importErrorInterfaceFact. destruct (getNamedType t) as [n|] eqn:E.
  - split; [|intros H; exists n; by rewrite designates_spec]. intros (n'&H%designates_spec&Hm). congruence.
  - split; [|done]. intros (n'&H%designates_spec&_). congruence.
Qed.

(** The check, or the panic, for a conversion. *)
Definition the_check (m : gmap gostring codeset) (t : gotype) (v : option gotype) (pos : nid) : conv :=
  match v with Some v => CSite (Site m t v pos) | None => CPanic end.
Lemma in_with_fact ot k x : x ∈ with_fact fa ot k <-> exists t m, ot = Some t /\ interface_codes fa t m /\ x ∈ k m t.
Proof.
  unfold with_fact. destruct ot as [t|].
  - destruct (importErrorInterfaceFact fa (Some t)) as [m|] eqn:E.
    + split; [intros H; exists t, m; by rewrite interface_spec|]. intros (?&?&[= <-]&H%interface_spec&?). congruence.
    + split; [by intros ?%elem_of_nil|]. intros (?&?&[= <-]&H%interface_spec&?). congruence.
  - split; [by intros ?%elem_of_nil|]. by intros (?&?&?&_).
Qed.
Lemma check_expr_spec m t e x : x = check_expr pk m t e <-> exists v pos, value_at pk (Some e) v pos /\ x = the_check m t v pos.
Proof.
  unfold check_expr, check_type, value_at. split.
  - intros ->. exists (type_of e), (node_id e). split; [done|]. by destruct (type_of e).
  - intros (v&pos&[-> ->]&->). by destruct (type_of e).
Qed.

Lemma in_check m t v pos x : (forall v', v = Some v' -> x = CSite (Site m t v' pos)) -> (v = None -> x = CPanic) -> x = the_check m t v pos.
Proof. destruct v; naive_solver. Qed.
Lemma value_check m t e v pos : value_at pk (Some e) v pos -> the_check m t v pos = check_expr pk m t e.
Proof. intros H. apply check_expr_spec. eauto. Qed.
Lemma value_check_opt m t (e : option node) v pos : value_at pk e v pos ->
  the_check m t v pos = match e with Some e => check_expr pk m t e | None => CPanic end.
Proof. destruct e as [e|]; [apply value_check|]. by intros ->. Qed.

Lemma as_assign_inv n lhs rhs : as_assign n = Some (lhs, rhs) -> exists id k kids, n = Node id (KAssign k) kids /\ lhs = take k kids /\ rhs = drop k kids.
Proof. destruct n as [id [] kids]; try done. intros [= <- <-]. eauto 10. Qed.

Lemma in_return_fields results pos fields i t m : interface_codes fa t m -> result_types pk fields !! i = Some (Some t) ->
  match results !! (pos + i) with Some e => check_expr pk m t e | None => CPanic end ∈ return_fields pk fa results pos fields.
Proof.
  intros Hm. revert pos i. induction fields as [|f fields IH]; intros pos i; [done|]. cbn [return_fields].
  unfold result_types. cbn [flat_map]. fold (result_types pk fields). set (k := match f_names f with [] => 1 | _ => _ end).
  rewrite elem_of_app. destruct (decide (i < k)) as [Hi|Hi].
  - rewrite lookup_app_l by (by rewrite repeat_length). intros H. left. apply in_with_fact. exists t, m.
    pose proof (repeat_spec k (ti_type info (f_type f)) (Some t)) as Hr. split; [symmetry; apply Hr, elem_of_list_In; by eapply elem_of_list_lookup_2|].
    split; [done|]. apply elem_of_map. exists (pos + i). split; [apply elem_of_seq; lia|done].
  - rewrite lookup_app_r by (rewrite repeat_length; lia). rewrite repeat_length. intros H. right.
    specialize (IH (pos + k) (i - k) H). by replace (pos + k + (i - k)) with (pos + i) in IH by lia.
Qed.
Lemma of_return_fields results pos fields x : x ∈ return_fields pk fa results pos fields -> exists i t m, interface_codes fa t m /\
  result_types pk fields !! i = Some (Some t) /\ x = match results !! (pos + i) with Some e => check_expr pk m t e | None => CPanic end.
Proof.
  revert pos. induction fields as [|f fields IH]; intros pos; [by intros ?%elem_of_nil|]. cbn [return_fields].
  unfold result_types. cbn [flat_map]. fold (result_types pk fields). set (k := match f_names f with [] => 1 | _ => _ end).
  rewrite elem_of_app. intros [H|H].
  - apply in_with_fact in H as (t&m&Ht&Hm&H). apply elem_of_map in H as (j&Hj%elem_of_seq&->). exists (j - pos), t, m. split; [done|].
    rewrite lookup_app_l by (rewrite repeat_length; lia). split; [|by replace (pos + (j - pos)) with j by lia].
    rewrite Ht. destruct (repeat (Some t) k !! (j - pos)) as [y|] eqn:E.
    + pose proof (repeat_spec k (Some t) y) as Hr. f_equal. apply Hr, elem_of_list_In. by eapply elem_of_list_lookup_2.
    + apply lookup_ge_None in E. rewrite repeat_length in E. lia.
  - apply IH in H as (i&t&m&Hm&Hi&->). exists (k + i), t, m. split; [done|]. rewrite lookup_app_r by (rewrite repeat_length; lia). rewrite repeat_length.
    replace (k + i - k) with i by lia. split; [done|]. by replace (pos + (k + i)) with (pos + k + i) by lia.
Qed.

Lemma in_keyed m t name pre e post v pos :
  (forall d, d ∈ pre -> exists name' d', keyed_by d name' d' /\ name' <> name) ->
  ((exists x, keyed_by e name x /\ value_at pk (Some x) v pos) \/ (~ keyed e /\ v = None)) ->
  the_check m t v pos ∈ keyed_value pk m t name (pre ++ e :: post).
Proof.
  intros Hpre He. induction pre as [|d pre IH].
  - cbn [app keyed_value]. destruct He as [(x&(k&i&->&->&Hi)&Hv)|[Hk ->]].
    + rewrite decide_True by done. apply elem_of_list_singleton. by apply value_check.
    + destruct (as_keyvalue e) as [[k y]|] eqn:Ek; [|by left]. destruct (as_ident k) as [i|] eqn:Ei; [|by left].
      destruct Hk. exists (i_name i), y, k, i. done.
  - destruct (Hpre d) as (name'&d'&(k&i&Hk&Hi&Hn)&Hne); [by left|]. cbn [app keyed_value]. rewrite Hk, Hi, decide_False by congruence.
    apply IH. intros ? ?. apply Hpre. by right.
Qed.
Lemma of_keyed m t name elts x : x ∈ keyed_value pk m t name elts -> exists pre e post v pos, elts = pre ++ e :: post /\
  (forall d, d ∈ pre -> exists name' d', keyed_by d name' d' /\ name' <> name) /\
  ((exists x, keyed_by e name x /\ value_at pk (Some x) v pos) \/ (~ keyed e /\ v = None)) /\ x = the_check m t v pos.
Proof.
  induction elts as [|e elts IH]; [by intros ?%elem_of_nil|]. cbn [keyed_value].
  assert (~ keyed e -> x = CPanic -> exists pre e0 post v pos, e :: elts = pre ++ e0 :: post /\
    (forall d, d ∈ pre -> exists name' d', keyed_by d name' d' /\ name' <> name) /\
    ((exists x, keyed_by e0 name x /\ value_at pk (Some x) v pos) \/ (~ keyed e0 /\ v = None)) /\ x = the_check m t v pos) as Hno.
  { intros Hk ->. exists [], e, elts, None, 0%N. split_and!; [done|by intros ? ?%elem_of_nil|by right|done]. }
  destruct (as_keyvalue e) as [[k y]|] eqn:Ek.
  2: { intros H%elem_of_list_singleton. apply Hno; [|done]. intros (?&?&?&?&?&_). congruence. }
  destruct (as_ident k) as [i|] eqn:Ei.
  2: { intros H%elem_of_list_singleton. apply Hno; [|done]. intros (?&?&?&?&?&?&_). congruence. }
  destruct (decide (i_name i = name)) as [Hn|Hn].
  - intros H%elem_of_list_singleton. apply check_expr_spec in H as (v&pos&Hv&->). exists [], e, elts, v, pos.
    split_and!; [done|by intros ? ?%elem_of_nil| |done]. left. exists y. split; [|done]. exists k, i. done.
  - intros H. destruct (IH H) as (pre&e0&post&v&pos&->&Hpre&He&->). exists (e :: pre), e0, post, v, pos. split_and!; [done| |done|done].
    intros d [->|Hd]%elem_of_cons; [|by apply Hpre]. exists (i_name i), y. split; [|done]. exists k, i. done.
Qed.

Lemma range_key_spec x v : range_key pk x v <->
  v = match getUnderlyingType pk <$> type_of x with Some (TMap k _) => Some k | Some (TChan _ e) => Some e | _ => None end.
Proof.
  unfold range_key. destruct (type_of x) as [tx|]; cbn [fmap option_fmap option_map].
  2: { split; [intros [(?&?&?&?&_)|[(?&?&?&?&_)|[? _]]]; done|]. intros ->. right. right. split; [done|]. done. }
  setoid_rewrite shape_spec. split.
  - intros [(?&?&?&[= <-]&->&->)|[(?&?&?&[= <-]&->&->)|[-> H]]]; [done..|]. specialize (H tx eq_refl) as [H1 H2].
    destruct (getUnderlyingType pk tx) eqn:E; try done; [by edestruct H1|by edestruct H2].
  - destruct (getUnderlyingType pk tx) eqn:E; intros ->; try (right; right; split; [done|]; intros ? [= <-]; split; intros; congruence).
    + left. eauto 10.
    + right. left. eauto 10.
Qed.
Lemma range_value_spec x v : range_value pk x v <->
  v = match getUnderlyingType pk <$> type_of x with
      | Some (TPointer (TArray _ e)) | Some (TArray _ e) | Some (TSlice e) | Some (TMap _ e) | Some (TChan _ e) => Some e | _ => None end.
Proof.
  unfold range_value, elements_of. destruct (type_of x) as [tx|]; cbn [fmap option_fmap option_map].
  2: { split; [intros [(?&?&?&?&_)|[? _]]; done|]. intros ->. right. split; [done|]. done. }
  setoid_rewrite shape_spec. split.
  - intros [(?&u&e&[= <-]&Hs&[(?&->)|[(?&->)|[->|[(?&->)|(?&->)]]]]&->)|[-> H]]; rewrite ?Hs; [done..|].
    specialize (H tx (getUnderlyingType pk tx)). destruct (getUnderlyingType pk tx) as [| t| | | | | | | | | | |] eqn:E; try done; try (edestruct H; [done|done|]; eauto 10; fail).
    destruct t; try done. edestruct H; [done|done|]; eauto 10.
  - destruct (getUnderlyingType pk tx) as [| t| | | | | | | | | | |] eqn:E;
      try (intros ->; right; split; [done|]; intros ? ? ? [= <-] <-; rewrite E; intros [(?&?)|[(?&?)|[?|[(?&?)|(?&?)]]]]; congruence);
      try (intros ->; left; eexists tx, _, _; split; [done|]; split; [exact E|]; split; [|done]; eauto 10; fail).
    destruct t; try (intros ->; right; split; [done|]; intros ? ? ? [= <-] <-; rewrite E; intros [(?&?)|[(?&?)|[?|[(?&?)|(?&?)]]]]; congruence).
    intros ->. left. eexists tx, _, _. split; [done|]. split; [exact E|]. split; [|done]. eauto 10.
Qed.

Definition found (w : option functype) (n : node) (x : conv) : Prop :=
  exists t m v pos, converts pk w n t v pos /\ interface_codes fa t m /\ x = the_check m t v pos.

Lemma converts_found w n t v pos m : converts pk w n t v pos -> interface_codes fa t m -> the_check m t v pos ∈ node_conversions pk fa w n.
Proof.
  intros Hc Hm.
  destruct Hc as [lhs rhs i l Ha Hl Ht Hlen Hv|lhs call rest i l Ha Hl Ht Hlen Hv|id names typ values e -> Ht Hlen He Hv|id names typ call rest i -> Ht Hlen Hi Hv
    |id f a args params results variadic i -> Hf Hp Hv|id f args params results e i -> Hf Hp Hi He Hv|id f args params results e i -> Hf Hp Hi He Hv
    |id f a args -> Hf Hsig Hv|id typ x -> Ht Hv Hi|id init assign body lhs aid atyp x clause ncases c i -> Ha Hcl Hk Hc Ht Hs -> -> Hi
    |id x index tx e -> Hx Hs Hv|id e0 elts tn fields i name -> Ht Hs Hf Hk Hv|id e0 elts tn fields name pre e post -> Ht Hs Hf Hk Hsplit Hpre He
    |id elts tn u e -> Ht Hs Hu He Hv|id elts tn u e -> Ht Hs He Hv|id e0 results ft fields i -> -> Hf Ht Hv|id key value x body -> Ht Hv ->
    |id key value x body -> Ht Hv ->|id chan value tc d -> Ht Hs Hv].
  - apply as_assign_inv in Ha as (id&k&kids&->&->&->). cbn [node_conversions]. unfold findConversionsInAssignStmt. apply elem_of_concat. eexists.
    split; [apply elem_of_imap; exists i, l; split; [done|reflexivity]|]. cbn beta. apply in_with_fact. exists t, m. split; [done|]. split; [done|].
    rewrite decide_True by done. rewrite (value_check_opt _ _ _ _ _ Hv). destruct (drop k kids !! i); by apply elem_of_list_singleton.
  - apply as_assign_inv in Ha as (id&k&kids&->&->&Hr). cbn [node_conversions]. unfold findConversionsInAssignStmt. apply elem_of_concat. eexists.
    split; [apply elem_of_imap; exists i, l; split; [done|reflexivity]|]. cbn beta. apply in_with_fact. exists t, m. split; [done|]. split; [done|].
    rewrite <-Hr. rewrite decide_False by done. destruct Hv as [-> ->]. destruct (type_of call) as [[]|]; try by apply elem_of_list_singleton.
    destruct (ts !! i); by apply elem_of_list_singleton.
  - cbn [node_conversions]. unfold findConversionsInValueSpec. destruct values as [|call rest]; [by apply elem_of_nil in He|].
    apply in_with_fact. exists t, m. split; [done|]. split; [done|]. rewrite decide_True by done. apply elem_of_map. exists e. split; [done|]. by apply value_check.
  - cbn [node_conversions]. unfold findConversionsInValueSpec. apply in_with_fact. exists t, m. split; [done|]. split; [done|].
    rewrite decide_False by done. destruct Hv as [-> ->]. destruct (type_of call) as [[]|]; try by apply elem_of_list_singleton.
    apply elem_of_imap. apply lookup_lt_is_Some in Hi as [nm Hi]. exists i, nm. split; [done|]. by destruct (ts !! i).
  - cbn [node_conversions]. unfold findConversionsInCallExpr. rewrite Hf. apply elem_of_app. left. apply elem_of_concat. eexists.
    split; [apply elem_of_imap; exists i, t; split; [done|reflexivity]|]. cbn beta. apply in_with_fact. exists t, m. split; [done|]. split; [done|].
    rewrite (value_check_opt _ _ _ _ _ Hv). destruct ((a :: args) !! i); [by left|by apply elem_of_list_singleton].
  - cbn [node_conversions]. unfold findConversionsInCallExpr. destruct args as [|a args]; [by rewrite lookup_nil in He|]. rewrite Hf.
    apply elem_of_app. right. rewrite Hp. apply in_with_fact. exists t, m. split; [done|]. split; [done|]. apply elem_of_map. exists e.
    split; [|by apply value_check]. apply elem_of_list_lookup. exists (i - (length params - 1)). rewrite lookup_drop.
    replace (length params - 1 + (i - (length params - 1))) with i by lia. done.
  - cbn [node_conversions]. unfold findConversionsInCallExpr. destruct args as [|a args]; [by rewrite lookup_nil in He|]. rewrite Hf.
    apply elem_of_app. left. apply elem_of_concat. rewrite last_lookup in Hp. eexists.
    split; [apply elem_of_imap; exists (pred (length params)), t; split; [done|reflexivity]|]. cbn beta.
    apply in_with_fact. exists t, m. split; [done|]. split; [done|].
    assert (0 < length params) by (apply lookup_lt_Some in Hp; lia).
    destruct ((a :: args) !! pred (length params)) as [y|] eqn:Ey.
    2: { apply lookup_ge_None in Ey. apply lookup_lt_Some in He. lia. }
    right. rewrite bool_decide_eq_true_2 by lia. cbn [andb]. apply elem_of_map. exists e. split; [|by apply value_check].
    apply elem_of_list_lookup. exists (i - length params). rewrite lookup_drop. by replace (length params + (i - length params)) with i by lia.
  - cbn [node_conversions]. unfold findConversionsInCallExpr. rewrite Hf.
    assert (the_check m t v pos ∈ findConversionsExplicit pk fa (a :: args) (Some t)) as H.
    { unfold findConversionsExplicit. apply in_with_fact. exists t, m. split; [done|]. split; [done|]. rewrite (value_check_opt _ _ _ _ _ Hv).
      destruct args; by apply elem_of_list_singleton. }
    destruct t; try done. by edestruct Hsig.
  - cbn [node_conversions]. unfold findConversionsInTypeAssertExpr. apply in_with_fact. exists t, m. split; [done|]. split; [done|].
    destruct Hv as [-> ->]. destruct (type_of x) as [u|] eqn:Ex; [|by apply elem_of_list_singleton].
    destruct (getUnderlyingType pk t) eqn:Eu; try by apply elem_of_list_singleton. apply shape_spec in Eu. rewrite (Hi u n eq_refl Eu). by apply elem_of_list_singleton.
  - cbn [node_conversions]. assert (drop (if bool_decide (is_Some init) then 1 else 0) (option_list init ++ [assign; body]) = [assign; body]) as ->.
    { by destruct init. }
    unfold findConversionsInTypeSwitchStmt. rewrite Ha. apply elem_of_flat_map. exists clause. split; [done|]. apply elem_of_flat_map. exists c.
    split; [by unfold case_elements; rewrite Hk|]. apply in_with_fact. exists t, m. split; [done|]. split; [done|]. apply shape_spec in Hs. rewrite Hs.
    destruct (type_of x) as [u|]; [|by apply elem_of_list_singleton]. rewrite (Hi u eq_refl). by apply elem_of_list_singleton.
  - cbn [node_conversions]. unfold findConversionsInIndexExpr. apply shape_spec in Hs. rewrite Hx, Hs. apply in_with_fact. exists t, m. split; [done|].
    split; [done|]. apply elem_of_list_singleton. by apply value_check.
  - cbn [node_conversions]. unfold findConversionsInCompositeLit. cbn [node_id]. apply shape_spec in Hs. rewrite Ht, Hs. unfold findConversionsInStructLit.
    apply elem_of_concat. eexists. split; [apply elem_of_imap; eexists i, _; split; [exact Hf|reflexivity]|]. cbn beta. cbn [fst snd].
    apply in_with_fact. exists t, m. split; [done|]. split; [done|]. rewrite Hk. rewrite (value_check_opt _ _ _ _ _ Hv). destruct ((e0 :: elts) !! i); by apply elem_of_list_singleton.
  - cbn [node_conversions]. unfold findConversionsInCompositeLit. cbn [node_id]. apply shape_spec in Hs. rewrite Ht, Hs. unfold findConversionsInStructLit.
    apply elem_of_list_lookup in Hf as [i Hf].
    apply elem_of_concat. eexists. split; [apply elem_of_imap; eexists i, _; split; [exact Hf|reflexivity]|]. cbn beta. cbn [fst snd].
    apply in_with_fact. exists t, m. split; [done|]. split; [done|]. destruct (as_keyvalue e0); [|done]. rewrite Hsplit. by apply in_keyed.
  - cbn [node_conversions]. unfold findConversionsInCompositeLit. cbn [node_id]. apply shape_spec in Hs. rewrite Ht, Hs.
    assert (the_check m t v pos ∈ findConversionsInCompositeValues pk fa elts t) as H.
    { unfold findConversionsInCompositeValues. apply in_with_fact. exists t, m. split; [done|]. split; [done|]. apply elem_of_map. exists e. split; [done|].
      rewrite (value_check _ _ _ _ _ Hv). by destruct (as_keyvalue e) as [[]|]. }
    destruct elts as [|e0 elts]; [by apply elem_of_nil in He|]. destruct Hu as [->|[(?&->)|(?&->)]]; [done|done|]. apply elem_of_app. by left.
  - cbn [node_conversions]. unfold findConversionsInCompositeLit. cbn [node_id]. apply shape_spec in Hs. rewrite Ht, Hs.
    destruct elts as [|e0 elts]; [by apply elem_of_nil in He|]. apply elem_of_app. right. unfold findConversionsInMapLitKeys.
    apply in_with_fact. exists t, m. split; [done|]. split; [done|]. apply elem_of_map. exists e. split; [done|].
    rewrite (value_check_opt _ _ _ _ _ Hv). by destruct (as_keyvalue e) as [[]|].
  - cbn [node_conversions]. unfold findConversionsInReturnStmt. rewrite Hf. rewrite (value_check_opt _ _ _ _ _ Hv).
    by apply (in_return_fields (e0 :: results) 0).
  - cbn [node_conversions]. replace (drop _ (key :: option_list value ++ [x; body])) with [x; body] by (by destruct value).
    apply elem_of_app. left. cbn. unfold findConversionsInRangeStmtKey. apply in_with_fact. exists t, m. split; [done|]. split; [done|].
    apply range_key_spec in Hv. subst v. destruct (getUnderlyingType pk <$> type_of x) as [[]|]; by apply elem_of_list_singleton.
  - cbn [node_conversions]. cbn [drop Nat.add lookup list_lookup]. apply elem_of_app. right. unfold findConversionsInRangeStmtValue.
    apply in_with_fact. exists t, m. split; [done|]. split; [done|].
    apply range_value_spec in Hv. subst v. destruct (getUnderlyingType pk <$> type_of x) as [[|u| | | | | | | | | | |]|]; try by apply elem_of_list_singleton.
    destruct u; by apply elem_of_list_singleton.
  - cbn [node_conversions]. unfold findConversionsInSendStmt. rewrite Ht. cbn [fmap option_fmap option_map]. apply shape_spec in Hs. rewrite Hs.
    apply in_with_fact. exists t, m. split; [done|]. split; [done|]. apply elem_of_list_singleton. by apply value_check.
Qed.

Lemma in_check_expr w n m t e x (P : option gotype -> nid -> Prop) : x = check_expr pk m t e -> interface_codes fa t m ->
  (forall v pos, value_at pk (Some e) v pos -> converts pk w n t v pos) -> found w n x.
Proof. intros H%check_expr_spec Hm Hc. destruct H as (v&pos&Hv&->). exists t, m, v, pos. auto. Qed.
Lemma in_panic w n m t : interface_codes fa t m -> converts pk w n t None 0%N -> found w n CPanic.
Proof. intros Hm Hc. exists t, m, None, 0%N. done. Qed.
Lemma in_site w n m t v pos : interface_codes fa t m -> converts pk w n t (Some v) pos -> found w n (CSite (Site m t v pos)).
Proof. intros Hm Hc. exists t, m, (Some v), pos. done. Qed.

Lemma conversions_found w n x : x ∈ node_conversions pk fa w n -> found w n x \/ (x = CPanic /\ ill_formed pk w n).
Proof.
  destruct n as [id k kids]. destruct k as [name obj| | | |is_and| | | |typ| |f|nlhs| |names typ|has_key has_value| |has_init|ncases|name];
    cbn [node_conversions]; try (by intros ?%elem_of_nil).
  - (* call *)
    destruct kids as [|f args]; [by intros ?%elem_of_nil|]. unfold findConversionsInCallExpr. destruct args as [|a args]; [by intros ?%elem_of_nil|].
    assert (forall t, type_of f = Some t -> (forall params results variadic, t <> TSignature params results variadic) ->
      x ∈ findConversionsExplicit pk fa (a :: args) (Some t) -> found w (Node id KCall (f :: a :: args)) x) as Hexp.
    { intros t Ht Hns H. unfold findConversionsExplicit in H. apply in_with_fact in H as (?&m&[= <-]&Hm&H). destruct args as [|b args].
      - apply elem_of_list_singleton, check_expr_spec in H as (v&pos&Hv&->). exists t, m, v, pos. split; [|done]. by eapply cv_explicit.
      - apply elem_of_list_singleton in H as ->. eapply in_panic; [done|]. by eapply cv_explicit. }
    destruct (type_of f) as [t|] eqn:Ef; [|by intros ?%elem_of_nil].
    destruct t; try (intros H; left; eapply Hexp; [done| |exact H]; congruence). clear Hexp. intros [H|H]%elem_of_app.
    + left. apply elem_of_concat in H as (l&Hl&H). apply elem_of_imap in Hl as (i&p&Hp&->). apply in_with_fact in H as (t&m&[= ->]&Hm&H).
      destruct ((a :: args) !! i) as [b|] eqn:Eb.
      * apply elem_of_cons in H as [H|H].
        { apply check_expr_spec in H as (v&pos&Hv&->). exists t, m, v, pos. split; [|done]. eapply cv_argument; try done. by rewrite Eb. }
        destruct (variadic && bool_decide (S i = length params)) eqn:Ev; [|by apply elem_of_nil in H]. apply andb_true_iff in Ev as [-> Ev%bool_decide_eq_true].
        apply elem_of_map in H as (e&He&H). apply check_expr_spec in H as (v&pos&Hv&->). exists t, m, v, pos. split; [|done].
        apply elem_of_list_lookup in He as [j Hj]. rewrite lookup_drop in Hj. eapply (cv_variadic_slice _ _ _ _ _ _ id f (a :: args) params results e (length params + j)); try done; [|lia].
        rewrite last_lookup. by replace (pred (length params)) with i by lia.
      * apply elem_of_list_singleton in H as ->. eapply in_panic; [done|]. eapply cv_argument; try done. by rewrite Eb.
    + destruct variadic; [|by apply elem_of_nil in H]. destruct (last params) as [t|] eqn:El.
      * destruct t; try by apply elem_of_nil in H. left. apply in_with_fact in H as (t'&m&[= <-]&Hm&H). apply elem_of_map in H as (e&He&H).
        apply check_expr_spec in H as (v&pos&Hv&->). exists t, m, v, pos. split; [|done].
        apply elem_of_list_lookup in He as [j Hj]. rewrite lookup_drop in Hj. eapply (cv_variadic _ _ _ _ _ _ id f (a :: args) params results e (length params - 1 + j)); try done. lia.
      * apply elem_of_list_singleton in H as ->. right. split; [done|]. apply last_None in El as ->. by eapply if_variadic.
  - (* composite literal *)
    intros H. left. unfold findConversionsInCompositeLit in H. destruct kids as [|e0 elts]; [by apply elem_of_nil in H|]. cbn [node_id] in H.
    destruct (ti_type info id) as [tn|] eqn:Et; [|by apply elem_of_nil in H].
    assert (forall u t, getUnderlyingType pk tn = u -> (u = TSlice t \/ (exists l, u = TArray l t) \/ (exists k, u = TMap k t)) ->
      x ∈ findConversionsInCompositeValues pk fa (e0 :: elts) t -> found w (Node id KComposite (e0 :: elts)) x) as Helem.
    { intros u t Hs%shape_spec Hu H'. unfold findConversionsInCompositeValues in H'. apply in_with_fact in H' as (?&m&[= <-]&Hm&H').
      apply elem_of_map in H' as (e&He&->). assert (match as_keyvalue e with Some (_, y) => check_expr pk m t y | None => check_expr pk m t e end =
        check_expr pk m t (match as_keyvalue e with Some (_, y) => y | None => e end)) as -> by (by destruct (as_keyvalue e) as [[]|]).
      eapply in_check_expr; [exact (fun _ _ => True)|reflexivity|done|]. intros v pos Hv. by eapply cv_element. }
    destruct (getUnderlyingType pk tn) eqn:Es; try (by apply elem_of_nil in H).
    + eapply Helem; [done| |exact H]. by left.
    + eapply Helem; [done| |exact H]. right. left. eauto.
    + apply elem_of_app in H as [H|H]; [eapply Helem; [done| |exact H]; right; right; eauto|]. unfold findConversionsInMapLitKeys in H.
      apply in_with_fact in H as (t&m&[= <-]&Hm&H). apply elem_of_map in H as (e&He&->). apply shape_spec in Es.
      destruct (as_keyvalue e) as [[y z]|] eqn:Ek.
      * eapply in_check_expr; [exact (fun _ _ => True)|reflexivity|done|]. intros v pos Hv. eapply cv_map_key; try done. by rewrite Ek.
      * eapply in_panic; [done|]. eapply cv_map_key; try done. by rewrite Ek.
    + unfold findConversionsInStructLit in H. apply elem_of_concat in H as (l&Hl&H). apply elem_of_imap in Hl as (i&[name ft]&Hp&->). cbn [fst snd] in H.
      apply in_with_fact in H as (t&m&[= <-]&Hm&H). apply shape_spec in Es. destruct (as_keyvalue e0) as [kv|] eqn:Ek.
      * apply of_keyed in H as (pre&e&post&v&pos&Hsplit&Hpre&He&->). exists ft, m, v, pos. split; [|done]. eapply cv_field_keyed; try done.
        { by eapply elem_of_list_lookup_2. } by rewrite Ek.
      * destruct ((e0 :: elts) !! i) as [e|] eqn:Ee; apply elem_of_list_singleton in H as ->.
        { eapply in_check_expr; [exact (fun _ _ => True)|reflexivity|done|]. intros v pos Hv. eapply cv_field; try done. by rewrite Ee. }
        eapply in_panic; [done|]. eapply cv_field; try done. by rewrite Ee.
  - (* type assertion *)
    destruct kids as [|y [|]]; try (by intros ?%elem_of_nil). intros H. left. unfold findConversionsInTypeAssertExpr in H.
    destruct typ as [typ|]; [|by apply elem_of_nil in H]. apply in_with_fact in H as (t&m&Ht&Hm&H).
    destruct (type_of y) as [u|] eqn:Ey.
    2: { apply elem_of_list_singleton in H as ->. exists t, m, None, (node_id y). split; [|done]. eapply cv_assertion; try done; cbn; by rewrite Ey. }
    assert (x = check_type m t (Some u) (node_id y) -> (forall i, shape pk t (TInterface i) -> ti_implements info u (TInterface i) = true) ->
      found w (Node id (KTypeAssert (Some typ)) [y]) x) as Hok.
    { intros -> Hi. eapply in_site; [done|]. eapply cv_assertion; try done. intros ? ? [= <-]. apply Hi. }
    destruct (getUnderlyingType pk t) as [| | | | | | | | | | |i|] eqn:Eu; try (apply elem_of_list_singleton in H; apply Hok; [done|]; intros ? ?%shape_spec; congruence).
    destruct (ti_implements info u (TInterface i)) eqn:Ei; [|by apply elem_of_nil in H]. apply elem_of_list_singleton in H. apply Hok; [done|].
    intros ? ?%shape_spec. congruence.
  - (* index *)
    destruct kids as [|y [|index [|]]]; try (by intros ?%elem_of_nil). intros H. left. unfold findConversionsInIndexExpr in H.
    destruct (type_of y) as [ty|] eqn:Ey; [|by apply elem_of_nil in H]. destruct (getUnderlyingType pk ty) eqn:Eu; try by apply elem_of_nil in H.
    apply in_with_fact in H as (?&m&[= <-]&Hm&H). apply elem_of_list_singleton in H. eapply in_check_expr; [exact (fun _ _ => True)|done|done|].
    intros v pos Hv. apply shape_spec in Eu. by eapply cv_index.
  - (* assignment *)
    intros H. unfold findConversionsInAssignStmt in H. apply elem_of_concat in H as (l&Hl&H). apply elem_of_imap in Hl as (i&y&Hy&->).
    apply in_with_fact in H as (t&m&Ht&Hm&H). destruct (decide (length (take nlhs kids) = length (drop nlhs kids))) as [Hlen|Hlen].
    + left. destruct (drop nlhs kids !! i) as [e|] eqn:Ee; apply elem_of_list_singleton in H as ->.
      * eapply in_check_expr; [exact (fun _ _ => True)|reflexivity|done|]. intros v pos Hv. eapply cv_assign; try done. by rewrite Ee.
      * eapply in_panic; [done|]. eapply cv_assign; try done. by rewrite Ee.
    + destruct (drop nlhs kids) as [|call rest] eqn:Er.
      { right. apply elem_of_list_singleton in H as ->. split; [done|]. eapply (if_assign _ _ _ (take nlhs kids) y t); [by cbn; rewrite Er|by eapply elem_of_list_lookup_2|done]. }
      assert (forall v, v = (match type_of call with Some (TTuple ts) => ts !! i | _ => None end) ->
        converts pk w (Node id (KAssign nlhs) kids) t v (node_id call)) as Hcv.
      { intros v Hv. eapply (cv_assign_results _ _ _ _ _ _ (take nlhs kids) call rest i y); try done. by rewrite <-Er. }
      left. assert (x = CPanic -> match type_of call with Some (TTuple ts) => ts !! i | _ => None end = None ->
        found w (Node id (KAssign nlhs) kids) x) as Hp.
      { intros -> Hn. exists t, m, None, (node_id call). split; [|done]. apply Hcv. done. }
      destruct (type_of call) as [[]|]; try (apply elem_of_list_singleton in H; by apply Hp).
      destruct (ts !! i) as [v|]; apply elem_of_list_singleton in H; [|by apply Hp]. subst x. eapply in_site; [done|]. by apply Hcv.
  - (* return *)
    unfold findConversionsInReturnStmt. destruct w as [ft|]; [|intros ->%elem_of_list_singleton; right; split; [done|]; by eapply if_return].
    destruct kids as [|e0 results]; [by intros ?%elem_of_nil|]. destruct (ft_results ft) as [fields|] eqn:Ef.
    + intros H. left. apply of_return_fields in H as (i&t&m&Hm&Hi&->). destruct ((e0 :: results) !! (0 + i)) as [e|] eqn:Ee.
      * eapply in_check_expr; [exact (fun _ _ => True)|reflexivity|done|]. intros v pos Hv. eapply cv_return; try done. cbn in Ee |- *. by rewrite Ee.
      * eapply in_panic; [done|]. eapply cv_return; try done. cbn in Ee |- *. by rewrite Ee.
    + intros ->%elem_of_list_singleton. right. split; [done|]. by eapply if_results.
  - (* var *)
    unfold findConversionsInValueSpec. destruct kids as [|call rest]; [by intros ?%elem_of_nil|]. destruct typ as [typ|]; [|by intros ?%elem_of_nil].
    intros H. apply in_with_fact in H as (t&m&Ht&Hm&H). destruct (decide (length names = length (call :: rest))) as [Hlen|Hlen].
    + left. apply elem_of_map in H as (e&He&H). eapply in_check_expr; [exact (fun _ _ => True)|exact H|done|]. intros v pos Hv. by eapply cv_var.
    + destruct names as [|nm names]; [right|].
      { destruct (type_of call) as [[]|]; try (apply elem_of_list_singleton in H as ->; split; [done|]; by eapply if_var). by apply elem_of_nil in H. }
      left. assert (forall i v, i < length (nm :: names) -> v = (match type_of call with Some (TTuple ts) => ts !! i | _ => None end) ->
        converts pk w (Node id (KValueSpec (nm :: names) (Some typ)) (call :: rest)) t v (node_id call)) as Hcv.
      { intros i v Hi Hv. by eapply cv_var_results. }
      assert (forall i, i < length (nm :: names) -> x = CPanic -> match type_of call with Some (TTuple ts) => ts !! i | _ => None end = None ->
        found w (Node id (KValueSpec (nm :: names) (Some typ)) (call :: rest)) x) as Hp.
      { intros i Hi -> Hn. exists t, m, None, (node_id call). split; [|done]. by eapply Hcv. }
      destruct (type_of call) as [[]|]; try (apply elem_of_list_singleton in H; apply (Hp 0); [cbn; lia|done|done]).
      apply elem_of_imap in H as (i&y&Hy&->). apply lookup_lt_Some in Hy. destruct (ts !! i) as [v|] eqn:Ev; [|by apply (Hp i)].
      eapply in_site; [done|]. by apply (Hcv i).
  - (* range *)
    set (key := if has_key : bool then kids !! 0 else None).
    set (value := if has_value : bool then kids !! (if has_key : bool then 1 else 0) else None).
    destruct (drop ((if has_key : bool then 1 else 0) + (if has_value : bool then 1 else 0)) kids) as [|y [|body [|]]] eqn:Ed; try (by intros ?%elem_of_nil).
    unfold findConversionsInRangeStmtKey, findConversionsInRangeStmtValue. destruct has_key; [|by subst key; intros [?%elem_of_nil|?%elem_of_nil]%elem_of_app].
    destruct kids as [|ky kids]; [by destruct has_value|]. subst key. cbn [lookup list_lookup]. intros [H|H]%elem_of_app.
    + left. apply in_with_fact in H as (t&m&Ht&Hm&H).
      assert (forall v, range_key pk y v -> converts pk w (Node id (KRange true has_value) (ky :: kids)) t v (node_id y)) as Hcv.
      { intros v Hv. destruct has_value; cbn in Ed.
        - destruct kids as [|vl kids]; [done|]. cbn in Ed. rewrite ?drop_0 in Ed. subst kids. eapply (cv_range_key _ _ _ _ _ _ id ky (Some vl) y body); done.
        - rewrite drop_0 in Ed. subst kids. eapply (cv_range_key _ _ _ _ _ _ id ky None y body); done. }
      setoid_rewrite range_key_spec in Hcv. destruct (getUnderlyingType pk <$> type_of y) as [[]|]; apply elem_of_list_singleton in H as ->;
        try (exists t, m, None, (node_id y); split; [by apply Hcv|done]); eapply in_site; try done; by apply Hcv.
    + left. destruct has_value; [|by apply elem_of_nil in H]. subst value. cbn in Ed. destruct kids as [|vl kids]; [done|]. cbn in Ed. rewrite ?drop_0 in Ed. subst kids.
      cbn [lookup list_lookup] in H. apply in_with_fact in H as (t&m&Ht&Hm&H).
      assert (forall v, range_value pk y v -> converts pk w (Node id (KRange true true) [ky; vl; y; body]) t v (node_id y)) as Hcv.
      { intros v Hv. by eapply cv_range_value. }
      setoid_rewrite range_value_spec in Hcv.
      destruct (getUnderlyingType pk <$> type_of y) as [[|u| | | | | | | | | | |]|]; try (apply elem_of_list_singleton in H as ->;
        first [eapply in_site; [done|by apply Hcv] | exists t, m, None, (node_id y); split; [by apply Hcv|done]]).
      destruct u; apply elem_of_list_singleton in H as ->;
        first [eapply in_site; [done|by apply Hcv] | exists t, m, None, (node_id y); split; [by apply Hcv|done]].
  - (* send *)
    destruct kids as [|chan [|value [|]]]; try (by intros ?%elem_of_nil). unfold findConversionsInSendStmt. intros H.
    assert (x = CPanic -> (forall tc d t, type_of chan = Some tc -> ~ shape pk tc (TChan d t)) -> x = CPanic /\ ill_formed pk w (Node id KSend [chan; value])) as Hill.
    { intros -> Hi. split; [done|]. by eapply if_send. }
    destruct (type_of chan) as [tc|] eqn:Ec; cbn [fmap option_fmap option_map] in H.
    2: { right. apply elem_of_list_singleton in H. by apply Hill. }
    destruct (getUnderlyingType pk tc) eqn:Es; try (right; apply elem_of_list_singleton in H; apply Hill; [done|]; intros ? ? ? [= <-] ?%shape_spec; congruence).
    left. apply in_with_fact in H as (?&m&[= <-]&Hm&H). apply elem_of_list_singleton in H. eapply in_check_expr; [exact (fun _ _ => True)|done|done|].
    intros v pos Hv. apply shape_spec in Es. by eapply cv_send.
  - (* type switch *)
    destruct (drop (if has_init : bool then 1 else 0) kids) as [|assign [|body [|]]] eqn:Ed; try (by intros ?%elem_of_nil).
    assert (exists init, has_init = bool_decide (is_Some init) /\ kids = option_list init ++ [assign; body]) as (init&->&->).
    { destruct has_init; cbn in Ed.
      - destruct kids as [|i kids]; [done|]. cbn in Ed; rewrite ?drop_0 in Ed. subst kids. exists (Some i). done.
      - rewrite ?drop_0 in Ed. subst kids. by exists None. }
    clear Ed. unfold findConversionsInTypeSwitchStmt. destruct (as_assign assign) as [[lhs [|rhs [|]]]|] eqn:Ea; try (by intros ?%elem_of_nil).
    assert ((exists aid atyp y, rhs = Node aid (KTypeAssert atyp) [y]) \/ (forall aid atyp y, rhs <> Node aid (KTypeAssert atyp) [y])) as [(aid&atyp&y&->)|Hn].
    { destruct rhs as [rid rk rkids]. destruct rk; try (right; congruence). destruct rkids as [|z [|]]; try (right; congruence). left. eauto. }
    2: { intros H. right. assert (x = CPanic) as -> by (destruct rhs as [rid rk rkids]; destruct rk; try (by apply elem_of_list_singleton in H);
           destruct rkids as [|z [|]]; try (by apply elem_of_list_singleton in H); by edestruct Hn). split; [done|]. by eapply if_switch. }
    intros H. left. apply elem_of_flat_map in H as (clause&Hcl&H). apply elem_of_flat_map in H as (c&Hc&H). apply in_with_fact in H as (t&m&Ht&Hm&H).
    unfold case_elements in Hc. destruct (node_kind clause) as [| | | | | | | | | | | | | | | | |ncases|] eqn:Ek; try by apply elem_of_nil in Hc.
    destruct (getUnderlyingType pk t) as [| | | | | | | | | | |i|] eqn:Eu; try by apply elem_of_nil in H. apply shape_spec in Eu.
    destruct (type_of y) as [v|] eqn:Ey.
    + destruct (ti_implements info v (TInterface i)) eqn:Ei; [|by apply elem_of_nil in H]. apply elem_of_list_singleton in H as ->.
      eapply in_site; [done|]. eapply cv_case; try done. intros ? [= <-]. done.
    + apply elem_of_list_singleton in H as ->. exists t, m, None, (node_id c). split; [|done]. eapply cv_case; try done.
Qed.

(** ** All nodes *)
Definition inner (w : option functype) (n : node) : option functype :=
  match as_funclit n with Some f => match pk_funcs pk !! f with Some lit => Some (fn_type lit) | None => None end | None => w end.
Lemma tree_unfold w n : tree_conversions pk fa w n = node_conversions pk fa w n ++ flat_map (tree_conversions pk fa (inner w n)) (node_kids n).
Proof. destruct n as [id k kids]. by destruct k. Qed.
Lemma below_inner w m k w' n : k ∈ node_kids m -> below pk (inner w m) k w' n -> below pk w m w' n.
Proof.
  unfold inner. intros Hk. destruct (as_funclit m) as [f|] eqn:Ef; [|by apply below_kid; [|congruence]].
  destruct (pk_funcs pk !! f) as [lit|] eqn:El; [by eapply below_literal|by eapply below_unknown].
Qed.
Lemma tree_spec w m x : x ∈ tree_conversions pk fa w m <-> exists w' n, below pk w m w' n /\ x ∈ node_conversions pk fa w' n.
Proof.
  split.
  - revert w m. fix IH 2. intros w m. rewrite tree_unfold. intros [H|H]%elem_of_app; [exists w, m; split; [constructor|done]|].
    destruct m as [id k kids]. cbn [node_kids] in H. set (w0 := inner w (Node id k kids)) in *.
    assert (forall k', k' ∈ kids -> forall w' n, below pk w0 k' w' n -> below pk w (Node id k kids) w' n) as Hb.
    { intros k' Hk w' n. by apply below_inner. }
    clearbody w0. revert Hb. generalize (Node id k kids). intros m0 Hb. clear id k. induction kids as [|c kids IHk]; [by apply elem_of_nil in H|].
    cbn [flat_map] in H. apply elem_of_app in H as [H|H].
    + apply IH in H as (w'&n&?&?). exists w', n. split; [|done]. eapply Hb; [by left|done].
    + apply IHk; [done|]. intros k' ?. apply Hb. by right.
  - intros (w'&n&Hb&Hx). induction Hb as [w n|w m k w' n Hk Hf _ IH|w m f lit k w' n Hk Hf Hl _ IH|w m f k w' n Hk Hf Hl _ IH];
      rewrite tree_unfold; apply elem_of_app; [by left|right; apply elem_of_flat_map; exists k; split; [done|]; unfold inner..].
    + destruct (as_funclit m) as [f|]; [by destruct (Hf f)|]. by apply IH.
    + rewrite Hf, Hl. by apply IH.
    + rewrite Hf, Hl. by apply IH.
Qed.
Lemma all_spec x : x ∈ all_conversions pk fa <-> exists w n, occurs pk w n /\ x ∈ node_conversions pk fa w n.
Proof.
  unfold all_conversions. rewrite elem_of_flat_map. split.
  - intros (d&Hd&H). destruct d as [f|m]; cbn [top_conversions] in H.
    2: { apply tree_spec in H as (w&n&?&?). exists w, n. split; [|done]. by eapply occurs_decl. }
    + destruct (pk_funcs pk !! f) as [fn|] eqn:Ef; [|by apply elem_of_nil in H]. destruct (fn_body fn) as [b|] eqn:Eb; [|by apply elem_of_nil in H].
      apply tree_spec in H as (w&n&?&?). exists w, n. split; [|done]. by eapply occurs_func.
  - intros (w&n&Ho&Hx). destruct Ho as [m Hm Hb|f fn b Hf Hfn Hb' Hb].
    + eexists. split; [exact Hm|]. apply tree_spec. eauto.
    + eexists. split; [exact Hf|]. cbn [top_conversions]. rewrite Hfn, Hb'. apply tree_spec. eauto.
Qed.

(** ** C29 *)
(** The checks are those for all conversions in the package to an interface with error codes, no more and no less. *)
Theorem C29_checked m t v pos : CSite (Site m t v pos) ∈ all_conversions pk fa <->
  exists w n, occurs pk w n /\ converts pk w n t (Some v) pos /\ interface_codes fa t m.
Proof.
  rewrite all_spec. split.
  - intros (w&n&Ho&H). apply conversions_found in H as [(t'&m'&v'&pos'&Hc&Hm&H)|[? _]]; [|done]. destruct v' as [v'|]; [|done].
    injection H as <- <- <- <-. eauto.
  - intros (w&n&Ho&Hc&Hm). exists w, n. split; [done|]. exact (converts_found w n t (Some v) pos m Hc Hm).
Qed.
(** It does not panic, except where there is no value to be converted. *)
Theorem C29_panics : (forall w n, occurs pk w n -> ~ ill_formed pk w n) ->
  CPanic ∈ all_conversions pk fa <-> exists w n t pos m, occurs pk w n /\ converts pk w n t None pos /\ interface_codes fa t m.
Proof.
  intros Hwf. rewrite all_spec. split.
  - intros (w&n&Ho&H). apply conversions_found in H as [(t'&m'&v'&pos'&Hc&Hm&H)|[_ ?]]; [|by destruct (Hwf w n)]. destruct v' as [v'|]; [done|].
    exists w, n, t', pos', m'. done.
  - intros (w&n&t&pos&m&Ho&Hc&Hm). exists w, n. split; [done|]. exact (converts_found w n t None pos m Hc Hm).
Qed.
End sites.

(** In a run that completes: the checks are those described by C28_conversions. *)
Theorem C29_run pk ord r sites m t v pos : conversion_sites pk ord r sites ->
  Site m t v pos ∈ sites <-> exists w n, occurs pk w n /\ converts pk w n t (Some v) pos /\ interface_codes (facts_after pk ord r) t m.
Proof.
  intros Hs. rewrite <-C29_checked. unfold conversion_sites in Hs. rewrite Hs, elem_of_list_fmap. split; [eauto|]. by intros (s&[= ->]&?).
Qed.
