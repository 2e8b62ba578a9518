(** * Proofs: the codes a function adds itself. *)
From Coq Require Import Ascii String.
From stdpp Require Import base list gmap sets.
From Verif Require Import GoString ErrorCode Scc Engine SpecEngine CodeSet Annotation Constant GoAst Taint Extract Analyse
  SpecCodes SpecAnnotation AnnotationProofs SpecTaint SpecMay SpecProgram GoStringProofs ErrorCodeProofs CodeSetProofs TaintProofs Termination ExprProofs MayProofs CallProofs FunctionProofs ReturnProofs VocabularyProofs.

Section own.
Context (pk : package) (lk : lookup_table) (fa : facts) (fn : func) (plan : fid -> eff diag).
Notation info := (pk_info pk).
Notation from := (from plan).
Notation M := (may plan).
Notation constant_code := (constant_code pk).

(** ** Assignments to code fields *)
Definition field_entry (o : oid) (rhs : list node) (c : gostring) (l : node) (k : nat) : Prop :=
  exists x sel xi t n et fname fpos r, as_selector l = Some (x, sel) /\ as_ident x = Some xi /\ i_obj xi = Some o /\
    ti_type info (i_id xi) = Some t /\ getNamedType t = Some n /\ fa_type fa !! n = Some et /\ et_field et = Some (fname, fpos) /\
    i_name sel = fname /\ rhs !! k = Some r /\ constant_code r c.
Definition target (o : oid) (l : node) (xi : ident) : Prop :=
  exists x sel, as_selector l = Some (x, sel) /\ as_ident x = Some xi /\ i_obj xi = Some o.
Lemma from_field_lhs o rhs same i lhs et c :
  (forall l l' xi xj, l ∈ lhs -> l' ∈ lhs -> target o l xi -> target o l' xj -> ti_type info (i_id xi) = ti_type info (i_id xj)) ->
  (forall et', et = Some et' -> forall l xi, l ∈ lhs -> target o l xi -> getErrorTypeForError fa (ti_type info (i_id xi)) = inl (Some et')) ->
  from (code_field_lhs pk fa fn o rhs same i lhs et) c <->
  same = true /\ exists k l, lhs !! k = Some l /\ field_entry o rhs c l (i + k).
Proof.
  revert i et. induction lhs as [|l lhs IH]; intros i et Hty Het.
  { cbn. split; [by intros ?%from_none|]. intros (_&k&l&?&_). by rewrite lookup_nil in *. }
  assert (forall et', (forall et'', et' = Some et'' -> forall l xi, l ∈ lhs -> target o l xi -> getErrorTypeForError fa (ti_type info (i_id xi)) = inl (Some et'')) ->
    from (code_field_lhs pk fa fn o rhs same (S i) lhs et') c <->
    same = true /\ exists k l, lhs !! k = Some l /\ field_entry o rhs c l (i + S k)) as IH'.
  { intros et' H. rewrite IH.
    - split; intros (?&k&l0&Hk&H1); (split; [done|]); exists k, l0; (split; [done|]).
      + replace (i + S k) with (S i + k) by lia. exact H1.
      + replace (S i + k) with (i + S k) by lia. exact H1.
    - intros l1 l2 xi xj H1 H2. apply Hty; by right.
    - done. }
  assert ((same = true /\ exists k l0, (l :: lhs) !! k = Some l0 /\ field_entry o rhs c l0 (i + k)) <->
    (same = true /\ field_entry o rhs c l i) \/ (same = true /\ exists k l0, lhs !! k = Some l0 /\ field_entry o rhs c l0 (i + S k))) as ->.
  { split.
    - intros (?&[|k]&l0&Hk&?); cbn in Hk.
      + injection Hk as <-. rewrite Nat.add_0_r in *. by left.
      + right. eauto.
    - intros [[? ?]|(?&k&l0&?&?)]; (split; [done|]).
      + exists 0, l. by rewrite Nat.add_0_r.
      + exists (S k), l0. done. }
  assert ((forall xi, ~ target o l xi) -> ~ field_entry o rhs c l i) as Hno.
  { intros H (x&sel&xi&?&?&?&?&?&?&H1&H2&H3&_). apply (H xi). exists x, sel. done. }
  assert (forall et'', et = Some et'' -> forall l xi, l ∈ lhs -> target o l xi -> getErrorTypeForError fa (ti_type info (i_id xi)) = inl (Some et'')) as Het2.
  { intros et'' -> l' xi Hl'. apply Het; [done|by right]. }
  cbn [code_field_lhs].
  destruct (as_selector l) as [[x sel]|] eqn:Es.
  2: { rewrite IH' by done. split; [by right|]. intros [[_ ?]|?]; [|done]. exfalso. eapply Hno; [|done]. intros xi (?&?&?&_). congruence. }
  destruct (as_ident x) as [xi|] eqn:Ex.
  2: { rewrite IH' by done. split; [by right|]. intros [[_ ?]|?]; [|done]. exfalso. eapply Hno; [|done]. intros xi (x'&sel'&H1&H2&_). congruence. }
  case_decide as Ho.
  { rewrite IH' by done. split; [by right|]. intros [[_ ?]|?]; [|done]. exfalso. eapply Hno; [|done]. intros xj (x'&sel'&H1&H2&?). congruence. }
  clear Hno.
  assert (target o l xi) as Htg by (exists x, sel; done).
  assert (forall et', getErrorTypeForError fa (ti_type info (i_id xi)) = inl (Some et') ->
    forall l' xj, l' ∈ lhs -> target o l' xj -> getErrorTypeForError fa (ti_type info (i_id xj)) = inl (Some et')) as Hsame.
  { intros et' H l' xj Hl' Hx. rewrite <-(Hty l l' xi xj); [done|by left|by right|done|done]. }
  assert (forall et', getErrorTypeForError fa (ti_type info (i_id xi)) = inl (Some et') ->
     exists t n, ti_type info (i_id xi) = Some t /\ getNamedType t = Some n /\ fa_type fa !! n = Some et') as Hget.
  { unfold getErrorTypeForError. intros et'. destruct (ti_type info (i_id xi)) as [t|]; [|done].
    destruct (getNamedType t) as [n|] eqn:En; [|done]. intros [= ?]. eauto. }
  assert (forall et', getErrorTypeForError fa (ti_type info (i_id xi)) = inl (Some et') -> forall k l0, l0 ∈ l :: lhs -> field_entry o rhs c l0 k -> et_field et' <> None) as Hnone.
  { intros et' H k l0 Hl0 (x'&sel'&xj&t&n&et2&fname&fpos&r&H1&H2&H3&H4&H5&H6&H7&_) Hf.
    assert (target o l0 xj) as Htj by (exists x', sel'; done).
    rewrite (Hty l l0 xi xj (elem_of_list_here _ _) Hl0 Htg Htj) in H. unfold getErrorTypeForError in H. rewrite H4, H5, H6 in H. injection H as <-. congruence. }
  (* the check, for a known error type with or without field *)
  assert (forall et', getErrorTypeForError fa (ti_type info (i_id xi)) = inl (Some et') ->
    from (match et_field et' with
       | None => EffPanic
       | Some (fname, _) =>
         if decide (fname <> i_name sel) then code_field_lhs pk fa fn o rhs same (S i) lhs (Some et')
         else if negb same then
           match rhs with
           | r :: _ => EffUnion (report (node_id r) (str "error code has to be constant value or error code parameter"))
                         (code_field_lhs pk fa fn o rhs same (S i) lhs (Some et'))
           | [] => EffPanic
           end
         else match rhs !! i with
              | Some r => EffUnion (extractErrorCodeFromStringExpression pk fa fn r) (code_field_lhs pk fa fn o rhs same (S i) lhs (Some et'))
              | None => EffPanic
              end
       end) c <->
    same = true /\ field_entry o rhs c l i \/ same = true /\ exists k l0, lhs !! k = Some l0 /\ field_entry o rhs c l0 (i + S k)) as Hcheck.
  { intros et' He. destruct (Hget et' He) as (t&n&Ht&Hn&Hf).
    assert (forall et'', Some et' = Some et'' -> forall l xi, l ∈ lhs -> target o l xi -> getErrorTypeForError fa (ti_type info (i_id xi)) = inl (Some et'')) as Hpass.
    { intros et'' [= <-] l' xj. by apply Hsame. }
    destruct (et_field et') as [[fname fpos]|] eqn:Efl.
    2: { split; [by intros ?%from_panic_iff|]. intros [[_ H]|(_&k&l0&Hk&H)].
         - destruct (Hnone et' He i l (elem_of_list_here _ _) H). done.
         - destruct (Hnone et' He (i + S k) l0); [right; by eapply elem_of_list_lookup_2|done|done]. }
    assert (fname <> i_name sel -> ~ field_entry o rhs c l i) as Hne.
    { intros Hne (x'&sel'&xj&t'&n'&et2&fname'&fpos'&r&H1&H2&H3&H4&H5&H6&H7&H8&_).
      rewrite Es in H1. injection H1 as <- <-. rewrite Ex in H2. injection H2 as <-. congruence. }
    case_decide as Hfn.
    { rewrite IH' by done. split; [by right|]. intros [[_ ?]|?]; [by destruct Hne|done]. }

    destruct same; cbn [negb].
    - destruct (rhs !! i) as [r|] eqn:Er.
      + rewrite from_union_iff, from_string_expr, IH' by done. split.
        * intros [H|?]; [left|by right]. split; [done|]. exists x, sel, xi, t, n, et', fname, fpos, r. split_and!; done.
        * intros [[_ H]|?]; [left|by right].
          destruct H as (x'&sel'&xj&t'&n'&et2&fname'&fpos'&r'&H1&H2&H3&H4&H5&H6&H7&H8&H9&H10). congruence.
      + split; [by intros ?%from_panic_iff|]. intros [[_ H]|(_&k&l0&Hk&H)].
        * destruct H as (x'&sel'&xj&t'&n'&et2&fname'&fpos'&r'&H1&H2&H3&H4&H5&H6&H7&H8&H9&H10). congruence.
        * destruct H as (x'&sel'&xj&t'&n'&et2&fname'&fpos'&r'&H1&H2&H3&H4&H5&H6&H7&H8&H9&H10).
          apply lookup_ge_None in Er. apply lookup_lt_Some in H9. lia.
    - destruct rhs as [|r rhs].
      + split; [by intros ?%from_panic_iff|]. by intros [[? _]|[? _]].
      + rewrite from_union_iff, IH' by done. split; [intros [?%from_report_iff|?]; [done|by right]|]. intros [[? _]|?]; [done|by right]. }
  destruct et as [et'|].
  { apply Hcheck. eapply Het; [done|by left|done]. }
  destruct (getErrorTypeForError fa (ti_type info (i_id xi))) as [[et'|]|] eqn:Eg.
  - specialize (Hcheck et' eq_refl). destruct (et_field et') as [[fname fpos]|] eqn:Efl.
    + exact Hcheck.
    + rewrite IH'.
      * split; [by right|]. intros [[_ H]|?]; [|done]. destruct (Hnone et' eq_refl i l (elem_of_list_here _ _) H). done.
      * intros et'' [= <-] l' xj Hl' Hx. by eapply Hsame.
  - rewrite IH' by done. split; [by right|]. intros [[_ H]|?]; [|done].
    destruct H as (x'&sel'&xj&t'&n'&et2&fname'&fpos'&r'&H1&H2&H3&H4&H5&H6&H7&H8&H9&H10).
    rewrite Es in H1. injection H1 as <- <-. rewrite Ex in H2. injection H2 as <-.
    unfold getErrorTypeForError in Eg. rewrite H4, H5 in Eg. injection Eg as Eg. congruence.
  - rewrite IH' by done. split; [by right|]. intros [[_ H]|?]; [|done].
    destruct H as (x'&sel'&xj&t'&n'&et2&fname'&fpos'&r'&H1&H2&H3&H4&H5&H6&H7&H8&H9&H10).
    rewrite Es in H1. injection H1 as <- <-. rewrite Ex in H2. injection H2 as <-.
    unfold getErrorTypeForError in Eg. rewrite H4, H5 in Eg. done.
Qed.

(** The nodes of a body. *)
Lemma walk_self n : n ∈ walk n.
Proof. destruct n as [id k kids]. cbn. by left. Qed.
Lemma walk_kid id k kids n m : n ∈ kids -> m ∈ walk n -> m ∈ walk (Node id k kids).
Proof. intros Hn Hm. cbn. right. apply elem_of_list_In, in_flat_map. exists n. by rewrite <-!elem_of_list_In. Qed.
Lemma walk_trans n m p : m ∈ walk n -> p ∈ walk m -> p ∈ walk n.
Proof.
  revert m p. induction n as [id k kids IH] using node_ind'. intros m p Hm Hp. cbn in Hm. apply elem_of_cons in Hm as [->|Hm]; [done|].
  apply elem_of_list_In, in_flat_map in Hm as (n&Hn&Hm). rewrite <-elem_of_list_In in Hn. rewrite <-elem_of_list_In in Hm.
  eapply walk_kid; [exact Hn|]. by eapply IH.
Qed.
Lemma assigns_pruned_walk n lhs rhs : (lhs, rhs) ∈ assigns_pruned n -> exists m, m ∈ walk n /\ as_assign m = Some (lhs, rhs).
Proof.
  induction n as [id k kids IH] using node_ind'. cbn [assigns_pruned].
  destruct (as_assign (Node id k kids)) as [a|] eqn:Ea.
  - intros ->%elem_of_list_singleton. exists (Node id k kids). split; [apply walk_self|done].
  - intros H. apply elem_of_list_In, in_flat_map in H as (n&Hn&Hm). rewrite <-elem_of_list_In in Hn. rewrite <-elem_of_list_In in Hm.
    destruct (IH n Hn Hm) as (m&?&?). exists m. split; [|done]. by eapply walk_kid.
Qed.
Lemma assign_kids m lhs rhs l : as_assign m = Some (lhs, rhs) -> l ∈ lhs \/ l ∈ rhs -> l ∈ node_kids m.
Proof.
  destruct m as [id k kids]. destruct k; try done. cbn. intros [= <- <-] H. rewrite <-(take_drop nlhs kids). apply elem_of_app. tauto.
Qed.

Context (body : node) (Hbody : fn_body fn = Some body) (Htyped : typed pk fn).

Lemma from_code_fields order c :
  from (findCodesAssignedToErrorCodeFields pk fa fn order) c <-> exists o, o ∈ order /\ field_assigned pk fa fn o c.
Proof.
  unfold findCodesAssignedToErrorCodeFields, findCodesAssignedToErrorCodeField. rewrite from_all_iff, Hbody.
  assert (forall o lhs rhs, (lhs, rhs) ∈ assigns_pruned body ->
    from (code_field_lhs pk fa fn o rhs (bool_decide (length lhs = length rhs)) 0 lhs None) c <->
    length lhs = length rhs /\ exists k l, lhs !! k = Some l /\ field_entry o rhs c l k) as Hlhs.
  { intros o lhs rhs Hin. rewrite from_field_lhs.
    - rewrite bool_decide_eq_true. done.
    - intros l l' xi xj Hl Hl' (x&sel&H1&H2&H3) (x'&sel'&H1'&H2'&H3').
      apply assigns_pruned_walk in Hin as (m&Hm&Ha).
      eapply (Htyped m lhs rhs l l' x x' sel sel' xi xj); try done.
      + unfold body_nodes. by rewrite Hbody.
      + congruence.
      + congruence.
    - done. }
  split.
  - intros (y&Hy&H). apply elem_of_list_fmap in Hy as (o&->&Ho). exists o. split; [done|].
    apply from_all_iff in H as (z&Hz&H). apply elem_of_list_fmap in Hz as ([lhs rhs]&->&Hin).
    apply (Hlhs o lhs rhs Hin) in H as (Hlen&k&l&Hk&He).
    destruct He as (x&sel&xi&t&n&et&fname&fpos&r&?&?&?&?&?&?&?&?&?&?). apply assigns_pruned_spec in Hin.
    exists body, lhs, rhs, k, l, sel, x, t, n, et, fname, fpos, r. split_and!; try done. exists xi. done.
  - intros (o&Ho&body'&lhs&rhs&k&l&sel&x&t&n&et&fname&fpos&r&Hb&Hin&Hlen&Hk&Hs&(xi&Hx&Hxo&Hxt)&Hn&Hf&Hfl&Hname&Hr&Hc).
    rewrite Hbody in Hb. injection Hb as <-. apply assigns_pruned_spec in Hin.
    eexists. split; [apply elem_of_list_fmap; exists o; split; [reflexivity|done]|].
    apply from_all_iff. eexists. split; [apply elem_of_list_fmap; exists (lhs, rhs); split; [reflexivity|done]|].
    cbn. apply (Hlhs o lhs rhs Hin). split; [done|]. exists k, l. split; [done|].
    exists x, sel, xi, t, n, et, fname, fpos, r. split_and!; done.
Qed.

(** ** The error code parameter *)
Context (Hscoped : scoped pk fn).
Lemma from_constructor c : (forall i, constructor_param pk fa fn i -> not_closure_param pk fn i) ->
  from (ectractErrorCodesFromConstructor pk fa fn) c <->
  exists i o e, constructor_param pk fa fn i /\ tracked pk fn (i_obj i) ∅ i o /\ assigned_expr pk fn o e /\ constant_code e c.
Proof.
  intros Hp. unfold ectractErrorCodesFromConstructor.
  destruct (importErrorConstructorFact pk fa fn) as [p|] eqn:Ef.
  2: { split; [by intros ?%from_none|]. intros (i&?&?&(p&?&_)%constructor_param_spec&_). congruence. }
  destruct (getParamIdent (fn_type fn) p) as [i|] eqn:Ei.
  2: { split; [by intros ?%from_panic_iff|]. intros (i&?&?&(p'&?&?)%constructor_param_spec&_). congruence. }
  assert (constructor_param pk fa fn i) as Hi by (apply constructor_param_spec; exists p; done).
  destruct (taintSpread_exact pk fn (i_obj i) Hscoped body Hbody ∅ i (Hp i Hi)) as (Hok&_&He&_&_).
  set (r := taintSpread pk fn (i_obj i) ∅ i) in *. clearbody r. rewrite Hok. cbn [negb].
  rewrite !from_union_iff, !from_all_iff. split.
  - intros [(x&Hx&H)|[(x&Hx&H)|(x&Hx&H)]].
    + apply elem_of_list_fmap in Hx as (?&->&_). by apply from_report_iff in H.
    + apply elem_of_list_fmap in Hx as (?&->&_). by apply from_report_iff in H.
    + apply elem_of_list_fmap in Hx as (e&->&(o&?&?)%He). apply from_string_expr in H. eauto 10.
  - intros (i'&o&e&(p'&Hp1&Hp2)%constructor_param_spec&H2&H3&H4). right. right.
    assert (i' = i) as -> by congruence. eexists. split.
    + apply elem_of_list_fmap. exists e. split; [reflexivity|]. apply He. eauto.
    + by apply from_string_expr.
Qed.

(** ** The function *)
Context (Hus : usable pk fa fn).
Notation own_code := (own_code pk lk fa M fn).
Notation return_stmts := (return_stmts fn).
Notation error_var := (error_var pk fn).
Notation subs := (subs pk).

Lemma usable_good s : s ∈ return_stmts -> good_stmt pk fn s.
Proof.
  intros Hs e [Hov He]. destruct Hus as [_ _ _ Hv _]. split.
  - intros i Hr. eapply Hv; [|exact Hr]. left. eauto.
  - intros o e' i Ho Hl Hr. eapply Hv; [|exact Hr]. right. exists o. split; [|by left]. exists s, e. done.
Qed.
Lemma usable_call e : error_source pk fn e -> good_call pk fn (unparen e).
Proof. intros He f args i Hc Hf. destruct Hus as [_ _ _ _ H]. by eapply H. Qed.

Lemma returns_eq : findErrorCodesInFunctionReturnStmts pk lk fa fn = codes_of_returns pk lk fa fn ∅ return_stmts.
Proof. unfold findErrorCodesInFunctionReturnStmts. by rewrite (return_stmts_list _ _ Hbody), Hbody. Qed.

Lemma visited_error_vars o : o ∈ (findErrorCodesInFunctionReturnStmts pk lk fa fn).2 <-> error_var o.
Proof.
  rewrite returns_eq.
  destruct (codes_of_returns_post pk lk fa fn body Hbody Hscoped ∅ return_stmts) as [D _]; [by apply usable_good|].
  rewrite (dpost_exact pk fn body Hbody Hscoped _ _ D). split.
  - intros (e&(s&Hs&Hov&Hr)&Hv). exists s, e. done.
  - intros (s&e&Hs&Hov&Hr&Hv). exists e. split; [|done]. exists s. done.
Qed.
Lemma keep_code s e c : ~ overwritten pk s -> c ∉ subs s -> returned fn s e -> expr_code pk lk fa M fn e c -> return_code pk lk fa M fn s c.
Proof.
  intros Hov Hc Hr He. unfold ReturnProofs.subs in Hc. destruct (annotation_total pk s) as [q Hq]. pose proof Hq as Hm.
  apply annotation_is_model in Hm. rewrite Hm in Hc. destruct q as [[cs|add sub]|].
  - destruct Hov. by exists cs.
  - by eapply rc_keep.
  - by eapply rc_plain.
Qed.
Lemma fixed_code s y c : fixed_effects pk s y -> from y c -> return_code pk lk fa M fn s c.
Proof.
  intros [(d&_&->)|(a&Ha&[[Ho ->]|[Ho ->]])] H.
  - by apply from_report_iff in H.
  - apply from_set_iff in H. destruct (annotation_total pk s) as [q Hq]. pose proof Hq as Hm. apply annotation_is_model in Hm.
    rewrite Ha in Hm. destruct q as [[cs|]|]; [|by injection Hm as ->|done]. injection Hm as ->. by eapply rc_overwrite.
  - apply from_set_iff in H. destruct (annotation_total pk s) as [q Hq]. pose proof Hq as Hm. apply annotation_is_model in Hm.
    rewrite Ha in Hm. destruct q as [[cs|]|]; [by injection Hm as ->| |done]. injection Hm as ->. by eapply rc_add.
Qed.
Lemma source_var s e o e' : s ∈ return_stmts -> ~ overwritten pk s -> returned fn s e -> expr_var pk fn e o -> linked pk fn o e' -> error_source pk fn e'.
Proof. intros Hs Hov Hr Ho Hl. right. exists o. split; [|by left]. exists s, e. done. Qed.
Lemma from_var_effects s e o c : s ∈ return_stmts -> ~ overwritten pk s -> returned fn s e -> expr_var pk fn e o ->
  (exists y, obj_effects pk lk fa fn o y /\ from y c) <-> (exists e, linked pk fn o e /\ direct_code pk lk fa M fn e c) \/ several_code pk lk fa M fn o c.
Proof.
  intros Hs Hov Hr Ho. eapply from_obj_effects; [done|done| |].
  - intros e' Hl. apply usable_call. by eapply source_var.
  - intros d Hd. apply usable_call. right. exists o. split; [exists s, e; done|]. right. eauto.
Qed.
Lemma returns_sound c : from (findErrorCodesInFunctionReturnStmts pk lk fa fn).1 c -> exists s, s ∈ return_stmts /\ return_code pk lk fa M fn s c.
Proof.
  rewrite returns_eq. intros H.
  destruct (codes_of_returns_post pk lk fa fn body Hbody Hscoped ∅ return_stmts) as [_ P]; [by apply usable_good|].
  destruct (P _ _ (observe_from plan c)) as (P1&_). apply P1 in H as (s&Hs&H). exists s. split; [done|].
  destruct H as [(y&Hf&Hy)|(Hc&y&Hy&H)]; [by eapply fixed_code|].
  destruct H as [(Hov&[(e&Hr&He)|[_ ->]])|(e&o&(Hov&Hr)&Hv&Ho)]; [|by apply from_panic_iff in Hy|].
  - eapply keep_code; [done|done|exact Hr|]. apply ec_direct. eapply from_expr_effects; [done|done| |eauto].
    apply usable_call. left. eauto.
  - eapply keep_code; [done|done|exact Hr|].
    assert (exists y, obj_effects pk lk fa fn o y /\ from y c) as H by eauto.
    apply (from_var_effects s e) in H as [(e'&Hl&Hd)|Hd]; [by eapply ec_var|by eapply ec_several|done|done|done|done].
Qed.
Lemma subs_spec s c : c ∈ subs s <-> subtracts pk s c.
Proof.
  unfold ReturnProofs.subs, subtracts. destruct (annotation_total pk s) as [q Hq]. pose proof Hq as Hm. apply annotation_is_model in Hm. rewrite Hm. split.
  - destruct q as [[cs|add sub]|]; [set_solver| |set_solver]. eauto.
  - intros (add&sub&H&Hc). rewrite (annotation_fun _ _ _ _ Hq H). done.
Qed.
Lemma returns_complete_at c s : agree_at pk fn s c ->
  s ∈ return_stmts -> return_code pk lk fa M fn s c -> from (findErrorCodesInFunctionReturnStmts pk lk fa fn).1 c.
Proof.
  intros Hsub Hs Hc. pose proof visited_error_vars as Hvis. rewrite returns_eq in *.
  destruct (codes_of_returns_post pk lk fa fn body Hbody Hscoped ∅ return_stmts) as [_ P]; [by apply usable_good|].
  destruct (P _ _ (observe_from plan c)) as (_&Pfix&Pstmt&Pobj). clear P.
  assert (forall e, ~ overwritten pk s -> returned fn s e -> c ∉ subs s -> expr_code pk lk fa M fn e c ->
    from (codes_of_returns pk lk fa fn ∅ return_stmts).1 c) as Hexpr.
  { intros e Hov Hr Hns Hcode.
    assert (forall o, expr_var pk fn e o -> forall s' e', s' ∈ return_stmts -> stmt_exprs pk fn s' e' -> expr_var pk fn e' o -> c ∉ subs s') as Hagree.
    { intros o Hv s' e' Hs' [Hov' Hr'] Hv' Hin. apply Hns.
      apply subs_spec in Hin. apply subs_spec. by eapply (Hsub o s' e' e). }
    destruct Hcode as [Hd|o e' Hv Hl Hd|o Hv Hd].
    - apply (from_expr_effects pk lk fa fn plan body Hbody Hscoped) in Hd as (y&?&?); [|apply usable_call; left; eauto].
      eapply (Pstmt s y); [done|done| |done]. split; [done|]. left. eauto.
    - destruct (proj2 (from_var_effects s e o c Hs Hov Hr Hv)) as (y&?&?); [eauto|].
      eapply (Pobj o y (Hagree o Hv)); [|set_solver|done|done]. apply Hvis. exists s, e. done.
    - destruct (proj2 (from_var_effects s e o c Hs Hov Hr Hv)) as (y&?&?); [eauto|].
      eapply (Pobj o y (Hagree o Hv)); [|set_solver|done|done]. apply Hvis. exists s, e. done. }
  destruct Hc as [e Ha Hr He|cs Ha Hc|add sub Ha Hc|add sub e Ha Hr He Hc].
  - eapply Hexpr; [|exact Hr| |exact He]; [intros (cs&K); by pose proof (annotation_fun _ _ _ _ Ha K)|].
    apply annotation_is_model in Ha. unfold ReturnProofs.subs. rewrite Ha. set_solver.
  - apply annotation_is_model in Ha. eapply (Pfix s (EffSet cs)); [done| |by apply from_set_iff]. right. eexists. split; [exact Ha|]. by left.
  - apply annotation_is_model in Ha. eapply (Pfix s (EffSet add)); [done| |by apply from_set_iff]. right. eexists. split; [exact Ha|]. by right.
  - eapply Hexpr; [|exact Hr| |exact He]; [intros (cs&K); by pose proof (annotation_fun _ _ _ _ Ha K)|].
    apply annotation_is_model in Ha. unfold ReturnProofs.subs. by rewrite Ha.
Qed.
Lemma returns_complete c s : agree pk fn c ->
  s ∈ return_stmts -> return_code pk lk fa M fn s c -> from (findErrorCodesInFunctionReturnStmts pk lk fa fn).1 c.
Proof.
  intros Ha Hs Hc. eapply returns_complete_at; [|done|done].
  intros o s' e e' Hs' Hov' Hov Hr' Hr Hv' Hv Hsub. by eapply (Ha o s' s e e').
Qed.

Lemma from_function_effect order c : (forall s o, o ∈ order s <-> o ∈ s) ->
  from (function_effect pk lk fa order fn) c <->
  from (findErrorCodesInFunctionReturnStmts pk lk fa fn).1 c \/
  (exists i o e, constructor_param pk fa fn i /\ tracked pk fn (i_obj i) ∅ i o /\ assigned_expr pk fn o e /\ constant_code e c) \/
  (exists o, error_var o /\ field_assigned pk fa fn o c).
Proof.
  intros Hord. unfold function_effect. pose proof visited_error_vars as Hvis.
  destruct (findErrorCodesInFunctionReturnStmts pk lk fa fn) as [r v]. cbn [fst snd] in *.
  rewrite !from_union_iff, from_constructor, from_code_fields by (destruct Hus; done).
  assert ((exists o, o ∈ order v /\ field_assigned pk fa fn o c) <-> exists o, error_var o /\ field_assigned pk fa fn o c) as ->; [|tauto].
  split; intros (o&Ho&?); exists o; (split; [|done]).
  - by apply Hvis, Hord.
  - by apply Hord, Hvis.
Qed.
Lemma own_sound order c : (forall s o, o ∈ order s <-> o ∈ s) -> from (function_effect pk lk fa order fn) c -> own_code c.
Proof.
  intros Hord. rewrite (from_function_effect order c Hord). intros [H|[(i&o&e&?&?&?&?)|(o&?&?)]].
  - apply returns_sound in H as (s&?&?). by eapply oc_return.
  - by eapply oc_parameter.
  - by eapply oc_field.
Qed.
Lemma own_complete order c : (forall s o, o ∈ order s <-> o ∈ s) -> agree pk fn c ->
  own_code c -> from (function_effect pk lk fa order fn) c.
Proof.
  intros Hord Hsub. rewrite (from_function_effect order c Hord). intros [s Hs Hc|i o e ????|o ??].
  - left. by eapply returns_complete.
  - right. left. eauto 10.
  - right. right. eauto.
Qed.
End own.
