(** * The analysis of Code methods finds exactly the sources of their results. *)
From Coq Require Import Ascii String.
From stdpp Require Import base list gmap sets.
From Verif Require Import GoString ErrorCode Scc Engine CodeSet Constant GoAst Taint Extract Analyse SpecCodes SpecTaint SpecMay SpecEvents
  TaintProofs Termination ExprProofs MayProofs EventProofs Phase PhaseProofs ErrorTypes SpecCodeMethod.

Section code.
Context (pk : package) (fn : func) (receiver : option ident).
Notation info := (pk_info pk).
Notation universe := (dom (pk_objs pk) : gset oid).
Notation local := (local pk fn None).
Notation tracked := (tracked pk fn None).
Notation untrackable := (untrackable pk fn None).
Notation assigned_var := (assigned_var pk fn).
Notation assigned_expr := (assigned_expr pk fn).
Notation assigned_several := (assigned_several pk fn).
Notation names_variable := (names_variable pk).
Notation comes_from := (comes_from pk fn).

(** What is found on the way, in order. *)
Inductive cevent := VConst (e : node) (v : constval) | VField (e : node) (name : gostring) | VOther (e : node)
  | VOrigin (i : ident) | VSeveral (d : destruct).
Definition found := (codeset * option gostring)%type.
Definition run_event (s : found) (ev : cevent) : found * list diag :=
  match ev with
  | VConst e v =>
    match getErrorCodeFromConstant (ti_is_print info) v with
    | inl c => ((if decide (c = []) then s.1 else code_add s.1 c, s.2), [])
    | inr msg => (s, [Diag (node_id e) msg])
    end
  | VField e name =>
    match s.2 with
    | None => ((s.1, Some name), [])
    | Some f => (s, if decide (f = name) then [] else
                  [Diag (node_id e) (str "only single field allowed: cannot return field " ++ quoted name
                 ++ str " because field " ++ quoted f ++ str " was returned previously")])
    end
  | VOther e => (s, [Diag (node_id e) (str "function " ++ quoted (func_name fn) ++ str " should always return a string constant or a single field")])
  | VOrigin i => (s, [Diag (i_id i) (str "error code variable may not be a parameter, receiver or global variable")])
  | VSeveral d => (s, [Diag (node_id (de_source d))
      (str "unsupported: assigning result of function call to variable " ++ quoted (i_name (de_target d)) ++ str " is not allowed")])
  end.
Fixpoint run_events (s : found) (l : list cevent) : found * list diag :=
  match l with
  | [] => (s, [])
  | ev :: l => let '(s1, d1) := run_event s ev in let '(s2, d2) := run_events s1 l in (s2, d1 ++ d2)
  end.
Lemma run_events_app s l1 l2 : run_events s (l1 ++ l2) =
  let '(s1, d1) := run_events s l1 in let '(s2, d2) := run_events s1 l2 in (s2, d1 ++ d2).
Proof.
  revert s. induction l1 as [|ev l1 IH]; intros s; cbn [app run_events].
  - by destruct (run_events s l2).
  - destruct (run_event s ev) as [s1 d1]. rewrite IH. destruct (run_events s1 l1) as [s2 d2]. destruct (run_events s2 l2) as [s3 d3].
    by rewrite app_assoc.
Qed.

(** ** What is expected *)
Definition cexpr_event (e : node) (ev : cevent) : Prop :=
  (exists v, constant_value pk e v /\ ev = VConst e v) \/
  (not_constant pk e /\ exists name, field_of_receiver receiver e name /\ ev = VField e name) \/
  (not_constant pk e /\ (forall name, ~ field_of_receiver receiver e name) /\ as_ident (unparen e) = None /\ ev = VOther e) \/
  (exists i, names_variable e i /\ untrackable i /\ ev = VOrigin i).
Definition cobj_event (o : oid) (ev : cevent) : Prop :=
  (exists e, assigned_expr o e /\ cexpr_event e ev) \/
  (exists d, assigned_several o d /\ ev = VSeveral d) \/
  (exists j, assigned_var o j /\ untrackable j /\ ev = VOrigin j).

Record cpost (I : ident -> Prop) (X : cevent -> Prop) (V : gset oid) (l : list cevent) (V' : gset oid) : Prop := {
  cp_sub : V ⊆ V';
  cp_roots : forall i o, I i -> local i o -> o ∈ V';
  cp_new : forall o, o ∈ V' -> o ∉ V -> exists i, I i /\ comes_from i o;
  cp_var : forall o j o', o ∈ V' -> o ∉ V -> assigned_var o j -> local j o' -> o' ∈ V';
  cp_link : forall o e i o', o ∈ V' -> o ∉ V -> assigned_expr o e -> names_variable e i -> local i o' -> o' ∈ V';
  cp_events : forall ev, ev ∈ l <-> X ev \/ exists o, o ∈ V' /\ o ∉ V /\ cobj_event o ev
}.
Lemma cpost_seq I1 X1 I2 X2 V l1 V1 l2 V2 : cpost I1 X1 V l1 V1 -> cpost I2 X2 V1 l2 V2 ->
  cpost (fun i => I1 i \/ I2 i) (fun x => X1 x \/ X2 x) V (l1 ++ l2) V2.
Proof.
  intros P Q. pose proof (cp_sub _ _ _ _ _ P) as H1. pose proof (cp_sub _ _ _ _ _ Q) as H2. split.
  - set_solver.
  - intros i o [Hi|Hi] Hl; [apply H2; by eapply (cp_roots _ _ _ _ _ P)|by eapply (cp_roots _ _ _ _ _ Q)].
  - intros o Ho Hn. destruct (decide (o ∈ V1)) as [H|H].
    + destruct (cp_new _ _ _ _ _ P o H Hn) as (e&?&?). eauto.
    + destruct (cp_new _ _ _ _ _ Q o Ho H) as (e&?&?). eauto.
  - intros o j o' Ho Hn. destruct (decide (o ∈ V1)) as [H|H]; intros.
    + apply H2. by eapply (cp_var _ _ _ _ _ P o).
    + by eapply (cp_var _ _ _ _ _ Q o).
  - intros o j i o' Ho Hn. destruct (decide (o ∈ V1)) as [H|H]; intros.
    + apply H2. by eapply (cp_link _ _ _ _ _ P o).
    + by eapply (cp_link _ _ _ _ _ Q o).
  - intros ev. rewrite elem_of_app, (cp_events _ _ _ _ _ P), (cp_events _ _ _ _ _ Q). split.
    + intros [[?|(o&?&?&?)]|[?|(o&?&?&?)]]; [by left; left|right; exists o; split_and!; [set_solver|done|done]|by left; right|right; exists o; split_and!; [done|set_solver|done]].
    + intros [[?|?]|(o&?&?&?)]; [by left; left|by right; left|].
      destruct (decide (o ∈ V1)); [left|right]; right; exists o; auto.
Qed.
Lemma cpost_iff (I I' : ident -> Prop) (X X' : cevent -> Prop) V l V' : (forall i, I i <-> I' i) -> (forall x, X x <-> X' x) -> cpost I X V l V' -> cpost I' X' V l V'.
Proof.
  intros HI HX [H1 H2 H3 H4 H5 H6]. split; try done.
  - intros i o Hi%HI. by eapply H2.
  - intros o Ho Hn. destruct (H3 o Ho Hn) as (i&?%HI&?). eauto.
  - intros ev. by rewrite H6, HX.
Qed.
Lemma cpost_leaf (I : ident -> Prop) (X : cevent -> Prop) l V : (forall i, ~ I i) -> (forall y, X y <-> y ∈ l) -> cpost I X V l V.
Proof.
  intros HI HX. split; try done.
  - intros i o Hi. by destruct (HI i).
  - intros ev. rewrite HX. split; [auto|]. by intros [?|(?&?&?&_)].
Qed.

(** A part of the analysis behaves as the events it comes across. *)
Definition behaves (m : cstate -> phase cstate) (st : cstate) (I : ident -> Prop) (X : cevent -> Prop) : Prop :=
  exists l V s ds, m st = Ok (CState V s.1 s.2, ds) /\ run_events (cs_codes st, cs_field st) l = (s, ds) /\ cpost I X (cs_visited st) l V.

Lemma comes_trans i o e j o' : comes_from i o -> assigned_expr o e -> names_variable e j -> comes_from j o' -> comes_from i o'.
Proof.
  intros H He Hj. induction 1 as [o' Ht|o1 e1 j1 o2 H1 IH He1 Hj1 Ht1].
  - by eapply comes_further.
  - by eapply (SpecCodeMethod.comes_further pk fn i o1).
Qed.

Definition good_ident (i : ident) : Prop :=
  not_closure_param pk fn i /\ forall o e j, comes_from i o -> assigned_expr o e -> names_variable e j -> not_closure_param pk fn j.
Definition good_expr (e : node) : Prop := forall i, names_variable e i -> good_ident i.
Lemma good_further i o e : good_ident i -> comes_from i o -> assigned_expr o e -> good_expr e.
Proof.
  intros [_ H] Ho He j Hj. split; [by eapply H|]. intros o' e' j' Ho' He' Hj'. eapply H; [|exact He'|exact Hj']. by eapply comes_trans.
Qed.

Context (body : node) (Hbody : fn_body fn = Some body) (Hscoped : scoped pk fn).
Lemma exprs_behave (rec : node -> cstate -> phase cstate) es st :
  (forall st' e, cs_visited st ⊆ cs_visited st' -> e ∈ es -> behaves (rec e) st' (names_variable e) (cexpr_event e)) ->
  behaves (fun st => pfold (fun st e => rec e st) st es) st (fun i => exists e, e ∈ es /\ names_variable e i) (fun x => exists e, e ∈ es /\ cexpr_event e x).
Proof.
  revert st. induction es as [|e es IH]; intros st Hrec.
  - exists [], (cs_visited st), (cs_codes st, cs_field st), []. split; [by destruct st|]. split; [done|].
    apply cpost_leaf; [by intros i (?&?%elem_of_nil&_)|]. intros y. split; [by intros (?&?%elem_of_nil&_)|by intros ?%elem_of_nil].
  - destruct (Hrec st e) as (l1&V1&s1&d1&E1&R1&P1); [done|apply elem_of_cons; by left|].
    destruct (IH (CState V1 s1.1 s1.2)) as (l2&V2&s2&d2&E2&R2&P2).
    { intros st' e' Hst He. apply Hrec; [|apply elem_of_cons; by right]. cbn in Hst. pose proof (cp_sub _ _ _ _ _ P1). set_solver. }
    exists (l1 ++ l2), V2, s2, (d1 ++ d2). split_and!.
    + cbn [pfold]. rewrite E1. cbn [pbind]. by rewrite E2.
    + rewrite run_events_app, R1. cbn [cs_codes cs_field] in R2. destruct s1 as [c1 f1]. cbn [fst snd] in R2. by rewrite R2.
    + cbn [cs_visited] in P2. eapply cpost_iff; [| |exact (cpost_seq _ _ _ _ _ _ _ _ _ P1 P2)].
      * intros i. setoid_rewrite elem_of_cons. split; [intros [?|(?&?&?)]; eauto|intros (?&[->|?]&?); eauto].
      * intros i. setoid_rewrite elem_of_cons. split; [intros [?|(?&?&?)]; eauto|intros (?&[->|?]&?); eauto].
Qed.

Lemma peach_tell {A} (f : A -> nid) (g : A -> gostring) l : peach (fun x => ptell (f x) (g x)) l = Ok (tt, map (fun x => Diag (f x) (g x)) l).
Proof. unfold peach. induction l as [|x l IH]; [done|]. cbn [pfold map]. unfold pbind at 1. cbn [ptell]. rewrite IH. done. Qed.
Lemma run_origins s is : run_events s (map VOrigin is) = (s, map (fun i => Diag (i_id i) (str "error code variable may not be a parameter, receiver or global variable")) is).
Proof. induction is as [|i is IH]; [done|]. cbn [map run_events run_event]. by rewrite IH. Qed.
Lemma run_several s ds : run_events s (map VSeveral ds) = (s, map (fun d => Diag (node_id (de_source d))
   (str "unsupported: assigning result of function call to variable " ++ quoted (i_name (de_target d)) ++ str " is not allowed")) ds).
Proof. induction ds as [|i ds IH]; [done|]. cbn [map run_events run_event]. by rewrite IH. Qed.

Lemma ident_behaves i n rec st : good_ident i -> fuel_ok pk (cs_visited st) (S n) ->
  (forall st' e, fuel_ok pk (cs_visited st') n -> good_expr e -> behaves (rec e) st' (names_variable e) (cexpr_event e)) ->
  behaves (analyseReturnedIdentTaint pk fn rec i) st (fun j => j = i) (fun ev => untrackable i /\ ev = VOrigin i).
Proof.
  intros Hg Hn Hrec. set (V := cs_visited st) in *.
  destruct (taintSpread_exact pk fn None Hscoped body Hbody V i) as (Hok&Hv&He&Hd&Ho); [by apply Hg|].
  assert (forall o, tracked V i o -> comes_from i o) as Htr.
  { intros o Ht. apply comes_directly. eapply tracked_antitone; [|exact Ht]. set_solver. }
  destruct (exprs_behave rec (ts_exprs (taintSpread pk fn None V i)) (CState (ts_visited (taintSpread pk fn None V i)) (cs_codes st) (cs_field st)))
    as (l&V2&s&ds&E&R&P).
  { intros st' e HV' (o&Ht&Hl)%He. cbn [cs_visited] in HV'. apply Hrec.
    - assert (o ∈ universe) as Hu.
      { destruct Ht as [? Hloc _|? ? ? _ _ Hloc _]; apply (local_universe pk fn None) in Hloc;
          unfold TaintProofs.universe in Hloc; set_solver. }
      assert (V ⊆ ts_visited (taintSpread pk fn None V i)) as HV. { intros o' ?. apply Hv. by left. }
      assert (size (universe ∖ cs_visited st') < size (universe ∖ V)); [|unfold fuel_ok in *; lia].
      apply subset_size. apply strict_spec_alt. split; [set_solver|].
      pose proof (tracked_not_in _ _ _ _ _ _ Ht) as HoV.
      intros Heq. assert (o ∈ universe ∖ V) as Ho3 by set_solver. rewrite <-Heq in Ho3.
      apply elem_of_difference in Ho3 as [_ Ho3]. apply Ho3, HV', Hv. by right.
    - eapply good_further; [exact Hg| |exact Hl]. by apply Htr. }
  cbn [cs_codes cs_field cs_visited] in R, P.
  unfold behaves, analyseReturnedIdentTaint. fold V.
  set (r := taintSpread pk fn None V i) in *. clearbody r. rewrite Hok. cbn [negb].
  assert (V ⊆ ts_visited r) as HV. { intros o. rewrite Hv. by left. }
  exists (map VOrigin (ts_oos r) ++ map VSeveral (ts_destructs r) ++ l), V2, s. eexists. split_and!.
  - rewrite !peach_tell. cbn [pbind]. rewrite E. reflexivity.
  - rewrite run_events_app, run_origins, run_events_app, run_several, R. done.
  - pose proof (cp_sub _ _ _ _ _ P) as HV2.
    assert (forall o, o ∈ V2 -> o ∉ V -> tracked V i o \/ (o ∉ ts_visited r)) as Hsplit.
    { intros o _ HoV. destruct (decide (o ∈ ts_visited r)) as [Hin|]; [|by right].
      apply Hv in Hin as [?|?]; [done|by left]. }
    split.
    + set_solver.
    + intros i' o -> Hl. apply HV2, Hv. destruct (decide (o ∈ V)); [by left|right]. by apply tracked_start.
    + intros o Ho2 HoV. exists i. split; [done|]. destruct (Hsplit o Ho2 HoV) as [Ht|Hnv]; [by apply Htr|].
      destruct (cp_new _ _ _ _ _ P o Ho2 Hnv) as (j&(e&(o1&Ht&Hae)%He&Hj)&Hc). eapply comes_trans; [by apply Htr|exact Hae|exact Hj|done].
    + intros o j o' Ho2 HoV Hav Hl. destruct (Hsplit o Ho2 HoV) as [Ht|Hnv].
      * apply HV2, Hv. destruct (decide (o' ∈ V)); [by left|right]. by eapply tracked_step.
      * by eapply (cp_var _ _ _ _ _ P o).
    + intros o e j o' Ho2 HoV Hae Hj Hl. destruct (Hsplit o Ho2 HoV) as [Ht|Hnv].
      * eapply (cp_roots _ _ _ _ _ P j); [|done]. exists e. split; [|done]. apply He. eauto.
      * by eapply (cp_link _ _ _ _ _ P o).
    + intros ev. rewrite !elem_of_app, !elem_of_list_fmap, (cp_events _ _ _ _ _ P). split.
      * intros [(j&->&Hj)|[(d&->&Hdd)|[(e&(o&Ht&Hae)%He&Hev)|(o&Ho2&HoV&Hev)]]].
        -- apply Ho in Hj as [Hu [->|(o&Ht&Hav)]]; [by left|right]. exists o. split_and!.
           ++ apply HV2, Hv. by right.
           ++ by eapply tracked_not_in.
           ++ right. right. eauto.
        -- apply Hd in Hdd as (o&Ht&Hs). right. exists o. split_and!; [apply HV2, Hv; by right|by eapply tracked_not_in|]. right. left. eauto.
        -- right. exists o. split_and!; [apply HV2, Hv; by right|by eapply tracked_not_in|]. left. eauto.
        -- right. exists o. split_and!; [done|set_solver|done].
      * intros [[Hu ->]|(o&Ho2&HoV&Hev)].
        -- left. exists i. split; [done|]. apply Ho. auto.
        -- destruct (Hsplit o Ho2 HoV) as [Ht|Hnv].
           ++ destruct Hev as [(e&Hae&Hev)|[(d&Has&->)|(j&Hav&Hu&->)]].
              ** right. right. left. exists e. split; [apply He; eauto|done].
              ** right. left. exists d. split; [done|apply Hd; eauto].
              ** left. exists j. split; [done|]. apply Ho. split; [done|]. right. eauto.
           ++ right. right. right. eauto.
Qed.

Definition is_field (e : node) : option ident :=
  match as_selector e, receiver with
  | Some (x, sel), Some r =>
    match as_ident (unparen x) with
    | Some i => if decide (i_obj i = i_obj r) then Some sel else None
    | None => None
    end
  | _, _ => None
  end.
Lemma is_field_spec e name : field_of_receiver receiver e name <-> exists sel, is_field (unparen e) = Some sel /\ name = i_name sel.
Proof.
  unfold field_of_receiver, is_field. split.
  - intros (r&x&sel&i&Hr&Hs&Hi&Ho&->). rewrite Hs, Hr, Hi, decide_True by done. eauto.
  - destruct (as_selector (unparen e)) as [[x sel]|] eqn:Es; [|by intros (?&?&_)].
    destruct receiver as [r|] eqn:Er; [|by intros (?&?&_)].
    destruct (as_ident (unparen x)) as [i|] eqn:Ei; [|by intros (?&?&_)]. case_decide; [|by intros (?&?&_)].
    intros (sel'&[= <-]&->). exists r, x, sel, i. done.
Qed.
Lemma selector_no_ident e s : as_selector e = Some s -> as_ident e = None.
Proof. by destruct e as [id [] kids]. Qed.
Lemma is_field_no_ident e sel : is_field e = Some sel -> as_ident e = None.
Proof. unfold is_field. destruct (as_selector e) eqn:E; [|done]. intros _. by eapply selector_no_ident. Qed.

Lemma expression_behaves n e st : fuel_ok pk (cs_visited st) n -> good_expr e ->
  behaves (analyseReturnedExpression pk fn receiver n e) st (names_variable e) (cexpr_event e).
Proof.
  revert e st. induction n as [|n IH]; intros e st Hn Hg; [unfold fuel_ok in Hn; lia|].
  unfold behaves. cbn [analyseReturnedExpression]. change (match as_selector (unparen e) with Some (x, sel) => _ | None => None end) with (is_field (unparen e)).
  destruct (ti_value info (node_id (unparen e))) as [v|] eqn:Ev.
  - exists [VConst e v], (cs_visited st). cbn [run_events run_event].
    assert (cpost (names_variable e) (cexpr_event e) (cs_visited st) [VConst e v] (cs_visited st)) as HP.
    { apply cpost_leaf.
      - intros i [Hc _]. unfold not_constant in Hc. congruence.
      - intros y. rewrite elem_of_list_singleton. unfold cexpr_event, constant_value, not_constant, SpecCodeMethod.names_variable, not_constant. rewrite Ev. split.
        + intros [(v'&[= <-]&->)|[[? _]|[[? _]|(i&[? _]&_)]]]; done.
        + intros ->. left. eauto. }
    destruct (getErrorCodeFromConstant _ v) as [c|msg].
    + eexists _, []. split_and!; [|reflexivity|done]. destruct st. cbn. by case_decide.
    + eexists _, _. split_and!; [|reflexivity|done]. by destruct st.
  - destruct (is_field (unparen e)) as [sel|] eqn:Ef.
    + exists [VField e (i_name sel)], (cs_visited st). cbn [run_events run_event].
      assert (cpost (names_variable e) (cexpr_event e) (cs_visited st) [VField e (i_name sel)] (cs_visited st)) as HP.
      { apply cpost_leaf.
        - intros i [_ Hi]. apply is_field_no_ident in Ef. congruence.
        - intros y. rewrite elem_of_list_singleton. unfold cexpr_event, constant_value, not_constant, SpecCodeMethod.names_variable, not_constant. rewrite Ev. split.
          + intros [(v'&?&_)|[(_&name&(sel'&Hs&->)%is_field_spec&->)|[(_&Hno&_)|(i&[_ Hi]&_)]]]; [done|congruence| |].
            * exfalso. apply (Hno (i_name sel)). apply is_field_spec. eauto.
            * apply is_field_no_ident in Ef. congruence.
          + intros ->. right. left. split; [done|]. exists (i_name sel). split; [apply is_field_spec; eauto|done]. }
      destruct st as [V c [f|]]; cbn [cs_field cs_codes cs_visited fst snd].
      * eexists _, _. split_and!; [|reflexivity|done]. by case_decide.
      * eexists _, _. split_and!; [|reflexivity|done]. done.
    + destruct (as_ident (unparen e)) as [i|] eqn:Ei.
      * assert (names_variable e i) as Hi by done.
        destruct (ident_behaves i n (analyseReturnedExpression pk fn receiver n) st) as (l&V&s&ds&E&R&P); [by apply Hg|done|by intros; apply IH|].
        exists l, V, s, ds. split_and!; [done|done|]. eapply cpost_iff; [| |exact P].
        -- intros j. split; [by intros ->|]. intros [_ Hj]. congruence.
        -- intros ev. unfold cexpr_event, constant_value, not_constant. rewrite Ev, Ei. split.
           ++ intros [Hu ->]. right. right. right. eauto.
           ++ intros [(v&?&_)|[(_&name&(sel&Hs&_)%is_field_spec&_)|[(_&_&?&_)|(j&[_ Hj]&Hu&->)]]]; [done|congruence|done|].
              rewrite Ei in Hj. injection Hj as ->. done.
      * exists [VOther e], (cs_visited st). cbn [run_events run_event]. eexists _, _. split_and!; [|reflexivity|]; [by destruct st|].
        apply cpost_leaf.
        -- intros i [_ Hi]. congruence.
        -- intros y. rewrite elem_of_list_singleton. unfold cexpr_event, constant_value, not_constant, SpecCodeMethod.names_variable, not_constant. rewrite Ev, Ei. split.
           ++ intros [(v'&?&_)|[(_&name&(sel'&Hs&->)%is_field_spec&->)|[(_&_&_&?)|(i&[_ Hi]&_)]]]; [done|congruence|done|done].
           ++ intros ->. right. right. left. split_and!; try done. intros name (sel&Hs&_)%is_field_spec. congruence.
Qed.
End code.
