(** * C25: the codes and the code field of an error type. *)
From Coq Require Import Ascii String.
From stdpp Require Import base list gmap sets.
From Verif Require Import GoString ErrorCode Scc Engine CodeSet CodeSetProofs Constant GoAst Taint Extract Analyse SpecCodes SpecTaint SpecMay SpecEvents
  TaintProofs Termination ExprProofs MayProofs ErrorCodeProofs EventProofs Phase PhaseProofs ErrorTypes SpecCodeMethod CodeMethodProofs.

Section code.
Context (pk : package) (fn : func) (receiver : option ident).
Notation info := (pk_info pk).
Notation local := (local pk fn None).
Notation tracked := (tracked pk fn None).
Notation untrackable := (untrackable pk fn None).
Notation assigned_var := (assigned_var pk fn).
Notation assigned_expr := (assigned_expr pk fn).
Notation assigned_several := (assigned_several pk fn).
Notation run_events := (run_events pk fn).

(** ** Reading the events *)
Definition plain_problem (ev : cevent) (d : diag) : Prop :=
  match ev with
  | VConst e v => exists msg, getErrorCodeFromConstant (ti_is_print info) v = inr msg /\ d = Diag (node_id e) msg
  | VField _ _ => False
  | VOther e => d = Diag (node_id e) (str "function " ++ quoted (func_name fn) ++ str " should always return a string constant or a single field")
  | VOrigin i => d = Diag (i_id i) (str "error code variable may not be a parameter, receiver or global variable")
  | VSeveral a => d = Diag (node_id (de_source a))
      (str "unsupported: assigning result of function call to variable " ++ quoted (i_name (de_target a)) ++ str " is not allowed")
  end.
Definition other_field (f : gostring) (ev : cevent) (d : diag) : Prop :=
  exists e name, ev = VField e name /\ name <> f /\ d = Diag (node_id e) (str "only single field allowed: cannot return field " ++ quoted name
                 ++ str " because field " ++ quoted f ++ str " was returned previously").
Lemma run_events_spec l c0 f0 c f ds : run_events (c0, f0) l = ((c, f), ds) ->
  (forall x, x ∈ c <-> x ∈ c0 \/ x <> [] /\ exists e v, VConst e v ∈ l /\ getErrorCodeFromConstant (ti_is_print info) v = inl x) /\
  (match f0 with
   | Some f1 => f = Some f1
   | None => match f with Some f1 => exists e, VField e f1 ∈ l | None => forall e name, VField e name ∉ l end
   end) /\
  (forall d, d ∈ ds <-> exists ev, ev ∈ l /\ (plain_problem ev d \/ exists f1, f = Some f1 /\ other_field f1 ev d)).
Proof.
  revert c0 f0 ds. induction l as [|ev l IH]; intros c0 f0 ds; cbn [CodeMethodProofs.run_events].
  { intros [= <- <- <-]. split_and!.
    - intros x. split; [by left|]. intros [?|(_&?&?&?%elem_of_nil&_)]; done.
    - destruct f0; [done|]. intros e name. apply not_elem_of_nil.
    - intros d. split; [by intros ?%elem_of_nil|by intros (?&?%elem_of_nil&_)]. }
  destruct (run_event pk fn (c0, f0) ev) as [[c1 f1] d1] eqn:E1. destruct (run_events (c1, f1) l) as [[c2 f2] d2] eqn:E2.
  intros [= -> -> <-]. destruct (IH _ _ _ E2) as (Hc&Hf&Hd). clear IH E2. split_and!.
  - intros x. rewrite Hc. setoid_rewrite elem_of_cons. destruct ev; cbn [run_event fst snd] in E1.
    + destruct (getErrorCodeFromConstant _ v) as [y|msg] eqn:Ey.
      * injection E1 as <- <- <-. case_decide as Hy.
        -- subst y. split; [intros [?|(?&e'&v'&?&?)]; [by left|right; eauto 10]|].
           intros [?|(?&e'&v'&[[= -> ->]|?]&Hg)]; [by left|congruence|right; eauto 10].
        -- unfold code_add. rewrite elem_of_union. rewrite elem_of_singleton. split.
           ++ intros [[->|?]|(?&e'&v'&?&?)]; [right; eauto 10|by left|right; eauto 10].
           ++ intros [?|(?&e'&v'&[[= -> ->]|?]&Hg)]; [by left; right| |right; eauto 10].
              left. left. congruence.
      * injection E1 as <- <- <-. split; [intros [?|(?&e'&v'&?&?)]; [by left|right; eauto 10]|].
        intros [?|(?&e'&v'&[[= -> ->]|?]&Hg)]; [by left|congruence|right; eauto 10].
    + assert (c1 = c0) as -> by (by destruct f0; injection E1). split; [intros [?|(?&e'&v'&?&?)]; [by left|right; eauto 10]|].
      intros [?|(?&e'&v'&[?|?]&Hg)]; [by left|done|right; eauto 10].
    + injection E1 as <- <- <-. split; [intros [?|(?&e'&v'&?&?)]; [by left|right; eauto 10]|].
      intros [?|(?&e'&v'&[?|?]&Hg)]; [by left|done|right; eauto 10].
    + injection E1 as <- <- <-. split; [intros [?|(?&e'&v'&?&?)]; [by left|right; eauto 10]|].
      intros [?|(?&e'&v'&[?|?]&Hg)]; [by left|done|right; eauto 10].
    + injection E1 as <- <- <-. split; [intros [?|(?&e'&v'&?&?)]; [by left|right; eauto 10]|].
      intros [?|(?&e'&v'&[?|?]&Hg)]; [by left|done|right; eauto 10].
  - assert (match ev with VField e name => f1 = match f0 with Some f => Some f | None => Some name end | _ => f1 = f0 end) as Hf1.
    { destruct ev; cbn [run_event fst snd] in E1; [|destruct f0|..]; [|by injection E1 as <- <- <-..].
      destruct (getErrorCodeFromConstant _ _); by injection E1 as <- <- <-. }
    destruct f0 as [f0|].
    + destruct ev; by subst f1.
    + destruct ev as [e v|e name|e|i|a]; subst f1.
      2:{ subst f. exists e. apply elem_of_cons. by left. }
      all: destruct f as [f|]; [destruct Hf as (e'&He); exists e'; apply elem_of_cons; by right|intros e' name [?|?]%elem_of_cons; [done|by eapply Hf]].
  - assert (forall d, d ∈ d1 <-> plain_problem ev d \/ exists f1, f = Some f1 /\ other_field f1 ev d) as H1.
    { intros d. destruct ev as [e v|e name|e|i|a]; cbn [run_event fst snd plain_problem] in E1 |- *; unfold other_field.
      - destruct (getErrorCodeFromConstant _ v) as [y|msg] eqn:Ey; injection E1 as <- <- <-; rewrite ?elem_of_nil, ?elem_of_list_singleton; naive_solver.
      - destruct f0 as [f0|]; injection E1 as <- <- <-.
        + subst f. case_decide as Hn; rewrite ?elem_of_nil, ?elem_of_list_singleton; naive_solver.
        + subst f. rewrite elem_of_nil. naive_solver.
      - injection E1 as <- <- <-. rewrite elem_of_list_singleton. naive_solver.
      - injection E1 as <- <- <-. rewrite elem_of_list_singleton. naive_solver.
      - injection E1 as <- <- <-. rewrite elem_of_list_singleton. naive_solver. }
    intros d. rewrite elem_of_app, H1, Hd. setoid_rewrite elem_of_cons. split.
    + intros [Hx|(ev'&?&Hx)]; eauto.
    + intros (ev'&[->|?]&Hx); eauto.
Qed.

(** ** The return statements *)
Lemma code_returns_spec b s : s ∈ code_returns b <-> inside b s /\ node_kind s = KReturn.
Proof.
  revert b. fix IH 1. intros [id k kids].
  assert (s ∈ flat_map code_returns kids <-> exists m, m ∈ kids /\ inside m s /\ node_kind s = KReturn) as Hk.
  { induction kids as [|m kids IHk]; cbn [flat_map].
    - split; [by intros ?%elem_of_nil|by intros (?&?%elem_of_nil&_)].
    - rewrite elem_of_app, (IH m), IHk. clear IH IHk. setoid_rewrite elem_of_cons. split.
      + intros [[? ?]|(?&?&?)]; eauto.
      + intros (?&[->|?]&?); eauto. }
  clear IH. split.
  - intros H. assert (as_funclit (Node id k kids) = None /\ (s = Node id k kids /\ k = KReturn \/ s ∈ flat_map code_returns kids)) as [Hl [[-> ->]|(m&Hm&Hi&Hr)%Hk]].
    { destruct k; cbn [code_returns] in H; try (by split; [done|right]); [by apply elem_of_nil in H|].
      apply elem_of_cons in H as [->|H]; split; auto. }
    + split; [by apply inside_self|done].
    + split; [by eapply inside_below|done].
  - intros [Hi Hr]. assert (as_funclit (Node id k kids) = None) as Hl by (by inversion Hi).
    assert (s = Node id k kids \/ s ∈ flat_map code_returns kids) as [->|H].
    { inversion Hi; subst; [by left|]. right. apply Hk. eauto. }
    + cbn in Hr. subst k. cbn [code_returns]. apply elem_of_cons. by left.
    + destruct k; cbn [code_returns]; try done. apply elem_of_cons. by right.
Qed.

(** ** The whole method *)
Context (Hus : code_usable pk fn) (Hty : code_typed fn).

Lemma good_result i : result_name fn i -> good_ident pk fn i.
Proof.
  intros Hi. split; [by apply (cu_name _ _ Hus)|]. intros o e j Ho He Hj. eapply (cu_sources _ _ Hus); [|exact Hj].
  right. exists o. split; [|done]. exists i. auto.
Qed.
Lemma good_result_expr e : result_expr fn e -> good_expr pk fn e.
Proof.
  intros He i Hi. split; [eapply (cu_sources _ _ Hus); [by left|done]|]. intros o e' j Ho He' Hj. eapply (cu_sources _ _ Hus); [|exact Hj].
  right. exists o. split; [|done]. exists i. eauto.
Qed.
Lemma start_fuel st : fuel_ok pk (cs_visited st) (code_fuel pk).
Proof.
  unfold fuel_ok, code_fuel. assert (size ((dom (pk_objs pk) : gset oid) ∖ cs_visited st) <= size (dom (pk_objs pk) : gset oid)) by (apply subseteq_size; set_solver).
  rewrite (size_dom (D := gset oid)) in *. lia.
Qed.

Definition stmt_ident (s : node) (i : ident) : Prop :=
  (node_kids s = [] /\ exists f, ft_results (fn_type fn) = Some [f] /\ f_names f = [i]) \/ exists e, node_kids s = [e] /\ names_variable pk e i.
Definition stmt_event (s : node) (ev : cevent) : Prop :=
  (node_kids s = [] /\ exists f i, ft_results (fn_type fn) = Some [f] /\ f_names f = [i] /\ untrackable i /\ ev = VOrigin i) \/
  exists e, node_kids s = [e] /\ cexpr_event pk fn receiver e ev.
Lemma return_behaves s st : own_return fn s -> behaves pk fn receiver (fun st => analyse_return pk fn receiver st s) st (stmt_ident s) (stmt_event s).
Proof.
  intros Hs. destruct (fn_body fn) as [body|] eqn:Eb; [|by destruct (cu_body _ _ Hus)].
  destruct (Hty s Hs) as [(e&He)|(He&f&i&Hf&Hi)].
  - destruct (expression_behaves pk fn receiver body Eb (cu_scoped _ _ Hus) (code_fuel pk) e st) as (l&V&x&ds&E&R&P);
      [apply start_fuel|apply good_result_expr; by exists s|].
    exists l, V, x, ds. unfold analyse_return. rewrite He. split_and!; [done|done|]. eapply cpost_iff; [| |exact P].
    + intros j. unfold stmt_ident. rewrite He. split; [by eauto|]. by intros [[? _]|(e'&[= <-]&?)].
    + intros ev. unfold stmt_event. rewrite He. split; [by eauto|]. by intros [[? _]|(e'&[= <-]&?)].
  - destruct (ident_behaves pk fn receiver body Eb (cu_scoped _ _ Hus) i (code_fuel pk) (analyseReturnedExpression pk fn receiver (code_fuel pk)) st)
      as (l&V&x&ds&E&R&P).
    + apply good_result. split; [eauto|]. eauto.
    + pose proof (start_fuel st). unfold fuel_ok in *. lia.
    + intros st' e' Hfu Hg. by apply (expression_behaves pk fn receiver body Eb (cu_scoped _ _ Hus)).
    + exists l, V, x, ds. unfold analyse_return, analyseNamedReturn. rewrite He, Hf, Hi. split_and!; [done|done|]. eapply cpost_iff; [| |exact P].
      * intros j. unfold stmt_ident. rewrite He, Hf. split; [intros ->; eauto|]. intros [(_&f'&[= <-]&Hj)|(?&?&_)]; [congruence|done].
      * intros ev. unfold stmt_event. rewrite He, Hf. split; [intros [? ->]; left; split; [done|]; exists f, i; done|].
        intros [(_&f'&i'&[= <-]&Hj&?&->)|(?&?&_)]; [|done]. rewrite Hi in Hj. injection Hj as <-. done.
Qed.
Lemma returns_behave ss st : (forall s, s ∈ ss -> own_return fn s) ->
  behaves pk fn receiver (fun st => pfold (analyse_return pk fn receiver) st ss) st (fun i => exists s, s ∈ ss /\ stmt_ident s i)
    (fun ev => exists s, s ∈ ss /\ stmt_event s ev).
Proof.
  revert st. induction ss as [|s ss IH]; intros st Hss.
  - exists [], (cs_visited st), (cs_codes st, cs_field st), []. split; [by destruct st|]. split; [done|].
    apply cpost_leaf; [by intros i (?&?%elem_of_nil&_)|]. intros y. split; [by intros (?&?%elem_of_nil&_)|by intros ?%elem_of_nil].
  - destruct (return_behaves s st) as (l1&V1&s1&d1&E1&R1&P1); [apply Hss, elem_of_cons; by left|].
    destruct (IH (CState V1 s1.1 s1.2)) as (l2&V2&s2&d2&E2&R2&P2).
    { intros s' Hs'. apply Hss, elem_of_cons. by right. }
    exists (l1 ++ l2), V2, s2, (d1 ++ d2). split_and!.
    + cbn [pfold]. rewrite E1. cbn [pbind]. by rewrite E2.
    + rewrite run_events_app, R1. cbn [cs_codes cs_field] in R2. destruct s1 as [c1 f1]. cbn [fst snd] in R2. by rewrite R2.
    + cbn [cs_visited] in P2. eapply cpost_iff; [| |exact (cpost_seq pk fn receiver _ _ _ _ _ _ _ _ _ P1 P2)].
      * intros i. setoid_rewrite elem_of_cons. split; [intros [?|(?&?&?)]; eauto|intros (?&[->|?]&?); eauto].
      * intros i. setoid_rewrite elem_of_cons. split; [intros [?|(?&?&?)]; eauto|intros (?&[->|?]&?); eauto].
Qed.

Lemma stmt_ident_spec i : (exists s, own_return fn s /\ stmt_ident s i) <-> result_name fn i \/ exists e, result_expr fn e /\ names_variable pk e i.
Proof.
  split.
  - intros (s&Hs&[(Hk&f&Hf&Hn)|(e&Hk&Hn)]).
    + left. split; [eauto|]. eauto.
    + right. exists e. split; [by exists s|done].
  - intros [[(s&Hs&Hk) (f&Hf&Hn)]|(e&(s&Hs&Hk)&Hn)]; exists s; (split; [done|]); [left|right]; eauto.
Qed.
(** What the analysis of all return statements comes across. *)
Definition method_event (ev : cevent) : Prop :=
  (exists e, code_source pk fn e /\ cexpr_event pk fn receiver e ev) \/
  (exists o d, result_variable pk fn o /\ assigned_several o d /\ ev = VSeveral d) \/
  (exists j, code_ident pk fn j /\ untrackable j /\ ev = VOrigin j).
Lemma method_behaves : exists l V c f ds,
  pfold (analyse_return pk fn receiver) (CState ∅ ∅ None) (match fn_body fn with Some b => code_returns b | None => [] end) = Ok (CState V c f, ds) /\
  run_events (∅, None) l = ((c, f), ds) /\ forall ev, ev ∈ l <-> method_event ev.
Proof.
  set (ss := match fn_body fn with Some b => code_returns b | None => [] end).
  assert (forall s, s ∈ ss <-> own_return fn s) as Hss.
  { intros s. unfold ss, own_return. destruct (fn_body fn) as [b|].
    - rewrite code_returns_spec. split; [intros [? ?]; eauto|]. intros (b'&[= <-]&?). done.
    - split; [by intros ?%elem_of_nil|by intros (?&?&_)]. }
  destruct (returns_behave ss (CState ∅ ∅ None)) as (l&V&[c f]&ds&E&R&P); [by intros s ?%Hss|].
  exists l, V, c, f, ds. split; [exact E|]. split; [exact R|]. clear E R. cbn [cs_visited] in P.
  assert (forall i, (exists s, s ∈ ss /\ stmt_ident s i) <-> result_name fn i \/ exists e, result_expr fn e /\ names_variable pk e i) as Hid.
  { intros i. rewrite <-stmt_ident_spec. by setoid_rewrite Hss. }
  assert (forall o, o ∈ V <-> result_variable pk fn o) as HV.
  { intros o. split.
    - intros Ho. destruct (cp_new _ _ _ _ _ _ _ _ P o Ho) as (i&Hi%Hid&Hc); [set_solver|]. exists i. done.
    - intros (i&Hi%Hid&Hc). induction Hc as [o Ht|o e j o' Hc IH He Hj Ht].
      + induction Ht as [o Hl _|o j o' Ht IH Hav Hl _].
        * by eapply (cp_roots _ _ _ _ _ _ _ _ P i).
        * eapply (cp_var _ _ _ _ _ _ _ _ P o); [done|set_solver|done|done].
      + induction Ht as [o' Hl _|o' j' o'' Ht IH' Hav Hl _].
        * eapply (cp_link _ _ _ _ _ _ _ _ P o); [done|set_solver|done|done|done].
        * eapply (cp_var _ _ _ _ _ _ _ _ P o'); [done|set_solver|done|done]. }
  intros ev. rewrite (cp_events _ _ _ _ _ _ _ _ P). unfold method_event. split.
  - intros [(s&Hs%Hss&[(Hk&fi&i&Hf&Hn&Hu&->)|(e&Hk&He)])|(o&Ho%HV&_&[(e&Hae&He)|[(d&Hd&->)|(j&Hj&Hu&->)]])].
    + right. right. exists i. split; [|done]. left. split; eauto.
    + left. exists e. split; [|done]. left. by exists s.
    + left. exists e. split; [|done]. right. eauto.
    + right. left. eauto.
    + right. right. exists j. split; [|done]. right. right. eauto.
  - intros [(e&[(s&Hs&Hk)|(o&Ho&Hae)]&He)|[(o&d&Ho&Hd&->)|(j&[[(s&Hs&Hk) (fi&Hf&Hn)]|[(e&[(s&Hs&Hk)|(o&Ho&Hae)]&Hj)|(o&Ho&Hav)]]&Hu&->)]].
    + left. exists s. split; [by apply Hss|]. right. eauto.
    + right. exists o. split_and!; [by apply HV|set_solver|]. left. eauto.
    + right. exists o. split_and!; [by apply HV|set_solver|]. right. left. eauto.
    + left. exists s. split; [by apply Hss|]. left. eauto 10.
    + left. exists s. split; [by apply Hss|]. right. exists e. split; [done|]. right. right. right. eauto.
    + right. exists o. split_and!; [by apply HV|set_solver|]. left. exists e. split; [done|]. right. right. right. eauto.
    + right. exists o. split_and!; [by apply HV|set_solver|]. right. right. eauto.
Qed.

Lemma field_pos_names_spec name names i :
  match field_pos_names name names i with
  | inl p => exists q n, p = i + q /\ names !! q = Some n /\ i_name n = name /\ forall k m, k < q -> names !! k = Some m -> i_name m <> name
  | inr p => p = i + length names /\ forall k m, names !! k = Some m -> i_name m <> name
  end.
Proof.
  revert i. induction names as [|n names IH]; intros i; cbn [field_pos_names length]; [by split; [lia|]|].
  case_decide as Hn.
  - exists 0, n. split_and!; [lia|done|done|]. intros k m Hk. lia.
  - specialize (IH (S i)). destruct (field_pos_names name names (S i)) as [p|p].
    + destruct IH as (q&m&->&Hq&Hm&Hf). exists (S q), m. split_and!; [lia|done|done|].
      intros [|k] j Hk Hj; [by injection Hj as <-|]. apply (Hf k); [lia|done].
    + destruct IH as [-> Hf]. split; [lia|]. intros [|k] j Hj; [by injection Hj as <-|]. by apply (Hf k).
Qed.
Lemma field_pos_spec name fields i :
  match field_pos name fields i with
  | Some p => exists q, p = i + q /\ struct_fields fields !! q = Some (Some name) /\ forall k, k < q -> struct_fields fields !! k <> Some (Some name)
  | None => forall k, struct_fields fields !! k <> Some (Some name)
  end.
Proof.
  revert i. induction fields as [|names fields IH]; intros i; cbn [field_pos struct_fields flat_map]; [done|].
  destruct names as [|n names].
  - specialize (IH (S i)). destruct (field_pos name fields (S i)) as [p|].
    + destruct IH as (q&->&Hq&Hf). exists (S q). split_and!; [lia|done|]. intros [|k] Hk; [done|]. apply Hf. lia.
    + intros [|k]; [done|]. apply IH.
  - pose proof (field_pos_names_spec name (n :: names) i) as H. destruct (field_pos_names name (n :: names) i) as [p|p].
    + destruct H as (q&m&->&Hq&Hm&Hf). exists q. split_and!; [done| |].
      * rewrite lookup_app_l by (rewrite map_length; by eapply lookup_lt_Some). rewrite list_lookup_fmap, Hq. cbn. by rewrite Hm.
      * intros k Hk. rewrite lookup_app_l by (rewrite map_length; apply lookup_lt_Some in Hq; lia). rewrite list_lookup_fmap.
        destruct ((n :: names) !! k) as [m'|] eqn:Em; [|done]. cbn. intros [= Hm']. by apply (Hf k m').
    + destruct H as [-> Hf]. specialize (IH (i + length (n :: names))). destruct (field_pos name fields _) as [p|].
      * destruct IH as (q&->&Hq&Hf'). exists (length (n :: names) + q). split_and!; [lia| |].
        -- rewrite lookup_app_r by (rewrite map_length; lia). rewrite map_length. by replace (_ + q - _) with q by lia.
        -- intros k Hk. destruct (decide (k < length (n :: names))) as [Hl|Hl].
           ++ rewrite lookup_app_l by (by rewrite map_length). rewrite list_lookup_fmap.
              destruct ((n :: names) !! k) as [m'|] eqn:Em; [|done]. cbn. intros [= Hm']. by apply (Hf k m').
           ++ rewrite lookup_app_r by (rewrite map_length; lia). rewrite map_length. apply Hf'. lia.
      * intros k. destruct (decide (k < length (n :: names))) as [Hl|Hl].
        -- rewrite lookup_app_l by (by rewrite map_length). rewrite list_lookup_fmap.
           destruct ((n :: names) !! k) as [m'|] eqn:Em; [|done]. cbn. intros [= Hm']. by apply (Hf k m').
        -- rewrite lookup_app_r by (rewrite map_length; lia). rewrite map_length. apply IH.
Qed.
Lemma getFieldPosition_spec ts name :
  match getFieldPosition ts name with Some p => field_position ts name p | None => forall p, ~ field_position ts name p end.
Proof.
  unfold getFieldPosition, field_position. destruct (tsp_type ts) as [fields| |] eqn:Et; [|by intros p (?&?&_)..].
  pose proof (field_pos_spec name fields 0) as H. destruct (field_pos name fields 0) as [p|].
  - destruct H as (q&->&Hq&Hf). exists fields. done.
  - intros p (fields'&[= <-]&Hp&_). by apply (H p).
Qed.

Notation code_source := (code_source pk fn).
(** The analysis of a Code method does not panic.  Its result, and what it reports, are determined by what the method may return:
    the codes are the valid constants; the field is one that is returned, at its position in the struct; all other values, and all
    other fields, are reported. *)
Theorem C25_code_method ts : exists et ds c f,
  analyseCodeMethod pk fn receiver ts = Ok (et, ds) /\
  code_constants pk fn c /\ code_field pk fn receiver f /\
  (match et with
   | Some et => et_codes et = c /\ valid_field ts f (et_field et) /\ (et_field et = None -> c <> ∅)
   | None => c = ∅ /\ valid_field ts f None
   end) /\
  forall d, d ∈ ds <-> code_report pk fn receiver ts f d.
Proof.
  destruct method_behaves as (l&V&c&f&ds&E&R&Hl). destruct (run_events_spec l ∅ None c f ds R) as (Hc&Hf&Hd).
  assert (code_constants pk fn c) as Hcodes.
  { intros x. rewrite Hc. split.
    - intros [?|(Hx&e&v&Hev&Hg)]; [set_solver|]. apply constant_spec in Hg as (->&Hv&Hlen); [|done].
      apply Hl in Hev as [(e'&Hs&[(v'&Hv'&[= -> <-])|[(_&?&_&?)|[(_&_&_&?)|(?&_&_&?)]]])|[(?&?&_&_&?)|(?&_&_&?)]]; try done.
      exists e'. split; [done|]. split_and!; done.
    - intros (e&Hs&Hv&Hx&Hlen). right. assert (x <> []) as Hne by (intros ->; by apply (valid_code_nonempty [])). split; [done|].
      exists e, (CString x). split; [|by apply constant_spec]. apply Hl. left. exists e. split; [done|]. left. eauto. }
  assert (code_field pk fn receiver f) as Hfield.
  { destruct f as [name|].
    - destruct Hf as (e&He%Hl). destruct He as [(e'&Hs&[(v'&Hv'&?)|[(Hn&name'&Hf&[= -> ->])|[(_&_&_&?)|(?&_&_&?)]]])|[(?&?&_&_&?)|(?&_&_&?)]]; try done. unfold code_field. eauto.
    - intros e name Hs Hn Hfr. apply (Hf e name), Hl. left. exists e. split; [done|]. right. left. eauto. }
  assert (forall d, d ∈ ds <-> code_problem pk fn receiver d \/ (exists name, f = Some name /\ second_field pk fn receiver name d)) as Hdiags.
  { intros d. rewrite Hd. split.
    - intros (ev&Hev%Hl&[Hp|(f1&Hf1&e&name&->&Hn&->)]).
      + left. destruct Hev as [(e&Hs&[(v&Hv&->)|[(Hn&name&Hfr&->)|[(Hn&Hno&Hi&->)|(i&Hi&Hu&->)]]])|[(o&d'&Ho&Hd'&->)|(j&Hj&Hu&->)]]; cbn [plain_problem] in Hp.
        * destruct Hp as (msg&Hg&->). eapply cp_constant; [done|done|]. pose proof (constant_event (ti_is_print info) v) as H. rewrite Hg in H.
          destruct H as [[-> ->]|(s&->&[[? ->]|(?&?&?&->)])]; by constructor.
        * done.
        * subst d. by eapply cp_other.
        * subst d. eapply cp_origin; [|done]. right. left. eauto.
        * subst d. by eapply cp_several.
        * subst d. by eapply cp_origin.
      + right. exists f1. split; [done|].
        destruct Hev as [(e'&Hs&[(v'&Hv'&?)|[(Hnc&name'&Hfr&[= -> ->])|[(_&_&_&?)|(?&_&_&?)]]])|[(?&?&_&_&?)|(?&_&_&?)]]; done.
    - intros [H|(f1&Hf1&H)].
      + destruct H as [e v msg Hs Hv Hb|j Hj Hu|o a Ho Ha|e Hs Hn Hno Hi].
        * exists (VConst e v). split; [apply Hl; left; exists e; split; [done|left; eauto]|]. left. cbn [plain_problem]. exists msg. split; [|done].
          pose proof (constant_event (ti_is_print info) v) as H. destruct (getErrorCodeFromConstant _ v) as [x|msg'].
          -- exfalso. destruct H as (s&->&Hlen&->&Hok). inversion Hb; subst; unfold written_length in *; [lia|]. naive_solver.
          -- f_equal. destruct H as [[-> ->]|(s&->&[[? ->]|(?&?&?&->)])]; inversion Hb; subst; unfold written_length in *; done || lia.
        * exists (VOrigin j). split; [apply Hl; right; right; eauto|]. by left.
        * exists (VSeveral a). split; [apply Hl; right; left; eauto|]. by left.
        * exists (VOther e). split; [apply Hl; left; exists e; split; [done|right; right; left; done]|]. by left.
      + destruct H as [e name Hs Hn Hfr Hne]. exists (VField e name). split; [apply Hl; left; exists e; split; [done|right; left; eauto]|].
        right. exists f1. split; [done|]. exists e, name. done. }
  clear Hc Hf Hd Hl R.
  assert (forall d, code_report pk fn receiver ts f d <-> d ∈ ds \/ exists name, f = Some name /\ (forall p, ~ field_position ts name p) /\
      d = Diag (fn_pos fn) (str "returned field " ++ quoted name
          ++ str " is not a valid error code field (promoted fields are not supported currently, but might be added in the future)")) as Hrep.
  { intros d. rewrite Hdiags. split.
    - intros [H|name H1 H2|name H1 H2 H3]; [by left; left|left; right; eauto|right; eauto].
    - intros [[?|(?&?&?)]|(?&?&?&?)]; [by apply cr_problem|by eapply cr_second|by eapply cr_promoted]. }
  unfold analyseCodeMethod. rewrite E. cbn [pbind cs_field cs_codes].
  destruct f as [name|].
  - pose proof (getFieldPosition_spec ts name) as Hpos. destruct (getFieldPosition ts name) as [p|].
    + eexists _, _, c, (Some name). split; [reflexivity|]. split; [done|]. split; [done|]. split; [done|].
      intros d. rewrite !app_nil_r, Hrep. split; [by left|].
      intros [?|(name'&[= <-]&Hno&_)]; [done|]. by destruct (Hno p).
    + assert (forall d, d ∈ ds ++ [Diag (fn_pos fn) (str "returned field " ++ quoted name
                  ++ str " is not a valid error code field (promoted fields are not supported currently, but might be added in the future)")] <->
        code_report pk fn receiver ts (Some name) d) as Hdd.
      { intros d. rewrite elem_of_app, elem_of_list_singleton, Hrep. split.
        - intros [?| ->]; [by left|right; eauto].
        - intros [?|(name'&[= <-]&_&->)]; [by left|by right]. }
      destruct (decide (c = ∅)) as [Hce|Hce].
      * exists None. eexists. exists c, (Some name). split; [cbn [pbind ptell pret]; reflexivity|]. split; [done|]. split; [done|]. split.
        -- split; [done|]. intros name' p [= <-]. apply Hpos.
        -- intros d. cbn [app]. rewrite ?app_nil_r. apply Hdd.
      * eexists (Some (ErrorType c None)), _, c, (Some name). split; [cbn [pbind ptell pret]; reflexivity|]. split; [done|]. split; [done|]. split.
        -- split; [done|]. split; [|done]. intros name' p [= <-]. apply Hpos.
        -- intros d. cbn [app]. rewrite ?app_nil_r. apply Hdd.
  - destruct (decide (c = ∅)) as [Hce|Hce].
    + exists None. eexists. exists c, None. split; [cbn [pbind pret]; reflexivity|]. split; [done|]. split; [done|]. split; [done|].
      intros d. cbn [app]. rewrite ?app_nil_r, Hrep. naive_solver.
    + eexists (Some (ErrorType c None)), _, c, None. split; [cbn [pbind pret]; reflexivity|]. split; [done|]. split; [done|]. split; [done|].
      intros d. cbn [app]. rewrite ?app_nil_r, Hrep. naive_solver.
Qed.
End code.
