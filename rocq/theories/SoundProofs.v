(** * Proofs: what variables hold while a function is executed about which the analyzer has nothing to report. *)
From Coq Require Import Ascii String.
From stdpp Require Import base list gmap.
From Verif Require Import GoString ErrorCode ErrorCodeProofs Scc CodeSet Annotation Constant GoAst Taint Extract Analyse
  SpecCodes SpecTaint TaintProofs SpecMay SpecProgram SpecEvents SpecExec SpecSound VocabularyProofs PropAnalyse ExecProofs.

Scheme reached_only := Minimality for reached Sort Prop.

(** The analyzer has nothing to report about the function. *)
Definition clean (pk : package) (lk : lookup_table) (fa : facts) (fn : func) : Prop := forall ev, ~ function_event pk lk fa fn ev.

Section variables.
Context (pk : package) (fn : func).

Lemma literal_param_dec o : literal_param pk fn o \/ ~ literal_param pk fn o.
Proof.
  set (P n := exists f lit, as_funclit n = Some f /\ pk_funcs pk !! f = Some lit /\ has_parameter lit o).
  assert (forall n, {P n} + {~ P n}) as Hdec.
  { intros n. unfold P. destruct (as_funclit n) as [f|] eqn:Ef; [|right; by intros (?&?&?&_)].
    destruct (pk_funcs pk !! f) as [lit|] eqn:El; [|right; intros (?&?&[= ->]&?&_); congruence].
    destruct (decide (o ∈ param_objs (fn_type lit))) as [Ho|Ho]; rewrite param_objs_spec in Ho; [left; by exists f, lit|right].
    intros (f'&lit'&[= <-]&Hl&Hin). congruence. }
  destruct (List.Exists_dec P (body_nodes fn) Hdec) as [He|Hn].
  - left. apply List.Exists_exists in He as (n&Hn&f&lit&?&?&?). exists n, f, lit. split_and!; try done. by apply elem_of_list_In.
  - right. intros (n&f&lit&Hin&?&?&?). apply Hn, List.Exists_exists. exists n. split; [by apply elem_of_list_In|by exists f, lit].
Qed.
Lemma untrackable_dec param i : untrackable pk fn param i \/ ~ untrackable pk fn param i.
Proof.
  unfold untrackable, is_param.
  assert ((exists p, param = Some p /\ i_obj i = Some p) \/ ~ (exists p, param = Some p /\ i_obj i = Some p)) as [H|H].
  { destruct param as [p|]; [|right; by intros (?&?&_)]. destruct (decide (i_obj i = Some p)) as [E|E]; [left; by exists p|right; by intros (?&[= <-]&?)]. }
  { right. tauto. }
  destruct (i_obj i) as [o|] eqn:Eo.
  - destruct (literal_param_dec o) as [Hl|Hl]; [left; split; [done|left; by exists o]|].
    destruct (decide (i_name i = str "nil")) as [Hn|Hn].
    { right. intros [_ [(o'&[= <-]&?)|[? _]]]; done. }
    assert (declared_inside pk fn o \/ ~ declared_inside pk fn o) as [Hd|Hd].
    { unfold declared_inside. lia. }
    + right. intros [_ [(o'&[= <-]&?)|[_ Hd']]]; [done|]. by apply (Hd' o).
    + left. split; [done|]. right. split; [done|]. by intros ? [= <-].
  - destruct (decide (i_name i = str "nil")) as [Hn|Hn].
    + right. intros [_ [(o'&?&_)|[? _]]]; done.
    + left. split; [done|]. right. by split.
Qed.
Lemma local_spec param i o : local pk fn param i o ->
  i_obj i = Some o /\ (param = Some o \/ (declared_inside pk fn o /\ ~ literal_param pk fn o)).
Proof.
  intros (Ho&Hna&Hn). split; [done|].
  destruct (decide (param = Some o)) as [->|Hp]; [by left|right]. unfold untrackable in Hn.
  assert (~ is_param param i) as Hip. { intros (p&?&?). congruence. }
  split.
  - unfold declared_inside. destruct (decide (inside_from fn < ob_pos (obj_of pk o) < fn_body_end fn)%N); [done|].
    destruct Hn. split; [done|]. right. split; [done|]. intros o' ?. replace o' with o by congruence. done.
  - intros Hl. apply Hn. split; [done|]. left. by exists o.
Qed.
Lemma tracked_spec param V i o : tracked pk fn param V i o -> param = Some o \/ (declared_inside pk fn o /\ ~ literal_param pk fn o).
Proof. intros [o' Hl _|o' j o'' _ _ Hl _]; by destruct (local_spec _ _ _ Hl). Qed.
Lemma tracked_inside i o : tracked pk fn None ∅ i o -> declared_inside pk fn o /\ ~ literal_param pk fn o.
Proof. intros H. by destruct (tracked_spec _ _ _ _ H). Qed.
Lemma expr_var_tracked e o : expr_var pk fn e o -> exists i, tracked pk fn None ∅ i o.
Proof. intros [i o' _ H|o' e' i o'' _ _ _ H]; eauto. Qed.
Lemma error_var_inside o : error_var pk fn o -> declared_inside pk fn o /\ ~ literal_param pk fn o.
Proof. intros (?&?&_&_&_&He). destruct (expr_var_tracked _ _ He) as [i Hi]. by apply (tracked_inside i). Qed.

(** ** Assignments *)
Context (fa : facts) (lk : lookup_table) (ext : behaviour).
Hypothesis Hrs : resolved pk lk fa fn.
Notation info := (pk_info pk).

Lemma as_ident_node i : as_ident (unparen (ident_node i)) = Some i.
Proof. by destruct i. Qed.
Lemma names_mentions n o : n ∈ body_nodes fn -> names_var n o -> exists i, as_ident (unparen n) = Some i /\ i_obj i = Some o /\ mentions fn i.
Proof. intros Hn (i&Hi&Ho). exists i. split_and!; try done. apply (me_body _ _ (unparen n)); [by apply body_unparen|done]. Qed.
Lemma writes_assigned lhs rhs k l o r : writes pk fn lhs rhs -> length lhs = length rhs -> lhs !! k = Some l -> names_var l o -> rhs !! k = Some r ->
  assigned pk fn o r.
Proof.
  intros [n ls rs Hn Ha _|id names t values Hn Hne] Hlen Hl (i&Hi&Ho) Hr.
  - by apply (assigned_stmt pk fn o n ls rs k l r i).
  - rewrite fmap_length in Hlen. rewrite list_lookup_fmap in Hl. destruct (names !! k) as [i'|] eqn:Ek; [|done]. injection Hl as <-.
    rewrite as_ident_node in Hi. injection Hi as ->. destruct (rs_declared _ _ _ _ Hrs id names t values k i o) as [Hd Hf]; try done.
    by apply (assigned_init pk fn o names values k i r).
Qed.
Lemma writes_several lhs rhs k l o r : writes pk fn lhs rhs -> length lhs <> length rhs -> lhs !! k = Some l -> names_var l o -> rhs !! 0 = Some r ->
  exists i, assigned_several pk fn o (Destruct k i r).
Proof.
  intros [n ls rs Hn Ha _|id names t values Hn Hne] Hlen Hl (i&Hi&Ho) Hr.
  - exists i. by apply (several_stmt pk fn o n ls rs k l r i).
  - rewrite fmap_length in Hlen. rewrite list_lookup_fmap in Hl. destruct (names !! k) as [i'|] eqn:Ek; [|done]. injection Hl as <-.
    rewrite as_ident_node in Hi. injection Hi as ->. destruct (rs_declared _ _ _ _ Hrs id names t values k i o) as [Hd Hf]; try done.
    exists i. by apply (several_init pk fn o names values k i r).
Qed.

(** What an assignment does to the variables. *)
Lemma store_effect en0 l v en h en' h' o : store pk fa fn en0 l v en h en' h' ->
  en' o = en o \/ (names_var l o /\ (en' o = v \/ exists a, en' o = VErr a)).
Proof.
  intros [i p Hi Ho _|i p b cl h1 v' Hi Ho _ _ _ Hm|i p b cl a| |x i p a cl s| | | |]; try (by left).
  - destruct (decide (o = p)) as [->|Hn]; [right|left; by apply set_other]. split; [by exists i|left; by rewrite set_same].
  - destruct (decide (o = p)) as [->|Hn]; [right|left; by apply set_other]. split; [by exists i|right]. rewrite set_same.
    destruct Hm as [a _]. by exists a.
Qed.
Lemma stores_effect en0 lhs vs en h en' h' o : stores pk fa fn en0 lhs vs en h en' h' ->
  en' o = en o \/ exists k l v, lhs !! k = Some l /\ vs !! k = Some v /\ names_var l o /\ (en' o = v \/ exists a, en' o = VErr a).
Proof.
  induction 1 as [vs en h|l ls v vs en h en1 h1 en2 h2 Hs Hss IH]; [by left|].
  destruct IH as [IH|(k&l'&w&Hl&Hw&Hn&He)].
  - destruct (store_effect _ _ _ _ _ _ _ o Hs) as [H|[H1 H2]]; [left; congruence|right]. exists 0, l, v. rewrite IH. done.
  - right. exists (S k), l', w. done.
Qed.
Lemma evals_lookup en h es h' vs k v : evals pk lk fa ext fn en h es h' vs -> vs !! k = Some v ->
  exists e h1 h2, es !! k = Some e /\ eval pk lk fa ext fn en h1 e h2 v.
Proof.
  revert h vs k. induction es as [|e es IH]; intros h vs k Hev Hv; inversion Hev; subst; [by rewrite lookup_nil in Hv|].
  destruct k as [|k]; [injection Hv as <-; eauto|]. destruct (IH _ _ k ltac:(eassumption) Hv) as (e'&h3&h4&?&?). exists e', h3, h4. done.
Qed.
End variables.

Section codes.
Context (pk : package) (lk : lookup_table) (fa : facts) (ext : behaviour) (fn : func).
Hypothesis Hdi : disciplined pk fa fn.
Hypothesis Hrs : resolved pk lk fa fn.
Hypothesis Hcl : clean pk lk fa fn.
Notation info := (pk_info pk).

(** ** The code parameter of a constructor *)

(** What the code parameter, and the variables it is assigned, may contain: what is passed, or a constant that is assigned. *)
Definition passed_code (vals : list value) (s : gostring) : Prop := exists p, code_parameter pk fa fn p /\ vals !! p = Some (VStr s).
Definition assigned_code (s : gostring) : Prop :=
  exists i o e, constructor_param pk fa fn i /\ tracked pk fn (i_obj i) ∅ i o /\ assigned_expr pk fn o e /\ constant_code pk e s.
Definition code_ok (vals : list value) (s : gostring) : Prop := s = [] \/ passed_code vals s \/ assigned_code s.
Definition codes_inv (vals : list value) (en : env) : Prop :=
  forall i o s, constructor_param pk fa fn i -> tracked pk fn (i_obj i) ∅ i o -> en o = VStr s -> code_ok vals s.

Lemma constant_ok e s : ti_value info (node_id e) = Some (CString s) -> (forall ev, ~ string_event pk fa fn e ev) -> s = [] \/ constant_code pk e s.
Proof.
  intros Hv Hn. destruct (decide (s = [])) as [|Hs]; [by left|right].
  assert (written_length pk s <= 70) as Hl.
  { destruct (decide (70 < written_length pk s)); [|lia]. exfalso. by eapply Hn, se_too_long. }
  destruct (valid_code_dec s) as [Hc|Hc].
  - split_and!; try done. by rewrite <-(written_valid pk s Hc).
  - exfalso. by eapply Hn, se_invalid.
Qed.
Lemma code_parameter_dec p : code_parameter pk fa fn p \/ ~ code_parameter pk fa fn p.
Proof. rewrite <-constructor_fact_spec. destruct (importErrorConstructorFact pk fa fn) as [q|]; [destruct (decide (q = p)) as [->|]|]; [by left|right; congruence|by right]. Qed.
Lemma param_tracked i o : constructor_param pk fa fn i -> i_obj i = Some o -> tracked pk fn (i_obj i) ∅ i o.
Proof.
  intros Hi Ho. apply tracked_start; [|set_solver]. split_and!; [done| |].
  - intros Hn. assert (i_obj i = None) as H; [|congruence]. apply (di_nil _ _ _ Hdi); [|done]. right. destruct Hi as (p&_&Hp). eauto.
  - intros [Hp _]. apply Hp. exists o. done.
Qed.
(** A string used as code. *)
Lemma string_ok vals en e s : codes_inv vals en -> (forall ev, ~ string_event pk fa fn e ev) -> string_val pk en e s ->
  constant_code pk e s \/ code_ok vals s.
Proof.
  intros Hinv Hn [s' Hv|i o s' Hv Hi Ho He|s' Hv Hi].
  - destruct (constant_ok e s' Hv Hn) as [->|Hc]; [right; by left|by left].
  - right. destruct (getParamPosition (fn_type fn) i) as [p|] eqn:Ep.
    + apply getParamPosition_spec in Ep. destruct (code_parameter_dec p) as [Hp|Hp].
      * destruct Ep as (o'&j&Ho'&Hj&Hjo&_). assert (o' = o) as -> by congruence.
        assert (constructor_param pk fa fn j) as Hcp by (by exists p). apply (Hinv j o); [done|by apply param_tracked|done].
      * exfalso. by eapply Hn, se_parameter.
    + exfalso. eapply Hn, se_dynamic; [done|]. intros i' p Hi'. replace i' with i by congruence. intros Hp%getParamPosition_spec. congruence.
  - exfalso. eapply Hn, se_dynamic; [done|]. intros i p Hi' (o&_&Ho&_). by apply (Hi i o).
Qed.

(** No event for the constants assigned to the code parameter. *)
Lemma assigned_string i o e ev : constructor_param pk fa fn i -> tracked pk fn (i_obj i) ∅ i o -> assigned_expr pk fn o e ->
  ~ string_event pk fa fn e ev.
Proof. intros Hi Ho He Hs. apply (Hcl ev), fu_constructor. by apply (co_value _ _ _ i o e). Qed.

Lemma assigned_cases o r : r ∈ body_nodes fn -> assigned pk fn o r ->
  (exists j, as_ident (unparen r) = Some j /\ is_variable pk j /\ mentions fn j /\ assigned_var pk fn o j) \/
  ((forall j, as_ident (unparen r) = Some j -> ~ is_variable pk j) /\ assigned_expr pk fn o (unparen r)).
Proof.
  intros Hb Ha. assert ((exists j, as_ident (unparen r) = Some j /\ is_variable pk j) \/ forall j, as_ident (unparen r) = Some j -> ~ is_variable pk j) as [(j&Hj&Hv)|Hn].
  { destruct (as_ident (unparen r)) as [j|]; [|by right]. unfold is_variable. destruct (i_obj j) as [p|] eqn:Ep; [|right; by intros ? [= <-] (?&?&_); congruence].
    destruct (ob_is_var (obj_of pk p)) eqn:Eb; [left; by exists j; split; [done|exists p]|]. right. intros ? [= <-] (?&?&?). congruence. }
  - left. exists j. split_and!; [done|done| |by exists r]. apply (me_body _ _ (unparen r)); [by apply body_unparen|done].
  - right. split; [done|]. exists r. done.
Qed.

Lemma codes_value vals en h r h' o i s : codes_inv vals en -> constructor_param pk fa fn i -> tracked pk fn (i_obj i) ∅ i o ->
  r ∈ body_nodes fn -> assigned pk fn o r -> eval pk lk fa ext fn en h r h' (VStr s) -> code_ok vals s.
Proof.
  intros Hinv Hi Ho Hb Ha Hev. destruct (assigned_cases o r Hb Ha) as [(j&Hj&Hv&Hm&Hav)|[Hnv Hae]].
  - destruct Hv as (p&Hp&Hpv).
    assert (tracked pk fn (i_obj i) ∅ i p) as Htp.
    { apply (tracked_step _ _ _ _ _ o j); [done|done| |set_solver]. split_and!; [done| |].
      - intros Hn. rewrite (di_nil _ _ _ Hdi j) in Hp; [done|by left|done].
      - intros Hu. eapply Hcl, fu_constructor, (co_origin _ _ _ i j); [done|]. split; [done|]. right. by exists o. }
    assert (ti_value info (node_id r) = None) as Htv.
    { rewrite (rs_parens _ _ _ _ Hrs r Hb). replace (node_id (unparen r)) with (i_id j).
      - apply (rs_variable _ _ _ _ Hrs); [done|by exists p].
      - destruct (unparen r) as [id k kids]. destruct k; try done. by injection Hj as <-. }
    destruct (ident_form pk fa _ _ Hj) as (Hca&Hse&Hfu&Hcr&Hop&Hun).
    assert (forall i' o', names_value pk (unparen r) i' o' -> o' = p) as Hnv. { intros i' o' (?&?&_). congruence. }
    inversion Hev; subst; try congruence; try done; try (match goal with H : made _ _ _ _ |- _ => inversion H end).
    + match goal with H : names_value _ _ _ _ |- _ => apply Hnv in H; subst end. by apply (Hinv i p).
    + match goal with H : string_val _ _ _ _ |- _ => destruct H as [s' H|i' o' s' H Hi' Ho' He'|s' H Hi'] end; [congruence| |].
      * apply (Hinv i p); [done|done|]. congruence.
      * by destruct (Hi' j p).
    + match goal with H : _ \/ _ |- _ => destruct H as [?|(?&?&?&?)] end; congruence.
  - pose proof (fun ev => assigned_string i o (unparen r) ev Hi Ho Hae) as Hns.
    assert (forall P : Prop, ti_value info (node_id r) = None -> (forall i' o', as_ident (unparen r) = Some i' -> i_obj i' <> Some o') -> P) as Hdyn.
    { intros P Hv Hno. exfalso. eapply Hns, se_dynamic; [by rewrite <-(rs_parens _ _ _ _ Hrs r Hb)|].
      intros i' p Hi' (o'&_&Ho'&_). rewrite unparen_idem in Hi'. by apply (Hno i' o'). }
    assert (forall i', as_call (unparen r) <> None -> as_ident (unparen r) <> Some i') as Hcall.
    { intros i' Hc Hi'. destruct (ident_form pk fa _ _ Hi') as (Hca&_). done. }
    inversion Hev; subst; try congruence; try (match goal with H : made _ _ _ _ |- _ => inversion H end).
    + match goal with H : _ -> exists a, _ |- _ => rename H into Hk end. match goal with H : names_value _ _ _ _ |- _ => destruct H as (Hi'&Ho'&_) end.
      destruct (ob_is_var (obj_of pk o0)) eqn:Ev; [|destruct (Hk eq_refl); congruence]. destruct (Hnv i0 Hi'). by exists o0.
    + apply Hdyn; [done|]. intros i' o' Hi'. destruct (ident_form pk fa _ _ Hi') as (_&_&_&_&_&Hun). exfalso. eapply Hun; eassumption.
    + destruct (string_ok vals en (unparen r) s Hinv Hns) as [Hc|Hok]; [|right; right; by exists i, o, (unparen r)|done].
      match goal with H : string_val _ _ _ _ |- _ => destruct H as [s' H|i' o' s' H Hi' Ho' He'|s' H Hi'] end.
      * apply sv_const. by rewrite <-(rs_parens _ _ _ _ Hrs r Hb).
      * apply (sv_var _ _ _ i' o'); [by rewrite <-(rs_parens _ _ _ _ Hrs r Hb)|by rewrite unparen_idem|done|done].
      * apply sv_unknown; [by rewrite <-(rs_parens _ _ _ _ Hrs r Hb)|]. by rewrite unparen_idem.
    + apply Hdyn; [done|]. intros i' o' Hi'. match goal with H : _ \/ _ |- _ => destruct H as [H|(?&?&?&?)] end; [|congruence].
      destruct (ident_form pk fa _ _ Hi') as (_&?&_). done.
    + apply Hdyn; [done|]. intros i' o' Hi'. by destruct (ident_form pk fa _ _ Hi') as (_&_&_&_&?&_).
    + apply Hdyn; [done|]. intros i' o' Hi'. destruct (Hcall i'); congruence.
    + apply Hdyn; [done|]. intros i' o' Hi'. destruct (Hcall i'); congruence.
    + apply Hdyn; [done|]. intros i' o' Hi'. destruct (Hcall i'); congruence.
    + apply Hdyn; [done|]. intros i' o' Hi'. destruct (Hcall i'); congruence.
    + apply Hdyn; [done|]. intros i' o' Hi'. destruct (Hcall i'); congruence.
Qed.

Lemma codes_reached fn' h0 vals en h : reached pk lk fa ext fn' h0 vals en h -> fn' = fn -> codes_inv vals en.
Proof.
  revert fn' h0 vals en h. apply (reached_only pk lk fa ext (fun fn' h0 vals en h => fn' = fn -> codes_inv vals en)).
  - intros fn' h0 vals en (_&Hs&Hp) -> i o s Hi Ho Hv. destruct (tracked_spec _ _ _ _ _ _ Ho) as [E|[Hin Hlp]].
    + right. left. destruct Hi as (p&Hc&Hpi). exists p. split; [done|]. rewrite <-Hv. by apply (Hp p i).
    + rewrite (Hs o Hin Hlp) in Hv. done.
  - intros fn' h0 vals en h lhs rhs h1 vs en' h' _ IH Hw Hlen Hev Hst -> i o s Hi Ho Hv. specialize (IH eq_refl).
    destruct (stores_effect _ _ _ _ _ _ _ _ _ _ o Hst) as [E|(k&l&v&Hl&Hvk&Hn&[E|[a E]])]; [rewrite E in Hv; by apply (IH i o)| |congruence].
    destruct (evals_lookup _ _ _ _ _ _ _ _ _ _ k v Hev Hvk) as (r&h2&h3&Hr&He). rewrite <-E, Hv in He.
    apply (codes_value vals en h2 r h3 o i s); try done.
    + apply (writes_rhs pk fn lhs rhs); [done|by eapply elem_of_list_lookup_2].
    + by apply (writes_assigned pk fn fa lk Hrs lhs rhs k l).
  - intros fn' h0 vals en h lhs rhs r h1 vs en' h' _ IH Hw Hlen Hr _ Hst -> i o s Hi Ho Hv. specialize (IH eq_refl).
    destruct (stores_effect _ _ _ _ _ _ _ _ _ _ o Hst) as [E|(k&l&v&Hl&Hvk&Hn&_)]; [rewrite E in Hv; by apply (IH i o)|].
    exfalso. destruct (writes_several pk fn fa lk Hrs lhs rhs k l o r Hw Hlen Hl Hn Hr) as [i' Hs].
    eapply Hcl, fu_constructor. by apply (co_several _ _ _ i o (Destruct k i' r)).
  - intros fn' h0 vals en h lhs h1 vs en' h' _ IH Hw _ _ Hst -> i o s Hi Ho Hv. specialize (IH eq_refl).
    destruct (stores_effect _ _ _ _ _ _ _ _ _ _ o Hst) as [E|(k&l&v&Hl&Hvk&Hn&_)]; [rewrite E in Hv; by apply (IH i o)|].
    exfalso. apply (di_open _ _ _ Hdi lhs l o); [done|by eapply elem_of_list_lookup_2|done|]. by apply (fo_code _ _ _ _ i).
  - intros fn' h0 vals en h o' et h' v _ IH _ Hm -> i o s Hi Ho Hv. specialize (IH eq_refl).
    destruct (decide (o = o')) as [->|Hn]; [|rewrite set_other in Hv by done; by apply (IH i o)].
    rewrite set_same in Hv. subst v. inversion Hm.
  - intros fn' h0 vals en h o' h' v _ IH Hout _ -> i o s Hi Ho Hv. specialize (IH eq_refl).
    destruct (decide (o = o')) as [->|Hn]; [|rewrite set_other in Hv by done; by apply (IH i o)].
    exfalso. destruct (tracked_spec _ _ _ _ _ _ Ho) as [E|[Hin Hlp]].
    + destruct Hout as [Hl|[[_ Hp]|He]]; [by apply (rs_param _ _ _ _ Hrs i o')| |].
      * destruct Hi as (p&_&Hpi). by apply (Hp p i).
      * destruct (di_exposed _ _ _ Hdi o' He) as [Hf _]. by apply Hf, (fo_code _ _ _ _ i).
    + destruct Hout as [?|[[? _]|He]]; [done|done|].
      destruct (di_exposed _ _ _ Hdi o' He) as [Hf _]. by apply Hf, (fo_code _ _ _ _ i).
  - intros fn' h0 vals en h o stmt e h' v _ _ Hd Hna _ _ _ ->. by destruct (di_defer _ _ _ Hdi o Hd).
  - intros fn' h0 vals en h e h' v _ IH _ _ ->. by apply IH.
  - intros fn' h0 vals en h a cl s _ IH _ _ ->. by apply IH.
Qed.

(** ** Variables of function type *)
Definition quiet (e : node) : Prop := forall ev, ~ expr_event pk lk fa fn e ev.
Lemma returned_quiet stmt e : stmt ∈ return_stmts fn -> ~ overwritten pk stmt -> returned fn stmt e -> quiet e.
Proof. intros Hs Ho Hr ev Hev. apply (Hcl ev), (fu_return _ _ _ _ stmt); [done|]. by apply (re_expr _ _ _ _ _ e). Qed.
Lemma linked_quiet o e : error_var pk fn o -> linked pk fn o e -> quiet e.
Proof. intros Ho Hl ev Hev. apply (Hcl ev), (fu_variable _ _ _ _ o); [done|]. by apply (va_expr _ _ _ _ _ e). Qed.
Lemma several_quiet o d ev : error_var pk fn o -> assigned_several pk fn o d -> (forall id t x, unparen (de_source d) <> Node id (KTypeAssert t) [x]) ->
  ~ several_event pk lk fa fn d ev.
Proof. intros Ho Hd Hn Hev. apply (Hcl ev), (fu_variable _ _ _ _ o); [done|]. by apply (va_several _ _ _ _ _ d). Qed.
Lemma quiet_call e f args ev : quiet e -> as_call (unparen e) = Some (f, args) -> ~ call_event pk lk fa fn (unparen e) f args ev.
Proof.
  intros Hq Hc Hev. destruct (call_form pk fa _ _ _ Hc) as (Hi&Hs&_&_&_&Hu&_). apply (Hq ev), xe_source.
  - intros i Hr. destruct Hr as [e' i Hr|e' x i [id [Hr _]]|e' x i Hr]; [congruence|by apply (Hu id true x)|congruence].
  - by apply (so_call _ _ _ _ _ f args).
Qed.
Lemma error_call_quiet f : error_call pk fn f -> exists e args, as_call (unparen e) = Some (f, args) /\ forall ev, ~ call_event pk lk fa fn (unparen e) f args ev.
Proof.
  intros (e&args&Hc&H). exists e, args. split; [done|]. destruct H as [(s&Hs&Hov&Hr)|[(o&Ho&Hl)|(o&d&ps&rs&v&Ho&Hd&->&Ht&Hp)]]; intros ev.
  - apply quiet_call; [|done]. by apply (returned_quiet s).
  - apply quiet_call; [|done]. by apply (linked_quiet o).
  - intros Hev. apply (several_quiet o d ev Ho Hd).
    + intros id t x. by destruct (call_form pk fa _ _ _ Hc) as (_&_&_&_&_&_&_&_&?).
    + by apply (de_last _ _ _ _ _ f args ps rs v).
Qed.

(** The variable [o] has the function that the expression denotes, which is assigned somewhere; or no function. *)
Definition function_ok (i : ident) (v : value) : Prop :=
  v <> VOther /\ forall e, v = VFun e -> names_function pk e /\ function_use pk fn e /\ exists o, tracked pk fn None ∅ i o /\ assigned_expr pk fn o e.
Definition functions_inv (en : env) : Prop :=
  forall f i o, error_call pk fn f -> plain_call pk fa f -> function_variable pk (unparen f) i -> tracked pk fn None ∅ i o -> function_ok i (en o).

Lemma variable_call_quiet f i ev : error_call pk fn f -> plain_call pk fa f -> function_variable pk (unparen f) i -> ~ variable_call_event pk lk fa fn i ev.
Proof. intros Hc [Hp1 Hp2] Hi Hev. destruct (error_call_quiet f Hc) as (e&args&_&H). apply (H ev). by apply (ce_variable _ _ _ _ _ _ _ i). Qed.
Lemma function_ok_err i a : function_ok i (VErr a).
Proof. by split. Qed.

Lemma functions_value en h r h' v i o lhs rhs : functions_inv en ->
  (exists f, error_call pk fn f /\ plain_call pk fa f /\ function_variable pk (unparen f) i) -> tracked pk fn None ∅ i o ->
  writes pk fn lhs rhs -> r ∈ rhs -> assigned pk fn o r -> eval pk lk fa ext fn en h r h' v -> function_ok i v.
Proof.
  intros Hinv (f&Hf&Hp&Hi) Ho Hw Hr Ha Hev. pose proof (writes_rhs _ _ _ _ _ Hw Hr) as Hb.
  pose proof (fun ev => variable_call_quiet f i ev Hf Hp Hi) as Hq.
  destruct (assigned_cases o r Hb Ha) as [(j&Hj&Hv&Hm&Hav)|[Hnv Hae]].
  - destruct Hv as (p&Hpo&Hpv).
    assert (tracked pk fn None ∅ i p) as Htp.
    { apply (tracked_step _ _ _ _ _ o j); [done|done| |set_solver]. split_and!; [done| |].
      - intros Hn. rewrite (di_nil _ _ _ Hdi j) in Hpo; [done|by left|done].
      - intros Hu. eapply Hq, (la_origin _ _ _ _ _ j). split; [done|]. right. by exists o. }
    destruct (ident_form pk fa _ _ Hj) as (Hca&Hse&Hfu&Hcr&Hop&Hun).
    assert (forall i' o', names_value pk (unparen r) i' o' -> o' = p) as Hnv. { intros i' o' (?&?&_). congruence. }
    inversion Hev; subst; try congruence; try done; try (match goal with H : made _ _ _ _ |- _ => destruct H; apply function_ok_err end);
      try (match goal with H : unparen r = Node _ _ _ |- _ => exfalso; exact (Hun _ _ _ H) end).
    + match goal with H : names_value _ _ _ _ |- _ => apply Hnv in H; subst end. by apply (Hinv f i p).
    + exfalso. match goal with H : names_function _ _ |- _ => destruct H as [[g H]|[H|(i'&Hi'&H)]] end; try congruence.
      destruct (H p) as [? _]; congruence.
    + match goal with H : _ \/ _ |- _ => destruct H as [?|(?&?&?&?)] end; congruence.
  - assert (forall P : Prop, ~ is_name (unparen r) -> as_funclit (unparen r) = None -> P) as Hun.
    { intros P H1 H2. exfalso. eapply Hq, (la_value _ _ _ _ _ o (unparen r)); [done|done|]. rewrite unparen_idem. by apply fe_unsupported. }
    inversion Hev; subst; try (match goal with H : made _ _ _ _ |- _ => destruct H; apply function_ok_err end); try (by split).
    + match goal with H : _ -> exists a, _ |- _ => rename H into Hk end. match goal with H : names_value _ _ _ _ |- _ => destruct H as (Hi'&Ho'&_) end.
      destruct (ob_is_var (obj_of pk o0)) eqn:Ev; [destruct (Hnv i0 Hi'); by exists o0|]. destruct (Hk eq_refl) as [a ->]. apply function_ok_err.
    + apply Hun; match goal with H : unparen r = Node _ _ _ |- _ => rewrite H end; [|done]. by intros [?|?].
    + split; [done|]. intros e [= <-]. split_and!; [done|by apply (fu_assigned pk fn lhs rhs)|by exists o].
    + match goal with H : no_function _ |- _ => destruct v; try done end.
    + match goal with H : opaque _ _ _ |- _ => destruct (opaque_form _ _ _ H) as (?&_&?&?) end. apply Hun; [|done]. by intros [?|?].
    + match goal with H : as_call _ = Some _ |- _ => destruct (call_form pk fa _ _ _ H) as (Hc1&Hc2&Hc3&_) end. apply Hun; [|done]. by intros [?|?].
    + match goal with H : as_call _ = Some _ |- _ => destruct (call_form pk fa _ _ _ H) as (Hc1&Hc2&Hc3&_) end. apply Hun; [|done]. by intros [?|?].
    + match goal with H : as_call _ = Some _ |- _ => destruct (call_form pk fa _ _ _ H) as (Hc1&Hc2&Hc3&_) end. apply Hun; [|done]. by intros [?|?].
    + match goal with H : as_call _ = Some _ |- _ => destruct (call_form pk fa _ _ _ H) as (Hc1&Hc2&Hc3&_) end. apply Hun; [|done]. by intros [?|?].
    + match goal with H : as_call _ = Some _ |- _ => destruct (call_form pk fa _ _ _ H) as (Hc1&Hc2&Hc3&_) end. apply Hun; [|done]. by intros [?|?].
Qed.

Lemma functions_reached fn' h0 vals en h : reached pk lk fa ext fn' h0 vals en h -> fn' = fn -> functions_inv en.
Proof.
  revert fn' h0 vals en h. apply (reached_only pk lk fa ext (fun fn' h0 vals en h => fn' = fn -> functions_inv en)).
  - intros fn' h0 vals en (_&Hs&_) -> f i o _ _ _ Ho. destruct (tracked_inside _ _ _ _ Ho) as [H1 H2]. by rewrite (Hs o H1 H2).
  - intros fn' h0 vals en h lhs rhs h1 vs en' h' _ IH Hw Hlen Hev Hst -> f i o Hf Hp Hi Ho. specialize (IH eq_refl).
    destruct (stores_effect _ _ _ _ _ _ _ _ _ _ o Hst) as [->|(k&l&v&Hl&Hvk&Hn&[->|[a ->]])]; [by apply (IH f i o)| |apply function_ok_err].
    destruct (evals_lookup _ _ _ _ _ _ _ _ _ _ k v Hev Hvk) as (r&h2&h3&Hr&He).
    apply (functions_value en h2 r h3 v i o lhs rhs); try done; [by exists f|by eapply elem_of_list_lookup_2|].
    by apply (writes_assigned pk fn fa lk Hrs lhs rhs k l).
  - intros fn' h0 vals en h lhs rhs r h1 vs en' h' _ IH Hw Hlen Hr _ Hst -> f i o Hf Hp Hi Ho. specialize (IH eq_refl).
    destruct (stores_effect _ _ _ _ _ _ _ _ _ _ o Hst) as [->|(k&l&v&Hl&Hvk&Hn&_)]; [by apply (IH f i o)|].
    exfalso. destruct (writes_several pk fn fa lk Hrs lhs rhs k l o r Hw Hlen Hl Hn Hr) as [i' Hs].
    eapply (variable_call_quiet f i); [done..|]. by apply (la_several _ _ _ _ _ o (Destruct k i' r)).
  - intros fn' h0 vals en h lhs h1 vs en' h' _ IH Hw _ _ Hst -> f i o Hf Hp Hi Ho. specialize (IH eq_refl).
    destruct (stores_effect _ _ _ _ _ _ _ _ _ _ o Hst) as [->|(k&l&v&Hl&Hvk&Hn&_)]; [by apply (IH f i o)|].
    exfalso. apply (di_open _ _ _ Hdi lhs l o); [done|by eapply elem_of_list_lookup_2|done|]. by apply (fo_called _ _ _ _ f i).
  - intros fn' h0 vals en h o' et h' v _ IH _ Hm -> f i o Hf Hp Hi Ho. specialize (IH eq_refl).
    destruct (decide (o = o')) as [->|Hn]; [|rewrite set_other by done; by apply (IH f i o)].
    rewrite set_same. destruct Hm. apply function_ok_err.
  - intros fn' h0 vals en h o' h' v _ IH Hout _ -> f i o Hf Hp Hi Ho. specialize (IH eq_refl).
    destruct (decide (o = o')) as [->|Hn]; [|rewrite set_other by done; by apply (IH f i o)].
    exfalso. destruct (tracked_inside _ _ _ _ Ho) as [H1 H2]. destruct Hout as [?|[[? _]|He]]; [done|done|].
    destruct (di_exposed _ _ _ Hdi o' He) as [Hd _]. by apply Hd, (fo_called _ _ _ _ f i).
  - intros fn' h0 vals en h o stmt e h' v _ _ Hd Hna _ _ _ ->. by destruct (di_defer _ _ _ Hdi o Hd).
  - intros fn' h0 vals en h e h' v _ IH _ _ ->. by apply IH.
  - intros fn' h0 vals en h a cl s _ IH _ _ ->. by apply IH.
Qed.
End codes.
