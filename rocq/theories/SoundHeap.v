(** * Proofs: the errors held by the variables a returned error may come from. *)
From Coq Require Import Ascii String.
From stdpp Require Import base list gmap.
From Verif Require Import GoString ErrorCode ErrorCodeProofs Scc CodeSet Annotation Constant GoAst Taint Extract Analyse
  SpecCodes SpecTaint SpecMay SpecProgram SpecEvents SpecExec SpecSound VocabularyProofs PropAnalyse ExecProofs SoundProofs SoundCalls.

Section heap.
Context (pk : package) (lk : lookup_table) (fa : facts) (ext : behaviour) (fn : func).
Hypothesis Hdi : disciplined pk fa fn.
Hypothesis Hrs : resolved pk lk fa fn.
Hypothesis Hcl : clean pk lk fa fn.
Notation info := (pk_info pk).
Notation may := (may_return pk lk fa).

(** A set of variables an error may come from, closed under assignment. *)
Record closed (P : oid -> Prop) : Prop := {
  cl_error o : P o -> error_var pk fn o;
  cl_var o j o' : P o -> assigned_var pk fn o j -> local pk fn None j o' -> P o';
  cl_link o e i o' : P o -> linked pk fn o e -> root pk e i -> local pk fn None i o' -> P o'
}.
Lemma expr_var_closed stmt e : stmt ∈ return_stmts fn -> ~ overwritten pk stmt -> returned fn stmt e -> closed (expr_var pk fn e).
Proof.
  intros Hs Ho Hr. split.
  - intros o H. by exists stmt, e.
  - intros o j o' H Ha Hl. destruct H as [i o Hi Ht|o1 e' i o Hv Hk Hi Ht].
    + apply (ev_root _ _ _ i); [done|]. apply (tracked_step _ _ _ _ _ o j); first [done|set_solver].
    + apply (ev_link _ _ _ o1 e' i); try done. apply (tracked_step _ _ _ _ _ o j); first [done|set_solver].
  - intros o e' i o' H Hk Hi Hl. apply (ev_link _ _ _ o e' i); try done. apply tracked_start; [done|set_solver].
Qed.

Context (P : oid -> Prop) (vals : list value) (h0 : heap).
Hypothesis HP : closed P.

(** The codes that errors in these variables may have. *)
Definition src (c : gostring) : Prop :=
  code_ok pk fa fn vals c \/
  exists o, P o /\ ((exists e, linked pk fn o e /\ direct_code pk lk fa may fn e c) \/ several_code pk lk fa may fn o c \/ field_assigned pk fa fn o c).

(** [owned a x]: the error at [a] is changed through variable [x]. *)
Definition safe (owned : N -> oid -> Prop) (h : heap) (v : value) : Prop :=
  forall a, v = VErr a -> h0 !! a = None /\ (exists cl, h !! a = Some cl /\ forall c, cell_code cl c -> src c) /\ forall x, owned a x -> P x.
Record inv (owned : N -> oid -> Prop) (en : env) (h : heap) : Prop := {
  iv_safe o : P o -> safe owned h (en o);
  iv_owned o a : updated pk fa fn o -> en o = VErr a -> owned a o;
  iv_dom a x : owned a x -> is_Some (h !! a)
}.
Lemma safe_mono owned h h' v : safe owned h v -> h ⊆ h' -> safe owned h' v.
Proof.
  intros H Hs a Ha. destruct (H a Ha) as (H1&(cl&H2&H3)&H4). split_and!; try done. exists cl. split; [by apply (lookup_weaken h)|done].
Qed.
Lemma inv_mono owned en h h' : inv owned en h -> h ⊆ h' -> inv owned en h'.
Proof.
  intros [H1 H2 H3] Hs. split; [intros o Ho; by apply (safe_mono _ h); [apply H1|]|done|].
  intros a x Ho. by apply (sub_grows h), (H3 a x).
Qed.

(** ** Parentheses *)
Lemma root_unparen e i : root pk e i -> root pk (unparen e) i.
Proof.
  intros [e' j H|e' x j H Hx|e' x j H]; [apply root_var|apply (root_address _ _ x)|apply (root_selector _ _ x)]; by rewrite ?unparen_idem.
Qed.
Lemma root_paren e i : root pk (unparen e) i -> root pk e i.
Proof.
  intros H. remember (unparen e) as u eqn:Eu. destruct H as [e' j H|e' x j H Hx|e' x j H]; subst e'; rewrite unparen_idem in H.
  - by apply root_var.
  - by apply (root_address _ _ x).
  - by apply (root_selector _ _ x).
Qed.
Lemma quiet_paren e : quiet pk lk fa fn (unparen e) -> quiet pk lk fa fn e.
Proof.
  intros Hq ev H. apply (Hq ev). destruct H as [ev Hr Hs|i Hr Hu].
  - apply xe_source; [|by rewrite unparen_idem]. intros i Hi. by apply (Hr i), root_paren.
  - apply xe_origin; [by apply root_unparen|done].
Qed.
Lemma direct_unparen e c : direct_code pk lk fa may fn e c -> direct_code pk lk fa may fn (unparen e) c.
Proof.
  intros [f args H1 H2|x H1 H2 H3|id elts H1 H2|id kids H1 H2];
    rewrite <-(unparen_idem e) in H1, H2 || rewrite <-(unparen_idem e) in H1, H3;
    [by apply (dc_call _ _ _ _ _ _ _ f args)|by apply (dc_address _ _ _ _ _ _ _ x)|by apply (dc_composite _ _ _ _ _ _ _ id elts)|by apply (dc_literal _ _ _ _ _ _ _ id kids)].
Qed.

(** ** Expressions *)
Lemma quiet_root e i : quiet pk lk fa fn e -> root pk e i -> ~ untrackable pk fn None i.
Proof. intros Hq Hr Hu. eapply Hq, xe_origin; eassumption. Qed.
Lemma quiet_local e i o : quiet pk lk fa fn e -> root pk e i -> mentions fn i -> i_obj i = Some o -> local pk fn None i o.
Proof.
  intros Hq Hr Hm Ho. split_and!; [done| |by apply (quiet_root e)]. intros Hn. rewrite (di_nil _ _ _ Hdi i) in Ho; [done|by left|done].
Qed.
Lemma unknown_root e i : quiet pk lk fa fn e -> root pk e i -> i_obj i = None -> i_name i <> str "nil" -> False.
Proof.
  intros Hq Hr Ho Hn. apply (quiet_root e i Hq Hr). split; [by intros (p&?&_)|]. right. split; [done|]. intros o ?. congruence.
Qed.
Lemma quiet_source e ev : quiet pk lk fa fn e -> (forall i, ~ root pk e i) -> ~ source_event pk lk fa fn (unparen e) ev.
Proof. intros Hq Hr Hs. eapply Hq, xe_source; eassumption. Qed.
Lemma quiet_unary e id b x : quiet pk lk fa fn e -> unparen e = Node id (KUnary b) [x] -> address_of_error pk (unparen e) x.
Proof.
  intros Hq E. assert (address_of_error pk (unparen e) x \/ ~ address_of_error pk (unparen e) x) as [|Hn]; [|done|].
  { unfold address_of_error. rewrite E. destruct b; [|right; by intros (?&?&_)]. destruct (ti_type info id) as [t|] eqn:Et; [destruct (ti_implements_error info t) eqn:Eb|].
    - left. exists id. split; [done|by exists t].
    - right. intros (?&[= <-]&?&?&?). congruence.
    - right. intros (?&[= <-]&?&?&?). congruence. }
  exfalso. eapply (quiet_source e); [done| |by apply (so_unary _ _ _ _ _ id b x)].
  intros i Hr. destruct Hr as [e i H|e y i H Hy|e y i H]; [by rewrite E in H| |by rewrite E in H].
  assert (y = x) as ->; [|done]. destruct H as (?&H&_). rewrite E in H. by injection H.
Qed.

Lemma opaque_quiet e : quiet pk lk fa fn e -> opaque pk fa (unparen e) -> False.
Proof.
  intros Hq [id x E|id x i E Hi Ho Hn|Hc He|et Hc He Hf Hco|id k kids E Hk].
  - pose proof (quiet_unary e id false x Hq E) as (?&H&_). rewrite E in H. discriminate.
  - pose proof (quiet_unary e id true x Hq E) as H. apply (unknown_root e i); try done. by apply (root_address _ _ x).
  - destruct (creates_quiet pk lk fa fn e Hq Hc) as [Hv _]. destruct (value_quiet pk fa fn (unparen e) Hv) as (_&et&H). by apply (He et).
  - destruct (creates_quiet pk lk fa fn e Hq Hc) as [Hv _]. destruct (value_quiet pk fa fn (unparen e) Hv) as (Hcd&_).
    destruct (et_field et) as [[name pos]|] eqn:Ef; [|done]. destruct (no_init_exists pos (node_id (unparen e)) _ Hco) as [r Hr].
    by eapply Hv, (ve_no_init _ _ _ _ et name pos r).
  - assert (forall i, ~ root pk e i) as Hr.
    { intros i Hr. destruct Hr as [e i H|e y i (?&H&_) Hy|e y i H]; rewrite E in H; destruct k; done. }
    assert (match k with KTypeAssert _ | KIndex => True | _ => False end \/ ~ match k with KTypeAssert _ | KIndex => True | _ => False end) as [Hd|Hd] by (destruct k; auto).
    + destruct k as [| | | | | | | |t| | | | | | | | | |]; try done.
      * destruct t; (eapply (quiet_source e); [done|done|]); [by eapply so_type_assert|by eapply so_type_switch].
      * eapply (quiet_source e); [done|done|]. by eapply so_index.
    + eapply (quiet_source e); [done|done|]. apply (so_other _ _ _ _ _ id k kids E). destruct k; done.
Qed.

Lemma eval_safe owned en h e h' v : inv owned en h -> framed pk fa fn h0 en h -> codes_inv pk fa fn vals en -> functions_inv pk fa fn en ->
  (e ∈ body_nodes fn \/ exists i, e = ident_node i /\ mentions fn i) -> quiet pk lk fa fn e ->
  (forall i o, root pk e i -> local pk fn None i o -> P o) ->
  (forall f args, as_call (unparen e) = Some (f, args) -> error_call pk fn f) ->
  eval pk lk fa ext fn en h e h' v -> call_ok pk lk fa fn en h e h' v ->
  forall a, v = VErr a -> h0 !! a = None /\ (exists cl, h' !! a = Some cl /\ forall c, cell_code cl c -> direct_code pk lk fa may fn e c \/ src c) /\ forall x, owned a x -> P x.
Proof.
  intros Hinv [Hsub Hkn Hpr] Hcd Hfi Hb Hq Hr Hc Hev Hco.
  assert (forall Q a, fresh_error h Q h' v -> (forall c, Q c -> direct_code pk lk fa may fn e c \/ src c) -> v = VErr a ->
    h0 !! a = None /\ (exists cl, h' !! a = Some cl /\ forall c, cell_code cl c -> direct_code pk lk fa may fn e c \/ src c) /\ forall x, owned a x -> P x) as Hnew.
  { intros Q a Hf HQ Ha. destruct (Hf a Ha) as (Hn&cl&H1&H2). split_and!.
    - destruct (h0 !! a) as [cl0|] eqn:E0; [|done]. by rewrite (lookup_weaken _ _ _ _ E0 Hsub) in Hn.
    - exists cl. split; [done|]. intros c Hcc. by apply HQ, H2.
    - intros x Hx. destruct (iv_dom _ _ _ Hinv a x Hx) as [? ?]. congruence. }
  assert (forall i, as_ident (unparen e) = Some i -> mentions fn i) as Hm.
  { intros i Hi. destruct Hb as [Hb|(j&->&Hj)]; [apply (me_body _ _ (unparen e)); [by apply body_unparen|done]|].
    rewrite as_ident_node in Hi. congruence. }
  assert (forall i o, names_value pk (unparen e) i o -> P o) as Hnv.
  { intros i o (Hi&Ho&_). apply (Hr i); [by apply root_var|]. apply (quiet_local e); try done; [by apply root_var|by apply Hm]. }
  assert (forall id b x, unparen e = Node id (KUnary b) [x] -> e ∈ body_nodes fn) as Hbu.
  { intros id b x E. destruct Hb as [Hb|(j&->&Hj)]; [done|]. by destruct j. }
  destruct (as_call (unparen e)) as [[f args]|] eqn:Ec.
  { intros a. apply Hnew with (Q := fun c => call_code pk lk fa may fn (unparen e) f args c \/ code_ok pk fa fn vals c).
    - apply Hco; try done.
      + destruct Hb as [Hb|(j&->&Hj)]; [done|]. by destruct j.
      + intros ev. by apply quiet_call.
      + by apply (Hc f args).
    - intros c [H|H]; [left; by apply (dc_call _ _ _ _ _ _ _ f args)|right; by left]. }
  intros a Ha. inversion Hev; subst; try discriminate; try congruence.
  - match goal with H : names_value _ _ _ _ |- _ => pose proof (Hnv _ _ H) as HPo end.
    destruct (iv_safe _ _ _ Hinv _ HPo a) as (K1&(kcl&K2&K3)&K4); [done|]. split_and!; try done. exists kcl. split; [done|]. intros c Hcc. right. by apply K3.
  - match goal with H : names_value _ _ _ _ |- _ => pose proof (Hnv _ _ H) as HPo end.
    destruct (iv_safe _ _ _ Hinv _ HPo a0) as (K1&(kcl&K2&K3)&K4); [done|].
    match goal with H : made _ _ _ _ |- _ => apply (Hnew src); [apply (fresh_made _ _ _ _ _ H)|by right|done] end.
    intros c Hcc. apply K3. congruence.
  - match goal with H : names_value _ _ _ _, E : unparen _ = _ |- _ => rename H into Hn, E into E1 end.
    pose proof (quiet_unary e _ _ _ Hq E1) as Had. destruct Hn as (Hi&Ho&_).
    assert (root pk e i) as Hroot by by apply (root_address _ _ x).
    assert (P o) as HPo.
    { apply (Hr i); [done|]. apply (quiet_local e); try done. apply (me_body _ _ (unparen x)); [|done].
      apply body_unparen, (body_kid fn (unparen e)); [by apply body_unparen, (Hbu _ _ _ E1)|]. rewrite E1. left. }
    destruct (iv_safe _ _ _ Hinv _ HPo a) as (K1&(kcl&K2&K3)&K4); [done|]. split_and!; try done. exists kcl. split; [done|]. intros c Hcc. right. by apply K3.
  - match goal with H : creates _, H' : error_type _ _ _ _ |- _ => rename H into Hcr, H' into Het end.
    destruct (creates_quiet pk lk fa fn e Hq Hcr) as [Hve Hdc]. destruct (value_quiet pk fa fn (unparen e) Hve) as ((t&Ht&Hree)&_).
    match goal with H : made _ _ _ _ |- _ => apply (Hnew (fun c => direct_code pk lk fa may fn e c \/ src c)); [apply (fresh_made _ _ _ _ _ H)|done|done] end.
    destruct Het as (t'&n&Ht'&Hn&Hty). assert (t' = t) as -> by congruence.
    intros c [[Hcc|Hcc] Hne]; cbn in Hcc.
    + left. apply Hdc. exists t, n, et. split_and!; try done. by left.
    + match goal with H : field_content _ _ _ _ _ |- _ => rename H into Hfc end. unfold field_content in Hfc.
      destruct (et_field et) as [[name pos]|] eqn:Ef; [|congruence]. destruct Hfc as [(w&Hfi'&Hsv)|[? _]]; [|congruence]. subst c.
      destruct (string_ok pk lk fa fn Hdi Hrs Hcl vals en w s Hcd) as [Hk|Hk]; [|done| |right; by left].
      * intros ev Hs. apply (Hve ev). apply (ve_init _ _ _ _ et name pos w); try done; [by exists t|by exists t, n].
      * left. apply Hdc. exists t, n, et. split_and!; try done. right. by exists name, pos, w.
  - match goal with H : _ \/ _ |- _ => destruct H as [Hs|(i&Hi&Ho&Hna)] end.
    + exfalso. destruct (as_selector (unparen e)) as [[x sel]|] eqn:Es; [|done].
      assert (unparen e ∈ body_nodes fn) as Hb'. { destruct Hb as [Hb|(j&->&Hj)]; [by apply body_unparen|]. by destruct j. }
      apply (unknown_root e sel); [done|by apply (root_selector _ _ x)|by apply (rs_selector _ _ _ _ Hrs (unparen e) x)|by apply (di_nil_field _ _ _ Hdi (unparen e) x)].
    + exfalso. apply (unknown_root e i); try done. by apply root_var.
  - exfalso. by apply (opaque_quiet e).
Qed.

(** ** Strings *)
(** A value assigned to a code field. *)
Lemma eval_string en h r h' s : codes_inv pk fa fn vals en -> r ∈ body_nodes fn -> (forall ev, ~ string_event pk fa fn r ev) ->
  eval pk lk fa ext fn en h r h' (VStr s) -> constant_code pk r s \/ code_ok pk fa fn vals s.
Proof.
  intros Hinv Hb Hns Hev.
  assert (forall Q : Prop, ti_value info (node_id r) = None -> (forall i' o', as_ident (unparen r) = Some i' -> i_obj i' <> Some o') -> Q) as Hdyn.
  { intros Q Hv Hno. exfalso. eapply Hns, se_dynamic; [done|]. intros i' p Hi' (o'&_&Ho'&_). by apply (Hno i' o'). }
  assert (forall i', as_call (unparen r) <> None -> as_ident (unparen r) <> Some i') as Hcall.
  { intros i' Hc Hi'. destruct (ident_form pk fa _ _ Hi') as (Hca&_). done. }
  inversion Hev; subst; try congruence; try (match goal with H : made _ _ _ _ |- _ => inversion H end).
  - match goal with H : _ -> exists a, _ |- _ => rename H into Hk end. match goal with H : names_value _ _ _ _ |- _ => destruct H as (Hi'&Ho'&_) end.
    destruct (ob_is_var (obj_of pk o)) eqn:Ev; [|destruct (Hk eq_refl); congruence].
    apply (string_ok pk lk fa fn Hdi Hrs Hcl vals en r s Hinv Hns). apply (sv_var _ _ _ i o); try done.
    rewrite (rs_parens _ _ _ _ Hrs r Hb). replace (node_id (unparen r)) with (i_id i).
    + apply (rs_variable _ _ _ _ Hrs); [apply (me_body _ _ (unparen r)); [by apply body_unparen|done]|by exists o].
    + destruct (unparen r) as [id k kids]. destruct k; try done. by injection Hi' as <-.
  - apply Hdyn; [done|]. intros i' o' Hi'. destruct (ident_form pk fa _ _ Hi') as (_&_&_&_&_&Hun). exfalso. eapply Hun; eassumption.
  - by apply (string_ok pk lk fa fn Hdi Hrs Hcl vals en r s Hinv Hns).
  - apply Hdyn; [done|]. intros i' o' Hi'. match goal with H : _ \/ _ |- _ => destruct H as [H|(?&?&?&?)] end; [|congruence].
    destruct (ident_form pk fa _ _ Hi') as (_&?&_). done.
  - apply Hdyn; [done|]. intros i' o' Hi'. by destruct (ident_form pk fa _ _ Hi') as (_&_&_&_&?&_).
  - apply Hdyn; [done|]. intros i' o' Hi'. destruct (Hcall i'); congruence.
  - apply Hdyn; [done|]. intros i' o' Hi'. destruct (Hcall i'); congruence.
  - apply Hdyn; [done|]. intros i' o' Hi'. destruct (Hcall i'); congruence.
  - apply Hdyn; [done|]. intros i' o' Hi'. destruct (Hcall i'); congruence.
  - apply Hdyn; [done|]. intros i' o' Hi'. destruct (Hcall i'); congruence.
Qed.

(** ** Assignments *)
Notation own := (N -> oid -> Prop).
(** What has to hold of a value that is assigned. *)
Record fits (owned : own) (h : heap) (l : node) (v : value) : Prop := {
  ft_safe o : names_var l o -> P o -> safe owned h v;
  ft_field x o s : code_field pk fa l x -> names_var x o -> P o -> v = VStr s -> src s;
  ft_owned o a : names_var l o -> updated pk fa fn o -> ~ struct_var pk fa fn o -> v = VErr a -> owned a o;
  ft_known : known_value h v
}.
(** Everything that was safe stays safe. *)
Definition keeps (owned : own) (h : heap) (owned' : own) (h' : heap) : Prop :=
  (forall a x, owned a x -> owned' a x) /\ grows h h' /\
  (forall v, safe owned h v -> safe owned' h' v) /\ forall v, known_value h v -> known_value h' v.
Lemma keeps_refl owned h : keeps owned h owned h.
Proof. by split_and!. Qed.
Lemma keeps_trans o1 h1 o2 h2 o3 h3 : keeps o1 h1 o2 h2 -> keeps o2 h2 o3 h3 -> keeps o1 h1 o3 h3.
Proof. intros (A1&A2&A3&A4) (B1&B2&B3&B4). split_and!; eauto using grows_trans. Qed.
Lemma fits_keeps owned h owned' h' l v : fits owned h l v -> keeps owned h owned' h' -> fits owned' h' l v.
Proof. intros [F1 F2 F3 F4] (A1&A2&A3&A4). split; eauto. Qed.

(** A cell that is changed through a variable [o] it belongs to. *)
Lemma keeps_change (owned : own) h o a cl cl' : owned a o -> h !! a = Some cl ->
  (P o -> (forall c, cell_code cl c -> src c) -> forall c, cell_code cl' c -> src c) -> keeps owned h owned (<[a := cl']> h).
Proof.
  intros Ho Ha Hc. split_and!; [done|apply grows_insert| |].
  - intros v Hv b Hb. destruct (Hv b Hb) as (H1&(cl1&H2&H3)&H4). split_and!; try done.
    destruct (decide (a = b)) as [->|Hn]; [|exists cl1; by rewrite lookup_insert_ne].
    exists cl'. rewrite lookup_insert. split; [done|]. apply Hc; [by apply H4|]. assert (cl1 = cl) as -> by congruence. exact H3.
  - intros v Hv b Hb. apply grows_insert. by apply Hv.
Qed.
(** A new cell for variable [o]. *)
Lemma keeps_new (owned : own) h o cl h' v : made h cl h' v ->
  (forall a x, owned a x -> is_Some (h !! a)) ->
  keeps owned h (fun a x => owned a x \/ (v = VErr a /\ x = o)) h'.
Proof.
  intros Hm Hd. pose proof (made_sub _ _ _ _ Hm) as Hs. split_and!.
  - intros a x Ha. by left.
  - by apply sub_grows.
  - intros w Hw a Ha. destruct (Hw a Ha) as (H1&(cl1&H2&H3)&H4). split_and!; try done.
    + exists cl1. split; [by apply (lookup_weaken h)|done].
    + intros x [Hx|[Hva ->]]; [by apply H4|]. destruct (made_inv _ _ _ _ _ Hm Hva) as [Hn _]. congruence.
  - intros w Hw a Ha. apply (sub_grows _ _ Hs). by apply Hw.
Qed.

Lemma inv_keeps (owned owned' : own) en h h' : inv owned en h -> keeps owned h owned' h' -> (forall a x, owned' a x -> is_Some (h' !! a)) -> inv owned' en h'.
Proof. intros [I1 I2 I3] (A1&A2&A3&A4) Hd. split; eauto. Qed.

Lemma names_var_fun l o o' : names_var l o -> names_var l o' -> o = o'.
Proof. intros (i&?&?) (j&?&?). congruence. Qed.

Lemma inv_set owned en h o v : inv owned en h -> (P o -> safe owned h v) -> (forall a, updated pk fa fn o -> v = VErr a -> owned a o) ->
  inv owned (set_var en o v) h.
Proof.
  intros [I1 I2 I3] H1 H2. split; [| |done].
  - intros p Hp. destruct (decide (p = o)) as [->|Hn]; [rewrite set_same; auto|rewrite set_other by done; auto].
  - intros p a Hp. destruct (decide (p = o)) as [->|Hn]; [rewrite set_same; auto|rewrite set_other by done; auto].
Qed.
(** A copy of [cl] in memory of its own for the variable [o]. *)
Lemma inv_copy (owned : own) en h o cl h' v : h0 ⊆ h -> inv owned en h -> made h cl h' v -> (P o -> forall c, cell_code cl c -> src c) ->
  exists owned', keeps owned h owned' h' /\ inv owned' (set_var en o v) h'.
Proof.
  intros Hsub Hinv Hm Hc. exists (fun a x => owned a x \/ (v = VErr a /\ x = o)).
  assert (keeps owned h (fun a x => owned a x \/ (v = VErr a /\ x = o)) h') as Hk by (apply (keeps_new _ _ _ cl); [done|by apply (iv_dom _ _ _ Hinv)]).
  split; [done|]. apply inv_set.
  - apply (inv_keeps owned _ en h); [done|done|]. intros a x [Ha|[Ha ->]].
    + destruct Hk as (_&Hg&_). by apply Hg, (iv_dom _ _ _ Hinv a x).
    + destruct (made_inv _ _ _ _ _ Hm Ha) as [_ ->]. by eexists.
  - intros HPo a Ha. destruct (made_inv _ _ _ _ _ Hm Ha) as [Hn Hcl']. split_and!.
    + destruct (h0 !! a) as [cl0|] eqn:E0; [|done]. by rewrite (lookup_weaken _ _ _ _ E0 Hsub) in Hn.
    + exists cl. split; [done|by apply Hc].
    + intros x [Hx|[_ ->]]; [|done]. destruct (iv_dom _ _ _ Hinv a x Hx). congruence.
  - intros a _ Ha. by right.
Qed.

Lemma store_inv (owned : own) en0 l v en h en' h' : (exists lhs, targets pk fn lhs /\ l ∈ lhs) ->
  framed pk fa fn h0 en h -> (forall o a, updated pk fa fn o -> en0 o = VErr a -> owned a o) ->
  inv owned en h -> fits owned h l v -> store pk fa fn en0 l v en h en' h' ->
  exists owned', keeps owned h owned' h' /\ inv owned' en' h'.
Proof.
  intros (lhs&Hl&Hin) [Hsub Hkn Hpr] H0 Hinv Hf Hs.
  destruct Hs as [i o Hi Ho Hst|i o b cl h' v' Hi Ho Hst -> Hb Hm|i o b cl a Hi Ho Hst -> Hb Ha Hsa|i Hi Ho|
    x i o a cl s Hcf Hi Ho Ha Hcl' ->|x a cl s Hcf Hno Hcl'|et b cl a Hi Hst -> Hb Hsa|Hi Hcf Hst|a cl s Hpf _].
  - exists owned. split; [apply keeps_refl|]. assert (names_var l o) as Hn by by exists i. apply inv_set; [done|by apply (ft_safe _ _ _ _ Hf)|].
    intros a Hu ->. apply (ft_owned _ _ _ _ Hf); try done. intros Hsv. by apply (Hst Hsv a).
  - apply (inv_copy owned en h o cl); try done. intros HPo. assert (names_var l o) as Hn by by exists i.
    destruct (ft_safe _ _ _ _ Hf o Hn HPo b eq_refl) as (_&(cl1&H2&H3)&_). assert (cl1 = cl) as -> by congruence. exact H3.
  - assert (names_var l o) as Hn by by exists i.
    assert (updated pk fa fn o) as Hu by (by apply (up_struct _ _ _ _ lhs l)). destruct Hsa as [cla Hcla].
    assert (keeps owned h owned (<[a := cl]> h)) as Hk.
    { apply (keeps_change _ _ o _ cla); [by apply H0|done|]. intros HPo _. destruct (ft_safe _ _ _ _ Hf o Hn HPo b eq_refl) as (_&(cl1&H2&H3)&_). assert (cl1 = cl) as -> by congruence. exact H3. }
    exists owned. split; [done|]. apply (inv_keeps owned _ en h); [done|done|]. intros a' x Ha'. apply grows_insert. by apply (iv_dom _ _ _ Hinv a' x).
  - exists owned. split; [apply keeps_refl|done].
  - assert (names_var x o) as Hn by by exists i.
    assert (updated pk fa fn o) as Hu by (by apply (up_field _ _ _ _ lhs l x)).
    assert (keeps owned h owned (<[a := Cell (ce_consts cl) s]> h)) as Hk.
    { apply (keeps_change _ _ o _ cl); [by apply H0|done|]. intros HPo Hold c [[Hc|Hc] Hne]; cbn in Hc.
      - apply Hold. split; [by left|done].
      - subst c. by apply (ft_field _ _ _ _ Hf x o). }
    exists owned. split; [done|]. apply (inv_keeps owned _ en h); [done|done|]. intros a' y Ha'. apply grows_insert. by apply (iv_dom _ _ _ Hinv a' y).
  - exfalso. destruct Hl as [[rhs Hw]|Hr].
    + destruct (di_fields _ _ _ Hdi lhs rhs l x Hw Hin Hcf) as (_&_&i&o&Hi&Ho).
      apply (Hno i o); [|done]. destruct x as [ix kx kids]. destruct kx; done.
    + by apply (di_open_fields _ _ _ Hdi lhs l x).
  - exfalso. by apply (di_places _ _ _ Hdi lhs l et).
  - exists owned. split; [apply keeps_refl|done].
  - exfalso. by apply (di_promoted _ _ _ Hdi lhs l).
Qed.

Lemma stores_inv (owned : own) en0 lhs0 lhs vs en h en' h' : targets pk fn lhs0 -> (forall l, l ∈ lhs -> l ∈ lhs0) ->
  private pk fa fn h0 en0 -> framed pk fa fn h0 en h ->
  (forall k l v o a, lhs !! k = Some l -> vs !! k = Some v -> names_var l o -> updated pk fa fn o -> ~ struct_var pk fa fn o -> v = VErr a -> h0 !! a = None) ->
  (forall o a, updated pk fa fn o -> en0 o = VErr a -> owned a o) ->
  inv owned en h -> (forall k l v, lhs !! k = Some l -> vs !! k = Some v -> fits owned h l v) -> stores pk fa fn en0 lhs vs en h en' h' ->
  exists owned', inv owned' en' h'.
Proof.
  intros Ht Hin Hpr Hfr Hnew H0 Hinv Hfit Hs. revert owned H0 Hinv Hfit Hfr Hin Hnew.
  induction Hs as [vs en h|l ls v vs en h en1 h1 en2 h2 Hst Hss IH]; intros owned H0 Hinv Hfit Hfr Hin Hnew; [by exists owned|].
  assert (fits owned h l v) as Hf by by apply (Hfit 0).
  destruct (store_inv owned en0 l v en h en1 h1) as (owned1&Hk&Hinv1); try done; [exists lhs0; split; [done|apply Hin; left]|].
  destruct (store_frame pk fa fn h0 en0 l v en h en1 h1) as [Hfr1 _]; try done.
  { exists lhs0. split; [done|apply Hin; left]. }
  { by apply (ft_known _ _ _ _ Hf). }
  { intros o a Hn Hu Hns ->. by apply (Hnew 0 l (VErr a) o a). }
  apply (IH owned1); try done.
  - intros o a Hu Ha. destruct Hk as (Hk&_). by apply Hk, H0.
  - intros k l' w Hl' Hw. apply (fits_keeps owned h); [by apply (Hfit (S k))|done].
  - intros l' Hl'. apply Hin. by right.
  - intros k l' w o a Hl' Hw. by apply (Hnew (S k) l' w o a).
Qed.
End heap.
