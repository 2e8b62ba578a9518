(** * Proofs: executions return only codes that the analyzer finds. *)
From Coq Require Import Ascii String.
From stdpp Require Import base list gmap.
From Verif Require Import GoString ErrorCode ErrorCodeProofs Scc CodeSet Annotation Constant GoAst Taint Extract Analyse
  SpecAnnotation ReturnProofs SpecCodes SpecTaint SpecMay SpecProgram SpecEvents SpecExec SpecSound VocabularyProofs OwnProofs PropAnalyse ExecProofs SoundProofs SoundCalls SoundHeap.

(** A value of an expression, about which everything necessary is known if the expression is a call. *)
Definition good_eval (pk : package) (lk : lookup_table) (fa : facts) (ext : behaviour) (fn : func) (en : env) (h : heap) (e : node) (h' : heap) (v : value) : Prop :=
  eval pk lk fa ext fn en h e h' v /\ call_ok pk lk fa fn en h e h' v.
Inductive good_several (pk : package) (lk : lookup_table) (fa : facts) (ext : behaviour) (fn : func) (en : env) (h : heap) (r : node) (h2 : heap) (vs : list value) : Prop :=
| gs_call f args ps rs b h1 v : as_call (unparen r) = Some (f, args) -> ti_type (pk_info pk) (node_id f) = Some (TSignature ps rs b) ->
    good_eval pk lk fa ext fn en h r h1 v -> h1 ⊆ h2 -> (forall k w, vs !! k = Some w -> S k = length rs -> w = v) ->
    good_several pk lk fa ext fn en h r h2 vs
| gs_assert id t x v : unparen r = Node id (KTypeAssert t) [x] -> good_eval pk lk fa ext fn en h x h2 v -> vs = [v; VOther] ->
    good_several pk lk fa ext fn en h r h2 vs
| gs_zero id t x et v : unparen r = Node id (KTypeAssert (Some t)) [x] -> struct_typed pk fa t et ->
    made h (Cell (et_codes et) []) h2 v -> vs = [v; VOther] -> good_several pk lk fa ext fn en h r h2 vs
| gs_nil : vs = [VNil; VOther] -> good_several pk lk fa ext fn en h r h2 vs
| gs_others : (forall id t x, unparen r <> Node id (KTypeAssert t) [x]) ->
    (forall f args ps rs b, as_call (unparen r) = Some (f, args) -> ti_type (pk_info pk) (node_id f) <> Some (TSignature ps rs b)) ->
    good_several pk lk fa ext fn en h r h2 vs.

Lemma own_nodes_walk n m : m ∈ own_nodes n -> m ∈ walk n.
Proof.
  induction n as [i k kids IH] using node_ind'. intros Hm. cbn [own_nodes] in Hm. apply elem_of_cons in Hm as [->|Hm]; [apply walk_self|].
  assert (m ∈ flat_map own_nodes kids) as H by (destruct k; try exact Hm; apply elem_of_nil in Hm; contradiction).
  apply elem_of_list_In, in_flat_map in H as (x&Hx&Hm'). rewrite <-elem_of_list_In in Hx. rewrite <-elem_of_list_In in Hm'.
  apply (walk_kid _ _ _ x); auto.
Qed.
Lemma return_body fn s : s ∈ return_stmts fn -> s ∈ body_nodes fn.
Proof.
  unfold return_stmts, body_nodes. destruct (fn_body fn) as [b|]; [|done]. intros Hs. apply own_nodes_walk.
  apply elem_of_list_In, filter_In in Hs as [Hs _]. by apply elem_of_list_In.
Qed.
Lemma last_elem {A} (l : list A) x : last l = Some x -> x ∈ l.
Proof. intros H. apply last_Some in H as [l' ->]. apply elem_of_app. right. left. Qed.
Lemma returned_body fn s e : s ∈ return_stmts fn -> returned fn s e -> e ∈ body_nodes fn \/ exists i, e = ident_node i /\ mentions fn i.
Proof.
  intros Hs [e' He|fields fl i Hk Hf Hl Hi].
  - left. apply (body_kid fn s); [by apply return_body|by apply last_elem].
  - right. exists i. split; [done|]. apply (me_result _ _ fields fl); [done|by apply last_elem|by apply last_elem].
Qed.

Section steps.
Context (pk : package) (lk : lookup_table) (fa : facts) (ext : behaviour) (fn : func).
Hypothesis Hdi : disciplined pk fa fn.
Hypothesis Hrs : resolved pk lk fa fn.
Hypothesis Hcl : clean pk lk fa fn.
Notation info := (pk_info pk).
Notation may := (may_return pk lk fa).
Context (P : oid -> Prop) (vals : list value) (h0 : heap).
Hypothesis HP : closed pk fn P.
Notation safe := (safe pk lk fa fn P vals h0). Notation inv := (inv pk lk fa fn P vals h0). Notation src := (src pk lk fa fn P vals).
Notation fits := (fits pk lk fa fn P vals h0).

Lemma framed_mono en h h' : framed pk fa fn h0 en h -> h ⊆ h' -> framed pk fa fn h0 en h'.
Proof. intros [H1 H2 H3] Hs. split; [by etrans|apply (known_env_grows _ h); [done|by apply sub_grows]|done]. Qed.

Section at_.
Context (owned : N -> oid -> Prop) (en : env) (h : heap).
Hypothesis Hinv : inv owned en h.
Hypothesis Hfr : framed pk fa fn h0 en h.
Hypothesis Hcd : codes_inv pk fa fn vals en.
Hypothesis Hfi : functions_inv pk fa fn en.

(** The value of an expression linked to a variable. *)
Lemma linked_safe o e h' v : P o -> linked pk fn o (unparen e) -> e ∈ body_nodes fn -> good_eval pk lk fa ext fn en h e h' v -> safe owned h' v.
Proof.
  intros HPo Hl Hb [Hev Hco] a Ha. pose proof (cl_error _ _ _ HP o HPo) as He.
  destruct (eval_safe pk lk fa ext fn Hdi Hrs Hcl P vals h0 owned en h e h' v) with (a := a) as (H1&(cl&H2&H3)&H4); try done; [by left| | | |].
  - apply quiet_paren. by apply (linked_quiet pk lk fa fn Hcl o).
  - intros i o' Hi Hlo. apply (cl_link _ _ _ HP o (unparen e) i); try done. by apply root_unparen.
  - intros f args Hc. exists (unparen e), args. rewrite unparen_idem. split; [done|]. right. left. by exists o.
  - split_and!; try done. exists cl. split; [done|]. intros c Hc. destruct (H3 c Hc) as [Hd|Hs]; [|done].
    right. exists o. split; [done|]. left. exists (unparen e). split; [done|]. by apply direct_unparen.
Qed.
Lemma linked_safe_exact o e h' v : P o -> linked pk fn o e -> e ∈ body_nodes fn -> good_eval pk lk fa ext fn en h e h' v -> safe owned h' v.
Proof.
  intros HPo Hl Hb [Hev Hco] a Ha. pose proof (cl_error _ _ _ HP o HPo) as He.
  destruct (eval_safe pk lk fa ext fn Hdi Hrs Hcl P vals h0 owned en h e h' v) with (a := a) as (H1&(cl&H2&H3)&H4); try done; [by left| | | |].
  - by apply (linked_quiet pk lk fa fn Hcl o).
  - intros i o' Hi Hlo. by apply (cl_link _ _ _ HP o e i).
  - intros f args Hc. exists e, args. split; [done|]. right. left. by exists o.
  - split_and!; try done. exists cl. split; [done|]. intros c Hc. destruct (H3 c Hc) as [Hd|Hs]; [|done].
    right. exists o. split; [done|]. left. exists e. done.
Qed.
Lemma assigned_safe o r h' v : P o -> assigned pk fn o r -> r ∈ body_nodes fn -> good_eval pk lk fa ext fn en h r h' v -> safe owned h' v.
Proof.
  intros HPo Has Hb Hge. destruct (assigned_cases pk fn o r Hb Has) as [(j&Hj&Hv&Hm&Hav)|[Hnv Hae]].
  - destruct Hge as [Hev Hco]. intros a Ha. pose proof (cl_error _ _ _ HP o HPo) as He.
    assert (forall i, root pk r i -> i = j) as Hroot.
    { intros i Hr. destruct (ident_form pk fa _ _ Hj) as (_&Hse&_&_&_&Hun).
      destruct Hr as [e i Hr|e x i [id [Hr _]] Hx|e x i Hr]; [congruence|by destruct (Hun id true x)|congruence]. }
    destruct (eval_safe pk lk fa ext fn Hdi Hrs Hcl P vals h0 owned en h r h' v) with (a := a) as (H1&(cl&H2&H3)&H4); try done; [by left| | | |].
    + intros ev Hx. destruct Hx as [ev Hn Hs|i Hr Hu]; [by apply (Hn j), root_var|]. rewrite (Hroot i Hr) in Hu.
      eapply Hcl, (fu_variable _ _ _ _ o); [done|]. by apply va_origin.
    + intros i o' Hi Hlo. rewrite (Hroot i Hi) in Hlo. by apply (cl_var _ _ _ HP o j).
    + intros f args Hc. destruct (ident_form pk fa _ _ Hj) as (Hca&_). congruence.
    + split_and!; try done. exists cl. split; [done|]. intros c Hc. destruct (H3 c Hc) as [Hd|Hs]; [|done]. exfalso.
      destruct (ident_form pk fa _ _ Hj) as (Hca&_&_&_&_&Hun).
      destruct Hd as [f args Hd _|x (id&Hd&_) _ _|id elts Hd _|id kids Hd _]; try (rewrite Hd in Hj; discriminate). congruence.
  - apply (linked_safe o r); try done. by left.
Qed.

(** The value assigned to the code field of a variable. *)
Lemma field_form lhs rhs k l x o : writes pk fn lhs rhs -> lhs !! k = Some l -> code_field pk fa l x -> names_var x o ->
  exists body i sel et name pos, fn_body fn = Some body /\ outer_assignment body lhs rhs /\ as_selector l = Some (x, sel) /\ as_ident x = Some i /\ i_obj i = Some o /\
    error_type pk fa x et /\ et_field et = Some (name, pos) /\ i_name sel = name /\ ti_type info (i_id i) = ti_type info (node_id x).
Proof.
  intros Hw Hl Hcf (i&Hi&Ho). destruct (di_fields _ _ _ Hdi lhs rhs l x Hw) as ((body&Hbo&Hout)&Hun&i'&o'&Hi'&Ho'); [by eapply elem_of_list_lookup_2|done|].
  destruct Hcf as (sel&et&pos&Hse&Het&Hf). rewrite Hun in Hse.
  assert (i' = i) as ->. { destruct x as [ix kx kids]. destruct kx; try done. cbn in Hi, Hi'. congruence. }
  exists body, i, sel, et, (i_name sel), pos. split_and!; try done. destruct x as [ix kx kids]. destruct kx; try done. by injection Hi' as <-.
Qed.
Lemma field_assign lhs rhs k l r x o s h1 h2 : writes pk fn lhs rhs -> length lhs = length rhs -> lhs !! k = Some l -> rhs !! k = Some r ->
  code_field pk fa l x -> names_var x o -> P o -> eval pk lk fa ext fn en h1 r h2 (VStr s) -> src s.
Proof.
  intros Hw Hlen Hl Hr Hcf Hn HPo Hev. destruct (field_form lhs rhs k l x o Hw Hl Hcf Hn) as (body&i&sel&et&name&pos&Hbo&Hout&Hse&Hi&Ho&Het&Hf&Hna&Hty).
  destruct Het as (t&n&Ht&Hnt&Hfa). pose proof (cl_error _ _ _ HP o HPo) as He.
  destruct (eval_string pk lk fa ext fn Hdi Hrs Hcl vals en h1 r h2 s) as [Hc|Hc]; try done.
  - apply (writes_rhs pk fn lhs rhs); [done|by eapply elem_of_list_lookup_2].
  - intros ev Hs. eapply Hcl, (fu_field _ _ _ _ o); [done|]. apply (fd_value _ _ _ _ body lhs rhs k et name pos r); try done.
    exists l, x, sel, i, t, n. split_and!; try done. congruence.
  - right. exists o. split; [done|]. right. right. exists body, lhs, rhs, k, l, sel, x, t, n, et, name, pos, r. split_and!; try done.
    exists i. split_and!; try done. congruence.
  - by left.
Qed.

Lemma range_step lhs h1 vs en' h' : open_targets pk fn lhs -> h ⊆ h1 -> (forall k w a, vs !! k = Some w -> w = VErr a -> is_Some (h1 !! a)) ->
  stores pk fa fn en lhs vs en h1 en' h' -> exists owned', inv owned' en' h'.
Proof.
  intros Hw Hs1 Hv1 Hst.
  apply (stores_inv pk lk fa fn Hdi P vals h0 owned en lhs lhs vs en h1 en' h'); try done.
  - by right.
  - by apply (fr_private _ _ _ _ _ _ Hfr).
  - by apply (framed_mono en h).
  - intros k l v o a Hl Hvk Ho Hu Hns ->. exfalso. apply elem_of_list_lookup_2 in Hl as Hl'. by destruct (di_unshared_open _ _ _ Hdi o lhs l Hu Hns Hw Hl').
  - by apply (iv_owned _ _ _ _ _ _ _ _ _ _ Hinv).
  - by apply (inv_mono _ _ _ _ _ _ _ _ _ h).
  - intros k l v Hl Hvk. apply elem_of_list_lookup_2 in Hl as Hl'. split.
    + intros o Ho HPo. exfalso. apply (di_open _ _ _ Hdi lhs l o); try done. apply fo_error. by apply (cl_error _ _ _ HP).
    + intros x o s Hcf. by destruct (di_open_fields _ _ _ Hdi lhs l x).
    + intros o a Ho Hu Hns _. by destruct (di_unshared_open _ _ _ Hdi o lhs l Hu Hns Hw Hl').
    + intros a Ha. by apply (Hv1 k v a).
Qed.
Lemma zero_step o et h' v : zero_declared pk fa fn o et -> made h (Cell (et_codes et) []) h' v -> exists owned', inv owned' (set_var en o v) h'.
Proof.
  intros Hz Hm. destruct (inv_copy pk lk fa fn P vals h0 owned en h o (Cell (et_codes et) []) h' v) as (owned'&_&H); try done.
  - by apply (fr_sub _ _ _ _ _ _ Hfr).
  - intros HPo c [[Hc|Hc] Hne]; cbn in Hc; [|done]. rewrite (di_zero _ _ _ Hdi o et Hz (cl_error _ _ _ HP o HPo)) in Hc. set_solver.
  - by exists owned'.
Qed.
Lemma outside_step o h' v : outside pk fa fn o -> unknown h h' v -> exists owned', inv owned' (set_var en o v) h'.
Proof.
  intros Hout [Hs Hv]. exists owned. apply inv_set; [by apply (inv_mono _ _ _ _ _ _ _ _ _ h)| |].
  - intros HPo. exfalso. destruct (error_var_inside pk fn o (cl_error _ _ _ HP o HPo)) as [H1 H2]. destruct Hout as [?|[[? _]|He]]; [done|done|].
    destruct (di_exposed _ _ _ Hdi o He) as [Hf _]. apply Hf, fo_error. by apply (cl_error _ _ _ HP).
  - intros a Hu. exfalso. destruct (di_local _ _ _ Hdi o Hu) as [H1 H2]. destruct Hout as [?|[[? _]|He]]; [done|done|].
    destruct (di_exposed _ _ _ Hdi o He) as [_ Hf]. done.
Qed.
End at_.

(** An assignment. *)
Lemma assign_step owned en h lhs rhs h1 vs en' h' : inv owned en h -> framed pk fa fn h0 en h -> codes_inv pk fa fn vals en -> functions_inv pk fa fn en ->
  writes pk fn lhs rhs -> length lhs = length rhs -> h ⊆ h1 -> (forall k v, vs !! k = Some v -> known_value h1 v) ->
  (forall k v, vs !! k = Some v -> exists r ha hb, rhs !! k = Some r /\ h ⊆ ha /\ hb ⊆ h1 /\ good_eval pk lk fa ext fn en ha r hb v) ->
  stores pk fa fn en lhs vs en h1 en' h' -> exists owned', inv owned' en' h'.
Proof.
  intros Hinv Hfr Hcd Hfi Hw Hlen Hs1 Hv1 Hge Hst.
  set (owned1 := fun a x => owned a x \/ exists k l, lhs !! k = Some l /\ vs !! k = Some (VErr a) /\ names_var l x /\ updated pk fa fn x /\ ~ struct_var pk fa fn x).
  assert (forall k l o a, lhs !! k = Some l -> vs !! k = Some (VErr a) -> names_var l o -> updated pk fa fn o -> ~ struct_var pk fa fn o ->
    k = 0 /\ lhs = [l] /\ h !! a = None) as Hnew.
  { intros k l o a Hl Hvk Ho Hu Hns. apply elem_of_list_lookup_2 in Hl as Hl'.
    destruct (di_unshared _ _ _ Hdi o lhs rhs l Hu Hns Hw Hl' Ho) as (r&->&->&Hnew). destruct k as [|k]; [|done]. split_and!; [done|done|].
    destruct (Hge 0 _ Hvk) as (r'&ha&hb&[= <-]&Ha&_&[Hev _]). pose proof (eval_new pk lk fa ext fn en ha r hb (VErr a) a Hnew Hev eq_refl) as Hn.
    destruct (h !! a) as [cl0|] eqn:E; [|done]. by rewrite (lookup_weaken _ _ _ _ E Ha) in Hn. }
  assert (inv owned1 en h1) as Hinv1.
  { split.
    - intros o HPo a Ha. destruct (iv_safe _ _ _ _ _ _ _ _ _ _ Hinv o HPo a Ha) as (K1&(cl&K2&K3)&K4). split_and!; [done| |].
      + exists cl. split; [by apply (lookup_weaken h)|done].
      + intros x [Hx|(k&l&Hl&Hvk&Ho&Hu&Hns)]; [by apply K4|]. destruct (Hnew k l x a) as (_&_&Hn); try done. congruence.
    - intros o a Hu Ha. left. by apply (iv_owned _ _ _ _ _ _ _ _ _ _ Hinv).
    - intros a x [Hx|(k&l&Hl&Hvk&_)]; [apply (sub_grows _ _ Hs1); by apply (iv_dom _ _ _ _ _ _ _ _ _ _ Hinv a x)|by apply (Hv1 k (VErr a))]. }
  apply (stores_inv pk lk fa fn Hdi P vals h0 owned1 en lhs lhs vs en h1 en' h'); try done.
  - left. by exists rhs.
  - by apply (fr_private _ _ _ _ _ _ Hfr).
  - by apply (framed_mono en h).
  - intros k l v o a Hl Hvk Ho Hu Hns ->. destruct (Hnew k l o a) as (_&_&Hn); try done.
    destruct (h0 !! a) as [cl0|] eqn:E; [|done]. by rewrite (lookup_weaken _ _ _ _ E (fr_sub _ _ _ _ _ _ Hfr)) in Hn.
  - intros o a Hu Ha. left. by apply (iv_owned _ _ _ _ _ _ _ _ _ _ Hinv).
  - intros k l v Hl Hvk. destruct (Hge k v Hvk) as (r&ha&hb&Hr&Ha&Hb&Hev).
    assert (r ∈ body_nodes fn) as Hbo by (apply (writes_rhs pk fn lhs rhs); [done|by eapply elem_of_list_lookup_2]). split.
    + intros o Ho HPo. assert (assigned pk fn o r) as Has by by apply (writes_assigned pk fn fa lk Hrs lhs rhs k l).
      assert (safe owned hb v) as Hsf.
      { apply (assigned_safe owned en ha) with (o := o) (r := r); try done; [by apply (inv_mono _ _ _ _ _ _ _ _ _ h)|by apply (framed_mono en h)]. }
      apply (safe_mono _ _ _ _ _ _ _ _ hb); [|done]. intros a Hva. destruct (Hsf a Hva) as (K1&K2&K3). split_and!; try done.
      intros x [Hx|(k'&l'&Hl'&Hvk'&Ho'&Hu'&Hns')]; [by apply K3|]. destruct (Hnew k' l' x a) as (->&->&_); try done.
      destruct k as [|k]; [|done]. injection Hl as <-. by rewrite (names_var_fun l' x o).
    + intros x o s Hcf Hn HPo ->. destruct Hev as [Hev _]. by apply (field_assign en Hcd lhs rhs k l r x o s ha hb).
    + intros o a Ho Hu Hns ->. right. by exists k, l.
    + by apply (Hv1 k).
Qed.

(** An assignment of one expression with several values. *)
Lemma several_step owned en h lhs rhs r h1 vs en' h' : inv owned en h -> framed pk fa fn h0 en h -> codes_inv pk fa fn vals en -> functions_inv pk fa fn en ->
  writes pk fn lhs rhs -> length lhs <> length rhs -> rhs !! 0 = Some r -> h ⊆ h1 -> (forall k v, vs !! k = Some v -> known_value h1 v) ->
  good_several pk lk fa ext fn en h r h1 vs -> stores pk fa fn en lhs vs en h1 en' h' -> exists owned', inv owned' en' h'.
Proof.
  intros Hinv Hfr Hcd Hfi Hw Hlen Hr Hs1 Hv1 Hge Hst.
  assert (r ∈ body_nodes fn) as Hbo by (apply (writes_rhs pk fn lhs rhs); [done|by eapply elem_of_list_lookup_2]).
  assert (forall l o, l ∈ lhs -> names_var l o -> updated pk fa fn o -> ~ struct_var pk fa fn o -> False) as Hno.
  { intros l o Hl Ho Hu Hns. destruct (di_unshared _ _ _ Hdi o lhs rhs l Hu Hns Hw Hl Ho) as (r'&->&->&_). done. }
  apply (stores_inv pk lk fa fn Hdi P vals h0 owned en lhs lhs vs en h1 en' h'); try done.
  - left. by exists rhs.
  - by apply (fr_private _ _ _ _ _ _ Hfr).
  - by apply (framed_mono en h).
  - intros k l v o a Hl Hvk Ho Hu Hns ->. exfalso. apply (Hno l o); try done. by eapply elem_of_list_lookup_2.
  - by apply (iv_owned _ _ _ _ _ _ _ _ _ _ Hinv).
  - by apply (inv_mono _ _ _ _ _ _ _ _ _ h).
  - intros k l v Hl Hvk. split.
    + intros o Ho HPo. destruct (writes_several pk fn fa lk Hrs lhs rhs k l o r Hw Hlen Hl Ho Hr) as [i Has].
      pose proof (cl_error _ _ _ HP o HPo) as He. set (d := Destruct k i r) in Has.
      destruct Hge as [f args ps rs b h2 w Hc Ht [Hev Hco] Hs2 Hvs|id t x w E Hx ->|id t x et w E Het Hm ->| ->|Hn1 Hn2].
      * assert (forall id t x, unparen (de_source d) <> Node id (KTypeAssert t) [x]) as Hna.
        { intros id t x. by destruct (call_form pk fa _ _ _ Hc) as (_&_&_&_&_&_&_&_&?). }
        pose proof (fun ev => several_quiet pk lk fa fn Hcl o d ev He Has Hna) as Hq.
        destruct (decide (S k = length rs)) as [Hk|Hk]; [|exfalso; eapply Hq, (de_not_last _ _ _ _ d f args ps rs b); done].
        assert (v = w) as -> by by apply (Hvs k). intros a ->.
        assert (forall ev, ~ call_event pk lk fa fn (unparen r) f args ev) as Hcq.
        { intros ev Hce. apply (Hq ev). by apply (de_last _ _ _ _ d f args ps rs b). }
        assert (error_call pk fn f) as Herr.
        { exists r, args. split; [done|]. right. right. exists o, d, ps, rs, b. done. }
        destruct (Hco vals f args Hbo Hc Hcq Herr Hfi Hcd a eq_refl) as (Hn&cl&Hcl'&Hcc). split_and!.
        -- destruct (h0 !! a) as [cl0|] eqn:E0; [|done]. by rewrite (lookup_weaken _ _ _ _ E0 (fr_sub _ _ _ _ _ _ Hfr)) in Hn.
        -- exists cl. split; [by apply (lookup_weaken h2)|]. intros c Hc'. destruct (Hcc c Hc') as [Hk'|Hk']; [|by left].
           right. exists o. split; [done|]. right. left. exists d, f, args, ps, rs, b. done.
        -- intros x Hx. destruct (iv_dom _ _ _ _ _ _ _ _ _ _ Hinv a x Hx). congruence.
      * destruct k as [|[|k]]; [|by injection Hvk as <-|done]. injection Hvk as <-.
        apply (linked_safe_exact owned en h) with (o := o) (e := x); try done.
        -- right. by exists d, id, t.
        -- apply (body_kid fn (unparen r)); [by apply body_unparen|]. rewrite E. left.
      * destruct k as [|[|k]]; [|by injection Hvk as <-|done]. injection Hvk as <-. intros a Ha.
        destruct (made_inv _ _ _ _ _ Hm Ha) as [Hn Hcl']. split_and!.
        -- destruct (h0 !! a) as [cl0|] eqn:E0; [|done]. by rewrite (lookup_weaken _ _ _ _ E0 (fr_sub _ _ _ _ _ _ Hfr)) in Hn.
        -- eexists. split; [exact Hcl'|]. intros c [[Hc|Hc] Hne]; cbn in Hc; [|done].
           rewrite (di_assert _ _ _ Hdi lhs rhs r id t x et l o) in Hc; first [done|set_solver].
        -- intros y Hy. destruct (iv_dom _ _ _ _ _ _ _ _ _ _ Hinv a y Hy). congruence.
      * destruct k as [|[|k]]; [by injection Hvk as <-|by injection Hvk as <-|done].
      * exfalso. pose proof (fun ev => several_quiet pk lk fa fn Hcl o d ev He Has Hn1) as Hq.
        destruct (as_call (unparen r)) as [[f args]|] eqn:Ec; [|by eapply Hq, de_no_call].
        eapply Hq, (de_no_signature _ _ _ _ d f args); [done|]. intros ps rs b. by apply (Hn2 f args).
    + intros x o s Hcf Hn HPo ->. exfalso.
      destruct (field_form lhs rhs k l x o Hw Hl Hcf Hn) as (body&i&sel&et&name&pos&Hbo'&Hout&Hse&Hi&Ho&Het&Hf&Hna&Hty).
      destruct Het as (t&n&Ht&Hnt&Hfa). destruct rhs as [|r0 rs]; [done|].
      eapply Hcl, (fu_field _ _ _ _ o); [by apply (cl_error _ _ _ HP)|]. apply (fd_several _ _ _ _ body lhs (r0 :: rs) k et name pos r0 rs); try done.
      exists l, x, sel, i, t, n. split_and!; try done. congruence.
    + intros o a Ho Hu Hns ->. exfalso. apply (Hno l o); try done. by eapply elem_of_list_lookup_2.
    + by apply (Hv1 k).
Qed.
End steps.

(** ** The induction *)
Section main.
Context (pk : package) (lk : lookup_table) (fa : facts) (ext : behaviour) (D : fid -> Prop).
Hypothesis Hho : honest fa ext.
Hypothesis Hdi : forall g fn, pk_funcs pk !! g = Some fn -> disciplined pk fa fn.
Hypothesis Hrs : forall g fn, pk_funcs pk !! g = Some fn -> resolved pk lk fa fn.
Hypothesis HD : forall f g, D f -> passes_on pk lk fa f g -> D g.
Hypothesis Hcl : forall f fn, D f -> pk_funcs pk !! f = Some fn -> clean pk lk fa fn.
Notation info := (pk_info pk).
Notation may := (may_return pk lk fa).

Lemma variable_target fn en e f args i o e' : disciplined pk fa fn -> e ∈ body_nodes fn -> as_call (unparen e) = Some (f, args) -> plain_call pk fa f ->
  names_value pk (unparen f) i o -> en o = VFun e' -> (forall ev, ~ call_event pk lk fa fn (unparen e) f args ev) -> error_call pk fn f -> functions_inv pk fa fn en ->
  forall g, value_target pk lk fa e' g -> call_target pk lk fa fn f g.
Proof.
  intros Hd Hb Hc Hp Hn He Hev Herr Hfi g Hg.
  assert (function_variable pk (unparen f) i) as Hfv. { destruct Hn as (?&?&?&?). split; [done|]. by exists o. }
  assert (forall ev, ~ variable_call_event pk lk fa fn i ev) as Hq. { intros ev H. apply (Hev ev). destruct Hp. by apply (ce_variable _ _ _ _ _ _ _ i). }
  assert (tracked pk fn None ∅ i o) as Ht.
  { destruct Hn as (Hi&Ho&_). apply tracked_start; [|set_solver]. split_and!; [done| |].
    - intros Hnil. rewrite (di_nil _ _ _ Hd i) in Ho; [done| |done]. left. apply (me_body _ _ (unparen f)); [|done].
      apply body_unparen, (body_kid fn (unparen e)); [by apply body_unparen|]. destruct (unparen e) as [id k kids]. destruct k; try done.
      destruct kids; [done|]. injection Hc as -> ->. left.
    - intros Hu. eapply Hq, (la_origin _ _ _ _ _ i). split; [done|by left]. }
  destruct (Hfi f i o Herr Hp Hfv Ht) as [_ Hok]. destruct (Hok e' He) as (Hnf&Hfu&o'&Ho'&Hae). destruct Hp as [Hp1 Hp2].
  assert (unparen e' = e') as Hu. { destruct Hae as (r&_&->&_). apply unparen_idem. }
  apply (ct_variable _ _ _ _ _ _ i o' e'); try done. by rewrite Hu.
Qed.

Notation eval := (eval pk lk fa ext). Notation apply := (apply pk lk fa ext). Notation evals := (evals pk lk fa ext).
Notation several := (several pk lk fa ext). Notation reached := (reached pk lk fa ext). Notation exec := (exec pk lk fa ext).
Lemma sound_all :
  (forall fn en h e h' v, eval fn en h e h' v -> forall f, pk_funcs pk !! f = Some fn -> D f -> good_eval pk lk fa ext fn en h e h' v) /\
  (forall h e h' v, apply h e h' v -> forall f fn, pk_funcs pk !! f = Some fn -> (forall g, value_target pk lk fa e g -> D g) -> apply_ok pk lk fa fn h e h' v) /\
  (forall fn en h es h' vs, evals fn en h es h' vs -> forall f, pk_funcs pk !! f = Some fn -> D f -> known_env en h ->
     forall k v, vs !! k = Some v -> exists r ha hb, es !! k = Some r /\ h ⊆ ha /\ hb ⊆ h' /\ good_eval pk lk fa ext fn en ha r hb v) /\
  (forall fn en h r h' vs, several fn en h r h' vs -> forall f, pk_funcs pk !! f = Some fn -> D f -> good_several pk lk fa ext fn en h r h' vs) /\
  (forall fn h0 vals en h, reached fn h0 vals en h -> forall f, pk_funcs pk !! f = Some fn -> D f -> forall P, closed pk fn P ->
     exists owned, inv pk lk fa fn P vals h0 owned en h) /\
  (forall h0 g vals h v, exec h0 g vals h v -> D g -> result_ok pk lk fa h0 g vals h v).
Proof.
  destruct (frame_all pk lk fa ext Hho Hdi) as (Fe&Fa&Fes&Fs&Fr&Fx).
  apply exec_mutind.
  - intros fn en h e i H1 H2 H3 f Hf HDf. split; [by apply (ev_nil _ _ _ _ _ _ _ _ i)|]. intros vs f' args _ Hc.
    destruct (ident_form pk fa _ _ H1) as (?&_). congruence.
  - intros fn en h e i o H1 H2 H3 f Hf HDf. split; [by apply (ev_var _ _ _ _ _ _ _ _ i)|]. intros vs f' args _ Hc.
    destruct H1 as (H1&_). destruct (ident_form pk fa _ _ H1) as (?&_). congruence.
  - intros fn en h e i o a cl h' v H1 H2 H3 H4 Hm f Hf HDf. split; [by apply (ev_copy _ _ _ _ _ _ _ _ i o a cl)|]. intros vs f' args _ Hc.
    destruct H1 as (H1&_). destruct (ident_form pk fa _ _ H1) as (?&_). congruence.
  - intros fn en h e id x i o H1 H2 H3 f Hf HDf. split; [by apply (ev_address _ _ _ _ _ _ _ _ id x i)|]. intros vs f' args _ Hc. by rewrite H2 in Hc.
  - intros fn en h e et s h' v H1 H2 H3 H4 Hm f Hf HDf. split; [by apply (ev_new _ _ _ _ _ _ _ _ et s)|]. intros vs f' args _ Hc.
    destruct (creates_form _ H1) as (_&?&_). congruence.
  - intros fn en h e s H1 f Hf HDf. split; [by apply ev_string|]. by intros vs f' args _ _ _ _ _ _ a ?.
  - intros fn en h e H1 f Hf HDf. split; [by apply ev_function|]. by intros vs f' args _ _ _ _ _ _ a ?.
  - intros fn en h e h' v H1 H2 H3 Hu f Hf HDf. split; [by apply ev_name|]. intros vs f' args _ Hc.
    destruct (call_form pk fa _ _ _ Hc) as (Hi&Hs&_). destruct H2 as [?|(?&?&_)]; congruence.
  - intros fn en h e h' v H1 H2 Hu f Hf HDf. split; [by apply ev_opaque|]. intros vs f' args _ Hc.
    destruct (opaque_form pk fa _ H2) as (_&?&_). congruence.
  - intros fn en h e f args et s h' v H1 H2 H3 H4 Hm f' Hf HDf. split; [by apply (ev_conversion _ _ _ _ _ _ _ _ f args et s)|].
    by apply (call_conversion pk lk fa fn (Hdi _ _ Hf) (Hrs _ _ Hf) (Hcl _ _ HDf Hf) en h e f args et s h' v).
  - intros fn en h e f args o s vals h' v H1 H2 H3 H4 H5 Hx f' Hf HDf. split; [by apply (ev_declared _ _ _ _ _ _ _ _ f args o s vals)|].
    apply (call_declared pk lk fa fn (Hdi _ _ Hf) (Hrs _ _ Hf) (Hcl _ _ HDf Hf) en h e f args o s vals h' v); try done. by apply (Hho o).
  - intros fn en h e f args g vals h' v H1 H2 H3 H4 H5 Hx IH f' Hf HDf. split; [by apply (ev_call _ _ _ _ _ _ _ _ f args g vals)|].
    intros vs f2 args2 Hb Hc Hev Herr. assert (f2 = f /\ args2 = args) as [-> ->] by (split; congruence).
    apply (call_package pk lk fa fn (Hdi _ _ Hf) (Hrs _ _ Hf) (Hcl _ _ HDf Hf) en h e f args g vals h' v); try done.
    + inversion Hx; subst; eauto.
    + apply IH. apply (HD f'); [done|]. exists fn, f. split_and!; try done. destruct H3. by apply ct_package.
  - intros fn en h e f args i o e' h' v H1 H2 H3 H4 H5 Hx IH f' Hf HDf. split; [by apply (ev_call_variable _ _ _ _ _ _ _ _ f args i o e')|].
    intros vs f2 args2 Hb Hc Hev Herr Hfi. assert (f2 = f /\ args2 = args) as [-> ->] by (split; congruence).
    apply (call_variable pk lk fa fn (Hdi _ _ Hf) (Hrs _ _ Hf) (Hcl _ _ HDf Hf) en h e f args i o e' h' v); try done.
    apply (IH f'); [done|]. intros g Hg. apply (HD f'); [done|]. exists fn, f. split_and!; try done.
    by apply (variable_target fn en e f args i o e' (Hdi _ _ Hf)).
  - intros fn en h e f args i o h' v H1 H2 H3 H4 H5 Hu f' Hf HDf. split; [by apply (ev_call_unknown _ _ _ _ _ _ _ _ f args i o)|].
    by apply (call_unknown pk lk fa fn (Hdi _ _ Hf) (Hrs _ _ Hf) (Hcl _ _ HDf Hf) en h e f args i o h' v).
  - intros fn en h e f args h' v H1 H2 H3 H4 H5 H6 Hu f' Hf HDf. split; [by apply (ev_call_unresolved _ _ _ _ _ _ _ _ f args)|].
    by apply (call_unresolved pk lk fa fn (Hrs _ _ Hf) en h e f args h' v).
  - intros h e o s vals h' v H1 H2 Hx f fn Hf Hvt. apply (apply_declared pk lk fa fn h e o s vals); try done. by apply (Hho o).
  - intros h e g vals h' v H1 H2 Hx IH f fn Hf Hvt. intros Hnf Hfu Hev.
    assert (D g) as HDg.
    { apply Hvt. destruct (as_funclit e) as [g'|] eqn:Ef.
      - destruct e as [id k kids]. destruct k; try done. injection Ef as ->. inversion H2; subst; try done. by eapply vt_literal.
      - apply vt_name; try done. apply (function_is_name pk); [done|]. congruence. }
    apply (apply_package pk lk fa fn (Hrs _ _ Hf) h e g vals h' v); try done; [inversion Hx; subst; eauto|by apply IH].
  - intros h e h' v H1 H2 Hu f fn Hf Hvt. by apply apply_unresolved.
  - intros fn en h f Hf HDf Hk k v Hv. by rewrite lookup_nil in Hv.
  - intros fn en h e es h1 v h2 vs He IH1 Hes IH2 f Hf HDf Hk. destruct (Fe _ _ _ _ _ _ He Hk) as [Hs1 _].
    assert (known_env en h1) as Hk1 by (apply (known_env_grows _ h); [done|by apply sub_grows]).
    destruct (Fes _ _ _ _ _ _ Hes Hk1) as [Hs2 _].
    intros [|k] w Hw.
    + injection Hw as <-. exists e, h, h1. split_and!; try done. by apply (IH1 f).
    + destruct (IH2 f Hf HDf Hk1 k w Hw) as (r&ha&hb&Hr&Ha&Hb&Hg). exists r, ha, hb. split_and!; try done. by etrans.
  - intros fn en h r f args ps rs b h1 v h2 vs H1 H2 He IH Hs Hv _ f' Hf HDf. apply (gs_call _ _ _ _ _ _ _ _ _ _ f args ps rs b h1 v); try done. by apply (IH f').
  - intros fn en h r id t x h1 v H1 He IH f' Hf HDf. apply (gs_assert _ _ _ _ _ _ _ _ _ _ id t x v); try done. by apply (IH f').
  - intros fn en h r id t x et h1 v H1 H2 Hm f' Hf HDf. by apply (gs_zero _ _ _ _ _ _ _ _ _ _ id t x et v).
  - intros fn en h r id t x H1 f' Hf HDf. by apply gs_nil.
  - intros fn en h r h1 vs H1 H2 Hs _ f' Hf HDf. by apply gs_others.
  - intros fn h0 vals en Hst f Hf HDf P HP. exists (fun _ _ => False). destruct Hst as (_&Hin&_). split; [| |done].
    + intros o HPo a Ha. destruct (error_var_inside pk fn o (cl_error _ _ _ HP o HPo)) as [H1 H2]. rewrite (Hin o H1 H2) in Ha. done.
    + intros o a Hu Ha. destruct (di_local _ _ _ (Hdi _ _ Hf) o Hu) as [H1 H2]. rewrite (Hin o H1 H2) in Ha. done.
  - intros fn h0 vals en h lhs rhs h1 vs en' h' Hre IH Hw Hlen Hev IHe Hst f Hf HDf P HP. destruct (IH f Hf HDf P HP) as [owned Hinv].
    pose proof (Fr _ _ _ _ _ Hre (Hdi _ _ Hf)) as Hfr. destruct (Fes _ _ _ _ _ _ Hev (fr_known _ _ _ _ _ _ Hfr)) as [Hs1 Hv1].
    apply (assign_step pk lk fa ext fn (Hdi _ _ Hf) (Hrs _ _ Hf) (Hcl _ _ HDf Hf) P vals h0 HP owned en h lhs rhs h1 vs en' h'); try done.
    + by apply (codes_reached pk lk fa ext fn (Hdi _ _ Hf) (Hrs _ _ Hf) (Hcl _ _ HDf Hf) fn h0 vals en h).
    + by apply (functions_reached pk lk fa ext fn (Hdi _ _ Hf) (Hrs _ _ Hf) (Hcl _ _ HDf Hf) fn h0 vals en h).
    + apply (IHe f); try done. by apply (fr_known _ _ _ _ _ _ Hfr).
  - intros fn h0 vals en h lhs rhs r h1 vs en' h' Hre IH Hw Hlen Hr Hev IHe Hst f Hf HDf P HP. destruct (IH f Hf HDf P HP) as [owned Hinv].
    pose proof (Fr _ _ _ _ _ Hre (Hdi _ _ Hf)) as Hfr. destruct (Fs _ _ _ _ _ _ Hev (fr_known _ _ _ _ _ _ Hfr)) as [Hs1 Hv1].
    apply (several_step pk lk fa ext fn (Hdi _ _ Hf) (Hrs _ _ Hf) (Hcl _ _ HDf Hf) P vals h0 HP owned en h lhs rhs r h1 vs en' h'); try done.
    + by apply (codes_reached pk lk fa ext fn (Hdi _ _ Hf) (Hrs _ _ Hf) (Hcl _ _ HDf Hf) fn h0 vals en h).
    + by apply (functions_reached pk lk fa ext fn (Hdi _ _ Hf) (Hrs _ _ Hf) (Hcl _ _ HDf Hf) fn h0 vals en h).
    + by apply (IHe f).
  - intros fn h0 vals en h lhs h1 vs en' h' Hre IH Hw Hs1 Hv1 Hst f Hf HDf P HP. destruct (IH f Hf HDf P HP) as [owned Hinv].
    pose proof (Fr _ _ _ _ _ Hre (Hdi _ _ Hf)) as Hfr. eapply (range_step pk lk fa fn); eauto.
  - intros fn h0 vals en h o et h' v Hre IH Hz Hm f Hf HDf P HP. destruct (IH f Hf HDf P HP) as [owned Hinv].
    pose proof (Fr _ _ _ _ _ Hre (Hdi _ _ Hf)) as Hfr. eapply (zero_step pk lk fa fn); eauto.
  - intros fn h0 vals en h o h' v Hre IH Ho Hu f Hf HDf P HP. destruct (IH f Hf HDf P HP) as [owned Hinv]. eapply (outside_step pk lk fa fn); eauto.
  - intros fn h0 vals en h o stmt e h' v Hre IH Hde Hna _ _ _ _ f Hf. by destruct (di_defer _ _ _ (Hdi _ _ Hf) o Hde).
  - intros fn h0 vals en h e h' v Hre IH _ Hev _ f Hf HDf P HP. destruct (IH f Hf HDf P HP) as [owned Hinv]. exists owned.
    pose proof (Fr _ _ _ _ _ Hre (Hdi _ _ Hf)) as Hfr. destruct (Fe _ _ _ _ _ _ Hev (fr_known _ _ _ _ _ _ Hfr)) as [Hs1 _].
    by apply (inv_mono _ _ _ _ _ _ _ _ _ h).
  - intros fn h0 vals en h a cl s Hre IH Hfe _ f Hf. by destruct (di_field_pointer _ _ _ (Hdi _ _ Hf)).
  - intros h0 g fn vals en h stmt e h' v Hg Hre IH Hs Hr He IHe Han HDg gn Hgn. assert (gn = fn) as -> by congruence. clear Hgn.
    pose proof (Hdi _ _ Hg) as Hd. pose proof (Hrs _ _ Hg) as Hre'. pose proof (Hcl _ _ HDg Hg) as Hc.
    assert (~ overwritten pk stmt) as Hno. { intros (cs&Ha). exact (Han _ Ha). }
    pose proof (expr_var_closed pk lk fa fn Hd Hre' Hc stmt e Hs Hno Hr) as HP. destruct (IH g Hg HDg _ HP) as [owned Hinv].
    pose proof (Fr _ _ _ _ _ Hre Hd) as Hfr. destruct (IHe g Hg HDg) as [_ Hco]. intros a Ha.
    destruct (eval_safe pk lk fa ext fn Hd Hre' Hc (expr_var pk fn e) vals h0 owned en h e h' v) with (a := a) as (K1&(cl&K2&K3)&_); try done.
    + by apply (codes_reached pk lk fa ext fn Hd Hre' Hc fn h0 vals en h).
    + by apply (functions_reached pk lk fa ext fn Hd Hre' Hc fn h0 vals en h).
    + by apply (returned_body fn stmt).
    + by apply (returned_quiet pk lk fa fn Hc stmt).
    + intros i o Hi Hl. apply (ev_root _ _ _ i); [done|]. apply tracked_start; [done|set_solver].
    + intros f args Hf. exists e, args. split; [done|]. left. by exists stmt.
    + split; [done|]. exists cl. split; [done|]. intros c Hcc.
      assert (expr_code pk lk fa may fn e c -> may g c) as Hown.
      { intros Hx. apply (mr_own _ _ _ _ fn); [done|]. apply (oc_return _ _ _ _ _ _ stmt); [done|].
        destruct (annotation_total pk stmt) as [[q|] Hq]; [|by apply (rc_plain _ _ _ _ _ _ _ e)].
        pose proof (Han q Hq) as Hsub. destruct q as [cs|add sub]; [done|]. apply (rc_keep _ _ _ _ _ _ _ add sub e); try done. apply Hsub. exists a, cl. destruct Hcc. done. }
      destruct (K3 c Hcc) as [Hdc|[[Hs0|[Hs1|(i&o&e'&H1&H2&H3&H4)]]|(o&HPo&[(e'&Hl&Hdc)|[Hsv|Hfa]])]].
      * left. apply Hown. by apply ec_direct.
      * destruct Hcc as [_ Hne]. done.
      * by right.
      * left. apply (mr_own _ _ _ _ fn); [done|]. by apply (oc_parameter _ _ _ _ _ _ i o e').
      * left. apply Hown. by apply (ec_var _ _ _ _ _ _ _ o e').
      * left. apply Hown. by apply (ec_several _ _ _ _ _ _ _ o).
      * left. apply (mr_own _ _ _ _ fn); [done|]. apply (oc_field _ _ _ _ _ _ o); [|done]. by exists stmt, e.
  - intros h0 g fn vals en h stmt an h' v Hg Hre IH Hs Han Hp HDg gn Hgn. assert (gn = fn) as -> by congruence.
    pose proof (Fr _ _ _ _ _ Hre (Hdi _ _ Hg)) as Hfr.
    assert (fresh_error h (fun c => may g c \/ passed_code pk fa fn vals c) h' v) as Hf.
    { apply (fresh_promised _ _ _ _ _ Hp). intros c Hne Hc. left. apply (mr_own _ _ _ _ fn); [done|]. apply (oc_return _ _ _ _ _ _ stmt); [done|].
      destruct an as [cs|add sub]; [by apply (rc_overwrite _ _ _ _ _ _ _ cs)|by apply (rc_add _ _ _ _ _ _ _ add sub)]. }
    intros a Ha. destruct (Hf a Ha) as (Hn&Hrest). split; [|done].
    destruct (h0 !! a) as [cl0|] eqn:E; [|done]. by rewrite (lookup_weaken _ _ _ _ E (fr_sub _ _ _ _ _ _ Hfr)) in Hn.
  - intros h0 g fn vals en h o Hg Hre IH Hde Hna. by destruct (di_defer _ _ _ (Hdi _ _ Hg) o Hde).
  - intros h0 g fn vals en h fields fl et h' v Hg Hre IH Hde Hft Hl Hst Hm HDg gn Hgn. assert (gn = fn) as -> by congruence.
    pose proof (Fr _ _ _ _ _ Hre (Hdi _ _ Hg)) as Hfr. intros a Ha. destruct Hm as [b Hb]. injection Ha as ->. split.
    + destruct (h0 !! a) as [cl0|] eqn:E; [|done]. by rewrite (lookup_weaken _ _ _ _ E (fr_sub _ _ _ _ _ _ Hfr)) in Hb.
    + exists (Cell (et_codes et) []). split; [by rewrite lookup_insert|]. intros c [[Hc|Hc] Hne]; cbn in Hc; [|done].
      rewrite (di_recover _ _ _ (Hdi _ _ Hg) fields fl et) in Hc by done. set_solver.
  - intros h0 g fn vals en h Hg Hre IH HDg gn Hgn a Ha. done.
Qed.
End main.
