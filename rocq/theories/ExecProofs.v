(** * Proofs about executions: the errors that exist before a call are not changed by it. *)
From Coq Require Import Ascii String.
From stdpp Require Import base list gmap.
From Verif Require Import GoString ErrorCode Scc CodeSet Annotation Constant GoAst Taint Analyse
  SpecCodes SpecTaint SpecMay SpecProgram SpecEvents SpecExec SpecSound OwnProofs.

Scheme eval_rec := Minimality for eval Sort Prop
  with apply_rec := Minimality for apply Sort Prop
  with evals_rec := Minimality for evals Sort Prop
  with several_rec := Minimality for several Sort Prop
  with reached_rec := Minimality for reached Sort Prop
  with exec_rec := Minimality for exec Sort Prop.
Combined Scheme exec_mutind from eval_rec, apply_rec, evals_rec, several_rec, reached_rec, exec_rec.

(** ** Syntax *)
Lemma unparen_idem n : unparen (unparen n) = unparen n.
Proof.
  revert n. fix IH 1. intros [i k kids]. destruct k; try reflexivity. destruct kids as [|x [|y l]]; try reflexivity. exact (IH x).
Qed.
Lemma unparen_not_paren n i x : unparen n <> Node i KParen [x].
Proof.
  revert n. fix IH 1. intros [j k kids]. destruct k; try discriminate. destruct kids as [|y [|z l]]; try discriminate. exact (IH y).
Qed.
Lemma walk_unparen n : unparen n ∈ walk n.
Proof.
  revert n. fix IH 1. intros [i k kids]. destruct k; try apply walk_self. destruct kids as [|x [|y l]]; try apply walk_self.
  cbn [unparen]. apply (walk_kid _ _ _ x); [left|exact (IH x)].
Qed.
Lemma body_trans fn n m : n ∈ body_nodes fn -> m ∈ walk n -> m ∈ body_nodes fn.
Proof. unfold body_nodes. destruct (fn_body fn) as [b|]; [|by intros ?%elem_of_nil]. intros Hn Hm. exact (walk_trans _ _ _ Hn Hm). Qed.
Lemma body_kid fn n m : n ∈ body_nodes fn -> m ∈ node_kids n -> m ∈ body_nodes fn.
Proof. intros Hn Hm. apply (body_trans fn n); [done|]. destruct n as [i k kids]. apply (walk_kid _ _ _ m); [done|apply walk_self]. Qed.
Lemma body_unparen fn n : n ∈ body_nodes fn -> unparen n ∈ body_nodes fn.
Proof. intros Hn. apply (body_trans fn n); [done|apply walk_unparen]. Qed.
Lemma assign_rhs n lhs rhs r : as_assign n = Some (lhs, rhs) -> r ∈ rhs -> r ∈ node_kids n.
Proof. destruct n as [i k kids]. destruct k; try done. cbn. intros [= <- <-] Hr. rewrite <-(take_drop nlhs kids). apply elem_of_app. by right. Qed.
Lemma assign_lhs n lhs rhs r : as_assign n = Some (lhs, rhs) -> r ∈ lhs -> r ∈ node_kids n.
Proof. destruct n as [i k kids]. destruct k; try done. cbn. intros [= <- <-] Hr. rewrite <-(take_drop nlhs kids). apply elem_of_app. by left. Qed.
Lemma writes_rhs pk fn lhs rhs r : writes pk fn lhs rhs -> r ∈ rhs -> r ∈ body_nodes fn.
Proof.
  intros [n l rs Hn Hl _|i names t values Hn Hv] Hr.
  - apply (body_kid fn n); [done|exact (assign_rhs _ _ _ _ Hl Hr)].
  - by apply (body_kid fn _ _ Hn).
Qed.
Lemma composite_creates e : composite e -> (forall i x, e <> Node i KParen [x]) -> creates e.
Proof.
  intros [id elts|id x Hx|id x Hx] Hp; [constructor|by destruct (Hp id x)|]. constructor.
  clear Hp. revert x Hx. fix IH 2. intros x [i elts|i y Hy|i y Hy]; [reflexivity| |reflexivity]. cbn [unparen]. exact (IH y Hy).
Qed.
Lemma composite_no_ident e : composite e -> as_ident (unparen e) = None.
Proof. revert e. fix IH 2. intros x [i elts|i y Hy|i y Hy]; [reflexivity| |reflexivity]. cbn [unparen]. exact (IH y Hy). Qed.

(** ** Memory *)
Definition grows (h h' : heap) : Prop := forall a, is_Some (h !! a) -> is_Some (h' !! a).
Lemma sub_grows h h' : h ⊆ h' -> grows h h'.
Proof. intros H a [cl Ha]. exists cl. by apply (lookup_weaken h). Qed.
Lemma grows_refl h : grows h h.
Proof. by intros a. Qed.
Global Hint Resolve grows_refl : core.
Lemma grows_trans h1 h2 h3 : grows h1 h2 -> grows h2 h3 -> grows h1 h3.
Proof. intros H1 H2 a Ha. auto. Qed.
Lemma grows_insert h a cl : grows h (<[a := cl]> h).
Proof. intros b Hb. destruct (decide (a = b)) as [->|H]; [rewrite lookup_insert; eauto|by rewrite lookup_insert_ne]. Qed.
Lemma made_sub h cl h' v : made h cl h' v -> h ⊆ h'.
Proof. intros [a Ha]. by apply insert_subseteq. Qed.
Lemma made_inv h cl h' v a : made h cl h' v -> v = VErr a -> h !! a = None /\ h' !! a = Some cl.
Proof. intros [b Hb] [= ->]. split; [done|apply lookup_insert]. Qed.
Lemma sub_insert (h0 h : heap) a cl : h0 ⊆ h -> h0 !! a = None -> h0 ⊆ <[a := cl]> h.
Proof. intros H Ha. by apply insert_subseteq_r. Qed.

(** All errors in variables exist. *)
Definition known_env (en : env) (h : heap) : Prop := forall o a, en o = VErr a -> is_Some (h !! a).
Definition known_value (h : heap) (v : value) : Prop := forall a, v = VErr a -> is_Some (h !! a).
Lemma known_env_grows en h h' : known_env en h -> grows h h' -> known_env en h'.
Proof. intros H Hg o a Ha. eauto. Qed.
Lemma known_set en h o v : known_env en h -> known_value h v -> known_env (set_var en o v) h.
Proof. intros H Hv p a. unfold set_var. case_decide; [apply Hv|apply H]. Qed.
Lemma set_same en o v : set_var en o v o = v.
Proof. unfold set_var. by rewrite decide_True. Qed.
Lemma set_other en o v p : p <> o -> set_var en o v p = en p.
Proof. intros. unfold set_var. by rewrite decide_False. Qed.
Lemma made_known h cl h' v : made h cl h' v -> known_value h' v.
Proof. intros H a Ha. destruct (made_inv _ _ _ _ _ H Ha) as [_ ->]. eauto. Qed.
Lemma promised_frame h P h' v : promised h P h' v -> h ⊆ h' /\ known_value h' v.
Proof. intros [Hs Hp]. split; [done|]. intros a ->. by destruct (Hp a eq_refl) as (_&?&_). Qed.

Section frame.
Context (pk : package) (lk : lookup_table) (fa : facts) (ext : behaviour).
Hypothesis Hho : honest fa ext.
Hypothesis Hdi : forall g fn, pk_funcs pk !! g = Some fn -> disciplined pk fa fn.
Notation info := (pk_info pk).

(** The forms of expressions exclude each other. *)
Lemma call_form e f args : as_call e = Some (f, args) ->
  as_ident e = None /\ as_selector e = None /\ as_funclit e = None /\ ~ creates e /\ ~ opaque pk fa e /\
  (forall id b x, e <> Node id (KUnary b) [x]) /\ (forall id elts, e <> Node id KComposite elts) /\ (forall id kids, e <> Node id KBasicLit kids) /\
  (forall id t kids, e <> Node id (KTypeAssert t) kids).
Proof.
  destruct e as [id k kids]. destruct k; try done. intros _. split_and!; try done.
  - by inversion 1.
  - intros [? ? [= ]|? ? ? [= ]|Hc|et Hc|? ? ? [= <- <- <-] H]; [by inversion Hc|by inversion Hc|done].
Qed.
Lemma ident_form e i : as_ident e = Some i ->
  as_call e = None /\ as_selector e = None /\ as_funclit e = None /\ ~ creates e /\ ~ opaque pk fa e /\ (forall id b x, e <> Node id (KUnary b) [x]).
Proof.
  destruct e as [id k kids]. destruct k; try done. intros _. split_and!; try done.
  - by inversion 1.
  - intros [? ? [= ]|? ? ? [= ]|Hc|et Hc|? ? ? [= <- <- <-] H]; [by inversion Hc|by inversion Hc|done].
Qed.
Lemma creates_form e : creates e ->
  as_ident e = None /\ as_call e = None /\ as_selector e = None /\ as_funclit e = None /\
  (forall id x, e = Node id (KUnary true) [x] -> as_ident (unparen x) = None).
Proof. intros [id elts|id kids|id x Hx]; split_and!; try done; by intros ? ? [= _ <-]. Qed.

Lemma opaque_form e : opaque pk fa e -> as_ident e = None /\ as_call e = None /\ as_selector e = None /\ as_funclit e = None.
Proof.
  intros [? ? ->|? ? ? -> ? ? ?|Hc _|? Hc _ _ _|? k ? -> H]; try done; try (destruct (creates_form _ Hc) as (?&?&?&?&_); done).
  by destruct k.
Qed.

(** A new error is not shared. *)
Lemma eval_new fn en h r h' v a : new_error pk fa r -> eval pk lk fa ext fn en h r h' v -> v = VErr a -> h !! a = None.
Proof.
  intros [(i&Hi&Hob&Hna)|[Hc [et Het]]] He ->.
  - destruct (ident_form _ _ Hi) as (Hca&Hse&Hfu&Hcr&Hop&Hun). inversion He; subst; try congruence; try done;
      try (match goal with H : names_value _ _ _ _ |- _ => destruct H as (?&?&_) end; congruence);
      try (match goal with H : unparen _ = Node _ _ _ |- _ => exfalso; exact (Hun _ _ _ H) end);
      match goal with H : _ \/ _ |- _ => destruct H as [?|(?&?&?&?)] end; congruence.
  - assert (creates (unparen r)) as Hcr by (apply composite_creates; [done|apply unparen_not_paren]).
    destruct (creates_form _ Hcr) as (Hid&Hca&Hse&Hfu&Hun). inversion He; subst; try congruence;
      try (match goal with H : names_value _ _ _ _ |- _ => destruct H as (?&?&_) end; congruence).
    + match goal with H : unparen _ = Node _ _ _, H' : names_value _ _ _ _ |- _ => pose proof (Hun _ _ H); destruct H' as (?&?&_) end. congruence.
    + match goal with H : made _ _ _ _ |- _ => by destruct (made_inv _ _ _ _ _ H eq_refl) end.
    + match goal with H : _ \/ _ |- _ => destruct H as [?|(?&?&?&?)] end; congruence.
    + match goal with H : opaque _ _ _ |- _ => destruct H as [? ? E|? ? ? E ?|? Hno|? ? ? ? Hno|? ? ? E ?] end.
      * rewrite E in Hcr. inversion Hcr.
      * rewrite E in Hcr. inversion Hcr; subst. congruence.
      * by destruct (Hno et).
      * done.
      * rewrite E in Hcr. inversion Hcr; by subst.
Qed.

(** What is true while a function is executed: the memory of before is unchanged, and the errors that are changed in place are new. *)
Definition private (fn : func) (h0 : heap) (en : env) : Prop := forall o a, updated pk fa fn o -> en o = VErr a -> h0 !! a = None.
Record framed (fn : func) (h0 : heap) (en : env) (h : heap) : Prop := {
  fr_sub : h0 ⊆ h; fr_known : known_env en h; fr_private : private fn h0 en
}.

Lemma private_set fn h0 en o v : private fn h0 en -> (updated pk fa fn o -> forall a, v = VErr a -> h0 !! a = None) -> private fn h0 (set_var en o v).
Proof. intros H Hv p a Hp. unfold set_var. case_decide as Hd; [subst p; eauto|eauto]. Qed.

Lemma store_frame fn h0 en0 l v en h en' h' : disciplined pk fa fn -> (exists lhs, targets pk fn lhs /\ l ∈ lhs) ->
  private fn h0 en0 -> framed fn h0 en h -> known_value h v ->
  (forall o a, names_var l o -> updated pk fa fn o -> ~ struct_var pk fa fn o -> v = VErr a -> h0 !! a = None) ->
  store pk fa fn en0 l v en h en' h' -> framed fn h0 en' h' /\ grows h h'.
Proof.
  intros Hd (lhs&Hl&Hin) H0 [Hsub Hkn Hpr] Hv Hnew Hs. destruct Hs as [i o Hi Ho Hst|i o b cl h' v' Hi Ho Hst -> Hb Hm|i o b cl a Hi Ho Hst -> Hb Ha Hsa|i Hi Ho|
    x i o a cl s Hf Hi Ho Ha Hcl ->|x a cl s Hf Hno Hcl|et b cl a Hi Hst -> Hb Hsa|Hi Hf Hst|a cl s Hf Hcl].
  - split; [|done]. split; [done|by apply known_set|]. apply private_set; [done|]. intros Hu a ->.
    apply (Hnew o a); [by exists i|done| |done]. intros Hsv. by apply (Hst Hsv a).
  - split; [|by apply sub_grows, (made_sub _ _ _ _ Hm)]. split.
    + etrans; [exact Hsub|exact (made_sub _ _ _ _ Hm)].
    + apply known_set; [|exact (made_known _ _ _ _ Hm)]. apply (known_env_grows _ h); [done|]. by apply sub_grows, (made_sub _ _ _ _ Hm).
    + apply private_set; [done|]. intros _ a Ha. destruct (made_inv _ _ _ _ _ Hm Ha) as [Hn _].
      destruct (h0 !! a) as [cl0|] eqn:E; [|done]. rewrite (lookup_weaken _ _ _ _ E Hsub) in Hn. done.
  - split; [|apply grows_insert]. assert (updated pk fa fn o) as Hu by (apply (up_struct _ _ _ _ lhs l); [done|done|done|by exists i]).
    split; [apply sub_insert; [done|by apply (H0 o)]|apply (known_env_grows _ h); [done|apply grows_insert]|done].
  - done.
  - split; [|apply grows_insert]. assert (updated pk fa fn o) as Hu by (apply (up_field _ _ _ _ lhs l x); [done|done|done|by exists i]).
    split; [apply sub_insert; [done|by apply (H0 o)]|apply (known_env_grows _ h); [done|apply grows_insert]|done].
  - exfalso. destruct Hl as [[rhs Hw]|Hr].
    + destruct (di_fields _ _ _ Hd lhs rhs l x Hw Hin Hf) as (_&_&i&o&Hi&Ho).
      apply (Hno i o); [|done]. destruct x as [ix kx kids]. destruct kx; done.
    + by apply (di_open_fields _ _ _ Hd lhs l x).
  - exfalso. by apply (di_places _ _ _ Hd lhs l et).
  - done.
  - exfalso. by apply (di_promoted _ _ _ Hd lhs l).
Qed.

Lemma stores_frame fn h0 en0 lhs0 lhs vs en h en' h' : disciplined pk fa fn -> targets pk fn lhs0 -> (forall l, l ∈ lhs -> l ∈ lhs0) ->
  private fn h0 en0 -> framed fn h0 en h -> (forall k v, vs !! k = Some v -> known_value h v) ->
  (forall k l v o a, lhs !! k = Some l -> vs !! k = Some v -> names_var l o -> updated pk fa fn o -> ~ struct_var pk fa fn o -> v = VErr a -> h0 !! a = None) ->
  stores pk fa fn en0 lhs vs en h en' h' -> framed fn h0 en' h' /\ grows h h'.
Proof.
  intros Hd Ht Hin H0 Hf Hv Hnew Hs. induction Hs as [vs en h|l ls v vs en h en1 h1 en2 h2 Hst Hss IH]; [done|].
  destruct (store_frame fn h0 en0 l v en h en1 h1) as [Hf1 Hg1]; [done|exists lhs0; split; [done|apply Hin; left]|done|done|by apply (Hv 0)| |done|].
  { intros o a Ho Hu Hns Ha. by apply (Hnew 0 l v o a). }
  destruct IH as [Hf2 Hg2].
  - intros l' Hl'. apply Hin. by right.
  - done.
  - intros k w Hk a Ha. apply Hg1. by apply (Hv (S k) w Hk a).
  - intros k l' w o a Hl' Hw. by apply (Hnew (S k) l' w o a).
  - split; [done|]. by apply (grows_trans _ h1).
Qed.

Lemma evals_length fn en h es h' vs : evals pk lk fa ext fn en h es h' vs -> length vs = length es.
Proof. induction 1; cbn; congruence. Qed.

Notation eval := (eval pk lk fa ext). Notation apply := (apply pk lk fa ext). Notation evals := (evals pk lk fa ext).
Notation several := (several pk lk fa ext). Notation reached := (reached pk lk fa ext). Notation exec := (exec pk lk fa ext).
Lemma frame_all :
  (forall fn en h e h' v, eval fn en h e h' v -> known_env en h -> h ⊆ h' /\ known_value h' v) /\
  (forall h e h' v, apply h e h' v -> h ⊆ h' /\ known_value h' v) /\
  (forall fn en h es h' vs, evals fn en h es h' vs -> known_env en h -> h ⊆ h' /\ forall k v, vs !! k = Some v -> known_value h' v) /\
  (forall fn en h r h' vs, several fn en h r h' vs -> known_env en h -> h ⊆ h' /\ forall k v, vs !! k = Some v -> known_value h' v) /\
  (forall fn h0 vals en h, reached fn h0 vals en h -> disciplined pk fa fn -> framed fn h0 en h) /\
  (forall h0 g vals h v, exec h0 g vals h v -> h0 ⊆ h /\ known_value h v).
Proof.
  apply exec_mutind.
  - intros fn en h e i _ _ _ _. by split; [|intros a ?].
  - intros fn en h e i o _ _ _ Hk. split; [done|]. intros a Ha. by apply (Hk o).
  - intros fn en h e i o a cl h' v _ _ _ _ Hm _. split; [exact (made_sub _ _ _ _ Hm)|exact (made_known _ _ _ _ Hm)].
  - intros fn en h e id x i o _ _ _ Hk. split; [done|]. intros a Ha. by apply (Hk o).
  - intros fn en h e et s h' v _ _ _ _ Hm _. split; [exact (made_sub _ _ _ _ Hm)|exact (made_known _ _ _ _ Hm)].
  - intros fn en h e s _ _. by split; [|intros a ?].
  - intros fn en h e _ _. by split; [|intros a ?].
  - intros fn en h e h' v _ _ _ Hu _. exact Hu.
  - intros fn en h e h' v _ _ Hu _. exact Hu.
  - intros fn en h e f args et s h' v _ _ _ _ Hm _. split; [exact (made_sub _ _ _ _ Hm)|exact (made_known _ _ _ _ Hm)].
  - intros fn en h e f args o s vals h' v _ _ _ Hs _ Hx _. exact (promised_frame _ _ _ _ (Hho _ _ _ _ _ _ Hs Hx)).
  - intros fn en h e f args g vals h' v _ _ _ _ _ _ IH _. exact IH.
  - intros fn en h e f args i o e' h' v _ _ _ _ _ _ IH _. exact IH.
  - intros fn en h e f args i o h' v _ _ _ _ _ Hu _. exact Hu.
  - intros fn en h e f args h' v _ _ _ _ _ _ Hu _. exact Hu.
  - intros h e o s vals h' v _ Hs Hx. exact (promised_frame _ _ _ _ (Hho _ _ _ _ _ _ Hs Hx)).
  - intros h e g vals h' v _ _ _ IH. exact IH.
  - intros h e h' v _ _ Hu. exact Hu.
  - intros fn en h _. split; [done|]. intros k v Hv. by rewrite lookup_nil in Hv.
  - intros fn en h e es h1 v h2 vs _ IH1 _ IH2 Hk. destruct (IH1 Hk) as [Hs1 Hv1]. destruct IH2 as [Hs2 Hv2].
    { apply (known_env_grows _ h); [done|by apply sub_grows]. }
    split; [by etrans|]. intros [|k] w Hw; [|by apply (Hv2 k)]. injection Hw as <-. intros a Ha. apply (sub_grows h1); [done|by apply Hv1].
  - intros fn en h r f args ps rs b h1 v h2 vs _ _ _ IH Hsub _ Hvs Hk. destruct (IH Hk) as [Hs1 _]. split; [by etrans|]. intros k w Hw a Ha. by apply (Hvs k w a).
  - intros fn en h r id t x h1 v _ _ IH Hk. destruct (IH Hk) as [Hs1 Hv1]. split; [done|]. intros [|[|k]] w [= <-]; [done|by intros a ?].
  - intros fn en h r id t x et h1 v _ _ Hm _. split; [exact (made_sub _ _ _ _ Hm)|]. intros [|[|k]] w [= <-]; [exact (made_known _ _ _ _ Hm)|by intros a ?].
  - intros fn en h r id t x _ _. split; [done|]. intros [|[|k]] w [= <-]; by intros a ?.
  - intros fn en h r h1 vs _ _ Hsub Hvs _. split; [done|]. intros k w Hw a Ha. by apply (Hvs k w a).
  - intros fn h0 vals en (H1&H2&_) Hd. split; [done|exact H1|]. intros o a Hu Ha. exfalso.
    destruct (di_local _ _ _ Hd o Hu) as [Hi Hl]. rewrite (H2 o Hi Hl) in Ha. done.
  - intros fn h0 vals en h lhs rhs h1 vs en' h' _ IH Hw Hlen Hev IHe Hst Hd. specialize (IH Hd) as [Hsub Hkn Hpr]. destruct (IHe Hkn) as [Hs1 Hv1].
    apply (stores_frame fn h0 en lhs lhs vs en h1 en' h'); [done|left; by exists rhs|done|done| |done| |done].
    + split; [by etrans|apply (known_env_grows _ h); [done|by apply sub_grows]|done].
    + intros k l v o a Hl Hvk Ho Hu Hns ->. apply elem_of_list_lookup_2 in Hl as Hl'.
      destruct (di_unshared _ _ _ Hd o lhs rhs l Hu Hns Hw Hl' Ho) as (r&->&->&Hnew).
      destruct k as [|k]; [|done]. inversion Hev as [|? ? ? ? ? ? v1 ? ? He1 He2]; subst. inversion He2; subst. injection Hvk as ->.
      pose proof (eval_new _ _ _ _ _ _ a Hnew He1 eq_refl) as Hn. destruct (h0 !! a) as [cl0|] eqn:E; [|done]. by rewrite (lookup_weaken _ _ _ _ E Hsub) in Hn.
  - intros fn h0 vals en h lhs rhs r h1 vs en' h' _ IH Hw Hlen Hr Hsv IHe Hst Hd. specialize (IH Hd) as [Hsub Hkn Hpr]. destruct (IHe Hkn) as [Hs1 Hv1].
    apply (stores_frame fn h0 en lhs lhs vs en h1 en' h'); [done|left; by exists rhs|done|done| |done| |done].
    + split; [by etrans|apply (known_env_grows _ h); [done|by apply sub_grows]|done].
    + intros k l v o a Hl Hvk Ho Hu Hns ->. exfalso. apply elem_of_list_lookup_2 in Hl as Hl'.
      destruct (di_unshared _ _ _ Hd o lhs rhs l Hu Hns Hw Hl' Ho) as (r'&->&->&Hnew). done.
  - intros fn h0 vals en h lhs h1 vs en' h' _ IH Hw Hs1 Hv1 Hst Hd. specialize (IH Hd) as [Hsub Hkn Hpr].
    apply (stores_frame fn h0 en lhs lhs vs en h1 en' h'); [done|by right|done|done| | | |done].
    + split; [by etrans|apply (known_env_grows _ h); [done|by apply sub_grows]|done].
    + intros k w Hw' a Ha. by apply (Hv1 k w a).
    + intros k l v o a Hl Hvk Ho Hu Hns ->. exfalso. apply elem_of_list_lookup_2 in Hl as Hl'.
      by destruct (di_unshared_open _ _ _ Hd o lhs l Hu Hns Hw Hl').
  - intros fn h0 vals en h o et h' v _ IH _ Hm Hd. specialize (IH Hd) as [Hsub Hkn Hpr]. split.
    + etrans; [exact Hsub|exact (made_sub _ _ _ _ Hm)].
    + apply known_set; [|exact (made_known _ _ _ _ Hm)]. apply (known_env_grows _ h); [done|]. by apply sub_grows, (made_sub _ _ _ _ Hm).
    + apply private_set; [done|]. intros _ a Ha. destruct (made_inv _ _ _ _ _ Hm Ha) as [Hn _].
      destruct (h0 !! a) as [cl0|] eqn:E; [|done]. by rewrite (lookup_weaken _ _ _ _ E Hsub) in Hn.
  - intros fn h0 vals en h o h' v _ IH Ho [Hs Hv] Hd. specialize (IH Hd) as [Hsub Hkn Hpr]. split; [by etrans| |].
    + apply known_set; [|done]. apply (known_env_grows _ h); [done|by apply sub_grows].
    + apply private_set; [done|]. intros Hu. exfalso. destruct (di_local _ _ _ Hd o Hu) as [Hi Hl]. destruct Ho as [?|[[? _]|He]]; [done|done|]. by destruct (di_exposed _ _ _ Hd o He).
  - intros fn h0 vals en h o stmt e h' v _ IH Hde Hna _ _ _ _ Hd. by destruct (di_defer _ _ _ Hd o Hde).
  - intros fn h0 vals en h e h' v _ IH _ _ IHe Hd. specialize (IH Hd) as [Hsub Hkn Hpr]. destruct (IHe Hkn) as [Hs _].
    split; [by etrans|apply (known_env_grows _ h); [done|by apply sub_grows]|done].
  - intros fn h0 vals en h a cl s _ _ Hf _ Hd. by destruct (di_field_pointer _ _ _ Hd).
  - intros h0 g fn vals en h stmt e h' v Hg _ IH _ _ _ IHe _. destruct (IH (Hdi g fn Hg)) as [Hsub Hkn _]. destruct (IHe Hkn) as [Hs Hv]. split; [by etrans|done].
  - intros h0 g fn vals en h stmt a h' v Hg _ IH _ _ Hp. destruct (IH (Hdi g fn Hg)) as [Hsub Hkn _]. destruct (promised_frame _ _ _ _ Hp) as [Hs Hv]. split; [by etrans|done].
  - intros h0 g fn vals en h o Hg _ IH _ _. destruct (IH (Hdi g fn Hg)) as [Hsub Hkn _]. split; [done|]. intros a Ha. by apply (Hkn o).
  - intros h0 g fn vals en h fields fl et h' v Hg _ IH _ _ _ _ Hm. destruct (IH (Hdi g fn Hg)) as [Hsub Hkn _].
    split; [etrans; [exact Hsub|exact (made_sub _ _ _ _ Hm)]|exact (made_known _ _ _ _ Hm)].
  - intros h0 g fn vals en h Hg _ IH. destruct (IH (Hdi g fn Hg)) as [Hsub _ _]. by split.
Qed.
End frame.
