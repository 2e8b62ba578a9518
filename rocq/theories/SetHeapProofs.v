(** * Code sets on the heap behave like values (proofs for C46). *)
From Coq Require Import Ascii String.
From stdpp Require Import base list gmap.
From Verif Require Import GoString ErrorCode CodeSet CodeSetProofs SetHeap.

Lemma inserts_spec l vs : forall h s, h !! l = Some s -> heap_inserts (Some l) vs h = Some (<[ l := list_to_set vs ∪ s ]> h).
Proof.
  induction vs as [|v vs IH]; intros h s Hl; cbn [heap_inserts].
  - f_equal. symmetry. apply insert_id. rewrite Hl. f_equal. apply set_eq. intros w. cbn. set_solver.
  - cbn [heap_insert contents mbind option_bind]. rewrite Hl. cbn [default from_option id].
    rewrite (IH _ (code_add s v)) by apply lookup_insert. rewrite insert_insert. do 2 f_equal. unfold code_add. apply set_eq. intros w. cbn. set_solver.
Qed.
Lemma slice_to_set_spec l vs h : heap_slice_to_set l vs h = Some (<[ l := list_to_set vs ]> h).
Proof.
  unfold heap_slice_to_set, heap_make. rewrite (inserts_spec l vs _ ∅) by apply lookup_insert. rewrite insert_insert. do 2 f_equal. apply set_eq. set_solver.
Qed.
Lemma union_spec l o1 o2 h : heap_union l o1 o2 h = Some (<[ l := list_to_set o1 ∪ list_to_set o2 ]> h).
Proof.
  unfold heap_union, heap_make. rewrite (inserts_spec l o1 _ ∅) by apply lookup_insert. cbn [mbind option_bind]. rewrite insert_insert.
  rewrite (inserts_spec l o2 _ (list_to_set o1 ∪ ∅)) by apply lookup_insert. rewrite insert_insert. do 2 f_equal. apply set_eq. set_solver.
Qed.
Lemma keep_spec l r o : forall h s, h !! l = Some s -> r <> Some l ->
  heap_keep l r o h = Some (<[ l := (list_to_set o ∖ contents h r) ∪ s ]> h).
Proof.
  induction o as [|v o IH]; intros h s Hl Hr; cbn [heap_keep].
  - f_equal. symmetry. apply insert_id. rewrite Hl. f_equal. apply set_eq. intros w. cbn. set_solver.
  - destruct (decide (v ∈ contents h r)) as [Hv|Hv]; cbn [mbind option_bind].
    + rewrite (IH h s Hl Hr). do 2 f_equal. apply set_eq. intros w. cbn. set_solver.
    + cbn [heap_insert contents mbind option_bind]. rewrite Hl. cbn [default from_option id].
      rewrite (IH _ (code_add s v)); [|apply lookup_insert|done]. rewrite insert_insert. do 2 f_equal.
      assert (contents (<[l:=code_add s v]> h) r = contents h r) as ->.
      { destruct r as [l'|]; [|done]. cbn. rewrite lookup_insert_ne; [done|congruence]. }
      unfold code_add. apply set_eq. intros w. cbn. set_solver.
Qed.
Lemma difference_spec l r o h : r <> Some l -> heap_difference l r o h = Some (<[ l := list_to_set o ∖ contents h r ]> h).
Proof.
  intros Hr. unfold heap_difference, heap_make. rewrite (keep_spec l r o _ ∅); [|apply lookup_insert|done]. rewrite insert_insert. do 2 f_equal.
  assert (contents (<[l:=∅]> h) r = contents h r) as ->.
  { destruct r as [l'|]; [|done]. cbn. rewrite lookup_insert_ne; [done|congruence]. }
  apply set_eq. set_solver.
Qed.
Lemma order_set s o : order_of s o -> list_to_set o = s.
Proof. intros H. unfold order_of in H. apply set_eq. intros v. rewrite elem_of_list_to_set, H. apply elem_of_elements. Qed.

Section discipline.
Context (P : setprog) (HP : check_prog P = true).

Definition allocated (h : heap) (r : ref) : Prop := forall l, r = Some l -> l ∈ dom h.
(** The state of a function: no dangling references; [X] are sets only others know of; the sets in the variables [own] are known to these variables only. *)
Record inv (X : loc -> Prop) (h : heap) (m : gmap place ref) (e : gmap string ref) (own : gset string) : Prop := {
  i_env : forall x, allocated h (var e x);
  i_mem : forall p, allocated h (held m p);
  i_hidden_env : forall x l, var e x = Some l -> ~ X l;
  i_hidden_mem : forall p l, held m p = Some l -> ~ X l;
  i_dom : forall l, X l -> l ∈ dom h;
  i_own : forall x, x ∈ own -> exists l, var e x = Some l;
  i_own_env : forall x y l, x ∈ own -> var e x = Some l -> var e y = Some l -> y = x;
  i_own_mem : forall x p l, x ∈ own -> var e x = Some l -> held m p <> Some l
}.
Definition mine (e : gmap string ref) (own : gset string) (l : loc) : Prop := exists x, x ∈ own /\ var e x = Some l.

(** What a statement does: it changes only sets of its own, ... *)
Record step_ok (X : loc -> Prop) (h : heap) (e : gmap string ref) (own : gset string) (h' : heap) (m' : gmap place ref) (r : result) (own' : option (gset string)) : Prop := {
  s_dom : dom h ⊆ dom h';
  s_same : forall l, l ∈ dom h -> ~ mine e own l -> h' !! l = h !! l;
  s_next : forall e', r = Goes e' -> exists o, own' = Some o /\ inv X h' m' e' o /\ (forall l, mine e' o l -> l ∈ dom h -> mine e own l);
  s_return : forall v, r = Returns v -> allocated h' v /\ (forall l, v = Some l -> ~ X l) /\ (forall p, allocated h' (held m' p)) /\ (forall p l, held m' p = Some l -> ~ X l);
  s_crash : r <> Crashes
}.

Lemma var_insert e x r y : var (<[ x := r ]> e) y = if decide (y = x) then r else var e y.
Proof. unfold var. destruct (decide (y = x)) as [->|Hn]; [by rewrite lookup_insert|by rewrite lookup_insert_ne]. Qed.
Lemma held_insert m p r q : held (<[ p := r ]> m) q = if decide (q = p) then r else held m q.
Proof. unfold held. destruct (decide (q = p)) as [->|Hn]; [by rewrite lookup_insert|by rewrite lookup_insert_ne]. Qed.

(** Related values. *)
Definition env_rel (h : heap) (e : gmap string ref) (ve : gmap string codeset) : Prop := forall x, value ve x = contents h (var e x).
Definition mem_rel (h : heap) (m : gmap place ref) (vm : gmap place codeset) : Prop := forall p, default ∅ (vm !! p) = contents h (held m p).
Definition res_rel (h : heap) (r : result) (vr : vresult) : Prop :=
  match r, vr with
  | Goes e, VGoes ve => env_rel h e ve
  | Returns v, VReturns s => s = contents h v
  | _, _ => False
  end.

Lemma value_insert ve x s y : value (<[ x := s ]> ve) y = if decide (y = x) then s else value ve y.
Proof. unfold value. destruct (decide (y = x)) as [->|Hn]; [by rewrite lookup_insert|by rewrite lookup_insert_ne]. Qed.
Lemma env_rel_insert h e ve x r s : env_rel h e ve -> s = contents h r -> env_rel h (<[ x := r ]> e) (<[ x := s ]> ve).
Proof. intros H -> y. rewrite var_insert, value_insert. destruct (decide _); [done|apply H]. Qed.
Lemma contents_same (h h' : heap) r : allocated h r -> (forall l, r = Some l -> h' !! l = h !! l) -> contents h' r = contents h r.
Proof. intros _ H. destruct r as [l|]; [|done]. cbn. by rewrite H. Qed.

(** Making a new set. *)
Lemma inv_fresh X h m e own x l s : inv X h m e own -> l ∉ dom h -> inv X (<[ l := s ]> h) m (<[ x := Some l ]> e) ({[ x ]} ∪ own).
Proof.
  intros [A B C D E F G K] Hl. assert (forall r, allocated h r -> allocated (<[ l := s ]> h) r) as Hal.
  { intros r Hr l' ->. rewrite dom_insert. apply elem_of_union_r. by apply Hr. }
  split.
  - intros y. rewrite var_insert. destruct (decide _); [|by apply Hal]. intros l' [= <-]. rewrite dom_insert. set_solver.
  - intros p. by apply Hal.
  - intros y l'. rewrite var_insert. destruct (decide _); [|apply C]. intros [= <-] Hx. by apply Hl, E.
  - done.
  - intros l' Hx. rewrite dom_insert. apply elem_of_union_r. by apply E.
  - intros y Hy. rewrite var_insert. destruct (decide _); [by eexists|]. apply F. set_solver.
  - intros y z l' Hy. rewrite !var_insert. destruct (decide (y = x)) as [->|Hy'], (decide (z = x)) as [->|Hz']; intros H1 H2.
    + done.
    + injection H1 as <-. exfalso. apply Hl. by apply (A z).
    + injection H2 as <-. exfalso. apply Hl. by apply (A y).
    + apply (G y z l'); [set_solver|done|done].
  - intros y p l' Hy. rewrite var_insert. destruct (decide (y = x)) as [->|Hy']; intros H1 H2.
    + injection H1 as <-. apply Hl. by apply (B p).
    + apply (K y p l'); [set_solver|done|done].
Qed.
Lemma mine_fresh (h : heap) e own x l l' : l ∉ dom h -> mine (<[ x := Some l ]> e) ({[ x ]} ∪ own) l' -> l' ∈ dom h -> mine e own l'.
Proof.
  intros Hl (y&Hy&Hv) Hd. rewrite var_insert in Hv. destruct (decide _); [injection Hv as ->; done|]. exists y. split; [set_solver|done].
Qed.
Lemma step_fresh X h m e own x l s : inv X h m e own -> l ∉ dom h ->
  step_ok X h e own (<[ l := s ]> h) m (Goes (<[ x := Some l ]> e)) (Some ({[ x ]} ∪ own)).
Proof.
  intros Hi Hl. split.
  - rewrite dom_insert. set_solver.
  - intros l' Hd _. rewrite lookup_insert_ne; [done|]. intros ->. done.
  - intros e' [= <-]. eexists. split; [done|]. split; [by apply inv_fresh|]. intros l'. by apply mine_fresh.
  - done.
  - done.
Qed.
Lemma rel_fresh X h m e own (x : string) l s : inv X h m e own -> l ∉ dom h ->
  (forall ve, env_rel h e ve -> env_rel (<[ l := s ]> h) (<[ x := Some l ]> e) (<[ x := s ]> ve)) /\ (forall vm, mem_rel h m vm -> mem_rel (<[ l := s ]> h) m vm).
Proof.
  intros Hi Hl. split.
  - intros ve He. apply env_rel_insert; [|cbn; by rewrite lookup_insert]. intros y. rewrite (He y). symmetry.
    apply contents_same; [apply (i_env _ _ _ _ _ Hi)|]. intros l' E. rewrite lookup_insert_ne; [done|]. intros <-. by apply Hl, (i_env _ _ _ _ _ Hi y).
  - intros vm Hm p. rewrite (Hm p). symmetry. apply contents_same; [apply (i_mem _ _ _ _ _ Hi)|].
    intros l' E. rewrite lookup_insert_ne; [done|]. intros <-. by apply Hl, (i_mem _ _ _ _ _ Hi p).
Qed.

(** Giving up sets and assigning a reference that is not one's own. *)
Lemma inv_less X h m e own own' : inv X h m e own -> own' ⊆ own -> inv X h m e own'.
Proof. intros [A B C D E F G K] Hs. split; eauto. Qed.
Lemma mine_less e own own' l : own' ⊆ own -> mine e own' l -> mine e own l.
Proof. intros Hs (x&Hx&Hv). exists x. auto. Qed.
Lemma inv_assign X h m e own x r : inv X h m e own -> x ∉ own -> allocated h r -> (forall l, r = Some l -> ~ X l) -> (forall l, r = Some l -> ~ mine e own l) ->
  inv X h m (<[ x := r ]> e) own.
Proof.
  intros [A B C D E F G K] Hx Hr HX Hm. split; [| |intros y l|done|done|intros y Hy|intros y z l Hy|intros y p l Hy].
  - intros y. rewrite var_insert. by destruct (decide _).
  - done.
  - rewrite var_insert. destruct (decide _); [apply HX|apply C].
  - rewrite var_insert. destruct (decide _) as [->|]; [done|]. by apply F.
  - rewrite !var_insert. destruct (decide (y = x)) as [->|]; [done|]. intros H1. destruct (decide (z = x)) as [->|]; [|by apply G].
    intros ->. exfalso. apply (Hm l eq_refl). by exists y.
  - rewrite var_insert. destruct (decide (y = x)) as [->|]; [done|]. by apply K.
Qed.
Lemma mine_assign e own x r l : x ∉ own -> mine (<[ x := r ]> e) own l <-> mine e own l.
Proof.
  intros Hx. split; intros (y&Hy&Hv); exists y; (split; [done|]); rewrite var_insert in *; destruct (decide (y = x)) as [->|]; done.
Qed.
Lemma step_assign X h m e own own' x r : inv X h m e own -> own' ⊆ own -> x ∉ own' -> allocated h r -> (forall l, r = Some l -> ~ X l) ->
  (forall l, r = Some l -> ~ mine e own' l) -> step_ok X h e own h m (Goes (<[ x := r ]> e)) (Some own').
Proof.
  intros Hi Hs Hx Hr HX Hm. split; [done|done| |done|done]. intros e' [= <-]. exists own'. split; [done|]. split.
  - apply inv_assign; [by eapply inv_less|done..].
  - intros l Hl _. apply mine_assign in Hl; [|done]. by eapply mine_less.
Qed.
Lemma step_same X h m e own own' : inv X h m e own -> own' ⊆ own -> step_ok X h e own h m (Goes e) (Some own').
Proof.
  intros Hi Hs. split; [done|done| |done|done]. intros e' [= <-]. exists own'. split; [done|]. split; [by eapply inv_less|]. intros l Hl _. by eapply mine_less.
Qed.

Lemma body_checked f fn : P !! f = Some fn -> exists o, check P ∅ (sf_body fn) = Some o.
Proof.
  intros Hf. apply bool_decide_eq_true in HP. destruct (HP f fn Hf) as [o Ho]. by exists o.
Qed.

(** The arguments of a call. *)
Lemma var_args (params : list string) (vals : list ref) x l : var (list_to_map (zip params vals)) x = Some l -> Some l ∈ vals.
Proof.
  unfold var. revert vals. induction params as [|p params IH]; intros [|v vals]; cbn; [done..|]. 
  destruct (decide (x = p)) as [->|Hn].
  - rewrite lookup_insert. cbn. intros ->. constructor.
  - rewrite lookup_insert_ne by done. intros H. constructor. by apply IH.
Qed.
Lemma args_rel h e ve (params args : list string) : env_rel h e ve ->
  env_rel h (list_to_map (zip params (var e <$> args))) (list_to_map (zip params (value ve <$> args))).
Proof.
  intros He. revert args. induction params as [|p params IH]; intros [|a args]; cbn; [done..|]. apply env_rel_insert; [apply IH|apply He].
Qed.

Lemma runs_ok h m e s evs h' m' r : runs P h m e s evs h' m' r -> forall X own o, check P own s = Some o -> inv X h m e own ->
  step_ok X h e own h' m' r o /\
  (forall vm ve, mem_rel h m vm -> env_rel h e ve -> exists vm' vr, means P vm ve s evs vm' vr /\ mem_rel h' m' vm' /\ res_rel h' r vr).
Proof.
  induction 1 as [h m e|h m e x values l h' Hl Hh|h m e x|h m e x y z l o1 o2 h' Hl Ho1 Ho2 Hh|h m e x y z l od h' Hl Hod Hh|h m e x y|h m e x v h' Hh|h m e x v Hh
    |h m e x|h m e x p|h m e x p|h m e x f args fn evs h' m' r Hf Hrun IH|h m e x|h m e s t evs1 h1 m1 e1 evs2 h2 m2 r H1 IH1 H2 IH2|h m e s t evs h' m' r H1 IH1 Hstop
    |h m e s t b evs h' m' r H1 IH1|h m e keep s|h m e keep s evs1 h1 m1 e1 evs2 h2 m2 r H1 IH1 H2 IH2|h m e keep s evs h' m' r H1 IH1 Hstop];
  intros X own o Hc Hi; cbn [check] in Hc.
  - injection Hc as <-. split; [by apply step_same|]. intros vm ve Hm He. exists vm, (VGoes ve). split; [constructor|]. done.
  - injection Hc as <-. rewrite slice_to_set_spec in Hh. injection Hh as <-. split; [by apply step_fresh|]. intros vm ve Hm He.
    destruct (rel_fresh X h m e own x l (list_to_set values) Hi Hl) as [R1 R2]. eexists vm, (VGoes _). split; [constructor|]. split; [by apply R2|by apply R1].
  - injection Hc as <-. split.
    + apply step_assign with (own := own) (m := m); [done|set_solver|set_solver|by intros ? ?|done..].
    + intros vm ve Hm He. eexists vm, (VGoes _). split; [constructor|]. split; [done|]. by apply env_rel_insert.
  - injection Hc as <-. rewrite union_spec in Hh. injection Hh as <-. split; [by apply step_fresh|]. intros vm ve Hm He.
    rewrite (order_set _ _ Ho1), (order_set _ _ Ho2).
    destruct (rel_fresh X h m e own x l (contents h (var e y) ∪ contents h (var e z)) Hi Hl) as [R1 R2].
    eexists vm, (VGoes _). split; [constructor|]. split; [by apply R2|]. rewrite (He y), (He z). by apply R1.
  - injection Hc as <-. rewrite difference_spec in Hh by (intros E; by apply Hl, (i_env _ _ _ _ _ Hi z)). injection Hh as <-. split; [by apply step_fresh|].
    intros vm ve Hm He. rewrite (order_set _ _ Hod).
    destruct (rel_fresh X h m e own x l (contents h (var e y) ∖ contents h (var e z)) Hi Hl) as [R1 R2].
    eexists vm, (VGoes _). split; [constructor|]. split; [by apply R2|]. rewrite (He y), (He z). by apply R1.
  - injection Hc as <-. split.
    + apply step_assign with (own := own) (m := m); [done|set_solver|set_solver|apply (i_env _ _ _ _ _ Hi)|intros l El; by apply (i_hidden_env _ _ _ _ _ Hi y)|].
      intros l El (z&Hz&Hv). assert (y = z) as <- by (apply (i_own_env _ _ _ _ _ Hi z y l); [set_solver|done|done]). set_solver.
    + intros vm ve Hm He. eexists vm, (VGoes _). split; [constructor|]. split; [done|]. apply env_rel_insert; [done|apply He].
  - destruct (decide (x ∈ own)) as [Hx|]; [|done]. injection Hc as <-. destruct (i_own _ _ _ _ _ Hi x Hx) as [l Hl].
    assert (h' = <[ l := code_add (contents h (Some l)) v ]> h) as E by (unfold heap_add in Hh; rewrite Hl in Hh; by injection Hh).
    clear Hh. remember (code_add (contents h (Some l)) v) as s eqn:Es. subst h'.
    assert (l ∈ dom h) as Hd by by apply (i_env _ _ _ _ _ Hi x).
    assert (dom (<[ l := s ]> h) = dom h) as Hdom by (rewrite dom_insert_L; set_solver).
    split.
    + split; [by apply reflexive_eq, eq_sym, Hdom| |intros e' [= <-]; exists own; split; [done|]; split; [|done]|done|done].
      * intros l' _ Hn. rewrite lookup_insert_ne; [done|]. intros <-. apply Hn. by exists x.
      * destruct Hi as [A B C D E F G K]. split; unfold allocated in *; try done; intros ? ?; try intros ?; rewrite Hdom; eauto.
    + intros vm ve Hm He. eexists vm, (VGoes _). split; [constructor|]. split; [|cbn [res_rel]].
      * intros p. rewrite (Hm p). symmetry. apply contents_same; [apply (i_mem _ _ _ _ _ Hi)|]. intros l' El. rewrite lookup_insert_ne; [done|].
        intros <-. by apply (i_own_mem _ _ _ _ _ Hi x p l).
      * intros y. rewrite value_insert. destruct (decide (y = x)) as [->|Hy].
        -- rewrite Hl, (He x), Hl. cbn [contents]. rewrite lookup_insert. by rewrite Es.
        -- rewrite (He y). symmetry. apply contents_same; [apply (i_env _ _ _ _ _ Hi)|]. intros l' El. rewrite lookup_insert_ne; [done|].
           intros <-. apply Hy. by apply (i_own_env _ _ _ _ _ Hi x y l).
  - destruct (decide (x ∈ own)) as [Hx|]; [|done]. destruct (i_own _ _ _ _ _ Hi x Hx) as [l Hl]. unfold heap_add in Hh. rewrite Hl in Hh. done.
  - injection Hc as <-. split; [by apply step_same|]. intros vm ve Hm He. exists vm, (VGoes ve). rewrite <- (He x). split; [constructor|]. done.
  - injection Hc as <-. split.
    + apply step_assign with (own := own) (m := m); [done|set_solver|set_solver|apply (i_mem _ _ _ _ _ Hi)|intros l El; by apply (i_hidden_mem _ _ _ _ _ Hi p)|].
      intros l El (z&Hz&Hv). by apply (i_own_mem _ _ _ _ _ Hi z p l); [set_solver| |].
    + intros vm ve Hm He. eexists vm, (VGoes _). split; [constructor|]. split; [done|]. apply env_rel_insert; [done|apply Hm].
  - injection Hc as <-. split.
    + split; [done|done| |done|done]. intros e' [= <-]. eexists. split; [done|]. split; [|intros l Hl _; eapply mine_less; [|done]; set_solver].
      destruct Hi as [A B C D E F G K]. split; [done| |done| |done| | |].
      * intros q. rewrite held_insert. by destruct (decide _).
      * intros q l. rewrite held_insert. destruct (decide _); [apply C|apply D].
      * intros y Hy. apply F. set_solver.
      * intros y z l Hy. apply G. set_solver.
      * intros y q l Hy Hv. rewrite held_insert. destruct (decide _); [|apply K with y; [set_solver|done]].
        intros Hx. assert (x = y) as <- by (apply (G y x l); [set_solver|done|done]). set_solver.
    + intros vm ve Hm He. eexists _, (VGoes ve). split; [constructor|]. split; [|done]. intros q. rewrite held_insert.
      destruct (decide (q = p)) as [->|]; [rewrite lookup_insert; apply He|rewrite lookup_insert_ne by done; apply Hm].
  - rewrite Hf in Hc. destruct (decide _) as [_|]; [|done]. injection Hc as <-. set (own' := own ∖ _).
    destruct (body_checked f fn Hf) as [o Ho].
    assert (inv (fun l => X l \/ mine e own' l) h m (list_to_map (zip (sf_params fn) (var e <$> args))) ∅) as Hi'.
    { assert (forall y l, var (list_to_map (zip (sf_params fn) (var e <$> args))) y = Some l -> exists a, a ∈ args /\ var e a = Some l) as Hargs.
      { intros y l Hv. apply var_args, elem_of_list_fmap in Hv as (a&Ha&Hin). eauto. }
      split; [| | | | |set_solver..].
      - intros y l Hv. destruct (Hargs y l Hv) as (a&_&Ha). by apply (i_env _ _ _ _ _ Hi a).
      - apply (i_mem _ _ _ _ _ Hi).
      - intros y l Hv [HX|(z&Hz&Hvz)]; destruct (Hargs y l Hv) as (a&Hin&Ha).
        + by apply (i_hidden_env _ _ _ _ _ Hi a l).
        + assert (a = z) as <- by (apply (i_own_env _ _ _ _ _ Hi z a l); [set_solver|done|done]). set_solver.
      - intros p l Hv [HX|(z&Hz&Hvz)]; [by apply (i_hidden_mem _ _ _ _ _ Hi p l)|]. by apply (i_own_mem _ _ _ _ _ Hi z p l); [set_solver| |].
      - intros l [HX|(z&Hz&Hvz)]; [by apply (i_dom _ _ _ _ _ Hi)|]. by apply (i_env _ _ _ _ _ Hi z). }
    destruct (IH _ ∅ o Ho Hi') as [[Sd Ss Sn Sr Scr] Hsim]. clear IH.
    assert (forall l, l ∈ dom h -> h' !! l = h !! l) as Hsame by (intros l Hl; apply Ss; [done|]; intros (z&Hz&_); set_solver).
    assert ((forall p, allocated h' (held m' p)) /\ (forall p l, held m' p = Some l -> ~ X l /\ ~ mine e own' l)) as [Ham Hhm].
    { destruct r as [e'|v|]; [| |done].
      - destruct (Sn e' eq_refl) as (o'&_&[A B C D E F G K]&_). split; [done|]. intros p l Hp. pose proof (D p l Hp). tauto.
      - destruct (Sr v eq_refl) as (_&_&B&D). split; [done|]. intros p l Hp. pose proof (D p l Hp). tauto. }
    assert (inv X h' m' e own') as Hi2.
    { destruct (inv_less X h m e own own' Hi ltac:(unfold own'; set_solver)) as [A B C D E F G K]. split; [|done|done| | |done|done|].
      - intros y l Hv. apply Sd. by apply (A y).
      - intros p l Hp. by apply Hhm in Hp as [? _].
      - intros l HX. apply Sd. by apply E.
      - intros y p l Hy Hv Hp. apply Hhm in Hp as [_ Hn]. apply Hn. by exists y. }
    assert (exists v, (match r with Returns v => Goes (<[ x := v ]> e) | Goes _ => Goes (<[ x := None ]> e) | Crashes => Crashes end) = Goes (<[ x := v ]> e) /\
      allocated h' v /\ (forall l, v = Some l -> ~ X l /\ ~ mine e own' l) /\ (forall vr, res_rel h' r vr -> exists s, s = contents h' v /\
        forall ve, (match vr with VReturns w => VGoes (<[ x := w ]> ve) | VGoes _ => VGoes (<[ x := ∅ ]> ve) end) = VGoes (<[ x := s ]> ve)))
      as (v&Hres&Hal&Hv&Hvr).
    { destruct r as [e'|v|]; [| |done].
      - exists None. split; [done|]. split; [by intros ? ?|]. split; [done|]. intros [ve'|s]; [|done]. intros _. by exists ∅.
      - exists v. split; [done|]. destruct (Sr v eq_refl) as (A&B&_&_). split; [done|]. split; [intros l Hl; pose proof (B l Hl); tauto|].
        intros [ve'|s]; [done|]. cbn. intros ->. by eexists. }
    rewrite Hres. split.
    + split; [done| | |done|done].
      * intros l Hl _. by apply Hsame.
      * intros e' [= <-]. exists own'. split; [done|]. split.
        -- apply inv_assign; [done|set_solver|done|intros l Hl; by apply Hv|intros l Hl; by apply Hv].
        -- intros l Hl _. apply mine_assign in Hl; [|set_solver]. eapply mine_less; [|done]. set_solver.
    + intros vm ve Hm He. destruct (Hsim vm _ Hm (args_rel h e ve (sf_params fn) args He)) as (vm'&vr&Hmeans&Hm'&Hr).
      destruct (Hvr vr Hr) as (s&->&Hs). exists vm', (VGoes (<[ x := contents h' v ]> ve)). split; [|split; [done|]].
      * rewrite <- (Hs ve). by apply mean_call with fn.
      * cbn. apply env_rel_insert; [|done]. intros y. rewrite (He y). symmetry. apply contents_same; [apply (i_env _ _ _ _ _ Hi)|].
        intros l Hl. apply Hsame. by apply (i_env _ _ _ _ _ Hi y).
  - injection Hc as <-. split.
    + split; [done|done|done| |done]. intros v [= <-]. split; [apply (i_env _ _ _ _ _ Hi)|]. split; [apply (i_hidden_env _ _ _ _ _ Hi)|].
      split; [apply (i_mem _ _ _ _ _ Hi)|apply (i_hidden_mem _ _ _ _ _ Hi)].
    + intros vm ve Hm He. eexists vm, (VReturns _). split; [constructor|]. split; [done|]. apply He.
  - destruct (check P own s) as [[own1|]|] eqn:Ec; [| |done].
    2:{ destruct (IH1 X own None Ec Hi) as [[_ _ Sn _ _] _]. destruct (Sn e1 eq_refl) as (?&[=]&_). }
    destruct (IH1 X own (Some own1) Ec Hi) as [[Sd1 Ss1 Sn1 Sr1 Sc1] Hs1]. destruct (Sn1 e1 eq_refl) as (o1&[= <-]&Hi1&Hm1).
    destruct (IH2 X own1 o Hc Hi1) as [[Sd2 Ss2 Sn2 Sr2 Sc2] Hs2]. split.
    + split; [set_solver| | |done|done].
      * intros l Hl Hn. rewrite Ss2; [by apply Ss1|by apply Sd1|]. intros Hm. apply Hn. by apply Hm1.
      * intros e' He'. destruct (Sn2 e' He') as (o2&->&Hi2&Hm2). exists o2. split; [done|]. split; [done|].
        intros l Hl Hd. apply Hm1; [|done]. apply Hm2; [done|]. by apply Sd1.
    + intros vm ve Hm He. destruct (Hs1 vm ve Hm He) as (vm1&[ve1|?]&Hr1&Hmr1&Her1); [|done].
      destruct (Hs2 vm1 ve1 Hmr1 Her1) as (vm2&vr&Hr2&Hmr2&Hrr). exists vm2, vr. split; [by eapply mean_seq|done].
  - assert (exists o1, check P own s = Some o1) as [o1 Ec].
    { destruct (check P own s) as [o1|]; [eauto|done]. }
    destruct (IH1 X own o1 Ec Hi) as [[Sd Ss Sn Sr Sc] Hs]. split.
    + split; [done|done| |done|done]. intros e' ->. by destruct (Hstop e').
    + intros vm ve Hm He. destruct (Hs vm ve Hm He) as (vm'&vr&Hr&Hmr&Hrr). destruct r as [e'|v|]; [by destruct (Hstop e')| |done]. destruct vr as [|w]; [done|].
      exists vm', (VReturns w). split; [by apply mean_seq_stop|done].
  - assert (exists ob, check P own (if b then s else t) = Some ob /\ (forall o1, ob = Some o1 -> exists o2, o = Some o2 /\ o2 ⊆ o1)) as (ob&Ec&Hle).
    { destruct (check P own s) as [[os|]|] eqn:Es, (check P own t) as [[ot|]|] eqn:Et; try done; injection Hc as <-; destruct b; rewrite ?Es, ?Et; eexists; (split; [done|]);
        intros o1 E; try done; injection E as <-; eexists; (split; [done|]); set_solver. }
    destruct (IH1 X own ob Ec Hi) as [[Sd Ss Sn Sr Sc] Hs]. split.
    + split; [done|done| |done|done]. intros e' ->. destruct (Sn e' eq_refl) as (o1&->&Hi1&Hm1). destruct (Hle o1 eq_refl) as (o2&->&Hsub).
      exists o2. split; [done|]. split; [by eapply inv_less|]. intros l Hl. apply Hm1. by eapply mine_less.
    + intros vm ve Hm He. destruct (Hs vm ve Hm He) as (vm'&vr&Hr&Hmr&Hrr). exists vm', vr. split; [by constructor|done].
  - destruct (decide _) as [Hk|]; [|done]. assert (o = Some (list_to_set keep)) as ->.
    { destruct (check P (list_to_set keep) s) as [[o1|]|]; [destruct (decide _); [|done]| |done]; by injection Hc. }
    split; [by apply step_same|]. intros vm ve Hm He. exists vm, (VGoes ve). split; [constructor|]. done.
  - destruct (decide (list_to_set keep ⊆ own)) as [Hk|]; [|done]. assert (inv X h m e (list_to_set keep)) as Hi0 by by eapply inv_less.
    destruct (check P (list_to_set keep) s) as [[own1|]|] eqn:Ec; [| |done].
    2:{ destruct (IH1 X _ None Ec Hi0) as [[_ _ Sn _ _] _]. destruct (Sn e1 eq_refl) as (?&[=]&_). }
    destruct (decide (list_to_set keep ⊆ own1)) as [Hk1|]; [|done]. injection Hc as <-.
    destruct (IH1 X _ (Some own1) Ec Hi0) as [[Sd1 Ss1 Sn1 Sr1 Sc1] Hs1]. destruct (Sn1 e1 eq_refl) as (o1&[= <-]&Hi1&Hm1).
    assert (check P (list_to_set keep) (SLoop keep s) = Some (Some (list_to_set keep))) as Hc2.
    { cbn [check]. rewrite decide_True by done. rewrite Ec. by rewrite decide_True. }
    destruct (IH2 X _ _ Hc2 (inv_less _ _ _ _ _ _ Hi1 Hk1)) as [[Sd2 Ss2 Sn2 Sr2 Sc2] Hs2].
    assert (forall l, mine e1 (list_to_set keep) l -> l ∈ dom h -> mine e own l) as Hmm.
    { intros l Hl Hd. eapply mine_less; [exact Hk|]. apply Hm1; [|done]. by eapply mine_less. }
    split.
    + split; [set_solver| | |done|done].
      * intros l Hl Hn. rewrite Ss2; [apply Ss1; [done|]|by apply Sd1|].
        -- intros Hm. apply Hn. by eapply mine_less.
        -- intros Hm. apply Hn. by apply Hmm.
      * intros e' He'. destruct (Sn2 e' He') as (o2&->&Hi2&Hm2). exists o2. split; [done|]. split; [done|].
        intros l Hl Hd. apply Hmm; [|done]. apply Hm2; [done|]. by apply Sd1.
    + intros vm ve Hm He. destruct (Hs1 vm ve Hm He) as (vm1&[ve1|?]&Hr1&Hmr1&Her1); [|done].
      destruct (Hs2 vm1 ve1 Hmr1 Her1) as (vm2&vr&Hr2&Hmr2&Hrr). exists vm2, vr. split; [by eapply mean_loop|done].
  - destruct (decide (list_to_set keep ⊆ own)) as [Hk|]; [|done]. assert (inv X h m e (list_to_set keep)) as Hi0 by by eapply inv_less.
    assert (exists o1, check P (list_to_set keep) s = Some o1) as [o1 Ec].
    { destruct (check P (list_to_set keep) s) as [o1|]; [eauto|done]. }
    destruct (IH1 X _ o1 Ec Hi0) as [[Sd Ss Sn Sr Sc] Hs]. split.
    + split; [done| | |done|done].
      * intros l Hl Hn. apply Ss; [done|]. intros Hm. apply Hn. by eapply mine_less.
      * intros e' ->. by destruct (Hstop e').
    + intros vm ve Hm He. destruct (Hs vm ve Hm He) as (vm'&vr&Hr&Hmr&Hrr). destruct r as [e'|v|]; [by destruct (Hstop e')| |done]. destruct vr as [|w]; [done|].
      exists vm', (VReturns w). split; [by apply mean_loop_stop|done].
Qed.
End discipline.
