(** * C30: the exported facts. *)
From Coq Require Import Ascii String.
From stdpp Require Import base list gmap.
From Verif Require Import GoString ErrorCode Scc Engine DocParser CodeSet Constant GoAst Taint Extract Analyse Phase ErrorTypes Claims Interfaces Conversions
  Verify SpecRun SpecCodes SpecDoc DocParserProofs SpecClaims ClaimsProofs FactProofs SpecInterfaces PhaseProofs InterfacesProofs PropInterfaces RunProofs.

(** Tagging adds facts about types only. *)
Definition same_but_types (fa fa' : facts) : Prop := fa_codes fa' = fa_codes fa /\ fa_ctor fa' = fa_ctor fa /\ fa_iface fa' = fa_iface fa.
Lemma pfold_inv {A S} (P : S -> Prop) (f : S -> A -> phase S) (l : list A) (s s' : S) ds :
  (forall s a s' ds, a ∈ l -> P s -> f s a = Ok (s', ds) -> P s') -> P s -> pfold f s l = Ok (s', ds) -> P s'.
Proof.
  revert s ds. induction l as [|a l IH]; intros s ds H Hs E; cbn [pfold] in E; [by injection E as <- <-|].
  unfold pbind in E. destruct (f s a) as [[s1 d1]| |] eqn:E1; [|done|done].
  destruct (pfold f s1 l) as [[s2 d2]| |] eqn:E2; [|done|done]. injection E as <- <-.
  eapply IH; [| |exact E2].
  - intros s3 b s4 d4 Hb. apply H. by right.
  - eapply H; [by left|exact Hs|exact E1].
Qed.
Lemma tag_only_types pk lk fa fa' ds : findAndTagErrorTypes pk lk fa = Ok (fa', ds) -> same_but_types fa fa'.
Proof.
  unfold findAndTagErrorTypes. apply pfold_inv; [|done]. intros fa1 g fa2 d _ H. apply pfold_inv; [|done]. clear -pk lk.
  intros fa1 s fa2 d _ (H1&H2&H3) E. unfold tag_spec in E. destruct s as [ts|]; [|by injection E as <- <-].
  destruct (ti_defs _ _) as [o|]; [|done]. cbn zeta in E. destruct (if ti_implements_ree _ _ then _ else _) as [err|]; [|by injection E as <- <-].
  unfold pbind in E. destruct (tagErrorType pk lk fa1 err ts) as [[[msg|[[n et]|]] d1]| |]; [| | |done|done].
  - cbn in E. by injection E as <- <-.
  - cbn in E. injection E as <- <-. done.
  - cbn in E. by injection E as <- <-.
Qed.

(** ** Interfaces *)
Section export.
Context (pk : package) (methods : gset gostring -> list gostring).
Notation info := (pk_info pk).
Definition method_key (p : iface * gostring) : option (tobj * codeset) :=
  match if_methods p.1 !! p.2 with
  | Some (IMeth (Some name) codes) => match ti_defs info (i_id name) with Some o => Some (o, codes) | None => None end
  | _ => None
  end.
Definition iface_key (i : iface) : option (tobj * gmap gostring codeset) :=
  match ti_defs info (i_id (if_ident i)) with Some o => Some (o, codes_of_methods i) | None => None end.
Notation put key := (fun m a => match key a with Some (k, v) => <[ k := v ]> m | None => m end).
Lemma export_interface_fields fa i : export_interface pk methods fa i =
  Facts (foldl (put method_key) (fa_codes fa) ((fun m => (i, m)) <$> methods (dom (if_methods i)))) (fa_ctor fa) (fa_type fa)
    (put iface_key (fa_iface fa) i).
Proof.
  unfold export_interface.
  assert (forall l fa0, foldl (fun fa m => match if_methods i !! m with
      | Some (IMeth (Some name) codes) => match ti_defs info (i_id name) with Some o => add_codes_fact o codes fa | None => fa end
      | _ => fa end) fa0 l =
    Facts (foldl (put method_key) (fa_codes fa0) ((fun m => (i, m)) <$> l)) (fa_ctor fa0) (fa_type fa0) (fa_iface fa0)) as H.
  { induction l as [|m l IH]; intros fa0; cbn [foldl fmap list_fmap]; [by destruct fa0|]. rewrite IH. clear IH.
    assert (method_key (i, m) = match if_methods i !! m with
      | Some (IMeth (Some name) codes) => match ti_defs info (i_id name) with Some o => Some (o, codes) | None => None end | _ => None end) as -> by done.
    destruct (if_methods i !! m) as [[[name|] codes]|]; [|done|done]. by destruct (ti_defs info (i_id name)). }
  rewrite H. unfold iface_key. by destruct (ti_defs info (i_id (if_ident i))).
Qed.
Definition iface_methods (i : iface) : list (iface * gostring) := (fun m => (i, m)) <$> methods (dom (if_methods i)).
Lemma export_interfaces_fields ifaces fa : exportInterfaceFacts pk methods ifaces fa =
  Facts (foldl (put method_key) (fa_codes fa) (ifaces ≫= iface_methods)) (fa_ctor fa) (fa_type fa) (foldl (put iface_key) (fa_iface fa) ifaces).
Proof.
  unfold exportInterfaceFacts. revert fa. induction ifaces as [|i ifaces IH]; intros fa; cbn [foldl mbind list_bind]; [by destruct fa|].
  rewrite IH, export_interface_fields. cbn [fa_codes fa_ctor fa_type fa_iface]. by rewrite foldl_app.
Qed.
End export.

Section run.
Context (pk : package) (strict : bool) (ord : orders) (fa : facts) (r : run).
Notation lk := (collectFunctions pk).
Notation info := (pk_info pk).
Context (Hr : prepared pk strict ord fa r) (Hord : orders_ok lk ord) (Hok : interfaces_ok pk) (Hd : distinct_definitions pk).
Notation fd := (facts_during pk ord r).
Notation fe := (facts_after pk ord r).

Lemma distinct_functions : distinct_objects pk.
Proof. intros f g o Hf Hg. by injection (Hd (DFunc f) (DFunc g) o Hf Hg) as ->. Qed.

(** The result knows which methods an interface declares itself. *)
Lemma run_interface n i : r_ifaces r !! n = Some i -> exists id elems, interface_decl pk (if_ident i) id elems /\ i_name (if_ident i) = n.
Proof.
  pose proof (interfaces_result pk _ Hok _ (ok_embedded _ _ Hord) _ (ok_embedding _ _ Hord) _ _ (pr_ifaces _ _ _ _ _ Hr)) as (rank&_&_&Hrank&_&Hf&_).
  rewrite Hf. intros Hi. destruct (final_declared pk (r_types r) Hok rank Hrank n i Hi) as (nm&id&elems&Hdecl&<-).
  rewrite (final_decl pk (r_types r) Hok rank Hrank nm id elems Hdecl) in Hi. cbn zeta in Hi. case_decide; [|done]. injection Hi as <-. cbn. eauto.
Qed.
Lemma run_own_method n i m name codes : r_ifaces r !! n = Some i ->
  if_methods i !! m = Some (IMeth (Some name) codes) <->
  exists id elems mid doc ft, interface_decl pk (if_ident i) id elems /\ IMethod mid name doc ft ∈ elems /\ i_name name = m /\ method_declares pk doc ft codes.
Proof.
  pose proof (interfaces_result pk _ Hok _ (ok_embedded _ _ Hord) _ (ok_embedding _ _ Hord) _ _ (pr_ifaces _ _ _ _ _ Hr)) as (rank&_&_&Hrank&_&Hf&_).
  rewrite Hf. intros Hi. destruct (final_declared pk (r_types r) Hok rank Hrank n i Hi) as (nm&id&elems&Hdecl&<-).
  rewrite (final_decl pk (r_types r) Hok rank Hrank nm id elems Hdecl) in Hi. cbn zeta in Hi. case_decide; [|done]. injection Hi as <-. cbn [if_methods if_ident].
  match goal with |- foldl ?s ?a ?l !! m = _ <-> _ => set (step := s); generalize l; set (ms := a) end. intros es.
  assert (ms !! m = Some (IMeth (Some name) codes) <-> exists id elems mid doc ft, interface_decl pk nm id elems /\ IMethod mid name doc ft ∈ elems /\ i_name name = m /\ method_declares pk doc ft codes) as Hms.
  { unfold ms. rewrite (own_methods pk Hok nm id elems m _ Hdecl). cbn [im_ident im_codes]. split.
    - intros (mid&name'&doc&ft&?&<-&[= <-]&?). eauto 10.
    - intros (id'&elems'&mid&doc&ft&Hdecl'&?&<-&?). destruct (ik_interfaces _ Hok _ _ _ _ _ _ Hdecl Hdecl' eq_refl) as (_&<-&<-). eauto 10. }
  rewrite <-Hms. clear Hms H. clearbody ms. revert ms. induction es as [|e es IH]; intros ms; cbn [foldl]; [done|]. rewrite IH. unfold step, embed_step, merged.
  rewrite lookup_union_Some_raw, lookup_fmap. split; [|by left]. intros [?|[_ H]]; [done|]. by destruct (brought _ _ _ _ !! m).
Qed.
Lemma run_iface_list i : i ∈ omap (fun n => r_ifaces r !! n) (or_ifaces ord (dom (r_ifaces r))) <-> exists n, r_ifaces r !! n = Some i.
Proof.
  rewrite elem_of_list_omap. split; [intros (n&_&?); eauto|]. intros [n Hn]. exists n. split; [|done].
  rewrite (ok_ifaces _ _ Hord), elem_of_elements, elem_of_dom. eauto.
Qed.
Lemma iface_same i j o v w : (exists n, r_ifaces r !! n = Some i) -> (exists n, r_ifaces r !! n = Some j) ->
  iface_key pk i = Some (o, v) -> iface_key pk j = Some (o, w) -> i = j.
Proof.
  intros [n Hi] [n' Hj]. unfold iface_key. destruct (ti_defs info (i_id (if_ident i))) as [oi|] eqn:Ei; [|done].
  destruct (ti_defs info (i_id (if_ident j))) as [oj|] eqn:Ej; [|done]. intros [= -> _] [= -> _].
  destruct (run_interface _ _ Hi) as (id&elems&Hdi&<-). destruct (run_interface _ _ Hj) as (id'&elems'&Hdj&<-).
  assert (DIface (if_ident i) = DIface (if_ident j)) as [= E] by (eapply Hd; cbn; eauto). rewrite E in Hi. congruence.
Qed.
(** The facts about interfaces. *)
Theorem C30_interface_facts o ms : fa_iface fe !! o = Some ms <->
  (exists n i, ti_defs info (i_id n) = Some o /\ r_ifaces r !! i_name n = Some i /\ if_ident i = n /\ ms = (im_codes <$> if_methods i)) \/
  (~ (exists n i, ti_defs info (i_id n) = Some o /\ r_ifaces r !! i_name n = Some i /\ if_ident i = n) /\ fa_iface fa !! o = Some ms).
Proof.
  unfold facts_after. rewrite export_codes_fields. cbn [fa_iface]. unfold facts_during. rewrite export_ctor_fields. cbn [fa_iface].
  rewrite export_interfaces_fields. cbn [fa_iface].
  destruct (tag_only_types _ _ _ _ _ (pr_types _ _ _ _ _ Hr)) as (_&_&->).
  rewrite foldl_insert.
  2:{ intros i j k v w Hi Hj. rewrite !run_iface_list in *. intros Hv Hw. pose proof (iface_same _ _ _ _ _ Hi Hj Hv Hw) as ->. congruence. }
  assert (forall w, (exists i, i ∈ omap (fun n => r_ifaces r !! n) (or_ifaces ord (dom (r_ifaces r))) /\ iface_key pk i = Some (o, w)) <->
    exists n i, ti_defs info (i_id n) = Some o /\ r_ifaces r !! i_name n = Some i /\ if_ident i = n /\ w = (im_codes <$> if_methods i)) as H.
  { intros w. split.
    - intros (i&[n Hi]%run_iface_list&Hk). unfold iface_key in Hk. destruct (ti_defs info (i_id (if_ident i))) as [o'|] eqn:E; [|done].
      injection Hk as -> <-. destruct (run_interface _ _ Hi) as (_&_&_&Hn). exists (if_ident i), i. rewrite Hn. done.
    - intros (n&i&Ho&Hi&<-&->). exists i. rewrite run_iface_list. split; [eauto|]. unfold iface_key. by rewrite Ho. }
  rewrite H. split; (intros [?|[Hn ?]]; [by left|right; split; [|done]]).
  - intros (n&i&Ho&Hi&Hid). apply Hn. destruct (proj2 (H (im_codes <$> if_methods i))) as (i'&?&?); eauto 10.
  - intros (i&w&Hi&Hk). apply Hn. destruct (proj1 (H w)) as (n&i'&?&?&?&?); eauto 10.
Qed.

(** What the declaration of [o] declares: a function of this package, or a method of an interface of this package. *)
Inductive declares_object : tobj -> codeset -> Prop :=
| do_function f fn o codes param : known_function pk f fn -> returns_error_last pk (fn_type fn) -> declares_codes pk fn codes param ->
    object_of pk f o -> declares_object o codes
| do_method n id elems mid name doc ft o codes : interface_decl pk n id elems -> IMethod mid name doc ft ∈ elems ->
    method_declares pk doc ft codes -> ti_defs info (i_id name) = Some o -> declares_object o codes.

Lemma own_declared n id elems mid name doc ft codes : interface_decl pk n id elems -> IMethod mid name doc ft ∈ elems -> method_declares pk doc ft codes ->
  exists i, r_ifaces r !! i_name n = Some i /\ if_methods i !! i_name name = Some (IMeth (Some name) codes).
Proof.
  intros Hdecl Hin Hm.
  destruct (proj1 (C27_methods pk (r_types r) Hok _ (ok_embedded _ _ Hord) _ (ok_embedding _ _ Hord) _ _ (pr_ifaces _ _ _ _ _ Hr)) (i_name n) (i_name name))
    as [_ (i&x&Hi&_)]; [exists codes; by eapply mo_own|].
  exists i. split; [done|]. eapply run_own_method; [done|]. destruct (run_interface _ _ Hi) as (id'&elems'&Hdi&Hn).
  destruct (ik_interfaces _ Hok _ _ _ _ _ _ Hdi Hdecl Hn) as (->&->&->). eauto 10.
Qed.
Lemma during_codes o codes : fa_codes fd !! o = Some codes <->
  (exists n id elems mid name doc ft, interface_decl pk n id elems /\ IMethod mid name doc ft ∈ elems /\ method_declares pk doc ft codes /\ ti_defs info (i_id name) = Some o) \/
  (~ (exists n id elems mid name doc ft codes, interface_decl pk n id elems /\ IMethod mid name doc ft ∈ elems /\ method_declares pk doc ft codes /\ ti_defs info (i_id name) = Some o)
   /\ fa_codes fa !! o = Some codes).
Proof.
  unfold facts_during. rewrite export_ctor_fields. cbn [fa_codes]. rewrite export_interfaces_fields. cbn [fa_codes].
  destruct (tag_only_types _ _ _ _ _ (pr_types _ _ _ _ _ Hr)) as (->&_&_).
  set (l := omap (fun n => r_ifaces r !! n) (or_ifaces ord (dom (r_ifaces r))) ≫= iface_methods (or_methods ord)).
  assert (forall p w, p ∈ l /\ method_key pk p = Some (o, w) -> exists n id elems mid name doc ft, r_ifaces r !! i_name n = Some p.1 /\ if_ident p.1 = n /\ p.2 = i_name name /\
    interface_decl pk n id elems /\ IMethod mid name doc ft ∈ elems /\ method_declares pk doc ft w /\ ti_defs info (i_id name) = Some o) as H1.
  { intros [i m] w [Hp Hk]. apply elem_of_list_bind in Hp as (i'&Hp&[n Hi]%run_iface_list). apply elem_of_list_fmap in Hp as (m'&[= -> ->]&_).
    unfold method_key in Hk. cbn [fst snd] in *. destruct (if_methods i' !! m') as [[[name|] codes']|] eqn:Em; [|done|done].
    destruct (ti_defs info (i_id name)) as [o'|] eqn:Eo; [|done]. injection Hk as -> ->.
    apply (run_own_method n i' m' name w Hi) in Em as (id&elems&mid&doc&ft&?&?&<-&?).
    destruct (run_interface _ _ Hi) as (_&_&_&<-). exists (if_ident i'). eauto 15. }
  assert (forall w, (exists n id elems mid name doc ft, interface_decl pk n id elems /\ IMethod mid name doc ft ∈ elems /\ method_declares pk doc ft w /\ ti_defs info (i_id name) = Some o) ->
    exists p, p ∈ l /\ method_key pk p = Some (o, w)) as H2.
  { intros w (n&id&elems&mid&name&doc&ft&Hdecl&Hin&Hm&Ho). destruct (own_declared _ _ _ _ _ _ _ _ Hdecl Hin Hm) as (i&Hi&Hx).
    exists (i, i_name name). split.
    - apply elem_of_list_bind. exists i. split; [|apply run_iface_list; eauto]. apply elem_of_list_fmap. exists (i_name name). split; [done|].
      rewrite (ok_methods _ _ Hord), elem_of_elements, elem_of_dom. eauto.
    - unfold method_key. cbn [fst snd]. by rewrite Hx, Ho. }
  rewrite foldl_insert.
  - split; (intros [H|[Hn ?]]; [left|right; split; [|done]]).
    + destruct H as [p Hp]. apply H1 in Hp as (n&id&elems&mid&name&doc&ft&?). naive_solver.
    + intros (n&id&elems&mid&name&doc&ft&w&?). destruct (H2 w) as (p&?&?); [eauto 15|]. apply Hn. eauto.
    + by apply H2.
    + intros (p&w&Hp). apply H1 in Hp as (n&id&elems&mid&name&doc&ft&?). apply Hn. exists n, id, elems, mid, name, doc, ft, w. tauto.
  - intros p q k v w Hp Hq Hv Hw. clear H2.
    assert (forall p w, p ∈ l -> method_key pk p = Some (k, w) -> exists n name, r_ifaces r !! i_name n = Some p.1 /\ p.2 = i_name name /\ defines pk (DMethod n name) k) as H3.
    { clear -Hr Hord Hok. intros [i m] w Hp Hk. apply elem_of_list_bind in Hp as (i'&Hp&[n Hi]%run_iface_list). apply elem_of_list_fmap in Hp as (m'&[= -> ->]&_).
      unfold method_key in Hk. cbn [fst snd] in *. destruct (if_methods i' !! m') as [[[name|] codes']|] eqn:Em; [|done|done].
      destruct (ti_defs info (i_id name)) as [o'|] eqn:Eo; [|done]. injection Hk as -> ->.
      apply (run_own_method n i' m' name w Hi) in Em as (id&elems&mid&doc&ft&?&?&<-&?).
      destruct (run_interface _ _ Hi) as (_&_&_&<-). exists (if_ident i'), name. split_and!; [done|done|]. cbn. eauto 10. }
    destruct (H3 _ _ Hp Hv) as (n&name&Hi&Hn&Hdef), (H3 _ _ Hq Hw) as (n'&name'&Hi'&Hn'&Hdef').
    pose proof (Hd _ _ _ Hdef Hdef') as [= <- <-]. destruct p as [i m], q as [i' m']. cbn in *. assert (i = i') as <- by congruence. subst. congruence.
Qed.
(** The exported codes of a function or method are exactly the ones it declares, whatever the analysis finds; nothing else is exported. *)
Theorem C30_code_facts o codes : fa_codes fe !! o = Some codes <->
  declares_object o codes \/ ((~ exists codes', declares_object o codes') /\ fa_codes fa !! o = Some codes).
Proof.
  unfold facts_after. rewrite (export_codes_lookup pk distinct_functions) by (intros f; by apply (claims_order pk ord r Hord)).
  rewrite during_codes.
  assert (forall codes, (exists f c, r_claims r !! f = Some c /\ object_of pk f o /\ codes = cl_codes c) <->
    exists f fn param, known_function pk f fn /\ returns_error_last pk (fn_type fn) /\ declares_codes pk fn codes param /\ object_of pk f o) as Hf.
  { intros codes'. split.
    - intros (f&[cs param]&Hc&Ho&->). apply (prepared_claims pk strict ord fa r Hr Hord) in Hc as (fn&?&?&?). eauto 10.
    - intros (f&fn&param&?&?&?&?). exists f, (Claim codes' param). split_and!; [|done|done]. apply (prepared_claims pk strict ord fa r Hr Hord). eauto. }
  assert ((exists f c, r_claims r !! f = Some c /\ object_of pk f o) <-> exists codes f c, r_claims r !! f = Some c /\ object_of pk f o /\ codes = cl_codes c) as Hf'.
  { split; [intros (f&c&?&?); exists (cl_codes c); eauto|intros (_&f&c&?&?&_); eauto]. }
  rewrite Hf, Hf'. setoid_rewrite Hf.
  split.
  - intros [(f&fn&param&?&?&?&?)|[Hn [(n&id&elems&mid&name&doc&ft&?&?&?&?)|[Hn' ?]]]].
    + left. by eapply do_function.
    + left. by eapply do_method.
    + right. split; [|done]. intros [codes' Hc]. destruct Hc; [apply Hn|apply Hn']; eauto 15.
  - intros [H|[Hn H]].
    + destruct H as [f fn o codes param|n id elems mid name doc ft o codes]; [left; eauto 10|]. right. split; [|left; eauto 15].
      intros (codes'&f&fn&param&_&_&_&Ho).
      assert (DFunc f = DMethod n name); [|done]. eapply Hd; [exact Ho|]. cbn. eauto 10.
    + right. split; [|right; split; [|done]].
      * intros (codes'&f&fn&param&?&?&?&?). apply Hn. exists codes'. by eapply do_function.
      * intros (n&id&elems&mid&name&doc&ft&codes'&?&?&?&?). apply Hn. exists codes'. by eapply do_method.
Qed.
(** The same for the position of the error code parameter. *)
Inductive declares_position : tobj -> nat -> Prop :=
| dp_function f fn o codes i p : known_function pk f fn -> returns_error_last pk (fn_type fn) -> declares_codes pk fn codes (Some (i, p)) ->
    object_of pk f o -> declares_position o p.
Theorem C30_constructor_facts o p : fa_ctor fe !! o = Some p <->
  declares_position o p \/ ((~ exists q, declares_position o q) /\ fa_ctor fa !! o = Some p).
Proof.
  unfold facts_after. rewrite export_codes_fields. cbn [fa_ctor]. unfold facts_during.
  rewrite (export_ctor_lookup pk distinct_functions) by (intros f; by apply (claims_order pk ord r Hord)).
  rewrite export_interfaces_fields. cbn [fa_ctor].
  destruct (tag_only_types _ _ _ _ _ (pr_types _ _ _ _ _ Hr)) as (_&->&_).
  assert (forall p, (exists f c i, r_claims r !! f = Some c /\ object_of pk f o /\ cl_param c = Some (i, p)) <-> declares_position o p) as Hf.
  { intros q. split.
    - intros (f&[cs param]&i&Hc&Ho&Hp). cbn in Hp. subst. apply (prepared_claims pk strict ord fa r Hr Hord) in Hc as (fn&?&?&?). by econstructor.
    - intros H. destruct H as [f fn o codes i q]. exists f, (Claim codes (Some (i, q))), i. split_and!; [|done|done]. apply (prepared_claims pk strict ord fa r Hr Hord). eauto. }
  rewrite Hf. split; (intros [?|[Hn ?]]; [by left|right; split; [|done]]).
  - intros [q (f&c&i&?&?&?)%Hf]. apply Hn. eauto 10.
  - intros (f&c&i&q&?&?&?). apply Hn. exists q. apply Hf. eauto 10.
Qed.
Theorem C30_type_facts : fa_type fe = fa_type (r_types r).
Proof. unfold facts_after. rewrite export_codes_fields. cbn [fa_type]. unfold facts_during. rewrite export_ctor_fields, export_interfaces_fields. done. Qed.
End run.
