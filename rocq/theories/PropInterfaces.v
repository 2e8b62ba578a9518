(** * C27: interfaces and the interfaces embedded in them. *)
From Coq Require Import Ascii String.
From stdpp Require Import base list gmap.
From Verif Require Import GoString ErrorCode Scc Engine DocParser CodeSet Constant GoAst Taint Extract Analyse Phase Claims Interfaces
  SpecCodes SpecDoc DocParserProofs SpecClaims ClaimsProofs FactProofs SpecInterfaces CodeSetProofs PropCodeSet PhaseProofs InterfacesProofs.

Section interfaces.
Context (pk : package) (fa : facts).
Notation info := (pk_info pk).

Lemma method_result_spec id name doc ft m : method_result pk id name doc ft = inr (Some m) <->
  im_ident m = Some name /\ method_declares pk doc ft (im_codes m).
Proof.
  unfold method_result, method_declares. rewrite <-ends_in_error_spec. destruct (ends_in_error pk ft); cbn [negb].
  2:{ split; [done|]. by intros (_&?&_). }
  assert (forall r, findErrorDocs doc = inl r <-> doc_means doc r) as Hdoc.
  { intros r. destruct doc as [d|]; cbn.
    - rewrite run_docs_declares. split; [by constructor|]. by inversion 1.
    - split; [intros [= <-]; constructor|]. by inversion 1. }
  destruct (findErrorDocs doc) as [r|e].
  - assert (doc_means doc r) as Hm by (by apply Hdoc). destruct (decide (dr_param r <> [])) as [Hp|Hp%dec_stable].
    + split; [done|]. intros (_&_&r'&Hm'&Hp'&_). apply Hdoc in Hm'. injection Hm' as ->. done.
    + destruct (bool_decide (dr_codes r = ∅)) eqn:E1; cbn [andb].
      * destruct (dr_none r) eqn:E2; cbn [negb].
        -- split.
           ++ intros [= <-]. cbn. split; [done|]. split; [done|]. exists r. repeat split; [done|done|by right].
           ++ intros (Hi&_&r'&Hm'&_&Hc&_). apply Hdoc in Hm'. injection Hm' as ->. destruct m. cbn in *. by subst.
        -- destruct (_ && _); (split; [done|]); intros (Hi&_&r'&Hm'&_&Hc&Hor); apply Hdoc in Hm'; injection Hm' as ->; apply bool_decide_eq_true in E1;
             destruct Hor; congruence.
      * split.
        -- intros [= <-]. cbn. split; [done|]. split; [done|]. exists r. repeat split; [done|done|left; by apply bool_decide_eq_false in E1].
        -- intros (Hi&_&r'&Hm'&_&Hc&_). apply Hdoc in Hm'. injection Hm' as ->. destruct m. cbn in *. by subst.
  - split; [done|]. intros (_&_&r&Hr&_). apply Hdoc in Hr. done.
Qed.
Lemma spec_interface_spec s i : spec_interface pk s = Some i <->
  exists n id elems, s = Some (TypeSpec n (XInterface id elems)) /\ elems <> [] /\ i = interface_of pk n id elems.
Proof.
  split.
  - destruct s as [[n [| id [|e elems]|]]|]; try done. intros [= <-]. by eexists n, id, (e :: elems).
  - intros (n&id&elems&->&Hne&->). by destruct elems.
Qed.
Lemma all_specs_spec n id elems : Some (TypeSpec n (XInterface id elems)) ∈ all_specs pk <-> interface_decl pk n id elems.
Proof. unfold all_specs, interface_decl. rewrite elem_of_list_bind. split; intros (g&?&?); eauto. Qed.

Context (Hok : interfaces_ok pk).
Lemma own_methods n id elems m x : interface_decl pk n id elems ->
  if_methods (interface_of pk n id elems) !! m = Some x <->
  exists mid name doc ft, IMethod mid name doc ft ∈ elems /\ i_name name = m /\ im_ident x = Some name /\ method_declares pk doc ft (im_codes x).
Proof.
  intros Hd. unfold interface_of. cbn [if_methods]. rewrite foldl_insert.
  - split.
    + intros [(e&He&Hk)|[_ ?]]; [|done]. unfold elem_method in Hk. destruct e as [mid name doc ft| | |]; try done.
      destruct (method_result pk id name doc ft) as [|[y|]] eqn:E; [done| |done]. injection Hk as <- ->. apply method_result_spec in E. eauto 10.
    + intros (mid&name&doc&ft&He&<-&Hx). left. exists (IMethod mid name doc ft). split; [done|]. unfold elem_method.
      apply (method_result_spec id) in Hx. by rewrite Hx.
  - intros a b k v w Ha Hb Hka Hkb. unfold elem_method in Hka, Hkb. destruct a as [mid name doc ft| | |], b as [mid' name' doc' ft'| | |]; try done.
    destruct (method_result pk id name doc ft) as [|[y|]] eqn:E; try done. destruct (method_result pk id name' doc' ft') as [|[y'|]] eqn:E'; try done.
    injection Hka as <- ->. injection Hkb as Hn ->. destruct (ik_methods _ Hok n id elems mid name doc ft mid' name' doc' ft' Hd Ha Hb) as (->&->&->&->); [done|]. congruence.
Qed.
Lemma spec_interface_inj s s' i i' : s ∈ all_specs pk -> s' ∈ all_specs pk -> spec_interface pk s = Some i -> spec_interface pk s' = Some i' ->
  i_name (if_ident i) = i_name (if_ident i') -> i = i'.
Proof.
  intros Hs Hs' (n&id&elems&->&_&->)%spec_interface_spec (n'&id'&elems'&->&_&->)%spec_interface_spec. cbn. intros E.
  apply all_specs_spec in Hs, Hs'. by destruct (ik_interfaces _ Hok _ _ _ _ _ _ Hs Hs' E) as (->&->&->).
Qed.
Lemma plain_lookup n i : (maps0 pk).1 !! n = Some i <->
  exists s, s ∈ all_specs pk /\ spec_interface pk s = Some i /\ i_name (if_ident i) = n /\ if_embeds i = [] /\ if_methods i <> ∅.
Proof.
  unfold maps0. cbn [fst]. unfold put. rewrite foldl_insert.
  - split.
    + intros [(s&Hs&Hk)|[_ ?]]; [|done]. unfold plain_key in Hk. destruct (spec_interface pk s) as [j|] eqn:E; [|done].
      case_decide as H1; [done|]. case_decide as H2; [|done]. injection Hk as <- ->. exists s. done.
    + intros (s&Hs&E&<-&H1&H2). left. exists s. split; [done|]. unfold plain_key. rewrite E, decide_False, decide_True by (done || by intros []). done.
  - intros a b k v w Ha Hb Hka Hkb. unfold plain_key in Hka, Hkb.
    destruct (spec_interface pk a) as [i1|] eqn:Ea; [|done]. destruct (spec_interface pk b) as [i2|] eqn:Eb; [|done].
    do 4 (case_decide; try done). injection Hka as <- ->. injection Hkb as Hn ->. eapply (spec_interface_inj a b); done.
Qed.
Lemma embedding_lookup n i : (maps0 pk).2 !! n = Some i <->
  exists s, s ∈ all_specs pk /\ spec_interface pk s = Some i /\ i_name (if_ident i) = n /\ if_embeds i <> [].
Proof.
  unfold maps0. cbn [snd]. unfold put. rewrite foldl_insert.
  - split.
    + intros [(s&Hs&Hk)|[_ ?]]; [|done]. unfold embedding_key in Hk. destruct (spec_interface pk s) as [j|] eqn:E; [|done].
      case_decide as H1; [|done]. injection Hk as <- ->. exists s. done.
    + intros (s&Hs&E&<-&H1). left. exists s. split; [done|]. unfold embedding_key. by rewrite E, decide_True by done.
  - intros a b k v w Ha Hb Hka Hkb. unfold embedding_key in Hka, Hkb.
    destruct (spec_interface pk a) as [i1|] eqn:Ea; [|done]. destruct (spec_interface pk b) as [i2|] eqn:Eb; [|done].
    do 2 (case_decide; try done). injection Hka as <- ->. injection Hkb as Hn ->. eapply (spec_interface_inj a b); done.
Qed.
Lemma maps_disjoint n : is_Some ((maps0 pk).1 !! n) -> is_Some ((maps0 pk).2 !! n) -> False.
Proof.
  intros [i (s&Hs&E&Hn&He&_)%plain_lookup] [i' (s'&Hs'&E'&Hn'&He')%embedding_lookup]. apply He'.
  rewrite (spec_interface_inj s' s i' i); done || congruence.
Qed.
Lemma maps_key n i : (maps0 pk).2 !! n = Some i -> i_name (if_ident i) = n.
Proof. by intros (s&_&_&?&_)%embedding_lookup. Qed.
Lemma embeds_spec n id elems e : e ∈ if_embeds (interface_of pk n id elems) <->
  (exists eid n', e = EmbIdent eid n' /\ IEmbed eid n' ∈ elems) \/ (exists eid, e = EmbOther eid /\ IEmbedSel eid ∈ elems).
Proof.
  unfold interface_of. cbn [if_embeds]. rewrite elem_of_list_omap. split.
  - intros (x&Hx&He). destruct x as [|eid n'|eid|]; try done; injection He as <-; [left|right]; eauto.
  - intros [(eid&n'&->&H)|(eid&->&H)]; eexists; (split; [exact H|done]).
Qed.
Definition rank_ok (rank : gostring -> nat) : Prop :=
  forall n i id n', (maps0 pk).2 !! n = Some i -> EmbIdent id n' ∈ if_embeds i -> rank n' < rank n.
Lemma rank_exists : exists rank, rank_ok rank.
Proof.
  destruct (ik_acyclic _ Hok) as [rank Hr]. exists rank. intros n i id n' (s&Hs&(m&mid&elems&->&_&->)%spec_interface_spec&<-&_)%embedding_lookup He.
  apply all_specs_spec in Hs. apply embeds_spec in He as [(eid&n0&[= -> ->]&He)|(eid&?&_)]; [|done]. by eapply Hr.
Qed.

(** ** The methods of the result *)
Section result.
Context (rank : gostring -> nat) (Hrank : rank_ok rank).
Notation final := (final pk fa (maps0 pk).1 (maps0 pk).2 rank).
Notation brought := (brought pk fa).
Notation step := (embed_step pk fa final).

Lemma final_def n : final n = match (maps0 pk).2 !! n with
  | Some i => let ms := foldl step (if_methods i) (if_embeds i) in if decide (ms <> ∅) then Some (Iface (if_ident i) ms (if_embeds i)) else None
  | None => (maps0 pk).1 !! n
  end.
Proof. exact (final_eq pk fa (fun _ s => elements s) (fun _ _ => reflexivity _) _ _ maps_disjoint maps_key rank Hrank n). Qed.
Lemma final_none n i : final n = Some i -> if_methods i <> ∅.
Proof.
  rewrite final_def. destruct ((maps0 pk).2 !! n) as [j|].
  - cbn zeta. case_decide; [|done]. intros [= <-]. done.
  - by intros (_&_&_&_&_&?)%plain_lookup.
Qed.
Lemma steps_keep es ms m x : ms !! m = Some x -> foldl step ms es !! m = Some x.
Proof.
  revert ms. induction es as [|e es IH]; intros ms H; [done|]. cbn [foldl]. apply IH. unfold embed_step, merged. by apply lookup_union_Some_l.
Qed.
Lemma steps_from es ms m x : foldl step ms es !! m = Some x -> ms !! m = Some x \/ exists e, e ∈ es /\ brought final e !! m = Some (im_codes x).
Proof.
  revert ms. induction es as [|e es IH]; intros ms H; [by left|]. cbn [foldl] in H. apply IH in H as [H|(e'&?&?)]; [|right; exists e'; split; [by right|done]].
  unfold embed_step, merged in H. apply lookup_union_Some_raw in H as [H|[_ H]]; [by left|]. right. exists e. split; [by left|].
  rewrite lookup_fmap in H. destruct (brought final e !! m) as [c|]; [|done]. by injection H as <-.
Qed.
Lemma steps_has es ms m e c : e ∈ es -> brought final e !! m = Some c -> is_Some (foldl step ms es !! m).
Proof.
  intros He Hc. revert ms. induction es as [|e' es IH]; intros ms; [by apply elem_of_nil in He|]. cbn [foldl].
  apply elem_of_cons in He as [<-|He]; [|by apply IH].
  assert (is_Some (step ms e !! m)) as [x Hx]; [|eexists; by apply steps_keep].
  unfold embed_step, merged. rewrite lookup_union, lookup_fmap, Hc. destruct (ms !! m); cbn; eauto.
Qed.
(** The interface declared under a name is in one of the two maps, if it has anything in it. *)
Lemma final_decl n id elems : interface_decl pk n id elems ->
  let i := interface_of pk n id elems in
  let ms := foldl step (if_methods i) (if_embeds i) in
  final (i_name n) = if decide (ms <> ∅) then Some (Iface n ms (if_embeds i)) else None.
Proof.
  intros Hd i ms. rewrite final_def.
  destruct (decide (if_embeds i = [])) as [He|He].
  - assert (ms = if_methods i) as Hms by (unfold ms; by rewrite He).
    destruct ((maps0 pk).2 !! i_name n) as [j|] eqn:Ej.
    { apply embedding_lookup in Ej as (s&Hs&(n'&id'&elems'&->&_&->)%spec_interface_spec&Hn&He'). exfalso. apply He'.
      apply all_specs_spec in Hs. cbn in Hn. by destruct (ik_interfaces _ Hok _ _ _ _ _ _ Hs Hd Hn) as (->&->&->). }
    rewrite Hms. case_decide as Hne.
    + apply plain_lookup. exists (Some (TypeSpec n (XInterface id elems))). split; [by apply all_specs_spec|]. split; [|done].
      apply spec_interface_spec. exists n, id, elems. split; [done|]. split; [|done]. intros ->. done.
    + destruct ((maps0 pk).1 !! i_name n) as [j|] eqn:Ej1; [|done]. exfalso. apply plain_lookup in Ej1 as (s&Hs&(n'&id'&elems'&->&_&->)%spec_interface_spec&Hn&_&Hm).
      apply all_specs_spec in Hs. cbn in Hn. by destruct (ik_interfaces _ Hok _ _ _ _ _ _ Hs Hd Hn) as (->&->&->).
  - assert ((maps0 pk).2 !! i_name n = Some i) as ->; [|done]. apply embedding_lookup. exists (Some (TypeSpec n (XInterface id elems))).
    split; [by apply all_specs_spec|]. split; [|done]. apply spec_interface_spec. exists n, id, elems. split; [done|]. split; [|done]. by intros ->.
Qed.
Lemma final_declared n i : final n = Some i -> exists nm id elems, interface_decl pk nm id elems /\ i_name nm = n.
Proof.
  rewrite final_def. destruct ((maps0 pk).2 !! n) as [j|] eqn:Ej.
  - intros _. apply embedding_lookup in Ej as (s&Hs&(n'&id'&elems'&->&_&->)%spec_interface_spec&Hn&_). apply all_specs_spec in Hs. eauto.
  - intros (s&Hs&(n'&id'&elems'&->&_&->)%spec_interface_spec&Hn&_)%plain_lookup. apply all_specs_spec in Hs. eauto.
Qed.
Lemma brought_from n id elems e m c : interface_decl pk n id elems -> e ∈ if_embeds (interface_of pk n id elems) ->
  (forall n' i x, rank n' < rank (i_name n) -> final n' = Some i -> if_methods i !! m = Some x -> method_of pk fa n' m (im_codes x)) ->
  brought final e !! m = Some c -> method_of pk fa (i_name n) m c.
Proof.
  intros Hd He IH Hb. pose proof He as [(eid&n'&->&Hin)|(eid&->&Hin)]%embeds_spec.
  - cbn [InterfacesProofs.brought] in Hb. destruct (final n') as [j|] eqn:Ej; [|done]. unfold codes_of_methods in Hb. rewrite lookup_fmap in Hb.
    destruct (if_methods j !! m) as [x|] eqn:Ex; [|done]. injection Hb as <-. eapply mo_embedded; [done|done|]. eapply IH; [|done|done].
    apply (Hrank (i_name n) (interface_of pk n id elems) eid n'); [|done]. apply embedding_lookup.
    exists (Some (TypeSpec n (XInterface id elems))). split; [by apply all_specs_spec|].
    split; [apply spec_interface_spec; exists n, id, elems; split; [done|]; split; [by intros ->; apply elem_of_nil in Hin|done]|].
    split; [done|]. intros E. rewrite E in He. by apply elem_of_nil in He.
  - cbn [InterfacesProofs.brought] in Hb. unfold importErrorInterfaceFact in Hb. eapply mo_imported; [done|done|].
    destruct (ti_type info eid) as [t|] eqn:Et; [|done]. destruct (getNamedType t) as [o|] eqn:En; [|done].
    destruct (fa_iface fa !! o) as [ms|] eqn:Ef; [|done]. exists t, o, ms. done.
Qed.
Lemma final_sound n i m x : final n = Some i -> if_methods i !! m = Some x -> method_of pk fa n m (im_codes x).
Proof.
  remember (rank n) as k eqn:Hk. revert n i x Hk. induction k as [k IH] using lt_wf_ind. intros n i x -> Hf Hx.
  destruct (final_declared _ _ Hf) as (nm&id&elems&Hd&<-). rewrite (final_decl nm id elems Hd) in Hf. cbn zeta in Hf.
  case_decide; [|done]. injection Hf as <-. cbn [if_methods] in Hx. apply steps_from in Hx as [Hx|(e&He&Hx)].
  - apply (own_methods nm id elems m x Hd) in Hx as (mid&name&doc&ft&Hin&<-&_&Hdecl). by eapply mo_own.
  - eapply brought_from; [done|done| |done]. intros n' j y Hr Hj Hy. by eapply IH.
Qed.
Lemma brought_has n m c nm id elems e : interface_decl pk nm id elems -> e ∈ if_embeds (interface_of pk nm id elems) -> i_name nm = n ->
  brought final e !! m = Some c -> exists i x, final n = Some i /\ if_methods i !! m = Some x.
Proof.
  intros Hd He <- Hb. rewrite (final_decl nm id elems Hd). cbn zeta.
  destruct (steps_has (if_embeds (interface_of pk nm id elems)) (if_methods (interface_of pk nm id elems)) m e c He Hb) as [x Hx].
  rewrite decide_True; [eauto|]. intros E. by rewrite E in Hx.
Qed.
Lemma imported_brought eid m c : imported_method pk fa eid m c -> brought final (EmbOther eid) !! m = Some c.
Proof. intros (t&n&ms&Ht&Hn&Hf&Hm). cbn [InterfacesProofs.brought]. unfold importErrorInterfaceFact. by rewrite Ht, Hn, Hf. Qed.
Lemma final_complete n m c : method_of pk fa n m c -> exists i x, final n = Some i /\ if_methods i !! m = Some x.
Proof.
  induction 1 as [n id elems mid name doc ft codes Hd Hin Hdecl|n id elems eid n' m codes Hd Hin _ (j&y&Hj&Hy)|n id elems eid m codes Hd Hin Himp].
  - rewrite (final_decl n id elems Hd). cbn zeta.
    assert (if_methods (interface_of pk n id elems) !! i_name name = Some (IMeth (Some name) codes)) as Hx by (apply own_methods; eauto 10).
    eapply (steps_keep (if_embeds (interface_of pk n id elems))) in Hx.
    rewrite decide_True; [eauto|]. intros E. by rewrite E in Hx.
  - eapply (brought_has _ m (im_codes y) n id elems (EmbIdent eid n') Hd); [apply embeds_spec; eauto|done|]. cbn [InterfacesProofs.brought].
    rewrite Hj. unfold codes_of_methods. by rewrite lookup_fmap, Hy.
  - eapply (brought_has _ m codes n id elems (EmbOther eid) Hd); [apply embeds_spec; eauto|done|]. by apply imported_brought.
Qed.

(** ** The diagnostics *)
Context (order : nid -> gset gostring -> list gostring) (Horder : forall id s, order id s ≡ₚ elements s).
Notation reports := (embed_reports pk fa order (maps0 pk).1 (maps0 pk).2 rank).
Lemma reports_none es ms : reports ms es = [] ->
  forall e m c, e ∈ es -> brought final e !! m = Some c -> exists x, foldl step ms es !! m = Some x /\ im_codes x = c.
Proof.
  revert ms. induction es as [|e es IH]; intros ms Hr e' m c He Hb; [by apply elem_of_nil in He|]. cbn [embed_reports] in Hr.
  apply app_eq_nil in Hr as [Hr1 Hr2]. cbn [foldl]. apply elem_of_cons in He as [->|He]; [|by eapply IH].
  assert (exists x, step ms e !! m = Some x /\ im_codes x = c) as (x&Hx&Hc); [|exists x; split; [by apply steps_keep|done]].
  unfold embed_step, merged. rewrite lookup_union, lookup_fmap, Hb. destruct (ms !! m) as [old|] eqn:Eo; cbn; [|eauto].
  exists old. split; [done|].
  assert (clash ms (brought final e) (embed_pos e) m = []) as Hcl.
  { assert (m ∈ order (embed_pos e) (dom (brought final e))) as Hm by (rewrite Horder; apply elem_of_elements, elem_of_dom; eauto).
    destruct (clash ms (brought final e) (embed_pos e) m) as [|d l] eqn:E; [done|].
    assert (d ∈ order (embed_pos e) (dom (brought final e)) ≫= clash ms (brought final e) (embed_pos e)) as Hd.
    { apply elem_of_list_bind. exists m. split; [rewrite E; by left|done]. }
    rewrite Hr1 in Hd. by apply elem_of_nil in Hd. }
  unfold clash in Hcl. rewrite Hb, Eo in Hcl. by apply clash_nil in Hcl.
Qed.
Lemma no_reports_exact : (forall n, node_reports pk fa order (maps0 pk).1 (maps0 pk).2 rank n = []) ->
  forall n m c, method_of pk fa n m c -> exists i x, final n = Some i /\ if_methods i !! m = Some x /\ im_codes x = c.
Proof.
  intros Hno. assert (forall n id elems, interface_decl pk n id elems -> reports (if_methods (interface_of pk n id elems)) (if_embeds (interface_of pk n id elems)) = []) as Hr.
  { intros n id elems Hd. destruct (decide (if_embeds (interface_of pk n id elems) = [])) as [E|E]; [by rewrite E|].
    specialize (Hno (i_name n)). unfold node_reports in Hno.
    assert ((maps0 pk).2 !! i_name n = Some (interface_of pk n id elems)) as Hl; [|by rewrite Hl in Hno].
    apply embedding_lookup. exists (Some (TypeSpec n (XInterface id elems))). split; [by apply all_specs_spec|]. split; [|done].
    apply spec_interface_spec. exists n, id, elems. split; [done|]. split; [|done]. by intros ->. }
  assert (forall n id elems e m c, interface_decl pk n id elems -> e ∈ if_embeds (interface_of pk n id elems) -> brought final e !! m = Some c ->
    exists i x, final (i_name n) = Some i /\ if_methods i !! m = Some x /\ im_codes x = c) as Hb.
  { intros n id elems e m c Hd He Hb. destruct (reports_none _ _ (Hr n id elems Hd) e m c He Hb) as (x&Hx&Hc).
    rewrite (final_decl n id elems Hd). cbn zeta. rewrite decide_True; [eauto|]. intros E. by rewrite E in Hx. }
  induction 1 as [n id elems mid name doc ft codes Hd Hin Hdecl|n id elems eid n' m codes Hd Hin _ (j&y&Hj&Hy&Hc)|n id elems eid m codes Hd Hin Himp].
  - rewrite (final_decl n id elems Hd). cbn zeta.
    assert (if_methods (interface_of pk n id elems) !! i_name name = Some (IMeth (Some name) codes)) as Hx by (apply own_methods; eauto 10).
    eapply (steps_keep (if_embeds (interface_of pk n id elems))) in Hx.
    rewrite decide_True; [eauto|]. intros E. by rewrite E in Hx.
  - eapply (Hb n id elems (EmbIdent eid n') m codes Hd); [apply embeds_spec; eauto|]. cbn [InterfacesProofs.brought].
    rewrite Hj. unfold codes_of_methods. by rewrite lookup_fmap, Hy; cbn; rewrite Hc.
  - eapply (Hb n id elems (EmbOther eid) m codes Hd); [apply embeds_spec; eauto|]. by apply imported_brought.
Qed.
Lemma reports_clash n id elems : interface_decl pk n id elems ->
  forall es ms, (forall e, e ∈ es -> e ∈ if_embeds (interface_of pk n id elems)) ->
  (forall m x, ms !! m = Some x -> method_of pk fa (i_name n) m (im_codes x)) ->
  forall d, d ∈ reports ms es -> exists m c c' eid, method_of pk fa (i_name n) m c /\ method_of pk fa (i_name n) m c' /\ c <> c' /\
    d ∈ clash_diags c c' m eid /\ ((exists n', IEmbed eid n' ∈ elems /\ method_of pk fa n' m c') \/ (IEmbedSel eid ∈ elems /\ imported_method pk fa eid m c')).
Proof.
  intros Hd es. induction es as [|e es IH]; intros ms Hes Hms d Hin; cbn [embed_reports] in Hin; [by apply elem_of_nil in Hin|].
  assert (forall m c, brought final e !! m = Some c -> method_of pk fa (i_name n) m c) as Hb.
  { intros m c. apply (brought_from n id elems e); [done|apply Hes; by left|]. intros n' i x _. apply final_sound. }
  apply elem_of_app in Hin as [Hin|Hin].
  - apply elem_of_list_bind in Hin as (m&Hdm&_). unfold clash in Hdm.
    destruct (brought final e !! m) as [new|] eqn:En; [|by apply elem_of_nil in Hdm]. destruct (ms !! m) as [old|] eqn:Eo; [|by apply elem_of_nil in Hdm].
    exists m, (im_codes old), new, (embed_pos e). split; [by apply Hms|]. split; [by apply Hb|]. split.
    { intros E. apply (clash_nil _ _ m (embed_pos e)) in E. rewrite E in Hdm. by apply elem_of_nil in Hdm. }
    split; [done|]. assert (e ∈ if_embeds (interface_of pk n id elems)) as [(eid&n'&->&He)|(eid&->&He)]%embeds_spec by (apply Hes; by left); cbn [embed_pos].
    + left. exists n'. split; [done|]. cbn [InterfacesProofs.brought] in En. destruct (final n') as [j|] eqn:Ej; [|done].
      unfold codes_of_methods in En. rewrite lookup_fmap in En. destruct (if_methods j !! m) as [x|] eqn:Ex; [|done]. injection En as <-. by eapply final_sound.
    + right. split; [done|]. cbn [InterfacesProofs.brought] in En. unfold importErrorInterfaceFact in En.
      destruct (ti_type info eid) as [t|] eqn:Et; [|done]. destruct (getNamedType t) as [o|] eqn:Eo'; [|done].
      destruct (fa_iface fa !! o) as [ms'|] eqn:Ef; [|done]. exists t, o, ms'. done.
  - eapply IH; [|  |exact Hin].
    + intros e' ?. apply Hes. by right.
    + intros m x Hx. unfold embed_step, merged in Hx. apply lookup_union_Some_raw in Hx as [Hx|[_ Hx]]; [by apply Hms|].
      rewrite lookup_fmap in Hx. destruct (brought final e !! m) as [c|] eqn:Eb; [|done]. injection Hx as <-. by apply Hb.
Qed.
Lemma node_clash nn d : d ∈ node_reports pk fa order (maps0 pk).1 (maps0 pk).2 rank nn ->
  exists n id elems m c c' eid, interface_decl pk n id elems /\ i_name n = nn /\ method_of pk fa nn m c /\ method_of pk fa nn m c' /\ c <> c' /\
    d ∈ clash_diags c c' m eid /\ ((exists n', IEmbed eid n' ∈ elems /\ method_of pk fa n' m c') \/ (IEmbedSel eid ∈ elems /\ imported_method pk fa eid m c')).
Proof.
  unfold node_reports. destruct ((maps0 pk).2 !! nn) as [i|] eqn:Ei; [|by intros ?%elem_of_nil].
  apply embedding_lookup in Ei as (s&Hs&(n&id&elems&->&_&->)%spec_interface_spec&<-&_). apply all_specs_spec in Hs as Hd. cbn [if_ident interface_of].
  intros Hin. eapply reports_clash in Hin as (m&c&c'&eid&?); [|exact Hd|done|].
  - exists n, id, elems, m, c, c', eid. tauto.
  - intros m x Hx. apply (own_methods n id elems m x Hd) in Hx as (mid&name&doc&ft&Hin'&<-&_&Hdecl). by eapply mo_own.
Qed.
Lemma compatible_spec : (elements (dom (maps0 pk).2) ≫= node_reports pk fa order (maps0 pk).1 (maps0 pk).2 rank = []) <-> compatible pk fa.
Proof.
  split.
  - intros Hno. assert (forall n, node_reports pk fa order (maps0 pk).1 (maps0 pk).2 rank n = []) as Hn.
    { intros n. destruct (node_reports pk fa order (maps0 pk).1 (maps0 pk).2 rank n) as [|d l] eqn:E; [done|].
      assert (d ∈ elements (dom (maps0 pk).2) ≫= node_reports pk fa order (maps0 pk).1 (maps0 pk).2 rank) as Hin; [|rewrite Hno in Hin; by apply elem_of_nil in Hin].
      apply elem_of_list_bind. exists n. split; [rewrite E; by left|]. apply elem_of_elements, elem_of_dom. unfold node_reports in E.
      by destruct ((maps0 pk).2 !! n). }
    intros n m c c' Hc Hc'. apply (no_reports_exact Hn) in Hc as (i&x&Hi&Hx&<-), Hc' as (i'&x'&Hi'&Hx'&<-). congruence.
  - intros Hc. destruct (elements (dom (maps0 pk).2) ≫= _) as [|d l] eqn:E; [done|].
    assert (d ∈ d :: l) as Hin by (by left). rewrite <-E in Hin. apply elem_of_list_bind in Hin as (n&Hin&_).
    apply node_clash in Hin as (?&?&?&m&c&c'&?&_&_&H1&H2&Hne&_). by destruct Hne; eapply Hc.
Qed.
Lemma reports_dec m es ms :
  (exists e c c' d, e ∈ es /\ c <> c' /\ d ∈ clash_diags c c' m (embed_pos e) /\ d ∈ reports ms es) \/
  (forall e c, e ∈ es -> brought final e !! m = Some c -> exists x, foldl step ms es !! m = Some x /\ im_codes x = c).
Proof.
  revert ms. induction es as [|e es IH]; intros ms; [right; by intros ? ? ?%elem_of_nil|]. cbn [embed_reports foldl].
  destruct (IH (step ms e)) as [(e'&c&c'&d&He&Hc&Hd&Hin)|Hr].
  { left. exists e', c, c', d. split_and!; [by right|done|done|]. apply elem_of_app. by right. }
  destruct (clash ms (brought final e) (embed_pos e) m) as [|d l] eqn:Ecl.
  - right. intros e' c He Hb. apply elem_of_cons in He as [->|He]; [|by apply (Hr e')].
    assert (exists x, step ms e !! m = Some x /\ im_codes x = c) as (x&Hx&Hc); [|exists x; split; [by apply steps_keep|done]].
    unfold embed_step, merged. rewrite lookup_union, lookup_fmap, Hb. destruct (ms !! m) as [old|] eqn:Eo; cbn; [|eauto].
    exists old. split; [done|]. unfold clash in Ecl. rewrite Hb, Eo in Ecl. by apply clash_nil in Ecl.
  - left. unfold clash in Ecl. destruct (brought final e !! m) as [new|] eqn:En; [|done]. destruct (ms !! m) as [old|] eqn:Eo; [|done].
    exists e, (im_codes old), new, d. split_and!.
    + by left.
    + intros E. apply (clash_nil _ _ m (embed_pos e)) in E. by rewrite E in Ecl.
    + rewrite Ecl. by left.
    + apply elem_of_app. left. apply elem_of_list_bind. exists m. unfold clash. rewrite En, Eo, Ecl. split; [by left|].
      rewrite Horder. apply elem_of_elements, elem_of_dom. eauto.
Qed.
(** Two declarations that do not come from the same embedded interface are reported at an interface embedded. *)
Lemma node_reported n id elems m c c' : interface_decl pk n id elems ->
  method_of pk fa (i_name n) m c -> method_of pk fa (i_name n) m c' -> c <> c' ->
  (forall eid n' d d', IEmbed eid n' ∈ elems -> method_of pk fa n' m d -> method_of pk fa n' m d' -> d = d') ->
  exists e a a' d, e ∈ if_embeds (interface_of pk n id elems) /\ a <> a' /\ d ∈ clash_diags a a' m (embed_pos e) /\
    d ∈ node_reports pk fa order (maps0 pk).1 (maps0 pk).2 rank (i_name n).
Proof.
  intros Hd Hc Hc' Hne Hemb.
  destruct (reports_dec m (if_embeds (interface_of pk n id elems)) (if_methods (interface_of pk n id elems))) as [(e&a&a'&d&He&Ha&Hda&Hin)|Hr].
  - exists e, a, a', d. split_and!; try done. unfold node_reports.
    assert ((maps0 pk).2 !! i_name n = Some (interface_of pk n id elems)) as ->; [|done].
    apply embedding_lookup. exists (Some (TypeSpec n (XInterface id elems))). split; [by apply all_specs_spec|]. split; [|split; [done|]].
    + apply spec_interface_spec. exists n, id, elems. split; [done|]. split; [|done]. intros ->. by apply elem_of_nil in He.
    + intros E. rewrite E in He. by apply elem_of_nil in He.
  - exfalso. apply Hne.
    assert (forall a, method_of pk fa (i_name n) m a ->
      exists x, foldl step (if_methods (interface_of pk n id elems)) (if_embeds (interface_of pk n id elems)) !! m = Some x /\ im_codes x = a) as H.
    { intros a Ha. inversion Ha as [n0 id0 elems0 mid name doc ft codes Hd0 Hin Hdecl Hn Hm Hcd|n0 id0 elems0 eid n' m0 codes Hd0 Hin Ho Hn|n0 id0 elems0 eid m0 codes Hd0 Hin Himp Hn];
        subst; destruct (ik_interfaces _ Hok _ _ _ _ _ _ Hd Hd0 (eq_sym Hn)) as (<-&<-&<-).
      - exists (IMeth (Some name) a). split; [|done]. apply steps_keep. apply own_methods; eauto 10.
      - apply (Hr (EmbIdent eid n') a); [apply embeds_spec; eauto|]. cbn [InterfacesProofs.brought].
        destruct (final_complete _ _ _ Ho) as (j&y&Hj&Hy). rewrite Hj. unfold codes_of_methods. rewrite lookup_fmap, Hy. cbn. f_equal.
        eapply Hemb; [exact Hin| |exact Ho]. by eapply final_sound.
      - apply (Hr (EmbOther eid) a); [apply embeds_spec; eauto|]. by apply imported_brought. }
    destruct (H _ Hc) as (x&Hx&<-), (H _ Hc') as (x'&Hx'&<-). congruence.
Qed.
End result.

(** ** Reports about declarations *)
Lemma own_reports d : d ∈ (all_specs pk ≫= spec_diags pk) <-> own_report pk d.
Proof.
  assert (forall id mid name doc ft, d ∈ elem_diags pk id (IMethod mid name doc ft) <-> method_report pk id mid name doc ft d) as Hm.
  { intros id mid name doc ft. cbn [elem_diags]. rewrite elem_of_app.
    assert (d ∈ bad_results pk ft <-> ~ returns_error_last pk ft /\ exists r, r ∈ default [] (ft_results ft) /\ error_result pk r /\
              d = Diag (f_id r) (str "error should be returned as the last argument")) as ->.
    { unfold bad_results. rewrite <-ends_in_error_spec. destruct (ends_in_error pk ft).
      - split; [by intros ?%elem_of_nil|]. by intros [[] _].
      - rewrite elem_of_list_bind. split.
        + intros (r&Hd&Hr). split; [done|]. exists r. split; [done|]. unfold misplaced in Hd. destruct (is_error_type pk (f_type r)) eqn:E; [|by apply elem_of_nil in Hd].
          apply elem_of_list_singleton in Hd. apply is_error_spec in E. done.
        + intros (_&r&Hr&He&->). exists r. split; [|done]. unfold misplaced. apply is_error_spec in He. rewrite He. by left. }
    assert (forall r, findErrorDocs doc = inl r <-> doc_means doc r) as Hdoc.
    { intros r. destruct doc as [dc|]; cbn.
      - rewrite run_docs_declares. split; [by constructor|]. by inversion 1.
      - split; [intros [= <-]; constructor|]. by inversion 1. }
    assert (forall e, findErrorDocs doc = inr e <-> doc_odd doc e) as Hodd.
    { intros e. destruct doc as [dc|]; cbn; unfold doc_odd.
      - rewrite run_docs_malformed. split; [eauto|]. by intros (?&[= <-]&?).
      - split; [done|]. by intros (?&?&_). }
    assert ((exists t, ti_type info id = Some t /\ ti_implements_cause info t = true) <->
      match ti_type info id with Some t => ti_implements_cause info t | None => false end = true) as Hcause.
    { destruct (ti_type info id) as [t|]; split; [by intros (?&[= <-]&?)|eauto|by intros (?&?&_)|done]. }
    unfold method_result. destruct (ends_in_error pk ft) eqn:E; cbn [negb].
    2:{ assert (~ returns_error_last pk ft) as Hn by (rewrite <-ends_in_error_spec; congruence). split.
        - intros [(_&r&?&?&->)|?%elem_of_nil]; [by econstructor|done].
        - intros []; [left; eauto|done..]. }
    apply ends_in_error_spec in E.
    destruct (findErrorDocs doc) as [r|e].
    2:{ assert (doc_odd doc e) as He by (by apply Hodd). split.
        - intros [[[] _]| ->%elem_of_list_singleton]; [done|]. by constructor.
        - intros [|e' _ He'|r _ Hr|r _ Hr]; [done| |by apply Hdoc in Hr|by apply Hdoc in Hr]. apply Hodd in He'. injection He' as ->. right. by left. }
    assert (doc_means doc r) as Hr by (by apply Hdoc).
    destruct (decide (dr_param r <> [])) as [Hp|Hp%dec_stable].
    { split.
      - intros [[[] _]| ->%elem_of_list_singleton]; [done|]. by econstructor.
      - intros [|e' _ He'|r' _ Hr'|r' _ Hr' Hp']; [done|by apply Hodd in He'|right; by left|]. apply Hdoc in Hr'. by injection Hr' as ->. }
    assert (d ∉ [] ++ ([] : list diag)) as Hnil by (by intros ?%elem_of_nil).
    destruct (bool_decide (dr_codes r = ∅) && negb (dr_none r)) eqn:Eb.
    - rewrite andb_true_iff, bool_decide_eq_true, negb_true_iff in Eb. destruct Eb as [Ec En].
      destruct (bool_decide (i_name name = str "Cause") && _) eqn:Ecause.
      + rewrite andb_true_iff, bool_decide_eq_true, <-Hcause in Ecause. split.
        * intros [[[] _]|?%elem_of_nil]; done.
        * intros [|e' _ He'|r' _ Hr' Hp'|r' _ Hr' Hp' _ _ Hx]; [done|by apply Hodd in He'| |done]. apply Hdoc in Hr'. by injection Hr' as ->.
      + rewrite <-not_true_iff_false, andb_true_iff, bool_decide_eq_true, <-Hcause in Ecause. split.
        * intros [[[] _]| ->%elem_of_list_singleton]; [done|]. by econstructor.
        * intros [|e' _ He'|r' _ Hr' Hp'|r' _ Hr' Hp' _ _ Hx]; [done|by apply Hodd in He'| |right; by left]. apply Hdoc in Hr'. by injection Hr' as ->.
    - rewrite <-not_true_iff_false, andb_true_iff, bool_decide_eq_true, negb_true_iff in Eb. split.
      + intros [[[] _]|?%elem_of_nil]; done.
      + intros [|e' _ He'|r' _ Hr' Hp'|r' _ Hr' Hp' Hc Hnn Hx]; [done|by apply Hodd in He'| |]; apply Hdoc in Hr'; injection Hr' as ->; [done|]. by destruct Eb. }
  rewrite elem_of_list_bind. unfold own_report. split.
  - intros (s&Hd&Hs). destruct s as [[n [|id elems|]]|]; cbn [spec_diags] in Hd; try by apply elem_of_nil in Hd.
    apply elem_of_list_bind in Hd as (e&Hd&He). destruct e as [mid name doc ft| | |]; try by apply elem_of_nil in Hd.
    apply all_specs_spec in Hs. apply Hm in Hd. eauto 10.
  - intros (n&id&elems&mid&name&doc&ft&Hi&He&Hd). apply all_specs_spec in Hi. eexists. split; [|exact Hi]. cbn [spec_diags].
    apply elem_of_list_bind. exists (IMethod mid name doc ft). split; [by apply Hm|done].
Qed.

(** ** C27 *)
(** The text of the diagnostic about an embedded interface, at position [eid]. *)
Definition clash_report (c c' : codeset) (m : gostring) (eid : nid) (d : diag) : Prop :=
  exists missing unused, listing missing (c ∖ c') /\ listing unused (c' ∖ c) /\
    d = Diag eid (str "embedded interface is not compatible: method " ++ quoted m ++ str " has mismatches in declared error codes: " ++
                  match missing, unused with
                  | _ :: _, [] => str "missing codes: [" ++ join (str " ") missing ++ str "]"
                  | [], _ => str "unused codes: [" ++ join (str " ") unused ++ str "]"
                  | _, _ => str "missing codes: [" ++ join (str " ") missing ++ str "] unused codes: [" ++ join (str " ") unused ++ str "]"
                  end).
Lemma clash_report_spec c c' m eid d : c <> c' -> d ∈ clash_diags c c' m eid <-> clash_report c c' m eid d.
Proof.
  intros Hne. pose proof (C12_mismatch_report [] c c' _ (some_orders_ok c c')) as [_ H]. destruct (H Hne) as (mi&un&Hmi&Hun&E).
  assert (clash_diags c c' m eid = [Diag eid (str "embedded interface is not compatible: method " ++ quoted m ++ str " has mismatches in declared error codes: " ++
                  match mi, un with
                  | _ :: _, [] => str "missing codes: [" ++ join (str " ") mi ++ str "]"
                  | [], _ => str "unused codes: [" ++ join (str " ") un ++ str "]"
                  | _, _ => str "missing codes: [" ++ join (str " ") mi ++ str "] unused codes: [" ++ join (str " ") un ++ str "]"
                  end)]) as ->.
  { unfold clash_diags. unfold reportIfCodesDoNotMatch in E. destruct (checkIfErrorCodesMatch _) as [[|] msg]; [done|].
    unfold expected_message in E. injection E as E. repeat apply app_inv_head in E. by subst. }
  rewrite elem_of_list_singleton. split.
  - intros ->. by exists mi, un.
  - intros (mi'&un'&Hmi'&Hun'&->). by rewrite (listing_unique _ _ _ Hmi' Hmi), (listing_unique _ _ _ Hun' Hun).
Qed.
Section theorems.
Context (order : nid -> gset gostring -> list gostring) (Horder : forall id s, order id s ≡ₚ elements s).
Context (names : gset gostring -> list gostring) (Hnames : forall s, names s ≡ₚ elements s).
Lemma interfaces_result ifaces ds : findErrorReturningInterfaces pk fa order names = Ok (ifaces, ds) ->
  exists rank own clashes, rank_ok rank /\ own = (all_specs pk ≫= spec_diags pk) /\
    (forall n, ifaces !! n = final pk fa (maps0 pk).1 (maps0 pk).2 rank n) /\
    ds = own ++ clashes /\
    clashes ≡ₚ (elements (dom (maps0 pk).2) ≫= node_reports pk fa order (maps0 pk).1 (maps0 pk).2 rank).
Proof.
  intros E. unfold findErrorReturningInterfaces in E. destruct (collect_interfaces pk) as [[m0 d0]| |] eqn:E0; try done.
  apply collect_all in E0 as (_&->&->). destruct rank_exists as [rank Hrank].
  destruct (embedding_ok pk fa order Horder (maps0 pk).1 (maps0 pk).2 maps_disjoint maps_key rank Hrank names Hnames) as (m'&ds'&E1&Hm&Hp).
  cbn [pbind] in E. rewrite <-surjective_pairing in E1. rewrite E1 in E. cbn [pbind pret] in E. injection E as <- <-.
  exists rank, (all_specs pk ≫= spec_diags pk), ds'. split_and!; try done. by rewrite app_nil_r.
Qed.

(** The interfaces found have exactly the methods declared in them or in interfaces embedded in them, directly or
    not; the codes are those of one of the declarations; interfaces without such methods are not kept. *)
Theorem C27_methods ifaces ds : findErrorReturningInterfaces pk fa order names = Ok (ifaces, ds) ->
  (forall n m, (exists i x, ifaces !! n = Some i /\ if_methods i !! m = Some x) <-> exists codes, method_of pk fa n m codes) /\
  (forall n i m x, ifaces !! n = Some i -> if_methods i !! m = Some x -> method_of pk fa n m (im_codes x)) /\
  (forall n, is_Some (ifaces !! n) <-> exists m codes, method_of pk fa n m codes).
Proof.
  intros (rank&own&clashes&Hrank&_&Hf&_)%interfaces_result.
  assert (forall n i m x, ifaces !! n = Some i -> if_methods i !! m = Some x -> method_of pk fa n m (im_codes x)) as Hs.
  { intros n i m x. rewrite Hf. by apply final_sound. }
  split_and!; [|done|].
  - intros n m. split; [intros (i&x&Hi&Hx); eauto|]. intros [codes H]. rewrite Hf. by eapply final_complete.
  - intros n. split.
    + intros [i Hi]. assert (if_methods i <> ∅) as [m [x Hx]]%map_choose by (rewrite Hf in Hi; by eapply final_none). eauto.
    + intros (m&codes&H). destruct (final_complete rank Hrank _ _ _ H) as (i&x&Hi&_). rewrite Hf, Hi. eauto.
Qed.
(** What is reported about embedding: nothing iff the declarations agree; ... *)
Theorem C27_reports ifaces ds : findErrorReturningInterfaces pk fa order names = Ok (ifaces, ds) ->
  exists clashes, (forall d, d ∈ ds <-> own_report pk d \/ d ∈ clashes) /\
    (clashes = [] <-> compatible pk fa) /\
    (* every diagnostic names a method with two different declarations, at the interface embedded; *)
    (forall d, d ∈ clashes -> exists n id elems m c c' eid, interface_decl pk n id elems /\
       method_of pk fa (i_name n) m c /\ method_of pk fa (i_name n) m c' /\ c <> c' /\ clash_report c c' m eid d /\
       ((exists n', IEmbed eid n' ∈ elems /\ method_of pk fa n' m c') \/ (IEmbedSel eid ∈ elems /\ imported_method pk fa eid m c'))) /\
    (* two declarations that do not both come from one embedded interface are reported. *)
    (forall n id elems m c c', interface_decl pk n id elems ->
       method_of pk fa (i_name n) m c -> method_of pk fa (i_name n) m c' -> c <> c' ->
       (forall eid n' d d', IEmbed eid n' ∈ elems -> method_of pk fa n' m d -> method_of pk fa n' m d' -> d = d') ->
       exists eid a a' d, a <> a' /\ clash_report a a' m eid d /\ d ∈ clashes /\ ((exists n', IEmbed eid n' ∈ elems) \/ IEmbedSel eid ∈ elems)) /\
    (* and if nothing is, the codes of a method are those of every declaration. *)
    (clashes = [] -> forall n m codes, method_of pk fa n m codes <->
       exists i x, ifaces !! n = Some i /\ if_methods i !! m = Some x /\ im_codes x = codes).
Proof.
  intros (rank&own&clashes&Hrank&->&Hf&->&Hp)%interfaces_result. exists clashes.
  assert (clashes = [] <-> compatible pk fa) as Hc.
  { rewrite <-(compatible_spec rank Hrank order Horder). split; [intros E|intros E; rewrite E in Hp].
    - rewrite E in Hp. by apply Permutation_nil in Hp.
    - by apply Permutation_nil. }
  split_and!.
  - intros d. by rewrite elem_of_app, own_reports.
  - exact Hc.
  - intros d. rewrite Hp. intros (n&Hd&_)%elem_of_list_bind.
    apply (node_clash rank Hrank order) in Hd as (nm&id&elems&m&c&c'&eid&Hi&<-&H1&H2&Hne&Hd&Hor).
    exists nm, id, elems, m, c, c', eid. split_and!; try done. by apply clash_report_spec.
  - intros n id elems m c c' Hd H1 H2 Hne Hemb.
    destruct (node_reported rank Hrank order Horder n id elems m c c' Hd H1 H2 Hne Hemb) as (e&a&a'&d&He&Ha&Hda&Hin).
    exists (embed_pos e), a, a', d. split_and!; [done|by apply clash_report_spec| |].
    + rewrite Hp. apply elem_of_list_bind. exists (i_name n). split; [done|]. apply elem_of_elements, elem_of_dom.
      unfold node_reports in Hin. destruct ((maps0 pk).2 !! i_name n); [eauto|by apply elem_of_nil in Hin].
    + apply embeds_spec in He as [(eid&n'&->&He)|(eid&->&He)]; cbn; eauto.
  - intros E n m codes. rewrite Hf. split.
    + intros H. destruct (final_complete rank Hrank _ _ _ H) as (i&x&Hi&Hx). exists i, x. split_and!; try done.
      apply (proj1 Hc E n m); [by eapply final_sound|done].
    + intros (i&x&Hi&Hx&<-). by eapply final_sound.
Qed.
End theorems.
Lemma embed_reports_order o o' rank es ms : (forall id s, o id s ≡ₚ elements s) -> (forall id s, o' id s ≡ₚ elements s) ->
  embed_reports pk fa o (maps0 pk).1 (maps0 pk).2 rank ms es ≡ₚ embed_reports pk fa o' (maps0 pk).1 (maps0 pk).2 rank ms es.
Proof.
  intros H H'. revert ms. induction es as [|e es IH]; intros ms; cbn [embed_reports]; [done|]. rewrite (IH _), H, H'. done.
Qed.
End interfaces.
(** The iteration orders do not matter. *)
Theorem C27_order_independent pk fa o o' names names' : interfaces_ok pk ->
  (forall id s, o id s ≡ₚ elements s) -> (forall id s, o' id s ≡ₚ elements s) ->
  (forall s, names s ≡ₚ elements s) -> (forall s, names' s ≡ₚ elements s) ->
  match findErrorReturningInterfaces pk fa o names, findErrorReturningInterfaces pk fa o' names' with
  | Ok (ifaces, ds), Ok (ifaces', ds') => ifaces = ifaces' /\ ds ≡ₚ ds'
  | Panicked, Panicked => True
  | _, _ => False
  end.
Proof.
  intros Hok Ho Ho' Hn Hn'. destruct (rank_exists pk Hok) as [rank Hrank]. unfold findErrorReturningInterfaces.
  destruct (collect_interfaces pk) as [[m0 d0]| |] eqn:E0; try done.
  2:{ by destruct (collect_ends pk). }
  apply collect_all in E0 as (_&->&->).
  destruct (embedding_ok pk fa o Ho (maps0 pk).1 (maps0 pk).2 (maps_disjoint pk Hok) (maps_key pk Hok) rank Hrank names Hn) as (m1&ds1&E1&Hm1&Hp1).
  destruct (embedding_ok pk fa o' Ho' (maps0 pk).1 (maps0 pk).2 (maps_disjoint pk Hok) (maps_key pk Hok) rank Hrank names' Hn') as (m2&ds2&E2&Hm2&Hp2).
  cbn [pbind]. rewrite <-surjective_pairing in E1, E2. rewrite E1, E2. cbn [pbind pret]. split.
  - apply map_eq. intros n. by rewrite Hm1, Hm2.
  - rewrite !app_nil_r. apply Permutation_app_head. rewrite Hp1, Hp2. generalize (elements (dom (maps0 pk).2)) as l. intros l.
    induction l as [|n l IH]; [done|]. cbn [mbind list_bind]. apply Permutation_app; [|exact IH]. unfold node_reports.
    destruct ((maps0 pk).2 !! n); [by apply embed_reports_order|done].
Qed.
