(** * Proofs: the interfaces that are found, if imported interfaces declare other codes. *)
From stdpp Require Import base list gmap sets.
From Verif Require Import GoString ErrorCode Scc Engine CodeSet Annotation Constant GoAst Taint Extract Analyse Phase ErrorTypes Claims Interfaces PropFacts.

Lemma pfold_sim2 {A S} (R : S -> S -> Prop) (f g : S -> A -> phase S) l s1 s2 x ds :
  (forall a s1 s2 x ds, R s1 s2 -> f s1 a = Ok (x, ds) -> exists y ds', R x y /\ g s2 a = Ok (y, ds')) ->
  R s1 s2 -> pfold f s1 l = Ok (x, ds) -> exists y ds', R x y /\ pfold g s2 l = Ok (y, ds').
Proof.
  intros H. revert s1 s2 ds. induction l as [|a l IH]; intros s1 s2 ds HR; cbn [pfold].
  - intros [= <- <-]. by exists s2, [].
  - unfold pbind. destruct (f s1 a) as [[s1' d1]| |] eqn:E1; [|done|done]. destruct (pfold f s1' l) as [[x' d2]| |] eqn:E2; [|done|done]. intros [= <- <-].
    destruct (H _ _ _ _ _ HR E1) as (s2'&d1'&HR'&->). destruct (IH _ _ _ HR' E2) as (y&d2'&HR2&->). eauto.
Qed.

Lemma pbind_sim2 {A B A' B'} (R : A -> A' -> Prop) (Q : B -> B' -> Prop) (m : phase A) (m' : phase A') (k : A -> phase B) (k' : A' -> phase B') z ds :
  (forall x ds, m = Ok (x, ds) -> exists y ds', R x y /\ m' = Ok (y, ds')) ->
  (forall x y z ds, R x y -> k x = Ok (z, ds) -> exists w ds', Q z w /\ k' y = Ok (w, ds')) ->
  pbind m k = Ok (z, ds) -> exists w ds', Q z w /\ pbind m' k' = Ok (w, ds').
Proof.
  intros H1 H2. unfold pbind. destruct m as [[x d]| |]; [|done|done]. destruct (H1 x d eq_refl) as (y&d'&HR&->).
  destruct (k x) as [[z' d2]| |] eqn:E; [|done|done]. intros [= <- <-]. destruct (H2 _ _ _ _ HR E) as (w&d3&HQ&->). eauto.
Qed.
(** The same methods; those of embedded interfaces may declare other codes. *)
Definition like_method (a b : imethod) : Prop := im_ident a = im_ident b /\ (im_ident a <> None -> a = b).
Definition like (i j : iface) : Prop :=
  if_ident i = if_ident j /\ if_embeds i = if_embeds j /\ forall m, option_Forall2 like_method (if_methods i !! m) (if_methods j !! m).
Lemma like_refl i : like i i.
Proof. split_and!; [done|done|]. intros m. destruct (if_methods i !! m); constructor. by split. Qed.
Lemma like_dom i j : like i j -> dom (if_methods i) = dom (if_methods j).
Proof.
  intros (_&_&H). apply set_eq. intros m. rewrite !elem_of_dom. specialize (H m). destruct H; split; intros [? ?]; eauto; done.
Qed.
Lemma like_empty i j : like i j -> if_methods i = ∅ <-> if_methods j = ∅.
Proof. intros H%like_dom. rewrite <-!(dom_empty_iff_L (D := gset gostring)), H. done. Qed.
Lemma codes_dom i : dom (codes_of_methods i) = dom (if_methods i).
Proof. unfold codes_of_methods. apply dom_fmap_L. Qed.
Lemma like_insert i j m a b : like i j -> like_method a b ->
  like (Iface (if_ident i) (<[ m := a ]> (if_methods i)) (if_embeds i)) (Iface (if_ident j) (<[ m := b ]> (if_methods j)) (if_embeds j)).
Proof.
  intros (H1&H2&H3) Hab. split_and!; cbn; [done|done|]. intros n. destruct (decide (n = m)) as [->|Hn].
  - rewrite !lookup_insert. by constructor.
  - rewrite !lookup_insert_ne by done. apply H3.
Qed.
Lemma check_ok old new m pos : exists ds, checkEmbeddedInterfaceErrorMethodCodes old new m pos = Ok (tt, ds).
Proof. unfold checkEmbeddedInterfaceErrorMethodCodes. destruct (checkIfErrorCodesMatch _) as [[|] msg]; eexists; reflexivity. Qed.
Lemma add_sim i j add add' l pos x ds : like i j -> dom add = dom add' -> addEmbeddedInterfaceErrorMethods i add l pos = Ok (x, ds) ->
  exists y ds', like x y /\ addEmbeddedInterfaceErrorMethods j add' l pos = Ok (y, ds').
Proof.
  intros H Hdom. unfold addEmbeddedInterfaceErrorMethods. apply pfold_sim2; [|done]. clear i j x ds H. intros m i j x ds H.
  assert (is_Some (add !! m) <-> is_Some (add' !! m)) as E by (rewrite <-!elem_of_dom, Hdom; done).
  destruct (add !! m) as [new|], (add' !! m) as [new'|]; [|exfalso|exfalso|].
  - pose proof (proj2 (proj2 H) m) as Hm. inversion Hm as [a b Hab Ea Eb|Ea Eb].
    + destruct (check_ok (im_codes a) new m pos) as [d1 E1], (check_ok (im_codes b) new' m pos) as [d2 E2].
      rewrite E1, E2. cbn [pbind pret]. intros [= <- <-]. eauto.
    + intros [= <- <-]. eexists _, _. split; [|reflexivity]. apply like_insert; [done|]. by split.
  - destruct (proj1 E (mk_is_Some _ _ eq_refl)). discriminate.
  - destruct (proj2 E (mk_is_Some _ _ eq_refl)). discriminate.
  - intros [= <- <-]. eexists _, _. split; [exact H|reflexivity].
Qed.

Section sim.
Context (pk : package) (fa fa' : facts) (order : nid -> gset gostring -> list gostring).
Context (Hif : forall o, option_Forall2 (fun m m' : gmap gostring codeset => dom m' = dom m) (fa_iface fa !! o) (fa_iface fa' !! o)).
Definition likes (m m' : imaps) : Prop := (forall n, option_Forall2 like (m.1 !! n) (m'.1 !! n)) /\ m.2 = m'.2.
Lemma import_sim t : option_Forall2 (fun m m' : gmap gostring codeset => dom m' = dom m) (importErrorInterfaceFact fa t) (importErrorInterfaceFact fa' t).
Proof. unfold importErrorInterfaceFact. destruct t as [t|]; [|constructor]. destruct (getNamedType t); [apply Hif|constructor]. Qed.
Lemma embed_sim dfs dfs' s1 s2 e x ds :
  (forall i m m' x ds, likes m m' -> dfs i m = Ok (x, ds) -> exists y ds', likes x y /\ dfs' i m' = Ok (y, ds')) ->
  like s1.1 s2.1 /\ likes s1.2 s2.2 -> embed_one pk fa order dfs s1 e = Ok (x, ds) ->
  exists y ds', (like x.1 y.1 /\ likes x.2 y.2) /\ embed_one pk fa' order dfs' s2 e = Ok (y, ds').
Proof.
  intros Hdfs. destruct s1 as [i m], s2 as [j m']. cbn [fst snd]. intros [Hi Hm]. unfold embed_one. destruct e as [id name|id].
  - apply (pbind_sim2 likes (fun x y : iface * imaps => like x.1 y.1 /\ likes x.2 y.2)).
    { intros x0 d0. rewrite <-(proj2 Hm). destruct (m.2 !! name); [by apply Hdfs|]. intros [= <- <-]. eexists _, _. split; [exact Hm|reflexivity]. }
    clear x ds. intros m1 m2 x ds Hm2.
    pose proof (proj1 Hm2 name) as Hn. inversion Hn as [a b Hab Ea Eb|Ea Eb].
    + rewrite !codes_dom, <-(like_dom a b Hab). apply (pbind_sim2 like (fun x y : iface * imaps => like x.1 y.1 /\ likes x.2 y.2)).
      { intros x0 d0. apply add_sim; [done|]. rewrite !codes_dom. by apply like_dom. }
      clear x ds. intros i' j' x ds Hij [= <- <-]. eexists _, _. split; [|reflexivity]. done.
    + cbn [pret]. intros [= <- <-]. eexists _, _. split; [|reflexivity]. done.
  - pose proof (import_sim (ti_type (pk_info pk) id)) as Himp. inversion Himp as [a b Hab Ea Eb|Ea Eb].
    + rewrite Hab. apply (pbind_sim2 like (fun x y : iface * imaps => like x.1 y.1 /\ likes x.2 y.2)).
      { intros x0 d0. by apply add_sim. }
      clear x ds. intros i' j' x ds Hij [= <- <-]. eexists _, _. split; [|reflexivity]. done.
    + cbn [pret]. intros [= <- <-]. eexists _, _. split; [|reflexivity]. done.
Qed.
Lemma dfs_sim fuel i m m' x ds : likes m m' -> embeddingInterfaceDFS pk fa order fuel i m = Ok (x, ds) ->
  exists y ds', likes x y /\ embeddingInterfaceDFS pk fa' order fuel i m' = Ok (y, ds').
Proof.
  revert i m m' x ds. induction fuel as [|fuel IH]; intros i m m' x ds Hm; cbn [embeddingInterfaceDFS]; [done|].
  destruct (pfold (embed_one pk fa order (embeddingInterfaceDFS pk fa order fuel)) _ _) as [[[i' m2] d1]| |] eqn:E; cbn [pbind]; [|done|done].
  eapply (pfold_sim2 (fun s s' => like s.1 s'.1 /\ likes s.2 s'.2) _ (embed_one pk fa' order (embeddingInterfaceDFS pk fa' order fuel)) _ _
    (i, (m'.1, delete (i_name (if_ident i)) m'.2))) in E; cbn [fst snd].
  2: { intros a s1 s2 y d Hs. by apply embed_sim. }
  2: { cbn [fst snd]. split; [apply like_refl|]. split; cbn; [apply Hm|by rewrite (proj2 Hm)]. }
  destruct E as ([j' m3]&d2&[Hi H3]&->). cbn [pbind pret fst snd] in *.
  pose proof (like_empty _ _ Hi) as He. destruct Hi as (Hid&Hi).
  intros [= <- <-]. eexists _, _. split; [|reflexivity]. destruct (decide (if_methods i' <> ∅)) as [H|H].
  - rewrite decide_True by tauto. split; cbn; [|apply H3]. intros n. rewrite Hid. destruct (decide (n = i_name (if_ident j'))) as [->|Hn].
    + rewrite !lookup_insert. constructor. split; done.
    + rewrite !lookup_insert_ne by done. apply H3.
  - rewrite decide_False by tauto. exact H3.
Qed.
Lemma interfaces_sim names x ds : findErrorReturningInterfaces pk fa order names = Ok (x, ds) ->
  exists y ds', (forall n, option_Forall2 like (x !! n) (y !! n)) /\ findErrorReturningInterfaces pk fa' order names = Ok (y, ds').
Proof.
  unfold findErrorReturningInterfaces. apply (pbind_sim2 eq (fun x y : gmap gostring iface => forall n, option_Forall2 like (x !! n) (y !! n))); [eauto|].
  clear x ds. intros m ? x ds <-. apply (pbind_sim2 likes (fun x y : gmap gostring iface => forall n, option_Forall2 like (x !! n) (y !! n))).
  - clear x ds. intros x ds. unfold findErrorReturningEmbeddingInterfaces. cbv zeta. generalize (S (size m.2)). intros fuel. apply (pfold_sim2 likes).
    + intros n s1 s2 y d Hs. rewrite <-(proj2 Hs). destruct (s1.2 !! n); [by apply dfs_sim|]. intros [= <- <-]. eexists _, _. split; [exact Hs|reflexivity].
    + split; [|done]. intros n. destruct (m.1 !! n); constructor. apply like_refl.
  - clear x ds. intros m1 m2 x ds Hm [= <- <-]. eexists _, _. split; [apply Hm|reflexivity].
Qed.
End sim.

(** ** What is exported *)
Section export.
Context (pk : package) (methods : gset gostring -> list gostring).
Lemma ifaces_like (x y : gmap gostring iface) l : (forall n, option_Forall2 like (x !! n) (y !! n)) ->
  Forall2 like (omap (fun n => x !! n) l) (omap (fun n => y !! n) l).
Proof.
  intros H. induction l as [|n l IH]; [constructor|]. cbn [omap list_omap]. destruct (H n); [by constructor|done].
Qed.
Lemma dom_like (x y : gmap gostring iface) : (forall n, option_Forall2 like (x !! n) (y !! n)) -> dom x = dom y.
Proof. intros H. apply set_eq. intros n. rewrite !elem_of_dom. destruct (H n); split; intros [? ?]; eauto; done. Qed.
Lemma method_keys l l' : Forall2 like l l' ->
  method_key pk <$> (l ≫= iface_methods methods) = method_key pk <$> (l' ≫= iface_methods methods).
Proof.
  induction 1 as [|i j l l' H _ IH]; [done|]. cbn [mbind list_bind]. rewrite !fmap_app, IH. f_equal.
  unfold iface_methods. rewrite (like_dom i j H), <-!list_fmap_compose. apply list_fmap_ext. intros k m Hm. cbn.
  unfold method_key. cbn [fst snd]. pose proof (proj2 (proj2 H) m) as Hx. inversion Hx as [a b [E1 E2] Ea Eb|Ea Eb]; [|done].
  destruct a as [[n|] ca], b as [nb cb]; cbn in *.
  - by injection (E2 ltac:(done)) as <- <-.
  - by subst nb.
Qed.
Lemma put_keys {A V} (key : A -> option (tobj * V)) l (m : gmap tobj V) :
  foldl (fun m a => match key a with Some (k, v) => <[ k := v ]> m | None => m end) m l =
  foldl (fun m a => match a with Some (k, v) => <[ k := v ]> m | None => m end) m (key <$> l).
Proof. revert m. induction l as [|a l IH]; intros m; [done|]. cbn. apply IH. Qed.
Lemma iface_keys (l l' : list iface) (m m' : gmap tobj (gmap gostring codeset)) : Forall2 like l l' ->
  (forall o, option_Forall2 (fun m m' : gmap gostring codeset => dom m' = dom m) (m !! o) (m' !! o)) ->
  forall o, option_Forall2 (fun m m' : gmap gostring codeset => dom m' = dom m)
    (foldl (fun m a => match iface_key pk a with Some (k, v) => <[ k := v ]> m | None => m end) m l !! o)
    (foldl (fun m a => match iface_key pk a with Some (k, v) => <[ k := v ]> m | None => m end) m' l' !! o).
Proof.
  intros H. revert m m'. induction H as [|i j l l' H _ IH]; intros m m' Hm; [done|]. cbn [foldl]. apply IH. clear IH. intros o.
  unfold iface_key. rewrite <-(proj1 H). destruct (ti_defs _ _) as [k|]; [|done].
  destruct (decide (o = k)) as [->|Ho]; [|by rewrite !lookup_insert_ne]. rewrite !lookup_insert. constructor. rewrite !codes_dom. symmetry. by apply like_dom.
Qed.
End export.
