(** * C41: in a program of several packages that are all accepted, functions return only the codes they declare. *)
From Coq Require Import Ascii String.
From stdpp Require Import base list gmap.
From Verif Require SpecLookup LookupProofs.
From Verif Require Import GoString ErrorCode Scc Engine CodeSet CodeSetProofs Annotation Constant GoAst Taint Extract
  Analyse SpecLookup PropLookup SpecCodes SpecTaint SpecMay SpecProgram SpecEvents SpecClaims Phase ErrorTypes Claims Interfaces Conversions Verify SpecRun SpecEnd SpecReports
  SpecInterfaces InterfacesProofs PropInterfaces RunProofs RunChecks FactProofs PropFacts PropRun PropEvents PropConversions SpecSites PropSites SpecExec SpecSound ExecProofs PropSound SpecWhole LinkProofs LateRun.

Lemma promised_weaken h (P Q : gostring -> Prop) h' v : (forall c, P c -> Q c) -> promised h P h' v -> promised h Q h' v.
Proof. intros H [Hs Hp]. split; [done|]. intros a Ha. destruct (Hp a Ha) as (?&?&Hc). split_and!; auto. Qed.

(** ** The meaning of [runs] *)
Section meaning.
Context (P : program) (world : behaviour).
Lemma link_mono X Y : included X Y -> included (link P world X) (link P world Y).
Proof.
  intros HXY o h vals h' v [H|[(m&f&Hm&Ho&H)|(m&o'&Hc&H)]]; [by left|right; left|right; right; by eauto].
  exists m, f. split_and!; [done|done|]. by apply (mono_all _ _ _ _ _ HXY).
Qed.
Lemma linked_up n : included (linked P world n) (linked P world (S n)).
Proof. induction n as [|n IH]; [by intros o h vals h' v ?|]. apply (link_mono _ _ IH). Qed.
(** [runs] is what the body of functions, the conversions and the functions outside of the program make of it, no more and no less. *)
Theorem C41_runs o h vals h' v : runs P world o h vals h' v <-> link P world (runs P world) o h vals h' v.
Proof.
  split.
  - intros [[|n] H]; [done|]. apply (link_mono (linked P world n)); [|exact H]. intros o1 h1 vals1 h1' v1 ?. by exists n.
  - intros [H|[(m&f&Hm&Ho&H)|(m&o'&Hc&[n H])]].
    + exists 1. by left.
    + destruct (limit_all (m_pk m) (m_lk m) (m_known m) (linked P world) linked_up) as (_&_&_&_&_&Hx).
      destruct (Hx _ _ _ _ _ H) as [n Hn]. exists (S n). right. left. by exists m, f.
    + exists (S n). right. right. by exists m, o'.
Qed.
(** It is the least such behaviour. *)
Theorem C41_least X : included (link P world X) X -> included (runs P world) X.
Proof.
  intros HX o h vals h' v [n H]. revert o h vals h' v H. induction n as [|n IH]; [done|]. intros o h vals h' v H. apply HX, (link_mono _ _ IH), H.
Qed.
End meaning.

Section whole.
Context (P : program) (world : behaviour) (Hacc : forall m, m ∈ members P -> accepted m) (Hwl : well_linked P).
Context (Hdm : declared_methods P) (Hw : honest_world P world).

Lemma one_prepared m : m ∈ members P -> prepared (m_pk m) (m_strict m) (m_ord m) (m_imports m) (m_run m).
Proof. intros Hm. exact (ac_completes _ (Hacc m Hm)). Qed.
Lemma quiet_interfaces m : m ∈ members P -> r_d2 (m_run m) = [].
Proof. intros Hm. pose proof (ac_quiet _ (Hacc m Hm)) as H. unfold r_diags in H. by apply app_nil in H as [_ [? _]%app_nil]. Qed.

(** The object is defined by what declares its codes. *)
Lemma declares_defined pk o s : declares_object pk o s -> exists x, defines pk x o.
Proof. intros [f fn ? ? ? ? ? ? ?|n id elems mid name doc ft ? ? ? ? ? ?]; [by exists (DFunc f)|]. exists (DMethod n name). cbn. eauto 10. Qed.
Lemma position_defined pk o p : declares_position pk o p -> exists x, defines pk x o.
Proof. intros [f fn ? ? ? ? ? ? ? ?]. by exists (DFunc f). Qed.

(** What a package knows about an object of the program is what the defining package exports. *)
Lemma codes_from k m x o s : k ∈ members P -> m ∈ members P -> defines (m_pk m) x o -> fa_codes (m_exports k) !! o = Some s ->
  fa_codes (m_exports m) !! o = Some s /\ fa_ctor (m_exports k) !! o = fa_ctor (m_exports m) !! o.
Proof.
  intros Hk Hm Hd Hs. pose proof (Hacc k Hk) as Ak.
  pose proof Hs as [Hdo|[_ Hi]]%(C30_code_facts _ _ _ _ _ (one_prepared k Hk) (ac_orders _ Ak) (ac_interfaces _ Ak) (ac_distinct _ Ak)).
  - destruct (declares_defined _ _ _ Hdo) as [y Hy]. by rewrite (wl_objects _ Hwl k m y x o Hk Hm Hy Hd) in Hs |- *.
  - assert (imports P k m) as Him by (eapply (wl_no_facts _ Hwl); eauto).
    assert (same_facts (m_imports k) (m_exports m) o) as (E1&E2&_).
    { destruct (wl_hidden _ Hwl k m x o Hk Him Hd) as [?|(?&_)]; [done|congruence]. }
    split; [by rewrite <-E1|]. rewrite <-E2.
    apply option_eq. intros p. unfold m_exports at 1. rewrite (C30_constructor_facts _ _ _ _ _ (one_prepared k Hk) (ac_orders _ Ak) (ac_distinct _ Ak)).
    assert (~ exists q, declares_position (m_pk k) o q) as Hn.
    { intros [q Hq]. destruct (position_defined _ _ _ Hq) as [y Hy]. pose proof (wl_objects _ Hwl k m y x o Hk Hm Hy Hd) as ->.
      by destruct (proj2 (wl_imports _ Hwl _ _ Him)). }
    split; [intros [Hp|[_ ?]]; [by destruct Hn; exists p|done]|]. intros Hp. right. by split.
Qed.

(** The methods that an interface has in the sense of Go are those that the analyzer finds, with their codes. *)
Definition method_object (o : tobj) (s : codeset) : Prop :=
  exists j n id elems mid name doc ft, j ∈ members P /\ interface_decl (m_pk j) n id elems /\ IMethod mid name doc ft ∈ elems /\
    ti_defs (pk_info (m_pk j)) (i_id name) = Some o /\ method_declares (m_pk j) doc ft s.
Lemma types_iface m : m ∈ members P -> fa_iface (r_types (m_run m)) = fa_iface (m_imports m).
Proof. intros Hm. destruct (tag_only_types _ _ _ _ _ (pr_types _ _ _ _ _ (one_prepared m Hm))) as (_&_&?). done. Qed.
Lemma exported_method m nm t meth s : m ∈ members P -> defines (m_pk m) (DIface nm) t ->
  method_of (m_pk m) (r_types (m_run m)) (i_name nm) meth s ->
  exists ms, fa_iface (m_exports m) !! t = Some ms /\ ms !! meth = Some s.
Proof.
  intros Hm (id&elems&Hdecl&Hdef) Hmo. pose proof (Hacc m Hm) as A. pose proof (one_prepared m Hm) as Hp.
  pose proof (C27_methods _ _ (ac_interfaces _ A) _ (ok_embedded _ _ (ac_orders _ A)) _ (ok_embedding _ _ (ac_orders _ A)) _ _ (pr_ifaces _ _ _ _ _ Hp)) as (H1&H2&_).
  destruct (C27_reports _ _ (ac_interfaces _ A) _ (ok_embedded _ _ (ac_orders _ A)) _ (ok_embedding _ _ (ac_orders _ A)) _ _ (pr_ifaces _ _ _ _ _ Hp)) as (clashes&Hd&Hcl&_).
  assert (compatible (m_pk m) (r_types (m_run m))) as Hcomp.
  { apply Hcl. destruct clashes as [|d l]; [done|]. exfalso. assert (d ∈ r_d2 (m_run m)) as Hin by (apply Hd; right; by left).
    rewrite (quiet_interfaces m Hm) in Hin. by apply elem_of_nil in Hin. }
  destruct (proj2 (H1 (i_name nm) meth) (ex_intro _ _ Hmo)) as (i&x&Hi&Hx).
  assert (im_codes x = s) as Ex by (eapply Hcomp; [eapply H2; eassumption|exact Hmo]).
  exists (im_codes <$> if_methods i). split; [|by rewrite lookup_fmap, Hx, <-Ex].
  apply (C30_interface_facts _ _ _ _ _ Hp (ac_orders _ A) (ac_interfaces _ A) (ac_distinct _ A)). left. exists nm, i.
  destruct (run_interface _ _ _ _ _ Hp (ac_orders _ A) (ac_interfaces _ A) _ _ Hi) as (id'&elems'&Hdecl'&En).
  destruct (ik_interfaces _ (ac_interfaces _ A) _ _ _ _ _ _ Hdecl Hdecl' (eq_sym En)) as (->&_&_). done.
Qed.
Lemma known_interface m l nm t ms : m ∈ members P -> l ∈ members P -> defines (m_pk l) (DIface nm) t -> m = l \/ imports P m l ->
  fa_iface (m_exports l) !! t = Some ms -> fa_iface (m_exports m) !! t = Some ms.
Proof.
  intros Hm Hl Hd [->|Him] Hf; [done|]. pose proof (Hacc m Hm) as A.
  apply (C30_interface_facts _ _ _ _ _ (one_prepared m Hm) (ac_orders _ A) (ac_interfaces _ A) (ac_distinct _ A)). right. split.
  - intros (n&i&Hdef&Hi&<-). destruct (run_interface _ _ _ _ _ (one_prepared m Hm) (ac_orders _ A) (ac_interfaces _ A) _ _ Hi) as (id&elems&Hdecl&_).
    assert (m = l) as -> by (eapply (wl_objects _ Hwl m l (DIface (if_ident i)) (DIface nm) t); try done; cbn; eauto).
    by destruct (proj2 (wl_imports _ Hwl _ _ Him)).
  - destruct (wl_facts _ Hwl m l _ t Hm Him Hd Logic.I) as (_&_&->). done.
Qed.
Lemma carries_method m name meth o s : carries P m name meth o -> method_object o s -> method_of (m_pk m) (r_types (m_run m)) name meth s.
Proof.
  intros H Ho. induction H as [m n id elems mid nm doc ft o Hm Hdecl Hin Hdef|m n id elems eid n' meth o Hm Hdecl Hin _ IH|
    m n id elems eid t l n' meth o Hm Hdecl Hin Ht Him Hd _ IH].
  - destruct Ho as (j&n'&id'&elems'&mid'&nm'&doc'&ft'&Hj&Hdecl'&Hin'&Hdef'&Hmd).
    assert (m = j) as <-. { eapply (wl_objects _ Hwl m j (DMethod n nm) (DMethod n' nm') o); try done; cbn; [by exists id, elems, mid, doc, ft|by exists id', elems', mid', doc', ft']. }
    pose proof (Hacc m Hm) as A.
    assert (DMethod n nm = DMethod n' nm') as [= <- <-].
    { eapply (ac_distinct _ A); cbn; [by exists id, elems, mid, doc, ft|by exists id', elems', mid', doc', ft']. }
    destruct (ik_interfaces _ (ac_interfaces _ A) _ _ _ _ _ _ Hdecl Hdecl' eq_refl) as (_&<-&<-).
    destruct (ik_methods _ (ac_interfaces _ A) _ _ _ _ _ _ _ _ _ _ _ Hdecl Hin Hin' eq_refl) as (<-&_&<-&<-).
    by eapply mo_own.
  - eapply mo_embedded; eauto.
  - eapply mo_imported; [done|done|]. destruct (wl_imports _ Hwl _ _ Him) as [Hl _].
    destruct (exported_method l n' t meth s Hl Hd (IH Ho)) as (ms&Hf&Hms).
    exists (TNamed t), t, ms. split_and!; [done|done| |done]. rewrite (types_iface m Hm).
    destruct (wl_facts _ Hwl m l _ t Hm Him Hd Logic.I) as (_&_&->). done.
Qed.
Lemma carries_defined m name meth o : carries P m name meth o ->
  exists j n id elems mid nm doc ft, j ∈ members P /\ interface_decl (m_pk j) n id elems /\ IMethod mid nm doc ft ∈ elems /\ ti_defs (pk_info (m_pk j)) (i_id nm) = Some o.
Proof.
  induction 1 as [m n id elems mid nm doc ft o Hm Hdecl Hin Hdef| |]; [|done|done]. by exists m, n, id, elems, mid, nm, doc, ft.
Qed.
Lemma carries_object k m name meth o s : k ∈ members P -> carries P m name meth o -> fa_codes (m_exports k) !! o = Some s -> method_object o s.
Proof.
  intros Hk Hc Hs. destruct (carries_defined _ _ _ _ Hc) as (j&n&id&elems&mid&nm&doc&ft&Hj&Hdecl&Hin&Hdef).
  assert (defines (m_pk j) (DMethod n nm) o) as Hd by by exists id, elems, mid, doc, ft.
  destruct (codes_from k j (DMethod n nm) o s Hk Hj Hd Hs) as [Hs' _].
  pose proof (Hacc j Hj) as A.
  apply (C30_code_facts _ _ _ _ _ (one_prepared j Hj) (ac_orders _ A) (ac_interfaces _ A) (ac_distinct _ A)) in Hs' as [Hdo|[_ Hi]].
  - destruct Hdo as [f fn o codes param Hk1 Hk2 Hk3 Hk4|n' id' elems' mid' nm' doc' ft' o codes Hk1 Hk2 Hk3 Hk4].
    + pose proof (ac_distinct _ A (DFunc f) (DMethod n nm) o Hk4 Hd). done.
    + exists j, n', id', elems', mid', nm', doc', ft'. done.
  - assert (imports P j j) as Him by (eapply (wl_no_facts _ Hwl); eauto). by destruct (proj2 (wl_imports _ Hwl _ _ Him)).
Qed.

(** Conversions are checked: the method declares no more codes than the one of the interface. *)
Lemma converted_site k m v meth o o' s : k ∈ members P -> converted_as P m v meth o o' -> fa_codes (m_exports k) !! o = Some s ->
  exists sites ms t pos, conversion_sites (m_pk m) (m_ord m) (m_run m) sites /\ Site ms (TNamed t) v pos ∈ sites /\
    v <> TNamed t /\ v <> TUntypedNil /\ ms !! meth = Some s /\ SpecLookup.has_method (m_pk m) v meth o'.
Proof.
  intros Hk (w&n&t&pos&l&nm&Hm&Hocc&Hcv&Hne&Hnil&Hl&Hd&Ho&Ho') Hs. pose proof (Hacc m Hm) as A.
  pose proof (wl_methods _ Hwl m l nm t meth o Hm Hl Hd Ho) as Hca.
  pose proof (carries_method _ _ _ _ s Hca (carries_object k _ _ _ _ s Hk Hca Hs)) as Hmo.
  destruct (exported_method l nm t meth s Hl Hd Hmo) as (ms&Hf&Hms).
  apply (known_interface m l nm t ms Hm Hl Hd) in Hf; [|by eapply (wl_targets _ Hwl m l nm)].
  destruct (the_sites _ _ _ _ _ (ac_orders _ A) (ac_completes _ A) (ac_usable _ A) (ac_literals _ A)) as [sites Hsites].
  exists sites, ms, t, pos. split_and!; try done.
  - apply (C29_run _ _ _ _ _ _ _ _ Hsites). exists w, n. split_and!; [done|done|]. exists t. split; [constructor|done].
  - apply LookupProofs.searchMethodType_spec. unfold searchMethodType. by rewrite Ho'.
Qed.
Lemma converted_codes k m v meth o o' s c : k ∈ members P -> converted_as P m v meth o o' -> fa_codes (m_exports k) !! o = Some s ->
  method_codes (m_pk m) (m_ord m) (m_run m) v meth o' c -> c ∈ s.
Proof.
  intros Hk Hc Hs Hmc. destruct (converted_site k m v meth o o' s Hk Hc Hs) as (sites&ms&t&pos&Hsites&Hin&Hne&Hnil&Hms&_).
  destruct Hc as (w&n&t'&pos'&l&nm&Hm&_). pose proof (Hacc m Hm) as A.
  destruct (decide (c ∈ s)) as [|Hn]; [done|]. exfalso.
  destruct (C28_excess_reported _ _ _ _ _ (ac_orders _ A) (ac_completes _ A) (ac_usable _ A) (ac_literals _ A) sites (Site ms (TNamed t) v pos) meth o' s c Hsites Hin) as (excess&_&_&Hdiag); try done.
  - apply (ac_agree _ A).
  - rewrite (ac_quiet _ A) in Hdiag. by apply elem_of_nil in Hdiag.
Qed.
(** The analyzer finds the declaration of the method. *)
Lemma own_method_found m v meth o : m ∈ members P -> SpecLookup.has_method (m_pk m) v meth o -> own_method m meth o ->
  exists f, SpecLookup.method_declared (m_pk m) v meth f /\ object_of (m_pk m) f o.
Proof.
  intros Hm Hs (f&fn&d&r&Hin&Hf&Hd&Hr&Hn&Ho). exists f. assert (object_of (m_pk m) f o) as Hof by by exists fn, d.
  split; [|done]. apply elem_of_list_In, in_split in Hin as (pre0&post0&E0).
  assert (forall f', SpecLookup.declares_object (m_pk m) f' o -> f' = f) as Hu.
  { intros f' (fn'&d'&?&?&?). eapply distinct_functions; [apply (ac_distinct _ (Hacc m Hm))|by exists fn', d'|done]. }
  assert (exists pre post, pk_decls (m_pk m) = pre ++ f :: post /\ f ∉ pre) as (pre&post&E&Hpre).
  { rewrite E0. clear. induction pre0 as [|x l IH]; [exists [], post0; split; [done|apply not_elem_of_nil]|].
    destruct (decide (x = f)) as [->|Hx]; [exists [], (l ++ f :: post0); split; [done|apply not_elem_of_nil]|].
    destruct IH as (pre&post&E&Hn). exists (x :: pre), post. cbn. rewrite E. split; [done|]. by intros [?|?]%elem_of_cons. }
  exists o, pre, post. split_and!; [done|done| | |].
  - exists fn, d. split_and!; try done. by exists r.
  - by exists fn, d.
  - intros f' Hf' _ Ho'. by rewrite (Hu f' Ho') in Hf'.
Qed.

(** The facts at the end extend those in between. *)
Lemma known_exports m o s : m ∈ members P -> fa_codes (m_known m) !! o = Some s -> fa_codes (m_exports m) !! o = Some s.
Proof.
  intros Hm. pose proof (Hacc m Hm) as A. intros H. pose proof H as Hs.
  apply (during_codes _ _ _ _ _ (one_prepared m Hm) (ac_orders _ A) (ac_interfaces _ A) (ac_distinct _ A)) in H.
  apply (C30_code_facts _ _ _ _ _ (one_prepared m Hm) (ac_orders _ A) (ac_interfaces _ A) (ac_distinct _ A)).
  destruct H as [(n&id&elems&mid&nm&doc&ft&?&?&?&?)|[Hn Hi]]; [left; by eapply do_method|]. right. split; [|done].
  intros [codes' Hdo]. destruct (declares_defined _ _ _ Hdo) as [x Hx].
  assert (imports P m m) as Him by (eapply (wl_no_facts _ Hwl); eauto). by destruct (proj2 (wl_imports _ Hwl _ _ Him)).
Qed.
Lemma known_ctor m : fa_ctor (m_known m) = fa_ctor (m_exports m).
Proof. unfold m_exports, facts_after. by rewrite export_codes_fields. Qed.
Lemma honest_known m ext : m ∈ members P -> honest (m_exports m) ext -> honest (m_known m) ext.
Proof.
  intros Hm H o s h vals h' v Hs Hx. pose proof (H o s h vals h' v (known_exports m o s Hm Hs) Hx) as Hp.
  unfold as_declared in *. by rewrite known_ctor.
Qed.

(** By induction on the number of nested calls: all declarations are kept. *)
Lemma linked_honest n m : m ∈ members P -> honest (m_exports m) (linked P world n).
Proof.
  revert m. induction n as [|n IH]; [by intros m Hm o s h vals h' v _ ?|].
  intros k Hk o s h vals h' v Hs [[Hnd Hx]|[(m&f&Hm&Ho&Hx)|(m&o'&Hc&Hx)]].
  - pose proof (Hacc k Hk) as A.
    pose proof Hs as [Hdo|[_ Hi]]%(C30_code_facts _ _ _ _ _ (one_prepared k Hk) (ac_orders _ A) (ac_interfaces _ A) (ac_distinct _ A)).
    { destruct (declares_defined _ _ _ Hdo) as [x ?]. destruct Hnd. by exists k, x. }
    eapply promised_weaken, (Hw k o s h vals h' v); try done. intros c [?|(p&Hp&?)]; [by left|]. right. exists p. split; [|done].
    apply (C30_constructor_facts _ _ _ _ _ (one_prepared k Hk) (ac_orders _ A) (ac_distinct _ A)). right. split; [|done].
    intros [q Hq]. destruct (position_defined _ _ _ Hq) as [x ?]. destruct Hnd. by exists k, x.
  - destruct (codes_from k m (DFunc f) o s Hk Hm Ho Hs) as [Hs' Hct]. pose proof (Hacc m Hm) as A.
    apply (C30_code_facts _ _ _ _ _ (one_prepared m Hm) (ac_orders _ A) (ac_interfaces _ A) (ac_distinct _ A)) in Hs' as [Hdo|[_ Hi]].
    2:{ assert (imports P m m) as Him by (eapply (wl_no_facts _ Hwl m m (DFunc f)); eauto). by destruct (proj2 (wl_imports _ Hwl _ _ Him)). }
    destruct Hdo as [f' fn o s param Hk1 Hk2 Hk3 Hk4|n' id' elems' mid' nm' doc' ft' o s Hk1 Hk2 Hk3 Hk4].
    2:{ assert (DFunc f = DMethod n' nm') as [=]. eapply (ac_distinct _ A); [exact Ho|]. by exists id', elems', mid', doc', ft'. }
    assert (f = f') as <- by (eapply distinct_functions; [apply (ac_distinct _ A)|done|done]).
    eapply promised_weaken; [|eapply (C22_promise _ _ _ _ _ (ac_orders _ A) (ac_completes _ A) (ac_usable _ A) (ac_literals _ A) (ac_agree _ A) (ac_disciplined _ A)
      (ac_resolved _ A) _ (honest_known m _ Hm (IH m Hm)) f fn s param h vals h' v (ac_quiet _ A) Hk1 Hk2 Hk3 Hx)].
    intros c [?|(p&(d&o'&Hd&Ho'&Hp)&?)]; [by left|]. right. exists p. split; [|done]. rewrite Hct, <-known_ctor.
    assert (o' = o) as ->; [|exact Hp]. destruct Ho as (fn'&d'&Hf'&Hd'&Ho). destruct Hk1 as (?&?&_&Hf&_). congruence.
  - destruct Hc as (v0&meth&Hc). destruct (Hdm m v0 meth o o' Hc) as [Hcase Hct]. pose proof Hc as (?&?&?&?&?&?&Hm&_).
    destruct (converted_site k m v0 meth o o' s Hk Hc Hs) as (sites&ms&t&pos&Hsites&Hin&Hne&Hnu&Hms&Hso).
    assert ((exists s', fa_codes (m_exports m) !! o' = Some s') \/ fa_codes (m_exports m) !! o' = None) as [[s' Hs']|Hno].
    { destruct (fa_codes (m_exports m) !! o'); eauto. }
    { eapply promised_weaken; [|exact (IH m Hm o' s' h vals h' v Hs' Hx)]. intros c [?|(p&Hp&_)]; [|congruence].
      left. eapply (converted_codes k m v0 meth o o' s c); [done|done|done|]. split; [done|]. left. by exists s'. }
    destruct Hcase as [[s' Hs']|Hown]; [congruence|].
    destruct (own_method_found m v0 meth o' Hm Hso Hown) as (f&Hsm&Hof). pose proof (Hacc m Hm) as A.
    destruct n as [|n]; [done|]. cbn [linked] in Hx.
    assert (honest (m_known m) (linked P world n)) as Hho.
    { apply (honest_known m); [done|]. intros o1 s1 h1 vals1 h1' v1 Hs1 Hx1. apply (IH m Hm o1 s1 h1 vals1 h1' v1 Hs1). by apply linked_up. }
    destruct Hx as [[Hnd _]|[(m1&f1&Hm1&Ho1&Hx)|(m1&o1&(v1&meth1&(w1&n1&t1&pos1&l1&nm1&Hm1&_&_&_&_&Hl1&Hd1&Hme1&_))&_)]].
    + destruct Hnd. by exists m, (DFunc f).
    + assert (m1 = m) as -> by (by eapply (wl_objects _ Hwl m1 m (DFunc f1) (DFunc f) o')).
      assert (f1 = f) as -> by (eapply distinct_functions; [apply (ac_distinct _ A)|done|done]).
      pose proof Hof as (fn&d&Hfn&Hd&Hdo).
      eapply promised_weaken; [|eapply (late_fresh (m_pk m) (m_strict m) (m_ord m) (m_imports m) (m_run m) (ac_orders _ A) (ac_completes _ A) (ac_usable _ A) (ac_literals _ A) (ac_agree _ A)
        (ac_disciplined _ A) (ac_resolved _ A) (ac_interfaces _ A) (ac_distinct _ A) (ac_objects _ A)
        (fun o s => known_exports m o s Hm) (ac_quiet _ A) _ f fn h vals h' v Hho Hfn); [|exact Hx]].
      * intros c [He|(p&(d'&o1&Hd'&Ho'&Hp)&_)].
        -- left. eapply (converted_codes k m v0 meth o o' s c); [done|done|done|]. split; [done|]. right. split; [done|]. by exists f.
        -- assert (o1 = o') as -> by congruence. fold (m_known m) in Hp. rewrite (known_ctor m) in Hp. congruence.
      * destruct (checked_dec (m_pk m) (m_strict m) (m_ord m) (m_imports m) (m_run m) (ac_orders _ A) (ac_completes _ A) (ac_usable _ A) (ac_literals _ A) f) as [?|Hnc]; [by left|right].
        split; [done|]. exists sites, (Site ms (TNamed t) v0 pos), meth, o', f. split_and!; done.
    + exfalso. pose proof (wl_methods _ Hwl m1 l1 nm1 t1 meth1 o' Hm1 Hl1 Hd1 Hme1) as Hca.
      destruct (carries_defined _ _ _ _ Hca) as (j&nj&id&elems&mid&nm&doc&ft&Hj&Hdecl&Hinj&Hdef).
      assert (defines (m_pk j) (DMethod nj nm) o') as Hdj by by exists id, elems, mid, doc, ft.
      assert (j = m) as -> by (by eapply (wl_objects _ Hwl j m (DMethod nj nm) (DFunc f) o')).
      pose proof (ac_distinct _ A (DFunc f) (DMethod nj nm) o' Hof Hdj). done.
Qed.
Lemma runs_honest m : m ∈ members P -> honest (m_exports m) (runs P world).
Proof. intros Hm o s h vals h' v Hs [n Hx]. by eapply (linked_honest n m). Qed.

(** Whatever a package knows about the codes of a function, or interface method, is true of the executions of the program. *)
Theorem C41_facts m o s h vals h' v : m ∈ members P -> fa_codes (m_exports m) !! o = Some s -> runs P world o h vals h' v ->
  promised h (as_declared (m_exports m) o s vals) h' v.
Proof. intros Hm. apply (runs_honest m Hm). Qed.

(** Functions return only errors with codes they declare. *)
Theorem C41_sound m f fn codes param h0 vals h v c :
  m ∈ members P -> known_function (m_pk m) f fn -> returns_error_last (m_pk m) (fn_type fn) -> declares_codes (m_pk m) fn codes param ->
  exec (m_pk m) (m_lk m) (m_known m) (runs P world) h0 f vals h v -> has_code h v c ->
  c ∈ codes \/ exists p, code_parameter (m_pk m) (m_known m) fn p /\ vals !! p = Some (VStr c).
Proof.
  intros Hm Hk Hret Hd Hx Hc. pose proof (Hacc m Hm) as A.
  eapply (C22_sound _ _ _ _ _ (ac_orders _ A) (ac_completes _ A) (ac_usable _ A) (ac_literals _ A) (ac_agree _ A) (ac_disciplined _ A)
      (ac_resolved _ A) _ (honest_known m _ Hm (runs_honest m Hm))); try done. apply (ac_quiet _ A).
Qed.
End whole.
