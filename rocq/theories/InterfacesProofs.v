(** * Proofs about the collection of interfaces (interfaces_collect.go). *)
From Coq Require Import Ascii String.
From stdpp Require Import base list gmap.
From Verif Require Import GoString ErrorCode Scc Engine DocParser CodeSet Constant GoAst Taint Extract Analyse Phase Claims Interfaces
  SpecCodes SpecDoc DocParserProofs SpecClaims ClaimsProofs FactProofs SpecInterfaces CodeSetProofs PropCodeSet.

Section collect.
Context (pk : package) (fa : facts).
Notation info := (pk_info pk).

(** ** One interface type *)
Definition method_result (iface_id : nid) (name : ident) (doc : option gostring) (ft : functype) : gostring + option imethod :=
  if negb (ends_in_error pk ft) then inr None
  else match findErrorDocs doc with
       | inr e => inl (str "interface method " ++ quoted (i_name name) ++ str " has odd docstring: " ++ doc_message e)
       | inl r =>
         if decide (dr_param r <> []) then inl (str "declaration of error constructors in interfaces is currently not supported")
         else if bool_decide (dr_codes r = ∅) && negb (dr_none r) then
           if bool_decide (i_name name = str "Cause") &&
              (match ti_type info iface_id with Some t => ti_implements_cause info t | None => false end)
           then inr None else inl (str "interface method " ++ quoted (i_name name) ++ str " does not declare any error codes")
         else inr (Some (IMeth (Some name) (dr_codes r)))
       end.
Lemma method_check iface_id name doc ft : checkIfInterfaceMethodDeclaresErrors pk iface_id name doc ft =
  match ft_results ft with Some [] => Panicked | _ => Ok (method_result iface_id name doc ft, bad_results pk ft) end.
Proof.
  unfold checkIfInterfaceMethodDeclaresErrors, method_result. rewrite check_returns.
  assert (forall x, match ft_results ft with Some [] => x | _ => x end = x :> phase (gostring + option imethod)) as Hx by (intros; by destruct (ft_results ft) as [[|]|]).
  destruct (ft_results ft) as [[|r0 l0]|] eqn:E; [done| |].
  all: cbn [pbind]; destruct (ends_in_error pk ft); cbn [negb]; [|cbn [pret]; by rewrite app_nil_r].
  all: destruct (findErrorDocs doc) as [r|e]; [|cbn [pret]; by rewrite app_nil_r].
  all: case_decide; [cbn [pret]; by rewrite app_nil_r|].
  all: destruct (bool_decide _ && negb _); [|cbn [pret]; by rewrite app_nil_r].
  all: destruct (bool_decide _ && _); cbn [pret]; by rewrite app_nil_r.
Qed.
Definition elem_ok (e : ielem) : Prop := match e with IMethod _ _ _ ft => ft_results ft <> Some [] | _ => True end.
Definition elem_method (iface_id : nid) (e : ielem) : option (gostring * imethod) :=
  match e with
  | IMethod _ name doc ft => match method_result iface_id name doc ft with inr (Some m) => Some (i_name name, m) | _ => None end
  | _ => None
  end.
Definition elem_embed (e : ielem) : option embedded :=
  match e with IEmbed id name => Some (EmbIdent id name) | IEmbedSel id => Some (EmbOther id) | _ => None end.
Definition elem_diags (iface_id : nid) (e : ielem) : list diag :=
  match e with
  | IMethod id name doc ft =>
    bad_results pk ft ++ match method_result iface_id name doc ft with inl msg => [Diag id msg] | inr _ => [] end
  | _ => []
  end.
Definition elem_step (iface_id : nid) (i : iface) (e : ielem) : iface :=
  Iface (if_ident i) (match elem_method iface_id e with Some (n, m) => <[ n := m ]> (if_methods i) | None => if_methods i end)
    (if_embeds i ++ match elem_embed e with Some x => [x] | None => [] end).
Lemma collect_element_ok id i e : elem_ok e -> collect_element pk id i e = Ok (elem_step id i e, elem_diags id e).
Proof.
  intros Hok. unfold collect_element, elem_step, elem_diags, elem_method. destruct e as [mid name doc ft|eid n|eid|].
  - rewrite method_check. cbn [elem_ok elem_embed] in *. destruct i as [ident ms es]. cbn [if_ident if_methods if_embeds] in *. rewrite !app_nil_r.
    destruct (ft_results ft) as [[|]|]; [done| |]; cbn [pbind]; destruct (method_result id name doc ft) as [msg|[m|]]; cbn; done.
  - done.
  - done.
  - destruct i. cbn. by rewrite app_nil_r.
Qed.
Definition interface_of (n : ident) (id : nid) (elems : list ielem) : iface :=
  Iface n (foldl (fun ms e => match elem_method id e with Some (k, v) => <[ k := v ]> ms | None => ms end) ∅ elems) (omap elem_embed elems).
Lemma elem_steps id elems i : foldl (elem_step id) i elems =
  Iface (if_ident i) (foldl (fun ms e => match elem_method id e with Some (k, v) => <[ k := v ]> ms | None => ms end) (if_methods i) elems)
    (if_embeds i ++ omap elem_embed elems).
Proof.
  revert i. induction elems as [|e elems IH]; intros i; cbn [foldl omap list_omap]; [destruct i; cbn; by rewrite app_nil_r|].
  rewrite IH. unfold elem_step at 1 2 3. cbn [if_ident if_methods if_embeds]. f_equal. destruct (elem_embed e); [by rewrite <-app_assoc|by rewrite app_nil_r].
Qed.
Definition spec_ok (s : option typespec) : Prop :=
  match s with Some (TypeSpec _ (XInterface _ elems)) => Forall elem_ok elems | _ => True end.
Definition spec_interface (s : option typespec) : option iface :=
  match s with Some (TypeSpec name (XInterface id ((_ :: _) as elems))) => Some (interface_of name id elems) | _ => None end.
Definition spec_diags (s : option typespec) : list diag :=
  match s with Some (TypeSpec name (XInterface id elems)) => elems ≫= elem_diags id | _ => [] end.
Lemma check_interface s : spec_ok s -> checkIfErrorReturningInterface pk s = Ok (spec_interface s, spec_diags s).
Proof.
  destruct s as [[name [| id elems|]]|]; [done| |done|done]. cbn [spec_ok]. intros Hok. destruct elems as [|e elems]; [done|].
  unfold checkIfErrorReturningInterface. rewrite (pfold_ok _ (elem_step id) (elem_diags id)).
  - cbn [pbind pret spec_interface spec_diags]. rewrite elem_steps. cbn [if_ident if_methods if_embeds app]. by rewrite app_nil_r.
  - intros s a Ha. apply collect_element_ok. by eapply Forall_forall in Hok.
Qed.
Lemma check_interface_ok s x : checkIfErrorReturningInterface pk s = Ok x -> spec_ok s.
Proof.
  destruct s as [[name [| id elems|]]|]; [done| |done|done]. destruct elems as [|e elems]; [by constructor|].
  unfold checkIfErrorReturningInterface. cbn [spec_ok]. intros H.
  destruct (pfold (collect_element pk id) (Iface name ∅ []) (e :: elems)) as [[i ds]| |] eqn:E; [|done|done].
  apply Forall_forall. intros a Ha. destruct (pfold_all _ _ _ _ E a Ha) as (s'&y&Ey). unfold collect_element in Ey.
  destruct a as [mid nm doc ft| | |]; try done. cbn. rewrite method_check in Ey. intros Hft. by rewrite Hft in Ey.
Qed.

(** ** All interface types *)
Definition all_specs : list (option typespec) := pk_gendecls pk ≫= gd_specs.
Definition plain_key (s : option typespec) : option (gostring * iface) :=
  match spec_interface s with
  | Some i => if decide (if_embeds i <> []) then None else if decide (if_methods i <> ∅) then Some (i_name (if_ident i), i) else None
  | None => None
  end.
Definition embedding_key (s : option typespec) : option (gostring * iface) :=
  match spec_interface s with
  | Some i => if decide (if_embeds i <> []) then Some (i_name (if_ident i), i) else None
  | None => None
  end.
Definition put {A} (key : A -> option (gostring * iface)) (m : gmap gostring iface) (a : A) : gmap gostring iface :=
  match key a with Some (k, v) => <[ k := v ]> m | None => m end.
Definition spec_step (m : imaps) (s : option typespec) : imaps := (put plain_key m.1 s, put embedding_key m.2 s).
Lemma collect_spec_ok m s : spec_ok s -> collect_spec pk m s = Ok (spec_step m s, spec_diags s).
Proof.
  intros Hok. unfold collect_spec. rewrite check_interface by done. cbn [pbind]. unfold spec_step, put, plain_key, embedding_key.
  destruct m as [E B]. destruct (spec_interface s) as [i|]; cbn [fst snd]; [|cbn; by rewrite app_nil_r].
  case_decide; [cbn; by rewrite app_nil_r|]. case_decide; cbn; by rewrite app_nil_r.
Qed.
Lemma spec_steps l m : foldl spec_step m l = (foldl (put plain_key) m.1 l, foldl (put embedding_key) m.2 l).
Proof. revert m. induction l as [|s l IH]; intros m; [by destruct m|]. cbn [foldl]. by rewrite IH. Qed.
Definition maps0 : imaps := (foldl (put plain_key) ∅ all_specs, foldl (put embedding_key) ∅ all_specs).
Lemma pfold_flat {A B S} (f : S -> B -> phase S) (h : A -> list B) (l : list A) s :
  pfold (fun s a => pfold f s (h a)) s l = pfold f s (l ≫= h).
Proof.
  assert (forall l1 l2 s, pfold f s (l1 ++ l2) = pbind (pfold f s l1) (fun s => pfold f s l2)) as Happ.
  { clear. intros l1. induction l1 as [|b l1 IH]; intros l2 s; cbn [app pfold].
    - cbn. by destruct (pfold f s l2) as [[? ?]| |].
    - unfold pbind. destruct (f s b) as [[s1 d1]| |]; [|done|done]. rewrite IH. unfold pbind.
      destruct (pfold f s1 l1) as [[s2 d2]| |]; [|done|done]. destruct (pfold f s2 l2) as [[s3 d3]| |]; [|done|done]. by rewrite app_assoc. }
  revert s. induction l as [|a l IH]; intros s; [done|]. cbn [pfold mbind list_bind]. rewrite Happ. unfold pbind.
  destruct (pfold f s (h a)) as [[s1 d1]| |]; [|done|done]. by rewrite IH.
Qed.
Lemma collect_all m ds : collect_interfaces pk = Ok (m, ds) <-> Forall spec_ok all_specs /\ m = maps0 /\ ds = all_specs ≫= spec_diags.
Proof.
  unfold collect_interfaces. rewrite (pfold_flat (collect_spec pk) gd_specs). fold all_specs.
  assert (Forall spec_ok all_specs -> pfold (collect_spec pk) (∅, ∅) all_specs = Ok (maps0, all_specs ≫= spec_diags)) as H.
  { intros H. rewrite (pfold_ok _ spec_step spec_diags); [by rewrite spec_steps|]. intros s a Ha. apply collect_spec_ok. by eapply Forall_forall in H. }
  split.
  - intros E. assert (Forall spec_ok all_specs) as Ha.
    { apply Forall_forall. intros s Hs. destruct (pfold_all _ _ _ _ E s Hs) as (m'&x&Ex). unfold collect_spec, pbind in Ex.
      destruct (checkIfErrorReturningInterface pk s) as [y| |] eqn:Ec; [|done|done]. by eapply check_interface_ok. }
    rewrite (H Ha) in E. injection E as <- <-. done.
  - intros (Ha&->&->). auto.
Qed.

(** ** Embedding *)
Definition clash_diags (old new : codeset) (method : gostring) (pos : nid) : list diag :=
  let '(ok, msg) := checkIfErrorCodesMatch (some_orders old new) in
  if ok : bool then [] else [Diag pos (str "embedded interface is not compatible: method " ++ quoted method
                  ++ str " has mismatches in declared error codes: " ++ msg)].
Lemma some_orders_ok (s t : codeset) : match_orders_ok s t (some_orders s t).
Proof. unfold match_orders_ok, some_orders, order_of. cbn. done. Qed.
Lemma clash_nil old new method pos : clash_diags old new method pos = [] <-> old = new.
Proof.
  unfold clash_diags. pose proof (C12_mismatch_report [] old new _ (some_orders_ok old new)) as [H1 H2].
  unfold reportIfCodesDoNotMatch in *. destruct (checkIfErrorCodesMatch (some_orders old new)) as [[|] msg].
  - split; [|done]. intros _. destruct (decide (old = new)) as [|Hne]; [done|]. by destruct (H2 Hne) as (?&?&_&_&?).
  - split; [done|]. intros ->. by specialize (H1 eq_refl).
Qed.
Definition clash (ms : gmap gostring imethod) (add : gmap gostring codeset) (pos : nid) (m : gostring) : list diag :=
  match add !! m, ms !! m with Some new, Some old => clash_diags (im_codes old) new m pos | _, _ => [] end.
Definition merged (ms : gmap gostring imethod) (add : gmap gostring codeset) : gmap gostring imethod := ms ∪ (IMeth None <$> add).
Lemma add_methods i add (l : list gostring) pos : l ≡ₚ elements (dom add) ->
  addEmbeddedInterfaceErrorMethods i add l pos =
    Ok (Iface (if_ident i) (merged (if_methods i) add) (if_embeds i), l ≫= clash (if_methods i) add pos).
Proof.
  intros Hl. unfold addEmbeddedInterfaceErrorMethods.
  enough (forall l i0, NoDup l -> (forall m, m ∈ l -> is_Some (add !! m)) -> (forall m, m ∈ l -> if_methods i0 !! m = if_methods i !! m) ->
    if_ident i0 = if_ident i -> if_embeds i0 = if_embeds i ->
    (forall m, m ∉ l -> if_methods i0 !! m = merged (if_methods i) add !! m) ->
    pfold (fun i m => match add !! m with
      | None => pret i
      | Some new => match if_methods i !! m with
        | None => pret (Iface (if_ident i) (<[ m := IMeth None new ]> (if_methods i)) (if_embeds i))
        | Some old => let* _ := checkEmbeddedInterfaceErrorMethodCodes (im_codes old) new m pos in pret i
        end end) i0 l = Ok (Iface (if_ident i) (merged (if_methods i) add) (if_embeds i), l ≫= clash (if_methods i) add pos)) as H.
  { apply (H l i); [rewrite Hl; apply NoDup_elements| |done|done|done|].
    - intros m Hm. rewrite Hl in Hm. apply elem_of_elements in Hm. by apply elem_of_dom.
    - intros m Hm. rewrite Hl, elem_of_elements, not_elem_of_dom in Hm. unfold merged. rewrite lookup_union, lookup_fmap, Hm. cbn. by destruct (if_methods i !! m). }
  clear Hl l. intros l. induction l as [|m l IH]; intros i0 Hnd Hadd Hsame Hi He Hrest; cbn [pfold mbind list_bind].
  { unfold pret. do 2 f_equal. destruct i0 as [id0 ms0 es0]. cbn in *. subst. f_equal. apply map_eq. intros m. apply Hrest. apply not_elem_of_nil. }
  apply NoDup_cons in Hnd as [Hm Hnd]. destruct (Hadd m) as [new Hnew]; [by left|]. rewrite Hnew.
  rewrite (Hsame m) by (by left). destruct (if_methods i !! m) as [old|] eqn:Eold.
  - assert (checkEmbeddedInterfaceErrorMethodCodes (im_codes old) new m pos = Ok (tt, clash (if_methods i) add pos m)) as ->.
    { unfold checkEmbeddedInterfaceErrorMethodCodes, clash, clash_diags. rewrite Hnew, Eold. by destruct (checkIfErrorCodesMatch _) as [[|] msg]. }
    cbn [pbind pret]. rewrite app_nil_r. rewrite IH; [done|done|..|done|done|].
    + intros m' ?. apply Hadd. by right.
    + intros m' ?. apply Hsame. by right.
    + intros m' Hm'. destruct (decide (m' = m)) as [->|Hne].
      * rewrite (Hsame m) by (by left). unfold merged. rewrite lookup_union, Eold. by destruct ((IMeth None <$> add) !! m).
      * apply Hrest. by intros [?|?]%elem_of_cons.
  - cbn [pbind pret]. rewrite IH; [|done|..].
    + f_equal. f_equal. cbn [app]. unfold clash at 2. by rewrite Hnew, Eold.
    + intros m' ?. apply Hadd. by right.
    + intros m' Hm'. cbn [if_methods]. rewrite lookup_insert_ne by (by intros ->). apply Hsame. by right.
    + done.
    + done.
    + intros m' Hm'. cbn [if_methods]. destruct (decide (m' = m)) as [->|Hne].
      * rewrite lookup_insert. unfold merged. by rewrite lookup_union, lookup_fmap, Eold, Hnew.
      * rewrite lookup_insert_ne by done. apply Hrest. by intros [?|?]%elem_of_cons.
Qed.

(** *** The result, by recursion on the rank *)
Context (order : nid -> gset gostring -> list gostring) (Horder : forall id s, order id s ≡ₚ elements s).
Context (E0 B0 : gmap gostring iface).
Context (Hdisj : forall n, is_Some (E0 !! n) -> is_Some (B0 !! n) -> False).
Context (Hkey : forall n i, B0 !! n = Some i -> i_name (if_ident i) = n).
Context (rank : gostring -> nat) (Hrank : forall n i id n', B0 !! n = Some i -> EmbIdent id n' ∈ if_embeds i -> rank n' < rank n).

(** The codes an embedded interface brings in, given those of the interfaces of this package. *)
Definition brought (full : gostring -> option iface) (e : embedded) : gmap gostring codeset :=
  match e with
  | EmbOther id => default ∅ (importErrorInterfaceFact fa (ti_type info id))
  | EmbIdent id n => match full n with Some j => codes_of_methods j | None => ∅ end
  end.
Definition embed_pos (e : embedded) : nid := match e with EmbIdent id _ => id | EmbOther id => id end.
Definition embed_step (full : gostring -> option iface) (ms : gmap gostring imethod) (e : embedded) : gmap gostring imethod :=
  merged ms (brought full e).
Fixpoint full (k : nat) (n : gostring) : option iface :=
  match B0 !! n with
  | None => E0 !! n
  | Some i => match k with
              | O => None
              | S k' => let ms := foldl (embed_step (full k')) (if_methods i) (if_embeds i) in
                        if decide (ms <> ∅) then Some (Iface (if_ident i) ms (if_embeds i)) else None
              end
  end.
Lemma full_stable k k' n : rank n < k -> rank n < k' -> full k n = full k' n.
Proof.
  revert k' n. induction k as [|k IH]; intros k' n Hk Hk'; [lia|]. destruct k' as [|k']; [lia|]. cbn [full].
  destruct (B0 !! n) as [i|] eqn:Ei; [|done].
  assert (foldl (embed_step (full k)) (if_methods i) (if_embeds i) = foldl (embed_step (full k')) (if_methods i) (if_embeds i)) as ->; [|done].
  assert (forall e, e ∈ if_embeds i -> brought (full k) e = brought (full k') e) as He.
  { intros [id n'|id] He; [|done]. cbn [brought]. pose proof (Hrank n i id n' Ei He). by rewrite (IH k' n') by lia. }
  revert He. generalize (if_methods i) as ms. induction (if_embeds i) as [|e es IHe]; intros ms He; [done|]. cbn [foldl].
  unfold embed_step at 2 4. rewrite (He e) by (by left). apply IHe. intros e' ?. apply He. by right.
Qed.
Definition final (n : gostring) : option iface := full (S (rank n)) n.
Definition embeds_of (n : gostring) (i : iface) (ms : gmap gostring imethod) (e : embedded) : gmap gostring imethod := merged ms (brought final e).
Lemma final_eq n : final n = match B0 !! n with
  | None => E0 !! n
  | Some i => let ms := foldl (embed_step final) (if_methods i) (if_embeds i) in
              if decide (ms <> ∅) then Some (Iface (if_ident i) ms (if_embeds i)) else None
  end.
Proof.
  unfold final at 1. cbn [full]. destruct (B0 !! n) as [i|] eqn:Ei; [|done].
  assert (foldl (embed_step (full (rank n))) (if_methods i) (if_embeds i) = foldl (embed_step final) (if_methods i) (if_embeds i)) as ->; [|done].
  assert (forall e, e ∈ if_embeds i -> brought (full (rank n)) e = brought final e) as He.
  { intros [id n'|id] He; [|done]. cbn [brought]. pose proof (Hrank n i id n' Ei He). unfold final. by rewrite (full_stable (rank n) (S (rank n')) n') by lia. }
  revert He. generalize (if_methods i) as ms. induction (if_embeds i) as [|e es IHe]; intros ms He; [done|]. cbn [foldl].
  unfold embed_step at 2 4. rewrite (He e) by (by left). apply IHe. intros e' ?. apply He. by right.
Qed.
(** The diagnostics of the embeddings of one interface. *)
Fixpoint embed_reports (ms : gmap gostring imethod) (es : list embedded) : list diag :=
  match es with
  | [] => []
  | e :: es' => (order (embed_pos e) (dom (brought final e)) ≫= clash ms (brought final e) (embed_pos e)) ++ embed_reports (embed_step final ms e) es'
  end.
Definition node_reports (n : gostring) : list diag :=
  match B0 !! n with Some i => embed_reports (if_methods i) (if_embeds i) | None => [] end.

(** *** The state of the depth-first search: [path] are the interfaces being worked on. *)
Record dfs_state (path : gset gostring) (m : imaps) : Prop := {
  ds_sub : m.2 ⊆ B0;
  ds_path : forall n, n ∈ path -> m.1 !! n = None /\ m.2 !! n = None;
  ds_found : forall n, n ∉ path -> m.1 !! n = match m.2 !! n with Some _ => None | None => final n end
}.
Definition todo (m : imaps) : list gostring := elements (dom m.2).
Definition dfs_post (path : gset gostring) (m m' : imaps) (ds : list diag) : Prop :=
  dfs_state path m' /\ exists done, todo m ≡ₚ done ++ todo m' /\ ds ≡ₚ (done ≫= node_reports).

Lemma todo_elem m x : x ∈ todo m <-> is_Some (m.2 !! x).
Proof. unfold todo. by rewrite elem_of_elements, elem_of_dom. Qed.
Lemma todo_delete m n i : m.2 !! n = Some i -> todo m ≡ₚ n :: todo (m.1, delete n m.2).
Proof.
  intros H. unfold todo. cbn [snd]. rewrite dom_delete_L.
  assert (dom m.2 = {[ n ]} ∪ (dom m.2 ∖ {[ n ]})) as E.
  { apply set_eq. intros x. rewrite elem_of_union, elem_of_difference, elem_of_singleton. split; [destruct (decide (x = n)); tauto|].
    intros [->|[? _]]; [apply elem_of_dom; eauto|done]. }
  rewrite E at 1. rewrite elements_union_singleton; [done|]. set_solver.
Qed.
Lemma embed_ok k (dfs : iface -> imaps -> phase imaps) path n i es ms m :
  (forall n i path m, length (todo m) < k -> dfs_state path m -> m.2 !! n = Some i -> (forall p, p ∈ path -> rank n < rank p) ->
     exists m' ds, dfs i m = Ok (m', ds) /\ dfs_post path m m' ds /\ m'.2 !! n = None) ->
  length (todo m) < k -> dfs_state path m -> n ∈ path -> (forall p, p ∈ path -> rank n <= rank p) ->
  (forall id n', EmbIdent id n' ∈ es -> rank n' < rank n) ->
  exists m' ds, pfold (embed_one pk fa order dfs) (Iface (if_ident i) ms (if_embeds i), m) es =
      Ok ((Iface (if_ident i) (foldl (embed_step final) ms es) (if_embeds i), m'), ds) /\
    dfs_state path m' /\ exists done, todo m ≡ₚ done ++ todo m' /\ ds ≡ₚ embed_reports ms es ++ (done ≫= node_reports).
Proof.
  intros Hdfs. revert ms m. induction es as [|e es IH]; intros ms m Hlen Hst Hn Hp Hes; cbn [pfold foldl].
  { exists m, []. split; [done|]. split; [done|]. exists []. done. }
  assert (exists m1 done1 ds1, embed_one pk fa order dfs (Iface (if_ident i) ms (if_embeds i), m) e =
      Ok ((Iface (if_ident i) (embed_step final ms e) (if_embeds i), m1), ds1) /\ dfs_state path m1 /\ todo m ≡ₚ done1 ++ todo m1 /\
      ds1 ≡ₚ (order (embed_pos e) (dom (brought final e)) ≫= clash ms (brought final e) (embed_pos e)) ++ (done1 ≫= node_reports))
    as (m1&done1&ds1&E1&Hst1&Hd1&Hds1).
  { destruct e as [eid n'|eid].
    - assert (rank n' < rank n) as Hr by (eapply Hes; by left).
      assert (exists m1 ds1, (match m.2 !! n' with Some e => dfs e m | None => pret m end) = Ok (m1, ds1) /\ dfs_post path m m1 ds1 /\ m1.2 !! n' = None)
        as (m1&ds1&E1&(Hst1&done1&Hd1&Hds1)&Hn1).
      { destruct (m.2 !! n') as [j|] eqn:Ej.
        - apply Hdfs; [done|done|done|]. intros p Hpp. specialize (Hp p Hpp). lia.
        - exists m, []. split; [done|]. split; [|done]. split; [done|]. by exists []. }
      assert (n' ∉ path) as Hn' by (intros Hpp; specialize (Hp n' Hpp); lia).
      pose proof (ds_found _ _ Hst1 n' Hn') as Hf. rewrite Hn1 in Hf.
      unfold embed_one. rewrite E1. cbn [pbind]. rewrite Hf. unfold embed_step, brought. destruct (final n') as [j|] eqn:Ej.
      + rewrite add_methods by apply Horder. cbn [pbind pret if_ident if_methods if_embeds embed_pos].
        exists m1, done1, (ds1 ++ (order eid (dom (codes_of_methods j)) ≫= clash ms (codes_of_methods j) eid)).
        split; [by rewrite app_nil_r|]. split; [done|]. split; [done|]. rewrite Hds1. apply Permutation_app_comm.
      + exists m1, done1, ds1. split.
        { cbn [pret]. rewrite app_nil_r. do 4 f_equal. unfold merged. by rewrite fmap_empty, map_union_empty. }
        split; [done|]. split; [done|]. rewrite dom_empty_L. pose proof (Horder eid ∅) as Ho. rewrite elements_empty in Ho.
        apply Permutation_nil_r in Ho. cbn [embed_pos]. rewrite Ho. done.
    - unfold embed_one, embed_step, brought. cbn [embed_pos]. destruct (importErrorInterfaceFact fa (ti_type info eid)) as [methods|].
      + rewrite add_methods by apply Horder. cbn [pbind pret if_ident if_methods if_embeds default from_option id].
        eexists m, [], _. split; [by rewrite app_nil_r|]. split; [done|]. split; [done|]. cbn [mbind list_bind]. by rewrite app_nil_r.
      + exists m, [], []. split.
        { cbn [pret default from_option]. do 4 f_equal. unfold merged. by rewrite fmap_empty, map_union_empty. }
        split; [done|]. split; [done|]. cbn [default from_option mbind list_bind]. rewrite dom_empty_L. pose proof (Horder eid ∅) as Ho. rewrite elements_empty in Ho.
        apply Permutation_nil_r in Ho. rewrite Ho. done. }
  rewrite E1. cbn [pbind].
  destruct (IH (embed_step final ms e) m1) as (m2&ds2&E2&Hst2&done2&Hd2&Hds2).
  - apply Permutation_length in Hd1. rewrite app_length in Hd1. lia.
  - done.
  - done.
  - done.
  - intros id n' ?. eapply Hes. by right.
  - rewrite E2. exists m2, (ds1 ++ ds2). split; [done|]. split; [done|]. exists (done1 ++ done2). split.
    + by rewrite Hd1, Hd2, app_assoc.
    + cbn [embed_reports]. rewrite Hds1, Hds2, bind_app. rewrite <-!app_assoc. apply Permutation_app_head.
      rewrite !app_assoc. apply Permutation_app_tail. apply Permutation_app_comm.
Qed.
Lemma dfs_ok fuel n i path m : length (todo m) < fuel -> dfs_state path m -> m.2 !! n = Some i -> (forall p, p ∈ path -> rank n < rank p) ->
  exists m' ds, embeddingInterfaceDFS pk fa order fuel i m = Ok (m', ds) /\ dfs_post path m m' ds /\ m'.2 !! n = None.
Proof.
  revert n i path m. induction fuel as [|k IH]; intros n i path m Hlen Hst Hn Hp; [lia|]. cbn [embeddingInterfaceDFS].
  assert (B0 !! n = Some i) as Hb by (eapply lookup_weaken; [done|apply (ds_sub _ _ Hst)]).
  rewrite (Hkey n i Hb). set (m1 := (m.1, delete n m.2)).
  pose proof (todo_delete m n i Hn) as Htodo. fold m1 in Htodo.
  assert (n ∉ path) as Hnp by (intros H; destruct (ds_path _ _ Hst n H); congruence).
  assert (m.1 !! n = None) as Hn0 by (by rewrite (ds_found _ _ Hst n Hnp), Hn).
  assert (dfs_state ({[ n ]} ∪ path) m1) as Hst1.
  { constructor; cbn [m1 fst snd].
    - etrans; [apply delete_subseteq|]. apply (ds_sub _ _ Hst).
    - intros x [->%elem_of_singleton|Hx]%elem_of_union; [by rewrite lookup_delete|]. destruct (ds_path _ _ Hst x Hx) as [? ?]. split; [done|].
      by apply lookup_delete_None; right.
    - intros x Hx. rewrite not_elem_of_union, not_elem_of_singleton in Hx. destruct Hx as [Hx1 Hx2]. rewrite lookup_delete_ne by done. by apply (ds_found _ _ Hst). }
  assert (i = Iface (if_ident i) (if_methods i) (if_embeds i)) as Hi by (by destruct i).
  destruct (embed_ok k (embeddingInterfaceDFS pk fa order k) ({[ n ]} ∪ path) n i (if_embeds i) (if_methods i) m1)
    as (m2&ds&E&Hst2&done&Hd&Hds).
  - exact IH.
  - apply Permutation_length in Htodo. cbn [length] in Htodo. lia.
  - done.
  - set_solver.
  - intros p [->%elem_of_singleton|Hx]%elem_of_union; [done|]. specialize (Hp p Hx). lia.
  - intros id n' He. by eapply Hrank.
  - rewrite <-Hi in E. match type of E with ?l = _ => match goal with |- context [pfold ?a ?b ?c] => change (pfold a b c) with l end end.
    rewrite E. cbn [pbind pret if_methods if_ident]. rewrite app_nil_r.
    pose proof (final_eq n) as Hfin. rewrite Hb in Hfin. cbn zeta in Hfin.
    set (ms := foldl (embed_step final) (if_methods i) (if_embeds i)) in *.
    destruct (ds_path _ _ Hst2 n) as [Hn2 Hn2']; [set_solver|].
    eexists _, ds. split; [done|]. split; [split|].
    + constructor.
      * case_decide; apply (ds_sub _ _ Hst2).
      * intros x Hx. assert (x <> n) as Hxn by (by intros ->). destruct (ds_path _ _ Hst2 x) as [? ?]; [set_solver|].
        rewrite (Hkey n i Hb). case_decide; cbn [fst snd]; [by rewrite lookup_insert_ne|done].
      * intros x Hx. rewrite (Hkey n i Hb). destruct (decide (x = n)) as [->|Hxn].
        -- case_decide; cbn [fst snd].
           ++ rewrite lookup_insert, Hn2'. by rewrite Hfin.
           ++ by rewrite Hn2, Hn2', Hfin.
        -- assert (x ∉ {[ n ]} ∪ path) as Hx' by set_solver. case_decide; cbn [fst snd]; [rewrite lookup_insert_ne by done|]; by apply (ds_found _ _ Hst2).
    + exists (n :: done). split.
      * rewrite Htodo, Hd. case_decide; done.
      * cbn [mbind list_bind]. unfold node_reports at 1. by rewrite Hb.
    + case_decide; done.
Qed.

(** The whole loop. *)
Lemma embedding_ok (names : gset gostring -> list gostring) : (forall s, names s ≡ₚ elements s) ->
  exists m' ds, findErrorReturningEmbeddingInterfaces pk fa order names (E0, B0) = Ok (m', ds) /\
    (forall n, m'.1 !! n = final n) /\ ds ≡ₚ (elements (dom B0) ≫= node_reports).
Proof.
  intros Hnames. unfold findErrorReturningEmbeddingInterfaces. cbn [snd].
  assert (forall l m, length (todo m) < S (size B0) -> dfs_state ∅ m -> (forall n, is_Some (m.2 !! n) -> n ∈ l) ->
    exists m' ds, pfold (fun m name => match m.2 !! name with Some i => embeddingInterfaceDFS pk fa order (S (size B0)) i m | None => pret m end) m l
        = Ok (m', ds) /\ dfs_post ∅ m m' ds /\ forall n, m'.2 !! n = None) as H.
  { intros l. induction l as [|n l IH]; intros m Hlen Hst Hl; cbn [pfold].
    - exists m, []. split; [done|]. split; [split; [done|by exists []]|]. intros n. destruct (m.2 !! n) eqn:E; [|done].
      exfalso. eapply not_elem_of_nil, Hl. by eauto.
    - assert (exists m1 ds1, (match m.2 !! n with Some i => embeddingInterfaceDFS pk fa order (S (size B0)) i m | None => pret m end) = Ok (m1, ds1) /\
        dfs_post ∅ m m1 ds1 /\ m1.2 !! n = None) as (m1&ds1&E1&(Hst1&done1&Hd1&Hds1)&Hn1).
      { destruct (m.2 !! n) as [i|] eqn:Ei.
        - apply dfs_ok; [done|done|done|]. intros p Hp. set_solver.
        - exists m, []. split; [done|]. split; [|done]. split; [done|]. by exists []. }
      match type of E1 with ?l = _ => match goal with |- context [pbind ?a _] => change a with l end end.
      rewrite E1. cbn [pbind]. destruct (IH m1) as (m2&ds2&E2&(Hst2&done2&Hd2&Hds2)&Hn2).
      + apply Permutation_length in Hd1. rewrite app_length in Hd1. lia.
      + done.
      + intros x Hx. assert (is_Some (m.2 !! x)) as Hs.
        { apply todo_elem. rewrite Hd1. apply elem_of_app. right. by apply todo_elem. }
        apply Hl in Hs. apply elem_of_cons in Hs as [->|?]; [|done]. rewrite Hn1 in Hx. by destruct Hx.
      + rewrite E2. exists m2, (ds1 ++ ds2). split; [done|]. split; [|done]. split; [done|]. exists (done1 ++ done2).
        rewrite Hd1, Hd2, bind_app, Hds1, Hds2. by rewrite app_assoc. }
  destruct (H (names (dom B0)) (E0, B0)) as (m'&ds&E&(Hst&done&Hd&Hds)&Hn).
  - unfold todo. cbn [snd]. change (length (elements (dom B0))) with (size (dom B0)). rewrite size_dom. lia.
  - constructor; cbn [fst snd]; [done|set_solver|]. intros n _. destruct (B0 !! n) as [i|] eqn:Ei.
    + destruct (E0 !! n) eqn:En; [|done]. destruct (Hdisj n); eauto.
    + rewrite final_eq, Ei. done.
  - intros n Hs. rewrite Hnames. by apply todo_elem in Hs.
  - exists m', ds. split; [done|]. split.
    + intros n. rewrite (ds_found _ _ Hst n) by set_solver. by rewrite Hn.
    + rewrite Hds. assert (todo m' = []) as Ht.
      { unfold todo. assert (dom m'.2 = ∅) as ->; [|done]. apply set_eq. intros n. rewrite elem_of_dom, Hn. split; [by intros [? ?]|set_solver]. }
      rewrite Ht, app_nil_r in Hd. unfold todo in Hd. cbn [snd] in Hd. by rewrite Hd.
Qed.
End collect.
