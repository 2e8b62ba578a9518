(** * A checker for programs: packages in a list, each of which imports all those before it (used by ExampleWhole.v). *)
From Coq Require Import Ascii String.
From stdpp Require Import base list gmap.
From Verif Require Import LookupProofs GoString ErrorCode Scc Engine CodeSet Annotation Constant GoAst Taint Extract Analyse Phase ErrorTypes Claims Interfaces
  Conversions Verify SpecTaint SpecMay SpecProgram SpecEvents SpecClaims SpecRun SpecEnd SpecInterfaces SpecSites RunProofs ProgramProofs Checkers InterfaceChecker ExampleBase
  SpecExec SpecSound SoundChecker SpecWhole.

(** ** Single packages *)
Section uses.
Context (pk : package) (lk : lookup_table).
Definition source_nodes : list node := (map_to_list (pk_funcs pk) ≫= fun p => body_nodes p.2) ++ (init_values pk ≫= walk).
Lemma source_nodes_spec e : source_node pk e -> e ∈ source_nodes.
Proof.
  intros [g fn Hf He|o names values v Ho Hv He]; apply elem_of_app; [left|right]; apply elem_of_list_bind.
  - exists (g, fn). split; [done|]. by apply elem_of_map_to_list.
  - exists v. split; [done|]. by eapply init_values_spec.
Qed.
Definition uses : list node :=
  (source_nodes ≫= fun n => match as_call n with Some (f, _) => [unparen f] | None => [] end) ++
  (source_nodes ≫= fun n => match as_assign n with Some (_, rhs) => unparen <$> rhs | None => [] end) ++ (unparen <$> init_values pk).
Lemma uses_spec e : used pk e -> e ∈ uses.
Proof.
  unfold uses. rewrite !elem_of_app. intros [n f args Hn Hc ->|n lhs rhs r Hn Ha Hr ->|o names values v Ho Hv ->].
  - left. apply elem_of_list_bind. exists n. rewrite Hc. split; [by left|by apply source_nodes_spec].
  - right; left. apply elem_of_list_bind. exists n. rewrite Ha. split; [|by apply source_nodes_spec]. apply elem_of_list_fmap. by exists r.
  - right; right. apply elem_of_list_fmap. exists v. split; [done|]. by eapply init_values_spec.
Qed.
Definition denotes_b (e : node) (g : fid) : bool :=
  match e with
  | Node _ (KIdent name None) _ => bool_decide (lk_functions lk !! name = Some g)
  | Node _ (KIdent _ (Some o)) _ => match ob_decl (obj_of pk o) with GoAst.DFunc g' => bool_decide (g' = g) | _ => false end
  | _ => match as_selector e with
         | Some (x, sel) => match as_ident (unparen x) with Some t => bool_decide (ti_pkgname (pk_info pk) (i_id t) = None) | None => true end &&
             match ti_selection (pk_info pk) (node_id e) with Some (_, recv) => bool_decide (searchMethod pk lk recv (i_name sel) = Some g) | None => false end
         | None => false
         end
  end.
Lemma denotes_b_spec e g : denotes_b e g = true -> denotes pk lk e g.
Proof.
  unfold denotes_b. intros H.
  assert (match as_selector e with
         | Some (x, sel) => match as_ident (unparen x) with Some t => bool_decide (ti_pkgname (pk_info pk) (i_id t) = None) | None => true end &&
             match ti_selection (pk_info pk) (node_id e) with Some (_, recv) => bool_decide (searchMethod pk lk recv (i_name sel) = Some g) | None => false end
         | None => false
         end = true -> denotes pk lk e g) as Hsel.
  { clear H. destruct (as_selector e) as [[x sel]|] eqn:Es; [|done]. rewrite andb_true_iff. intros [H1 H2].
    destruct (ti_selection _ _) as [[o recv]|] eqn:Et; [|done]. apply bool_decide_eq_true, searchMethod_spec in H2.
    eapply den_method; [exact Es| |exact Et|exact H2]. intros t Ht. rewrite Ht in H1. by apply bool_decide_eq_true in H1. }
  destruct e as [id k kids]. destruct k; try (by apply Hsel).
  destruct obj as [o|].
  - destruct (ob_decl (obj_of pk o)) eqn:Eo; try done. apply bool_decide_eq_true in H as ->. by apply den_func.
  - apply bool_decide_eq_true in H. by apply den_name.
Qed.
Definition uses_check : bool :=
  forallb (fun e => match value_object pk e with
    | Some o => forallb (fun p : declared * tobj => match p.1 with SpecInterfaces.DFunc g => negb (bool_decide (p.2 = o)) || denotes_b e g | _ => true end) (all_defined pk)
    | None => true end) uses.
Lemma uses_check_spec : uses_check = true -> uses_resolved pk lk.
Proof.
  unfold uses_check. rewrite forallb_forall. intros H e o f He%uses_spec%elem_of_list_In Hv Hf. specialize (H e He). rewrite Hv, forallb_forall in H.
  assert ((SpecInterfaces.DFunc f, o) ∈ all_defined pk) as Hin%elem_of_list_In by (by apply all_defined_spec).
  specialize (H _ Hin). cbn in H. rewrite bool_decide_true in H by done. by apply denotes_b_spec.
Qed.
End uses.
Definition member_of (pk : package) (fa : facts) : member :=
  Member pk false (some_run_orders (collectFunctions pk)) fa (run_of pk false (some_run_orders (collectFunctions pk)) fa).
Definition member_check (pk : package) (fa fd : facts) (rank : gostring -> nat) : bool :=
  is_ok (runVerify pk false (some_run_orders (collectFunctions pk)) fa) && bool_decide (r_diags (run_of pk false (some_run_orders (collectFunctions pk)) fa) = []) &&
  package_ok pk && agree_b pk && sound_ok pk fd && interfaces_check pk rank && definitions_check pk && uses_check pk (collectFunctions pk).
Lemma member_check_spec pk fa fd rank : member_check pk fa fd rank = true -> m_known (member_of pk fa) = fd -> accepted (member_of pk fa).
Proof.
  unfold member_check. rewrite !andb_true_iff, bool_decide_eq_true. intros (((((((H1&H2)&H3)&H4)&H5)&H6)&H7)&H8) <-.
  destruct (package_ok_spec pk (m_known (member_of pk fa)) H3) as [Hu Hl]. constructor.
  - apply some_run_orders_ok.
  - by apply run_of_ok.
  - exact H2.
  - exact Hu.
  - by apply no_literal_calls_recursion.
  - intros c g fn Hg. by eapply agree_spec.
  - intros g fn Hg. by eapply sound_ok_spec.
  - intros g fn Hg. by eapply sound_ok_spec.
  - by eapply interfaces_check_spec.
  - by apply definitions_check_spec.
  - by apply uses_check_spec.
Qed.

(** ** Programs *)
Section chain.
Context (ms : list member).
Definition before (m m' : member) : Prop := exists i j, ms !! i = Some m /\ ms !! j = Some m' /\ j < i.
Definition chain_program : program := Program ms before.
Definition objects (m : member) : list tobj := (all_defined (m_pk m)).*2.
Lemma objects_spec m x o : defines (m_pk m) x o -> o ∈ objects m.
Proof. intros H. apply elem_of_list_fmap. exists (x, o). split; [done|]. by apply all_defined_spec. Qed.

Definition facts_same (fa fe : facts) (o : tobj) : bool :=
  bool_decide (fa_codes fa !! o = fa_codes fe !! o) && bool_decide (fa_ctor fa !! o = fa_ctor fe !! o) && bool_decide (fa_iface fa !! o = fa_iface fe !! o).
Definition facts_none (fa : facts) (o : tobj) : bool :=
  bool_decide (fa_codes fa !! o = None) && bool_decide (fa_ctor fa !! o = None) && bool_decide (fa_iface fa !! o = None).
Definition is_iface (x : declared) : bool := match x with DIface _ => true | _ => false end.
Definition pairs_check (i j : nat) (m m' : member) : bool :=
  if decide (j < i) then forallb (facts_same (m_imports m) (m_exports m')) (objects m') else forallb (facts_none (m_imports m)) (objects m').
Definition chain_check : bool :=
  bool_decide (NoDup (concat (objects <$> ms))) && forallb (fun m => match objects m with [] => false | _ => true end) ms &&
  forallb (fun i => forallb (fun j => match ms !! i, ms !! j with Some m, Some m' => pairs_check i j m m' | _, _ => true end) (seq 0 (length ms))) (seq 0 (length ms)) &&
  forallb (fun m => negb (existsb (fun p => is_iface p.1) (all_defined (m_pk m)))) (drop 1 ms).

Lemma concat_same {A B} (f : A -> list B) (l : list A) i j x y b : NoDup (concat (f <$> l)) -> l !! i = Some x -> l !! j = Some y -> b ∈ f x -> b ∈ f y -> i = j.
Proof.
  revert i j. induction l as [|z l IH]; intros i j Hn Hi Hj Hx Hy; [done|]. cbn in Hn. apply NoDup_app in Hn as (_&Hd&Hn).
  assert (forall k w, l !! k = Some w -> b ∈ f w -> b ∈ concat (f <$> l)) as Hc.
  { intros k w Hk Hb. apply elem_of_list_In, in_concat. exists (f w). split; [|by apply elem_of_list_In]. apply elem_of_list_In, elem_of_list_fmap. exists w. split; [done|by eapply elem_of_list_lookup_2]. }
  destruct i as [|i], j as [|j]; cbn in Hi, Hj.
  - done.
  - injection Hi as ->. by destruct (Hd b Hx (Hc _ _ Hj Hy)).
  - injection Hj as ->. by destruct (Hd b Hy (Hc _ _ Hi Hx)).
  - f_equal. by eapply IH.
Qed.

Context (Hck : chain_check = true).
Lemma chain_parts : NoDup (concat (objects <$> ms)) /\ (forall m, m ∈ ms -> objects m <> []) /\
  (forall i j m m', ms !! i = Some m -> ms !! j = Some m' -> pairs_check i j m m' = true) /\
  (forall i m nm t, ms !! i = Some m -> defines (m_pk m) (DIface nm) t -> i = 0).
Proof.
  unfold chain_check in Hck. rewrite !andb_true_iff, bool_decide_eq_true, !forallb_forall in Hck. destruct Hck as (((H1&H2)&H3)&H4). split_and!; [done| | |].
  - intros m Hm%elem_of_list_In%H2. by destruct (objects m).
  - intros i j m m' Hi Hj. pose proof (lookup_lt_Some _ _ _ Hi) as Li. pose proof (lookup_lt_Some _ _ _ Hj) as Lj.
    assert (In i (seq 0 (length ms))) as Ii by (apply in_seq; lia). specialize (H3 i Ii). rewrite forallb_forall in H3.
    assert (In j (seq 0 (length ms))) as Ij by (apply in_seq; lia). specialize (H3 j Ij). by rewrite Hi, Hj in H3.
  - intros i m nm t Hi Hd. destruct i as [|i]; [done|]. exfalso.
    assert (m ∈ drop 1 ms) as Hin by (apply elem_of_list_lookup; exists i; by rewrite lookup_drop).
    apply elem_of_list_In, H4 in Hin. apply negb_true_iff in Hin. apply all_defined_spec, elem_of_list_In in Hd.
    assert (existsb (fun p => is_iface p.1) (all_defined (m_pk m)) = true) as He by (apply existsb_exists; by exists (DIface nm, t)). congruence.
Qed.
Lemma same_index i j m : ms !! i = Some m -> ms !! j = Some m -> i = j.
Proof.
  destruct chain_parts as (Hn&Hne&_). intros Hi Hj. assert (objects m <> []) as Ho by (apply Hne; by eapply elem_of_list_lookup_2).
  destruct (objects m) as [|o l] eqn:E; [done|]. eapply (concat_same objects ms i j m m o Hn Hi Hj); rewrite E; by left.
Qed.
Theorem chain_linked :
  (forall m l nm t meth o, m ∈ ms -> l ∈ ms -> defines (m_pk l) (DIface nm) t ->
     ti_methods (pk_info (m_pk m)) (TNamed t) meth = Some o -> carries chain_program l (i_name nm) meth o) -> well_linked chain_program.
Proof.
  destruct chain_parts as (Hn&Hne&Hp&Hi0). intros Hme.
  assert (forall m m' x o, m ∈ ms -> imports chain_program m m' -> defines (m_pk m') x o -> same_facts (m_imports m) (m_exports m') o) as Hsame.
  { intros m m' x o Hm (i&j&Hi&Hj&Hlt) Hx%objects_spec%elem_of_list_In. specialize (Hp i j m m' Hi Hj). unfold pairs_check in Hp.
    rewrite decide_True in Hp by done. rewrite forallb_forall in Hp. specialize (Hp o Hx). unfold facts_same in Hp. by rewrite !andb_true_iff, !bool_decide_eq_true in Hp; destruct Hp as [[? ?] ?]. }
  constructor; cbn [members imports chain_program].
  - intros m m' (i&j&Hi&Hj&Hlt). split; [by eapply elem_of_list_lookup_2|]. intros ->. rewrite (same_index i j m' Hi Hj) in Hlt. lia.
  - intros m m' x x' o [i Hi]%elem_of_list_lookup [j Hj]%elem_of_list_lookup Hx%objects_spec Hx'%objects_spec.
    assert (i = j) as <- by by eapply (concat_same objects ms i j m m' o). congruence.
  - intros m m' x o Hm Him Hx _. by eapply Hsame.
  - intros m m' x o Hm Him Hx. left. by eapply Hsame.
  - intros m m' x o [i Hi]%elem_of_list_lookup [j Hj]%elem_of_list_lookup Hx%objects_spec%elem_of_list_In Hs. exists i, j. split_and!; [done|done|].
    destruct (decide (j < i)) as [|Hge]; [done|]. exfalso. specialize (Hp i j m m' Hi Hj). unfold pairs_check in Hp. rewrite decide_False in Hp by done.
    rewrite forallb_forall in Hp. specialize (Hp o Hx). unfold facts_none in Hp. rewrite !andb_true_iff, !bool_decide_eq_true in Hp. destruct Hp as [[E1 E2] E3].
    rewrite E1, E2, E3 in Hs. destruct Hs as [[? ?]|[[? ?]|[? ?]]]; done.
  - exact Hme.
  - intros m l nm w n t v pos [i Hi]%elem_of_list_lookup [j Hj]%elem_of_list_lookup Hd _ _. pose proof (Hi0 j l nm t Hj Hd) as ->.
    destruct i as [|i]; [left; congruence|]. right. exists (S i), 0. split_and!; [done|done|lia].
Qed.
End chain.
