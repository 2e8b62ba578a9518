(** * A checker for [interfaces_ok] and [distinct_definitions], for concrete packages. *)
From Coq Require Import Ascii String.
From stdpp Require Import base list gmap.
From Verif Require Import GoString ErrorCode Scc CodeSet DocParser Constant GoAst Claims SpecCodes SpecDoc SpecClaims SpecInterfaces PropSites.

Lemma NoDup_fmap_same {A B} (f : A -> B) (l : list A) x y : NoDup (f <$> l) -> x ∈ l -> y ∈ l -> f x = f y -> x = y.
Proof.
  induction l as [|a l IH]; intros Hn Hx Hy E; [by apply elem_of_nil in Hx|]. cbn [fmap list_fmap] in Hn. apply NoDup_cons in Hn as [Ha Hn].
  apply elem_of_cons in Hx as [->|Hx], Hy as [->|Hy]; [done| | |by apply IH]; exfalso; apply Ha; apply elem_of_list_fmap; eauto.
Qed.

Section checker.
Context (pk : package) (rank : gostring -> nat).
Notation info := (pk_info pk).
Definition all_interfaces : list (ident * nid * list ielem) :=
  pk_gendecls pk ≫= fun g => gd_specs g ≫= fun s =>
    match s with Some (TypeSpec n (XInterface id elems)) => [(n, id, elems)] | _ => [] end.
Lemma all_interfaces_spec n id elems : interface_decl pk n id elems <-> (n, id, elems) ∈ all_interfaces.
Proof.
  unfold interface_decl, all_interfaces. rewrite elem_of_list_bind. split.
  - intros (g&Hg&Hs). exists g. split; [|done]. apply elem_of_list_bind. eexists. split; [|exact Hs]. by left.
  - intros (g&Hs&Hg). exists g. split; [done|]. apply elem_of_list_bind in Hs as ([[n' [| id' elems' |]]|]&Hs&Hin); try (by apply elem_of_nil in Hs).
    apply elem_of_list_singleton in Hs as [= -> -> ->]. done.
Qed.
Definition element_methods (elems : list ielem) : list (nid * ident * option gostring * functype) :=
  elems ≫= fun e => match e with IMethod mid name doc ft => [(mid, name, doc, ft)] | _ => [] end.
Lemma element_methods_spec elems mid name doc ft : IMethod mid name doc ft ∈ elems <-> (mid, name, doc, ft) ∈ element_methods elems.
Proof.
  unfold element_methods. rewrite elem_of_list_bind. split.
  - intros H. eexists. split; [|exact H]. by left.
  - intros ([mid' name' doc' ft'| | |]&H&Hin); try (by apply elem_of_nil in H). by apply elem_of_list_singleton in H as [= -> -> -> ->].
Qed.
Definition method_name (m : nid * ident * option gostring * functype) : gostring := i_name m.1.1.2.
Definition interfaces_check : bool :=
  bool_decide (NoDup ((fun i : ident * nid * list ielem => i_name i.1.1) <$> all_interfaces)) &&
  forallb (fun i : ident * nid * list ielem => bool_decide (NoDup (method_name <$> element_methods i.2)) &&
    forallb (fun e => match e with IEmbed _ n' => bool_decide (rank n' < rank (i_name i.1.1)) | _ => true end) i.2) all_interfaces.
Lemma interfaces_check_spec : interfaces_check = true -> interfaces_ok pk.
Proof.
  unfold interfaces_check. rewrite andb_true_iff, bool_decide_eq_true. intros [Hn Hf]. rewrite forallb_forall in Hf.
  assert (forall n id elems, interface_decl pk n id elems -> NoDup (method_name <$> element_methods elems) /\
    forall eid n', IEmbed eid n' ∈ elems -> rank n' < rank (i_name n)) as Hi.
  { intros n id elems H. rewrite all_interfaces_spec, elem_of_list_In in H. apply Hf in H. rewrite andb_true_iff, bool_decide_eq_true in H. destruct H as [H1 H2].
    split; [done|]. intros eid n' He. rewrite forallb_forall in H2. apply elem_of_list_In in He. apply H2 in He. by apply bool_decide_eq_true in He. }
  constructor.
  - intros n id elems n' id' elems' H H' E. apply all_interfaces_spec in H, H'.
    by pose proof (NoDup_fmap_same _ _ _ _ Hn H H' E) as [= -> -> ->].
  - intros n id elems mid name doc ft mid' name' doc' ft' H Hm Hm' E. destruct (Hi _ _ _ H) as [Hnd _]. apply element_methods_spec in Hm, Hm'.
    by pose proof (NoDup_fmap_same _ _ _ _ Hnd Hm Hm' E) as [= -> -> -> ->].
  - exists rank. intros n id elems eid n' H He. destruct (Hi _ _ _ H) as [_ Hr]. by eapply Hr.
Qed.

Definition all_defined : list (declared * tobj) :=
  (map_to_list (pk_funcs pk) ≫= fun p => match fn_decl p.2 with
     | Some d => match ti_defs info (i_id (dc_name d)) with Some o => [(DFunc p.1, o)] | None => [] end | None => [] end) ++
  (all_interfaces ≫= fun i => match ti_defs info (i_id i.1.1) with Some o => [(DIface i.1.1, o)] | None => [] end) ++
  (all_interfaces ≫= fun i => element_methods i.2 ≫= fun m => match ti_defs info (i_id m.1.1.2) with Some o => [(DMethod i.1.1 m.1.1.2, o)] | None => [] end).
Lemma all_defined_spec x o : defines pk x o -> (x, o) ∈ all_defined.
Proof.
  unfold all_defined. rewrite !elem_of_app. destruct x as [f|n|i n]; cbn [defines].
  - intros (fn&d&Hf&Hd&Ho). left. apply elem_of_list_bind. exists (f, fn). split; [|by apply elem_of_map_to_list]. cbn [fst snd]. rewrite Hd, Ho. by left.
  - intros (id&elems&Hi&Ho). right; left. apply elem_of_list_bind. exists (n, id, elems). split; [|by apply all_interfaces_spec]. cbn [fst snd]. rewrite Ho. by left.
  - intros (id&elems&mid&doc&ft&Hi&Hm&Ho). right; right. apply elem_of_list_bind. exists (i, id, elems). split; [|by apply all_interfaces_spec]. cbn [fst snd].
    apply elem_of_list_bind. exists (mid, n, doc, ft). split; [|by apply element_methods_spec]. cbn [fst snd]. rewrite Ho. by left.
Qed.
Definition definitions_check : bool := bool_decide (NoDup all_defined.*2).
Lemma definitions_check_spec : definitions_check = true -> distinct_definitions pk.
Proof.
  unfold definitions_check. rewrite bool_decide_eq_true. intros Hn x y o Hx%all_defined_spec Hy%all_defined_spec.
  by pose proof (NoDup_fmap_same _ _ _ _ Hn Hx Hy eq_refl) as [= ->].
Qed.
End checker.
