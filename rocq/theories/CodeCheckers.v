(** * Decidable conditions that imply the presuppositions of C25 (for concrete packages). *)
From Coq Require Import Ascii String.
From stdpp Require Import base list gmap.
From Verif Require Import GoString ErrorCode Scc CodeSet Annotation Constant GoAst Taint Extract Analyse
  SpecCodes SpecTaint SpecMay SpecProgram SpecLookup SpecCodeMethod Checkers VocabularyProofs PropLookup.

Section check.
Context (pk : package).
Notation info := (pk_info pk).

Section fn.
Context (fn : func).
(** The return statements of the function itself, in [n]. *)
Fixpoint own_nodes (n : node) : list node :=
  match as_funclit n with
  | Some _ => []
  | None => let 'Node _ _ kids := n in n :: flat_map own_nodes kids
  end.
Lemma own_nodes_kids id k kids : own_nodes (Node id k kids) =
  match as_funclit (Node id k kids) with Some _ => [] | None => Node id k kids :: flat_map own_nodes kids end.
Proof. done. Qed.
Lemma own_nodes_spec m n : inside m n -> n ∈ own_nodes m.
Proof.
  induction 1 as [[id k kids] H|[id k kids] c n H Hc _ IH]; rewrite own_nodes_kids, H; [by left|]. right.
  apply elem_of_list_In, in_flat_map. exists c. split; [by apply elem_of_list_In|]. by apply elem_of_list_In.
Qed.
Definition own_returns : list node :=
  match fn_body fn with
  | Some b => List.filter (fun s => match node_kind s with KReturn => true | _ => false end) (own_nodes b)
  | None => []
  end.
Lemma own_returns_spec s : own_return fn s -> s ∈ own_returns.
Proof.
  intros (b&Hb&Hi&Hk). unfold own_returns. rewrite Hb. apply elem_of_list_In, filter_In. split; [by apply elem_of_list_In, own_nodes_spec|by rewrite Hk].
Qed.
Definition code_typed_b : bool :=
  forallb (fun s => match node_kids s with
    | [_] => true
    | [] => match ft_results (fn_type fn) with Some [f] => match f_names f with [_] => true | _ => false end | _ => false end
    | _ => false
    end) own_returns.
Lemma code_typed_spec : code_typed_b = true -> code_typed fn.
Proof.
  unfold code_typed_b. rewrite forallb_forall. intros H s Hs%own_returns_spec%elem_of_list_In%H.
  destruct (node_kids s) as [|e [|]]; [|left; eauto|done]. right. split; [done|].
  destruct (ft_results (fn_type fn)) as [[|f [|]]|]; try done. destruct (f_names f) as [|i [|]] eqn:E; try done. eauto.
Qed.

Definition code_exprs : list node := flat_map node_kids own_returns ++ assigned_rhs fn ++ init_values pk.
Definition code_usable_b : bool :=
  bool_decide (fn_body fn <> None) && init_values_plain pk && scoped_from pk fn [] (body_nodes fn) &&
  forallb (obj_free pk fn) (flat_map f_names (default [] (ft_results (fn_type fn)))) &&
  forallb (fun e => match as_ident (unparen e) with Some i => obj_free pk fn i | None => true end) code_exprs.
Lemma code_usable_spec : code_usable_b = true -> code_usable pk fn.
Proof.
  unfold code_usable_b. rewrite !andb_true_iff, !forallb_forall, bool_decide_eq_true. intros ((((Hb&Hp)&Hs)&Hn)&He). constructor.
  - done.
  - by apply scoped_spec.
  - intros i (_&f&Hf&Hi). apply obj_free_spec; [done|]. apply Hn. rewrite Hf. cbn. rewrite Hi. by left.
  - intros e i Hsrc (_&Hi). assert (exists e', e' ∈ code_exprs /\ unparen e' = unparen e) as (e'&He'&Hu).
    { destruct Hsrc as [(s&Hs'&Hk)|(o&_&(e0&Ha&->&_))].
      - exists e. split; [|done]. apply elem_of_app. left. apply elem_of_list_In, in_flat_map. exists s.
        split; [by apply elem_of_list_In, own_returns_spec|]. rewrite Hk. by left.
      - exists e0. split; [|by rewrite unparen_idem]. apply elem_of_app. right. by eapply assigned_in. }
    apply elem_of_list_In, He in He'. rewrite Hu, Hi in He'. by apply obj_free_spec.
Qed.
Definition assigns_ok : bool :=
  match fn_body fn with Some b => forallb (fun p : list node * list node => negb (bool_decide (p.2 = []))) (assigns_pruned b) | None => true end.
Lemma assigns_ok_spec body lhs rhs : assigns_ok = true -> fn_body fn = Some body -> outer_assignment body lhs rhs -> rhs <> [].
Proof.
  unfold assigns_ok. intros H Hb Ho%assigns_pruned_spec%elem_of_list_In. rewrite Hb, forallb_forall in H. apply H in Ho.
  by apply negb_true_iff, bool_decide_eq_false in Ho.
Qed.
Definition receiver_ok : bool :=
  match fn_decl fn with
  | Some d => match dc_recv d with Some [r] => match f_names r with [i] => bool_decide (i_obj i <> None) | _ => true end | _ => true end
  | None => true
  end.
End fn.

Definition types_ok : bool :=
  forallb (fun g => forallb (fun s => match s with Some ts => bool_decide (ti_defs info (i_id (tsp_name ts)) <> None) | None => true end) (gd_specs g))
    (pk_gendecls pk) &&
  forallb (fun p : fid * func => (negb (bool_decide (func_name p.2 = str "Code")) || (code_usable_b p.2 && code_typed_b p.2)) &&
    assigns_ok p.2 && receiver_ok p.2) (map_to_list (pk_funcs pk)).
Theorem types_ok_spec : types_ok = true -> types_usable pk.
Proof.
  unfold types_ok. rewrite andb_true_iff, !forallb_forall. intros [Hd Hf].
  assert (forall f fn, pk_funcs pk !! f = Some fn ->
    (func_name fn <> str "Code" \/ (code_usable_b fn = true /\ code_typed_b fn = true)) /\ assigns_ok fn = true /\ receiver_ok fn = true) as Hf'.
  { intros f fn H. assert (In (f, fn) (map_to_list (pk_funcs pk))) as Hin%Hf by (apply elem_of_list_In; by apply elem_of_map_to_list).
    cbn [snd] in Hin. rewrite !andb_true_iff, orb_true_iff, negb_true_iff, bool_decide_eq_false, andb_true_iff in Hin. tauto. }
  constructor.
  - intros g ts Hg%elem_of_list_In%Hd Hts. rewrite forallb_forall in Hg. apply elem_of_list_In, Hg in Hts. by apply bool_decide_eq_true in Hts.
  - intros g ts err f fn _ _ _ (?&?&_&(fn'&d&Hfn&Hdecl&_&Hn)&_) H. rewrite H in Hfn. injection Hfn as <-.
    destruct (Hf' _ _ H) as [[Hne|[? ?]] _]; [|split; [by apply code_usable_spec|by apply code_typed_spec]].
    destruct Hne. unfold func_name. by rewrite Hdecl.
  - intros f fn body lhs rhs H. destruct (Hf' _ _ H) as (_&?&_). by apply assigns_ok_spec.
  - intros f r i (fn&d&H&Hdecl&Hr) Hi. destruct (Hf' _ _ H) as (_&_&Hok). unfold receiver_ok in Hok. rewrite Hdecl, Hr, Hi in Hok.
    by apply bool_decide_eq_true in Hok.
Qed.
End check.
