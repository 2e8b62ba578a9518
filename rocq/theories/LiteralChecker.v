(** * A computable check for [literals_apart]. *)
From stdpp Require Import base list gmap.
From Verif Require Import GoString ErrorCode Scc CodeSet Annotation Constant GoAst Taint Extract Analyse Phase Claims SpecMay SpecProgram SpecClaims SpecLiterals
  LookupProofs ProgramProofs ClaimsProofs RunChecks Checkers.
From Verif Require SpecLookup.

Section check.
Context (pk : package).
Notation lk := (collectFunctions pk).
Definition assigned_literals : list fid :=
  map_to_list (pk_funcs pk) ≫= fun p => omap (fun e => as_funclit (unparen e)) (assigned_rhs p.2 ++ init_values pk).
Definition called_literals : list fid :=
  map_to_list (pk_funcs pk) ≫= fun p => omap (fun e => match as_call (unparen e) with Some (f, _) => as_funclit (unparen f) | None => None end) (all_sources pk p.2).
Definition declared_objects : list fid := omap (fun p => match ob_decl p.2 with DFunc g => Some g | _ => None end) (map_to_list (pk_objs pk)).
Definition apart_b : bool :=
  forallb (fun g => negb (bool_decide (g ∈ lookup_all lk ++ called_literals ++ declared_objects))) assigned_literals.
Lemma named_known e g : denotes pk lk e g -> as_funclit e = None -> g ∈ lookup_all lk ++ declared_objects.
Proof.
  intros H Hn. apply elem_of_app. destruct H as [id name kids g H|id name o kids g H|e x sel o recv g Hs Hp He Hm|id g kids]; [| | |done].
  - left. unfold lookup_all. apply elem_of_app. left. apply elem_of_list_fmap. exists (name, g). split; [done|]. by apply elem_of_map_to_list.
  - right. unfold obj_of in H. destruct (pk_objs pk !! o) as [ob|] eqn:Eo; [|done]. apply elem_of_list_omap. exists (o, ob).
    split; [by apply elem_of_map_to_list|]. cbn [default] in H. cbn [snd]. change (ob_decl ob = DFunc g) in H. by rewrite H.
  - left. apply searchMethod_spec in Hm. by eapply search_known.
Qed.
Lemma literal_denotes e g g' : denotes pk lk e g -> as_funclit e = Some g' -> g' = g.
Proof.
  intros H E. destruct H as [id name kids g H|id name o kids g H|e x sel o recv g Hs Hp He Hm|id g kids]; try done.
  - destruct e as [id k kids]. by destruct k.
  - cbn in E. by injection E.
Qed.
Theorem apart_spec fa : apart_b = true -> literals_apart pk lk fa.
Proof.
  unfold apart_b. rewrite forallb_forall. intros H f fn e g Hf _ Hl.
  assert (g ∉ lookup_all lk ++ called_literals ++ declared_objects) as Hg.
  { destruct Hl as [i o e' id kids _ _ _ _ (e0&He&->&_) Hu]. rewrite unparen_idem in Hu.
    assert (g ∈ assigned_literals) as Hin.
    { apply elem_of_list_bind. exists (f, fn). split; [|by apply elem_of_map_to_list]. apply elem_of_list_omap. exists e0. split; [by eapply assigned_in|]. by rewrite Hu. }
    apply elem_of_list_In, H, negb_true_iff, bool_decide_eq_false in Hin. done. }
  rewrite !elem_of_app in Hg. split.
  - intros fn' Hk. apply Hg. left. apply known_spec. eauto.
  - intros f' fn' e' Hf' (e1&args&Hc&He1) Ho. destruct Ho as [Ho|i o e2 Hv _ He2 Hn Ho].
    + destruct (as_funclit (unparen e')) as [g'|] eqn:Ef.
      * assert (g' = g) as -> by (by eapply literal_denotes).
        apply Hg. right. left.
        assert (error_source pk fn' e1) as Hs.
        { destruct He1 as [(s&?&?&?)|[(o&?&?)|(o&d&ps&rs&v&?&?&->&_)]]; [left; eauto|right; exists o; eauto|right; exists o; split; [done|]; right; eauto]. }
        destruct (error_source_in pk fn' e1 Hs) as (e3&He3&Hu). apply elem_of_list_bind. exists (f', fn'). split; [|by apply elem_of_map_to_list].
        apply elem_of_list_omap. exists e3. split; [done|]. by rewrite Hu, Hc, Ef.
      * apply named_known in Ho; [|done]. apply elem_of_app in Ho. tauto.
    + apply named_known in Ho; [apply elem_of_app in Ho; tauto|]. destruct (unparen e2) as [id k kids]. destruct Hn as [Hn|Hn]; by destruct k.
Qed.
End check.
