(** * A decidable check that a package is well formed in the sense of SpecSites (for examples). *)
From stdpp Require Import base list gmap.
From Verif Require Import GoString ErrorCode Scc Engine CodeSet Constant GoAst Taint Extract Analyse Phase ErrorTypes Claims Interfaces Conversions SpecSites PropSites.

Section check.
Context (pk : package).
Notation info := (pk_info pk).
Definition node_formed (w : option functype) (n : node) : bool :=
  match n with
  | Node _ (KAssign k) kids => bool_decide (drop k kids <> [])
  | Node _ (KValueSpec [] (Some _)) (_ :: _) => false
  | Node _ KCall (f :: _ :: _) => match ti_type info (node_id f) with Some (TSignature [] _ true) => false | _ => true end
  | Node _ (KTypeSwitch has_init) kids =>
    match drop (if has_init : bool then 1 else 0) kids with
    | [assign; _] => match as_assign assign with
                     | Some (_, [Node _ (KTypeAssert _) [_]]) => true
                     | Some (_, [_]) => false
                     | _ => true
                     end
    | _ => true
    end
  | Node _ KReturn results => match w, results with
                              | None, _ => false
                              | Some ft, _ :: _ => bool_decide (ft_results ft <> None)
                              | _, _ => true
                              end
  | Node _ KSend [chan; _] => match getUnderlyingType pk <$> ti_type info (node_id chan) with Some (TChan _ _) => true | _ => false end
  | _ => true
  end.
Lemma node_formed_spec w n : node_formed w n = true -> ~ ill_formed pk w n.
Proof.
  intros H Hn. destruct Hn as [lhs l t Ha Hl Ht|ni typ call rest ->|ni f a args results -> Ht|ni init assign body lhs rhs -> Ha Hr|ni results -> ->|ni e0 results ft -> -> Hf|ni chan value -> Hs].
  - apply as_assign_inv in Ha as (ni&k&kids&->&->&E). cbn in H. by rewrite <-E in H.
  - done.
  - cbn in H. by rewrite Ht in H.
  - cbn in H. destruct init as [i|]; cbn in H; rewrite Ha in H; destruct rhs as [rid rk rkids]; destruct rk; try done;
      (destruct rkids as [|x [|]]; try done; by eapply Hr).
  - done.
  - cbn in H. by rewrite Hf in H.
  - cbn in H. destruct (ti_type info (node_id chan)) as [tc|] eqn:Et; [|done]. cbn in H.
    destruct (getUnderlyingType pk tc) eqn:Eu; try done. eapply (Hs tc _ _ eq_refl), shape_spec, Eu.
Qed.
Fixpoint tree_formed (w : option functype) (n : node) : bool :=
  let 'Node _ k kids := n in
  let inner := match k with
               | KFuncLit f => match pk_funcs pk !! f with Some fn => Some (fn_type fn) | None => None end
               | _ => w
               end in
  node_formed w n && forallb (tree_formed inner) kids.
Lemma tree_formed_unfold w n : tree_formed w n = node_formed w n && forallb (tree_formed (inner pk w n)) (node_kids n).
Proof. destruct n as [ni k kids]. by destruct k. Qed.
Lemma tree_formed_spec w m w' n : below pk w m w' n -> tree_formed w m = true -> ~ ill_formed pk w' n.
Proof.
  intros Hb. assert (forall w1 w2 m k, k ∈ node_kids m -> inner pk w1 m = w2 -> tree_formed w1 m = true -> tree_formed w2 k = true) as Hk.
  { intros w1 w2 m' k Hk <- H. rewrite tree_formed_unfold, andb_true_iff, forallb_forall in H. apply H. by apply elem_of_list_In. }
  induction Hb as [w n|w m k w' n Hm Hf Hb IH|w m f lit k w' n Hm Hf Hl Hb IH|w m f k w' n Hm Hf Hl Hb IH]; intros H.
  - rewrite tree_formed_unfold, andb_true_iff in H. destruct H as [H _]. by apply node_formed_spec.
  - apply IH. eapply Hk; [exact Hm| |exact H]. destruct m as [ni kd kids]. destruct kd; try done. by destruct (Hf f).
  - apply IH. eapply Hk; [exact Hm| |exact H]. destruct m as [ni kd kids]. destruct kd; try done. injection Hf as ->. cbn. by rewrite Hl.
  - apply IH. eapply Hk; [exact Hm| |exact H]. destruct m as [ni kd kids]. destruct kd; try done. injection Hf as ->. cbn. by rewrite Hl.
Qed.
Definition package_formed : bool :=
  forallb (fun d => match d with
                    | TopNode n => tree_formed None n
                    | TopFunc f => match pk_funcs pk !! f with
                                   | Some fn => match fn_body fn with Some b => tree_formed (Some (fn_type fn)) b | None => true end
                                   | None => true
                                   end
                    end) (pk_top pk).
Theorem package_formed_spec : package_formed = true -> forall w n, occurs pk w n -> ~ ill_formed pk w n.
Proof.
  unfold package_formed. rewrite forallb_forall. intros H w n [m Hm Hb|f fn b Hm Hf Hbody Hb].
  - apply elem_of_list_In, H in Hm. by eapply tree_formed_spec.
  - apply elem_of_list_In, H in Hm. rewrite Hf, Hbody in Hm. by eapply tree_formed_spec.
Qed.
End check.
