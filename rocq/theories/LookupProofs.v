(** * The lookup of methods finds what the specification says (used by C39 and by the proofs about calls). *)
From Coq Require Import Ascii String.
From stdpp Require Import base list gmap.
From Verif Require Import GoString ErrorCode Scc Engine Constant GoAst Taint Extract Analyse SpecLookup.

Section lookup.
Context (pk : package).
Notation info := (pk_info pk).

Lemma declares_object_spec f o : declares_object pk f o <-> decl_obj pk f = Some o.
Proof.
  unfold declares_object, decl_obj. split.
  - intros (fn&d&->&->&?). done.
  - destruct (pk_funcs pk !! f) as [fn|]; [|done]. destruct (fn_decl fn) as [d|] eqn:Ed; [|done]. eauto.
Qed.
Lemma searchMethodType_spec t name o : searchMethodType pk t name = Some o <-> has_method pk t name o.
Proof.
  unfold searchMethodType. destruct (ti_methods info t name) as [o'|] eqn:E.
  - split; [intros [= ->]; by apply hm_value|]. intros [H|H _ _]; congruence.
  - split.
    + intros H. apply hm_address; [done| |by destruct t]. intros e ->. done.
    + intros [H|_ Hp H]; [congruence|]. destruct t; try done. by destruct (Hp t).
Qed.

Lemma searchMethodType_none t name : searchMethodType pk t name = None <-> forall o, ~ has_method pk t name o.
Proof.
  split.
  - intros H o Ho%searchMethodType_spec. congruence.
  - intros H. destruct (searchMethodType pk t name) as [o|] eqn:E; [|done]. apply searchMethodType_spec in E. by destruct (H o).
Qed.

Lemma list_find_split {A} (P : A -> Prop) `{forall x, Decision (P x)} (l : list A) x :
  (exists i, list_find P l = Some (i, x)) <-> exists pre post, l = pre ++ x :: post /\ P x /\ forall y, y ∈ pre -> ~ P y.
Proof.
  split.
  - intros (i&Hi). apply list_find_Some in Hi as (Hl&Hp&Hf). exists (take i l), (drop (S i) l).
    split; [by rewrite take_drop_middle|]. split; [done|]. intros y Hy.
    apply elem_of_take in Hy as (j&Hj&Hlt). by eapply Hf.
  - intros (pre&post&->&Hp&Hf). exists (length pre). apply list_find_Some. split; [by apply list_lookup_middle|]. split; [done|].
    intros j y Hj Hlt. apply Hf. rewrite lookup_app_l in Hj by done. by eapply elem_of_list_lookup_2.
Qed.
Lemma searchMethod_spec lk t name g :
  searchMethod pk lk t name = Some g <-> method_among pk (default [] (lk_methods lk !! name)) t name g.
Proof.
  unfold method_among.
  assert (searchMethod pk lk t name = match searchMethodType pk t name with
    | None => None
    | Some o => list_find (fun f => decl_obj pk f = Some o) (default [] (lk_methods lk !! name)) ≫= fun p => Some p.2 end) as Hs.
  { unfold searchMethod. destruct (lk_methods lk !! name) as [l|]; [done|]. by destruct (searchMethodType pk t name). }
  rewrite Hs. clear Hs. split.
  - destruct (searchMethodType pk t name) as [o|] eqn:Eo; [|done]. apply searchMethodType_spec in Eo.
    intros (p&Hp&[= <-])%bind_Some.
    assert (exists i, list_find (fun f => decl_obj pk f = Some o) (default [] (lk_methods lk !! name)) = Some (i, p.2)) as H
      by (exists p.1; by destruct p).
    apply list_find_split in H as (pre&post&Heq&Hd&Hf).
    exists o, pre, post. split_and!; [done|done|by apply declares_object_spec|].
    intros f Hin Ho%declares_object_spec. by apply (Hf f).
  - intros (o&pre&post&Ho&Heq&Hob&Hf). apply searchMethodType_spec in Ho. rewrite Ho. apply bind_Some.
    assert (exists i, list_find (fun f => decl_obj pk f = Some o) (default [] (lk_methods lk !! name)) = Some (i, g)) as (i&Hi).
    { apply list_find_split. exists pre, post. split; [done|]. split; [by apply declares_object_spec|].
      intros f Hin Hd. apply (Hf f); [done|by apply declares_object_spec]. }
    exists (i, g). done.
Qed.
Lemma searchMethod_none lk t name :
  searchMethod pk lk t name = None <-> forall g, ~ method_among pk (default [] (lk_methods lk !! name)) t name g.
Proof.
  split.
  - intros H g Hg%searchMethod_spec. congruence.
  - intros H. destruct (searchMethod pk lk t name) as [g|] eqn:E; [|done]. apply searchMethod_spec in E. by destruct (H g).
Qed.
End lookup.
