(** * C43: the annotation in the source file takes effect on the statement it stands at. *)
From Coq Require Import Ascii String.
From stdpp Require Import base list gmap.
From Verif Require Import GoString ErrorCode SpecSpace SpecCodes SpecDoc SpecDocFormat GoStringProofs DocParser DocParserProofs DocFormatProofs
  CommentText SpecComment PropComment Annotation SpecAnnotation AnnotationProofs Scc GoAst CommentMap SpecLayout PropCommentMap PropAnalyse.
Local Open Scope N_scope.

(** White space around the lines does not matter for annotations, nor do empty lines. *)
Lemma trim_annotation l text : annotation_line (trim_space l) text <-> annotation_line l text.
Proof.
  split; intros H.
  - apply annotation_line_text in H as [H1 H2]. rewrite trim_space_idemp in H1, H2. subst text.
    destruct (annotation_line_model l) as [[_ H]|[H _]]; [done|congruence].
  - apply annotation_line_text in H as [H1 H2]. subst text. rewrite <-(trim_space_idemp l). rewrite <-(trim_space_idemp l) in H1.
    destruct (annotation_line_model (trim_space l)) as [[_ H]|[H _]]; [|congruence]. by rewrite !trim_space_idemp in *.
Qed.
Lemma trim_plain l : plain_comment (trim_space l) <-> plain_comment l.
Proof. unfold plain_comment. split; intros H [text Ht]; apply H; exists text; by apply trim_annotation. Qed.
Lemma trim_lines ls ts : annotation_lines (map trim_space ls) ts <-> annotation_lines ls ts.
Proof.
  split.
  - revert ts. induction ls as [|l ls IH]; intros ts; cbn [map]; inversion 1; subst.
    + constructor.
    + apply al_plain; [by apply trim_plain|auto].
    + apply al_text; [by apply trim_annotation|auto].
  - induction 1; cbn [map].
    + constructor.
    + apply al_plain; [by apply trim_plain|auto].
    + apply al_text; [by apply trim_annotation|auto].
Qed.
Lemma empty_plain l : trim_space l = [] -> plain_comment l.
Proof.
  intros H. destruct (annotation_line_model l) as [[Hp _]|[_ H']]; [|done]. rewrite H in Hp. done.
Qed.
Lemma looking_trim l : empty_looking l -> trim_space l = [].
Proof.
  intros H. apply trim_space_white, whitespace_white. eapply Forall_impl; [exact H|]. intros b Hb. apply is_whitespace_true. cbn in Hb. lia.
Qed.
Lemma tidied_lines b ls ls' : tidied b ls ls' -> forall ts, annotation_lines ls ts -> annotation_lines ls' ts.
Proof.
  induction 1 as [b|b l ls ls' Hl _ IH|l ls ls' Hl _ IH|l ls ls' Hl _ IH]; intros ts Ha; [done|..]; inversion Ha; subst.
  - apply al_plain; [by apply trim_plain|by apply IH].
  - apply al_text; [by apply trim_annotation|by apply IH].
  - apply al_plain; [by apply empty_plain|by apply IH].
  - destruct (empty_plain l (looking_trim _ Hl)). eauto.
  - by apply IH.
  - destruct (empty_plain l (looking_trim _ Hl)). eauto.
Qed.
Lemma tidied_some b ls : exists ls', tidied b ls ls'.
Proof.
  revert b. induction ls as [|l ls IH]; intros b; [eexists; constructor|].
  assert (Decision (empty_looking l)) as Hd by (unfold empty_looking; apply _).
  destruct (decide (empty_looking l)) as [H|H].
  - destruct b; destruct (IH true) as [ls' ?]; eexists; constructor; done.
  - destruct (IH false) as [ls' ?]. eexists. by constructor.
Qed.
Lemma lines_app ls ls' ts ts' : annotation_lines ls ts -> annotation_lines ls' ts' -> annotation_lines (ls ++ ls') (ts ++ ts').
Proof. induction 1; [done|..]; intros; cbn; [apply al_plain|apply al_text]; auto. Qed.

(** What the comments say is what is read as annotations. *)
Lemma group_annotations g parts ts : Forall2 comment_says g parts -> annotation_lines (concat parts) ts ->
  annotation_lines (comment_lines [comment_text g]) ts.
Proof.
  intros Hg Ha. destruct (tidied_some true (concat parts)) as [ls Hls]. destruct (comment_text_lines g ls) as (tail&Ht&E); [by exists parts|].
  unfold comment_lines. cbn [join]. apply trim_lines. change (map trim_space (split_on 10 (comment_text g))) with (doc_lines (comment_text g)).
  rewrite E, <-(app_nil_r ts). apply lines_app; [by eapply tidied_lines|].
  destruct Ht as [-> | ->]; [constructor|]. apply al_plain; [by apply empty_plain|constructor].
Qed.

(** The package is the one whose files are laid out like this: comments of a node are those of createCommentMap. *)
Definition comments_from (pk : package) (files : list source_file) : Prop := forall id, createCommentMap files id = Some (pk_comments pk id).

(** The lines of the comment at a return statement are its annotations (C10 says what their effect is). *)
Theorem C43_effect pk files f c s stmt parts ts :
  (forall f, f ∈ files -> layout f) -> distinct_files files -> comments_from pk files ->
  f ∈ files -> s ∈ sf_nodes f -> sn_id s = node_id stmt -> c ∈ sf_comments f ->
  stands_at f c s -> (forall c', c' ∈ sf_comments f -> c' <> c -> not_at f c' s) ->
  Forall2 comment_says (cg_comments c) parts -> annotation_lines (concat parts) ts -> annotation_texts pk stmt ts.
Proof.
  intros HL Hd Hpk Hf Hs Hid Hc Hat Ho Hsay Ha. unfold annotation_texts. pose proof (C43_annotation files f c s HL Hd Hf Hs Hc Hat Ho) as E.
  rewrite (Hpk (sn_id s)), Hid in E. injection E as ->. by apply (group_annotations _ parts).
Qed.
(** Without a comment nearby there is no annotation. *)
Theorem C43_none pk files f s stmt : (forall f, f ∈ files -> layout f) -> distinct_files files -> comments_from pk files ->
  f ∈ files -> s ∈ sf_nodes f -> sn_id s = node_id stmt -> (forall c, c ∈ sf_comments f -> not_at f c s) -> annotation_texts pk stmt [].
Proof.
  intros HL Hd Hpk Hf Hs Hid Ho. unfold annotation_texts. pose proof (HL f Hf) as L. destruct (C43_once f L) as (m&Hm&E).
  destruct (files_texts files (sn_id s) HL Hd) as (ts&E'&H&_). rewrite (H f m Hf Hm ltac:(eauto)) in E'. rewrite (Hpk (sn_id s)), Hid in E'. injection E' as ->.
  assert (texts_of m (node_id stmt) = []) as ->.
  { unfold texts_of. assert (filter (fun p => p.1 = node_id stmt) m = []) as ->; [|done].
    destruct (filter _ m) as [|[i c] fs] eqn:Ef; [done|]. exfalso.
    assert ((i, c) ∈ filter (fun p => p.1 = node_id stmt) m) as Hx by (rewrite Ef; by left). apply elem_of_list_filter in Hx as [Hi Hin]. cbn in Hi. subst i. rewrite <-Hid in Hin. assert (c ∈ sf_comments f) as Hc by (rewrite <-E; apply elem_of_list_fmap; by exists (sn_id s, c)).
    by apply (C43_not_at f m c s) in Hin; auto. }
  cbn. apply al_plain; [by apply empty_plain|constructor].
Qed.

Print Assumptions C43_effect.
Print Assumptions C43_none.
