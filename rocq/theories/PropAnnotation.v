(** * Theorems: annotations of return statements (C08, C09). *)
From Coq Require Import Ascii String.
From stdpp Require Import base list gmap.
From Verif Require Import GoString ErrorCode Annotation SpecSpace SpecCodes SpecAnnotation
  GoStringProofs ErrorCodeProofs AnnotationProofs.
Local Open Scope N_scope.

(** The annotation the analyzer works with, for each request. *)
Definition as_annotation (q : request) : annotation :=
  match q with
  | Overwrite cs => Annotation true cs ∅ ∅
  | Modify add sub => Annotation false ∅ add sub
  end.

(** ** C08 *)
(** A text is accepted iff it has one of the documented forms, with the documented meaning. *)
Theorem C08_annotation_text : forall text a,
  parse_annotation_line text = inl a <-> exists q, annotation_text text q /\ a = as_annotation q.
Proof. exact parse_annotation_line_spec. Qed.
(** The meaning is unique. *)
Theorem C08_annotation_unique : forall t q q', annotation_text t q -> annotation_text t q' -> q = q'.
Proof. exact annotation_text_fun. Qed.
(** Only valid codes. *)
Theorem C08_annotation_valid : forall t q c, annotation_text t q ->
  c ∈ (match q with Overwrite cs => cs | Modify add sub => add ∪ sub end : codeset) -> valid_code c.
Proof. exact request_valid. Qed.
(** The whole comment: exactly one annotation line is what it says; none is no annotation. *)
Theorem C08_comment : forall groups ts, annotation_lines (comment_lines groups) ts ->
  match ts with
  | [] => getReturnStmtAnnotations groups = (None, [])
  | [t] => (exists q, annotation_text t q /\ getReturnStmtAnnotations groups = (Some (as_annotation q), [])) \/
           ((~ exists q, annotation_text t q) /\ exists d, getReturnStmtAnnotations groups = (None, [d]))
  | _ => (getReturnStmtAnnotations groups).2 <> []
  end.
Proof.
  intros groups [|t [|t' ts]] H.
  - exact (no_annotation groups H).
  - exact (one_annotation groups t H).
  - exact (several_annotations groups t t' ts H).
Qed.
(** Every list of codes, written in the documented form, is read back as exactly that set. *)
Theorem C08_written_lists : forall cs, Forall valid_code cs -> cs <> [] ->
  getReturnStmtAnnotations [str "Error Codes =" ++ [32] ++ join (str ", ") cs] = (Some (Annotation true (list_to_set cs) ∅ ∅), []) /\
  getReturnStmtAnnotations [str "Error Codes +=" ++ [32] ++ join (str ", ") cs] = (Some (Annotation false ∅ (list_to_set cs) ∅), []) /\
  getReturnStmtAnnotations [str "Error Codes -=" ++ [32] ++ join (str ", ") cs] = (Some (Annotation false ∅ ∅ (list_to_set cs)), []).
Proof.
  intros cs HF Hne.
  assert (exists b t, 32 :: join [44; 32] cs = t ++ [b] /\ ascii_nonspace b) as (b&t&Hend&Hb).
  { assert (exists c0, last cs = Some c0) as [c0 Hl] by (destruct (last cs) eqn:E; [eauto|by apply last_None in E]).
    apply last_Some in Hl as [l' ->]. apply Forall_app in HF as [_ HF]. apply Forall_cons in HF as [Hv _].
    assert (exists u, join [44; 32] (l' ++ [c0]) = u ++ c0) as [u Hu].
    { clear. induction l' as [|x l' [u IH]]; [by exists []|]. exists (x ++ [44; 32] ++ u).
      rewrite <-!app_assoc, <-IH. destruct l'; done. }
    rewrite Hu. inversion Hv as [a Ha Heq|a m z Ha Hm Hz Heq].
    - exists a, (32 :: u). split; [done|]. apply alnum_nonspace. left. by left.
    - exists z, (32 :: u ++ a :: m). split; [|apply alnum_nonspace; by left].
      cbn. rewrite <-app_assoc. done. }
  assert (10 ∉ 32 :: join [44; 32] cs) as H10.
  { apply not_elem_of_cons. split; [done|]. apply join_no10; [set_solver|].
    eapply Forall_impl; [exact HF|]. apply valid_no10'. }
  pose proof (written_code_list cs HF) as Hcl.
  split_and!.
  - apply (written_annotation (str "=") (32 :: join [44; 32] cs) (Overwrite (list_to_set cs))); [by apply ann_set|done|by repeat constructor| |].
    + exists b, (61 :: t). split; [|done]. rewrite Hend. done.
    + apply not_elem_of_app. split; [cbn; set_solver|done].
  - apply (written_annotation (str "+=") (32 :: join [44; 32] cs) (Modify (list_to_set cs) ∅)); [by apply ann_add|done|by repeat constructor| |].
    + exists b, (43 :: 61 :: t). split; [|done]. rewrite Hend. done.
    + apply not_elem_of_app. split; [cbn; set_solver|done].
  - apply (written_annotation (str "-=") (32 :: join [44; 32] cs) (Modify ∅ (list_to_set cs))); [by apply ann_sub|done|by repeat constructor| |].
    + exists b, (45 :: 61 :: t). split; [|done]. rewrite Hend. done.
    + apply not_elem_of_app. split; [cbn; set_solver|done].
Qed.
(** Signed codes: [ms] is a list of (is it added?, code). *)
Theorem C08_written_mods : forall ms, Forall (fun m => valid_code m.2) ms -> ms <> [] ->
  getReturnStmtAnnotations [str "Error Codes " ++ join (str " ") (map signed ms)] =
    (Some (Annotation false ∅ (codes_signed true ms) (codes_signed false ms)), []).
Proof.
  intros ms HF Hne.
  assert (exists b t, join [32] (map signed ms) = t ++ [b] /\ ascii_nonspace b) as (b&t&Hend&Hb).
  { assert (exists m0, last ms = Some m0) as [m0 Hl] by (destruct (last ms) eqn:E; [eauto|by apply last_None in E]).
    apply last_Some in Hl as [l' ->]. apply Forall_app in HF as [_ HF]. apply Forall_cons in HF as [Hv _].
    assert (exists u, join [32] (map signed (l' ++ [m0])) = u ++ signed m0) as [u Hu].
    { clear. induction l' as [|x l' [u IH]]; [by exists []|]. exists (signed x ++ [32] ++ u).
      rewrite <-!app_assoc, <-IH. destruct l'; done. }
    rewrite Hu. unfold signed. inversion Hv as [a Ha Heq|a m z Ha Hm Hz Heq].
    - exists a, (u ++ [if m0.1 then 43 else 45]). split; [by rewrite <-app_assoc|]. apply alnum_nonspace. left. by left.
    - exists z, (u ++ (if m0.1 then 43 else 45) :: a :: m). split; [|apply alnum_nonspace; by left].
      rewrite <-app_assoc. done. }
  assert (10 ∉ join [32] (map signed ms)) as H10.
  { apply join_no10; [set_solver|]. clear -HF. induction HF as [|m ms Hv HF IH]; [constructor|].
    constructor; [|done]. unfold signed. apply not_elem_of_cons. split; [by destruct m.1|by apply valid_no10']. }
  assert (exists sg rest, join [32] (map signed ms) = sg :: rest /\ (sg = 43 \/ sg = 45)) as (sg&rest&Hj&Hsg).
  { destruct ms as [|m [|m' ms]]; [done| |]; cbn; eexists _, _; (split; [reflexivity|]);
    destruct m.1; [by left|by right|by left|by right]. }
  pose proof (written_annotation [sg] rest (Modify (codes_signed true ms) (codes_signed false ms))) as H.
  change (str " ") with [32]. rewrite Hj. apply H.
  - apply ann_mod.
    + cbn. rewrite <-Hj. exists (map signed ms). split; [done|]. by apply written_mods.
    + exists rest. destruct Hsg as [->| ->]; [by left|by right].
  - done.
  - constructor; [|constructor]. by destruct Hsg as [->| ->].
  - exists b, t. cbn. rewrite <-Hj. done.
  - cbn. by rewrite <-Hj.
Qed.
Example C08_nonvacuous :
  match getReturnStmtAnnotations [str "some text"; str "Error Codes = a-1, b"] with
  | (Some a, []) => bool_decide (an_overwrite a = {[str "b"; str "a-1"]}) && an_shouldOverwrite a
  | _ => false
  end = true.
Proof. vm_compute. reflexivity. Qed.
(** The doc comment of the parser (annotation.go 33) shows signed codes separated by commas; that
    form is not accepted. *)
Theorem C08_signed_commas_refuted :
  ~ (forall a b, valid_code a -> valid_code b -> exists an,
       getReturnStmtAnnotations [str "Error Codes -" ++ a ++ str ", +" ++ b] = (Some an, [])).
Proof.
  intros H. destruct (H (str "a") (str "b")) as [an Han]; [apply isErrorCodeValid_correct; reflexivity..|].
  vm_compute in Han. discriminate.
Qed.

(** ** C09 *)
(** A malformed annotation line (even among well-formed ones) is reported and leaves the statement
    without any annotation. *)
Theorem C09_malformed_reported : forall groups ts, annotation_lines (comment_lines groups) ts ->
  (exists t, t ∈ ts /\ ~ exists q, annotation_text t q) ->
  (getReturnStmtAnnotations groups).1 = None /\ (getReturnStmtAnnotations groups).2 <> [].
Proof. exact malformed_annotation. Qed.
(** Comments without annotation line: no diagnostic, no annotation. *)
Theorem C09_plain_comments : forall groups, Forall plain_comment (comment_lines groups) ->
  getReturnStmtAnnotations groups = (None, []).
Proof.
  intros groups H. apply no_annotation. induction H; [constructor|]. by constructor.
Qed.
(** Two or more annotation lines are always reported. *)
Theorem C09_multiple_reported : forall groups t t' ts, annotation_lines (comment_lines groups) (t :: t' :: ts) ->
  (getReturnStmtAnnotations groups).2 <> [].
Proof. exact several_annotations. Qed.
(** Every comment has a decomposition into plain and annotation lines, so the cases are exhaustive. *)
Theorem C09_exhaustive : forall groups, exists ts, annotation_lines (comment_lines groups) ts.
Proof. intros. apply annotation_lines_total. Qed.
(** What is in effect and what is reported, exactly: the comments are read as specified ([annotated], SpecAnnotation). *)
Theorem C09_exact : forall groups q ds,
  getReturnStmtAnnotations groups = (as_annotation <$> q, ds) <-> annotated groups q ds.
Proof.
  intros groups q ds. rewrite annotated_spec. assert (forall q, as_annotation q = request_annotation q) as H by by intros [].
  destruct q; cbn; by rewrite ?H.
Qed.
Theorem C09_reading : forall groups, exists q ds, annotated groups q ds /\
  forall q' ds', annotated groups q' ds' -> q' = q /\ ds' = ds.
Proof.
  intros groups. destruct (annotated_model groups) as (q&ds&H&_). exists q, ds. split; [done|].
  intros q' ds' H'. by apply (annotated_fun groups).
Qed.
(** A text is well-formed or it is wrong in exactly one way. *)
Theorem C09_wrong : forall text d, parse_annotation_line text = inr d <-> wrong_text text d.
Proof. exact wrong_text_spec. Qed.
Theorem C09_right_or_wrong : forall text,
  ((exists q, annotation_text text q) /\ forall d, ~ wrong_text text d) \/
  ((~ exists q, annotation_text text q) /\ exists d, wrong_text text d /\ forall d', wrong_text text d' -> d' = d).
Proof.
  intros text. destruct (parse_annotation_line text) as [a|d] eqn:E.
  - left. apply parse_annotation_line_spec in E as (q&Hq&_). split; [eauto|]. intros d Hd. by eapply wrong_not_right.
  - right. apply wrong_text_spec in E. split; [intros [q Hq]; by eapply wrong_not_right|].
    exists d. split; [done|]. intros d' Hd'. by eapply wrong_text_fun.
Qed.
Example C09_nonvacuous :
  getReturnStmtAnnotations [str "Error Codes a, b"] = (None, [AnnExpectedOperator]) /\
  getReturnStmtAnnotations [str "Error Codes = a b"] = (None, [AnnInvalidCode]) /\
  (getReturnStmtAnnotations [str "Error Codes = a"; str "Error Codes = b"]).2 = [AnnMultiple].
Proof. split_and!; vm_compute; reflexivity. Qed.

Print Assumptions C08_annotation_text.
Print Assumptions C08_annotation_unique.
Print Assumptions C08_annotation_valid.
Print Assumptions C08_comment.
Print Assumptions C08_written_lists.
Print Assumptions C08_written_mods.
Print Assumptions C08_signed_commas_refuted.
Print Assumptions C09_malformed_reported.
Print Assumptions C09_plain_comments.
Print Assumptions C09_multiple_reported.
Print Assumptions C09_exhaustive.
Print Assumptions C09_exact.
Print Assumptions C09_reading.
Print Assumptions C09_wrong.
Print Assumptions C09_right_or_wrong.
