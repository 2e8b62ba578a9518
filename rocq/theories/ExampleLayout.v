(** * C43 on a concrete file: comments above, behind, and behind the last statement of a case clause (data printed by tools/example_layout.py). *)
From Coq Require Import Ascii String.
From stdpp Require Import base list gmap.
From Verif Require Import GoString SpecSpace SpecCodes SpecDocFormat GoStringProofs CommentText SpecComment SpecAnnotation AnnotationProofs Scc GoAst CommentMap SpecLayout PropCommentMap PropAnnotationComment.
Local Open Scope N_scope.

(** The file
<<
 1  package p
 2
 3  func f(x int) error {
 4      switch x {
 5      case 1:
 6          // Error Codes = a-one
 7          return g(1)
 8      case 2:
 9          return g(2) // Error Codes = a-two
10      }
11      return g(3) // Error Codes = a-three
12  }
>> *)
Definition ly_nodes : list snode := [
  SNode 1 (Place 0 1) (Place 181 12) true;
  SNode 2 (Place 8 1) (Place 9 1) false;
  SNode 3 (Place 11 3) (Place 181 12) true;
  SNode 4 (Place 16 3) (Place 17 3) false;
  SNode 5 (Place 11 3) (Place 30 3) false;
  SNode 6 (Place 17 3) (Place 24 3) false;
  SNode 7 (Place 18 3) (Place 23 3) true;
  SNode 8 (Place 18 3) (Place 19 3) false;
  SNode 9 (Place 20 3) (Place 23 3) false;
  SNode 10 (Place 25 3) (Place 30 3) false;
  SNode 11 (Place 25 3) (Place 30 3) true;
  SNode 12 (Place 25 3) (Place 30 3) false;
  SNode 13 (Place 31 3) (Place 181 12) true;
  SNode 14 (Place 34 4) (Place 141 10) true;
  SNode 15 (Place 41 4) (Place 42 4) false;
  SNode 16 (Place 43 4) (Place 141 10) true;
  SNode 17 (Place 46 5) (Place 92 7) true;
  SNode 18 (Place 51 5) (Place 52 5) false;
  SNode 19 (Place 81 7) (Place 92 7) true;
  SNode 20 (Place 88 7) (Place 92 7) false;
  SNode 21 (Place 88 7) (Place 89 7) false;
  SNode 22 (Place 90 7) (Place 91 7) false;
  SNode 23 (Place 94 8) (Place 115 9) true;
  SNode 24 (Place 99 8) (Place 100 8) false;
  SNode 25 (Place 104 9) (Place 115 9) true;
  SNode 26 (Place 111 9) (Place 115 9) false;
  SNode 27 (Place 111 9) (Place 112 9) false;
  SNode 28 (Place 113 9) (Place 114 9) false;
  SNode 29 (Place 143 11) (Place 154 11) true;
  SNode 30 (Place 150 11) (Place 154 11) false;
  SNode 31 (Place 150 11) (Place 151 11) false;
  SNode 32 (Place 152 11) (Place 153 11) false].
Definition ly_comments : list cgroup := [
  CGroup (Place 56 6) (Place 78 6) [str "// Error Codes = a-one"];
  CGroup (Place 116 9) (Place 138 9) [str "// Error Codes = a-two"];
  CGroup (Place 155 11) (Place 179 11) [str "// Error Codes = a-three"]].

Definition ly_file : source_file := SourceFile ly_nodes ly_comments.

(** ** Deciding the layout conditions *)
Fixpoint splits {A} (pre l : list A) : list (list A * A * list A) :=
  match l with [] => [] | x :: l' => (pre, x, l') :: splits (pre ++ [x]) l' end.
Lemma splits_in {A} (l pre0 pre : list A) x post : l = pre ++ x :: post -> (pre0 ++ pre, x, post) ∈ splits pre0 l.
Proof.
  revert pre0 pre. induction l as [|y l IH]; intros pre0 pre E; [by destruct pre|]. destruct pre as [|z pre]; cbn in E; injection E as -> E; cbn [splits].
  - subst l. rewrite app_nil_r. by left.
  - right. replace (pre0 ++ z :: pre) with ((pre0 ++ [z]) ++ pre) by (by rewrite <-app_assoc). by apply IH.
Qed.
Lemma splits_eq {A} (l pre0 pre : list A) x post : (pre, x, post) ∈ splits pre0 l -> pre0 ++ l = pre ++ x :: post.
Proof.
  revert pre0. induction l as [|y l IH]; intros pre0; cbn [splits]; [by intros ?%elem_of_nil|]. intros [[= <- <- <-]|H]%elem_of_cons; [done|].
  apply IH in H. by rewrite <-H, <-app_assoc.
Qed.
Definition layoutb (f : source_file) : bool :=
  forallb (fun '(pre, s, _) => negb (sn_group s) || forallb (fun n => (p_off (sn_start n) <=? p_off (sn_start s)) &&
    (negb (sn_group n) || (p_off (sn_end s) <=? p_off (sn_end n)) || (p_off (sn_end n) <=? p_off (sn_start s)))) pre) (splits [] (sf_nodes f)) &&
  forallb (fun n => p_off (sn_start n) <=? p_off (sn_end n)) (sf_nodes f) &&
  forallb (fun '(pre, c', _) => (p_off (cg_start c') <? p_off (cg_end c')) && forallb (fun c => p_off (cg_end c) <=? p_off (cg_start c')) pre) (splits [] (sf_comments f)) &&
  bool_decide (NoDup (sn_id <$> sf_nodes f)) && bool_decide (sf_nodes f <> []).
Lemma forallb_in {A} (P : A -> bool) l x : forallb P l = true -> x ∈ l -> P x = true.
Proof. intros H Hx. apply (proj1 (forallb_forall P l) H), elem_of_list_In, Hx. Qed.
Lemma layoutb_spec f : layoutb f = true -> layout f.
Proof.
  unfold layoutb. intros H. apply andb_prop in H as [H H5]. apply andb_prop in H as [H H4]. apply andb_prop in H as [H H3]. apply andb_prop in H as [H1 H2].
  split.
  - intros pre s post n E Hs Hn. apply (splits_in _ []) in E. pose proof (forallb_in _ _ _ H1 E) as Hb. cbn in Hb. rewrite Hs in Hb. cbn in Hb.
    pose proof (forallb_in _ _ _ Hb Hn) as Hc. cbn in Hc. apply andb_prop in Hc as [Hc _]. by apply N.leb_le.
  - intros pre g mid s post E Hg Hs. replace (pre ++ g :: mid ++ s :: post) with ((pre ++ g :: mid) ++ s :: post) in E by (by rewrite <-app_assoc).
    apply (splits_in _ []) in E. pose proof (forallb_in _ _ _ H1 E) as Hb. cbn [app] in Hb. cbv beta iota in Hb. rewrite Hs in Hb. cbn [negb orb] in Hb.
    pose proof (forallb_in _ _ g Hb ltac:(set_solver)) as Hc. cbv beta in Hc. rewrite Hg in Hc. cbn [negb orb] in Hc. apply andb_prop in Hc as [_ Hc].
    apply orb_prop in Hc as [Hc|Hc]; [left|right]; by apply N.leb_le.
  - intros n Hn. apply N.leb_le. apply (forallb_in _ _ _ H2 Hn).
  - intros c Hc. apply elem_of_list_split in Hc as (pre&post&E). apply (splits_in _ []) in E.
    pose proof (forallb_in _ _ _ H3 E) as Hb. cbv beta iota in Hb. apply andb_prop in Hb as [Hb _]. by apply N.ltb_lt.
  - intros pre c mid c' post E. replace (pre ++ c :: mid ++ c' :: post) with ((pre ++ c :: mid) ++ c' :: post) in E by (by rewrite <-app_assoc).
    apply (splits_in _ []) in E. pose proof (forallb_in _ _ _ H3 E) as Hb. cbv beta iota in Hb. apply andb_prop in Hb as [_ Hb].
    pose proof (forallb_in _ _ c Hb ltac:(set_solver)) as Hc. by apply N.leb_le.
  - by apply bool_decide_eq_true in H4.
  - by apply bool_decide_eq_true in H5.
Qed.
Definition next_nodeb (f : source_file) (c : cgroup) (s : snode) : bool :=
  existsb (fun '(pre, x, _) => bool_decide (x = s) && (p_off (cg_end c) <=? p_off (sn_start s)) &&
    forallb (fun n => p_off (sn_start n) <? p_off (cg_end c)) pre) (splits [] (sf_nodes f)).
Lemma next_nodeb_spec f c s : next_nodeb f c s = true <-> next_node f c s.
Proof.
  unfold next_nodeb, next_node. rewrite existsb_exists. split.
  - intros ([[pre x] post]&Hin&H). apply elem_of_list_In in Hin. apply splits_eq in Hin. cbn in Hin. apply andb_prop in H as [H H3]. apply andb_prop in H as [H1 H2].
    apply bool_decide_eq_true in H1. subst x. exists pre, post. split_and!; [done|by apply N.leb_le|].
    intros n Hn. apply N.ltb_lt. apply (forallb_in _ _ _ H3 Hn).
  - intros (pre&post&E&H1&H2). exists (pre, s, post). apply (splits_in _ []) in E. split; [by apply elem_of_list_In|].
    rewrite bool_decide_eq_true_2 by done. apply N.leb_le in H1. rewrite H1. cbn. apply forallb_forall. intros n Hn. apply N.ltb_lt, H2. by apply elem_of_list_In.
Qed.
Definition directly_aboveb f c s : bool :=
  next_nodeb f c s && forallb (fun n => negb (p_line (sn_end n) =? p_line (cg_start c))) (sf_nodes f) && (p_line (sn_start s) <=? p_line (cg_end c) + 1).
Lemma directly_aboveb_spec f c s : directly_aboveb f c s = true -> directly_above f c s.
Proof.
  unfold directly_aboveb. intros H. apply andb_prop in H as [H H3]. apply andb_prop in H as [H1 H2]. split_and!; [by apply next_nodeb_spec| |by apply N.leb_le].
  intros n Hn. pose proof (forallb_in _ _ _ H2 Hn) as Hb. cbv beta in Hb. apply negb_true_iff in Hb. by apply N.eqb_neq.
Qed.
Global Instance cgroup_eq_dec : EqDecision cgroup.
Proof. assert (EqDecision place) by solve_decision. assert (EqDecision gostring) by apply _. solve_decision. Defined.
Definition behindb f c s : bool :=
  bool_decide (s ∈ sf_nodes f) && sn_group s && (p_off (sn_end s) <=? p_off (cg_start c)) && (p_line (sn_end s) =? p_line (cg_start c)) &&
  forallb (fun n => negb (sn_group n) || bool_decide (n = s) || negb ((p_off (sn_end s) <=? p_off (sn_start n)) && (p_off (sn_start n) <? p_off (cg_end c)))) (sf_nodes f) &&
  forallb (fun c' => bool_decide (c' = c) || negb ((p_off (sn_end s) <=? p_off (cg_start c')) && (p_off (cg_start c') <=? p_off (cg_start c)))) (sf_comments f).
Lemma behindb_spec f c s : behindb f c s = true -> behind f c s.
Proof.
  unfold behindb. intros H. apply andb_prop in H as [H H6]. apply andb_prop in H as [H H5]. apply andb_prop in H as [H H4]. apply andb_prop in H as [H H3].
  apply andb_prop in H as [H1 H2]. split_and!; [by apply bool_decide_eq_true in H1|done|by apply N.leb_le|by apply N.eqb_eq| |].
  - intros n Hn Hg Hne [Ha Hb]. pose proof (forallb_in _ _ _ H5 Hn) as Hx. cbv beta in Hx. rewrite Hg in Hx.
    rewrite bool_decide_eq_false_2 in Hx by done. apply N.leb_le in Ha. apply N.ltb_lt in Hb. by rewrite Ha, Hb in Hx.
  - intros n Hn Hne [Ha Hb]. pose proof (forallb_in _ _ _ H6 Hn) as Hx. cbv beta in Hx.
    rewrite bool_decide_eq_false_2 in Hx by done. apply N.leb_le in Ha, Hb. by rewrite Ha, Hb in Hx.
Qed.
Definition outermostb f c s : bool :=
  forallb (fun '(pre, x, _) => negb (bool_decide (x = s)) ||
    forallb (fun g => negb (sn_group g) || negb (p_off (sn_end s) <=? p_off (sn_end g)) || (p_off (cg_start c) <? p_off (sn_end g))) pre) (splits [] (sf_nodes f)).
Lemma outermostb_spec f c s : outermostb f c s = true -> outermost f c s.
Proof.
  intros H g pre mid post E Hg He. replace (pre ++ g :: mid ++ s :: post) with ((pre ++ g :: mid) ++ s :: post) in E by (by rewrite <-app_assoc).
  apply (splits_in _ []) in E. pose proof (forallb_in _ _ _ H E) as Hb. cbv beta iota in Hb. rewrite bool_decide_eq_true_2 in Hb by done. cbn [negb orb] in Hb.
  pose proof (forallb_in _ _ g Hb ltac:(set_solver)) as Hc. cbv beta in Hc. rewrite Hg in Hc. apply N.leb_le in He. rewrite He in Hc. by apply N.ltb_lt.
Qed.
Definition elsewhereb f c s : bool :=
  negb (next_nodeb f c s) && negb (p_line (cg_start c) =? p_line (sn_end s)) && negb (p_line (cg_start c) =? p_line (sn_end s) + 1) && bool_decide (last (sf_nodes f) <> Some s).
Lemma elsewhereb_spec f c s : elsewhereb f c s = true -> elsewhere f c s.
Proof.
  unfold elsewhereb. intros H. apply andb_prop in H as [H H4]. apply andb_prop in H as [H H3]. apply andb_prop in H as [H1 H2]. apply negb_true_iff in H1, H2, H3.
  apply bool_decide_eq_true in H4. apply N.eqb_neq in H2, H3. split_and!; try done. intros Hn. apply next_nodeb_spec in Hn. congruence.
Qed.

(** ** The example *)
Lemma ly_layout : layout ly_file.
Proof. apply layoutb_spec. vm_compute. reflexivity. Qed.
Lemma ly_distinct : distinct_files [ly_file].
Proof.
  intros pre f mid g post n n' E. apply (f_equal length) in E. rewrite app_length in E. cbn [length] in E. rewrite app_length in E. cbn [length] in E. lia.
Qed.

(** The statement with this identity, and the comment with this number. *)
Definition ly_node (i : nat) : snode := List.nth (i - 1)%nat ly_nodes (SNode 0 (Place 0 0) (Place 0 0) false).
Definition ly_comment (i : nat) : cgroup := List.nth i ly_comments (CGroup (Place 0 0) (Place 0 0) []).
Definition stands_atb f c s : bool := directly_aboveb f c s || (behindb f c s && outermostb f c s).
Lemma stands_atb_spec f c s : stands_atb f c s = true -> stands_at f c s.
Proof.
  intros H. apply orb_prop in H as [H|H]; [left; by apply directly_aboveb_spec|]. apply andb_prop in H as [? ?]. right. split; [by apply behindb_spec|by apply outermostb_spec].
Qed.
Definition not_atb f c s : bool := elsewhereb f c s || existsb (fun s' => bool_decide (s' <> s) && stands_atb f c s') (sf_nodes f).
Lemma not_atb_spec f c s : not_atb f c s = true -> not_at f c s.
Proof.
  intros H. apply orb_prop in H as [H|H]; [left; by apply elsewhereb_spec|]. apply existsb_exists in H as (s'&Hs'&H). apply andb_prop in H as [H1 H2].
  apply bool_decide_eq_true in H1. right. exists s'. split_and!; [by apply elem_of_list_In|done|by apply stands_atb_spec].
Qed.
Definition at_stmt (c : cgroup) (s : snode) : bool :=
  stands_atb ly_file c s && bool_decide (s ∈ ly_nodes) && bool_decide (c ∈ ly_comments) &&
  forallb (fun c' => bool_decide (c' = c) || not_atb ly_file c' s) ly_comments.
Lemma at_stmt_spec c s : at_stmt c s = true -> s ∈ sf_nodes ly_file /\ c ∈ sf_comments ly_file /\
  stands_at ly_file c s /\ (forall c', c' ∈ sf_comments ly_file -> c' <> c -> not_at ly_file c' s).
Proof.
  unfold at_stmt. intros H. apply andb_prop in H as [H H4]. apply andb_prop in H as [H H3]. apply andb_prop in H as [H1 H2].
  apply bool_decide_eq_true in H2, H3. split_and!; [done|done|by apply stands_atb_spec|].
  intros c' Hc' Hne. pose proof (forallb_in _ _ _ H4 Hc') as Hb. cbv beta in Hb. rewrite bool_decide_eq_false_2 in Hb by done. by apply not_atb_spec.
Qed.

(** Line 7, comment above; line 11, comment behind: the hypotheses of C43_annotation, C43_effect hold, and this is the annotation. *)
Theorem C43_example : layout ly_file /\ distinct_files [ly_file] /\
  forall i s, (i, s) ∈ [(0%nat, 19%nat); (2%nat, 29%nat)] -> 
    ly_node s ∈ sf_nodes ly_file /\ ly_comment i ∈ sf_comments ly_file /\
    stands_at ly_file (ly_comment i) (ly_node s) /\
    (forall c', c' ∈ sf_comments ly_file -> c' <> ly_comment i -> not_at ly_file c' (ly_node s)).
Proof.
  split_and!; [exact ly_layout|exact ly_distinct|]. intros i s [[= -> ->]|[[= -> ->]|H]%elem_of_cons]%elem_of_cons; [..|by apply elem_of_nil in H];
    apply at_stmt_spec; vm_compute; reflexivity.
Qed.
Theorem C43_example_texts : createCommentMap [ly_file] 19 = Some [str "Error Codes = a-one" ++ [10]] /\ createCommentMap [ly_file] 29 = Some [str "Error Codes = a-three" ++ [10]].
Proof. vm_compute. split; reflexivity. Qed.
(** What the comment on line 6 says (the last hypotheses of C43_effect). *)
Theorem C43_example_says : Forall2 comment_says (cg_comments (ly_comment 0)) [[str " Error Codes = a-one"]] /\
  annotation_lines (concat [[str " Error Codes = a-one"]]) [str "= a-one"].
Proof.
  split.
  - constructor; [|constructor]. apply (says_line (str " Error Codes = a-one")).
    + unfold one_line. apply (bool_decide_unpack _). vm_compute. exact Logic.I.
    + intros [[t E]|(w&x&rest&E&Hw&Hf&_)]; [vm_compute in E; discriminate|]. destruct w as [|b w]; [done|].
      assert (b = 32) as -> by (vm_compute in E; by injection E). apply Forall_cons in Hf as [Hf _]. unfold word_char in Hf. lia.
  - apply al_text; [|constructor]. destruct (annotation_line_model (str " Error Codes = a-one")) as [[_ H]|[H _]]; [exact H|vm_compute in H; discriminate].
Qed.

(** Line 9: the comment is behind the return statement (25), but also behind the case clause (23), which ends with it.  go/ast associates it with the clause,
    so the annotation a reader attributes to the return statement is not seen: "the comment behind a return statement is its annotation" fails without
    the hypothesis [outermost]. *)
Theorem C43_refuted_case : behind ly_file (ly_comment 1) (ly_node 25) /\ (forall c', c' ∈ sf_comments ly_file -> c' <> ly_comment 1 -> not_at ly_file c' (ly_node 25)) /\
  behind ly_file (ly_comment 1) (ly_node 23) /\ outermost ly_file (ly_comment 1) (ly_node 23) /\
  createCommentMap [ly_file] 25 = Some [] /\ createCommentMap [ly_file] 23 = Some [str "Error Codes = a-two" ++ [10]].
Proof.
  split_and!; [apply behindb_spec; vm_compute; reflexivity| |apply behindb_spec; vm_compute; reflexivity|apply outermostb_spec; vm_compute; reflexivity|vm_compute; reflexivity..].
  intros c' Hc' Hne. assert (forallb (fun c' => bool_decide (c' = ly_comment 1) || not_atb ly_file c' (ly_node 25)) ly_comments = true) as Hb by (vm_compute; reflexivity).
  pose proof (forallb_in _ _ _ Hb Hc') as Hx. cbv beta in Hx. rewrite bool_decide_eq_false_2 in Hx by done. by apply not_atb_spec.
Qed.

Print Assumptions C43_example.
Print Assumptions C43_refuted_case.
