(** * Proofs about code sets and the mismatch message. *)
From Coq Require Import Ascii String.
From stdpp Require Import base list gmap sorting sets.
From Verif Require Import GoString ErrorCode SpecCodes ErrorCodeProofs GoStringProofs CodeSet.
Local Open Scope N_scope.

Lemma order_of_elem s o v : order_of s o -> v ∈ o <-> v ∈ s.
Proof. intros H. unfold order_of in H. by rewrite H, elem_of_elements. Qed.
Lemma order_of_nodup s o : order_of s o -> NoDup o.
Proof. intros H. unfold order_of in H. rewrite H. apply NoDup_elements. Qed.
Lemma foldl_add s o v : v ∈ foldl code_add s o <-> v ∈ s \/ v ∈ o.
Proof.
  revert s. induction o as [|a o IH]; intros s; cbn; [rewrite elem_of_nil; tauto|].
  rewrite IH, elem_of_cons. unfold code_add. set_solver.
Qed.
Lemma code_slice_eq o : code_slice o = o.
Proof.
  unfold code_slice. assert (forall (l acc : list gostring), foldl (fun slice value => slice ++ [value]) acc l = acc ++ l) as H.
  { induction l as [|a l IH]; intros acc; cbn; [by rewrite app_nil_r|]. by rewrite IH, <-app_assoc. }
  by rewrite H.
Qed.
Lemma code_difference_elem o sub v : v ∈ code_difference o sub <-> v ∈ o /\ v ∉ sub.
Proof.
  unfold code_difference.
  assert (forall l (acc : codeset), v ∈ foldl (fun diff value => if decide (value ∈ sub) then diff else code_add diff value) acc l
     <-> v ∈ acc \/ v ∈ l /\ v ∉ sub) as H.
  { induction l as [|a l IH]; intros acc; cbn; [rewrite elem_of_nil; tauto|].
    rewrite IH, elem_of_cons. case_decide; unfold code_add; [naive_solver|]. rewrite elem_of_union, elem_of_singleton. naive_solver. }
  rewrite H. set_solver.
Qed.
Lemma code_union_set s1 s2 o1 o2 : order_of s1 o1 -> order_of s2 o2 -> code_union o1 o2 = s1 ∪ s2.
Proof.
  intros H1 H2. apply set_eq. intros v. unfold code_union. rewrite !foldl_add, (order_of_elem _ _ _ H1), (order_of_elem _ _ _ H2).
  set_solver.
Qed.
Lemma code_difference_set s o sub : order_of s o -> code_difference o sub = s ∖ sub.
Proof.
  intros H. apply set_eq. intros v. rewrite code_difference_elem, (order_of_elem _ _ _ H). set_solver.
Qed.
Lemma slice_to_set_elem l v : v ∈ slice_to_set l <-> v ∈ l.
Proof. unfold slice_to_set. rewrite foldl_add. set_solver. Qed.

(** ** Sorting *)
Global Instance str_le_total : Total str_le.
Proof.
  intros a. induction a as [|x a IH]; intros [|y b]; unfold str_le; cbn; [by left|by left|by right|].
  destruct (IH b) as [H|H]; unfold str_le in H; rewrite H;
    destruct (N.ltb_spec x y), (N.eqb_spec x y), (N.ltb_spec y x), (N.eqb_spec y x); cbn; try (by left); try (by right); try lia.
Qed.
Global Instance str_le_trans : Transitive str_le.
Proof.
  intros a. induction a as [|x a IH]; intros [|y b] [|z c]; unfold str_le; cbn; try done.
  rewrite !orb_true_iff, !andb_true_iff, !N.ltb_lt, !N.eqb_eq.
  intros [?|[-> H1]] [?|[-> H2]]; [left; lia|left; lia|left; lia|]. right. split; [done|]. by eapply IH.
Qed.
Global Instance str_le_antisym : AntiSymm (=) str_le.
Proof.
  intros a. induction a as [|x a IH]; intros [|y b]; unfold str_le; cbn; try done.
  rewrite !orb_true_iff, !andb_true_iff, !N.ltb_lt, !N.eqb_eq.
  intros [?|[-> H1]] [?|[E H2]]; try lia. f_equal. by apply IH.
Qed.
Lemma sort_strings_perm l : sort_strings l ≡ₚ l.
Proof. apply merge_sort_Permutation. Qed.
Lemma sort_strings_sorted l : StronglySorted str_le (sort_strings l).
Proof. apply StronglySorted_merge_sort; apply _. Qed.
(** Any sorted permutation is the one [sort_strings] computes. *)
Lemma sort_strings_unique l l' : l' ≡ₚ l -> StronglySorted str_le l' -> sort_strings l = l'.
Proof.
  intros Hp Hs. apply (StronglySorted_unique str_le); [apply sort_strings_sorted|done|].
  by rewrite sort_strings_perm.
Qed.

(** ** Messages *)
Lemma app_sep_unique (c : N) (l1 l2 r1 r2 : list N) : c ∉ l1 -> c ∉ l2 ->
  l1 ++ c :: r1 = l2 ++ c :: r2 -> l1 = l2 /\ r1 = r2.
Proof.
  revert l2. induction l1 as [|a l1 IH]; intros [|b l2] H1 H2 Heq; cbn in Heq.
  - by injection Heq as ->.
  - injection Heq as -> _. set_solver.
  - injection Heq as -> _. set_solver.
  - injection Heq as -> Heq. destruct (IH l2) as [-> ->]; [set_solver|set_solver|done|done].
Qed.
Lemma join_inj l1 l2 : Forall valid_code l1 -> Forall valid_code l2 -> l1 <> [] -> l2 <> [] ->
  join (str " ") l1 = join (str " ") l2 -> l1 = l2.
Proof.
  intros H1 H2 N1 N2 E.
  assert (forall l, Forall valid_code l -> Forall (fun s => 32 ∉ s) l) as Hv.
  { intros l Hl. eapply Forall_impl; [exact Hl|]. intros s Hs. apply (valid_code_no_char s 32 Hs). unfold alnum, letter. lia. }
  rewrite <-(split_on_join 32 l1), <-(split_on_join 32 l2) by auto.
  change [32] with (str " "). by rewrite E.
Qed.
Lemma join_no_char l c : Forall valid_code l -> ~ (alnum c \/ c = 45) -> c <> 32 -> c ∉ join (str " ") l.
Proof.
  intros Hl Hc Hs. induction l as [|s l IH]; [apply not_elem_of_nil|].
  apply Forall_cons in Hl as [H1 H2]. specialize (IH H2). pose proof (valid_code_no_char s c H1 Hc).
  destruct l as [|s2 l]; [done|]. change (c ∉ s ++ str " " ++ join (str " ") (s2 :: l)). rewrite !not_elem_of_app. split_and!; [done| |done].
  change (str " ") with [32]. by rewrite elem_of_list_singleton.
Qed.
