(** * C11, C12: code set algebra; the mismatch report. *)
From Coq Require Import Ascii String.
From stdpp Require Import base list gmap sorting sets.
From Verif Require Import GoString ErrorCode SpecCodes ErrorCodeProofs GoStringProofs CodeSet CodeSetProofs.
Local Open Scope N_scope.

(** ** C11.  Whatever the iteration orders. *)
Theorem C11_union s1 s2 o1 o2 : order_of s1 o1 -> order_of s2 o2 ->
  forall v, v ∈ code_union o1 o2 <-> v ∈ s1 \/ v ∈ s2.
Proof. intros H1 H2 v. rewrite (code_union_set _ _ _ _ H1 H2). set_solver. Qed.
Theorem C11_difference s o subtrahend : order_of s o ->
  forall v, v ∈ code_difference o subtrahend <-> v ∈ s /\ v ∉ subtrahend.
Proof. intros H v. rewrite (code_difference_set _ _ _ H). set_solver. Qed.
Theorem C11_slice_to_set l v : v ∈ slice_to_set l <-> v ∈ l.
Proof. apply slice_to_set_elem. Qed.
Theorem C11_add s v w : w ∈ code_add s v <-> w = v \/ w ∈ s.
Proof. unfold code_add. set_solver. Qed.
Theorem C11_slice s o : order_of s o -> NoDup (code_slice o) /\ forall v, v ∈ code_slice o <-> v ∈ s.
Proof. intros H. rewrite code_slice_eq. split; [by eapply order_of_nodup|]. intros v. by apply order_of_elem. Qed.
(** Every set has an iteration order, and Slice followed by SliceToSet gives the set back. *)
Theorem C11_slice_round_trip s o : order_of s o -> slice_to_set (code_slice o) = s.
Proof. intros H. apply set_eq. intros v. rewrite C11_slice_to_set, code_slice_eq. by apply order_of_elem. Qed.

(** ** C12 *)
(** [l] lists exactly the elements of [s], in increasing byte order, each once. *)
Definition listing (l : list gostring) (s : codeset) : Prop :=
  NoDup l /\ StronglySorted str_le l /\ forall v, v ∈ l <-> v ∈ s.

Definition expected_message (name : gostring) (missing unused : list gostring) : gostring :=
  str "function """ ++ name ++ str """ has a mismatch of declared and actual error codes: " ++
  match missing, unused with
  | _ :: _, [] => str "missing codes: [" ++ join (str " ") missing ++ str "]"
  | [], _ => str "unused codes: [" ++ join (str " ") unused ++ str "]"
  | _, _ => str "missing codes: [" ++ join (str " ") missing ++ str "] unused codes: [" ++ join (str " ") unused ++ str "]"
  end.

Lemma listing_exists (s : codeset) o : order_of s o -> listing (sort_strings (code_slice o)) s.
Proof.
  intros H. rewrite code_slice_eq. split_and!.
  - rewrite sort_strings_perm. by eapply order_of_nodup.
  - apply sort_strings_sorted.
  - intros v. rewrite sort_strings_perm. by apply order_of_elem.
Qed.
Lemma listing_unique l l' s : listing l s -> listing l' s -> l = l'.
Proof.
  intros (N1&S1&E1) (N2&S2&E2). apply (StronglySorted_unique str_le); [done|done|].
  apply NoDup_Permutation; [done|done|]. intros v. by rewrite E1, E2.
Qed.

(** A report is made iff the sets differ, and it lists the differences, for every iteration order. *)
Theorem C12_mismatch_report name found claimed o : match_orders_ok found claimed o ->
  (found = claimed -> reportIfCodesDoNotMatch name o = None) /\
  (found <> claimed -> exists missing unused,
     listing missing (found ∖ claimed) /\ listing unused (claimed ∖ found) /\
     reportIfCodesDoNotMatch name o = Some (expected_message name missing unused)).
Proof.
  intros (H1&H2&H3&H4). rewrite (code_difference_set _ _ _ H1) in H3. rewrite (code_difference_set _ _ _ H2) in H4.
  assert (forall s ord, order_of s ord -> code_slice ord = [] <-> s = ∅) as Hnil.
  { intros s ord Ho. rewrite code_slice_eq. split.
    - intros ->. apply set_eq. intros v. rewrite <-(order_of_elem _ _ v Ho). set_solver.
    - intros ->. destruct ord as [|a ord]; [done|]. assert (a ∈ (∅ : codeset)) by (apply (order_of_elem _ _ a Ho); by left). set_solver. }
  pose proof (Hnil _ _ H3) as N3. pose proof (Hnil _ _ H4) as N4.
  pose proof (listing_exists _ _ H3) as L3. pose proof (listing_exists _ _ H4) as L4.
  unfold reportIfCodesDoNotMatch, checkIfErrorCodesMatch.
  set (missing := code_slice (o_missing o)) in *. set (unused := code_slice (o_unused o)) in *.
  assert (forall l, sort_strings l = [] <-> l = []) as Hs.
  { intros l. split; [|by intros ->]. intros E. apply Permutation_nil. by rewrite <-(sort_strings_perm l), E. }
  split.
  - intros ->. assert (claimed ∖ claimed = ∅) as E by set_solver.
    rewrite (proj2 N3 E), (proj2 N4 E). rewrite !decide_True by done. done.
  - intros Hne. exists (sort_strings missing), (sort_strings unused). split_and!; [done|done|].
    assert (~ (missing = [] /\ unused = [])) as Hnn.
    { intros [E1%N3 E2%N4]. apply Hne. apply set_eq. intros v. split; intros Hv; [destruct (decide (v ∈ claimed))|destruct (decide (v ∈ found))]; try done; set_solver. }
    unfold expected_message, format_strings.
    destruct (decide (missing = [])) as [Em|Em].
    + rewrite (proj2 (Hs _) Em). destruct (decide (unused = [])) as [Eu|Eu]; [tauto|].
      destruct (sort_strings unused) as [|b l2] eqn:E2; [exfalso; apply Eu, Hs, E2|]. reflexivity.
    + destruct (sort_strings missing) as [|a l1] eqn:E1; [exfalso; apply Em, Hs, E1|].
      destruct (decide (unused = [])) as [Eu|Eu].
      * rewrite (proj2 (Hs _) Eu). reflexivity.
      * destruct (sort_strings unused) as [|b l2] eqn:E2; [exfalso; apply Eu, Hs, E2|].
        cbn -[str]. do 4 f_equal. rewrite <-!app_assoc. reflexivity.
Qed.

(** The lists do not depend on the iteration orders. *)
Theorem C12_report_order_independent name found claimed o o' :
  match_orders_ok found claimed o -> match_orders_ok found claimed o' ->
  reportIfCodesDoNotMatch name o = reportIfCodesDoNotMatch name o'.
Proof.
  intros H H'. destruct (C12_mismatch_report name _ _ _ H) as [H1 H2].
  destruct (C12_mismatch_report name _ _ _ H') as [H1' H2'].
  destruct (decide (found = claimed)) as [E|E].
  - by rewrite H1, H1'.
  - destruct (H2 E) as (m&u&Hm&Hu&->), (H2' E) as (m'&u'&Hm'&Hu'&->).
    by rewrite (listing_unique _ _ _ Hm Hm'), (listing_unique _ _ _ Hu Hu').
Qed.

(** Valid codes can be read back from the message. *)
Theorem C12_message_unambiguous name m u m' u' :
  Forall valid_code m -> Forall valid_code u -> Forall valid_code m' -> Forall valid_code u' ->
  ~ (m = [] /\ u = []) -> ~ (m' = [] /\ u' = []) ->
  expected_message name m u = expected_message name m' u' -> m = m' /\ u = u'.
Proof.
  intros Vm Vu Vm' Vu' N N' E. unfold expected_message in E. apply app_inv_head, app_inv_head, app_inv_head in E.
  assert (~ (alnum 93 \/ 93 = 45)) as Hb by (unfold alnum, letter; lia).
  pose proof (fun l V => join_no_char l 93 V Hb ltac:(done)) as J.
  assert (forall l r l' r', Forall valid_code l -> Forall valid_code l' ->
     str "missing codes: [" ++ join (str " ") l ++ str "]" ++ r = str "missing codes: [" ++ join (str " ") l' ++ str "]" ++ r' ->
     join (str " ") l = join (str " ") l' /\ r = r') as M.
  { intros l r l' r' V V' H. apply app_inv_head in H. change (str "]") with [93] in H. cbn [app] in H.
    by apply app_sep_unique in H; [|by apply J|by apply J]. }
  assert (forall l l', Forall valid_code l -> Forall valid_code l' ->
     str "unused codes: [" ++ join (str " ") l ++ str "]" = str "unused codes: [" ++ join (str " ") l' ++ str "]" ->
     join (str " ") l = join (str " ") l') as M2.
  { intros l l' V V' H. apply app_inv_head in H. by apply app_inv_tail in H. }
  destruct m as [|a m], m' as [|a' m']; cbn [app] in E.
  - split; [done|]. apply M2 in E; [|done|done]. apply join_inj in E; [done|done|done| |].
    + intros ->. by apply N.
    + intros ->. by apply N'.
  - exfalso. destruct u'; discriminate E.
  - exfalso. destruct u; discriminate E.
  - destruct u as [|b u], u' as [|b' u'].
    + apply (M _ [] _ []) in E as [E _]; [|done|done]. by apply join_inj in E.
    + exfalso. assert (str "missing codes: [" ++ join (str " ") (a :: m) ++ str "]" ++ [] =
        str "missing codes: [" ++ join (str " ") (a' :: m') ++ str "]" ++ (str " unused codes: [" ++ join (str " ") (b' :: u') ++ str "]")) as E' by exact E.
      apply M in E' as [_ E']; [discriminate E'|done|done].
    + exfalso. assert (str "missing codes: [" ++ join (str " ") (a :: m) ++ str "]" ++ (str " unused codes: [" ++ join (str " ") (b :: u) ++ str "]") =
        str "missing codes: [" ++ join (str " ") (a' :: m') ++ str "]" ++ []) as E' by exact E.
      apply M in E' as [_ E']; [discriminate E'|done|done].
    + assert (str "missing codes: [" ++ join (str " ") (a :: m) ++ str "]" ++ (str " unused codes: [" ++ join (str " ") (b :: u) ++ str "]") =
        str "missing codes: [" ++ join (str " ") (a' :: m') ++ str "]" ++ (str " unused codes: [" ++ join (str " ") (b' :: u') ++ str "]")) as E' by exact E.
      apply M in E' as [E1 E2]; [|done|done]. apply join_inj in E1; [|done..]. split; [done|].
      apply app_inv_head in E2. apply app_inv_tail in E2. by apply join_inj in E2.
Qed.

(** ** Concrete cases *)
Definition ex_found : codeset := {[ str "b-code"; str "a-code"; str "x" ]}.
Definition ex_claimed : codeset := {[ str "x"; str "unused" ]}.
Definition ex_orders : match_orders :=
  MatchOrders (elements ex_found) (rev (elements ex_claimed)) [str "b-code"; str "a-code"] [str "unused"].
Example C12_ex : match_orders_ok ex_found ex_claimed ex_orders /\
  reportIfCodesDoNotMatch (str "F") ex_orders =
    Some (str "function ""F"" has a mismatch of declared and actual error codes: missing codes: [a-code b-code] unused codes: [unused]").
Proof.
  split; [split_and!|vm_compute; reflexivity].
  - unfold order_of. done.
  - unfold order_of. cbn. symmetry. apply Permutation_rev.
  - unfold order_of. apply (bool_decide_unpack _). vm_compute. exact Logic.I.
  - unfold order_of. apply (bool_decide_unpack _). vm_compute. exact Logic.I.
Qed.

Print Assumptions C11_union.
Print Assumptions C11_difference.
Print Assumptions C11_slice_to_set.
Print Assumptions C11_add.
Print Assumptions C11_slice.
Print Assumptions C11_slice_round_trip.
Print Assumptions C12_mismatch_report.
Print Assumptions C12_report_order_independent.
Print Assumptions C12_message_unambiguous.
