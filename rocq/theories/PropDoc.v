(** * Theorems: error code syntax and documentation parser (C01 - C07). *)
From Coq Require Import Ascii String.
From stdpp Require Import base list gmap.
From Verif Require Import GoString ErrorCode DocParser SpecSpace SpecCodes SpecDoc SpecDocFormat
  GoStringProofs ErrorCodeProofs DocParserProofs DocFormatProofs.
Local Open Scope N_scope.

(** ** C01 *)
Theorem C01_code_validity : forall code, isErrorCodeValid code = true <-> valid_code code.
Proof. exact isErrorCodeValid_correct. Qed.
Example C01_accepts : isErrorCodeValid (str "my-error-1") = true. Proof. reflexivity. Qed.
Example C01_rejects : map isErrorCodeValid [str ""; str "1a"; str "a-"; str "a_b"; [97; 195; 164]; [97; 255; 98]]
  = [false; false; false; false; false; false]. Proof. reflexivity. Qed.

(** ** C02 *)
Theorem C02_doc_round_trip :
  forall pre w w' blank items post,
  Forall (fun l => one_line l /\ plain_before (trim_space l)) pre ->
  blank_text w -> blank_text w' -> blank_text blank ->
  Forall item_ok items -> (length (concat (map item_params items)) <= 1)%nat -> post_ok post ->
  run_docs (write_doc pre w w' blank items post) =
    inl (DocResult (list_to_set (concat (map item_codes items)))
                   (default [] (head (concat (map item_params items)))) false).
Proof. exact doc_round_trip_lemma. Qed.

(** A written doc of three items (two codes, one parameter) between other text. *)
Lemma blank_nil : blank_text [].
Proof. split; [exists []; split; [constructor|done]|set_solver]. Qed.
Lemma blank_tab_space : blank_text [9; 32].
Proof.
  split; [|cbn; set_solver]. exists [[9]; [32]]. split; [|done].
  repeat constructor; cbn; rewrite !elem_of_cons; tauto.
Qed.
Definition example_items : list doc_item :=
  [ItemCode [9; 32] [] (str "not-found") [32] (str " no such thing");
   ItemText (str "   continued");
   ItemParam [] [] [32] (str "code") [] (str " the code");
   ItemCode [] [] (str "x") [] []].
Lemma example_items_ok : Forall item_ok example_items.
Proof.
  assert (blank_text [32]) as H32.
  { split; [exists [[32]]; split; [repeat constructor; cbn; rewrite !elem_of_cons; tauto|done]|cbn; set_solver]. }
  assert (forall s, bool_decide (10 ∉ s) = true -> one_line s) as H1.
  { intros s Hs. by apply bool_decide_eq_true in Hs. }
  unfold example_items.
  apply Forall_cons. split.
  { cbn [item_ok]. split_and!; first [exact blank_nil | exact blank_tab_space | exact H32 | by apply H1
      | by apply isErrorCodeValid_correct]. }
  apply Forall_cons. split.
  { cbn [item_ok]. split; [by apply H1|]. apply line_skipped; [done| |]; intros [t Ht]; vm_compute in Ht; discriminate. }
  apply Forall_cons. split.
  { cbn [item_ok]. split_and!; try first [exact blank_nil | exact blank_tab_space | exact H32 | by apply H1].
    split_and!.
    - done.
    - by apply H1.
    - apply (bool_decide_unpack _). vm_compute. exact I.
    - intros [t Ht]. discriminate.
    - apply not_starts. split; reflexivity.
    - apply (not_ends 101 (str "cod")). split; reflexivity. }
  apply Forall_cons. split; [|done].
  cbn [item_ok]. split_and!; first [exact blank_nil | exact blank_tab_space | exact H32 | by apply H1
      | by apply isErrorCodeValid_correct].
Qed.
Example C02_nonvacuous :
  run_docs (write_doc [str "Foo does things."; []] [32] [] [] example_items [[]; str "more text"]) =
    inl (DocResult {[ str "not-found"; str "x" ]} (str "code") false).
Proof.
  rewrite C02_doc_round_trip.
  - f_equal. f_equal. apply (bool_decide_unpack _). vm_compute. exact I.
  - repeat constructor; try (intros H; vm_compute in H; discriminate);
      try (intros [t Ht]; vm_compute in Ht; discriminate);
      (unfold one_line; apply (bool_decide_unpack _); vm_compute; exact I).
  - split; [exists [[32]]; split; [repeat constructor; cbn; rewrite !elem_of_cons; tauto|done]|cbn; set_solver].
  - apply blank_nil.
  - apply blank_nil.
  - apply example_items_ok.
  - cbn. lia.
  - right. exists [], [str "more text"]. split_and!; [done|apply blank_nil|].
    repeat constructor; try (intros [t Ht]; vm_compute in Ht; discriminate).
    unfold one_line; apply (bool_decide_unpack _); vm_compute; exact I.
Qed.

(** ** C03: the parser accepts exactly the documented grammar, with exactly its meaning; every
    other doc is rejected with the error its first defect calls for; nothing else is possible. *)
Theorem C03_parser_accepts : forall doc r,
  run_docs doc = inl r <-> doc_declares (doc_lines doc) r.
Proof. exact run_docs_declares. Qed.
Theorem C03_parser_rejects : forall doc e,
  run_docs doc = inr e <-> doc_malformed (doc_lines doc) e.
Proof. exact run_docs_malformed. Qed.
Theorem C03_no_doc : findErrorDocs None = inl (DocResult ∅ [] false) /\
  forall doc, findErrorDocs (Some doc) = run_docs doc.
Proof. split; reflexivity. Qed.
(** The slice expression of the parser is never out of range. *)
Theorem C03_no_panic : forall doc, findErrorDocs doc <> inr DocPanic.
Proof.
  intros [doc|]; [|done]. intros H. apply C03_parser_rejects in H.
  inversion H as [| ? ? ? ? ? ? ? ? ? ? ? ? Hb| |]; subst. inversion Hb.
Qed.
Example C03_witness_reject :
  run_docs (str "Errors:" ++ [10; 10] ++ str "- foo_bar -- bad") = inr DocInvalidCode.
Proof. reflexivity. Qed.

(** ** C04 *)
Theorem C04_only_valid_codes : forall doc r, run_docs doc = inl r ->
  (forall c, c ∈ dr_codes r -> valid_code c) /\ trim_space (dr_param r) = dr_param r.
Proof. exact run_docs_valid. Qed.

(** ** C05 *)
Theorem C05_only_the_block_matters : forall d d' pre pre' blk blk' post post',
  doc_lines d = pre ++ str "Errors:" :: [] :: blk ++ post ->
  doc_lines d' = pre' ++ str "Errors:" :: [] :: blk' ++ post' ->
  Forall plain_before pre -> Forall plain_before pre' -> same_items blk blk' ->
  (post = [] \/ exists p, post = [] :: p /\ Forall plain_after p) ->
  (post' = [] \/ exists p, post' = [] :: p /\ Forall plain_after p) ->
  run_docs d = run_docs d'.
Proof. exact irrelevant_parts. Qed.
Theorem C05_indentation_irrelevant : forall ls ls',
  Forall2 (fun l l' => exists a b a' b' t, white a /\ white b /\ white a' /\ white b' /\
              l = a ++ t ++ b /\ l' = a' ++ t ++ b') ls ls' ->
  Forall one_line ls -> Forall one_line ls' -> ls <> [] ->
  run_docs (join [10] ls) = run_docs (join [10] ls').
Proof. exact indentation_irrelevant. Qed.
(** Both hypotheses of [same_items] are met by a changed description plus an inserted line. *)
Example C05_nonvacuous :
  same_items [str "- a -- one"; str "- b -- two"] [str "see also:"; str "-  a   -- uno"; str "- b -- "].
Proof.
  apply si_skip_r.
  { apply line_skipped; [done| |]; intros [t Ht]; vm_compute in Ht; discriminate. }
  assert (forall l i, index_of l (str " --") = Some i ->
     (2 <= i)%nat -> take 2 l = str "- " -> item_text l (drop 2 (take i l))) as Hit.
  { intros l i Hi Hle H2. destruct (proj1 (index_of_spec _ _ _) Hi) as (a&b&Heq&Hlen&Hmin).
    exists b. split.
    - assert (take i l = a) as -> by (rewrite Heq, <-Hlen; apply take_app).
      assert (take 2 a = str "- ") as Ha by (rewrite <-H2, Heq; symmetry; apply take_app_le; lia).
      rewrite <-Ha, app_assoc, take_drop. exact Heq.
    - intros a' b' Heq'. rewrite drop_length, take_length.
      specialize (Hmin a' b' Heq'). lia. }
  eapply (si_item _ _ [97] (str " a  ")).
  - exact (Hit (str "- a -- one") 3%nat eq_refl ltac:(lia) eq_refl).
  - exact (Hit (str "-  a   -- uno") 6%nat eq_refl ltac:(lia) eq_refl).
  - reflexivity.
  - eapply (si_item _ _ [98] [98]).
    + exact (Hit (str "- b -- two") 3%nat eq_refl ltac:(lia) eq_refl).
    + exact (Hit (str "- b -- ") 3%nat eq_refl ltac:(lia) eq_refl).
    + reflexivity.
    + constructor.
Qed.

(** ** C06 *)
Theorem C06_order_irrelevant : forall d d' pre pre' blk blk' post post' r,
  doc_lines d = pre ++ str "Errors:" :: [] :: blk ++ post ->
  doc_lines d' = pre' ++ str "Errors:" :: [] :: blk' ++ post' ->
  Forall plain_before pre -> Forall plain_before pre' ->
  (post = [] \/ exists p, post = [] :: p /\ Forall plain_after p) ->
  (post' = [] \/ exists p, post' = [] :: p /\ Forall plain_after p) ->
  ([] : gostring) ∉ blk -> Permutation blk blk' ->
  run_docs d = inl r -> run_docs d' = inl r.
Proof. exact order_irrelevant. Qed.
Theorem C06_duplicate_irrelevant : forall d d' pre pre' blk blk' post post' r l c,
  doc_lines d = pre ++ str "Errors:" :: [] :: blk ++ post ->
  doc_lines d' = pre' ++ str "Errors:" :: [] :: blk' ++ post' ->
  Forall plain_before pre -> Forall plain_before pre' ->
  (post = [] \/ exists p, post = [] :: p /\ Forall plain_after p) ->
  (post' = [] \/ exists p, post' = [] :: p /\ Forall plain_after p) ->
  ([] : gostring) ∉ blk -> l ∈ blk -> block_line l (Some (inl c)) -> Permutation (l :: blk) blk' ->
  run_docs d = inl r -> run_docs d' = inl r.
Proof. exact duplicate_irrelevant. Qed.
Example C06_nonvacuous :
  match run_docs (join [10] [str "Errors:"; []; str "- a --"; str "- b --"]),
        run_docs (join [10] [str "Errors:"; []; str "- b --"; str "- a --"; str "- b --"]) with
  | inl r1, inl r2 => bool_decide (dr_codes r1 = dr_codes r2) && bool_decide (dr_codes r1 = {[str "a"; str "b"]})
  | _, _ => false
  end = true.
Proof. vm_compute. reflexivity. Qed.

(** ** C07 *)
Theorem C07_declared_none : forall doc r, run_docs doc = inl r ->
  (dr_none r = true <-> exists pre l post, doc_lines doc = pre ++ l :: post /\ Forall plain_before pre /\ opens_none l)
  /\ (dr_none r = true -> dr_codes r = ∅ /\ dr_param r = []).
Proof. exact run_docs_none. Qed.
Theorem C07_no_indicator : forall doc, Forall plain_before (doc_lines doc) ->
  run_docs doc = inl (DocResult ∅ [] false).
Proof. exact run_docs_undeclared. Qed.
Example C07_nonvacuous : exists r, run_docs (str "  Errors: none -- really") = inl r /\ dr_none r = true.
Proof. eexists. split; reflexivity. Qed.

(** What a user might not expect (C03, C07): a block without any item, and an indicator at the very
    end, are accepted but count as "declares nothing"; "Errors: nonexistent" counts as "none". *)
Theorem C07_empty_block_is_no_declaration_refuted :
  ~ (forall doc r, run_docs doc = inl r -> opens_block (default [] (head (doc_lines doc))) ->
       dr_codes r <> ∅ \/ dr_param r <> [] \/ dr_none r = true).
Proof.
  intros H. destruct (H (str "Errors:") (DocResult ∅ [] false)) as [E|[E|E]]; done.
Qed.

Print Assumptions C01_code_validity.
Print Assumptions C02_doc_round_trip.
Print Assumptions C03_parser_accepts.
Print Assumptions C03_parser_rejects.
Print Assumptions C03_no_doc.
Print Assumptions C03_no_panic.
Print Assumptions C04_only_valid_codes.
Print Assumptions C05_only_the_block_matters.
Print Assumptions C05_indentation_irrelevant.
Print Assumptions C06_order_irrelevant.
Print Assumptions C06_duplicate_irrelevant.
Print Assumptions C07_declared_none.
Print Assumptions C07_no_indicator.
Print Assumptions C07_empty_block_is_no_declaration_refuted.
