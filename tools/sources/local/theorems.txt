From Coq Require Import Ascii String.
From stdpp Require Import base list gmap relations.
From Verif Require Import GoString ErrorCode Scc Engine CodeSet Annotation Constant GoAst Taint Extract Analyse Phase ErrorTypes Claims Interfaces Conversions Verify
  SpecCodes SpecTaint TaintProofs SpecMay SpecProgram SpecLocal SpecClaims SpecRun SpecEnd ReturnProofs Checkers LocalChecker ExampleBase PropLocal.
Local Open Scope list_scope.
Local Open Scope N_scope.

Notation lk := (collectFunctions t_local).
Definition l_ord : orders := some_run_orders lk.
Definition l_run : run := run_of t_local true l_ord no_facts.
Lemma l_orders : orders_ok lk l_ord.
Proof. apply some_run_orders_ok. Qed.
Lemma l_completes : completes t_local true l_ord no_facts l_run.
Proof. apply run_of_ok. vm_compute. reflexivity. Qed.
Lemma l_cycle : no_literal_cycle t_local lk.
Proof. apply cycle_check_spec. vm_compute. reflexivity. Qed.
(** Open, Twice and Wrong, and the function literal in Twice. *)
Lemma l_usable f : f ∈ [3%N; 4%N; 5%N; 6%N] -> usable_from t_local lk (facts_during t_local l_ord l_run) f.
Proof.
  intros H. apply usable_from_spec. revert H. rewrite !elem_of_cons, elem_of_nil. intros [->|[->|[->|[->|[]]]]]; vm_compute; reflexivity.
Qed.
Lemma l_agree f c : f ∈ [3%N; 4%N; 5%N; 6%N] -> agree_from t_local lk (facts_during t_local l_ord l_run) f c.
Proof.
  intros H. apply agree_from_spec. revert H. rewrite !elem_of_cons, elem_of_nil. intros [->|[->|[->|[->|[]]]]]; vm_compute; reflexivity.
Qed.

(** Retry cannot be tracked: the error it returns is the result of a call of the parameter of a function literal. *)
Lemma l_local : local t_local t_local_f1 None (Ident 35 (str "err") (Some 2%N)) 2%N.
Proof.
  split; [reflexivity|]. split; [intros H; apply (bool_decide_eq_true_2 _) in H; vm_compute in H; discriminate|].
  intros [_ [(o&Ho&Hl)|(_&Hd)]].
  - cbn in Ho. injection Ho as <-. apply literal_param_spec in Hl. apply (bool_decide_eq_true_2 _) in Hl. vm_compute in Hl. discriminate.
  - apply (Hd 2%N); [reflexivity|]. split; vm_compute; reflexivity.
Qed.
Theorem l_untracked : ~ usable_functions t_local (facts_during t_local l_ord l_run).
Proof.
  intros H. destruct (H 1%N t_local_f1) as [Hu _]; [vm_compute; reflexivity|].
  set (call := Node 31 KCall [Node 32 (KIdent (str "step") (Some 3%N)) []]).
  set (i := Ident 32 (str "step") (Some 3%N)).
  refine (us_calls _ _ _ Hu call (Node 32 (KIdent (str "step") (Some 3%N)) []) [] i _ _ _ 3%N 3%N _ _ _).
  - right. exists 2%N. split.
    + exists (Node 34 KReturn [Node 35 (KIdent (str "err") (Some 2%N)) []]), (Node 35 (KIdent (str "err") (Some 2%N)) []). split_and!.
      * apply elem_of_list_In. vm_compute. by left.
      * intros (cs&Ha). apply annotation_is_model in Ha. vm_compute in Ha. discriminate.
      * constructor. reflexivity.
      * eapply ev_root; [by apply root_var|]. apply tracked_start; [exact l_local|apply not_elem_of_empty].
    + left. left. exists call. split_and!; [|reflexivity|discriminate].
      apply (assigned_stmt t_local t_local_f1 2%N (Node 29 (KAssign 1%nat) [Node 30 (KIdent (str "err") (Some 2%N)) []; call])
        [Node 30 (KIdent (str "err") (Some 2%N)) []] [call] 0%nat (Node 30 (KIdent (str "err") (Some 2%N)) []) call (Ident 30 (str "err") (Some 2%N))); try reflexivity.
      apply elem_of_list_In. unfold body_nodes, call. cbn. tauto.
  - reflexivity.
  - split; [reflexivity|]. exists 3%N. split_and!; [reflexivity|intros g; vm_compute; discriminate|vm_compute; discriminate].
  - reflexivity.
  - constructor.
  - exists (Node 18 (KFuncLit 2) [Node 28 (KOther (str "*ast.BlockStmt")) [Node 29 (KAssign 1%nat) [Node 30 (KIdent (str "err") (Some 2%N)) []; call]]]), 2%N, t_local_f2.
    split_and!; [|reflexivity|vm_compute; reflexivity|].
    + apply elem_of_list_In. unfold body_nodes, call. cbn. tauto.
    + exists (Field 21 [Ident 22 (str "step") (Some 3%N)] 23), (Ident 22 (str "step") (Some 3%N)). split_and!; [by left|by left|reflexivity].
Qed.

(** What is known nevertheless: the codes of Twice are exactly the ones it declares, although it calls a function literal through a variable;
    and the report about Wrong is right. *)
Theorem l_twice c : may_return t_local lk (facts_during t_local l_ord l_run) 4%N c <-> c = str "local-open" \/ c = str "local-close".
Proof.
  assert (4%N ∈ [3%N; 4%N; 5%N; 6%N]) as Hin by (right; left).
  assert (e_found (r_loop l_run) !! 4%N = Some {[str "local-open"; str "local-close"]}) as Hf.
  { apply (bool_decide_unpack _). vm_compute. exact Logic.I. }
  split.
  - intros H. apply (C47_complete t_local true l_ord no_facts l_run l_orders l_completes l_cycle 4%N _ c (l_usable _ Hin) (l_agree _ c Hin) Hf) in H. apply elem_of_union in H as [H|H]; apply elem_of_singleton in H; [left|right]; exact H.
  - intros H. apply (C47_sound t_local true l_ord no_facts l_run l_orders l_completes l_cycle 4%N _ c (l_usable _ Hin) Hf).
    destruct H as [H|H]; rewrite H; apply elem_of_union; [left|right]; apply elem_of_singleton; reflexivity.
Qed.
Theorem l_wrong : r_diags l_run = [Diag 85 (str "function ""Wrong"" has a mismatch of declared and actual error codes: missing codes: [local-close] unused codes: [local-never]")] /\
  (forall c, may_return t_local lk (facts_during t_local l_ord l_run) 6%N c <-> c = str "local-open" \/ c = str "local-close").
Proof.
  split; [vm_compute; reflexivity|]. intros c.
  assert (6%N ∈ [3%N; 4%N; 5%N; 6%N]) as Hin by (do 3 right; left).
  assert (e_found (r_loop l_run) !! 6%N = Some {[str "local-open"; str "local-close"]}) as Hf.
  { apply (bool_decide_unpack _). vm_compute. exact Logic.I. }
  split.
  - intros H. apply (C47_complete t_local true l_ord no_facts l_run l_orders l_completes l_cycle 6%N _ c (l_usable _ Hin) (l_agree _ c Hin) Hf) in H. apply elem_of_union in H as [H|H]; apply elem_of_singleton in H; [left|right]; exact H.
  - intros H. apply (C47_sound t_local true l_ord no_facts l_run l_orders l_completes l_cycle 6%N _ c (l_usable _ Hin) Hf).
    destruct H as [H|H]; rewrite H; apply elem_of_union; [left|right]; apply elem_of_singleton; reflexivity.
Qed.
