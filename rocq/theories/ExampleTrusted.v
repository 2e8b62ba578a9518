(** * The presuppositions of PropTrusted.v are met by a test package of the project: multipackage.RunPackage1 returns inner1.ExportedFunc1(). *)
From Coq Require Import Ascii String.
From stdpp Require Import base list gmap relations.
From Verif Require Import GoString ErrorCode Scc Engine CodeSet Annotation Constant GoAst Taint Extract Analyse Phase ErrorTypes Claims Interfaces Conversions Verify
  SpecCodes SpecTaint TaintProofs SpecMay SpecProgram SpecLocal SpecClaims SpecRun SpecEnd ReturnProofs Checkers LocalChecker ExampleBase Conform PropLocal PropTrusted
  Test_multipackage.
Local Open Scope list_scope.
Local Open Scope N_scope.

Notation lk := (collectFunctions t_multipackage).
Notation inner_facts := (facts_after_test (run_test t_multipackage_inner1 ascending no_facts)).
Definition tr_ord : orders := some_run_orders lk.
Definition tr_run : run := run_of t_multipackage true tr_ord inner_facts.
Notation tr_facts := (facts_during t_multipackage tr_ord tr_run).
Lemma tr_orders : orders_ok lk tr_ord.
Proof. apply some_run_orders_ok. Qed.
Lemma tr_completes : completes t_multipackage true tr_ord inner_facts tr_run.
Proof. apply run_of_ok. vm_compute. reflexivity. Qed.
Lemma tr_cycle : no_literal_cycle t_multipackage lk.
Proof. apply cycle_check_spec. vm_compute. reflexivity. Qed.
Lemma tr_usable : usable t_multipackage tr_facts t_multipackage_f1.
Proof.
  assert (usable_from t_multipackage lk tr_facts 1) as H by (apply usable_from_spec; vm_compute; reflexivity).
  apply (H 1 t_multipackage_f1); [constructor|vm_compute; reflexivity].
Qed.
Definition tr_stmt : node := Eval vm_compute in default (Node 0 KReturn []) (head (return_stmts t_multipackage_f1)).
Definition tr_call : node := Eval vm_compute in default tr_stmt (head (node_kids tr_stmt)).
Definition tr_callee : node := Eval vm_compute in default tr_stmt (head (node_kids tr_call)).
Definition tr_object : tobj := Eval vm_compute in default 0 (function_object t_multipackage tr_callee).
Lemma tr_stmts : return_stmts t_multipackage_f1 = [tr_stmt].
Proof. vm_compute. reflexivity. Qed.
Lemma tr_forwards : forwards t_multipackage t_multipackage_f1 tr_stmt tr_object [].
Proof.
  exists tr_call, tr_callee. split_and!; [constructor; reflexivity|reflexivity|vm_compute; reflexivity].
Qed.
Theorem C36_example_forwarder : forwarder t_multipackage tr_facts t_multipackage_f1 /\
  (forall i, ~ constructor_param t_multipackage tr_facts t_multipackage_f1 i) /\
  e_found (r_loop tr_run) !! 1 = Some {[str "hello-error"]} /\ fa_codes inner_facts !! tr_object = Some {[str "hello-error"]}.
Proof.
  split_and!.
  - intros stmt. rewrite tr_stmts, elem_of_list_singleton. intros ->. split.
    + apply annotation_is_model. vm_compute. reflexivity.
    + exists tr_object, []. split; [exact tr_forwards|]. eexists. vm_compute. reflexivity.
  - intros i (p&(d&o&Hd&_)&Hp). destruct p; discriminate Hp.
  - apply (bool_decide_unpack _). vm_compute. exact Logic.I.
  - apply (bool_decide_unpack _). vm_compute. exact Logic.I.
Qed.
Theorem C36_example_codes c : c ∈ ({[str "hello-error"]} : codeset) <-> trusted_code t_multipackage tr_facts tr_object [] c.
Proof.
  destruct C36_example_forwarder as (Hf&Hn&Hs&_).
  rewrite (C36_forwarder t_multipackage true tr_ord inner_facts tr_run tr_orders tr_completes tr_cycle 1 t_multipackage_f1 eq_refl tr_usable ltac:(discriminate) Hf _ Hn Hs c).
  split.
  - intros (stmt&o&args&Hin&Hfw&Hc). rewrite tr_stmts in Hin. apply elem_of_list_singleton in Hin. subst stmt.
    destruct Hfw as (e&h&He&Hc'&Ho). destruct tr_forwards as (e'&h'&He'&Hc''&Ho'). assert (e = e') as -> by exact (returned_unique _ _ _ _ He He').
    rewrite Hc' in Hc''. injection Hc'' as -> ->. rewrite Ho in Ho'. injection Ho' as ->. exact Hc.
  - intros Hc. exists tr_stmt, tr_object, []. split_and!; [rewrite tr_stmts; apply elem_of_list_singleton; reflexivity|exact tr_forwards|exact Hc].
Qed.
