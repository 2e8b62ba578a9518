(** * The hypotheses of C23_exact hold for the package of Example.v, and for packages on which the analyzer crashes. *)
From Coq Require Import Ascii String.
From stdpp Require Import base list gmap.
From Verif Require Import GoString ErrorCode Scc Engine CodeSet Annotation Constant GoAst Taint Extract Analyse Phase ErrorTypes Claims Interfaces
  Conversions Verify SpecMay SpecProgram SpecRun RunProofs SpecSites SpecCodeMethod SpecCrash PropCrash Checkers CodeCheckers FormChecker ExampleBase Example Witness PropRefuted.

Definition crash_hypotheses (pk : package) : Prop :=
  types_usable pk /\ (forall w n, occurs pk w n -> ~ ill_formed pk w n) /\ forall fa, usable_functions pk fa /\ no_literal_calls pk fa.
Lemma crash_hypotheses_spec pk : types_ok pk && package_formed pk && package_ok pk = true -> crash_hypotheses pk.
Proof.
  rewrite !andb_true_iff. intros [[H1 H2] H3]. split_and!.
  - by apply types_ok_spec.
  - by apply package_formed_spec.
  - intros fa. by apply package_ok_spec.
Qed.
Theorem C23_example : crash_hypotheses ex /\ ~ empty_results ex /\ ~ run_crash ex ex_ord ex_run.
Proof.
  assert (crash_hypotheses ex) as H by (apply crash_hypotheses_spec; vm_compute; reflexivity). split; [exact H|].
  destruct H as (H1&H2&H3). pose proof (C23_exact ex false ex_ord no_facts (some_run_orders_ok _) H1 H2 (fun r _ => H3 _)) as [_ He].
  assert (runVerify ex false ex_ord no_facts <> Panicked) as Hn.
  { assert (exists fa' ds, runVerify ex false ex_ord no_facts = Ok (fa', ds)) as (?&?&E).
    { exists (facts_after ex ex_ord ex_run), (r_diags ex_run). apply runVerify_completes. exists ex_run.
      split; [exact ex_completes|]. split; reflexivity. }
    rewrite E. discriminate. }
  split.
  - intros Hem. apply Hn, He. by left.
  - intros Hcr. apply Hn, He. right. exists ex_run. split; [exact (lo_prepared _ _ _ _ _ (completes_looped _ _ _ _ _ ex_completes))|exact Hcr].
Qed.
(** Each of the remaining causes has a program. *)
Theorem C23_example_crashes : Forall (fun pk => crash_hypotheses pk /\ crashes pk) [w_map; w_results; w_multi; w_ctor; w_spread; w_functype].
Proof.
  assert (forall pk, types_ok pk && package_formed pk && package_ok pk = true -> crashes pk -> crash_hypotheses pk /\ crashes pk) as H.
  { intros pk H1 H2. split; [by apply crash_hypotheses_spec|exact H2]. }
  apply Forall_cons; split; [apply H; [vm_compute; reflexivity|apply C23_refuted_map]|].
  apply Forall_cons; split; [apply H; [vm_compute; reflexivity|apply C23_refuted_results]|].
  apply Forall_cons; split; [apply H; [vm_compute; reflexivity|apply C23_refuted_multi]|].
  apply Forall_cons; split; [apply H; [vm_compute; reflexivity|apply C23_refuted_ctor]|].
  apply Forall_cons; split; [apply H; [vm_compute; reflexivity|apply C23_refuted_spread]|].
  apply Forall_cons; split; [apply H; [vm_compute; reflexivity|apply C23_refuted_functype]|].
  apply Forall_nil_2.
Qed.
