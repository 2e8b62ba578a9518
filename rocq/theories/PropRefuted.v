(** * Refutations: properties one might expect, and programs for which they fail.

    Each theorem exhibits one of the packages of Witness.v (all of them are accepted by the Go compiler) and computes the answer
    of the analyzer.  [package_ok] is the decidable form (Checkers.v, [package_ok_spec]) of the conditions under which the other
    theorems hold: where it is [true] the counterexample is within their scope. *)
From Coq Require Import Ascii String.
From stdpp Require Import base list gmap.
From Verif Require Import GoString ErrorCode Scc Engine CodeSet Annotation Constant GoAst Taint Extract Analyse Phase ErrorTypes Claims Interfaces
  Conversions Verify SpecCodes SpecMay SpecProgram SpecRun RunProofs Checkers ExampleBase Witness.
Local Open Scope N_scope.

Definition crashes (pk : package) : Prop :=
  exists ord, orders_ok (collectFunctions pk) ord /\ runVerify pk false ord imported = Panicked.
Definition accepted (pk : package) : Prop :=
  exists ord fa, orders_ok (collectFunctions pk) ord /\ runVerify pk false ord imported = Ok (fa, []).
(** The analyzer answers with exactly these diagnostics. *)
Definition answers (pk : package) (ds : list diag) : Prop :=
  exists ord fa, orders_ok (collectFunctions pk) ord /\ runVerify pk false ord imported = Ok (fa, ds).

Lemma crash pk : (match runVerify pk false (some_run_orders (collectFunctions pk)) imported with Panicked => true | _ => false end) = true -> crashes pk.
Proof.
  intros H. eexists. split; [apply some_run_orders_ok|]. by destruct (runVerify _ _ _ _).
Qed.
Lemma answer pk ds :
  (match runVerify pk false (some_run_orders (collectFunctions pk)) imported with Ok (_, l) => Some l | _ => None end) = Some ds -> answers pk ds.
Proof.
  destruct (runVerify _ _ _ _) as [[fa l]| |] eqn:E; [|done|done]. intros [= ->].
  exists (some_run_orders (collectFunctions pk)), fa. split; [apply some_run_orders_ok|done].
Qed.
Lemma accept pk : answers pk [] -> accepted pk.
Proof. done. Qed.

(** *** C23: the analyzer crashes on packages the compiler accepts. *)
(** A local function variable that is called in two return statements (scc.Visit of a completed node, analyse.go 760). *)
Theorem C23_refuted_lambda : crashes w_lambda.
Proof. by apply crash; vm_compute. Qed.
(** The two-valued index expression (analyse.go 818). *)
Theorem C23_refuted_map : crashes w_map /\ package_ok w_map = true.
Proof. split; [apply crash|]; by vm_compute. Qed.
(** A function without body. *)
Theorem C23_refuted_body : crashes w_body.
Proof. by apply crash; vm_compute. Qed.
(** An empty result list in parentheses. *)
Theorem C23_refuted_results : crashes w_results /\ package_ok w_results = true.
Proof. split; [apply crash|]; by vm_compute. Qed.
(** Returning the results of a call with several results, the function having an error interface as second result. *)
Theorem C23_refuted_multi : crashes w_multi /\ package_ok w_multi = true.
Proof. split; [apply crash|]; by vm_compute. Qed.
(** Calling an error constructor with the results of a call with several results. *)
Theorem C23_refuted_ctor : crashes w_ctor /\ package_ok w_ctor = true.
Proof. split; [apply crash|]; by vm_compute. Qed.
(** Spreading a slice into a variadic parameter of an error interface type. *)
Theorem C23_refuted_spread : crashes w_spread /\ package_ok w_spread = true.
Proof. split; [apply crash|]; by vm_compute. Qed.
(** A two-valued call through a variable of a named function type (analyse.go 806). *)
Theorem C23_refuted_functype : crashes w_functype /\ package_ok w_functype = true.
Proof. split; [apply crash|]; by vm_compute. Qed.

(** *** C37: the subtracting annotation of the first return statement removes the code from the second one, too: the function,
    declared to return no codes, is accepted.  Without the annotation it is reported (once). *)
Definition without_comments (pk : package) : package :=
  Package (pk_funcs pk) (pk_decls pk) (pk_gendecls pk) (pk_top pk) (pk_objs pk) (fun _ => []) (pk_info pk).
Theorem C37_refuted : accepted w_annotation /\ package_ok w_annotation = true /\
  exists d, answers (without_comments w_annotation) [d] /\
    d = Diag 21 (str "function ""F"" has a mismatch of declared and actual error codes: missing codes: [a]").
Proof.
  split; [by apply accept, answer; vm_compute|]. split; [by vm_compute|]. eexists. split; [apply answer; by vm_compute|].
  by vm_compute.
Qed.

(** *** C20: the parameter of a closure, the address of which is assigned to the returned variable, is not reported. *)
Theorem C20_refuted : accepted w_closure.
Proof. by apply accept, answer; vm_compute. Qed.

(** *** C22: the codes of the elements of a slice that is ranged over are lost without a diagnostic: the function returns an error with
    the code a, and is declared to return no codes. *)
Theorem C22_refuted_range : accepted w_range /\ package_ok w_range = true.
Proof. split; [apply accept, answer|]; by vm_compute. Qed.

(** *** C34: a valid code of 71 characters, which is declared and returned, is rejected. *)
Theorem C34_refuted : (exists d1 d2, d1 <> d2 /\ answers w_long [d1; d2]) /\ package_ok w_long = true /\ valid_code (replicate 71 97).
Proof.
  split; [|split; [by vm_compute|]].
  - eexists _, _. split; cycle 1; [apply answer; by vm_compute|by vm_compute].
  - change (replicate 71 97) with (97 :: (replicate 69 97 ++ [97])). apply valid_long; [unfold letter; lia| |left; unfold letter; lia].
    apply Forall_forall. intros x [-> _]%elem_of_replicate. left. left. unfold letter. lia.
Qed.

(** *** C29: the argument of a call through a variable of a named function type is converted to an error interface; it is not checked:
    the method of the implementation declares the code a, and that of the interface no codes. *)
Theorem C29_refuted : accepted w_convert /\ package_ok w_convert = true.
Proof. split; [apply accept, answer|]; by vm_compute. Qed.
