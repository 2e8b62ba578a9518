(** * The hypotheses of C45 are satisfiable: the mismatches of the package of ExampleOrder.v are corrected. *)
From Coq Require Import Ascii String.
From stdpp Require Import base list gmap.
From Verif Require Import GoString ErrorCode Scc Engine CodeSet Annotation Constant Taint Extract Analyse Phase ErrorTypes Claims Interfaces
  Conversions Verify SpecMay SpecProgram SpecRun SpecClaims SpecInterfaces SpecSites SpecLiterals ProgramProofs ClaimsProofs RunProofs PropFacts Checkers FormChecker InterfaceChecker
  ExampleBase Witness Example PropCrash PropOrder ExampleOrder SpecRedoc RedocProofs PropRedoc GoAst.
Local Open Scope N_scope.

(** F declares b, G declares c; the other functions are documented as before. *)
Definition corrected (f : fid) : option gostring :=
  if decide (f = 1) then Some (str "Errors:" ++ [10] ++ [10] ++ str "- b -- x")
  else if decide (f = 2) then Some (str "Errors:" ++ [10] ++ [10] ++ str "- c -- x")
  else match pk_funcs eo !! f ≫= fn_decl with Some d => dc_doc d | None => None end.
Definition ec : package := with_docs corrected eo.
Notation eo_ord := (some_run_orders (collectFunctions eo)).
Notation ec_ord := (some_run_orders (collectFunctions ec)).
Definition eo_run : run := run_of eo false eo_ord imported.
Definition ec_run : run := run_of ec false ec_ord imported.

Definition claims_check (pk : package) (P : fid -> claim -> bool) : bool :=
  forallb (fun p => match claim_result pk p.2 with Some c => P p.1 c | None => true end) (map_to_list (pk_funcs pk)).
Lemma claims_check_spec pk P f fn codes param : claims_check pk P = true -> pk_funcs pk !! f = Some fn -> declares_codes pk fn codes param ->
  P f (Claim codes param) = true.
Proof.
  unfold claims_check. rewrite forallb_forall. intros H Hf Hd%claim_result_spec. specialize (H (f, fn)). cbn [fst snd] in H. rewrite Hd in H.
  apply H. by apply elem_of_list_In, elem_of_map_to_list.
Qed.
Lemma no_positions pk o p : claims_check pk (fun _ c => bool_decide (cl_param c = None)) = true -> ~ declares_position pk o p.
Proof.
  intros H Hp. destruct Hp as [f fn o codes i p (?&?&_&Hf&_) _ Hd _]. pose proof (claims_check_spec _ _ _ _ _ _ H Hf Hd) as E. cbn in E. discriminate E.
Qed.

Theorem C45_example :
  orders_ok (collectFunctions eo) eo_ord /\ orders_ok (collectFunctions ec) ec_ord /\ interfaces_ok eo /\ distinct_definitions eo /\
  completes eo false eo_ord imported eo_run /\ completes ec false ec_ord imported ec_run /\
  (forall o p, declares_position eo o p <-> declares_position ec o p) /\
  (forall fa, usable_functions eo fa /\ no_literal_recursion eo (collectFunctions eo) fa) /\
  (forall fa, usable_functions ec fa /\ no_literal_recursion ec (collectFunctions ec) fa) /\
  (forall f fn codes param, known_function ec f fn -> returns_error_last ec (fn_type fn) -> declares_codes ec fn codes param -> e_found (r_loop eo_run) !! f = Some codes) /\
  e_diags (r_loop eo_run) = [eo_d1; eo_d2] /\ e_diags (r_loop ec_run) = [].
Proof.
  split; [apply some_run_orders_ok|]. split; [apply some_run_orders_ok|]. split; [apply C18_example|]. split; [apply C18_example|].
  split; [apply run_of_ok; vm_compute; reflexivity|]. split; [apply run_of_ok; vm_compute; reflexivity|]. split.
  { intros o p. split; intros H; exfalso; revert H; apply no_positions; vm_compute; reflexivity. }
  split; [intros fa; destruct C18_example as [_ (_&_&_&H)]; split; apply (H fa)|]. split.
  { assert (package_ok ec = true) as H by (vm_compute; reflexivity). intros fa. destruct (package_ok_spec ec fa H) as [? ?].
    split; [assumption|]. apply no_literal_calls_recursion. assumption. }
  split.
  { assert (claims_check ec (fun f c => bool_decide (e_found (r_loop eo_run) !! f = Some (cl_codes c))) = true) as H by (vm_compute; reflexivity).
    intros f fn codes param (?&?&_&Hf&_) _ Hd. pose proof (claims_check_spec _ _ _ _ _ _ H Hf Hd) as E. exact (bool_decide_eq_true_1 _ E). }
  split; vm_compute; reflexivity.
Qed.
