(** * C22: the conditions of [disciplined] are needed.

    For each of them there is a program (ExecWitness.v) about which the analyzer reports nothing, although an execution returns an error
    whose code is not declared; all other presuppositions of C22_sound are met ([unsound], ExecTools.v). *)
From Coq Require Import Ascii String.
From stdpp Require Import base list gmap.
From Verif Require Import GoString ErrorCode Scc Engine CodeSet Annotation Constant GoAst Taint Extract Analyse Phase ErrorTypes Claims Interfaces
  Conversions Verify SpecTaint SpecMay SpecProgram SpecEvents SpecClaims SpecRun SpecEnd RunProofs Checkers ExampleBase SpecExec SpecSound SoundChecker ExecTools ExecWitness.
Local Open Scope N_scope.

Notation witness pk := (unsound pk exec_facts).
Definition error_t : errortype := ErrorType ∅ (Some (str "TheCode", 0%nat)).
Definition fixed_t : errortype := ErrorType {[ str "k" ]} None.
Definition with_e (o : oid) : env := set_var nothing o (VErr 0).
Definition mem (s : gostring) : heap := <[0 := Cell ∅ s]> ∅.

Ltac calc := vm_compute; reflexivity.
(** Only an execution is missing. *)
Ltac begin_witness pk c h :=
  apply (unsound_intro pk exec_facts 1 c h (VErr 0)); [calc| |];
  [match goal with |- exec _ _ ?fd _ _ _ _ _ _ => change fd with (facts_during pk (some_run_orders (collectFunctions pk)) (run_of pk false (some_run_orders (collectFunctions pk)) exec_facts)) end;
   replace (facts_during pk (some_run_orders (collectFunctions pk)) (run_of pk false (some_run_orders (collectFunctions pk)) exec_facts)) with exec_facts by calc|].
(** `e := &Error{c}` *)
Ltac new_error c := eapply (x_literal _ _ _ _ _ _ _ _ _ error_t (str "TheCode") c 0); [first [left; reflexivity|right; eexists; reflexivity]|calc|reflexivity|reflexivity|calc|reflexivity].
Ltac first_assign pk f n c := eapply (x_assign pk exec_facts f nothing ∅ n); [apply x_start; reflexivity|member|reflexivity|reflexivity|new_error c|eapply x_var; [reflexivity|reflexivity|calc]].
(** `x.TheCode = "b"` *)
Ltac set_field pk f n en h o := eapply (x_assign pk exec_facts f en h n); [|member|reflexivity|reflexivity|eapply (x_string _ _ _ _ _ _ (str "b")); calc|
  eapply (x_field pk exec_facts f _ _ _ _ _ _ _ o 0 (Cell ∅ (str "a"))); [reflexivity|calc|reflexivity|reflexivity|reflexivity|reflexivity]].
Ltac return_var pk f n en h o := eapply (x_return pk exec_facts f 1 en h n); [calc| |member|reflexivity|calc|eapply (x_use _ _ _ _ _ _ _ o); [reflexivity|reflexivity|reflexivity|exact Logic.I|calc|calc]].
Ltac code := eapply x_code; [reflexivity|right; reflexivity|discriminate].

Definition mem_b : heap := <[0 := Cell ∅ (str "b")]> (mem (str "a")).

Theorem C22_refuted_alias : witness x_alias.
Proof.
  begin_witness x_alias (str "b") mem_b; [|code].
  return_var x_alias x_alias_f1 x_alias_return (set_var (with_e 1) 2 (VErr 0)) mem_b 1.
  set_field x_alias x_alias_f1 x_alias_set (set_var (with_e 1) 2 (VErr 0)) (mem (str "a")) 2.
  eapply (x_assign _ _ _ (with_e 1) (mem (str "a")) x_alias_alias); [|member|reflexivity|reflexivity|eapply (x_use _ _ _ _ _ _ _ 1); [reflexivity|reflexivity|reflexivity|exact Logic.I|calc|calc]|
    eapply x_var; [reflexivity|reflexivity|calc]].
  first_assign x_alias x_alias_f1 x_alias_start (str "a").
Qed.
Theorem C22_refuted_closure : witness x_closure.
Proof.
  begin_witness x_closure (str "b") mem_b; [|code].
  return_var x_closure x_closure_f1 x_closure_return (with_e 1) mem_b 1.
  set_field x_closure x_closure_f1 x_closure_set (with_e 1) (mem (str "a")) 1.
  first_assign x_closure x_closure_f1 x_closure_start (str "a").
Qed.
Theorem C22_refuted_paren : witness x_paren.
Proof.
  begin_witness x_paren (str "b") mem_b; [|code].
  return_var x_paren x_paren_f1 x_paren_return (with_e 1) mem_b 1.
  set_field x_paren x_paren_f1 x_paren_set (with_e 1) (mem (str "a")) 1.
  first_assign x_paren x_paren_f1 x_paren_start (str "a").
Qed.
Theorem C22_refuted_nil : witness x_nil.
Proof.
  begin_witness x_nil (str "b") (mem (str "b")); [|code].
  return_var x_nil x_nil_f1 x_nil_return (with_e 1) (mem (str "b")) 1.
  first_assign x_nil x_nil_f1 x_nil_start (str "b").
Qed.
Theorem C22_refuted_place : witness x_place.
Proof.
  set (h := <[0 := Cell ∅ (str "b")]> (<[1 := Cell ∅ (str "b")]> (mem (str "a")))).
  begin_witness x_place (str "b") h; [|code].
  return_var x_place x_place_f1 x_place_return (with_e 1) h 1.
  eapply (x_assign _ _ _ (with_e 1) (mem (str "a")) x_place_set); [|member|reflexivity|reflexivity| |].
  - first_assign x_place x_place_f1 x_place_start (str "a").
  - eapply (x_literal _ _ _ _ _ _ _ _ _ error_t (str "TheCode") (str "b") 1); [left; reflexivity|calc|reflexivity|reflexivity|calc|reflexivity].
  - apply (st_some_place _ _ _ _ _ _ _ _ error_t 1 (Cell ∅ (str "b"))); [reflexivity| |reflexivity|reflexivity|by eexists].
    exists 2. split; calc.
Qed.
(** `e.TheCode += "b"` makes the code "ab". *)
Theorem C22_refuted_compound : witness x_compound.
Proof.
  set (h := <[0 := Cell ∅ (str "ab")]> (mem (str "a"))).
  begin_witness x_compound (str "ab") h; [|code].
  return_var x_compound x_compound_f1 x_compound_return (with_e 1) h 1.
  eapply (x_open _ _ _ (with_e 1) (mem (str "a")) _ [VStr (str "ab")]).
  - first_assign x_compound x_compound_f1 x_compound_start (str "a").
  - eapply (ot_compound _ _ x_compound_set); [member|reflexivity|calc].
  - intros [|k] w a [= <-]. discriminate.
  - eapply ss_cons; [|apply ss_nil]. eapply (x_field _ _ _ _ _ _ _ _ _ _ 1 0 (Cell ∅ (str "a"))); [reflexivity|calc|reflexivity|reflexivity|reflexivity|reflexivity].
Qed.
Theorem C22_refuted_range_field : witness x_range_field.
Proof.
  begin_witness x_range_field (str "b") mem_b; [|code].
  return_var x_range_field x_range_field_f1 x_range_field_return (with_e 1) mem_b 1.
  eapply (x_open _ _ _ (with_e 1) (mem (str "a")) _ [VOther; VStr (str "b")]).
  - first_assign x_range_field x_range_field_f1 x_range_field_start (str "a").
  - apply (ot_range _ _ 19 true true (node_kids x_range_field_range)). member.
  - intros [|[|k]] w a [= <-]; discriminate.
  - eapply ss_cons; [eapply st_blank; reflexivity|]. eapply ss_cons; [|apply ss_nil].
    eapply (x_field _ _ _ _ _ _ _ _ _ _ 1 0 (Cell ∅ (str "a"))); [reflexivity|calc|reflexivity|reflexivity|reflexivity|reflexivity].
Qed.
(** The element of the slice is the error that e points to. *)
Theorem C22_refuted_range_alias : witness x_range_alias.
Proof.
  set (en := set_var (with_e 1) 2 (VErr 0)).
  begin_witness x_range_alias (str "b") mem_b; [|code].
  return_var x_range_alias x_range_alias_f1 x_range_alias_return en mem_b 1.
  set_field x_range_alias x_range_alias_f1 x_range_alias_set en (mem (str "a")) 2.
  eapply (re_open _ _ _ _ _ _ _ (with_e 1) (mem (str "a")) _ (mem (str "a")) [VOther; VErr 0]).
  - first_assign x_range_alias x_range_alias_f1 x_range_alias_start (str "a").
  - apply (ot_range _ _ 25 true true (node_kids x_range_alias_range)). member.
  - done.
  - intros [|[|k]] w a [= <-]; [discriminate|]. intros [= <-]. by eexists.
  - eapply ss_cons; [eapply st_blank; reflexivity|]. eapply ss_cons; [|apply ss_nil]. eapply x_var; [reflexivity|reflexivity|calc].
Qed.
(** An element of the slice is an error with the code "b". *)
Theorem C22_refuted_range_result : witness x_range.
Proof.
  begin_witness x_range (str "b") (mem (str "b")); [|code].
  return_var x_range x_range_f1 x_range_return (with_e 1) (mem (str "b")) 1.
  eapply (re_open _ _ _ _ _ _ _ nothing ∅ _ (mem (str "b")) [VOther; VErr 0]).
  - apply x_start; reflexivity.
  - apply (ot_range _ _ 14 true true (node_kids x_range_range)). member.
  - apply map_empty_subseteq.
  - intros [|[|k]] w a [= <-]; [discriminate|]. intros [= <-]. by eexists.
  - eapply ss_cons; [eapply st_blank; reflexivity|]. eapply ss_cons; [|apply ss_nil]. eapply x_var; [reflexivity|reflexivity|calc].
Qed.
(** errors.As sets t to an error with the code "b" (finding a cause of that type). *)
Theorem C22_refuted_exposed : witness x_exposed.
Proof.
  begin_witness x_exposed (str "b") (mem (str "b")); [|code].
  return_var x_exposed x_exposed_f1 x_exposed_return (with_e 1) (mem (str "b")) 1.
  eapply (re_outside _ _ _ _ _ _ _ nothing ∅ 1 (mem (str "b")) (VErr 0)).
  - apply x_start; reflexivity.
  - right. right. split; [apply no_struct_var; calc|]. exists 17, (Node 16 (KIdent (str "t") (Some 1)) []), (Ident 16 (str "t") (Some 1)). split; [member|]. split; reflexivity.
  - split; [apply map_empty_subseteq|]. intros a [= <-]. by eexists.
Qed.
Theorem C22_refuted_exposed_alias : witness x_exposed_alias.
Proof.
  set (en := set_var (with_e 1) 2 (VErr 0)).
  begin_witness x_exposed_alias (str "b") mem_b; [|code].
  return_var x_exposed_alias x_exposed_alias_f1 x_exposed_alias_return en mem_b 1.
  set_field x_exposed_alias x_exposed_alias_f1 x_exposed_alias_set en (mem (str "a")) 2.
  eapply (re_outside _ _ _ _ _ _ _ (with_e 1) (mem (str "a")) 2 (mem (str "a")) (VErr 0)).
  - first_assign x_exposed_alias x_exposed_alias_f1 x_exposed_alias_start (str "a").
  - right. right. split; [apply no_struct_var; calc|]. exists 21, (Node 20 (KIdent (str "p") (Some 2)) []), (Ident 20 (str "p") (Some 2)). split; [member|]. split; reflexivity.
  - split; [done|]. intros a [= <-]. by eexists.
Qed.
Theorem C22_refuted_promoted : witness x_promoted.
Proof.
  begin_witness x_promoted (str "b") mem_b; [|code].
  return_var x_promoted x_promoted_f1 x_promoted_return (with_e 1) mem_b 1.
  eapply (x_assign _ _ _ (with_e 1) (mem (str "a")) x_promoted_set); [|member|reflexivity|reflexivity|eapply (x_string _ _ _ _ _ _ (str "b")); calc|].
  - first_assign x_promoted x_promoted_f1 x_promoted_start (str "a").
  - apply (st_promoted _ _ _ _ _ _ _ _ 0 (Cell ∅ (str "a")) (str "b")); [|reflexivity].
    eexists _, _, 2, error_t, 0%nat. split; [reflexivity|]. split; [calc|]. split; [reflexivity|]. intros H%field_of_spec. vm_compute in H. discriminate.
Qed.
Theorem C22_refuted_pointer : witness x_pointer.
Proof.
  begin_witness x_pointer (str "b") mem_b; [|code].
  return_var x_pointer x_pointer_f1 x_pointer_return (with_e 1) mem_b 1.
  eapply (re_field _ _ _ _ _ _ _ (with_e 1) (mem (str "a")) 0 (Cell ∅ (str "a")) (str "b")); [| |reflexivity].
  - first_assign x_pointer x_pointer_f1 x_pointer_start (str "a").
  - exists 18, (Node 17 KSelector [Node 15 (KIdent (str "e") (Some 1)) []; Node 16 (KIdent (str "TheCode") None) []]). split; [member|]. left. eexists. apply field_of_spec. calc.
Qed.
Theorem C22_refuted_zero : witness x_zero.
Proof.
  begin_witness x_zero (str "k") (<[0 := Cell {[ str "k" ]} []]> (<[1 := Cell {[ str "k" ]} []]> ∅) : heap).
  2: { eapply x_code; [reflexivity|left; apply (bool_decide_unpack _); vm_compute; exact Logic.I|discriminate]. }
  eapply (x_return x_zero exec_facts x_zero_f1 1 (set_var nothing 1 (VErr 1)) (<[1 := Cell {[ str "k" ]} []]> ∅ : heap) x_zero_return); [calc| |member|reflexivity|calc|].
  - apply (re_zero x_zero _ _ _ _ _ _ nothing ∅ 1 fixed_t); [apply x_start; reflexivity| |by constructor].
    exists (Ident 8 (str "e") (Some 1)). split; [reflexivity|]. split; [exists 5; split; calc|]. left. exists 10, [Ident 8 (str "e") (Some 1)], (Some 9).
    split; [member|by left].
  - eapply (ev_copy _ _ _ _ _ _ _ _ _ 1 1); [|apply some_struct_var; calc|reflexivity|reflexivity|by constructor].
    split; [reflexivity|]. split; [reflexivity|]. split; vm_compute; discriminate.
Qed.
Theorem C22_refuted_assert : witness x_assert.
Proof.
  set (K := Cell {[ str "k" ]} []).
  begin_witness x_assert (str "k") (<[0 := K]> (<[2 := K]> (<[1 := K]> ∅)) : heap).
  2: { eapply x_code; [reflexivity|left; apply (bool_decide_unpack _); vm_compute; exact Logic.I|discriminate]. }
  eapply (x_return x_assert exec_facts x_assert_f1 1 (set_var nothing 2 (VErr 2)) (<[2 := K]> (<[1 := K]> ∅)) x_assert_return); [calc| |member|reflexivity|calc|].
  - eapply (re_several x_assert _ _ _ _ _ _ nothing ∅ _ _ _ (<[1 := K]> ∅) [VErr 1; VOther]); [apply x_start; reflexivity|eapply (wr_assign _ _ x_assert_assert); [member|reflexivity|reflexivity]| |reflexivity| |].
    + discriminate.
    + apply (sv_assert_zero _ _ _ _ _ _ _ _ 17 15 (Node 16 (KIdent (str "x") (Some 1)) []) fixed_t); [reflexivity|exists 5; split; calc|by constructor].
    + eapply ss_cons; [|eapply ss_cons; [eapply st_blank; reflexivity|apply ss_nil]].
      eapply (st_struct _ _ _ _ _ _ _ _ _ 2 1 K); [reflexivity|reflexivity|apply some_struct_var; calc|reflexivity|reflexivity|by constructor].
  - eapply (ev_copy _ _ _ _ _ _ _ _ _ 2 2); [|apply some_struct_var; calc|reflexivity|reflexivity|by constructor].
    split; [reflexivity|]. split; [reflexivity|]. split; vm_compute; discriminate.
Qed.
(** The field TheCode of t is "b". *)
Theorem C22_refuted_conversion : witness x_conv.
Proof.
  set (B := Cell {[ str "k" ]} (str "b")).
  begin_witness x_conv (str "b") (<[0 := B]> ∅ : heap); [|code].
  eapply (x_return x_conv exec_facts x_conv_f1 1 nothing ∅ x_conv_return); [calc|apply x_start; reflexivity|member|reflexivity|calc|].
  eapply (ev_conversion _ _ _ _ _ _ _ _ _ _ (ErrorType {[ str "k" ]} (Some (str "TheCode", 0%nat))) (str "b")); [reflexivity|calc| |discriminate|by constructor].
  apply error_type_of_spec. calc.
Qed.
Theorem C22_refuted_recover : witness x_recover.
Proof.
  set (K := Cell {[ str "k" ]} []).
  begin_witness x_recover (str "k") (<[0 := K]> ∅ : heap).
  2: { eapply x_code; [reflexivity|left; apply (bool_decide_unpack _); vm_compute; exact Logic.I|discriminate]. }
  eapply (ex_recovered _ _ _ _ _ _ x_recover_f1 _ nothing ∅ _ _ fixed_t); [calc|apply x_start; reflexivity| |reflexivity|reflexivity|exists 5; split; calc|by constructor].
  exists 18, (node_kids x_recover_defer). member.
Qed.
Theorem C22_refuted_defer : witness x_defer.
Proof.
  begin_witness x_defer (str "b") (mem (str "b")); [|code].
  change (VErr 0) with (with_e 1 1).
  eapply (ex_deferred _ _ _ _ _ _ x_defer_f1 _ (with_e 1)); [calc| | |].
  - first_assign x_defer x_defer_f1 x_defer_start (str "b").
  - exists 22, (node_kids x_defer_defer). member.
  - eexists _, _, _. split; [reflexivity|]. split; [reflexivity|]. split; reflexivity.
Qed.
(** The field nil of s has an error with the code "b". *)
Theorem C22_refuted_nil_field : witness x_nil_field.
Proof.
  begin_witness x_nil_field (str "b") (mem (str "b")); [|code].
  eapply (x_return x_nil_field exec_facts x_nil_field_f1 1 nothing ∅ x_nil_field_return); [calc|apply x_start; reflexivity|member|reflexivity|calc|].
  apply ev_name; [calc|left; discriminate|done|]. split; [apply map_empty_subseteq|]. intros a [= <-]. by eexists.
Qed.
(** The error that is passed to set is changed there. *)
Theorem C22_refuted_setter : witness x_setter.
Proof.
  begin_witness x_setter (str "b") mem_b; [|code].
  return_var x_setter x_setter_f1 x_setter_return (with_e 2) mem_b 2.
  eapply (re_eval _ _ _ _ _ _ _ (with_e 2) (mem (str "a")) x_setter_call mem_b VNil); [|member|].
  - first_assign x_setter x_setter_f1 x_setter_start (str "a").
  - eapply (ev_call _ _ _ _ _ _ _ x_setter_call _ _ 2 [VErr 0]); [calc|reflexivity| |apply den_func; calc| |].
    + split; [|discriminate]. intros s (o&_&Ho). cbn [fa_codes exec_facts] in Ho. by rewrite lookup_empty in Ho.
    + intros [|p] a s Ha; [discriminate|]. intros Hv. vm_compute in Hv. destruct p; discriminate.
    + eapply (ex_done _ _ _ _ _ _ x_setter_f2 _ (with_e 3)); [calc|].
      eapply (re_assign x_setter _ _ _ _ _ _ (with_e 3) (mem (str "a")) _ _ (mem (str "a")) [VStr (str "b")]).
      * apply re_start. split; [|split].
        -- intros o a. unfold with_e, set_var. destruct (decide (o = 3)); [|discriminate]. intros [= <-]. by eexists.
        -- intros o (Ho&_) _. unfold with_e, set_var. destruct (decide (o = 3)) as [->|]; [|reflexivity]. vm_compute in Ho. discriminate.
        -- intros p i o Hp Ho. destruct p as [|p]; [|vm_compute in Hp; destruct p; discriminate]. vm_compute in Hp. injection Hp as <-.
           cbn in Ho. injection Ho as <-. reflexivity.
      * eapply (wr_assign _ _ x_setter_set); [member|reflexivity|reflexivity].
      * reflexivity.
      * eapply es_cons; [|apply es_nil]. eapply (x_string _ _ _ _ _ _ (str "b")); calc.
      * eapply ss_cons; [|apply ss_nil]. eapply (x_field _ _ _ _ _ _ _ _ _ _ 3 0 (Cell ∅ (str "a"))); [reflexivity|calc|reflexivity|reflexivity|reflexivity|reflexivity].
Qed.
