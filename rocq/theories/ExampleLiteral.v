(** * Function literals that are called through a variable.

    The imports are those of Witness.v.  The packages are written by tools/example_literal.py. *)
From Coq Require Import Ascii String.
From stdpp Require Import base list gmap.
From Verif Require Import GoString ErrorCode Scc Engine CodeSet Annotation Constant GoAst Taint Extract Analyse Phase ErrorTypes Claims Interfaces
  Conversions Verify SpecMay SpecProgram SpecRun RunProofs Checkers ExampleBase Witness SpecSites SpecInterfaces InterfaceChecker FormChecker SpecLiterals LiteralChecker SpecCodeMethod SpecCrash PropCrash PropOrder ExampleOrder CodeCheckers ExampleCrash.
From Verif Require Import GoAst.
Local Open Scope N_scope.

(** [func F() error { f := func() error { return &Error{"a"} }; return f() }], declared to return a *)
Definition l_once_types : list (N * gotype) := [(2, (TNamed 1)); (9, (TNamed 1)); (13, (TBasic (str "string"))); (14, (TNamed 2)); (15, (TPointer (TNamed 2))); (20, (TSignature [] [TNamed 1] false)); (21, (TSignature [] [TNamed 1] false)); (23, (TSignature [] [TNamed 1] false)); (24, (TNamed 1))].
Definition l_once_values : list (N * constval) := [(13, (CString (str "a")))].
Definition l_once_uses : list (N * tobj) := [(23, 41)].
Definition l_once_defs : list (N * tobj) := [(5, 21)].
Definition l_once_sels : list (N * (tobj * gotype)) := [].
Definition l_once_objnames : list (N * gostring) := [(2, str "Error"); (3, str "Getter"); (4, str "impl"); (21, str "F")].
Definition l_once_objtypes : list (N * gotype) := [].
Definition l_once_underlying : list (N * gotype) := [(1, (TInterface 1)); (2, (TStruct [(str "TheCode", TBasic (str "string"))])); (3, (TInterface 3)); (4, (TStruct []))].
Definition l_once_methods : list (gotype * gostring * tobj) := [].
Definition l_once_impl_error : list gotype := [TNamed 1; TPointer (TNamed 2)].
Definition l_once_impl_ree : list gotype := [TPointer (TNamed 2)].
Definition l_once_impl_cause : list gotype := [].
Definition l_once_impl : list (gotype * gotype) := [].
Definition l_once_named_methods : list (N * list gostring) := [].
Definition l_once_info : typeinfo := table_info l_once_types l_once_values l_once_uses l_once_defs l_once_sels [1; 2; 3; 4] [] l_once_objnames l_once_objtypes l_once_underlying l_once_methods l_once_impl_error l_once_impl_ree l_once_impl_cause l_once_impl l_once_named_methods.
Definition l_once_f2 : func := Func 19 None (FuncType 10 [] (Some [Field 8 [] 9]) 11) (Some (Node 17 (KOther (str "*ast.BlockStmt")) [Node 16 KReturn [Node 15 (KUnary true) [Node 14 KComposite [Node 13 KBasicLit []]]]])) 12 18.
Definition l_once_f1 : func := Func 28 (Some (DeclInfo (Ident 5 (str "F") None) None (Some (str "Errors:" ++ [10] ++ [] ++ [10] ++ str "- a -- x")))) (FuncType 3 [] (Some [Field 1 [] 2]) 4) (Some (Node 26 (KOther (str "*ast.BlockStmt")) [Node 22 (KAssign 1%nat) [Node 21 (KIdent (str "f") (Some 1)) []; Node 20 (KFuncLit 2) [Node 17 (KOther (str "*ast.BlockStmt")) [Node 16 KReturn [Node 15 (KUnary true) [Node 14 KComposite [Node 13 KBasicLit []]]]]]]; Node 25 KReturn [Node 24 KCall [Node 23 (KIdent (str "f") (Some 1)) []]]])) 6 27.
Definition l_once_funcs : gmap fid func := list_to_map [(2, l_once_f2); (1, l_once_f1)].
Definition l_once_objs : gmap oid object := list_to_map [(1, Object true 7 DOther)].
Definition l_once_comments : list (N * list gostring) := [].
Definition l_once : package := Package l_once_funcs [1] [] [TopFunc 1] l_once_objs (fun n => default [] (lookup_in l_once_comments n)) l_once_info.

(** [func H() error { if ... { return &Error{"a"} }; return F() }], declared to return a, and
    [func F() error { f := func() error { return H() }; return f() }], declared to return no codes *)
Definition l_recursive_types : list (N * gotype) := [(2, (TNamed 1)); (8, (TBasic (str "string"))); (9, (TNamed 2)); (10, (TPointer (TNamed 2))); (14, (TSignature [] [TNamed 1] false)); (15, (TNamed 1)); (21, (TNamed 1)); (29, (TNamed 1)); (33, (TSignature [] [TNamed 1] false)); (34, (TNamed 1)); (39, (TSignature [] [TNamed 1] false)); (40, (TSignature [] [TNamed 1] false)); (42, (TSignature [] [TNamed 1] false)); (43, (TNamed 1))].
Definition l_recursive_values : list (N * constval) := [(8, (CString (str "a")))].
Definition l_recursive_uses : list (N * tobj) := [(14, 22); (33, 21); (42, 41)].
Definition l_recursive_defs : list (N * tobj) := [(5, 21); (24, 22)].
Definition l_recursive_sels : list (N * (tobj * gotype)) := [].
Definition l_recursive_objnames : list (N * gostring) := [(2, str "Error"); (3, str "Getter"); (4, str "impl"); (21, str "H"); (22, str "F")].
Definition l_recursive_objtypes : list (N * gotype) := [].
Definition l_recursive_underlying : list (N * gotype) := [(1, (TInterface 1)); (2, (TStruct [(str "TheCode", TBasic (str "string"))])); (3, (TInterface 3)); (4, (TStruct []))].
Definition l_recursive_methods : list (gotype * gostring * tobj) := [].
Definition l_recursive_impl_error : list gotype := [TNamed 1; TPointer (TNamed 2)].
Definition l_recursive_impl_ree : list gotype := [TPointer (TNamed 2)].
Definition l_recursive_impl_cause : list gotype := [].
Definition l_recursive_impl : list (gotype * gotype) := [].
Definition l_recursive_named_methods : list (N * list gostring) := [].
Definition l_recursive_info : typeinfo := table_info l_recursive_types l_recursive_values l_recursive_uses l_recursive_defs l_recursive_sels [1; 2; 3; 4] [] l_recursive_objnames l_recursive_objtypes l_recursive_underlying l_recursive_methods l_recursive_impl_error l_recursive_impl_ree l_recursive_impl_cause l_recursive_impl l_recursive_named_methods.
Definition l_recursive_f1 : func := Func 19 (Some (DeclInfo (Ident 5 (str "H") None) None (Some (str "Errors:" ++ [10] ++ [] ++ [10] ++ str "- a -- x")))) (FuncType 3 [] (Some [Field 1 [] 2]) 4) (Some (Node 17 (KOther (str "*ast.BlockStmt")) [Node 13 (KOther (str "*ast.IfStmt")) [Node 12 (KOther (str "*ast.BlockStmt")) [Node 11 KReturn [Node 10 (KUnary true) [Node 9 KComposite [Node 8 KBasicLit []]]]]]; Node 16 KReturn [Node 15 KCall [Node 14 (KIdent (str "F") (Some 1)) []]]])) 6 18.
Definition l_recursive_f3 : func := Func 38 None (FuncType 30 [] (Some [Field 28 [] 29]) 31) (Some (Node 36 (KOther (str "*ast.BlockStmt")) [Node 35 KReturn [Node 34 KCall [Node 33 (KIdent (str "H") (Some 3)) []]]])) 32 37.
Definition l_recursive_f2 : func := Func 47 (Some (DeclInfo (Ident 24 (str "F") None) None (Some (str "Errors: none")))) (FuncType 22 [] (Some [Field 20 [] 21]) 23) (Some (Node 45 (KOther (str "*ast.BlockStmt")) [Node 41 (KAssign 1%nat) [Node 40 (KIdent (str "f") (Some 2)) []; Node 39 (KFuncLit 3) [Node 36 (KOther (str "*ast.BlockStmt")) [Node 35 KReturn [Node 34 KCall [Node 33 (KIdent (str "H") (Some 3)) []]]]]]; Node 44 KReturn [Node 43 KCall [Node 42 (KIdent (str "f") (Some 2)) []]]])) 25 46.
Definition l_recursive_funcs : gmap fid func := list_to_map [(1, l_recursive_f1); (3, l_recursive_f3); (2, l_recursive_f2)].
Definition l_recursive_objs : gmap oid object := list_to_map [(1, Object false 7 (DFunc 2)); (2, Object true 26 DOther); (3, Object false 27 (DFunc 1))].
Definition l_recursive_comments : list (N * list gostring) := [].
Definition l_recursive : package := Package l_recursive_funcs [1; 2] [] [TopFunc 1; TopFunc 2] l_recursive_objs (fun n => default [] (lookup_in l_recursive_comments n)) l_recursive_info.

(** [func F() error { f := func() error { return &Error{"a"} }; if ... { return f() }; return f() }], declared to return a *)
Definition l_twice_types : list (N * gotype) := [(2, (TNamed 1)); (9, (TNamed 1)); (13, (TBasic (str "string"))); (14, (TNamed 2)); (15, (TPointer (TNamed 2))); (20, (TSignature [] [TNamed 1] false)); (21, (TSignature [] [TNamed 1] false)); (23, (TSignature [] [TNamed 1] false)); (24, (TNamed 1)); (28, (TSignature [] [TNamed 1] false)); (29, (TNamed 1))].
Definition l_twice_values : list (N * constval) := [(13, (CString (str "a")))].
Definition l_twice_uses : list (N * tobj) := [(23, 41); (28, 41)].
Definition l_twice_defs : list (N * tobj) := [(5, 21)].
Definition l_twice_sels : list (N * (tobj * gotype)) := [].
Definition l_twice_objnames : list (N * gostring) := [(2, str "Error"); (3, str "Getter"); (4, str "impl"); (21, str "F")].
Definition l_twice_objtypes : list (N * gotype) := [].
Definition l_twice_underlying : list (N * gotype) := [(1, (TInterface 1)); (2, (TStruct [(str "TheCode", TBasic (str "string"))])); (3, (TInterface 3)); (4, (TStruct []))].
Definition l_twice_methods : list (gotype * gostring * tobj) := [].
Definition l_twice_impl_error : list gotype := [TNamed 1; TPointer (TNamed 2)].
Definition l_twice_impl_ree : list gotype := [TPointer (TNamed 2)].
Definition l_twice_impl_cause : list gotype := [].
Definition l_twice_impl : list (gotype * gotype) := [].
Definition l_twice_named_methods : list (N * list gostring) := [].
Definition l_twice_info : typeinfo := table_info l_twice_types l_twice_values l_twice_uses l_twice_defs l_twice_sels [1; 2; 3; 4] [] l_twice_objnames l_twice_objtypes l_twice_underlying l_twice_methods l_twice_impl_error l_twice_impl_ree l_twice_impl_cause l_twice_impl l_twice_named_methods.
Definition l_twice_f2 : func := Func 19 None (FuncType 10 [] (Some [Field 8 [] 9]) 11) (Some (Node 17 (KOther (str "*ast.BlockStmt")) [Node 16 KReturn [Node 15 (KUnary true) [Node 14 KComposite [Node 13 KBasicLit []]]]])) 12 18.
Definition l_twice_f1 : func := Func 33 (Some (DeclInfo (Ident 5 (str "F") None) None (Some (str "Errors:" ++ [10] ++ [] ++ [10] ++ str "- a -- x")))) (FuncType 3 [] (Some [Field 1 [] 2]) 4) (Some (Node 31 (KOther (str "*ast.BlockStmt")) [Node 22 (KAssign 1%nat) [Node 21 (KIdent (str "f") (Some 1)) []; Node 20 (KFuncLit 2) [Node 17 (KOther (str "*ast.BlockStmt")) [Node 16 KReturn [Node 15 (KUnary true) [Node 14 KComposite [Node 13 KBasicLit []]]]]]]; Node 27 (KOther (str "*ast.IfStmt")) [Node 26 (KOther (str "*ast.BlockStmt")) [Node 25 KReturn [Node 24 KCall [Node 23 (KIdent (str "f") (Some 1)) []]]]]; Node 30 KReturn [Node 29 KCall [Node 28 (KIdent (str "f") (Some 1)) []]]])) 6 32.
Definition l_twice_funcs : gmap fid func := list_to_map [(2, l_twice_f2); (1, l_twice_f1)].
Definition l_twice_objs : gmap oid object := list_to_map [(1, Object true 7 DOther)].
Definition l_twice_comments : list (N * list gostring) := [].
Definition l_twice : package := Package l_twice_funcs [1] [] [TopFunc 1] l_twice_objs (fun n => default [] (lookup_in l_twice_comments n)) l_twice_info.

(** A literal that is called once is within the scope of the theorems about completed runs; its codes are found. *)
Theorem C17_example_literal : exists r,
  orders_ok (collectFunctions l_once) (some_run_orders (collectFunctions l_once)) /\
  completes l_once false (some_run_orders (collectFunctions l_once)) imported r /\
  (forall fa, usable_functions l_once fa /\ no_literal_recursion l_once (collectFunctions l_once) fa) /\
  (forall c, agree_everywhere l_once c) /\
  elements <$> (e_found (r_loop r) !! 1) = Some [str "a"] /\ r_diags r = [].
Proof.
  exists (run_of l_once false (some_run_orders (collectFunctions l_once)) imported). split; [apply some_run_orders_ok|].
  split; [apply run_of_ok; vm_compute; reflexivity|]. split; [|split].
  - intros fa. split; [apply package_usable_spec; vm_compute; reflexivity|]. apply simple_literals_spec; vm_compute; reflexivity.
  - intros c g fn Hg. eapply agree_spec; [|exact Hg]. vm_compute. reflexivity.
  - vm_compute. tauto.
Qed.

Definition order_hypotheses_but_literals (pk : package) : Prop :=
  interfaces_ok pk /\ distinct_definitions pk /\ (forall w n, occurs pk w n -> ~ ill_formed pk w n) /\ forall fa, usable_functions pk fa.
Lemma order_hypotheses_but_literals_spec pk rank : interfaces_check pk rank && definitions_check pk && package_formed pk && package_usable pk = true ->
  order_hypotheses_but_literals pk.
Proof.
  rewrite !andb_true_iff. intros [[[H1 H2] H3] H4]. split_and!.
  - by eapply interfaces_check_spec.
  - by apply definitions_check_spec.
  - by apply package_formed_spec.
  - intros fa. by apply package_usable_spec.
Qed.
(** The order in which the declared functions are analysed decides whether F is reported; if H comes first, F is
    accepted although it may return a. *)
Definition l_missing : diag := Diag 47 (str "function ""F"" has a mismatch of declared and actual error codes: missing codes: [a]").
Theorem C18_refuted_literal : order_hypotheses_but_literals l_recursive /\
  answer l_recursive (some_run_orders (collectFunctions l_recursive)) = Ok [] /\
  answer l_recursive (other_run_orders (collectFunctions l_recursive)) = Ok [l_missing].
Proof.
  split; [apply order_hypotheses_but_literals_spec with (rank := fun _ => 0%nat); vm_compute; reflexivity|]. split; vm_compute; reflexivity.
Qed.
(** The hypotheses of C18 and of C23_exact_literals, for a package with a literal that is called once, and one with a literal that is called twice: the
    second crashes the analyzer, for every order. *)
Lemma literal_hypotheses_spec pk rank : interfaces_check pk rank && definitions_check pk && package_formed pk && package_usable pk && simple_literals pk && apart_b pk = true ->
  order_hypotheses pk.
Proof.
  rewrite !andb_true_iff. intros [[[[[H1 H2] H3] H4] H5] H6]. split_and!.
  - by eapply interfaces_check_spec.
  - by apply definitions_check_spec.
  - by apply package_formed_spec.
  - intros fa. split_and!; [by apply package_usable_spec|by apply simple_literals_spec|by apply apart_spec].
Qed.
Theorem C18_example_literals : order_hypotheses l_once /\ order_hypotheses l_twice /\
  answer l_once (some_run_orders (collectFunctions l_once)) = Ok [] /\
  answer l_twice (some_run_orders (collectFunctions l_twice)) = Panicked.
Proof.
  split; [apply literal_hypotheses_spec with (rank := fun _ => 0%nat); vm_compute; reflexivity|].
  split; [apply literal_hypotheses_spec with (rank := fun _ => 0%nat); vm_compute; reflexivity|]. split; vm_compute; reflexivity.
Qed.
Definition literal_hypotheses (pk : package) : Prop :=
  types_usable pk /\ (forall w n, occurs pk w n -> ~ ill_formed pk w n) /\
  forall fa, usable_functions pk fa /\ no_literal_recursion pk (collectFunctions pk) fa /\ literals_apart pk (collectFunctions pk) fa.
Theorem C23_example_literals : literal_hypotheses l_once /\ literal_hypotheses l_twice.
Proof.
  assert (forall pk, order_hypotheses pk -> types_ok pk = true -> literal_hypotheses pk) as H.
  { intros pk (_&_&H2&H3) H1. split_and!; [by apply types_ok_spec|done|done]. }
  destruct C18_example_literals as (H1&H2&_&_). split; (apply H; [assumption|vm_compute; reflexivity]).
Qed.
