(** * The hypotheses of C18 are satisfiable, and needed.  Written by tools/example_order.py. *)
From Coq Require Import Ascii String.
From stdpp Require Import base list gmap.
From Verif Require Import GoString ErrorCode Scc Engine CodeSet Annotation Constant GoAst Taint Extract Analyse Phase ErrorTypes Claims Interfaces
  Conversions Verify SpecMay SpecProgram SpecRun SpecInterfaces SpecSites SpecLiterals ProgramProofs RunProofs Checkers FormChecker InterfaceChecker ExampleBase Witness Example PropCrash PropOrder.
Local Open Scope N_scope.

(** Error as in Witness.v;
<<
    type Getter interface { // Errors: b
      Get() error }
    type Both interface { Getter }
    // Errors: a
    func F() error { return &Error{"b"} }
    // Errors: a
    func G() error { return &Error{"c"} }
    func C() { var g Both = impl{} }
    // Errors: a
    func (impl) Get() error { return &Error{"a"} }
>> *)
Definition eo_types : list (N * gotype) := [(2, (TNamed 1)); (9, (TNamed 3)); (10, (TNamed 3)); (13, (TNamed 5)); (17, (TNamed 1)); (22, (TBasic (str "string"))); (23, (TNamed 2)); (24, (TPointer (TNamed 2))); (30, (TNamed 1)); (35, (TBasic (str "string"))); (36, (TNamed 2)); (37, (TPointer (TNamed 2))); (47, (TNamed 4)); (48, (TNamed 5)); (49, (TNamed 5)); (57, (TNamed 4)); (59, (TNamed 1)); (64, (TBasic (str "string"))); (65, (TNamed 2)); (66, (TPointer (TNamed 2)))].
Definition eo_values : list (N * constval) := [(22, (CString (str "b"))); (35, (CString (str "c"))); (64, (CString (str "a")))].
Definition eo_uses : list (N * tobj) := [].
Definition eo_defs : list (N * tobj) := [(6, 31); (8, 3); (12, 5); (15, 4); (20, 21); (33, 22); (44, 23); (62, 24)].
Definition eo_sels : list (N * (tobj * gotype)) := [].
Definition eo_objnames : list (N * gostring) := [(2, str "Error"); (3, str "Getter"); (4, str "impl"); (5, str "Both"); (31, str "Get"); (21, str "F"); (22, str "G"); (23, str "C"); (24, str "Get")].
Definition eo_objtypes : list (N * gotype) := [(3, (TNamed 3)); (5, (TNamed 5)); (4, (TNamed 4))].
Definition eo_underlying : list (N * gotype) := [(1, (TInterface 1)); (2, (TStruct [(str "TheCode", TBasic (str "string"))])); (3, (TInterface 3)); (4, (TStruct [])); (5, (TInterface 3))].
Definition eo_methods : list (gotype * gostring * tobj) := [(TNamed 3, str "Get", 31); (TNamed 5, str "Get", 31); (TNamed 4, str "Get", 24)].
Definition eo_impl_error : list gotype := [TNamed 1; TPointer (TNamed 2)].
Definition eo_impl_ree : list gotype := [TPointer (TNamed 2)].
Definition eo_impl_cause : list gotype := [].
Definition eo_impl : list (gotype * gotype) := [].
Definition eo_named_methods : list (N * list gostring) := [].
Definition eo_info : typeinfo := table_info eo_types eo_values eo_uses eo_defs eo_sels [1; 2; 3; 4; 5] [] eo_objnames eo_objtypes eo_underlying eo_methods eo_impl_error eo_impl_ree eo_impl_cause eo_impl eo_named_methods.
Definition eo_f1 : func := Func 28 (Some (DeclInfo (Ident 20 (str "F") None) None (Some (str "Errors:" ++ [10] ++ [] ++ [10] ++ str "- a -- x")))) (FuncType 18 [] (Some [Field 16 [] 17]) 19) (Some (Node 26 (KOther (str "*ast.BlockStmt")) [Node 25 KReturn [Node 24 (KUnary true) [Node 23 KComposite [Node 22 KBasicLit []]]]])) 21 27.
Definition eo_f2 : func := Func 41 (Some (DeclInfo (Ident 33 (str "G") None) None (Some (str "Errors:" ++ [10] ++ [] ++ [10] ++ str "- a -- x")))) (FuncType 31 [] (Some [Field 29 [] 30]) 32) (Some (Node 39 (KOther (str "*ast.BlockStmt")) [Node 38 KReturn [Node 37 (KUnary true) [Node 36 KComposite [Node 35 KBasicLit []]]]])) 34 40.
Definition eo_f3 : func := Func 55 (Some (DeclInfo (Ident 44 (str "C") None) None None)) (FuncType 42 [] None 43) (Some (Node 53 (KOther (str "*ast.BlockStmt")) [Node 52 (KOther (str "*ast.DeclStmt")) [Node 51 (KOther (str "*ast.GenDecl")) [Node 50 (KValueSpec [Ident 48 (str "g") (Some 1)] (Some 49)) [Node 47 KComposite []]]]])) 45 54.
Definition eo_f4 : func := Func 70 (Some (DeclInfo (Ident 62 (str "Get") None) (Some [Field 56 [] 57]) (Some (str "Errors:" ++ [10] ++ [] ++ [10] ++ str "- a -- x")))) (FuncType 60 [] (Some [Field 58 [] 59]) 61) (Some (Node 68 (KOther (str "*ast.BlockStmt")) [Node 67 KReturn [Node 66 (KUnary true) [Node 65 KComposite [Node 64 KBasicLit []]]]])) 63 69.
Definition eo_funcs : gmap fid func := list_to_map [(1, eo_f1); (2, eo_f2); (3, eo_f3); (4, eo_f4)].
Definition eo_objs : gmap oid object := list_to_map [(1, Object true 46 (DValueSpec [Ident 48 (str "g") (Some 1)] [Node 47 KComposite []]))].
Definition eo_comments : list (N * list gostring) := [].
Definition eo : package := Package eo_funcs [1; 2; 3; 4] [GenDecl 7 [Some (TypeSpec (Ident 8 (str "Getter") None) (XInterface 9 [IMethod 5 (Ident 6 (str "Get") None) (Some (str "Errors:" ++ [10] ++ [] ++ [10] ++ str "- b -- x")) (FuncType 3 [] (Some [Field 1 [] 2]) 4)]))]; GenDecl 11 [Some (TypeSpec (Ident 12 (str "Both") None) (XInterface 13 [IEmbed 10 (str "Getter")]))]; GenDecl 14 [Some (TypeSpec (Ident 15 (str "impl") None) (XStruct []))]] [TopFunc 1; TopFunc 2; TopFunc 3; TopFunc 4] eo_objs (fun n => default [] (lookup_in eo_comments n)) eo_info.

(** 
<<
    type A interface { B; Get() error }   // Errors: a
    type B interface { X() }
    func f() { type B interface { A; Put() error } }   // Errors: a
    func C() { var g A = impl{} }
    // Errors: a
    func (impl) Get() error { return &Error{"a"} }
    func (impl) X() {}
>> *)
Definition wo_types : list (N * gotype) := [(1, (TNamed 5)); (3, (TNamed 1)); (10, (TNamed 3)); (17, (TNamed 5)); (20, (TNamed 3)); (22, (TNamed 1)); (29, (TNamed 6)); (35, (TNamed 4)); (36, (TNamed 3)); (37, (TNamed 3)); (45, (TNamed 4)); (47, (TNamed 1)); (52, (TBasic (str "string"))); (53, (TNamed 2)); (54, (TPointer (TNamed 2))); (60, (TNamed 4))].
Definition wo_values : list (N * constval) := [(52, (CString (str "a")))].
Definition wo_uses : list (N * tobj) := [].
Definition wo_defs : list (N * tobj) := [(7, 31); (9, 3); (14, 33); (16, 5); (19, 4); (26, 32); (28, 6); (32, 21); (50, 24); (63, 25)].
Definition wo_sels : list (N * (tobj * gotype)) := [].
Definition wo_objnames : list (N * gostring) := [(2, str "Error"); (3, str "Getter"); (4, str "impl"); (5, str "B"); (6, str "B"); (31, str "Get"); (32, str "Put"); (33, str "X"); (21, str "C"); (24, str "Get"); (25, str "X")].
Definition wo_objtypes : list (N * gotype) := [(3, (TNamed 3)); (5, (TNamed 5)); (6, (TNamed 6)); (4, (TNamed 4))].
Definition wo_underlying : list (N * gotype) := [(1, (TInterface 1)); (2, (TStruct [(str "TheCode", TBasic (str "string"))])); (3, (TInterface 3)); (4, (TStruct [])); (5, (TInterface 5)); (6, (TInterface 6))].
Definition wo_methods : list (gotype * gostring * tobj) := [(TNamed 3, str "Get", 31); (TNamed 3, str "X", 33); (TNamed 5, str "X", 33); (TNamed 6, str "Get", 31); (TNamed 6, str "Put", 32); (TNamed 6, str "X", 33); (TNamed 4, str "Get", 24); (TNamed 4, str "X", 25)].
Definition wo_impl_error : list gotype := [TNamed 1; TPointer (TNamed 2)].
Definition wo_impl_ree : list gotype := [TPointer (TNamed 2)].
Definition wo_impl_cause : list gotype := [].
Definition wo_impl : list (gotype * gotype) := [].
Definition wo_named_methods : list (N * list gostring) := [].
Definition wo_info : typeinfo := table_info wo_types wo_values wo_uses wo_defs wo_sels [1; 2; 3; 4; 5; 6] [] wo_objnames wo_objtypes wo_underlying wo_methods wo_impl_error wo_impl_ree wo_impl_cause wo_impl wo_named_methods.
Definition wo_f1 : func := Func 43 (Some (DeclInfo (Ident 32 (str "C") None) None None)) (FuncType 30 [] None 31) (Some (Node 41 (KOther (str "*ast.BlockStmt")) [Node 40 (KOther (str "*ast.DeclStmt")) [Node 39 (KOther (str "*ast.GenDecl")) [Node 38 (KValueSpec [Ident 36 (str "g") (Some 1)] (Some 37)) [Node 35 KComposite []]]]])) 33 42.
Definition wo_f2 : func := Func 58 (Some (DeclInfo (Ident 50 (str "Get") None) (Some [Field 44 [] 45]) (Some (str "Errors:" ++ [10] ++ [] ++ [10] ++ str "- a -- x")))) (FuncType 48 [] (Some [Field 46 [] 47]) 49) (Some (Node 56 (KOther (str "*ast.BlockStmt")) [Node 55 KReturn [Node 54 (KUnary true) [Node 53 KComposite [Node 52 KBasicLit []]]]])) 51 57.
Definition wo_f3 : func := Func 67 (Some (DeclInfo (Ident 63 (str "X") None) (Some [Field 59 [] 60]) None)) (FuncType 61 [] None 62) (Some (Node 65 (KOther (str "*ast.BlockStmt")) [])) 64 66.
Definition wo_funcs : gmap fid func := list_to_map [(1, wo_f1); (2, wo_f2); (3, wo_f3)].
Definition wo_objs : gmap oid object := list_to_map [(1, Object true 34 (DValueSpec [Ident 36 (str "g") (Some 1)] [Node 35 KComposite []]))].
Definition wo_comments : list (N * list gostring) := [].
Definition wo : package := Package wo_funcs [1; 2; 3] [GenDecl 8 [Some (TypeSpec (Ident 9 (str "A") None) (XInterface 10 [IEmbed 1 (str "B"); IMethod 6 (Ident 7 (str "Get") None) (Some (str "Errors:" ++ [10] ++ [] ++ [10] ++ str "- a -- x")) (FuncType 4 [] (Some [Field 2 [] 3]) 5)]))]; GenDecl 15 [Some (TypeSpec (Ident 16 (str "B") None) (XInterface 17 [IMethod 13 (Ident 14 (str "X") None) None (FuncType 11 [] None 12)]))]; GenDecl 18 [Some (TypeSpec (Ident 19 (str "impl") None) (XStruct []))]; GenDecl 27 [Some (TypeSpec (Ident 28 (str "B") None) (XInterface 29 [IEmbed 20 (str "A"); IMethod 25 (Ident 26 (str "Put") None) (Some (str "Errors:" ++ [10] ++ [] ++ [10] ++ str "- a -- x")) (FuncType 23 [] (Some [Field 21 [] 22]) 24)]))]] [TopFunc 1; TopFunc 2; TopFunc 3] wo_objs (fun n => default [] (lookup_in wo_comments n)) wo_info.

Definition answer (pk : package) (ord : orders) : outcome (list diag) :=
  match runVerify pk false ord imported with Ok (_, ds) => Ok ds | Panicked => Panicked | OutOfFuel => OutOfFuel end.
Definition order_hypotheses (pk : package) : Prop :=
  interfaces_ok pk /\ distinct_definitions pk /\ (forall w n, occurs pk w n -> ~ ill_formed pk w n) /\
  forall fa, usable_functions pk fa /\ no_literal_recursion pk (collectFunctions pk) fa /\ literals_apart pk (collectFunctions pk) fa.
Lemma order_hypotheses_spec pk rank : interfaces_check pk rank && definitions_check pk && package_formed pk && package_ok pk = true -> order_hypotheses pk.
Proof.
  rewrite !andb_true_iff. intros [[[H1 H2] H3] H4]. split_and!.
  - by eapply interfaces_check_spec.
  - by apply definitions_check_spec.
  - by apply package_formed_spec.
  - intros fa. destruct (package_ok_spec pk fa H4) as [? ?]. split_and!; [done|by apply no_literal_calls_recursion|by apply no_calls_apart].
Qed.
Theorem C18_example : order_hypotheses ex /\ order_hypotheses eo.
Proof.
  split.
  - apply (order_hypotheses_spec ex (fun n => if decide (n = str "Both") then 1%nat else 0%nat)). vm_compute. reflexivity.
  - apply (order_hypotheses_spec eo (fun n => if decide (n = str "Both") then 1%nat else 0%nat)). vm_compute. reflexivity.
Qed.
(** The order of the diagnostics does depend on the orders. *)
Definition eo_diags (d1 d2 : diag) : list diag := [d1; d2;
  Diag 47 (str "cannot use expression as ""Both"" value: method ""Get"" declares the following error codes which were not part of the interface: [a]")].
Definition eo_d1 : diag := Diag 28 (str "function ""F"" has a mismatch of declared and actual error codes: missing codes: [b] unused codes: [a]").
Definition eo_d2 : diag := Diag 41 (str "function ""G"" has a mismatch of declared and actual error codes: missing codes: [c] unused codes: [a]").
Example eo_result : answer eo (some_run_orders (collectFunctions eo)) = Ok (eo_diags eo_d1 eo_d2).
Proof. vm_compute. reflexivity. Qed.
Example eo_result_reversed : answer eo (other_run_orders (collectFunctions eo)) = Ok (eo_diags eo_d2 eo_d1).
Proof. vm_compute. reflexivity. Qed.
(** A local interface type that has the name of another one: the analyzer crashes for some iteration orders only. *)
Theorem C18_refuted_names : exists ord ord' fa ds, orders_ok (collectFunctions wo) ord /\ orders_ok (collectFunctions wo) ord' /\
  distinct_definitions wo /\ (forall w n, occurs wo w n -> ~ ill_formed wo w n) /\ (forall fa, usable_functions wo fa /\ no_literal_calls wo fa) /\
  runVerify wo false ord imported = Panicked /\ runVerify wo false ord' imported = Ok (fa, ds).
Proof.
  exists (some_run_orders (collectFunctions wo)), (other_run_orders (collectFunctions wo)).
  assert (answer wo (some_run_orders (collectFunctions wo)) = Panicked /\ answer wo (other_run_orders (collectFunctions wo)) = Ok []) as [H1 H2] by (vm_compute; tauto).
  assert (definitions_check wo && package_formed wo && package_ok wo = true) as H by (vm_compute; reflexivity). rewrite !andb_true_iff in H. destruct H as [[H3 H4] H5].
  unfold answer in *. destruct (runVerify wo false (some_run_orders (collectFunctions wo)) imported) as [[? ?]| |]; [discriminate| |discriminate].
  destruct (runVerify wo false (other_run_orders (collectFunctions wo)) imported) as [[fa ds]| |]; [|discriminate|discriminate].
  exists fa, ds. split; [apply some_run_orders_ok|]. split; [apply other_run_orders_ok|]. split; [exact (definitions_check_spec wo H3)|].
  split; [exact (package_formed_spec wo H4)|]. split; [|split; reflexivity]. intros fa'. exact (package_ok_spec wo fa' H5).
Qed.
