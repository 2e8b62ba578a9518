(** * A concrete package: all presuppositions of the theorems about runs are met by it.

<<
    type Error struct { TheCode string }
    func (e *Error) Code() string  { return e.TheCode }
    func (e *Error) Error() string { return e.TheCode }

    // Errors:
    //
    //    - param: code -- the code
    func NewErr(code string) error { return &Error{code} }

    type impl struct {}
    type Getter interface {
        // Errors:
        //
        //    - one -- always
        Get() error
    }
    type Both interface { Getter }

    // Errors:
    //
    //    - one -- sometimes
    //    - two -- otherwise
    func (impl) Get() error {
        _, err := two()
        if err == nil { return &Error{"one"} }
        return err
    }
    func two() (int, error) {
        e := &Error{TheCode: "start"}
        e.TheCode = "two"
        // Error Codes -= start
        return 0, e
    }
    // Errors:
    //
    //    - ping -- if n is 0
    //    - old -- never
    func A(n int) error { if ... { return NewErr("ping") }; return B(n) }
    func B(n int) error { return func(k int) error { return A(k) }(n) }

    // Errors: none
    func C() error { var g Getter = impl{}; b = g; return nil }
>>
    Written by tools/example_main.py. *)
From Coq Require Import Ascii String.
From stdpp Require Import base list gmap.
From Verif Require Import GoString ErrorCode Scc Engine CodeSet Annotation Constant GoAst Taint Extract Analyse Phase ErrorTypes Claims Interfaces
  Conversions Verify SpecMay SpecProgram SpecRun RunProofs ProgramProofs Checkers ExampleBase.
Local Open Scope N_scope.

Definition ex_types : list (N * gotype) := [(7, (TNamed 1)); (12, (TNamed 3)); (17, (TNamed 5)); (18, (TNamed 3)); (20, (TPointer (TNamed 2))); (22, (TPointer (TNamed 2))); (24, (TBasic (str "string"))); (29, (TPointer (TNamed 2))); (30, (TBasic (str "string"))); (31, (TBasic (str "string"))); (37, (TPointer (TNamed 2))); (39, (TPointer (TNamed 2))); (41, (TBasic (str "string"))); (46, (TPointer (TNamed 2))); (47, (TBasic (str "string"))); (48, (TBasic (str "string"))); (54, (TBasic (str "string"))); (56, (TBasic (str "string"))); (58, (TNamed 1)); (63, (TBasic (str "string"))); (64, (TNamed 2)); (65, (TPointer (TNamed 2))); (75, (TNamed 4)); (77, (TNamed 1)); (84, (TNamed 1)); (85, (TSignature [] [TBasic (str "int"); TNamed 1] false)); (86, (TTuple [TBasic (str "int"); TNamed 1])); (88, (TNamed 1)); (89, TUntypedNil); (91, (TBasic (str "string"))); (92, (TNamed 2)); (93, (TPointer (TNamed 2))); (97, (TNamed 1)); (103, (TBasic (str "int"))); (105, (TNamed 1)); (111, (TPointer (TNamed 2))); (113, (TBasic (str "string"))); (115, (TNamed 2)); (116, (TPointer (TNamed 2))); (118, (TPointer (TNamed 2))); (119, (TBasic (str "string"))); (120, (TBasic (str "string"))); (121, (TBasic (str "string"))); (123, (TBasic (str "int"))); (124, (TPointer (TNamed 2))); (130, (TBasic (str "int"))); (132, (TBasic (str "int"))); (134, (TNamed 1)); (139, (TSignature [TBasic (str "string")] [TNamed 1] false)); (140, (TBasic (str "string"))); (141, (TNamed 1)); (145, (TSignature [TBasic (str "int")] [TNamed 1] false)); (146, (TBasic (str "int"))); (147, (TNamed 1)); (153, (TBasic (str "int"))); (155, (TBasic (str "int"))); (157, (TNamed 1)); (163, (TBasic (str "int"))); (165, (TBasic (str "int"))); (167, (TNamed 1)); (171, (TSignature [TBasic (str "int")] [TNamed 1] false)); (172, (TBasic (str "int"))); (173, (TNamed 1)); (178, (TSignature [TBasic (str "int")] [TNamed 1] false)); (179, (TBasic (str "int"))); (180, (TNamed 1)); (186, (TNamed 1)); (193, (TNamed 4)); (194, (TNamed 3)); (195, (TNamed 3)); (196, (TNamed 5)); (197, (TNamed 3)); (199, (TNamed 5)); (203, TUntypedNil)].
Definition ex_values : list (N * constval) := [(91, (CString (str "one"))); (113, (CString (str "start"))); (121, (CString (str "two"))); (140, (CString (str "ping")))].
Definition ex_uses : list (N * tobj) := [(85, 26); (139, 23); (145, 28); (171, 27)].
Definition ex_defs : list (N * tobj) := [(2, 2); (5, 4); (11, 3); (14, 24); (16, 5); (27, 21); (44, 22); (61, 23); (80, 25); (108, 26); (137, 27); (160, 28); (189, 29)].
Definition ex_sels : list (N * (tobj * gotype)) := [].
Definition ex_objnames : list (N * gostring) := [(2, str "Error"); (3, str "Getter"); (4, str "impl"); (5, str "Both"); (21, str "Code"); (22, str "Error"); (23, str "NewErr"); (24, str "Get"); (25, str "Get"); (26, str "two"); (27, str "A"); (28, str "B"); (29, str "C")].
Definition ex_objtypes : list (N * gotype) := [(2, (TNamed 2)); (3, (TNamed 3)); (4, (TNamed 4)); (5, (TNamed 5))].
Definition ex_underlying : list (N * gotype) := [(1, (TInterface 1)); (2, (TStruct [(str "TheCode", TBasic (str "string"))])); (3, (TInterface 3)); (4, (TStruct [])); (5, (TInterface 3))].
Definition ex_methods : list (gotype * gostring * tobj) := [(TPointer (TNamed 2), str "Code", 21); (TPointer (TNamed 2), str "Error", 22); (TNamed 4, str "Get", 25); (TNamed 3, str "Get", 24); (TNamed 5, str "Get", 24)].
Definition ex_impl_error : list gotype := [TNamed 1; TPointer (TNamed 2)].
Definition ex_impl_ree : list gotype := [TPointer (TNamed 2)].
Definition ex_impl_cause : list gotype := [].
Definition ex_impl : list (gotype * gotype) := [].
Definition ex_named_methods : list (N * list gostring) := [(2, [str "Code"; str "Error"])].
Definition ex_info : typeinfo := table_info ex_types ex_values ex_uses ex_defs ex_sels [1; 2; 3; 4; 5] [] ex_objnames ex_objtypes ex_underlying ex_methods ex_impl_error ex_impl_ree ex_impl_cause ex_impl ex_named_methods.
Definition ex_f1 : func := Func 35 (Some (DeclInfo (Ident 27 (str "Code") None) (Some [Field 21 [Ident 20 (str "e") (Some 1)] 22]) None)) (FuncType 25 [] (Some [Field 23 [] 24]) 26) (Some (Node 33 (KOther (str "*ast.BlockStmt")) [Node 32 KReturn [Node 31 KSelector [Node 29 (KIdent (str "e") (Some 1)) []; Node 30 (KIdent (str "TheCode") None) []]]])) 28 34.
Definition ex_f2 : func := Func 52 (Some (DeclInfo (Ident 44 (str "Error") None) (Some [Field 38 [Ident 37 (str "e") (Some 2)] 39]) None)) (FuncType 42 [] (Some [Field 40 [] 41]) 43) (Some (Node 50 (KOther (str "*ast.BlockStmt")) [Node 49 KReturn [Node 48 KSelector [Node 46 (KIdent (str "e") (Some 2)) []; Node 47 (KIdent (str "TheCode") None) []]]])) 45 51.
Definition ex_f3 : func := Func 69 (Some (DeclInfo (Ident 61 (str "NewErr") None) None (Some (str "NewErr creates." ++ [10] ++ [] ++ [10] ++ str "Errors:" ++ [10] ++ [] ++ [10] ++ str "- param: code -- the code")))) (FuncType 59 [Field 55 [Ident 54 (str "code") (Some 3)] 56] (Some [Field 57 [] 58]) 60) (Some (Node 67 (KOther (str "*ast.BlockStmt")) [Node 66 KReturn [Node 65 (KUnary true) [Node 64 KComposite [Node 63 (KIdent (str "code") (Some 3)) []]]]])) 62 68.
Definition ex_f4 : func := Func 101 (Some (DeclInfo (Ident 80 (str "Get") None) (Some [Field 74 [] 75]) (Some (str "Errors:" ++ [10] ++ [] ++ [10] ++ str "- one -- sometimes" ++ [10] ++ str "- two -- otherwise")))) (FuncType 78 [] (Some [Field 76 [] 77]) 79) (Some (Node 99 (KOther (str "*ast.BlockStmt")) [Node 87 (KAssign 2%nat) [Node 83 (KIdent (str "_") None) []; Node 84 (KIdent (str "err") (Some 8)) []; Node 86 KCall [Node 85 (KIdent (str "two") (Some 5)) []]]; Node 96 (KOther (str "*ast.IfStmt")) [Node 90 (KOther (str "*ast.BinaryExpr")) [Node 88 (KIdent (str "err") (Some 8)) []; Node 89 (KIdent (str "nil") None) []]; Node 95 (KOther (str "*ast.BlockStmt")) [Node 94 KReturn [Node 93 (KUnary true) [Node 92 KComposite [Node 91 KBasicLit []]]]]]; Node 98 KReturn [Node 97 (KIdent (str "err") (Some 8)) []]])) 81 100.
Definition ex_f5 : func := Func 128 (Some (DeclInfo (Ident 108 (str "two") None) None None)) (FuncType 106 [] (Some [Field 102 [] 103; Field 104 [] 105]) 107) (Some (Node 126 (KOther (str "*ast.BlockStmt")) [Node 117 (KAssign 1%nat) [Node 111 (KIdent (str "e") (Some 9)) []; Node 116 (KUnary true) [Node 115 KComposite [Node 114 KKeyValue [Node 112 (KIdent (str "TheCode") None) []; Node 113 KBasicLit []]]]]; Node 122 (KAssign 1%nat) [Node 120 KSelector [Node 118 (KIdent (str "e") (Some 9)) []; Node 119 (KIdent (str "TheCode") None) []]; Node 121 KBasicLit []]; Node 125 KReturn [Node 123 KBasicLit []; Node 124 (KIdent (str "e") (Some 9)) []]])) 109 127.
Definition ex_f6 : func := Func 151 (Some (DeclInfo (Ident 137 (str "A") None) None (Some (str "Errors:" ++ [10] ++ [] ++ [10] ++ str "- ping -- if n is 0" ++ [10] ++ str "- old -- never")))) (FuncType 135 [Field 131 [Ident 130 (str "n") (Some 10)] 132] (Some [Field 133 [] 134]) 136) (Some (Node 149 (KOther (str "*ast.BlockStmt")) [Node 144 (KOther (str "*ast.IfStmt")) [Node 143 (KOther (str "*ast.BlockStmt")) [Node 142 KReturn [Node 141 KCall [Node 139 (KIdent (str "NewErr") (Some 4)) []; Node 140 KBasicLit []]]]]; Node 148 KReturn [Node 147 KCall [Node 145 (KIdent (str "B") (Some 7)) []; Node 146 (KIdent (str "n") (Some 10)) []]]])) 138 150.
Definition ex_f8 : func := Func 177 None (FuncType 168 [Field 164 [Ident 163 (str "k") (Some 12)] 165] (Some [Field 166 [] 167]) 169) (Some (Node 175 (KOther (str "*ast.BlockStmt")) [Node 174 KReturn [Node 173 KCall [Node 171 (KIdent (str "A") (Some 6)) []; Node 172 (KIdent (str "k") (Some 12)) []]]])) 170 176.
Definition ex_f7 : func := Func 184 (Some (DeclInfo (Ident 160 (str "B") None) None None)) (FuncType 158 [Field 154 [Ident 153 (str "n") (Some 11)] 155] (Some [Field 156 [] 157]) 159) (Some (Node 182 (KOther (str "*ast.BlockStmt")) [Node 181 KReturn [Node 180 KCall [Node 178 (KFuncLit 8) [Node 175 (KOther (str "*ast.BlockStmt")) [Node 174 KReturn [Node 173 KCall [Node 171 (KIdent (str "A") (Some 6)) []; Node 172 (KIdent (str "k") (Some 12)) []]]]]; Node 179 (KIdent (str "n") (Some 11)) []]]])) 161 183.
Definition ex_f9 : func := Func 207 (Some (DeclInfo (Ident 189 (str "C") None) None (Some (str "Errors: none")))) (FuncType 187 [] (Some [Field 185 [] 186]) 188) (Some (Node 205 (KOther (str "*ast.BlockStmt")) [Node 202 (KOther (str "*ast.DeclStmt")) [Node 201 (KOther (str "*ast.GenDecl")) [Node 198 (KValueSpec [Ident 195 (str "g") (Some 13)] (Some 197)) [Node 193 KComposite []]]]; Node 200 (KAssign 1%nat) [Node 199 (KIdent (str "b") (Some 14)) []; Node 194 (KIdent (str "g") (Some 13)) []]; Node 204 KReturn [Node 203 (KIdent (str "nil") None) []]])) 190 206.
Definition ex_funcs : gmap fid func := list_to_map [(1, ex_f1); (2, ex_f2); (3, ex_f3); (4, ex_f4); (5, ex_f5); (6, ex_f6); (8, ex_f8); (7, ex_f7); (9, ex_f9)].
Definition ex_objs : gmap oid object := list_to_map [(1, Object true 19 DOther); (2, Object true 36 DOther); (3, Object true 53 DOther); (4, Object false 70 (DFunc 3)); (5, Object false 71 (DFunc 5)); (6, Object false 72 (DFunc 6)); (7, Object false 73 (DFunc 7)); (8, Object true 82 DOther); (9, Object true 110 DOther); (10, Object true 129 DOther); (11, Object true 152 DOther); (12, Object true 162 DOther); (13, Object true 191 (DValueSpec [Ident 195 (str "g") (Some 13)] [Node 193 KComposite []])); (14, Object true 192 DOther)].
Definition ex_comments : list (N * list gostring) := [(125, [str "Error Codes -= start"])].
Definition ex : package := Package ex_funcs [1; 2; 3; 4; 5; 6; 7; 9] [GenDecl 1 [Some (TypeSpec (Ident 2 (str "Error") None) (XStruct [[Ident 3 (str "TheCode") None]]))]; GenDecl 4 [Some (TypeSpec (Ident 5 (str "impl") None) (XStruct []))]; GenDecl 10 [Some (TypeSpec (Ident 11 (str "Getter") None) (XInterface 12 [IMethod 13 (Ident 14 (str "Get") None) (Some (str "Errors:" ++ [10] ++ [] ++ [10] ++ str "- one -- always")) (FuncType 8 [] (Some [Field 6 [] 7]) 9)]))]; GenDecl 15 [Some (TypeSpec (Ident 16 (str "Both") None) (XInterface 17 [IEmbed 18 (str "Getter")]))]] [TopFunc 1; TopFunc 2; TopFunc 3; TopFunc 4; TopFunc 5; TopFunc 6; TopFunc 7; TopFunc 9] ex_objs (fun n => default [] (lookup_in ex_comments n)) ex_info.

(** ** The run *)
Notation ex_lk := (collectFunctions ex).
Notation ex_ord := (some_run_orders ex_lk).
Definition ex_run : run := run_of ex false ex_ord no_facts.
Definition ex_diags : list diag :=
  [Diag 151 (str "function ""A"" has a mismatch of declared and actual error codes: unused codes: [old]");
   Diag 193 (str "cannot use expression as ""Getter"" value: method ""Get"" declares the following error codes which were not part of the interface: [two]")].
Example ex_result : match runVerify ex false ex_ord no_facts with Ok (_, ds) => Some ds | _ => None end = Some ex_diags.
Proof. vm_compute. reflexivity. Qed.

Lemma ex_completes : completes ex false ex_ord no_facts ex_run.
Proof. apply run_of_ok. vm_compute. reflexivity. Qed.
Lemma ex_ok fa : usable_functions ex fa /\ no_literal_calls ex fa.
Proof. apply package_ok_spec. vm_compute. reflexivity. Qed.
Lemma ex_agree c : agree_everywhere ex c.
Proof. intros g fn Hg. eapply agree_spec; [|exact Hg]. vm_compute. reflexivity. Qed.
(** The codes found. *)
Lemma ex_found :
  elements <$> (e_found (r_loop ex_run) !! 4) = Some [str "one"; str "two"] /\
  elements <$> (e_found (r_loop ex_run) !! 5) = Some [str "two"] /\
  elements <$> (e_found (r_loop ex_run) !! 6) = Some [str "ping"] /\
  elements <$> (e_found (r_loop ex_run) !! 7) = Some [str "ping"] /\
  elements <$> (e_found (r_loop ex_run) !! 8) = Some [str "ping"].
Proof. vm_compute. done. Qed.

(** All presuppositions of the theorems about runs hold together, for both choices of iteration orders. *)
Theorem example_hypotheses : exists r,
  orders_ok ex_lk ex_ord /\ completes ex false ex_ord no_facts r /\
  usable_functions ex (facts_during ex ex_ord r) /\ no_literal_recursion ex ex_lk (facts_during ex ex_ord r) /\
  (forall c, agree_everywhere ex c) /\ r_diags r = ex_diags /\
  fa_ctor (facts_during ex ex_ord r) !! 23 = Some 0%nat /\
  elements <$> (fa_codes (facts_after ex ex_ord r) !! 27) = Some [str "old"; str "ping"].
Proof.
  exists ex_run. split; [apply some_run_orders_ok|]. split; [apply ex_completes|].
  destruct (ex_ok (facts_during ex ex_ord ex_run)) as [? ?]. split; [done|]. split; [by apply no_literal_calls_recursion|]. split; [apply ex_agree|].
  vm_compute. done.
Qed.
Example ex_result_reversed :
  match runVerify ex false (other_run_orders ex_lk) no_facts with Ok (_, ds) => Some ds | _ => None end = Some ex_diags.
Proof. vm_compute. reflexivity. Qed.
