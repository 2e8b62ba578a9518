(** * Programs on which the analyzer crashes, or gives an answer that is not what one would expect.

    All of them import a package with
<<
    type Error struct { TheCode string }     // the code of an Error is its field TheCode
    type Getter interface {
        // Errors: none
        Get() error
    }
>>
    The packages are written by tools/example_witness.py. *)
From Coq Require Import Ascii String.
From stdpp Require Import base list gmap.
From Verif Require Import GoString ErrorCode Scc Engine CodeSet Annotation Constant GoAst Taint Extract Analyse Phase ErrorTypes Claims Interfaces
  Conversions Verify SpecMay SpecProgram SpecRun RunProofs Checkers ExampleBase.
Local Open Scope N_scope.

(** The facts imported: object 2 is the type Error, 3 is Getter, 32 is Getter.Get. *)
Definition imported : facts :=
  Facts {[ 32 := ∅ ]} ∅ {[ 2 := ErrorType ∅ (Some (str "TheCode", 0%nat)) ]} {[ 3 := {[ str "Get" := ∅ ]} ]}.

(** [func F() error { f := func() error { return &Error{"a"} }; if ... { return f() }; return f() }] *)
Definition w_lambda_types : list (N * gotype) := [(2, (TNamed 1)); (9, (TNamed 1)); (13, (TBasic (str "string"))); (14, (TNamed 2)); (15, (TPointer (TNamed 2))); (20, (TSignature [] [TNamed 1] false)); (21, (TSignature [] [TNamed 1] false)); (23, (TSignature [] [TNamed 1] false)); (24, (TNamed 1)); (28, (TSignature [] [TNamed 1] false)); (29, (TNamed 1))].
Definition w_lambda_values : list (N * constval) := [(13, (CString (str "a")))].
Definition w_lambda_uses : list (N * tobj) := [(23, 41); (28, 41)].
Definition w_lambda_defs : list (N * tobj) := [(5, 21)].
Definition w_lambda_sels : list (N * (tobj * gotype)) := [].
Definition w_lambda_objnames : list (N * gostring) := [(2, str "Error"); (3, str "Getter"); (4, str "impl"); (21, str "F")].
Definition w_lambda_objtypes : list (N * gotype) := [].
Definition w_lambda_underlying : list (N * gotype) := [(1, (TInterface 1)); (2, (TStruct [(str "TheCode", TBasic (str "string"))])); (3, (TInterface 3)); (4, (TStruct []))].
Definition w_lambda_methods : list (gotype * gostring * tobj) := [].
Definition w_lambda_impl_error : list gotype := [TNamed 1; TPointer (TNamed 2)].
Definition w_lambda_impl_ree : list gotype := [TPointer (TNamed 2)].
Definition w_lambda_impl_cause : list gotype := [].
Definition w_lambda_impl : list (gotype * gotype) := [].
Definition w_lambda_named_methods : list (N * list gostring) := [].
Definition w_lambda_info : typeinfo := table_info w_lambda_types w_lambda_values w_lambda_uses w_lambda_defs w_lambda_sels [1; 2; 3; 4] [] w_lambda_objnames w_lambda_objtypes w_lambda_underlying w_lambda_methods w_lambda_impl_error w_lambda_impl_ree w_lambda_impl_cause w_lambda_impl w_lambda_named_methods.
Definition w_lambda_f2 : func := Func 19 None (FuncType 10 [] (Some [Field 8 [] 9]) 11) (Some (Node 17 (KOther (str "*ast.BlockStmt")) [Node 16 KReturn [Node 15 (KUnary true) [Node 14 KComposite [Node 13 KBasicLit []]]]])) 12 18.
Definition w_lambda_f1 : func := Func 33 (Some (DeclInfo (Ident 5 (str "F") None) None (Some (str "Errors:" ++ [10] ++ [] ++ [10] ++ str "- a -- x")))) (FuncType 3 [] (Some [Field 1 [] 2]) 4) (Some (Node 31 (KOther (str "*ast.BlockStmt")) [Node 22 (KAssign 1%nat) [Node 21 (KIdent (str "f") (Some 1)) []; Node 20 (KFuncLit 2) [Node 17 (KOther (str "*ast.BlockStmt")) [Node 16 KReturn [Node 15 (KUnary true) [Node 14 KComposite [Node 13 KBasicLit []]]]]]]; Node 27 (KOther (str "*ast.IfStmt")) [Node 26 (KOther (str "*ast.BlockStmt")) [Node 25 KReturn [Node 24 KCall [Node 23 (KIdent (str "f") (Some 1)) []]]]]; Node 30 KReturn [Node 29 KCall [Node 28 (KIdent (str "f") (Some 1)) []]]])) 6 32.
Definition w_lambda_funcs : gmap fid func := list_to_map [(2, w_lambda_f2); (1, w_lambda_f1)].
Definition w_lambda_objs : gmap oid object := list_to_map [(1, Object true 7 DOther)].
Definition w_lambda_comments : list (N * list gostring) := [].
Definition w_lambda : package := Package w_lambda_funcs [1] [] [TopFunc 1] w_lambda_objs (fun n => default [] (lookup_in w_lambda_comments n)) w_lambda_info.

(** [func F() error { err, ok := m[0]; return err }] *)
Definition w_map_types : list (N * gotype) := [(2, (TNamed 1)); (9, (TNamed 1)); (11, (TMap (TBasic (str "int")) (TNamed 1))); (12, (TBasic (str "int"))); (13, (TNamed 1)); (15, (TNamed 1))].
Definition w_map_values : list (N * constval) := [].
Definition w_map_uses : list (N * tobj) := [].
Definition w_map_defs : list (N * tobj) := [(5, 21)].
Definition w_map_sels : list (N * (tobj * gotype)) := [].
Definition w_map_objnames : list (N * gostring) := [(2, str "Error"); (3, str "Getter"); (4, str "impl"); (21, str "F")].
Definition w_map_objtypes : list (N * gotype) := [].
Definition w_map_underlying : list (N * gotype) := [(1, (TInterface 1)); (2, (TStruct [(str "TheCode", TBasic (str "string"))])); (3, (TInterface 3)); (4, (TStruct []))].
Definition w_map_methods : list (gotype * gostring * tobj) := [].
Definition w_map_impl_error : list gotype := [TNamed 1; TPointer (TNamed 2)].
Definition w_map_impl_ree : list gotype := [TPointer (TNamed 2)].
Definition w_map_impl_cause : list gotype := [].
Definition w_map_impl : list (gotype * gotype) := [].
Definition w_map_named_methods : list (N * list gostring) := [].
Definition w_map_info : typeinfo := table_info w_map_types w_map_values w_map_uses w_map_defs w_map_sels [1; 2; 3; 4] [] w_map_objnames w_map_objtypes w_map_underlying w_map_methods w_map_impl_error w_map_impl_ree w_map_impl_cause w_map_impl w_map_named_methods.
Definition w_map_f1 : func := Func 19 (Some (DeclInfo (Ident 5 (str "F") None) None (Some (str "Errors:" ++ [10] ++ [] ++ [10] ++ str "- a -- x")))) (FuncType 3 [] (Some [Field 1 [] 2]) 4) (Some (Node 17 (KOther (str "*ast.BlockStmt")) [Node 14 (KAssign 2%nat) [Node 9 (KIdent (str "err") (Some 1)) []; Node 10 (KIdent (str "ok") None) []; Node 13 KIndex [Node 11 (KIdent (str "m") (Some 2)) []; Node 12 KBasicLit []]]; Node 16 KReturn [Node 15 (KIdent (str "err") (Some 1)) []]])) 6 18.
Definition w_map_funcs : gmap fid func := list_to_map [(1, w_map_f1)].
Definition w_map_objs : gmap oid object := list_to_map [(1, Object true 7 DOther); (2, Object true 8 DOther)].
Definition w_map_comments : list (N * list gostring) := [].
Definition w_map : package := Package w_map_funcs [1] [] [TopFunc 1] w_map_objs (fun n => default [] (lookup_in w_map_comments n)) w_map_info.

(** [func F() error], implemented in assembly *)
Definition w_body_types : list (N * gotype) := [(2, (TNamed 1))].
Definition w_body_values : list (N * constval) := [].
Definition w_body_uses : list (N * tobj) := [].
Definition w_body_defs : list (N * tobj) := [(5, 21)].
Definition w_body_sels : list (N * (tobj * gotype)) := [].
Definition w_body_objnames : list (N * gostring) := [(2, str "Error"); (3, str "Getter"); (4, str "impl"); (21, str "F")].
Definition w_body_objtypes : list (N * gotype) := [].
Definition w_body_underlying : list (N * gotype) := [(1, (TInterface 1)); (2, (TStruct [(str "TheCode", TBasic (str "string"))])); (3, (TInterface 3)); (4, (TStruct []))].
Definition w_body_methods : list (gotype * gostring * tobj) := [].
Definition w_body_impl_error : list gotype := [TNamed 1; TPointer (TNamed 2)].
Definition w_body_impl_ree : list gotype := [TPointer (TNamed 2)].
Definition w_body_impl_cause : list gotype := [].
Definition w_body_impl : list (gotype * gotype) := [].
Definition w_body_named_methods : list (N * list gostring) := [].
Definition w_body_info : typeinfo := table_info w_body_types w_body_values w_body_uses w_body_defs w_body_sels [1; 2; 3; 4] [] w_body_objnames w_body_objtypes w_body_underlying w_body_methods w_body_impl_error w_body_impl_ree w_body_impl_cause w_body_impl w_body_named_methods.
Definition w_body_f1 : func := Func 8 (Some (DeclInfo (Ident 5 (str "F") None) None (Some (str "Errors:" ++ [10] ++ [] ++ [10] ++ str "- a -- x")))) (FuncType 3 [] (Some [Field 1 [] 2]) 4) None 6 7.
Definition w_body_funcs : gmap fid func := list_to_map [(1, w_body_f1)].
Definition w_body_objs : gmap oid object := list_to_map [].
Definition w_body_comments : list (N * list gostring) := [].
Definition w_body : package := Package w_body_funcs [1] [] [TopFunc 1] w_body_objs (fun n => default [] (lookup_in w_body_comments n)) w_body_info.

(** [func f() () {}] *)
Definition w_results_types : list (N * gotype) := [].
Definition w_results_values : list (N * constval) := [].
Definition w_results_uses : list (N * tobj) := [].
Definition w_results_defs : list (N * tobj) := [(3, 21)].
Definition w_results_sels : list (N * (tobj * gotype)) := [].
Definition w_results_objnames : list (N * gostring) := [(2, str "Error"); (3, str "Getter"); (4, str "impl"); (21, str "f")].
Definition w_results_objtypes : list (N * gotype) := [].
Definition w_results_underlying : list (N * gotype) := [(1, (TInterface 1)); (2, (TStruct [(str "TheCode", TBasic (str "string"))])); (3, (TInterface 3)); (4, (TStruct []))].
Definition w_results_methods : list (gotype * gostring * tobj) := [].
Definition w_results_impl_error : list gotype := [TNamed 1; TPointer (TNamed 2)].
Definition w_results_impl_ree : list gotype := [TPointer (TNamed 2)].
Definition w_results_impl_cause : list gotype := [].
Definition w_results_impl : list (gotype * gotype) := [].
Definition w_results_named_methods : list (N * list gostring) := [].
Definition w_results_info : typeinfo := table_info w_results_types w_results_values w_results_uses w_results_defs w_results_sels [1; 2; 3; 4] [] w_results_objnames w_results_objtypes w_results_underlying w_results_methods w_results_impl_error w_results_impl_ree w_results_impl_cause w_results_impl w_results_named_methods.
Definition w_results_f1 : func := Func 7 (Some (DeclInfo (Ident 3 (str "f") None) None None)) (FuncType 1 [] (Some []) 2) (Some (Node 5 (KOther (str "*ast.BlockStmt")) [])) 4 6.
Definition w_results_funcs : gmap fid func := list_to_map [(1, w_results_f1)].
Definition w_results_objs : gmap oid object := list_to_map [].
Definition w_results_comments : list (N * list gostring) := [].
Definition w_results : package := Package w_results_funcs [1] [] [TopFunc 1] w_results_objs (fun n => default [] (lookup_in w_results_comments n)) w_results_info.

(** [func F() (Getter, Getter) { return g() }] *)
Definition w_multi_types : list (N * gotype) := [(2, (TNamed 3)); (4, (TNamed 3)); (10, (TSignature [] [TNamed 3; TNamed 3] false)); (11, (TTuple [TNamed 3; TNamed 3])); (17, (TNamed 3)); (19, (TNamed 3)); (24, TUntypedNil); (25, TUntypedNil)].
Definition w_multi_values : list (N * constval) := [].
Definition w_multi_uses : list (N * tobj) := [(10, 22)].
Definition w_multi_defs : list (N * tobj) := [(7, 21); (22, 22)].
Definition w_multi_sels : list (N * (tobj * gotype)) := [].
Definition w_multi_objnames : list (N * gostring) := [(2, str "Error"); (3, str "Getter"); (4, str "impl"); (21, str "F"); (22, str "g")].
Definition w_multi_objtypes : list (N * gotype) := [].
Definition w_multi_underlying : list (N * gotype) := [(1, (TInterface 1)); (2, (TStruct [(str "TheCode", TBasic (str "string"))])); (3, (TInterface 3)); (4, (TStruct []))].
Definition w_multi_methods : list (gotype * gostring * tobj) := [].
Definition w_multi_impl_error : list gotype := [TNamed 1; TPointer (TNamed 2)].
Definition w_multi_impl_ree : list gotype := [TPointer (TNamed 2)].
Definition w_multi_impl_cause : list gotype := [].
Definition w_multi_impl : list (gotype * gotype) := [].
Definition w_multi_named_methods : list (N * list gostring) := [].
Definition w_multi_info : typeinfo := table_info w_multi_types w_multi_values w_multi_uses w_multi_defs w_multi_sels [1; 2; 3; 4] [] w_multi_objnames w_multi_objtypes w_multi_underlying w_multi_methods w_multi_impl_error w_multi_impl_ree w_multi_impl_cause w_multi_impl w_multi_named_methods.
Definition w_multi_f1 : func := Func 15 (Some (DeclInfo (Ident 7 (str "F") None) None None)) (FuncType 5 [] (Some [Field 1 [] 2; Field 3 [] 4]) 6) (Some (Node 13 (KOther (str "*ast.BlockStmt")) [Node 12 KReturn [Node 11 KCall [Node 10 (KIdent (str "g") (Some 1)) []]]])) 8 14.
Definition w_multi_f2 : func := Func 29 (Some (DeclInfo (Ident 22 (str "g") None) None None)) (FuncType 20 [] (Some [Field 16 [] 17; Field 18 [] 19]) 21) (Some (Node 27 (KOther (str "*ast.BlockStmt")) [Node 26 KReturn [Node 24 (KIdent (str "nil") None) []; Node 25 (KIdent (str "nil") None) []]])) 23 28.
Definition w_multi_funcs : gmap fid func := list_to_map [(1, w_multi_f1); (2, w_multi_f2)].
Definition w_multi_objs : gmap oid object := list_to_map [(1, Object false 9 (DFunc 2))].
Definition w_multi_comments : list (N * list gostring) := [].
Definition w_multi : package := Package w_multi_funcs [1; 2] [] [TopFunc 1; TopFunc 2] w_multi_objs (fun n => default [] (lookup_in w_multi_comments n)) w_multi_info.

(** [func NewErr(n int, code string) error; func F() error { return NewErr(two()) }] *)
Definition w_ctor_types : list (N * gotype) := [(3, (TBasic (str "int"))); (4, (TBasic (str "string"))); (6, (TBasic (str "int"))); (7, (TBasic (str "string"))); (7, (TBasic (str "string"))); (9, (TNamed 1)); (14, (TBasic (str "string"))); (15, (TNamed 2)); (16, (TPointer (TNamed 2))); (24, (TNamed 1)); (29, (TSignature [TBasic (str "int"); TBasic (str "string")] [TNamed 1] false)); (30, (TSignature [] [TBasic (str "int"); TBasic (str "string")] false)); (31, (TTuple [TBasic (str "int"); TBasic (str "string")])); (32, (TNamed 1)); (38, (TBasic (str "int"))); (40, (TBasic (str "string"))); (45, (TBasic (str "int"))); (46, (TBasic (str "string")))].
Definition w_ctor_values : list (N * constval) := [(46, (CString (str "a")))].
Definition w_ctor_uses : list (N * tobj) := [(29, 21); (30, 23)].
Definition w_ctor_defs : list (N * tobj) := [(12, 21); (27, 22); (43, 23)].
Definition w_ctor_sels : list (N * (tobj * gotype)) := [].
Definition w_ctor_objnames : list (N * gostring) := [(2, str "Error"); (3, str "Getter"); (4, str "impl"); (21, str "NewErr"); (22, str "F"); (23, str "two")].
Definition w_ctor_objtypes : list (N * gotype) := [].
Definition w_ctor_underlying : list (N * gotype) := [(1, (TInterface 1)); (2, (TStruct [(str "TheCode", TBasic (str "string"))])); (3, (TInterface 3)); (4, (TStruct []))].
Definition w_ctor_methods : list (gotype * gostring * tobj) := [].
Definition w_ctor_impl_error : list gotype := [TNamed 1; TPointer (TNamed 2)].
Definition w_ctor_impl_ree : list gotype := [TPointer (TNamed 2)].
Definition w_ctor_impl_cause : list gotype := [].
Definition w_ctor_impl : list (gotype * gotype) := [].
Definition w_ctor_named_methods : list (N * list gostring) := [].
Definition w_ctor_info : typeinfo := table_info w_ctor_types w_ctor_values w_ctor_uses w_ctor_defs w_ctor_sels [1; 2; 3; 4] [] w_ctor_objnames w_ctor_objtypes w_ctor_underlying w_ctor_methods w_ctor_impl_error w_ctor_impl_ree w_ctor_impl_cause w_ctor_impl w_ctor_named_methods.
Definition w_ctor_f1 : func := Func 20 (Some (DeclInfo (Ident 12 (str "NewErr") None) None (Some (str "Errors:" ++ [10] ++ [] ++ [10] ++ str "- param: code -- x")))) (FuncType 10 [Field 5 [Ident 3 (str "n") (Some 1); Ident 4 (str "code") (Some 2)] 6] (Some [Field 8 [] 9]) 11) (Some (Node 18 (KOther (str "*ast.BlockStmt")) [Node 17 KReturn [Node 16 (KUnary true) [Node 15 KComposite [Node 14 (KIdent (str "code") (Some 2)) []]]]])) 13 19.
Definition w_ctor_f2 : func := Func 36 (Some (DeclInfo (Ident 27 (str "F") None) None (Some (str "Errors:" ++ [10] ++ [] ++ [10] ++ str "- a -- x")))) (FuncType 25 [] (Some [Field 23 [] 24]) 26) (Some (Node 34 (KOther (str "*ast.BlockStmt")) [Node 33 KReturn [Node 32 KCall [Node 29 (KIdent (str "NewErr") (Some 3)) []; Node 31 KCall [Node 30 (KIdent (str "two") (Some 4)) []]]]])) 28 35.
Definition w_ctor_f3 : func := Func 50 (Some (DeclInfo (Ident 43 (str "two") None) None None)) (FuncType 41 [] (Some [Field 37 [] 38; Field 39 [] 40]) 42) (Some (Node 48 (KOther (str "*ast.BlockStmt")) [Node 47 KReturn [Node 45 KBasicLit []; Node 46 KBasicLit []]])) 44 49.
Definition w_ctor_funcs : gmap fid func := list_to_map [(1, w_ctor_f1); (2, w_ctor_f2); (3, w_ctor_f3)].
Definition w_ctor_objs : gmap oid object := list_to_map [(1, Object true 1 DOther); (2, Object true 2 DOther); (3, Object false 21 (DFunc 1)); (4, Object false 22 (DFunc 3))].
Definition w_ctor_comments : list (N * list gostring) := [].
Definition w_ctor : package := Package w_ctor_funcs [1; 2; 3] [] [TopFunc 1; TopFunc 2; TopFunc 3] w_ctor_objs (fun n => default [] (lookup_in w_ctor_comments n)) w_ctor_info.

(** [func f(xs ...Getter) {}; func F(ys []Getter) { f(ys...) }] *)
Definition w_spread_types : list (N * gotype) := [(2, (TSlice (TNamed 3))); (4, (TSlice (TNamed 3))); (14, (TSlice (TNamed 3))); (16, (TSlice (TNamed 3))); (21, (TSignature [TSlice (TNamed 3)] [] true)); (22, (TSlice (TNamed 3)))].
Definition w_spread_values : list (N * constval) := [].
Definition w_spread_uses : list (N * tobj) := [(21, 21)].
Definition w_spread_defs : list (N * tobj) := [(7, 21); (19, 22)].
Definition w_spread_sels : list (N * (tobj * gotype)) := [].
Definition w_spread_objnames : list (N * gostring) := [(2, str "Error"); (3, str "Getter"); (4, str "impl"); (21, str "f"); (22, str "F")].
Definition w_spread_objtypes : list (N * gotype) := [].
Definition w_spread_underlying : list (N * gotype) := [(1, (TInterface 1)); (2, (TStruct [(str "TheCode", TBasic (str "string"))])); (3, (TInterface 3)); (4, (TStruct []))].
Definition w_spread_methods : list (gotype * gostring * tobj) := [].
Definition w_spread_impl_error : list gotype := [TNamed 1; TPointer (TNamed 2)].
Definition w_spread_impl_ree : list gotype := [TPointer (TNamed 2)].
Definition w_spread_impl_cause : list gotype := [].
Definition w_spread_impl : list (gotype * gotype) := [].
Definition w_spread_named_methods : list (N * list gostring) := [].
Definition w_spread_info : typeinfo := table_info w_spread_types w_spread_values w_spread_uses w_spread_defs w_spread_sels [1; 2; 3; 4] [] w_spread_objnames w_spread_objtypes w_spread_underlying w_spread_methods w_spread_impl_error w_spread_impl_ree w_spread_impl_cause w_spread_impl w_spread_named_methods.
Definition w_spread_f1 : func := Func 11 (Some (DeclInfo (Ident 7 (str "f") None) None None)) (FuncType 5 [Field 3 [Ident 2 (str "xs") (Some 1)] 4] None 6) (Some (Node 9 (KOther (str "*ast.BlockStmt")) [])) 8 10.
Definition w_spread_f2 : func := Func 27 (Some (DeclInfo (Ident 19 (str "F") None) None None)) (FuncType 17 [Field 15 [Ident 14 (str "ys") (Some 2)] 16] None 18) (Some (Node 25 (KOther (str "*ast.BlockStmt")) [Node 24 (KOther (str "*ast.ExprStmt")) [Node 23 KCall [Node 21 (KIdent (str "f") (Some 3)) []; Node 22 (KIdent (str "ys") (Some 2)) []]]])) 20 26.
Definition w_spread_funcs : gmap fid func := list_to_map [(1, w_spread_f1); (2, w_spread_f2)].
Definition w_spread_objs : gmap oid object := list_to_map [(1, Object true 1 DOther); (2, Object true 12 DOther); (3, Object false 13 (DFunc 1))].
Definition w_spread_comments : list (N * list gostring) := [].
Definition w_spread : package := Package w_spread_funcs [1; 2] [] [TopFunc 1; TopFunc 2] w_spread_objs (fun n => default [] (lookup_in w_spread_comments n)) w_spread_info.

(** [func F() error { err := &Error{"a"}; if ... { /* Error Codes -= a */ return err }; return err }], declared to return no codes *)
Definition w_annotation_types : list (N * gotype) := [(2, (TNamed 1)); (8, (TPointer (TNamed 2))); (9, (TBasic (str "string"))); (10, (TNamed 2)); (11, (TPointer (TNamed 2))); (13, (TPointer (TNamed 2))); (17, (TPointer (TNamed 2)))].
Definition w_annotation_values : list (N * constval) := [(9, (CString (str "a")))].
Definition w_annotation_uses : list (N * tobj) := [].
Definition w_annotation_defs : list (N * tobj) := [(5, 21)].
Definition w_annotation_sels : list (N * (tobj * gotype)) := [].
Definition w_annotation_objnames : list (N * gostring) := [(2, str "Error"); (3, str "Getter"); (4, str "impl"); (21, str "F")].
Definition w_annotation_objtypes : list (N * gotype) := [].
Definition w_annotation_underlying : list (N * gotype) := [(1, (TInterface 1)); (2, (TStruct [(str "TheCode", TBasic (str "string"))])); (3, (TInterface 3)); (4, (TStruct []))].
Definition w_annotation_methods : list (gotype * gostring * tobj) := [].
Definition w_annotation_impl_error : list gotype := [TNamed 1; TPointer (TNamed 2)].
Definition w_annotation_impl_ree : list gotype := [TPointer (TNamed 2)].
Definition w_annotation_impl_cause : list gotype := [].
Definition w_annotation_impl : list (gotype * gotype) := [].
Definition w_annotation_named_methods : list (N * list gostring) := [].
Definition w_annotation_info : typeinfo := table_info w_annotation_types w_annotation_values w_annotation_uses w_annotation_defs w_annotation_sels [1; 2; 3; 4] [] w_annotation_objnames w_annotation_objtypes w_annotation_underlying w_annotation_methods w_annotation_impl_error w_annotation_impl_ree w_annotation_impl_cause w_annotation_impl w_annotation_named_methods.
Definition w_annotation_f1 : func := Func 21 (Some (DeclInfo (Ident 5 (str "F") None) None (Some (str "Errors: none")))) (FuncType 3 [] (Some [Field 1 [] 2]) 4) (Some (Node 19 (KOther (str "*ast.BlockStmt")) [Node 12 (KAssign 1%nat) [Node 8 (KIdent (str "err") (Some 1)) []; Node 11 (KUnary true) [Node 10 KComposite [Node 9 KBasicLit []]]]; Node 16 (KOther (str "*ast.IfStmt")) [Node 15 (KOther (str "*ast.BlockStmt")) [Node 14 KReturn [Node 13 (KIdent (str "err") (Some 1)) []]]]; Node 18 KReturn [Node 17 (KIdent (str "err") (Some 1)) []]])) 6 20.
Definition w_annotation_funcs : gmap fid func := list_to_map [(1, w_annotation_f1)].
Definition w_annotation_objs : gmap oid object := list_to_map [(1, Object true 7 DOther)].
Definition w_annotation_comments : list (N * list gostring) := [(14, [str "Error Codes -= a"])].
Definition w_annotation : package := Package w_annotation_funcs [1] [] [TopFunc 1] w_annotation_objs (fun n => default [] (lookup_in w_annotation_comments n)) w_annotation_info.

(** [func F() error { var err error; func(q Error) { err = &q }(Error{"a"}); return err }], declared to return no codes *)
Definition w_closure_types : list (N * gotype) := [(2, (TNamed 1)); (9, (TNamed 2)); (11, (TNamed 2)); (15, (TNamed 1)); (16, (TNamed 2)); (17, (TPointer (TNamed 2))); (22, (TSignature [] [TNamed 1] false)); (24, (TBasic (str "string"))); (25, (TNamed 2)); (28, (TNamed 1))].
Definition w_closure_values : list (N * constval) := [(24, (CString (str "a")))].
Definition w_closure_uses : list (N * tobj) := [].
Definition w_closure_defs : list (N * tobj) := [(5, 21)].
Definition w_closure_sels : list (N * (tobj * gotype)) := [].
Definition w_closure_objnames : list (N * gostring) := [(2, str "Error"); (3, str "Getter"); (4, str "impl"); (21, str "F")].
Definition w_closure_objtypes : list (N * gotype) := [].
Definition w_closure_underlying : list (N * gotype) := [(1, (TInterface 1)); (2, (TStruct [(str "TheCode", TBasic (str "string"))])); (3, (TInterface 3)); (4, (TStruct []))].
Definition w_closure_methods : list (gotype * gostring * tobj) := [].
Definition w_closure_impl_error : list gotype := [TNamed 1; TPointer (TNamed 2)].
Definition w_closure_impl_ree : list gotype := [TPointer (TNamed 2)].
Definition w_closure_impl_cause : list gotype := [].
Definition w_closure_impl : list (gotype * gotype) := [].
Definition w_closure_named_methods : list (N * list gostring) := [].
Definition w_closure_info : typeinfo := table_info w_closure_types w_closure_values w_closure_uses w_closure_defs w_closure_sels [1; 2; 3; 4] [] w_closure_objnames w_closure_objtypes w_closure_underlying w_closure_methods w_closure_impl_error w_closure_impl_ree w_closure_impl_cause w_closure_impl w_closure_named_methods.
Definition w_closure_f2 : func := Func 21 None (FuncType 12 [Field 10 [Ident 9 (str "q") (Some 2)] 11] (Some []) 13) (Some (Node 19 (KOther (str "*ast.BlockStmt")) [Node 18 (KAssign 1%nat) [Node 15 (KIdent (str "err") (Some 1)) []; Node 17 (KUnary true) [Node 16 (KIdent (str "q") (Some 2)) []]]])) 14 20.
Definition w_closure_f1 : func := Func 32 (Some (DeclInfo (Ident 5 (str "F") None) None (Some (str "Errors: none")))) (FuncType 3 [] (Some [Field 1 [] 2]) 4) (Some (Node 30 (KOther (str "*ast.BlockStmt")) [Node 23 (KOther (str "*ast.DeclStmt")) []; Node 27 (KOther (str "*ast.ExprStmt")) [Node 26 KCall [Node 22 (KFuncLit 2) [Node 19 (KOther (str "*ast.BlockStmt")) [Node 18 (KAssign 1%nat) [Node 15 (KIdent (str "err") (Some 1)) []; Node 17 (KUnary true) [Node 16 (KIdent (str "q") (Some 2)) []]]]]; Node 25 KComposite [Node 24 KBasicLit []]]]; Node 29 KReturn [Node 28 (KIdent (str "err") (Some 1)) []]])) 6 31.
Definition w_closure_funcs : gmap fid func := list_to_map [(2, w_closure_f2); (1, w_closure_f1)].
Definition w_closure_objs : gmap oid object := list_to_map [(1, Object true 7 DOther); (2, Object true 8 DOther)].
Definition w_closure_comments : list (N * list gostring) := [].
Definition w_closure : package := Package w_closure_funcs [1] [] [TopFunc 1] w_closure_objs (fun n => default [] (lookup_in w_closure_comments n)) w_closure_info.

(** [func F() error { errs := []*Error{&Error{"a"}}; for _, err := range errs { return err }; return nil }], declared to return no codes *)
Definition w_range_types : list (N * gotype) := [(2, (TNamed 1)); (9, (TSlice (TPointer (TNamed 2)))); (10, (TBasic (str "string"))); (11, (TNamed 2)); (12, (TPointer (TNamed 2))); (13, (TSlice (TPointer (TNamed 2)))); (16, (TPointer (TNamed 2))); (17, (TSlice (TPointer (TNamed 2)))); (18, (TPointer (TNamed 2))); (22, TUntypedNil)].
Definition w_range_values : list (N * constval) := [(10, (CString (str "a")))].
Definition w_range_uses : list (N * tobj) := [].
Definition w_range_defs : list (N * tobj) := [(5, 21)].
Definition w_range_sels : list (N * (tobj * gotype)) := [].
Definition w_range_objnames : list (N * gostring) := [(2, str "Error"); (3, str "Getter"); (4, str "impl"); (21, str "F")].
Definition w_range_objtypes : list (N * gotype) := [].
Definition w_range_underlying : list (N * gotype) := [(1, (TInterface 1)); (2, (TStruct [(str "TheCode", TBasic (str "string"))])); (3, (TInterface 3)); (4, (TStruct []))].
Definition w_range_methods : list (gotype * gostring * tobj) := [].
Definition w_range_impl_error : list gotype := [TNamed 1; TPointer (TNamed 2)].
Definition w_range_impl_ree : list gotype := [TPointer (TNamed 2)].
Definition w_range_impl_cause : list gotype := [].
Definition w_range_impl : list (gotype * gotype) := [].
Definition w_range_named_methods : list (N * list gostring) := [].
Definition w_range_info : typeinfo := table_info w_range_types w_range_values w_range_uses w_range_defs w_range_sels [1; 2; 3; 4] [] w_range_objnames w_range_objtypes w_range_underlying w_range_methods w_range_impl_error w_range_impl_ree w_range_impl_cause w_range_impl w_range_named_methods.
Definition w_range_f1 : func := Func 26 (Some (DeclInfo (Ident 5 (str "F") None) None (Some (str "Errors: none")))) (FuncType 3 [] (Some [Field 1 [] 2]) 4) (Some (Node 24 (KOther (str "*ast.BlockStmt")) [Node 14 (KAssign 1%nat) [Node 9 (KIdent (str "errs") (Some 1)) []; Node 13 KComposite [Node 12 (KUnary true) [Node 11 KComposite [Node 10 KBasicLit []]]]]; Node 21 (KRange true true) [Node 15 (KIdent (str "_") None) []; Node 16 (KIdent (str "err") (Some 2)) []; Node 17 (KIdent (str "errs") (Some 1)) []; Node 20 (KOther (str "*ast.BlockStmt")) [Node 19 KReturn [Node 18 (KIdent (str "err") (Some 2)) []]]]; Node 23 KReturn [Node 22 (KIdent (str "nil") None) []]])) 6 25.
Definition w_range_funcs : gmap fid func := list_to_map [(1, w_range_f1)].
Definition w_range_objs : gmap oid object := list_to_map [(1, Object true 7 DOther); (2, Object true 8 DOther)].
Definition w_range_comments : list (N * list gostring) := [].
Definition w_range : package := Package w_range_funcs [1] [] [TopFunc 1] w_range_objs (fun n => default [] (lookup_in w_range_comments n)) w_range_info.

(** [func F() error { return &Error{"aaa...a"} }] with a code of 71 characters, which is also declared *)
Definition w_long_types : list (N * gotype) := [(2, (TNamed 1)); (7, (TBasic (str "string"))); (8, (TNamed 2)); (9, (TPointer (TNamed 2)))].
Definition w_long_values : list (N * constval) := [(7, (CString (str "aaaaaaaaaaaaaaaaaaaaaaaaaaaaaaaaaaaaaaaaaaaaaaaaaaaaaaaaaaaaaaaaaaaaaaa")))].
Definition w_long_uses : list (N * tobj) := [].
Definition w_long_defs : list (N * tobj) := [(5, 21)].
Definition w_long_sels : list (N * (tobj * gotype)) := [].
Definition w_long_objnames : list (N * gostring) := [(2, str "Error"); (3, str "Getter"); (4, str "impl"); (21, str "F")].
Definition w_long_objtypes : list (N * gotype) := [].
Definition w_long_underlying : list (N * gotype) := [(1, (TInterface 1)); (2, (TStruct [(str "TheCode", TBasic (str "string"))])); (3, (TInterface 3)); (4, (TStruct []))].
Definition w_long_methods : list (gotype * gostring * tobj) := [].
Definition w_long_impl_error : list gotype := [TNamed 1; TPointer (TNamed 2)].
Definition w_long_impl_ree : list gotype := [TPointer (TNamed 2)].
Definition w_long_impl_cause : list gotype := [].
Definition w_long_impl : list (gotype * gotype) := [].
Definition w_long_named_methods : list (N * list gostring) := [].
Definition w_long_info : typeinfo := table_info w_long_types w_long_values w_long_uses w_long_defs w_long_sels [1; 2; 3; 4] [] w_long_objnames w_long_objtypes w_long_underlying w_long_methods w_long_impl_error w_long_impl_ree w_long_impl_cause w_long_impl w_long_named_methods.
Definition w_long_f1 : func := Func 13 (Some (DeclInfo (Ident 5 (str "F") None) None (Some (str "Errors:" ++ [10] ++ [] ++ [10] ++ str "- aaaaaaaaaaaaaaaaaaaaaaaaaaaaaaaaaaaaaaaaaaaaaaaaaaaaaaaaaaaaaaaaaaaaaaa -- x")))) (FuncType 3 [] (Some [Field 1 [] 2]) 4) (Some (Node 11 (KOther (str "*ast.BlockStmt")) [Node 10 KReturn [Node 9 (KUnary true) [Node 8 KComposite [Node 7 KBasicLit []]]]])) 6 12.
Definition w_long_funcs : gmap fid func := list_to_map [(1, w_long_f1)].
Definition w_long_objs : gmap oid object := list_to_map [].
Definition w_long_comments : list (N * list gostring) := [].
Definition w_long : package := Package w_long_funcs [1] [] [TopFunc 1] w_long_objs (fun n => default [] (lookup_in w_long_comments n)) w_long_info.

(** [type Fn func() (int, error); func F() error { var f Fn; f = two; _, err := f(); return err }] *)
Definition w_functype_types : list (N * gotype) := [(2, (TNamed 1)); (10, (TNamed 5)); (11, (TSignature [] [TBasic (str "int"); TNamed 1] false)); (14, (TNamed 1)); (15, (TNamed 5)); (16, (TTuple [TBasic (str "int"); TNamed 1])); (18, (TNamed 1)); (24, (TBasic (str "int"))); (26, (TNamed 1)); (31, (TBasic (str "int"))); (32, (TBasic (str "string"))); (33, (TNamed 2)); (34, (TPointer (TNamed 2)))].
Definition w_functype_values : list (N * constval) := [(32, (CString (str "a")))].
Definition w_functype_uses : list (N * tobj) := [(11, 22); (15, 42)].
Definition w_functype_defs : list (N * tobj) := [(5, 21); (29, 22)].
Definition w_functype_sels : list (N * (tobj * gotype)) := [].
Definition w_functype_objnames : list (N * gostring) := [(2, str "Error"); (3, str "Getter"); (4, str "impl"); (5, str "Fn"); (21, str "F"); (22, str "two")].
Definition w_functype_objtypes : list (N * gotype) := [].
Definition w_functype_underlying : list (N * gotype) := [(1, (TInterface 1)); (2, (TStruct [(str "TheCode", TBasic (str "string"))])); (3, (TInterface 3)); (4, (TStruct [])); (5, (TSignature [] [TBasic (str "int"); TNamed 1] false))].
Definition w_functype_methods : list (gotype * gostring * tobj) := [].
Definition w_functype_impl_error : list gotype := [TNamed 1; TPointer (TNamed 2)].
Definition w_functype_impl_ree : list gotype := [TPointer (TNamed 2)].
Definition w_functype_impl_cause : list gotype := [].
Definition w_functype_impl : list (gotype * gotype) := [].
Definition w_functype_named_methods : list (N * list gostring) := [].
Definition w_functype_info : typeinfo := table_info w_functype_types w_functype_values w_functype_uses w_functype_defs w_functype_sels [1; 2; 3; 4] [] w_functype_objnames w_functype_objtypes w_functype_underlying w_functype_methods w_functype_impl_error w_functype_impl_ree w_functype_impl_cause w_functype_impl w_functype_named_methods.
Definition w_functype_f1 : func := Func 22 (Some (DeclInfo (Ident 5 (str "F") None) None (Some (str "Errors:" ++ [10] ++ [] ++ [10] ++ str "- a -- x")))) (FuncType 3 [] (Some [Field 1 [] 2]) 4) (Some (Node 20 (KOther (str "*ast.BlockStmt")) [Node 12 (KAssign 1%nat) [Node 10 (KIdent (str "f") (Some 1)) []; Node 11 (KIdent (str "two") (Some 3)) []]; Node 17 (KAssign 2%nat) [Node 13 (KIdent (str "_") None) []; Node 14 (KIdent (str "err") (Some 2)) []; Node 16 KCall [Node 15 (KIdent (str "f") (Some 1)) []]]; Node 19 KReturn [Node 18 (KIdent (str "err") (Some 2)) []]])) 6 21.
Definition w_functype_f2 : func := Func 38 (Some (DeclInfo (Ident 29 (str "two") None) None None)) (FuncType 27 [] (Some [Field 23 [] 24; Field 25 [] 26]) 28) (Some (Node 36 (KOther (str "*ast.BlockStmt")) [Node 35 KReturn [Node 31 KBasicLit []; Node 34 (KUnary true) [Node 33 KComposite [Node 32 KBasicLit []]]]])) 30 37.
Definition w_functype_funcs : gmap fid func := list_to_map [(1, w_functype_f1); (2, w_functype_f2)].
Definition w_functype_objs : gmap oid object := list_to_map [(1, Object true 7 DOther); (2, Object true 8 DOther); (3, Object false 9 (DFunc 2))].
Definition w_functype_comments : list (N * list gostring) := [].
Definition w_functype : package := Package w_functype_funcs [1; 2] [] [TopFunc 1; TopFunc 2] w_functype_objs (fun n => default [] (lookup_in w_functype_comments n)) w_functype_info.

(** [type Fn func(Getter); func F(f Fn) { f(impl{}) }], where Getter.Get declares no codes and impl.Get declares a *)
Definition w_convert_types : list (N * gotype) := [(2, (TNamed 5)); (4, (TNamed 5)); (10, (TNamed 5)); (11, (TNamed 4)); (18, (TNamed 4)); (20, (TNamed 1)); (25, (TBasic (str "string"))); (26, (TNamed 2)); (27, (TPointer (TNamed 2)))].
Definition w_convert_values : list (N * constval) := [(25, (CString (str "a")))].
Definition w_convert_uses : list (N * tobj) := [(10, 43)].
Definition w_convert_defs : list (N * tobj) := [(7, 21); (23, 31)].
Definition w_convert_sels : list (N * (tobj * gotype)) := [].
Definition w_convert_objnames : list (N * gostring) := [(2, str "Error"); (3, str "Getter"); (4, str "impl"); (5, str "Fn"); (21, str "F"); (31, str "Get")].
Definition w_convert_objtypes : list (N * gotype) := [].
Definition w_convert_underlying : list (N * gotype) := [(1, (TInterface 1)); (2, (TStruct [(str "TheCode", TBasic (str "string"))])); (3, (TInterface 3)); (4, (TStruct [])); (5, (TSignature [TNamed 3] [] false))].
Definition w_convert_methods : list (gotype * gostring * tobj) := [(TNamed 4, str "Get", 31); (TNamed 3, str "Get", 32)].
Definition w_convert_impl_error : list gotype := [TNamed 1; TPointer (TNamed 2)].
Definition w_convert_impl_ree : list gotype := [TPointer (TNamed 2)].
Definition w_convert_impl_cause : list gotype := [].
Definition w_convert_impl : list (gotype * gotype) := [].
Definition w_convert_named_methods : list (N * list gostring) := [].
Definition w_convert_info : typeinfo := table_info w_convert_types w_convert_values w_convert_uses w_convert_defs w_convert_sels [1; 2; 3; 4] [] w_convert_objnames w_convert_objtypes w_convert_underlying w_convert_methods w_convert_impl_error w_convert_impl_ree w_convert_impl_cause w_convert_impl w_convert_named_methods.
Definition w_convert_f1 : func := Func 16 (Some (DeclInfo (Ident 7 (str "F") None) None None)) (FuncType 5 [Field 3 [Ident 2 (str "f") (Some 1)] 4] None 6) (Some (Node 14 (KOther (str "*ast.BlockStmt")) [Node 13 (KOther (str "*ast.ExprStmt")) [Node 12 KCall [Node 10 (KIdent (str "f") (Some 2)) []; Node 11 KComposite []]]])) 8 15.
Definition w_convert_f2 : func := Func 31 (Some (DeclInfo (Ident 23 (str "Get") None) (Some [Field 17 [] 18]) (Some (str "Errors:" ++ [10] ++ [] ++ [10] ++ str "- a -- x")))) (FuncType 21 [] (Some [Field 19 [] 20]) 22) (Some (Node 29 (KOther (str "*ast.BlockStmt")) [Node 28 KReturn [Node 27 (KUnary true) [Node 26 KComposite [Node 25 KBasicLit []]]]])) 24 30.
Definition w_convert_funcs : gmap fid func := list_to_map [(1, w_convert_f1); (2, w_convert_f2)].
Definition w_convert_objs : gmap oid object := list_to_map [(1, Object true 1 DOther); (2, Object true 9 DOther)].
Definition w_convert_comments : list (N * list gostring) := [].
Definition w_convert : package := Package w_convert_funcs [1; 2] [] [TopFunc 1; TopFunc 2] w_convert_objs (fun n => default [] (lookup_in w_convert_comments n)) w_convert_info.
