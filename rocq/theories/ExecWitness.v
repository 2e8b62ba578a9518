(** * Programs that the analyzer accepts although they return errors with undeclared codes.

    All of them import a package with the error types
<<
    type Error struct { TheCode string }     // the code of an Error is its field TheCode
    type Fixed struct { ... }                // the code of a Fixed is "k"
    type Both struct { TheCode string }      // the code of a Both is "k" or its field TheCode
>>
    and a type Other.  The packages, and the terms of the nodes in them, are written by tools/example_exec.py. *)
From Coq Require Import Ascii String.
From stdpp Require Import base list gmap.
From Verif Require Import GoString ErrorCode Scc Engine CodeSet Annotation Constant GoAst Taint Extract Analyse ExampleBase.
Local Open Scope N_scope.

Definition exec_facts : facts :=
  Facts ∅ ∅ (<[2 := ErrorType ∅ (Some (str "TheCode", 0%nat))]> (<[5 := ErrorType {[ str "k" ]} None]> {[ 6 := ErrorType {[ str "k" ]} (Some (str "TheCode", 0%nat)) ]})) ∅.
(** The assignments [l] are compound. *)
Definition with_compound (l : list nid) (i : typeinfo) : typeinfo :=
  TypeInfo (ti_type i) (ti_value i) (ti_uses i) (ti_defs i) (ti_selection i) (ti_is_typename i) (ti_pkgname i) (ti_objname i) (ti_objtype i) (ti_underlying i)
    (ti_methods i) (ti_implements_error i) (ti_implements_ree i) (ti_implements_cause i) (ti_implements i) (ti_named_methods i) (ti_is_print i) (ti_is_upper i)
    (fun n => bool_decide (n ∈ l)).

(** [func F() error { var e Fixed; return e }] *)
Definition x_zero_types : list (N * gotype) := [(2, (TNamed 1)); (8, (TNamed 5)); (9, (TNamed 5)); (12, (TNamed 5))].
Definition x_zero_values : list (N * constval) := [].
Definition x_zero_uses : list (N * tobj) := [].
Definition x_zero_defs : list (N * tobj) := [(5, 21)].
Definition x_zero_sels : list (N * (tobj * gotype)) := [].
Definition x_zero_objnames : list (N * gostring) := [(2, str "Error"); (5, str "Fixed"); (6, str "Both"); (7, str "Other"); (21, str "F")].
Definition x_zero_objtypes : list (N * gotype) := [].
Definition x_zero_underlying : list (N * gotype) := [(1, (TInterface 1)); (2, (TStruct [(str "TheCode", TBasic (str "string"))])); (5, (TStruct [])); (6, (TStruct [(str "TheCode", TBasic (str "string"))])); (7, (TStruct []))].
Definition x_zero_methods : list (gotype * gostring * tobj) := [].
Definition x_zero_impl_error : list gotype := [TNamed 1; TPointer (TNamed 2); TNamed 5; TPointer (TNamed 5); TNamed 6].
Definition x_zero_impl_ree : list gotype := [TPointer (TNamed 2); TNamed 5; TPointer (TNamed 5); TNamed 6].
Definition x_zero_impl_cause : list gotype := [].
Definition x_zero_impl : list (gotype * gotype) := [].
Definition x_zero_named_methods : list (N * list gostring) := [].
Definition x_zero_info : typeinfo := table_info x_zero_types x_zero_values x_zero_uses x_zero_defs x_zero_sels [1; 2; 5; 6; 7] [] x_zero_objnames x_zero_objtypes x_zero_underlying x_zero_methods x_zero_impl_error x_zero_impl_ree x_zero_impl_cause x_zero_impl x_zero_named_methods.
Definition x_zero_f1 : func := Func 16 (Some (DeclInfo (Ident 5 (str "F") None) None (Some (str "Errors: none")))) (FuncType 3 [] (Some [Field 1 [] 2]) 4) (Some (Node 14 (KOther (str "*ast.BlockStmt")) [Node 11 (KOther (str "*ast.DeclStmt")) [Node 10 (KValueSpec [Ident 8 (str "e") (Some 1)] (Some 9)) []]; Node 13 KReturn [Node 12 (KIdent (str "e") (Some 1)) []]])) 6 15.
Definition x_zero_funcs : gmap fid func := list_to_map [(1, x_zero_f1)].
Definition x_zero_objs : gmap oid object := list_to_map [(1, Object true 7 (DValueSpec [Ident 8 (str "e") (Some 1)] []))].
Definition x_zero_comments : list (N * list gostring) := [].
Definition x_zero : package := Package x_zero_funcs [1] [] [TopFunc 1] x_zero_objs (fun n => default [] (lookup_in x_zero_comments n)) x_zero_info.
Definition x_zero_var_e : node := Node 10 (KValueSpec [Ident 8 (str "e") (Some 1)] (Some 9)) [].
Definition x_zero_return : node := Node 13 KReturn [Node 12 (KIdent (str "e") (Some 1)) []].

(** [func F() error { var x error; e, _ := x.(Fixed); return e }] *)
Definition x_assert_types : list (N * gotype) := [(2, (TNamed 1)); (9, (TNamed 1)); (10, (TNamed 1)); (13, (TNamed 5)); (15, (TNamed 5)); (16, (TNamed 1)); (17, (TNamed 5)); (19, (TNamed 5))].
Definition x_assert_values : list (N * constval) := [].
Definition x_assert_uses : list (N * tobj) := [].
Definition x_assert_defs : list (N * tobj) := [(5, 21)].
Definition x_assert_sels : list (N * (tobj * gotype)) := [].
Definition x_assert_objnames : list (N * gostring) := [(2, str "Error"); (5, str "Fixed"); (6, str "Both"); (7, str "Other"); (21, str "F")].
Definition x_assert_objtypes : list (N * gotype) := [].
Definition x_assert_underlying : list (N * gotype) := [(1, (TInterface 1)); (2, (TStruct [(str "TheCode", TBasic (str "string"))])); (5, (TStruct [])); (6, (TStruct [(str "TheCode", TBasic (str "string"))])); (7, (TStruct []))].
Definition x_assert_methods : list (gotype * gostring * tobj) := [].
Definition x_assert_impl_error : list gotype := [TNamed 1; TPointer (TNamed 2); TNamed 5; TPointer (TNamed 5); TNamed 6].
Definition x_assert_impl_ree : list gotype := [TPointer (TNamed 2); TNamed 5; TPointer (TNamed 5); TNamed 6].
Definition x_assert_impl_cause : list gotype := [].
Definition x_assert_impl : list (gotype * gotype) := [].
Definition x_assert_named_methods : list (N * list gostring) := [].
Definition x_assert_info : typeinfo := table_info x_assert_types x_assert_values x_assert_uses x_assert_defs x_assert_sels [1; 2; 5; 6; 7] [] x_assert_objnames x_assert_objtypes x_assert_underlying x_assert_methods x_assert_impl_error x_assert_impl_ree x_assert_impl_cause x_assert_impl x_assert_named_methods.
Definition x_assert_f1 : func := Func 23 (Some (DeclInfo (Ident 5 (str "F") None) None (Some (str "Errors: none")))) (FuncType 3 [] (Some [Field 1 [] 2]) 4) (Some (Node 21 (KOther (str "*ast.BlockStmt")) [Node 12 (KOther (str "*ast.DeclStmt")) [Node 11 (KValueSpec [Ident 9 (str "x") (Some 1)] (Some 10)) []]; Node 18 (KAssign 2%nat) [Node 13 (KIdent (str "e") (Some 2)) []; Node 14 (KIdent (str "_") None) []; Node 17 (KTypeAssert (Some 15)) [Node 16 (KIdent (str "x") (Some 1)) []]]; Node 20 KReturn [Node 19 (KIdent (str "e") (Some 2)) []]])) 6 22.
Definition x_assert_funcs : gmap fid func := list_to_map [(1, x_assert_f1)].
Definition x_assert_objs : gmap oid object := list_to_map [(1, Object true 7 (DValueSpec [Ident 9 (str "x") (Some 1)] [])); (2, Object true 8 DOther)].
Definition x_assert_comments : list (N * list gostring) := [].
Definition x_assert : package := Package x_assert_funcs [1] [] [TopFunc 1] x_assert_objs (fun n => default [] (lookup_in x_assert_comments n)) x_assert_info.
Definition x_assert_var_x : node := Node 11 (KValueSpec [Ident 9 (str "x") (Some 1)] (Some 10)) [].
Definition x_assert_assert : node := Node 18 (KAssign 2%nat) [Node 13 (KIdent (str "e") (Some 2)) []; Node 14 (KIdent (str "_") None) []; Node 17 (KTypeAssert (Some 15)) [Node 16 (KIdent (str "x") (Some 1)) []]].
Definition x_assert_return : node := Node 20 KReturn [Node 19 (KIdent (str "e") (Some 2)) []].

(** [func F() error { var t Other; return Both(t) }] *)
Definition x_conv_types : list (N * gotype) := [(2, (TNamed 1)); (8, (TNamed 7)); (9, (TNamed 7)); (12, (TNamed 6)); (13, (TNamed 7)); (14, (TNamed 6))].
Definition x_conv_values : list (N * constval) := [].
Definition x_conv_uses : list (N * tobj) := [(12, 6)].
Definition x_conv_defs : list (N * tobj) := [(5, 21)].
Definition x_conv_sels : list (N * (tobj * gotype)) := [].
Definition x_conv_objnames : list (N * gostring) := [(2, str "Error"); (5, str "Fixed"); (6, str "Both"); (7, str "Other"); (21, str "F")].
Definition x_conv_objtypes : list (N * gotype) := [].
Definition x_conv_underlying : list (N * gotype) := [(1, (TInterface 1)); (2, (TStruct [(str "TheCode", TBasic (str "string"))])); (5, (TStruct [])); (6, (TStruct [(str "TheCode", TBasic (str "string"))])); (7, (TStruct []))].
Definition x_conv_methods : list (gotype * gostring * tobj) := [].
Definition x_conv_impl_error : list gotype := [TNamed 1; TPointer (TNamed 2); TNamed 5; TPointer (TNamed 5); TNamed 6].
Definition x_conv_impl_ree : list gotype := [TPointer (TNamed 2); TNamed 5; TPointer (TNamed 5); TNamed 6].
Definition x_conv_impl_cause : list gotype := [].
Definition x_conv_impl : list (gotype * gotype) := [].
Definition x_conv_named_methods : list (N * list gostring) := [].
Definition x_conv_info : typeinfo := table_info x_conv_types x_conv_values x_conv_uses x_conv_defs x_conv_sels [1; 2; 5; 6; 7] [] x_conv_objnames x_conv_objtypes x_conv_underlying x_conv_methods x_conv_impl_error x_conv_impl_ree x_conv_impl_cause x_conv_impl x_conv_named_methods.
Definition x_conv_f1 : func := Func 18 (Some (DeclInfo (Ident 5 (str "F") None) None (Some (str "Errors:" ++ [10] ++ [] ++ [10] ++ str "- k -- x")))) (FuncType 3 [] (Some [Field 1 [] 2]) 4) (Some (Node 16 (KOther (str "*ast.BlockStmt")) [Node 11 (KOther (str "*ast.DeclStmt")) [Node 10 (KValueSpec [Ident 8 (str "t") (Some 1)] (Some 9)) []]; Node 15 KReturn [Node 14 KCall [Node 12 (KIdent (str "Both") None) []; Node 13 (KIdent (str "t") (Some 1)) []]]])) 6 17.
Definition x_conv_funcs : gmap fid func := list_to_map [(1, x_conv_f1)].
Definition x_conv_objs : gmap oid object := list_to_map [(1, Object true 7 (DValueSpec [Ident 8 (str "t") (Some 1)] []))].
Definition x_conv_comments : list (N * list gostring) := [].
Definition x_conv : package := Package x_conv_funcs [1] [] [TopFunc 1] x_conv_objs (fun n => default [] (lookup_in x_conv_comments n)) x_conv_info.
Definition x_conv_var_t : node := Node 10 (KValueSpec [Ident 8 (str "t") (Some 1)] (Some 9)) [].
Definition x_conv_return : node := Node 15 KReturn [Node 14 KCall [Node 12 (KIdent (str "Both") None) []; Node 13 (KIdent (str "t") (Some 1)) []]].

(** [func F() Fixed { defer func() { recover() }(); panic("x") }] *)
Definition x_recover_types : list (N * gotype) := [(2, (TNamed 5)); (10, (TSignature [] [TOther 1] false)); (16, (TSignature [] [] false)); (19, (TSignature [TOther 1] [] false)); (20, (TBasic (str "string")))].
Definition x_recover_values : list (N * constval) := [(20, (CString (str "x")))].
Definition x_recover_uses : list (N * tobj) := [].
Definition x_recover_defs : list (N * tobj) := [(5, 21)].
Definition x_recover_sels : list (N * (tobj * gotype)) := [].
Definition x_recover_objnames : list (N * gostring) := [(2, str "Error"); (5, str "Fixed"); (6, str "Both"); (7, str "Other"); (21, str "F")].
Definition x_recover_objtypes : list (N * gotype) := [].
Definition x_recover_underlying : list (N * gotype) := [(1, (TInterface 1)); (2, (TStruct [(str "TheCode", TBasic (str "string"))])); (5, (TStruct [])); (6, (TStruct [(str "TheCode", TBasic (str "string"))])); (7, (TStruct []))].
Definition x_recover_methods : list (gotype * gostring * tobj) := [].
Definition x_recover_impl_error : list gotype := [TNamed 1; TPointer (TNamed 2); TNamed 5; TPointer (TNamed 5); TNamed 6].
Definition x_recover_impl_ree : list gotype := [TPointer (TNamed 2); TNamed 5; TPointer (TNamed 5); TNamed 6].
Definition x_recover_impl_cause : list gotype := [].
Definition x_recover_impl : list (gotype * gotype) := [].
Definition x_recover_named_methods : list (N * list gostring) := [].
Definition x_recover_info : typeinfo := table_info x_recover_types x_recover_values x_recover_uses x_recover_defs x_recover_sels [1; 2; 5; 6; 7] [] x_recover_objnames x_recover_objtypes x_recover_underlying x_recover_methods x_recover_impl_error x_recover_impl_ree x_recover_impl_cause x_recover_impl x_recover_named_methods.
Definition x_recover_f2 : func := Func 15 None (FuncType 7 [] None 8) (Some (Node 13 (KOther (str "*ast.BlockStmt")) [Node 12 (KOther (str "*ast.ExprStmt")) [Node 11 KCall [Node 10 (KIdent (str "recover") None) []]]])) 9 14.
Definition x_recover_f1 : func := Func 25 (Some (DeclInfo (Ident 5 (str "F") None) None (Some (str "Errors: none")))) (FuncType 3 [] (Some [Field 1 [] 2]) 4) (Some (Node 23 (KOther (str "*ast.BlockStmt")) [Node 18 (KOther (str "*ast.DeferStmt")) [Node 17 KCall [Node 16 (KFuncLit 2) [Node 13 (KOther (str "*ast.BlockStmt")) [Node 12 (KOther (str "*ast.ExprStmt")) [Node 11 KCall [Node 10 (KIdent (str "recover") None) []]]]]]]; Node 22 (KOther (str "*ast.ExprStmt")) [Node 21 KCall [Node 19 (KIdent (str "panic") None) []; Node 20 KBasicLit []]]])) 6 24.
Definition x_recover_funcs : gmap fid func := list_to_map [(2, x_recover_f2); (1, x_recover_f1)].
Definition x_recover_objs : gmap oid object := list_to_map [].
Definition x_recover_comments : list (N * list gostring) := [].
Definition x_recover : package := Package x_recover_funcs [1] [] [TopFunc 1] x_recover_objs (fun n => default [] (lookup_in x_recover_comments n)) x_recover_info.
Definition x_recover_defer : node := Node 18 (KOther (str "*ast.DeferStmt")) [Node 17 KCall [Node 16 (KFuncLit 2) [Node 13 (KOther (str "*ast.BlockStmt")) [Node 12 (KOther (str "*ast.ExprStmt")) [Node 11 KCall [Node 10 (KIdent (str "recover") None) []]]]]]].

(** [func F() (err error) { defer func() { err = &Error{"b"} }(); return nil }] *)
Definition x_defer_types : list (N * gotype) := [(2, (TNamed 1)); (4, (TNamed 1)); (12, (TNamed 1)); (13, (TBasic (str "string"))); (14, (TNamed 2)); (15, (TPointer (TNamed 2))); (20, (TSignature [] [] false)); (23, TUntypedNil)].
Definition x_defer_values : list (N * constval) := [(13, (CString (str "b")))].
Definition x_defer_uses : list (N * tobj) := [].
Definition x_defer_defs : list (N * tobj) := [(7, 21)].
Definition x_defer_sels : list (N * (tobj * gotype)) := [].
Definition x_defer_objnames : list (N * gostring) := [(2, str "Error"); (5, str "Fixed"); (6, str "Both"); (7, str "Other"); (21, str "F")].
Definition x_defer_objtypes : list (N * gotype) := [].
Definition x_defer_underlying : list (N * gotype) := [(1, (TInterface 1)); (2, (TStruct [(str "TheCode", TBasic (str "string"))])); (5, (TStruct [])); (6, (TStruct [(str "TheCode", TBasic (str "string"))])); (7, (TStruct []))].
Definition x_defer_methods : list (gotype * gostring * tobj) := [].
Definition x_defer_impl_error : list gotype := [TNamed 1; TPointer (TNamed 2); TNamed 5; TPointer (TNamed 5); TNamed 6].
Definition x_defer_impl_ree : list gotype := [TPointer (TNamed 2); TNamed 5; TPointer (TNamed 5); TNamed 6].
Definition x_defer_impl_cause : list gotype := [].
Definition x_defer_impl : list (gotype * gotype) := [].
Definition x_defer_named_methods : list (N * list gostring) := [].
Definition x_defer_info : typeinfo := table_info x_defer_types x_defer_values x_defer_uses x_defer_defs x_defer_sels [1; 2; 5; 6; 7] [] x_defer_objnames x_defer_objtypes x_defer_underlying x_defer_methods x_defer_impl_error x_defer_impl_ree x_defer_impl_cause x_defer_impl x_defer_named_methods.
Definition x_defer_f2 : func := Func 19 None (FuncType 9 [] None 10) (Some (Node 17 (KOther (str "*ast.BlockStmt")) [Node 16 (KAssign 1%nat) [Node 12 (KIdent (str "err") (Some 1)) []; Node 15 (KUnary true) [Node 14 KComposite [Node 13 KBasicLit []]]]])) 11 18.
Definition x_defer_f1 : func := Func 27 (Some (DeclInfo (Ident 7 (str "F") None) None (Some (str "Errors: none")))) (FuncType 5 [] (Some [Field 3 [Ident 2 (str "err") (Some 1)] 4]) 6) (Some (Node 25 (KOther (str "*ast.BlockStmt")) [Node 22 (KOther (str "*ast.DeferStmt")) [Node 21 KCall [Node 20 (KFuncLit 2) [Node 17 (KOther (str "*ast.BlockStmt")) [Node 16 (KAssign 1%nat) [Node 12 (KIdent (str "err") (Some 1)) []; Node 15 (KUnary true) [Node 14 KComposite [Node 13 KBasicLit []]]]]]]]; Node 24 KReturn [Node 23 (KIdent (str "nil") None) []]])) 8 26.
Definition x_defer_funcs : gmap fid func := list_to_map [(2, x_defer_f2); (1, x_defer_f1)].
Definition x_defer_objs : gmap oid object := list_to_map [(1, Object true 1 DOther)].
Definition x_defer_comments : list (N * list gostring) := [].
Definition x_defer : package := Package x_defer_funcs [1] [] [TopFunc 1] x_defer_objs (fun n => default [] (lookup_in x_defer_comments n)) x_defer_info.
Definition x_defer_start : node := Node 16 (KAssign 1%nat) [Node 12 (KIdent (str "err") (Some 1)) []; Node 15 (KUnary true) [Node 14 KComposite [Node 13 KBasicLit []]]].
Definition x_defer_defer : node := Node 22 (KOther (str "*ast.DeferStmt")) [Node 21 KCall [Node 20 (KFuncLit 2) [Node 17 (KOther (str "*ast.BlockStmt")) [Node 16 (KAssign 1%nat) [Node 12 (KIdent (str "err") (Some 1)) []; Node 15 (KUnary true) [Node 14 KComposite [Node 13 KBasicLit []]]]]]]].
Definition x_defer_return : node := Node 24 KReturn [Node 23 (KIdent (str "nil") None) []].

(** [func F() error { nil := &Error{"b"}; return nil }] *)
Definition x_nil_types : list (N * gotype) := [(2, (TNamed 1)); (8, (TPointer (TNamed 2))); (9, (TBasic (str "string"))); (10, (TNamed 2)); (11, (TPointer (TNamed 2))); (13, (TPointer (TNamed 2)))].
Definition x_nil_values : list (N * constval) := [(9, (CString (str "b")))].
Definition x_nil_uses : list (N * tobj) := [].
Definition x_nil_defs : list (N * tobj) := [(5, 21)].
Definition x_nil_sels : list (N * (tobj * gotype)) := [].
Definition x_nil_objnames : list (N * gostring) := [(2, str "Error"); (5, str "Fixed"); (6, str "Both"); (7, str "Other"); (21, str "F")].
Definition x_nil_objtypes : list (N * gotype) := [].
Definition x_nil_underlying : list (N * gotype) := [(1, (TInterface 1)); (2, (TStruct [(str "TheCode", TBasic (str "string"))])); (5, (TStruct [])); (6, (TStruct [(str "TheCode", TBasic (str "string"))])); (7, (TStruct []))].
Definition x_nil_methods : list (gotype * gostring * tobj) := [].
Definition x_nil_impl_error : list gotype := [TNamed 1; TPointer (TNamed 2); TNamed 5; TPointer (TNamed 5); TNamed 6].
Definition x_nil_impl_ree : list gotype := [TPointer (TNamed 2); TNamed 5; TPointer (TNamed 5); TNamed 6].
Definition x_nil_impl_cause : list gotype := [].
Definition x_nil_impl : list (gotype * gotype) := [].
Definition x_nil_named_methods : list (N * list gostring) := [].
Definition x_nil_info : typeinfo := table_info x_nil_types x_nil_values x_nil_uses x_nil_defs x_nil_sels [1; 2; 5; 6; 7] [] x_nil_objnames x_nil_objtypes x_nil_underlying x_nil_methods x_nil_impl_error x_nil_impl_ree x_nil_impl_cause x_nil_impl x_nil_named_methods.
Definition x_nil_f1 : func := Func 17 (Some (DeclInfo (Ident 5 (str "F") None) None (Some (str "Errors: none")))) (FuncType 3 [] (Some [Field 1 [] 2]) 4) (Some (Node 15 (KOther (str "*ast.BlockStmt")) [Node 12 (KAssign 1%nat) [Node 8 (KIdent (str "nil") (Some 1)) []; Node 11 (KUnary true) [Node 10 KComposite [Node 9 KBasicLit []]]]; Node 14 KReturn [Node 13 (KIdent (str "nil") (Some 1)) []]])) 6 16.
Definition x_nil_funcs : gmap fid func := list_to_map [(1, x_nil_f1)].
Definition x_nil_objs : gmap oid object := list_to_map [(1, Object true 7 DOther)].
Definition x_nil_comments : list (N * list gostring) := [].
Definition x_nil : package := Package x_nil_funcs [1] [] [TopFunc 1] x_nil_objs (fun n => default [] (lookup_in x_nil_comments n)) x_nil_info.
Definition x_nil_start : node := Node 12 (KAssign 1%nat) [Node 8 (KIdent (str "nil") (Some 1)) []; Node 11 (KUnary true) [Node 10 KComposite [Node 9 KBasicLit []]]].
Definition x_nil_return : node := Node 14 KReturn [Node 13 (KIdent (str "nil") (Some 1)) []].

(** [func F() error { var s Other; return s.nil }] *)
Definition x_nil_field_types : list (N * gotype) := [(2, (TNamed 1)); (8, (TNamed 7)); (9, (TNamed 7)); (12, (TNamed 7)); (13, (TNamed 1)); (14, (TNamed 1))].
Definition x_nil_field_values : list (N * constval) := [].
Definition x_nil_field_uses : list (N * tobj) := [].
Definition x_nil_field_defs : list (N * tobj) := [(5, 21)].
Definition x_nil_field_sels : list (N * (tobj * gotype)) := [].
Definition x_nil_field_objnames : list (N * gostring) := [(2, str "Error"); (5, str "Fixed"); (6, str "Both"); (7, str "Other"); (21, str "F")].
Definition x_nil_field_objtypes : list (N * gotype) := [].
Definition x_nil_field_underlying : list (N * gotype) := [(1, (TInterface 1)); (2, (TStruct [(str "TheCode", TBasic (str "string"))])); (5, (TStruct [])); (6, (TStruct [(str "TheCode", TBasic (str "string"))])); (7, (TStruct []))].
Definition x_nil_field_methods : list (gotype * gostring * tobj) := [].
Definition x_nil_field_impl_error : list gotype := [TNamed 1; TPointer (TNamed 2); TNamed 5; TPointer (TNamed 5); TNamed 6].
Definition x_nil_field_impl_ree : list gotype := [TPointer (TNamed 2); TNamed 5; TPointer (TNamed 5); TNamed 6].
Definition x_nil_field_impl_cause : list gotype := [].
Definition x_nil_field_impl : list (gotype * gotype) := [].
Definition x_nil_field_named_methods : list (N * list gostring) := [].
Definition x_nil_field_info : typeinfo := table_info x_nil_field_types x_nil_field_values x_nil_field_uses x_nil_field_defs x_nil_field_sels [1; 2; 5; 6; 7] [] x_nil_field_objnames x_nil_field_objtypes x_nil_field_underlying x_nil_field_methods x_nil_field_impl_error x_nil_field_impl_ree x_nil_field_impl_cause x_nil_field_impl x_nil_field_named_methods.
Definition x_nil_field_f1 : func := Func 18 (Some (DeclInfo (Ident 5 (str "F") None) None (Some (str "Errors: none")))) (FuncType 3 [] (Some [Field 1 [] 2]) 4) (Some (Node 16 (KOther (str "*ast.BlockStmt")) [Node 11 (KOther (str "*ast.DeclStmt")) [Node 10 (KValueSpec [Ident 8 (str "s") (Some 1)] (Some 9)) []]; Node 15 KReturn [Node 14 KSelector [Node 12 (KIdent (str "s") (Some 1)) []; Node 13 (KIdent (str "nil") None) []]]])) 6 17.
Definition x_nil_field_funcs : gmap fid func := list_to_map [(1, x_nil_field_f1)].
Definition x_nil_field_objs : gmap oid object := list_to_map [(1, Object true 7 (DValueSpec [Ident 8 (str "s") (Some 1)] []))].
Definition x_nil_field_comments : list (N * list gostring) := [].
Definition x_nil_field : package := Package x_nil_field_funcs [1] [] [TopFunc 1] x_nil_field_objs (fun n => default [] (lookup_in x_nil_field_comments n)) x_nil_field_info.
Definition x_nil_field_var_s : node := Node 10 (KValueSpec [Ident 8 (str "s") (Some 1)] (Some 9)) [].
Definition x_nil_field_return : node := Node 15 KReturn [Node 14 KSelector [Node 12 (KIdent (str "s") (Some 1)) []; Node 13 (KIdent (str "nil") None) []]].

(** [func F() error { e := &Error{"a"}; *e = Error{"b"}; return e }] *)
Definition x_place_types : list (N * gotype) := [(2, (TNamed 1)); (8, (TPointer (TNamed 2))); (9, (TBasic (str "string"))); (10, (TNamed 2)); (11, (TPointer (TNamed 2))); (13, (TPointer (TNamed 2))); (14, (TNamed 2)); (15, (TBasic (str "string"))); (16, (TNamed 2)); (18, (TPointer (TNamed 2)))].
Definition x_place_values : list (N * constval) := [(9, (CString (str "a"))); (15, (CString (str "b")))].
Definition x_place_uses : list (N * tobj) := [].
Definition x_place_defs : list (N * tobj) := [(5, 21)].
Definition x_place_sels : list (N * (tobj * gotype)) := [].
Definition x_place_objnames : list (N * gostring) := [(2, str "Error"); (5, str "Fixed"); (6, str "Both"); (7, str "Other"); (21, str "F")].
Definition x_place_objtypes : list (N * gotype) := [].
Definition x_place_underlying : list (N * gotype) := [(1, (TInterface 1)); (2, (TStruct [(str "TheCode", TBasic (str "string"))])); (5, (TStruct [])); (6, (TStruct [(str "TheCode", TBasic (str "string"))])); (7, (TStruct []))].
Definition x_place_methods : list (gotype * gostring * tobj) := [].
Definition x_place_impl_error : list gotype := [TNamed 1; TPointer (TNamed 2); TNamed 5; TPointer (TNamed 5); TNamed 6].
Definition x_place_impl_ree : list gotype := [TPointer (TNamed 2); TNamed 5; TPointer (TNamed 5); TNamed 6].
Definition x_place_impl_cause : list gotype := [].
Definition x_place_impl : list (gotype * gotype) := [].
Definition x_place_named_methods : list (N * list gostring) := [].
Definition x_place_info : typeinfo := table_info x_place_types x_place_values x_place_uses x_place_defs x_place_sels [1; 2; 5; 6; 7] [] x_place_objnames x_place_objtypes x_place_underlying x_place_methods x_place_impl_error x_place_impl_ree x_place_impl_cause x_place_impl x_place_named_methods.
Definition x_place_f1 : func := Func 22 (Some (DeclInfo (Ident 5 (str "F") None) None (Some (str "Errors:" ++ [10] ++ [] ++ [10] ++ str "- a -- x")))) (FuncType 3 [] (Some [Field 1 [] 2]) 4) (Some (Node 20 (KOther (str "*ast.BlockStmt")) [Node 12 (KAssign 1%nat) [Node 8 (KIdent (str "e") (Some 1)) []; Node 11 (KUnary true) [Node 10 KComposite [Node 9 KBasicLit []]]]; Node 17 (KAssign 1%nat) [Node 14 (KOther (str "*ast.StarExpr")) [Node 13 (KIdent (str "e") (Some 1)) []]; Node 16 KComposite [Node 15 KBasicLit []]]; Node 19 KReturn [Node 18 (KIdent (str "e") (Some 1)) []]])) 6 21.
Definition x_place_funcs : gmap fid func := list_to_map [(1, x_place_f1)].
Definition x_place_objs : gmap oid object := list_to_map [(1, Object true 7 DOther)].
Definition x_place_comments : list (N * list gostring) := [].
Definition x_place : package := Package x_place_funcs [1] [] [TopFunc 1] x_place_objs (fun n => default [] (lookup_in x_place_comments n)) x_place_info.
Definition x_place_start : node := Node 12 (KAssign 1%nat) [Node 8 (KIdent (str "e") (Some 1)) []; Node 11 (KUnary true) [Node 10 KComposite [Node 9 KBasicLit []]]].
Definition x_place_set : node := Node 17 (KAssign 1%nat) [Node 14 (KOther (str "*ast.StarExpr")) [Node 13 (KIdent (str "e") (Some 1)) []]; Node 16 KComposite [Node 15 KBasicLit []]].
Definition x_place_return : node := Node 19 KReturn [Node 18 (KIdent (str "e") (Some 1)) []].

(** [func F() error { e := &Error{"a"}; p := e; p.TheCode = "b"; return e }] *)
Definition x_alias_types : list (N * gotype) := [(2, (TNamed 1)); (9, (TPointer (TNamed 2))); (10, (TBasic (str "string"))); (11, (TNamed 2)); (12, (TPointer (TNamed 2))); (14, (TPointer (TNamed 2))); (15, (TPointer (TNamed 2))); (17, (TPointer (TNamed 2))); (18, (TBasic (str "string"))); (19, (TBasic (str "string"))); (20, (TBasic (str "string"))); (22, (TPointer (TNamed 2)))].
Definition x_alias_values : list (N * constval) := [(10, (CString (str "a"))); (20, (CString (str "b")))].
Definition x_alias_uses : list (N * tobj) := [].
Definition x_alias_defs : list (N * tobj) := [(5, 21)].
Definition x_alias_sels : list (N * (tobj * gotype)) := [].
Definition x_alias_objnames : list (N * gostring) := [(2, str "Error"); (5, str "Fixed"); (6, str "Both"); (7, str "Other"); (21, str "F")].
Definition x_alias_objtypes : list (N * gotype) := [].
Definition x_alias_underlying : list (N * gotype) := [(1, (TInterface 1)); (2, (TStruct [(str "TheCode", TBasic (str "string"))])); (5, (TStruct [])); (6, (TStruct [(str "TheCode", TBasic (str "string"))])); (7, (TStruct []))].
Definition x_alias_methods : list (gotype * gostring * tobj) := [].
Definition x_alias_impl_error : list gotype := [TNamed 1; TPointer (TNamed 2); TNamed 5; TPointer (TNamed 5); TNamed 6].
Definition x_alias_impl_ree : list gotype := [TPointer (TNamed 2); TNamed 5; TPointer (TNamed 5); TNamed 6].
Definition x_alias_impl_cause : list gotype := [].
Definition x_alias_impl : list (gotype * gotype) := [].
Definition x_alias_named_methods : list (N * list gostring) := [].
Definition x_alias_info : typeinfo := table_info x_alias_types x_alias_values x_alias_uses x_alias_defs x_alias_sels [1; 2; 5; 6; 7] [] x_alias_objnames x_alias_objtypes x_alias_underlying x_alias_methods x_alias_impl_error x_alias_impl_ree x_alias_impl_cause x_alias_impl x_alias_named_methods.
Definition x_alias_f1 : func := Func 26 (Some (DeclInfo (Ident 5 (str "F") None) None (Some (str "Errors:" ++ [10] ++ [] ++ [10] ++ str "- a -- x")))) (FuncType 3 [] (Some [Field 1 [] 2]) 4) (Some (Node 24 (KOther (str "*ast.BlockStmt")) [Node 13 (KAssign 1%nat) [Node 9 (KIdent (str "e") (Some 1)) []; Node 12 (KUnary true) [Node 11 KComposite [Node 10 KBasicLit []]]]; Node 16 (KAssign 1%nat) [Node 14 (KIdent (str "p") (Some 2)) []; Node 15 (KIdent (str "e") (Some 1)) []]; Node 21 (KAssign 1%nat) [Node 19 KSelector [Node 17 (KIdent (str "p") (Some 2)) []; Node 18 (KIdent (str "TheCode") None) []]; Node 20 KBasicLit []]; Node 23 KReturn [Node 22 (KIdent (str "e") (Some 1)) []]])) 6 25.
Definition x_alias_funcs : gmap fid func := list_to_map [(1, x_alias_f1)].
Definition x_alias_objs : gmap oid object := list_to_map [(1, Object true 7 DOther); (2, Object true 8 DOther)].
Definition x_alias_comments : list (N * list gostring) := [].
Definition x_alias : package := Package x_alias_funcs [1] [] [TopFunc 1] x_alias_objs (fun n => default [] (lookup_in x_alias_comments n)) x_alias_info.
Definition x_alias_start : node := Node 13 (KAssign 1%nat) [Node 9 (KIdent (str "e") (Some 1)) []; Node 12 (KUnary true) [Node 11 KComposite [Node 10 KBasicLit []]]].
Definition x_alias_alias : node := Node 16 (KAssign 1%nat) [Node 14 (KIdent (str "p") (Some 2)) []; Node 15 (KIdent (str "e") (Some 1)) []].
Definition x_alias_set : node := Node 21 (KAssign 1%nat) [Node 19 KSelector [Node 17 (KIdent (str "p") (Some 2)) []; Node 18 (KIdent (str "TheCode") None) []]; Node 20 KBasicLit []].
Definition x_alias_return : node := Node 23 KReturn [Node 22 (KIdent (str "e") (Some 1)) []].

(** [func F() error { e := &Error{"a"}; _ = lib.Run(func() { e.TheCode = "b" }); return e }] *)
Definition x_closure_types : list (N * gotype) := [(2, (TNamed 1)); (8, (TPointer (TNamed 2))); (9, (TBasic (str "string"))); (10, (TNamed 2)); (11, (TPointer (TNamed 2))); (15, (TSignature [TSignature [] [] false] [TBasic (str "int")] false)); (16, (TSignature [TSignature [] [] false] [TBasic (str "int")] false)); (20, (TPointer (TNamed 2))); (21, (TBasic (str "string"))); (22, (TBasic (str "string"))); (23, (TBasic (str "string"))); (28, (TSignature [] [] false)); (29, (TBasic (str "int"))); (31, (TPointer (TNamed 2)))].
Definition x_closure_values : list (N * constval) := [(9, (CString (str "a"))); (23, (CString (str "b")))].
Definition x_closure_uses : list (N * tobj) := [(15, 31)].
Definition x_closure_defs : list (N * tobj) := [(5, 21)].
Definition x_closure_sels : list (N * (tobj * gotype)) := [].
Definition x_closure_objnames : list (N * gostring) := [(2, str "Error"); (5, str "Fixed"); (6, str "Both"); (7, str "Other"); (21, str "F")].
Definition x_closure_objtypes : list (N * gotype) := [].
Definition x_closure_underlying : list (N * gotype) := [(1, (TInterface 1)); (2, (TStruct [(str "TheCode", TBasic (str "string"))])); (5, (TStruct [])); (6, (TStruct [(str "TheCode", TBasic (str "string"))])); (7, (TStruct []))].
Definition x_closure_methods : list (gotype * gostring * tobj) := [].
Definition x_closure_impl_error : list gotype := [TNamed 1; TPointer (TNamed 2); TNamed 5; TPointer (TNamed 5); TNamed 6].
Definition x_closure_impl_ree : list gotype := [TPointer (TNamed 2); TNamed 5; TPointer (TNamed 5); TNamed 6].
Definition x_closure_impl_cause : list gotype := [].
Definition x_closure_impl : list (gotype * gotype) := [].
Definition x_closure_named_methods : list (N * list gostring) := [].
Definition x_closure_info : typeinfo := table_info x_closure_types x_closure_values x_closure_uses x_closure_defs x_closure_sels [1; 2; 5; 6; 7] [] x_closure_objnames x_closure_objtypes x_closure_underlying x_closure_methods x_closure_impl_error x_closure_impl_ree x_closure_impl_cause x_closure_impl x_closure_named_methods.
Definition x_closure_f2 : func := Func 27 None (FuncType 17 [] None 18) (Some (Node 25 (KOther (str "*ast.BlockStmt")) [Node 24 (KAssign 1%nat) [Node 22 KSelector [Node 20 (KIdent (str "e") (Some 1)) []; Node 21 (KIdent (str "TheCode") None) []]; Node 23 KBasicLit []]])) 19 26.
Definition x_closure_f1 : func := Func 35 (Some (DeclInfo (Ident 5 (str "F") None) None (Some (str "Errors:" ++ [10] ++ [] ++ [10] ++ str "- a -- x")))) (FuncType 3 [] (Some [Field 1 [] 2]) 4) (Some (Node 33 (KOther (str "*ast.BlockStmt")) [Node 12 (KAssign 1%nat) [Node 8 (KIdent (str "e") (Some 1)) []; Node 11 (KUnary true) [Node 10 KComposite [Node 9 KBasicLit []]]]; Node 30 (KAssign 1%nat) [Node 13 (KIdent (str "_") None) []; Node 29 KCall [Node 16 KSelector [Node 14 (KIdent (str "lib") None) []; Node 15 (KIdent (str "Run") None) []]; Node 28 (KFuncLit 2) [Node 25 (KOther (str "*ast.BlockStmt")) [Node 24 (KAssign 1%nat) [Node 22 KSelector [Node 20 (KIdent (str "e") (Some 1)) []; Node 21 (KIdent (str "TheCode") None) []]; Node 23 KBasicLit []]]]]]; Node 32 KReturn [Node 31 (KIdent (str "e") (Some 1)) []]])) 6 34.
Definition x_closure_funcs : gmap fid func := list_to_map [(2, x_closure_f2); (1, x_closure_f1)].
Definition x_closure_objs : gmap oid object := list_to_map [(1, Object true 7 DOther)].
Definition x_closure_comments : list (N * list gostring) := [].
Definition x_closure : package := Package x_closure_funcs [1] [] [TopFunc 1] x_closure_objs (fun n => default [] (lookup_in x_closure_comments n)) x_closure_info.
Definition x_closure_start : node := Node 12 (KAssign 1%nat) [Node 8 (KIdent (str "e") (Some 1)) []; Node 11 (KUnary true) [Node 10 KComposite [Node 9 KBasicLit []]]].
Definition x_closure_set : node := Node 24 (KAssign 1%nat) [Node 22 KSelector [Node 20 (KIdent (str "e") (Some 1)) []; Node 21 (KIdent (str "TheCode") None) []]; Node 23 KBasicLit []].
Definition x_closure_return : node := Node 32 KReturn [Node 31 (KIdent (str "e") (Some 1)) []].

(** [func F() error { e := &Error{"a"}; (e.TheCode) = "b"; return e }] *)
Definition x_paren_types : list (N * gotype) := [(2, (TNamed 1)); (8, (TPointer (TNamed 2))); (9, (TBasic (str "string"))); (10, (TNamed 2)); (11, (TPointer (TNamed 2))); (13, (TPointer (TNamed 2))); (14, (TBasic (str "string"))); (15, (TBasic (str "string"))); (16, (TBasic (str "string"))); (17, (TBasic (str "string"))); (19, (TPointer (TNamed 2)))].
Definition x_paren_values : list (N * constval) := [(9, (CString (str "a"))); (17, (CString (str "b")))].
Definition x_paren_uses : list (N * tobj) := [].
Definition x_paren_defs : list (N * tobj) := [(5, 21)].
Definition x_paren_sels : list (N * (tobj * gotype)) := [].
Definition x_paren_objnames : list (N * gostring) := [(2, str "Error"); (5, str "Fixed"); (6, str "Both"); (7, str "Other"); (21, str "F")].
Definition x_paren_objtypes : list (N * gotype) := [].
Definition x_paren_underlying : list (N * gotype) := [(1, (TInterface 1)); (2, (TStruct [(str "TheCode", TBasic (str "string"))])); (5, (TStruct [])); (6, (TStruct [(str "TheCode", TBasic (str "string"))])); (7, (TStruct []))].
Definition x_paren_methods : list (gotype * gostring * tobj) := [].
Definition x_paren_impl_error : list gotype := [TNamed 1; TPointer (TNamed 2); TNamed 5; TPointer (TNamed 5); TNamed 6].
Definition x_paren_impl_ree : list gotype := [TPointer (TNamed 2); TNamed 5; TPointer (TNamed 5); TNamed 6].
Definition x_paren_impl_cause : list gotype := [].
Definition x_paren_impl : list (gotype * gotype) := [].
Definition x_paren_named_methods : list (N * list gostring) := [].
Definition x_paren_info : typeinfo := table_info x_paren_types x_paren_values x_paren_uses x_paren_defs x_paren_sels [1; 2; 5; 6; 7] [] x_paren_objnames x_paren_objtypes x_paren_underlying x_paren_methods x_paren_impl_error x_paren_impl_ree x_paren_impl_cause x_paren_impl x_paren_named_methods.
Definition x_paren_f1 : func := Func 23 (Some (DeclInfo (Ident 5 (str "F") None) None (Some (str "Errors:" ++ [10] ++ [] ++ [10] ++ str "- a -- x")))) (FuncType 3 [] (Some [Field 1 [] 2]) 4) (Some (Node 21 (KOther (str "*ast.BlockStmt")) [Node 12 (KAssign 1%nat) [Node 8 (KIdent (str "e") (Some 1)) []; Node 11 (KUnary true) [Node 10 KComposite [Node 9 KBasicLit []]]]; Node 18 (KAssign 1%nat) [Node 16 KParen [Node 15 KSelector [Node 13 (KIdent (str "e") (Some 1)) []; Node 14 (KIdent (str "TheCode") None) []]]; Node 17 KBasicLit []]; Node 20 KReturn [Node 19 (KIdent (str "e") (Some 1)) []]])) 6 22.
Definition x_paren_funcs : gmap fid func := list_to_map [(1, x_paren_f1)].
Definition x_paren_objs : gmap oid object := list_to_map [(1, Object true 7 DOther)].
Definition x_paren_comments : list (N * list gostring) := [].
Definition x_paren : package := Package x_paren_funcs [1] [] [TopFunc 1] x_paren_objs (fun n => default [] (lookup_in x_paren_comments n)) x_paren_info.
Definition x_paren_start : node := Node 12 (KAssign 1%nat) [Node 8 (KIdent (str "e") (Some 1)) []; Node 11 (KUnary true) [Node 10 KComposite [Node 9 KBasicLit []]]].
Definition x_paren_set : node := Node 18 (KAssign 1%nat) [Node 16 KParen [Node 15 KSelector [Node 13 (KIdent (str "e") (Some 1)) []; Node 14 (KIdent (str "TheCode") None) []]]; Node 17 KBasicLit []].
Definition x_paren_return : node := Node 20 KReturn [Node 19 (KIdent (str "e") (Some 1)) []].

(** [func F() error { e := &Error{"a"}; e.TheCode += "b"; return e }] *)
Definition x_compound_types : list (N * gotype) := [(2, (TNamed 1)); (8, (TPointer (TNamed 2))); (9, (TBasic (str "string"))); (10, (TBasic (str "string"))); (11, (TBasic (str "string"))); (13, (TPointer (TNamed 2))); (14, (TBasic (str "string"))); (15, (TNamed 2)); (16, (TPointer (TNamed 2))); (18, (TPointer (TNamed 2)))].
Definition x_compound_values : list (N * constval) := [(11, (CString (str "b"))); (14, (CString (str "a")))].
Definition x_compound_uses : list (N * tobj) := [].
Definition x_compound_defs : list (N * tobj) := [(5, 21)].
Definition x_compound_sels : list (N * (tobj * gotype)) := [].
Definition x_compound_objnames : list (N * gostring) := [(2, str "Error"); (5, str "Fixed"); (6, str "Both"); (7, str "Other"); (21, str "F")].
Definition x_compound_objtypes : list (N * gotype) := [].
Definition x_compound_underlying : list (N * gotype) := [(1, (TInterface 1)); (2, (TStruct [(str "TheCode", TBasic (str "string"))])); (5, (TStruct [])); (6, (TStruct [(str "TheCode", TBasic (str "string"))])); (7, (TStruct []))].
Definition x_compound_methods : list (gotype * gostring * tobj) := [].
Definition x_compound_impl_error : list gotype := [TNamed 1; TPointer (TNamed 2); TNamed 5; TPointer (TNamed 5); TNamed 6].
Definition x_compound_impl_ree : list gotype := [TPointer (TNamed 2); TNamed 5; TPointer (TNamed 5); TNamed 6].
Definition x_compound_impl_cause : list gotype := [].
Definition x_compound_impl : list (gotype * gotype) := [].
Definition x_compound_named_methods : list (N * list gostring) := [].
Definition x_compound_info : typeinfo := with_compound [12] (table_info x_compound_types x_compound_values x_compound_uses x_compound_defs x_compound_sels [1; 2; 5; 6; 7] [] x_compound_objnames x_compound_objtypes x_compound_underlying x_compound_methods x_compound_impl_error x_compound_impl_ree x_compound_impl_cause x_compound_impl x_compound_named_methods).
Definition x_compound_f1 : func := Func 22 (Some (DeclInfo (Ident 5 (str "F") None) None (Some (str "Errors:" ++ [10] ++ [] ++ [10] ++ str "- a -- x" ++ [10] ++ str "- b -- y")))) (FuncType 3 [] (Some [Field 1 [] 2]) 4) (Some (Node 20 (KOther (str "*ast.BlockStmt")) [Node 17 (KAssign 1%nat) [Node 13 (KIdent (str "e") (Some 1)) []; Node 16 (KUnary true) [Node 15 KComposite [Node 14 KBasicLit []]]]; Node 12 (KAssign 1%nat) [Node 10 KSelector [Node 8 (KIdent (str "e") (Some 1)) []; Node 9 (KIdent (str "TheCode") None) []]; Node 11 KBasicLit []]; Node 19 KReturn [Node 18 (KIdent (str "e") (Some 1)) []]])) 6 21.
Definition x_compound_funcs : gmap fid func := list_to_map [(1, x_compound_f1)].
Definition x_compound_objs : gmap oid object := list_to_map [(1, Object true 7 DOther)].
Definition x_compound_comments : list (N * list gostring) := [].
Definition x_compound : package := Package x_compound_funcs [1] [] [TopFunc 1] x_compound_objs (fun n => default [] (lookup_in x_compound_comments n)) x_compound_info.
Definition x_compound_set : node := Node 12 (KAssign 1%nat) [Node 10 KSelector [Node 8 (KIdent (str "e") (Some 1)) []; Node 9 (KIdent (str "TheCode") None) []]; Node 11 KBasicLit []].
Definition x_compound_start : node := Node 17 (KAssign 1%nat) [Node 13 (KIdent (str "e") (Some 1)) []; Node 16 (KUnary true) [Node 15 KComposite [Node 14 KBasicLit []]]].
Definition x_compound_return : node := Node 19 KReturn [Node 18 (KIdent (str "e") (Some 1)) []].

(** [func F() error { e := &Error{"a"}; for _, e.TheCode = range codes {}; return e }] *)
Definition x_range_field_types : list (N * gotype) := [(2, (TNamed 1)); (8, (TPointer (TNamed 2))); (9, (TBasic (str "string"))); (10, (TNamed 2)); (11, (TPointer (TNamed 2))); (14, (TPointer (TNamed 2))); (15, (TBasic (str "string"))); (16, (TBasic (str "string"))); (17, (TSlice (TBasic (str "string")))); (20, (TPointer (TNamed 2)))].
Definition x_range_field_values : list (N * constval) := [(9, (CString (str "a")))].
Definition x_range_field_uses : list (N * tobj) := [].
Definition x_range_field_defs : list (N * tobj) := [(5, 21)].
Definition x_range_field_sels : list (N * (tobj * gotype)) := [].
Definition x_range_field_objnames : list (N * gostring) := [(2, str "Error"); (5, str "Fixed"); (6, str "Both"); (7, str "Other"); (21, str "F")].
Definition x_range_field_objtypes : list (N * gotype) := [].
Definition x_range_field_underlying : list (N * gotype) := [(1, (TInterface 1)); (2, (TStruct [(str "TheCode", TBasic (str "string"))])); (5, (TStruct [])); (6, (TStruct [(str "TheCode", TBasic (str "string"))])); (7, (TStruct []))].
Definition x_range_field_methods : list (gotype * gostring * tobj) := [].
Definition x_range_field_impl_error : list gotype := [TNamed 1; TPointer (TNamed 2); TNamed 5; TPointer (TNamed 5); TNamed 6].
Definition x_range_field_impl_ree : list gotype := [TPointer (TNamed 2); TNamed 5; TPointer (TNamed 5); TNamed 6].
Definition x_range_field_impl_cause : list gotype := [].
Definition x_range_field_impl : list (gotype * gotype) := [].
Definition x_range_field_named_methods : list (N * list gostring) := [].
Definition x_range_field_info : typeinfo := table_info x_range_field_types x_range_field_values x_range_field_uses x_range_field_defs x_range_field_sels [1; 2; 5; 6; 7] [] x_range_field_objnames x_range_field_objtypes x_range_field_underlying x_range_field_methods x_range_field_impl_error x_range_field_impl_ree x_range_field_impl_cause x_range_field_impl x_range_field_named_methods.
Definition x_range_field_f1 : func := Func 24 (Some (DeclInfo (Ident 5 (str "F") None) None (Some (str "Errors:" ++ [10] ++ [] ++ [10] ++ str "- a -- x")))) (FuncType 3 [] (Some [Field 1 [] 2]) 4) (Some (Node 22 (KOther (str "*ast.BlockStmt")) [Node 12 (KAssign 1%nat) [Node 8 (KIdent (str "e") (Some 1)) []; Node 11 (KUnary true) [Node 10 KComposite [Node 9 KBasicLit []]]]; Node 19 (KRange true true) [Node 13 (KIdent (str "_") None) []; Node 16 KSelector [Node 14 (KIdent (str "e") (Some 1)) []; Node 15 (KIdent (str "TheCode") None) []]; Node 17 (KIdent (str "codes") None) []; Node 18 (KOther (str "*ast.BlockStmt")) []]; Node 21 KReturn [Node 20 (KIdent (str "e") (Some 1)) []]])) 6 23.
Definition x_range_field_funcs : gmap fid func := list_to_map [(1, x_range_field_f1)].
Definition x_range_field_objs : gmap oid object := list_to_map [(1, Object true 7 DOther)].
Definition x_range_field_comments : list (N * list gostring) := [].
Definition x_range_field : package := Package x_range_field_funcs [1] [] [TopFunc 1] x_range_field_objs (fun n => default [] (lookup_in x_range_field_comments n)) x_range_field_info.
Definition x_range_field_start : node := Node 12 (KAssign 1%nat) [Node 8 (KIdent (str "e") (Some 1)) []; Node 11 (KUnary true) [Node 10 KComposite [Node 9 KBasicLit []]]].
Definition x_range_field_range : node := Node 19 (KRange true true) [Node 13 (KIdent (str "_") None) []; Node 16 KSelector [Node 14 (KIdent (str "e") (Some 1)) []; Node 15 (KIdent (str "TheCode") None) []]; Node 17 (KIdent (str "codes") None) []; Node 18 (KOther (str "*ast.BlockStmt")) []].
Definition x_range_field_return : node := Node 21 KReturn [Node 20 (KIdent (str "e") (Some 1)) []].

(** [type Other struct { *Error }; func F() error { e := &Error{"a"}; w := Other{e}; w.TheCode = "b"; return e }] *)
Definition x_promoted_types : list (N * gotype) := [(2, (TNamed 1)); (9, (TPointer (TNamed 2))); (10, (TBasic (str "string"))); (11, (TNamed 2)); (12, (TPointer (TNamed 2))); (14, (TNamed 7)); (15, (TPointer (TNamed 2))); (16, (TNamed 7)); (18, (TNamed 7)); (19, (TBasic (str "string"))); (20, (TBasic (str "string"))); (21, (TBasic (str "string"))); (23, (TPointer (TNamed 2)))].
Definition x_promoted_values : list (N * constval) := [(10, (CString (str "a"))); (21, (CString (str "b")))].
Definition x_promoted_uses : list (N * tobj) := [].
Definition x_promoted_defs : list (N * tobj) := [(5, 21)].
Definition x_promoted_sels : list (N * (tobj * gotype)) := [].
Definition x_promoted_objnames : list (N * gostring) := [(2, str "Error"); (5, str "Fixed"); (6, str "Both"); (7, str "Other"); (21, str "F")].
Definition x_promoted_objtypes : list (N * gotype) := [].
Definition x_promoted_underlying : list (N * gotype) := [(1, (TInterface 1)); (2, (TStruct [(str "TheCode", TBasic (str "string"))])); (5, (TStruct [])); (6, (TStruct [(str "TheCode", TBasic (str "string"))])); (7, (TStruct []))].
Definition x_promoted_methods : list (gotype * gostring * tobj) := [].
Definition x_promoted_impl_error : list gotype := [TNamed 1; TPointer (TNamed 2); TNamed 5; TPointer (TNamed 5); TNamed 6].
Definition x_promoted_impl_ree : list gotype := [TPointer (TNamed 2); TNamed 5; TPointer (TNamed 5); TNamed 6].
Definition x_promoted_impl_cause : list gotype := [].
Definition x_promoted_impl : list (gotype * gotype) := [].
Definition x_promoted_named_methods : list (N * list gostring) := [].
Definition x_promoted_info : typeinfo := table_info x_promoted_types x_promoted_values x_promoted_uses x_promoted_defs x_promoted_sels [1; 2; 5; 6; 7] [] x_promoted_objnames x_promoted_objtypes x_promoted_underlying x_promoted_methods x_promoted_impl_error x_promoted_impl_ree x_promoted_impl_cause x_promoted_impl x_promoted_named_methods.
Definition x_promoted_f1 : func := Func 27 (Some (DeclInfo (Ident 5 (str "F") None) None (Some (str "Errors:" ++ [10] ++ [] ++ [10] ++ str "- a -- x")))) (FuncType 3 [] (Some [Field 1 [] 2]) 4) (Some (Node 25 (KOther (str "*ast.BlockStmt")) [Node 13 (KAssign 1%nat) [Node 9 (KIdent (str "e") (Some 1)) []; Node 12 (KUnary true) [Node 11 KComposite [Node 10 KBasicLit []]]]; Node 17 (KAssign 1%nat) [Node 14 (KIdent (str "w") (Some 2)) []; Node 16 KComposite [Node 15 (KIdent (str "e") (Some 1)) []]]; Node 22 (KAssign 1%nat) [Node 20 KSelector [Node 18 (KIdent (str "w") (Some 2)) []; Node 19 (KIdent (str "TheCode") None) []]; Node 21 KBasicLit []]; Node 24 KReturn [Node 23 (KIdent (str "e") (Some 1)) []]])) 6 26.
Definition x_promoted_funcs : gmap fid func := list_to_map [(1, x_promoted_f1)].
Definition x_promoted_objs : gmap oid object := list_to_map [(1, Object true 7 DOther); (2, Object true 8 DOther)].
Definition x_promoted_comments : list (N * list gostring) := [].
Definition x_promoted : package := Package x_promoted_funcs [1] [] [TopFunc 1] x_promoted_objs (fun n => default [] (lookup_in x_promoted_comments n)) x_promoted_info.
Definition x_promoted_start : node := Node 13 (KAssign 1%nat) [Node 9 (KIdent (str "e") (Some 1)) []; Node 12 (KUnary true) [Node 11 KComposite [Node 10 KBasicLit []]]].
Definition x_promoted_wrap : node := Node 17 (KAssign 1%nat) [Node 14 (KIdent (str "w") (Some 2)) []; Node 16 KComposite [Node 15 (KIdent (str "e") (Some 1)) []]].
Definition x_promoted_set : node := Node 22 (KAssign 1%nat) [Node 20 KSelector [Node 18 (KIdent (str "w") (Some 2)) []; Node 19 (KIdent (str "TheCode") None) []]; Node 21 KBasicLit []].
Definition x_promoted_return : node := Node 24 KReturn [Node 23 (KIdent (str "e") (Some 1)) []].

(** [func F() error { e := &Error{"a"}; p := &e.TheCode; *p = "b"; return e }] *)
Definition x_pointer_types : list (N * gotype) := [(2, (TNamed 1)); (9, (TPointer (TNamed 2))); (10, (TBasic (str "string"))); (11, (TNamed 2)); (12, (TPointer (TNamed 2))); (14, (TPointer (TBasic (str "string")))); (15, (TPointer (TNamed 2))); (16, (TBasic (str "string"))); (17, (TBasic (str "string"))); (18, (TPointer (TBasic (str "string")))); (20, (TPointer (TBasic (str "string")))); (21, (TBasic (str "string"))); (22, (TBasic (str "string"))); (24, (TPointer (TNamed 2)))].
Definition x_pointer_values : list (N * constval) := [(10, (CString (str "a"))); (22, (CString (str "b")))].
Definition x_pointer_uses : list (N * tobj) := [].
Definition x_pointer_defs : list (N * tobj) := [(5, 21)].
Definition x_pointer_sels : list (N * (tobj * gotype)) := [].
Definition x_pointer_objnames : list (N * gostring) := [(2, str "Error"); (5, str "Fixed"); (6, str "Both"); (7, str "Other"); (21, str "F")].
Definition x_pointer_objtypes : list (N * gotype) := [].
Definition x_pointer_underlying : list (N * gotype) := [(1, (TInterface 1)); (2, (TStruct [(str "TheCode", TBasic (str "string"))])); (5, (TStruct [])); (6, (TStruct [(str "TheCode", TBasic (str "string"))])); (7, (TStruct []))].
Definition x_pointer_methods : list (gotype * gostring * tobj) := [].
Definition x_pointer_impl_error : list gotype := [TNamed 1; TPointer (TNamed 2); TNamed 5; TPointer (TNamed 5); TNamed 6].
Definition x_pointer_impl_ree : list gotype := [TPointer (TNamed 2); TNamed 5; TPointer (TNamed 5); TNamed 6].
Definition x_pointer_impl_cause : list gotype := [].
Definition x_pointer_impl : list (gotype * gotype) := [].
Definition x_pointer_named_methods : list (N * list gostring) := [].
Definition x_pointer_info : typeinfo := table_info x_pointer_types x_pointer_values x_pointer_uses x_pointer_defs x_pointer_sels [1; 2; 5; 6; 7] [] x_pointer_objnames x_pointer_objtypes x_pointer_underlying x_pointer_methods x_pointer_impl_error x_pointer_impl_ree x_pointer_impl_cause x_pointer_impl x_pointer_named_methods.
Definition x_pointer_f1 : func := Func 28 (Some (DeclInfo (Ident 5 (str "F") None) None (Some (str "Errors:" ++ [10] ++ [] ++ [10] ++ str "- a -- x")))) (FuncType 3 [] (Some [Field 1 [] 2]) 4) (Some (Node 26 (KOther (str "*ast.BlockStmt")) [Node 13 (KAssign 1%nat) [Node 9 (KIdent (str "e") (Some 1)) []; Node 12 (KUnary true) [Node 11 KComposite [Node 10 KBasicLit []]]]; Node 19 (KAssign 1%nat) [Node 14 (KIdent (str "p") (Some 2)) []; Node 18 (KUnary true) [Node 17 KSelector [Node 15 (KIdent (str "e") (Some 1)) []; Node 16 (KIdent (str "TheCode") None) []]]]; Node 23 (KAssign 1%nat) [Node 21 (KOther (str "*ast.StarExpr")) [Node 20 (KIdent (str "p") (Some 2)) []]; Node 22 KBasicLit []]; Node 25 KReturn [Node 24 (KIdent (str "e") (Some 1)) []]])) 6 27.
Definition x_pointer_funcs : gmap fid func := list_to_map [(1, x_pointer_f1)].
Definition x_pointer_objs : gmap oid object := list_to_map [(1, Object true 7 DOther); (2, Object true 8 DOther)].
Definition x_pointer_comments : list (N * list gostring) := [].
Definition x_pointer : package := Package x_pointer_funcs [1] [] [TopFunc 1] x_pointer_objs (fun n => default [] (lookup_in x_pointer_comments n)) x_pointer_info.
Definition x_pointer_start : node := Node 13 (KAssign 1%nat) [Node 9 (KIdent (str "e") (Some 1)) []; Node 12 (KUnary true) [Node 11 KComposite [Node 10 KBasicLit []]]].
Definition x_pointer_address : node := Node 18 (KUnary true) [Node 17 KSelector [Node 15 (KIdent (str "e") (Some 1)) []; Node 16 (KIdent (str "TheCode") None) []]].
Definition x_pointer_pointer : node := Node 19 (KAssign 1%nat) [Node 14 (KIdent (str "p") (Some 2)) []; Node 18 (KUnary true) [Node 17 KSelector [Node 15 (KIdent (str "e") (Some 1)) []; Node 16 (KIdent (str "TheCode") None) []]]].
Definition x_pointer_set : node := Node 23 (KAssign 1%nat) [Node 21 (KOther (str "*ast.StarExpr")) [Node 20 (KIdent (str "p") (Some 2)) []]; Node 22 KBasicLit []].
Definition x_pointer_return : node := Node 25 KReturn [Node 24 (KIdent (str "e") (Some 1)) []].

(** [func F() error { e := &Error{"a"}; set(e); return e }; func set(e *Error) { e.TheCode = "b" }] *)
Definition x_setter_types : list (N * gotype) := [(3, (TNamed 1)); (9, (TPointer (TNamed 2))); (10, (TBasic (str "string"))); (11, (TNamed 2)); (12, (TPointer (TNamed 2))); (14, (TSignature [TPointer (TNamed 2)] [] false)); (15, (TPointer (TNamed 2))); (18, (TPointer (TNamed 2))); (24, (TPointer (TNamed 2))); (26, (TPointer (TNamed 2))); (31, (TPointer (TNamed 2))); (32, (TBasic (str "string"))); (33, (TBasic (str "string"))); (34, (TBasic (str "string")))].
Definition x_setter_values : list (N * constval) := [(10, (CString (str "a"))); (34, (CString (str "b")))].
Definition x_setter_uses : list (N * tobj) := [(14, 22)].
Definition x_setter_defs : list (N * tobj) := [(6, 21); (29, 22)].
Definition x_setter_sels : list (N * (tobj * gotype)) := [].
Definition x_setter_objnames : list (N * gostring) := [(2, str "Error"); (5, str "Fixed"); (6, str "Both"); (7, str "Other"); (21, str "F"); (22, str "set")].
Definition x_setter_objtypes : list (N * gotype) := [].
Definition x_setter_underlying : list (N * gotype) := [(1, (TInterface 1)); (2, (TStruct [(str "TheCode", TBasic (str "string"))])); (5, (TStruct [])); (6, (TStruct [(str "TheCode", TBasic (str "string"))])); (7, (TStruct []))].
Definition x_setter_methods : list (gotype * gostring * tobj) := [].
Definition x_setter_impl_error : list gotype := [TNamed 1; TPointer (TNamed 2); TNamed 5; TPointer (TNamed 5); TNamed 6].
Definition x_setter_impl_ree : list gotype := [TPointer (TNamed 2); TNamed 5; TPointer (TNamed 5); TNamed 6].
Definition x_setter_impl_cause : list gotype := [].
Definition x_setter_impl : list (gotype * gotype) := [].
Definition x_setter_named_methods : list (N * list gostring) := [].
Definition x_setter_info : typeinfo := table_info x_setter_types x_setter_values x_setter_uses x_setter_defs x_setter_sels [1; 2; 5; 6; 7] [] x_setter_objnames x_setter_objtypes x_setter_underlying x_setter_methods x_setter_impl_error x_setter_impl_ree x_setter_impl_cause x_setter_impl x_setter_named_methods.
Definition x_setter_f1 : func := Func 22 (Some (DeclInfo (Ident 6 (str "F") None) None (Some (str "Errors:" ++ [10] ++ [] ++ [10] ++ str "- a -- x")))) (FuncType 4 [] (Some [Field 2 [] 3]) 5) (Some (Node 20 (KOther (str "*ast.BlockStmt")) [Node 13 (KAssign 1%nat) [Node 9 (KIdent (str "e") (Some 2)) []; Node 12 (KUnary true) [Node 11 KComposite [Node 10 KBasicLit []]]]; Node 17 (KOther (str "*ast.ExprStmt")) [Node 16 KCall [Node 14 (KIdent (str "set") (Some 1)) []; Node 15 (KIdent (str "e") (Some 2)) []]]; Node 19 KReturn [Node 18 (KIdent (str "e") (Some 2)) []]])) 7 21.
Definition x_setter_f2 : func := Func 38 (Some (DeclInfo (Ident 29 (str "set") None) None None)) (FuncType 27 [Field 25 [Ident 24 (str "e") (Some 3)] 26] None 28) (Some (Node 36 (KOther (str "*ast.BlockStmt")) [Node 35 (KAssign 1%nat) [Node 33 KSelector [Node 31 (KIdent (str "e") (Some 3)) []; Node 32 (KIdent (str "TheCode") None) []]; Node 34 KBasicLit []]])) 30 37.
Definition x_setter_funcs : gmap fid func := list_to_map [(1, x_setter_f1); (2, x_setter_f2)].
Definition x_setter_objs : gmap oid object := list_to_map [(1, Object false 1 (DFunc 2)); (2, Object true 8 DOther); (3, Object true 23 DOther)].
Definition x_setter_comments : list (N * list gostring) := [].
Definition x_setter : package := Package x_setter_funcs [1; 2] [] [TopFunc 1; TopFunc 2] x_setter_objs (fun n => default [] (lookup_in x_setter_comments n)) x_setter_info.
Definition x_setter_start : node := Node 13 (KAssign 1%nat) [Node 9 (KIdent (str "e") (Some 2)) []; Node 12 (KUnary true) [Node 11 KComposite [Node 10 KBasicLit []]]].
Definition x_setter_call : node := Node 16 KCall [Node 14 (KIdent (str "set") (Some 1)) []; Node 15 (KIdent (str "e") (Some 2)) []].
Definition x_setter_return : node := Node 19 KReturn [Node 18 (KIdent (str "e") (Some 2)) []].
Definition x_setter_set : node := Node 35 (KAssign 1%nat) [Node 33 KSelector [Node 31 (KIdent (str "e") (Some 3)) []; Node 32 (KIdent (str "TheCode") None) []]; Node 34 KBasicLit []].

(** [func F() error { e := &Error{"a"}; for _, p := range []*Error{e} { p.TheCode = "b" }; return e }] *)
Definition x_range_alias_types : list (N * gotype) := [(2, (TNamed 1)); (10, (TPointer (TNamed 2))); (11, (TBasic (str "string"))); (12, (TNamed 2)); (13, (TPointer (TNamed 2))); (16, (TPointer (TNamed 2))); (17, (TPointer (TNamed 2))); (18, (TSlice (TPointer (TNamed 2)))); (19, (TPointer (TNamed 2))); (20, (TBasic (str "string"))); (21, (TBasic (str "string"))); (22, (TBasic (str "string"))); (26, (TPointer (TNamed 2)))].
Definition x_range_alias_values : list (N * constval) := [(11, (CString (str "a"))); (22, (CString (str "b")))].
Definition x_range_alias_uses : list (N * tobj) := [].
Definition x_range_alias_defs : list (N * tobj) := [(5, 21)].
Definition x_range_alias_sels : list (N * (tobj * gotype)) := [].
Definition x_range_alias_objnames : list (N * gostring) := [(2, str "Error"); (5, str "Fixed"); (6, str "Both"); (7, str "Other"); (21, str "F")].
Definition x_range_alias_objtypes : list (N * gotype) := [].
Definition x_range_alias_underlying : list (N * gotype) := [(1, (TInterface 1)); (2, (TStruct [(str "TheCode", TBasic (str "string"))])); (5, (TStruct [])); (6, (TStruct [(str "TheCode", TBasic (str "string"))])); (7, (TStruct []))].
Definition x_range_alias_methods : list (gotype * gostring * tobj) := [].
Definition x_range_alias_impl_error : list gotype := [TNamed 1; TPointer (TNamed 2); TNamed 5; TPointer (TNamed 5); TNamed 6].
Definition x_range_alias_impl_ree : list gotype := [TPointer (TNamed 2); TNamed 5; TPointer (TNamed 5); TNamed 6].
Definition x_range_alias_impl_cause : list gotype := [].
Definition x_range_alias_impl : list (gotype * gotype) := [].
Definition x_range_alias_named_methods : list (N * list gostring) := [].
Definition x_range_alias_info : typeinfo := table_info x_range_alias_types x_range_alias_values x_range_alias_uses x_range_alias_defs x_range_alias_sels [1; 2; 5; 6; 7] [] x_range_alias_objnames x_range_alias_objtypes x_range_alias_underlying x_range_alias_methods x_range_alias_impl_error x_range_alias_impl_ree x_range_alias_impl_cause x_range_alias_impl x_range_alias_named_methods.
Definition x_range_alias_f1 : func := Func 30 (Some (DeclInfo (Ident 5 (str "F") None) None (Some (str "Errors:" ++ [10] ++ [] ++ [10] ++ str "- a -- x")))) (FuncType 3 [] (Some [Field 1 [] 2]) 4) (Some (Node 28 (KOther (str "*ast.BlockStmt")) [Node 14 (KAssign 1%nat) [Node 10 (KIdent (str "e") (Some 1)) []; Node 13 (KUnary true) [Node 12 KComposite [Node 11 KBasicLit []]]]; Node 25 (KRange true true) [Node 15 (KIdent (str "_") None) []; Node 16 (KIdent (str "p") (Some 2)) []; Node 18 KComposite [Node 17 (KIdent (str "e") (Some 1)) []]; Node 24 (KOther (str "*ast.BlockStmt")) [Node 23 (KAssign 1%nat) [Node 21 KSelector [Node 19 (KIdent (str "p") (Some 2)) []; Node 20 (KIdent (str "TheCode") None) []]; Node 22 KBasicLit []]]]; Node 27 KReturn [Node 26 (KIdent (str "e") (Some 1)) []]])) 6 29.
Definition x_range_alias_funcs : gmap fid func := list_to_map [(1, x_range_alias_f1)].
Definition x_range_alias_objs : gmap oid object := list_to_map [(1, Object true 7 DOther); (2, Object true 8 DOther)].
Definition x_range_alias_comments : list (N * list gostring) := [].
Definition x_range_alias : package := Package x_range_alias_funcs [1] [] [TopFunc 1] x_range_alias_objs (fun n => default [] (lookup_in x_range_alias_comments n)) x_range_alias_info.
Definition x_range_alias_start : node := Node 14 (KAssign 1%nat) [Node 10 (KIdent (str "e") (Some 1)) []; Node 13 (KUnary true) [Node 12 KComposite [Node 11 KBasicLit []]]].
Definition x_range_alias_set : node := Node 23 (KAssign 1%nat) [Node 21 KSelector [Node 19 (KIdent (str "p") (Some 2)) []; Node 20 (KIdent (str "TheCode") None) []]; Node 22 KBasicLit []].
Definition x_range_alias_range : node := Node 25 (KRange true true) [Node 15 (KIdent (str "_") None) []; Node 16 (KIdent (str "p") (Some 2)) []; Node 18 KComposite [Node 17 (KIdent (str "e") (Some 1)) []]; Node 24 (KOther (str "*ast.BlockStmt")) [Node 23 (KAssign 1%nat) [Node 21 KSelector [Node 19 (KIdent (str "p") (Some 2)) []; Node 20 (KIdent (str "TheCode") None) []]; Node 22 KBasicLit []]]].
Definition x_range_alias_return : node := Node 27 KReturn [Node 26 (KIdent (str "e") (Some 1)) []].

(** [func F() error { for _, err := range errs { return err }; return nil }] *)
Definition x_range_types : list (N * gotype) := [(2, (TNamed 1)); (9, (TNamed 1)); (10, (TSlice (TNamed 1))); (11, (TNamed 1)); (15, TUntypedNil)].
Definition x_range_values : list (N * constval) := [].
Definition x_range_uses : list (N * tobj) := [].
Definition x_range_defs : list (N * tobj) := [(5, 21)].
Definition x_range_sels : list (N * (tobj * gotype)) := [].
Definition x_range_objnames : list (N * gostring) := [(2, str "Error"); (5, str "Fixed"); (6, str "Both"); (7, str "Other"); (21, str "F")].
Definition x_range_objtypes : list (N * gotype) := [].
Definition x_range_underlying : list (N * gotype) := [(1, (TInterface 1)); (2, (TStruct [(str "TheCode", TBasic (str "string"))])); (5, (TStruct [])); (6, (TStruct [(str "TheCode", TBasic (str "string"))])); (7, (TStruct []))].
Definition x_range_methods : list (gotype * gostring * tobj) := [].
Definition x_range_impl_error : list gotype := [TNamed 1; TPointer (TNamed 2); TNamed 5; TPointer (TNamed 5); TNamed 6].
Definition x_range_impl_ree : list gotype := [TPointer (TNamed 2); TNamed 5; TPointer (TNamed 5); TNamed 6].
Definition x_range_impl_cause : list gotype := [].
Definition x_range_impl : list (gotype * gotype) := [].
Definition x_range_named_methods : list (N * list gostring) := [].
Definition x_range_info : typeinfo := table_info x_range_types x_range_values x_range_uses x_range_defs x_range_sels [1; 2; 5; 6; 7] [] x_range_objnames x_range_objtypes x_range_underlying x_range_methods x_range_impl_error x_range_impl_ree x_range_impl_cause x_range_impl x_range_named_methods.
Definition x_range_f1 : func := Func 19 (Some (DeclInfo (Ident 5 (str "F") None) None (Some (str "Errors: none")))) (FuncType 3 [] (Some [Field 1 [] 2]) 4) (Some (Node 17 (KOther (str "*ast.BlockStmt")) [Node 14 (KRange true true) [Node 8 (KIdent (str "_") None) []; Node 9 (KIdent (str "err") (Some 1)) []; Node 10 (KIdent (str "errs") None) []; Node 13 (KOther (str "*ast.BlockStmt")) [Node 12 KReturn [Node 11 (KIdent (str "err") (Some 1)) []]]]; Node 16 KReturn [Node 15 (KIdent (str "nil") None) []]])) 6 18.
Definition x_range_funcs : gmap fid func := list_to_map [(1, x_range_f1)].
Definition x_range_objs : gmap oid object := list_to_map [(1, Object true 7 DOther)].
Definition x_range_comments : list (N * list gostring) := [].
Definition x_range : package := Package x_range_funcs [1] [] [TopFunc 1] x_range_objs (fun n => default [] (lookup_in x_range_comments n)) x_range_info.
Definition x_range_return : node := Node 12 KReturn [Node 11 (KIdent (str "err") (Some 1)) []].
Definition x_range_range : node := Node 14 (KRange true true) [Node 8 (KIdent (str "_") None) []; Node 9 (KIdent (str "err") (Some 1)) []; Node 10 (KIdent (str "errs") None) []; Node 13 (KOther (str "*ast.BlockStmt")) [Node 12 KReturn [Node 11 (KIdent (str "err") (Some 1)) []]]].

(** [func F() error { var t *Error; if errors.As(cause, &t) { return t }; return nil }] *)
Definition x_exposed_types : list (N * gotype) := [(2, (TNamed 1)); (8, (TPointer (TNamed 2))); (9, (TPointer (TNamed 2))); (13, (TSignature [TNamed 1; TOther 1] [TBasic (str "bool")] false)); (14, (TSignature [TNamed 1; TOther 1] [TBasic (str "bool")] false)); (15, (TNamed 1)); (16, (TPointer (TNamed 2))); (17, (TPointer (TPointer (TNamed 2)))); (18, (TBasic (str "bool"))); (19, (TPointer (TNamed 2))); (23, TUntypedNil)].
Definition x_exposed_values : list (N * constval) := [].
Definition x_exposed_uses : list (N * tobj) := [(13, 31)].
Definition x_exposed_defs : list (N * tobj) := [(5, 21)].
Definition x_exposed_sels : list (N * (tobj * gotype)) := [].
Definition x_exposed_objnames : list (N * gostring) := [(2, str "Error"); (5, str "Fixed"); (6, str "Both"); (7, str "Other"); (21, str "F")].
Definition x_exposed_objtypes : list (N * gotype) := [].
Definition x_exposed_underlying : list (N * gotype) := [(1, (TInterface 1)); (2, (TStruct [(str "TheCode", TBasic (str "string"))])); (5, (TStruct [])); (6, (TStruct [(str "TheCode", TBasic (str "string"))])); (7, (TStruct []))].
Definition x_exposed_methods : list (gotype * gostring * tobj) := [].
Definition x_exposed_impl_error : list gotype := [TNamed 1; TPointer (TNamed 2); TNamed 5; TPointer (TNamed 5); TNamed 6].
Definition x_exposed_impl_ree : list gotype := [TPointer (TNamed 2); TNamed 5; TPointer (TNamed 5); TNamed 6].
Definition x_exposed_impl_cause : list gotype := [].
Definition x_exposed_impl : list (gotype * gotype) := [].
Definition x_exposed_named_methods : list (N * list gostring) := [].
Definition x_exposed_info : typeinfo := table_info x_exposed_types x_exposed_values x_exposed_uses x_exposed_defs x_exposed_sels [1; 2; 5; 6; 7] [] x_exposed_objnames x_exposed_objtypes x_exposed_underlying x_exposed_methods x_exposed_impl_error x_exposed_impl_ree x_exposed_impl_cause x_exposed_impl x_exposed_named_methods.
Definition x_exposed_f1 : func := Func 27 (Some (DeclInfo (Ident 5 (str "F") None) None (Some (str "Errors: none")))) (FuncType 3 [] (Some [Field 1 [] 2]) 4) (Some (Node 25 (KOther (str "*ast.BlockStmt")) [Node 11 (KOther (str "*ast.DeclStmt")) [Node 10 (KValueSpec [Ident 8 (str "t") (Some 1)] (Some 9)) []]; Node 22 (KOther (str "*ast.IfStmt")) [Node 18 KCall [Node 14 KSelector [Node 12 (KIdent (str "errors") None) []; Node 13 (KIdent (str "As") None) []]; Node 15 (KIdent (str "cause") None) []; Node 17 (KUnary true) [Node 16 (KIdent (str "t") (Some 1)) []]]; Node 21 (KOther (str "*ast.BlockStmt")) [Node 20 KReturn [Node 19 (KIdent (str "t") (Some 1)) []]]]; Node 24 KReturn [Node 23 (KIdent (str "nil") None) []]])) 6 26.
Definition x_exposed_funcs : gmap fid func := list_to_map [(1, x_exposed_f1)].
Definition x_exposed_objs : gmap oid object := list_to_map [(1, Object true 7 (DValueSpec [Ident 8 (str "t") (Some 1)] []))].
Definition x_exposed_comments : list (N * list gostring) := [].
Definition x_exposed : package := Package x_exposed_funcs [1] [] [TopFunc 1] x_exposed_objs (fun n => default [] (lookup_in x_exposed_comments n)) x_exposed_info.
Definition x_exposed_var_t : node := Node 10 (KValueSpec [Ident 8 (str "t") (Some 1)] (Some 9)) [].
Definition x_exposed_address : node := Node 17 (KUnary true) [Node 16 (KIdent (str "t") (Some 1)) []].
Definition x_exposed_return : node := Node 20 KReturn [Node 19 (KIdent (str "t") (Some 1)) []].

(** [func F() error { e := &Error{"a"}; var p *Error; q := &p; *q = e; p.TheCode = "b"; return e }] *)
Definition x_exposed_alias_types : list (N * gotype) := [(2, (TNamed 1)); (10, (TPointer (TNamed 2))); (11, (TBasic (str "string"))); (12, (TNamed 2)); (13, (TPointer (TNamed 2))); (15, (TPointer (TNamed 2))); (16, (TPointer (TNamed 2))); (19, (TPointer (TPointer (TNamed 2)))); (20, (TPointer (TNamed 2))); (21, (TPointer (TPointer (TNamed 2)))); (23, (TPointer (TPointer (TNamed 2)))); (24, (TPointer (TNamed 2))); (25, (TPointer (TNamed 2))); (27, (TPointer (TNamed 2))); (28, (TBasic (str "string"))); (29, (TBasic (str "string"))); (30, (TBasic (str "string"))); (32, (TPointer (TNamed 2)))].
Definition x_exposed_alias_values : list (N * constval) := [(11, (CString (str "a"))); (30, (CString (str "b")))].
Definition x_exposed_alias_uses : list (N * tobj) := [].
Definition x_exposed_alias_defs : list (N * tobj) := [(5, 21)].
Definition x_exposed_alias_sels : list (N * (tobj * gotype)) := [].
Definition x_exposed_alias_objnames : list (N * gostring) := [(2, str "Error"); (5, str "Fixed"); (6, str "Both"); (7, str "Other"); (21, str "F")].
Definition x_exposed_alias_objtypes : list (N * gotype) := [].
Definition x_exposed_alias_underlying : list (N * gotype) := [(1, (TInterface 1)); (2, (TStruct [(str "TheCode", TBasic (str "string"))])); (5, (TStruct [])); (6, (TStruct [(str "TheCode", TBasic (str "string"))])); (7, (TStruct []))].
Definition x_exposed_alias_methods : list (gotype * gostring * tobj) := [].
Definition x_exposed_alias_impl_error : list gotype := [TNamed 1; TPointer (TNamed 2); TNamed 5; TPointer (TNamed 5); TNamed 6].
Definition x_exposed_alias_impl_ree : list gotype := [TPointer (TNamed 2); TNamed 5; TPointer (TNamed 5); TNamed 6].
Definition x_exposed_alias_impl_cause : list gotype := [].
Definition x_exposed_alias_impl : list (gotype * gotype) := [].
Definition x_exposed_alias_named_methods : list (N * list gostring) := [].
Definition x_exposed_alias_info : typeinfo := table_info x_exposed_alias_types x_exposed_alias_values x_exposed_alias_uses x_exposed_alias_defs x_exposed_alias_sels [1; 2; 5; 6; 7] [] x_exposed_alias_objnames x_exposed_alias_objtypes x_exposed_alias_underlying x_exposed_alias_methods x_exposed_alias_impl_error x_exposed_alias_impl_ree x_exposed_alias_impl_cause x_exposed_alias_impl x_exposed_alias_named_methods.
Definition x_exposed_alias_f1 : func := Func 36 (Some (DeclInfo (Ident 5 (str "F") None) None (Some (str "Errors:" ++ [10] ++ [] ++ [10] ++ str "- a -- x")))) (FuncType 3 [] (Some [Field 1 [] 2]) 4) (Some (Node 34 (KOther (str "*ast.BlockStmt")) [Node 14 (KAssign 1%nat) [Node 10 (KIdent (str "e") (Some 1)) []; Node 13 (KUnary true) [Node 12 KComposite [Node 11 KBasicLit []]]]; Node 18 (KOther (str "*ast.DeclStmt")) [Node 17 (KValueSpec [Ident 15 (str "p") (Some 2)] (Some 16)) []]; Node 22 (KAssign 1%nat) [Node 19 (KIdent (str "q") (Some 3)) []; Node 21 (KUnary true) [Node 20 (KIdent (str "p") (Some 2)) []]]; Node 26 (KAssign 1%nat) [Node 24 (KOther (str "*ast.StarExpr")) [Node 23 (KIdent (str "q") (Some 3)) []]; Node 25 (KIdent (str "e") (Some 1)) []]; Node 31 (KAssign 1%nat) [Node 29 KSelector [Node 27 (KIdent (str "p") (Some 2)) []; Node 28 (KIdent (str "TheCode") None) []]; Node 30 KBasicLit []]; Node 33 KReturn [Node 32 (KIdent (str "e") (Some 1)) []]])) 6 35.
Definition x_exposed_alias_funcs : gmap fid func := list_to_map [(1, x_exposed_alias_f1)].
Definition x_exposed_alias_objs : gmap oid object := list_to_map [(1, Object true 7 DOther); (2, Object true 8 (DValueSpec [Ident 15 (str "p") (Some 2)] [])); (3, Object true 9 DOther)].
Definition x_exposed_alias_comments : list (N * list gostring) := [].
Definition x_exposed_alias : package := Package x_exposed_alias_funcs [1] [] [TopFunc 1] x_exposed_alias_objs (fun n => default [] (lookup_in x_exposed_alias_comments n)) x_exposed_alias_info.
Definition x_exposed_alias_start : node := Node 14 (KAssign 1%nat) [Node 10 (KIdent (str "e") (Some 1)) []; Node 13 (KUnary true) [Node 12 KComposite [Node 11 KBasicLit []]]].
Definition x_exposed_alias_var_p : node := Node 17 (KValueSpec [Ident 15 (str "p") (Some 2)] (Some 16)) [].
Definition x_exposed_alias_address : node := Node 21 (KUnary true) [Node 20 (KIdent (str "p") (Some 2)) []].
Definition x_exposed_alias_set : node := Node 31 (KAssign 1%nat) [Node 29 KSelector [Node 27 (KIdent (str "p") (Some 2)) []; Node 28 (KIdent (str "TheCode") None) []]; Node 30 KBasicLit []].
Definition x_exposed_alias_return : node := Node 33 KReturn [Node 32 (KIdent (str "e") (Some 1)) []].
