(** * Further refutations (findings 8, 13, 15, 20, 21, 23, 24, 27 of DESIGN.md).  Written by tools/example_findings.py. *)
From Coq Require Import Ascii String.
From stdpp Require Import base list gmap.
From Verif Require Import GoString ErrorCode Scc Engine CodeSet Annotation Constant GoAst Taint Extract Analyse Phase ErrorTypes Claims Interfaces
  Conversions Verify SpecMay SpecProgram SpecRun SpecInterfaces SpecSites RunProofs Checkers ExampleBase Witness PropRefuted.
Local Open Scope N_scope.

(** [func F() error { e := &Const{}; e.A, e.B = 1, 2; return e }], where the Code method of *Const returns "a" *)
Definition f_field_types : list (N * gotype) := [(2, (TNamed 1)); (8, (TPointer (TNamed 5))); (9, (TNamed 5)); (10, (TPointer (TNamed 5))); (12, (TPointer (TNamed 5))); (13, (TBasic (str "int"))); (14, (TBasic (str "int"))); (15, (TPointer (TNamed 5))); (16, (TBasic (str "int"))); (17, (TBasic (str "int"))); (18, (TBasic (str "int"))); (19, (TBasic (str "int"))); (21, (TPointer (TNamed 5)))].
Definition f_field_values : list (N * constval) := [].
Definition f_field_uses : list (N * tobj) := [].
Definition f_field_defs : list (N * tobj) := [(5, 21)].
Definition f_field_sels : list (N * (tobj * gotype)) := [].
Definition f_field_objnames : list (N * gostring) := [(2, str "Error"); (3, str "Getter"); (4, str "impl"); (5, str "Const"); (21, str "F")].
Definition f_field_objtypes : list (N * gotype) := [].
Definition f_field_underlying : list (N * gotype) := [(1, (TInterface 1)); (2, (TStruct [(str "TheCode", TBasic (str "string"))])); (3, (TInterface 3)); (4, (TStruct [])); (5, (TStruct [(str "A", TBasic (str "int")); (str "B", TBasic (str "int"))]))].
Definition f_field_methods : list (gotype * gostring * tobj) := [].
Definition f_field_impl_error : list gotype := [TNamed 1; TPointer (TNamed 2); TPointer (TNamed 5)].
Definition f_field_impl_ree : list gotype := [TPointer (TNamed 2); TPointer (TNamed 5)].
Definition f_field_impl_cause : list gotype := [].
Definition f_field_impl : list (gotype * gotype) := [].
Definition f_field_named_methods : list (N * list gostring) := [].
Definition f_field_info : typeinfo := table_info f_field_types f_field_values f_field_uses f_field_defs f_field_sels [1; 2; 3; 4; 5] [] f_field_objnames f_field_objtypes f_field_underlying f_field_methods f_field_impl_error f_field_impl_ree f_field_impl_cause f_field_impl f_field_named_methods.
Definition f_field_f1 : func := Func 25 (Some (DeclInfo (Ident 5 (str "F") None) None (Some (str "Errors:" ++ [10] ++ [] ++ [10] ++ str "- a -- x")))) (FuncType 3 [] (Some [Field 1 [] 2]) 4) (Some (Node 23 (KOther (str "*ast.BlockStmt")) [Node 11 (KAssign 1%nat) [Node 8 (KIdent (str "e") (Some 1)) []; Node 10 (KUnary true) [Node 9 KComposite []]]; Node 20 (KAssign 2%nat) [Node 14 KSelector [Node 12 (KIdent (str "e") (Some 1)) []; Node 13 (KIdent (str "A") None) []]; Node 17 KSelector [Node 15 (KIdent (str "e") (Some 1)) []; Node 16 (KIdent (str "B") None) []]; Node 18 KBasicLit []; Node 19 KBasicLit []]; Node 22 KReturn [Node 21 (KIdent (str "e") (Some 1)) []]])) 6 24.
Definition f_field_funcs : gmap fid func := list_to_map [(1, f_field_f1)].
Definition f_field_objs : gmap oid object := list_to_map [(1, Object true 7 DOther)].
Definition f_field_comments : list (N * list gostring) := [].
Definition f_field : package := Package f_field_funcs [1] [] [TopFunc 1] f_field_objs (fun n => default [] (lookup_in f_field_comments n)) f_field_info.

(** [func F() error { var f func() error; f = nil; f = func() error { return &Error{"a"} }; return f() }], declared to return a *)
Definition f_nil_types : list (N * gotype) := [(2, (TNamed 1)); (9, (TSignature [] [TNamed 1] false)); (10, TUntypedNil); (12, (TSignature [] [TNamed 1] false)); (14, (TNamed 1)); (18, (TBasic (str "string"))); (19, (TNamed 2)); (20, (TPointer (TNamed 2))); (25, (TSignature [] [TNamed 1] false)); (27, (TSignature [] [TNamed 1] false)); (28, (TNamed 1))].
Definition f_nil_values : list (N * constval) := [(18, (CString (str "a")))].
Definition f_nil_uses : list (N * tobj) := [(10, 44); (27, 41)].
Definition f_nil_defs : list (N * tobj) := [(5, 21)].
Definition f_nil_sels : list (N * (tobj * gotype)) := [].
Definition f_nil_objnames : list (N * gostring) := [(2, str "Error"); (3, str "Getter"); (4, str "impl"); (21, str "F")].
Definition f_nil_objtypes : list (N * gotype) := [].
Definition f_nil_underlying : list (N * gotype) := [(1, (TInterface 1)); (2, (TStruct [(str "TheCode", TBasic (str "string"))])); (3, (TInterface 3)); (4, (TStruct []))].
Definition f_nil_methods : list (gotype * gostring * tobj) := [].
Definition f_nil_impl_error : list gotype := [TNamed 1; TPointer (TNamed 2)].
Definition f_nil_impl_ree : list gotype := [TPointer (TNamed 2)].
Definition f_nil_impl_cause : list gotype := [].
Definition f_nil_impl : list (gotype * gotype) := [].
Definition f_nil_named_methods : list (N * list gostring) := [].
Definition f_nil_info : typeinfo := table_info f_nil_types f_nil_values f_nil_uses f_nil_defs f_nil_sels [1; 2; 3; 4] [] f_nil_objnames f_nil_objtypes f_nil_underlying f_nil_methods f_nil_impl_error f_nil_impl_ree f_nil_impl_cause f_nil_impl f_nil_named_methods.
Definition f_nil_f2 : func := Func 24 None (FuncType 15 [] (Some [Field 13 [] 14]) 16) (Some (Node 22 (KOther (str "*ast.BlockStmt")) [Node 21 KReturn [Node 20 (KUnary true) [Node 19 KComposite [Node 18 KBasicLit []]]]])) 17 23.
Definition f_nil_f1 : func := Func 32 (Some (DeclInfo (Ident 5 (str "F") None) None (Some (str "Errors:" ++ [10] ++ [] ++ [10] ++ str "- a -- x")))) (FuncType 3 [] (Some [Field 1 [] 2]) 4) (Some (Node 30 (KOther (str "*ast.BlockStmt")) [Node 8 (KOther (str "*ast.DeclStmt")) []; Node 11 (KAssign 1%nat) [Node 9 (KIdent (str "f") (Some 1)) []; Node 10 (KIdent (str "nil") None) []]; Node 26 (KAssign 1%nat) [Node 12 (KIdent (str "f") (Some 1)) []; Node 25 (KFuncLit 2) [Node 22 (KOther (str "*ast.BlockStmt")) [Node 21 KReturn [Node 20 (KUnary true) [Node 19 KComposite [Node 18 KBasicLit []]]]]]]; Node 29 KReturn [Node 28 KCall [Node 27 (KIdent (str "f") (Some 1)) []]]])) 6 31.
Definition f_nil_funcs : gmap fid func := list_to_map [(2, f_nil_f2); (1, f_nil_f1)].
Definition f_nil_objs : gmap oid object := list_to_map [(1, Object true 7 DOther)].
Definition f_nil_comments : list (N * list gostring) := [].
Definition f_nil : package := Package f_nil_funcs [1] [] [TopFunc 1] f_nil_objs (fun n => default [] (lookup_in f_nil_comments n)) f_nil_info.

(** [func _() error { return &Error{"a"} }; func _() error { return nil }], both declared to return no codes *)
Definition f_blank_types : list (N * gotype) := [(2, (TNamed 1)); (7, (TBasic (str "string"))); (8, (TNamed 2)); (9, (TPointer (TNamed 2))); (15, (TNamed 1)); (20, TUntypedNil)].
Definition f_blank_values : list (N * constval) := [(7, (CString (str "a")))].
Definition f_blank_uses : list (N * tobj) := [].
Definition f_blank_defs : list (N * tobj) := [(5, 21); (18, 22)].
Definition f_blank_sels : list (N * (tobj * gotype)) := [].
Definition f_blank_objnames : list (N * gostring) := [(2, str "Error"); (3, str "Getter"); (4, str "impl"); (21, str "_"); (22, str "_")].
Definition f_blank_objtypes : list (N * gotype) := [].
Definition f_blank_underlying : list (N * gotype) := [(1, (TInterface 1)); (2, (TStruct [(str "TheCode", TBasic (str "string"))])); (3, (TInterface 3)); (4, (TStruct []))].
Definition f_blank_methods : list (gotype * gostring * tobj) := [].
Definition f_blank_impl_error : list gotype := [TNamed 1; TPointer (TNamed 2)].
Definition f_blank_impl_ree : list gotype := [TPointer (TNamed 2)].
Definition f_blank_impl_cause : list gotype := [].
Definition f_blank_impl : list (gotype * gotype) := [].
Definition f_blank_named_methods : list (N * list gostring) := [].
Definition f_blank_info : typeinfo := table_info f_blank_types f_blank_values f_blank_uses f_blank_defs f_blank_sels [1; 2; 3; 4] [] f_blank_objnames f_blank_objtypes f_blank_underlying f_blank_methods f_blank_impl_error f_blank_impl_ree f_blank_impl_cause f_blank_impl f_blank_named_methods.
Definition f_blank_f1 : func := Func 13 (Some (DeclInfo (Ident 5 (str "_") None) None (Some (str "Errors: none")))) (FuncType 3 [] (Some [Field 1 [] 2]) 4) (Some (Node 11 (KOther (str "*ast.BlockStmt")) [Node 10 KReturn [Node 9 (KUnary true) [Node 8 KComposite [Node 7 KBasicLit []]]]])) 6 12.
Definition f_blank_f2 : func := Func 24 (Some (DeclInfo (Ident 18 (str "_") None) None (Some (str "Errors: none")))) (FuncType 16 [] (Some [Field 14 [] 15]) 17) (Some (Node 22 (KOther (str "*ast.BlockStmt")) [Node 21 KReturn [Node 20 (KIdent (str "nil") None) []]])) 19 23.
Definition f_blank_funcs : gmap fid func := list_to_map [(1, f_blank_f1); (2, f_blank_f2)].
Definition f_blank_objs : gmap oid object := list_to_map [].
Definition f_blank_comments : list (N * list gostring) := [].
Definition f_blank : package := Package f_blank_funcs [1; 2] [] [TopFunc 1; TopFunc 2] f_blank_objs (fun n => default [] (lookup_in f_blank_comments n)) f_blank_info.

(** [type A = other.Error] *)
Definition f_alias_types : list (N * gotype) := [].
Definition f_alias_values : list (N * constval) := [].
Definition f_alias_uses : list (N * tobj) := [].
Definition f_alias_defs : list (N * tobj) := [(2, 9)].
Definition f_alias_sels : list (N * (tobj * gotype)) := [].
Definition f_alias_objnames : list (N * gostring) := [(2, str "Error"); (3, str "Getter"); (4, str "impl")].
Definition f_alias_objtypes : list (N * gotype) := [(9, (TNamed 2))].
Definition f_alias_underlying : list (N * gotype) := [(1, (TInterface 1)); (2, (TStruct [(str "TheCode", TBasic (str "string"))])); (3, (TInterface 3)); (4, (TStruct []))].
Definition f_alias_methods : list (gotype * gostring * tobj) := [].
Definition f_alias_impl_error : list gotype := [TNamed 1; TPointer (TNamed 2)].
Definition f_alias_impl_ree : list gotype := [TPointer (TNamed 2)].
Definition f_alias_impl_cause : list gotype := [].
Definition f_alias_impl : list (gotype * gotype) := [].
Definition f_alias_named_methods : list (N * list gostring) := [].
Definition f_alias_info : typeinfo := table_info f_alias_types f_alias_values f_alias_uses f_alias_defs f_alias_sels [1; 2; 3; 4] [] f_alias_objnames f_alias_objtypes f_alias_underlying f_alias_methods f_alias_impl_error f_alias_impl_ree f_alias_impl_cause f_alias_impl f_alias_named_methods.
Definition f_alias_funcs : gmap fid func := list_to_map [].
Definition f_alias_objs : gmap oid object := list_to_map [].
Definition f_alias_comments : list (N * list gostring) := [].
Definition f_alias : package := Package f_alias_funcs [] [GenDecl 1 [Some (TypeSpec (Ident 2 (str "A") None) XOther)]] [] f_alias_objs (fun n => default [] (lookup_in f_alias_comments n)) f_alias_info.

(** 
<<
    type E struct { code string }
    func (e *E) Code() string { return e.code }
    func (e *E) Error() string { return e.code }
    // Errors:
    //
    //  - param: code -- x
    func (e *E) With(code string) error { e.code = code; return &E{code} }
>> *)
Definition f_setter_types : list (N * gotype) := [(5, (TPointer (TNamed 2))); (7, (TPointer (TNamed 2))); (9, (TBasic (str "string"))); (14, (TPointer (TNamed 2))); (15, (TBasic (str "string"))); (16, (TBasic (str "string"))); (22, (TPointer (TNamed 2))); (24, (TPointer (TNamed 2))); (26, (TBasic (str "string"))); (31, (TPointer (TNamed 2))); (32, (TBasic (str "string"))); (33, (TBasic (str "string"))); (39, (TBasic (str "string"))); (41, (TBasic (str "string"))); (43, (TPointer (TNamed 2))); (45, (TPointer (TNamed 2))); (47, (TNamed 1)); (53, (TPointer (TNamed 2))); (54, (TBasic (str "string"))); (55, (TBasic (str "string"))); (56, (TBasic (str "string"))); (58, (TBasic (str "string"))); (59, (TNamed 2)); (60, (TPointer (TNamed 2)))].
Definition f_setter_values : list (N * constval) := [].
Definition f_setter_uses : list (N * tobj) := [].
Definition f_setter_defs : list (N * tobj) := [(2, 2); (12, 21); (29, 22); (50, 23)].
Definition f_setter_sels : list (N * (tobj * gotype)) := [].
Definition f_setter_objnames : list (N * gostring) := [(2, str "E"); (21, str "Code"); (22, str "Error"); (23, str "With")].
Definition f_setter_objtypes : list (N * gotype) := [(2, (TNamed 2))].
Definition f_setter_underlying : list (N * gotype) := [(1, (TInterface 1)); (2, (TStruct [(str "code", TBasic (str "string"))]))].
Definition f_setter_methods : list (gotype * gostring * tobj) := [(TPointer (TNamed 2), str "Code", 21); (TPointer (TNamed 2), str "Error", 22); (TPointer (TNamed 2), str "With", 23)].
Definition f_setter_impl_error : list gotype := [TNamed 1; TPointer (TNamed 2)].
Definition f_setter_impl_ree : list gotype := [TPointer (TNamed 2)].
Definition f_setter_impl_cause : list gotype := [].
Definition f_setter_impl : list (gotype * gotype) := [].
Definition f_setter_named_methods : list (N * list gostring) := [(2, [str "Code"; str "Error"; str "With"])].
Definition f_setter_info : typeinfo := table_info f_setter_types f_setter_values f_setter_uses f_setter_defs f_setter_sels [1; 2] [] f_setter_objnames f_setter_objtypes f_setter_underlying f_setter_methods f_setter_impl_error f_setter_impl_ree f_setter_impl_cause f_setter_impl f_setter_named_methods.
Definition f_setter_f1 : func := Func 20 (Some (DeclInfo (Ident 12 (str "Code") None) (Some [Field 6 [Ident 5 (str "e") (Some 1)] 7]) None)) (FuncType 10 [] (Some [Field 8 [] 9]) 11) (Some (Node 18 (KOther (str "*ast.BlockStmt")) [Node 17 KReturn [Node 16 KSelector [Node 14 (KIdent (str "e") (Some 1)) []; Node 15 (KIdent (str "code") None) []]]])) 13 19.
Definition f_setter_f2 : func := Func 37 (Some (DeclInfo (Ident 29 (str "Error") None) (Some [Field 23 [Ident 22 (str "e") (Some 2)] 24]) None)) (FuncType 27 [] (Some [Field 25 [] 26]) 28) (Some (Node 35 (KOther (str "*ast.BlockStmt")) [Node 34 KReturn [Node 33 KSelector [Node 31 (KIdent (str "e") (Some 2)) []; Node 32 (KIdent (str "code") None) []]]])) 30 36.
Definition f_setter_f3 : func := Func 64 (Some (DeclInfo (Ident 50 (str "With") None) (Some [Field 44 [Ident 43 (str "e") (Some 4)] 45]) (Some (str "Errors:" ++ [10] ++ [] ++ [10] ++ str "- param: code -- x")))) (FuncType 48 [Field 40 [Ident 39 (str "code") (Some 3)] 41] (Some [Field 46 [] 47]) 49) (Some (Node 62 (KOther (str "*ast.BlockStmt")) [Node 57 (KAssign 1%nat) [Node 55 KSelector [Node 53 (KIdent (str "e") (Some 4)) []; Node 54 (KIdent (str "code") None) []]; Node 56 (KIdent (str "code") (Some 3)) []]; Node 61 KReturn [Node 60 (KUnary true) [Node 59 KComposite [Node 58 (KIdent (str "code") (Some 3)) []]]]])) 51 63.
Definition f_setter_funcs : gmap fid func := list_to_map [(1, f_setter_f1); (2, f_setter_f2); (3, f_setter_f3)].
Definition f_setter_objs : gmap oid object := list_to_map [(1, Object true 4 DOther); (2, Object true 21 DOther); (3, Object true 38 DOther); (4, Object true 42 DOther); (5, Object true 52 DOther)].
Definition f_setter_comments : list (N * list gostring) := [].
Definition f_setter : package := Package f_setter_funcs [1; 2; 3] [GenDecl 1 [Some (TypeSpec (Ident 2 (str "E") None) (XStruct [[Ident 3 (str "code") None]]))]] [TopFunc 1; TopFunc 2; TopFunc 3] f_setter_objs (fun n => default [] (lookup_in f_setter_comments n)) f_setter_info.

(** F is declared to return a;
<<
    type E struct { code string }
    type A = E
    func (e *E) Code() string { if ... { return e.code }; return "a" }
    func (e *E) Error() string { return e.code }
    func F() error { return &E{"b"} }
>> *)
Definition f_local_alias_types : list (N * gotype) := [(7, (TPointer (TNamed 2))); (9, (TPointer (TNamed 2))); (11, (TBasic (str "string"))); (16, (TPointer (TNamed 2))); (17, (TBasic (str "string"))); (18, (TBasic (str "string"))); (22, (TBasic (str "string"))); (28, (TPointer (TNamed 2))); (30, (TPointer (TNamed 2))); (32, (TBasic (str "string"))); (37, (TPointer (TNamed 2))); (38, (TBasic (str "string"))); (39, (TBasic (str "string"))); (45, (TNamed 1)); (50, (TBasic (str "string"))); (51, (TNamed 2)); (52, (TPointer (TNamed 2)))].
Definition f_local_alias_values : list (N * constval) := [(22, (CString (str "a"))); (50, (CString (str "b")))].
Definition f_local_alias_uses : list (N * tobj) := [].
Definition f_local_alias_defs : list (N * tobj) := [(2, 2); (5, 9); (14, 21); (35, 22); (48, 24)].
Definition f_local_alias_sels : list (N * (tobj * gotype)) := [].
Definition f_local_alias_objnames : list (N * gostring) := [(2, str "E"); (21, str "Code"); (22, str "Error"); (24, str "F")].
Definition f_local_alias_objtypes : list (N * gotype) := [(2, (TNamed 2)); (9, (TNamed 2))].
Definition f_local_alias_underlying : list (N * gotype) := [(1, (TInterface 1)); (2, (TStruct [(str "code", TBasic (str "string"))]))].
Definition f_local_alias_methods : list (gotype * gostring * tobj) := [(TPointer (TNamed 2), str "Code", 21); (TPointer (TNamed 2), str "Error", 22)].
Definition f_local_alias_impl_error : list gotype := [TNamed 1; TPointer (TNamed 2)].
Definition f_local_alias_impl_ree : list gotype := [TPointer (TNamed 2)].
Definition f_local_alias_impl_cause : list gotype := [].
Definition f_local_alias_impl : list (gotype * gotype) := [].
Definition f_local_alias_named_methods : list (N * list gostring) := [(2, [str "Code"; str "Error"])].
Definition f_local_alias_info : typeinfo := table_info f_local_alias_types f_local_alias_values f_local_alias_uses f_local_alias_defs f_local_alias_sels [1; 2] [] f_local_alias_objnames f_local_alias_objtypes f_local_alias_underlying f_local_alias_methods f_local_alias_impl_error f_local_alias_impl_ree f_local_alias_impl_cause f_local_alias_impl f_local_alias_named_methods.
Definition f_local_alias_f1 : func := Func 26 (Some (DeclInfo (Ident 14 (str "Code") None) (Some [Field 8 [Ident 7 (str "e") (Some 1)] 9]) None)) (FuncType 12 [] (Some [Field 10 [] 11]) 13) (Some (Node 24 (KOther (str "*ast.BlockStmt")) [Node 21 (KOther (str "*ast.IfStmt")) [Node 20 (KOther (str "*ast.BlockStmt")) [Node 19 KReturn [Node 18 KSelector [Node 16 (KIdent (str "e") (Some 1)) []; Node 17 (KIdent (str "code") None) []]]]]; Node 23 KReturn [Node 22 KBasicLit []]])) 15 25.
Definition f_local_alias_f2 : func := Func 43 (Some (DeclInfo (Ident 35 (str "Error") None) (Some [Field 29 [Ident 28 (str "e") (Some 2)] 30]) None)) (FuncType 33 [] (Some [Field 31 [] 32]) 34) (Some (Node 41 (KOther (str "*ast.BlockStmt")) [Node 40 KReturn [Node 39 KSelector [Node 37 (KIdent (str "e") (Some 2)) []; Node 38 (KIdent (str "code") None) []]]])) 36 42.
Definition f_local_alias_f4 : func := Func 56 (Some (DeclInfo (Ident 48 (str "F") None) None (Some (str "Errors:" ++ [10] ++ [] ++ [10] ++ str "- a -- x")))) (FuncType 46 [] (Some [Field 44 [] 45]) 47) (Some (Node 54 (KOther (str "*ast.BlockStmt")) [Node 53 KReturn [Node 52 (KUnary true) [Node 51 KComposite [Node 50 KBasicLit []]]]])) 49 55.
Definition f_local_alias_funcs : gmap fid func := list_to_map [(1, f_local_alias_f1); (2, f_local_alias_f2); (4, f_local_alias_f4)].
Definition f_local_alias_objs : gmap oid object := list_to_map [(1, Object true 6 DOther); (2, Object true 27 DOther)].
Definition f_local_alias_comments : list (N * list gostring) := [].
Definition f_local_alias : package := Package f_local_alias_funcs [1; 2; 4] [GenDecl 1 [Some (TypeSpec (Ident 2 (str "E") None) (XStruct [[Ident 3 (str "code") None]]))]; GenDecl 4 [Some (TypeSpec (Ident 5 (str "A") None) XOther)]] [TopFunc 1; TopFunc 2; TopFunc 4] f_local_alias_objs (fun n => default [] (lookup_in f_local_alias_comments n)) f_local_alias_info.

(** [type J interface { other.Getter }; func (impl) Get() error, declared to return a; Getter.Get is declared to return no codes; func C() { var g J = impl{} }] *)
Definition f_qualified_types : list (N * gotype) := [(1, (TNamed 3)); (4, (TNamed 5)); (12, (TNamed 4)); (13, (TNamed 5)); (14, (TNamed 5)); (22, (TNamed 4)); (24, (TNamed 1)); (29, (TBasic (str "string"))); (30, (TNamed 2)); (31, (TPointer (TNamed 2)))].
Definition f_qualified_values : list (N * constval) := [(29, (CString (str "a")))].
Definition f_qualified_uses : list (N * tobj) := [].
Definition f_qualified_defs : list (N * tobj) := [(3, 5); (6, 4); (9, 23); (27, 24)].
Definition f_qualified_sels : list (N * (tobj * gotype)) := [].
Definition f_qualified_objnames : list (N * gostring) := [(2, str "Error"); (3, str "Getter"); (4, str "impl"); (5, str "J"); (32, str "Get"); (23, str "C"); (24, str "Get")].
Definition f_qualified_objtypes : list (N * gotype) := [(5, (TNamed 5)); (4, (TNamed 4))].
Definition f_qualified_underlying : list (N * gotype) := [(1, (TInterface 1)); (2, (TStruct [(str "TheCode", TBasic (str "string"))])); (3, (TInterface 3)); (4, (TStruct [])); (5, (TInterface 5))].
Definition f_qualified_methods : list (gotype * gostring * tobj) := [(TNamed 3, str "Get", 32); (TNamed 5, str "Get", 32); (TNamed 4, str "Get", 24)].
Definition f_qualified_impl_error : list gotype := [TNamed 1; TPointer (TNamed 2)].
Definition f_qualified_impl_ree : list gotype := [TPointer (TNamed 2)].
Definition f_qualified_impl_cause : list gotype := [].
Definition f_qualified_impl : list (gotype * gotype) := [].
Definition f_qualified_named_methods : list (N * list gostring) := [].
Definition f_qualified_info : typeinfo := table_info f_qualified_types f_qualified_values f_qualified_uses f_qualified_defs f_qualified_sels [1; 2; 3; 4; 5] [] f_qualified_objnames f_qualified_objtypes f_qualified_underlying f_qualified_methods f_qualified_impl_error f_qualified_impl_ree f_qualified_impl_cause f_qualified_impl f_qualified_named_methods.
Definition f_qualified_f1 : func := Func 20 (Some (DeclInfo (Ident 9 (str "C") None) None None)) (FuncType 7 [] None 8) (Some (Node 18 (KOther (str "*ast.BlockStmt")) [Node 17 (KOther (str "*ast.DeclStmt")) [Node 16 (KOther (str "*ast.GenDecl")) [Node 15 (KValueSpec [Ident 13 (str "g") (Some 1)] (Some 14)) [Node 12 KComposite []]]]])) 10 19.
Definition f_qualified_f2 : func := Func 35 (Some (DeclInfo (Ident 27 (str "Get") None) (Some [Field 21 [] 22]) (Some (str "Errors:" ++ [10] ++ [] ++ [10] ++ str "- a -- x")))) (FuncType 25 [] (Some [Field 23 [] 24]) 26) (Some (Node 33 (KOther (str "*ast.BlockStmt")) [Node 32 KReturn [Node 31 (KUnary true) [Node 30 KComposite [Node 29 KBasicLit []]]]])) 28 34.
Definition f_qualified_funcs : gmap fid func := list_to_map [(1, f_qualified_f1); (2, f_qualified_f2)].
Definition f_qualified_objs : gmap oid object := list_to_map [(1, Object true 11 (DValueSpec [Ident 13 (str "g") (Some 1)] [Node 12 KComposite []]))].
Definition f_qualified_comments : list (N * list gostring) := [].
Definition f_qualified : package := Package f_qualified_funcs [1; 2] [GenDecl 2 [Some (TypeSpec (Ident 3 (str "J") None) (XInterface 4 [IEmbedSel 1]))]; GenDecl 5 [Some (TypeSpec (Ident 6 (str "impl") None) (XStruct []))]] [TopFunc 1; TopFunc 2] f_qualified_objs (fun n => default [] (lookup_in f_qualified_comments n)) f_qualified_info.

(** [import . "other"; type J interface { Getter }; func (impl) Get() error, declared to return a; Getter.Get is declared to return no codes; func C() { var g J = impl{} }] *)
Definition f_dot_types : list (N * gotype) := [(1, (TNamed 3)); (4, (TNamed 5)); (12, (TNamed 4)); (13, (TNamed 5)); (14, (TNamed 5)); (22, (TNamed 4)); (24, (TNamed 1)); (29, (TBasic (str "string"))); (30, (TNamed 2)); (31, (TPointer (TNamed 2)))].
Definition f_dot_values : list (N * constval) := [(29, (CString (str "a")))].
Definition f_dot_uses : list (N * tobj) := [].
Definition f_dot_defs : list (N * tobj) := [(3, 5); (6, 4); (9, 23); (27, 24)].
Definition f_dot_sels : list (N * (tobj * gotype)) := [].
Definition f_dot_objnames : list (N * gostring) := [(2, str "Error"); (3, str "Getter"); (4, str "impl"); (5, str "J"); (32, str "Get"); (23, str "C"); (24, str "Get")].
Definition f_dot_objtypes : list (N * gotype) := [(5, (TNamed 5)); (4, (TNamed 4))].
Definition f_dot_underlying : list (N * gotype) := [(1, (TInterface 1)); (2, (TStruct [(str "TheCode", TBasic (str "string"))])); (3, (TInterface 3)); (4, (TStruct [])); (5, (TInterface 5))].
Definition f_dot_methods : list (gotype * gostring * tobj) := [(TNamed 3, str "Get", 32); (TNamed 5, str "Get", 32); (TNamed 4, str "Get", 24)].
Definition f_dot_impl_error : list gotype := [TNamed 1; TPointer (TNamed 2)].
Definition f_dot_impl_ree : list gotype := [TPointer (TNamed 2)].
Definition f_dot_impl_cause : list gotype := [].
Definition f_dot_impl : list (gotype * gotype) := [].
Definition f_dot_named_methods : list (N * list gostring) := [].
Definition f_dot_info : typeinfo := table_info f_dot_types f_dot_values f_dot_uses f_dot_defs f_dot_sels [1; 2; 3; 4; 5] [] f_dot_objnames f_dot_objtypes f_dot_underlying f_dot_methods f_dot_impl_error f_dot_impl_ree f_dot_impl_cause f_dot_impl f_dot_named_methods.
Definition f_dot_f1 : func := Func 20 (Some (DeclInfo (Ident 9 (str "C") None) None None)) (FuncType 7 [] None 8) (Some (Node 18 (KOther (str "*ast.BlockStmt")) [Node 17 (KOther (str "*ast.DeclStmt")) [Node 16 (KOther (str "*ast.GenDecl")) [Node 15 (KValueSpec [Ident 13 (str "g") (Some 1)] (Some 14)) [Node 12 KComposite []]]]])) 10 19.
Definition f_dot_f2 : func := Func 35 (Some (DeclInfo (Ident 27 (str "Get") None) (Some [Field 21 [] 22]) (Some (str "Errors:" ++ [10] ++ [] ++ [10] ++ str "- a -- x")))) (FuncType 25 [] (Some [Field 23 [] 24]) 26) (Some (Node 33 (KOther (str "*ast.BlockStmt")) [Node 32 KReturn [Node 31 (KUnary true) [Node 30 KComposite [Node 29 KBasicLit []]]]])) 28 34.
Definition f_dot_funcs : gmap fid func := list_to_map [(1, f_dot_f1); (2, f_dot_f2)].
Definition f_dot_objs : gmap oid object := list_to_map [(1, Object true 11 (DValueSpec [Ident 13 (str "g") (Some 1)] [Node 12 KComposite []]))].
Definition f_dot_comments : list (N * list gostring) := [].
Definition f_dot : package := Package f_dot_funcs [1; 2] [GenDecl 2 [Some (TypeSpec (Ident 3 (str "J") None) (XInterface 4 [IEmbed 1 (str "Getter")]))]; GenDecl 5 [Some (TypeSpec (Ident 6 (str "impl") None) (XStruct []))]] [TopFunc 1; TopFunc 2] f_dot_objs (fun n => default [] (lookup_in f_dot_comments n)) f_dot_info.

(** [type G = other.Getter; type J interface { G }; func (impl) Get() error, declared to return a; Getter.Get is declared to return no codes; func C() { var g J = impl{} }] *)
Definition f_embed_alias_types : list (N * gotype) := [(3, (TNamed 3)); (6, (TNamed 5)); (14, (TNamed 4)); (15, (TNamed 5)); (16, (TNamed 5)); (24, (TNamed 4)); (26, (TNamed 1)); (31, (TBasic (str "string"))); (32, (TNamed 2)); (33, (TPointer (TNamed 2)))].
Definition f_embed_alias_values : list (N * constval) := [(31, (CString (str "a")))].
Definition f_embed_alias_uses : list (N * tobj) := [].
Definition f_embed_alias_defs : list (N * tobj) := [(2, 3); (5, 5); (8, 4); (11, 23); (29, 24)].
Definition f_embed_alias_sels : list (N * (tobj * gotype)) := [].
Definition f_embed_alias_objnames : list (N * gostring) := [(2, str "Error"); (3, str "Getter"); (4, str "impl"); (5, str "J"); (32, str "Get"); (23, str "C"); (24, str "Get")].
Definition f_embed_alias_objtypes : list (N * gotype) := [(5, (TNamed 5)); (3, (TNamed 3)); (4, (TNamed 4))].
Definition f_embed_alias_underlying : list (N * gotype) := [(1, (TInterface 1)); (2, (TStruct [(str "TheCode", TBasic (str "string"))])); (3, (TInterface 3)); (4, (TStruct [])); (5, (TInterface 5))].
Definition f_embed_alias_methods : list (gotype * gostring * tobj) := [(TNamed 3, str "Get", 32); (TNamed 5, str "Get", 32); (TNamed 4, str "Get", 24)].
Definition f_embed_alias_impl_error : list gotype := [TNamed 1; TPointer (TNamed 2)].
Definition f_embed_alias_impl_ree : list gotype := [TPointer (TNamed 2)].
Definition f_embed_alias_impl_cause : list gotype := [].
Definition f_embed_alias_impl : list (gotype * gotype) := [].
Definition f_embed_alias_named_methods : list (N * list gostring) := [].
Definition f_embed_alias_info : typeinfo := table_info f_embed_alias_types f_embed_alias_values f_embed_alias_uses f_embed_alias_defs f_embed_alias_sels [1; 2; 3; 4; 5] [] f_embed_alias_objnames f_embed_alias_objtypes f_embed_alias_underlying f_embed_alias_methods f_embed_alias_impl_error f_embed_alias_impl_ree f_embed_alias_impl_cause f_embed_alias_impl f_embed_alias_named_methods.
Definition f_embed_alias_f1 : func := Func 22 (Some (DeclInfo (Ident 11 (str "C") None) None None)) (FuncType 9 [] None 10) (Some (Node 20 (KOther (str "*ast.BlockStmt")) [Node 19 (KOther (str "*ast.DeclStmt")) [Node 18 (KOther (str "*ast.GenDecl")) [Node 17 (KValueSpec [Ident 15 (str "g") (Some 1)] (Some 16)) [Node 14 KComposite []]]]])) 12 21.
Definition f_embed_alias_f2 : func := Func 37 (Some (DeclInfo (Ident 29 (str "Get") None) (Some [Field 23 [] 24]) (Some (str "Errors:" ++ [10] ++ [] ++ [10] ++ str "- a -- x")))) (FuncType 27 [] (Some [Field 25 [] 26]) 28) (Some (Node 35 (KOther (str "*ast.BlockStmt")) [Node 34 KReturn [Node 33 (KUnary true) [Node 32 KComposite [Node 31 KBasicLit []]]]])) 30 36.
Definition f_embed_alias_funcs : gmap fid func := list_to_map [(1, f_embed_alias_f1); (2, f_embed_alias_f2)].
Definition f_embed_alias_objs : gmap oid object := list_to_map [(1, Object true 13 (DValueSpec [Ident 15 (str "g") (Some 1)] [Node 14 KComposite []]))].
Definition f_embed_alias_comments : list (N * list gostring) := [].
Definition f_embed_alias : package := Package f_embed_alias_funcs [1; 2] [GenDecl 1 [Some (TypeSpec (Ident 2 (str "G") None) XOther)]; GenDecl 4 [Some (TypeSpec (Ident 5 (str "J") None) (XInterface 6 [IEmbed 3 (str "G")]))]; GenDecl 7 [Some (TypeSpec (Ident 8 (str "impl") None) (XStruct []))]] [TopFunc 1; TopFunc 2] f_embed_alias_objs (fun n => default [] (lookup_in f_embed_alias_comments n)) f_embed_alias_info.

Definition with_const : facts := Facts (fa_codes imported) (fa_ctor imported) (<[ 5 := ErrorType {[ str "a" ]} None ]> (fa_type imported)) (fa_iface imported).


(** *** C23, finding 8: assigning two fields of an error whose type has no code field dereferences nil (analyse.go 911; the declared type of the first field is kept for the second). *)
Theorem C23_refuted_field : package_ok f_field = true /\
  exists ord, orders_ok (collectFunctions f_field) ord /\ runVerify f_field false ord with_const = Panicked.
Proof.
  split; [by vm_compute|]. exists (some_run_orders (collectFunctions f_field)). split; [apply some_run_orders_ok|]. by vm_compute.
Qed.

(** *** C39, finding 13: the function variable is reported as the function [nil] of a dot-imported package, although the only function
    that is called returns exactly the declared code. *)
Theorem C39_refuted_nil : answers f_nil [Diag 10 (str "function ""nil"" in dot-imported package does not declare error codes")].
Proof. apply answer; by vm_compute. Qed.

(** *** C17, finding 20: the first function named [_] returns the undeclared code a and is accepted: the second one hides it. *)
Theorem C17_refuted_blank : accepted f_blank /\ package_ok f_blank = true.
Proof. split; [apply accept, answer|]; by vm_compute. Qed.

(** *** C25, finding 21: an alias of an imported error type, which has a method Code, is reported for having none. *)
Theorem C25_refuted_alias : answers f_alias [Diag 1 (str "found no method ""Code() string""")] /\ package_ok f_alias = true.
Proof. split; [apply answer|]; by vm_compute. Qed.

(** *** C24, finding 15: the declared code parameter of a method of an error type is reported as undeclared when the method assigns it
    to the code field. *)
Theorem C24_refuted_method : package_ok f_setter = true /\
  answers f_setter [Diag 56 (str "require an error code parameter declaration to use ""code"" as an error code")].
Proof. split; [|apply answer]; by vm_compute. Qed.

(** *** C25, finding 27: declaring an alias of an error type makes the analyzer reject the code field of that type. *)
Theorem C25_refuted_local_alias : package_ok f_local_alias = true /\
  answers f_local_alias [Diag 26 (str "returned field ""code"" is not a valid error code field (promoted fields are not supported currently, but might be added in the future)")].
Proof. split; [|apply answer]; by vm_compute. Qed.

(** *** C27, findings 23 and 24: the interface J embeds Getter, whose method Get declares no codes, and a value whose method Get declares the
    code a is converted to J.  That is reported if the embedded interface is named [other.Getter], but not if the package is dot-imported
    nor if J embeds an alias of it. *)
Theorem C27_qualified : package_ok f_qualified = true /\
  answers f_qualified [Diag 12 (str "cannot use expression as ""J"" value: method ""Get"" declares the following error codes which were not part of the interface: [a]")].
Proof. split; [|apply answer]; by vm_compute. Qed.
Theorem C27_refuted_dot : accepted f_dot /\ package_ok f_dot = true.
Proof. split; [apply accept, answer|]; by vm_compute. Qed.
Theorem C27_refuted_alias : accepted f_embed_alias /\ package_ok f_embed_alias = true.
Proof. split; [apply accept, answer|]; by vm_compute. Qed.
