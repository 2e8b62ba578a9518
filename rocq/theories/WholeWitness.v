(** * The packages of ExampleWhole.v.  Written by tools/example_whole.py.

    The type Error is that of Witness.v. *)
From Coq Require Import Ascii String.
From stdpp Require Import base list gmap.
From Verif Require Import GoString ErrorCode Scc Engine CodeSet Annotation Constant GoAst Taint Extract Analyse ExampleBase.
Local Open Scope N_scope.

(** 
<<
    package lib
    type Getter interface { // Errors: a
      Get() error }
    // Errors: a
    func Use(g Getter) error { return g.Get() }
>> *)
Definition wp_lib_types : list (N * gotype) := [(2, (TNamed 1)); (9, (TNamed 3)); (11, (TNamed 3)); (13, (TNamed 3)); (15, (TNamed 1)); (20, (TNamed 3)); (21, (TSignature [] [TNamed 1] false)); (22, (TSignature [] [TNamed 1] false)); (23, (TNamed 1))].
Definition wp_lib_values : list (N * constval) := [].
Definition wp_lib_uses : list (N * tobj) := [].
Definition wp_lib_defs : list (N * tobj) := [(6, 31); (8, 3); (18, 41)].
Definition wp_lib_sels : list (N * (tobj * gotype)) := [(22, (31, TNamed 3))].
Definition wp_lib_objnames : list (N * gostring) := [(2, str "Error"); (3, str "Getter"); (4, str "Impl"); (31, str "Get"); (41, str "Use"); (24, str "Get"); (41, str "Use")].
Definition wp_lib_objtypes : list (N * gotype) := [(3, (TNamed 3))].
Definition wp_lib_underlying : list (N * gotype) := [(1, (TInterface 1)); (2, (TStruct [(str "TheCode", TBasic (str "string"))])); (3, (TInterface 3)); (4, (TStruct []))].
Definition wp_lib_methods : list (gotype * gostring * tobj) := [(TNamed 3, str "Get", 31)].
Definition wp_lib_impl_error : list gotype := [TNamed 1; TPointer (TNamed 2)].
Definition wp_lib_impl_ree : list gotype := [TPointer (TNamed 2)].
Definition wp_lib_impl_cause : list gotype := [].
Definition wp_lib_impl : list (gotype * gotype) := [].
Definition wp_lib_named_methods : list (N * list gostring) := [].
Definition wp_lib_info : typeinfo := table_info wp_lib_types wp_lib_values wp_lib_uses wp_lib_defs wp_lib_sels [1; 2; 3; 4] [] wp_lib_objnames wp_lib_objtypes wp_lib_underlying wp_lib_methods wp_lib_impl_error wp_lib_impl_ree wp_lib_impl_cause wp_lib_impl wp_lib_named_methods.
Definition wp_lib_f1 : func := Func 27 (Some (DeclInfo (Ident 18 (str "Use") None) None (Some (str "Errors:" ++ [10] ++ [] ++ [10] ++ str "- a -- x")))) (FuncType 16 [Field 12 [Ident 11 (str "g") (Some 1)] 13] (Some [Field 14 [] 15]) 17) (Some (Node 25 (KOther (str "*ast.BlockStmt")) [Node 24 KReturn [Node 23 KCall [Node 22 KSelector [Node 20 (KIdent (str "g") (Some 1)) []; Node 21 (KIdent (str "Get") None) []]]]])) 19 26.
Definition wp_lib_funcs : gmap fid func := list_to_map [(1, wp_lib_f1)].
Definition wp_lib_objs : gmap oid object := list_to_map [(1, Object true 10 DOther)].
Definition wp_lib_comments : list (N * list gostring) := [].
Definition wp_lib : package := Package wp_lib_funcs [1] [GenDecl 7 [Some (TypeSpec (Ident 8 (str "Getter") None) (XInterface 9 [IMethod 5 (Ident 6 (str "Get") None) (Some (str "Errors:" ++ [10] ++ [] ++ [10] ++ str "- a -- x")) (FuncType 3 [] (Some [Field 1 [] 2]) 4)]))]] [TopFunc 1] wp_lib_objs (fun n => default [] (lookup_in wp_lib_comments n)) wp_lib_info.

(** 
<<
    package app
    type Impl struct{}
    // Errors: a
    func (Impl) Get() error { return &Error{"a"} }
    // Errors: a
    func F() error { return lib.Use(Impl{}) }
>> *)
Definition wp_app_types : list (N * gotype) := [(4, (TNamed 4)); (6, (TNamed 1)); (11, (TBasic (str "string"))); (12, (TNamed 2)); (13, (TPointer (TNamed 2))); (19, (TNamed 1)); (25, (TSignature [TNamed 3] [TNamed 1] false)); (26, (TSignature [TNamed 3] [TNamed 1] false)); (27, (TNamed 4)); (28, (TNamed 1))].
Definition wp_app_values : list (N * constval) := [(11, (CString (str "a")))].
Definition wp_app_uses : list (N * tobj) := [(25, 41)].
Definition wp_app_defs : list (N * tobj) := [(2, 4); (9, 24); (22, 42)].
Definition wp_app_sels : list (N * (tobj * gotype)) := [].
Definition wp_app_objnames : list (N * gostring) := [(2, str "Error"); (3, str "Getter"); (4, str "Impl"); (31, str "Get"); (41, str "Use"); (24, str "Get"); (24, str "Get"); (42, str "F")].
Definition wp_app_objtypes : list (N * gotype) := [(4, (TNamed 4))].
Definition wp_app_underlying : list (N * gotype) := [(1, (TInterface 1)); (2, (TStruct [(str "TheCode", TBasic (str "string"))])); (3, (TInterface 3)); (4, (TStruct []))].
Definition wp_app_methods : list (gotype * gostring * tobj) := [(TNamed 3, str "Get", 31); (TNamed 4, str "Get", 24)].
Definition wp_app_impl_error : list gotype := [TNamed 1; TPointer (TNamed 2)].
Definition wp_app_impl_ree : list gotype := [TPointer (TNamed 2)].
Definition wp_app_impl_cause : list gotype := [].
Definition wp_app_impl : list (gotype * gotype) := [].
Definition wp_app_named_methods : list (N * list gostring) := [].
Definition wp_app_info : typeinfo := table_info wp_app_types wp_app_values wp_app_uses wp_app_defs wp_app_sels [1; 2; 3; 4] [(24, str "lib")] wp_app_objnames wp_app_objtypes wp_app_underlying wp_app_methods wp_app_impl_error wp_app_impl_ree wp_app_impl_cause wp_app_impl wp_app_named_methods.
Definition wp_app_f1 : func := Func 17 (Some (DeclInfo (Ident 9 (str "Get") None) (Some [Field 3 [] 4]) (Some (str "Errors:" ++ [10] ++ [] ++ [10] ++ str "- a -- x")))) (FuncType 7 [] (Some [Field 5 [] 6]) 8) (Some (Node 15 (KOther (str "*ast.BlockStmt")) [Node 14 KReturn [Node 13 (KUnary true) [Node 12 KComposite [Node 11 KBasicLit []]]]])) 10 16.
Definition wp_app_f2 : func := Func 32 (Some (DeclInfo (Ident 22 (str "F") None) None (Some (str "Errors:" ++ [10] ++ [] ++ [10] ++ str "- a -- x")))) (FuncType 20 [] (Some [Field 18 [] 19]) 21) (Some (Node 30 (KOther (str "*ast.BlockStmt")) [Node 29 KReturn [Node 28 KCall [Node 26 KSelector [Node 24 (KIdent (str "lib") None) []; Node 25 (KIdent (str "Use") None) []]; Node 27 KComposite []]]])) 23 31.
Definition wp_app_funcs : gmap fid func := list_to_map [(1, wp_app_f1); (2, wp_app_f2)].
Definition wp_app_objs : gmap oid object := list_to_map [].
Definition wp_app_comments : list (N * list gostring) := [].
Definition wp_app : package := Package wp_app_funcs [1; 2] [GenDecl 1 [Some (TypeSpec (Ident 2 (str "Impl") None) (XStruct []))]] [TopFunc 1; TopFunc 2] wp_app_objs (fun n => default [] (lookup_in wp_app_comments n)) wp_app_info.

(** 
<<
    package lib
    type Getter interface { // Errors: none
      Make(code string) error }
    // Errors: none
    func Use(g Getter) error { return g.Make("b") }
>> *)
Definition wc_lib_types : list (N * gotype) := [(2, (TBasic (str "string"))); (4, (TBasic (str "string"))); (6, (TNamed 1)); (13, (TNamed 3)); (15, (TNamed 3)); (17, (TNamed 3)); (19, (TNamed 1)); (24, (TNamed 3)); (25, (TSignature [TBasic (str "string")] [TNamed 1] false)); (26, (TSignature [TBasic (str "string")] [TNamed 1] false)); (27, (TBasic (str "string"))); (28, (TNamed 1))].
Definition wc_lib_values : list (N * constval) := [(27, (CString (str "b")))].
Definition wc_lib_uses : list (N * tobj) := [].
Definition wc_lib_defs : list (N * tobj) := [(10, 31); (12, 3); (22, 41)].
Definition wc_lib_sels : list (N * (tobj * gotype)) := [(26, (31, TNamed 3))].
Definition wc_lib_objnames : list (N * gostring) := [(2, str "Error"); (3, str "Getter"); (4, str "Impl"); (31, str "Make"); (41, str "Use"); (24, str "Make"); (41, str "Use")].
Definition wc_lib_objtypes : list (N * gotype) := [(3, (TNamed 3))].
Definition wc_lib_underlying : list (N * gotype) := [(1, (TInterface 1)); (2, (TStruct [(str "TheCode", TBasic (str "string"))])); (3, (TInterface 3)); (4, (TStruct []))].
Definition wc_lib_methods : list (gotype * gostring * tobj) := [(TNamed 3, str "Make", 31)].
Definition wc_lib_impl_error : list gotype := [TNamed 1; TPointer (TNamed 2)].
Definition wc_lib_impl_ree : list gotype := [TPointer (TNamed 2)].
Definition wc_lib_impl_cause : list gotype := [].
Definition wc_lib_impl : list (gotype * gotype) := [].
Definition wc_lib_named_methods : list (N * list gostring) := [].
Definition wc_lib_info : typeinfo := table_info wc_lib_types wc_lib_values wc_lib_uses wc_lib_defs wc_lib_sels [1; 2; 3; 4] [] wc_lib_objnames wc_lib_objtypes wc_lib_underlying wc_lib_methods wc_lib_impl_error wc_lib_impl_ree wc_lib_impl_cause wc_lib_impl wc_lib_named_methods.
Definition wc_lib_f1 : func := Func 32 (Some (DeclInfo (Ident 22 (str "Use") None) None (Some (str "Errors: none")))) (FuncType 20 [Field 16 [Ident 15 (str "g") (Some 2)] 17] (Some [Field 18 [] 19]) 21) (Some (Node 30 (KOther (str "*ast.BlockStmt")) [Node 29 KReturn [Node 28 KCall [Node 26 KSelector [Node 24 (KIdent (str "g") (Some 2)) []; Node 25 (KIdent (str "Make") None) []]; Node 27 KBasicLit []]]])) 23 31.
Definition wc_lib_funcs : gmap fid func := list_to_map [(1, wc_lib_f1)].
Definition wc_lib_objs : gmap oid object := list_to_map [(1, Object true 1 DOther); (2, Object true 14 DOther)].
Definition wc_lib_comments : list (N * list gostring) := [].
Definition wc_lib : package := Package wc_lib_funcs [1] [GenDecl 11 [Some (TypeSpec (Ident 12 (str "Getter") None) (XInterface 13 [IMethod 9 (Ident 10 (str "Make") None) (Some (str "Errors: none")) (FuncType 7 [Field 3 [Ident 2 (str "code") (Some 1)] 4] (Some [Field 5 [] 6]) 8)]))]] [TopFunc 1] wc_lib_objs (fun n => default [] (lookup_in wc_lib_comments n)) wc_lib_info.

(** 
<<
    package app
    type Impl struct{}
    // Errors: param: code
    func (Impl) Make(code string) error { return &Error{code} }
    // Errors: none
    func F() error { return lib.Use(Impl{}) }
>> *)
Definition wc_app_types : list (N * gotype) := [(4, (TBasic (str "string"))); (6, (TBasic (str "string"))); (8, (TNamed 4)); (10, (TNamed 1)); (15, (TBasic (str "string"))); (16, (TNamed 2)); (17, (TPointer (TNamed 2))); (23, (TNamed 1)); (29, (TSignature [TNamed 3] [TNamed 1] false)); (30, (TSignature [TNamed 3] [TNamed 1] false)); (31, (TNamed 4)); (32, (TNamed 1))].
Definition wc_app_values : list (N * constval) := [].
Definition wc_app_uses : list (N * tobj) := [(29, 41)].
Definition wc_app_defs : list (N * tobj) := [(2, 4); (13, 24); (26, 42)].
Definition wc_app_sels : list (N * (tobj * gotype)) := [].
Definition wc_app_objnames : list (N * gostring) := [(2, str "Error"); (3, str "Getter"); (4, str "Impl"); (31, str "Make"); (41, str "Use"); (24, str "Make"); (24, str "Make"); (42, str "F")].
Definition wc_app_objtypes : list (N * gotype) := [(4, (TNamed 4))].
Definition wc_app_underlying : list (N * gotype) := [(1, (TInterface 1)); (2, (TStruct [(str "TheCode", TBasic (str "string"))])); (3, (TInterface 3)); (4, (TStruct []))].
Definition wc_app_methods : list (gotype * gostring * tobj) := [(TNamed 3, str "Make", 31); (TNamed 4, str "Make", 24)].
Definition wc_app_impl_error : list gotype := [TNamed 1; TPointer (TNamed 2)].
Definition wc_app_impl_ree : list gotype := [TPointer (TNamed 2)].
Definition wc_app_impl_cause : list gotype := [].
Definition wc_app_impl : list (gotype * gotype) := [].
Definition wc_app_named_methods : list (N * list gostring) := [].
Definition wc_app_info : typeinfo := table_info wc_app_types wc_app_values wc_app_uses wc_app_defs wc_app_sels [1; 2; 3; 4] [(28, str "lib")] wc_app_objnames wc_app_objtypes wc_app_underlying wc_app_methods wc_app_impl_error wc_app_impl_ree wc_app_impl_cause wc_app_impl wc_app_named_methods.
Definition wc_app_f1 : func := Func 21 (Some (DeclInfo (Ident 13 (str "Make") None) (Some [Field 7 [] 8]) (Some (str "Errors:" ++ [10] ++ [] ++ [10] ++ str "- param: code -- x")))) (FuncType 11 [Field 5 [Ident 4 (str "code") (Some 1)] 6] (Some [Field 9 [] 10]) 12) (Some (Node 19 (KOther (str "*ast.BlockStmt")) [Node 18 KReturn [Node 17 (KUnary true) [Node 16 KComposite [Node 15 (KIdent (str "code") (Some 1)) []]]]])) 14 20.
Definition wc_app_f2 : func := Func 36 (Some (DeclInfo (Ident 26 (str "F") None) None (Some (str "Errors: none")))) (FuncType 24 [] (Some [Field 22 [] 23]) 25) (Some (Node 34 (KOther (str "*ast.BlockStmt")) [Node 33 KReturn [Node 32 KCall [Node 30 KSelector [Node 28 (KIdent (str "lib") None) []; Node 29 (KIdent (str "Use") None) []]; Node 31 KComposite []]]])) 27 35.
Definition wc_app_funcs : gmap fid func := list_to_map [(1, wc_app_f1); (2, wc_app_f2)].
Definition wc_app_objs : gmap oid object := list_to_map [(1, Object true 3 DOther)].
Definition wc_app_comments : list (N * list gostring) := [].
Definition wc_app : package := Package wc_app_funcs [1; 2] [GenDecl 1 [Some (TypeSpec (Ident 2 (str "Impl") None) (XStruct []))]] [TopFunc 1; TopFunc 2] wc_app_objs (fun n => default [] (lookup_in wc_app_comments n)) wc_app_info.

(** 
<<
    package other
    type Impl struct{}
    func (Impl) Get() error { return &Error{"b"} }
>> *)
Definition wu_other_types : list (N * gotype) := [(4, (TNamed 4)); (6, (TNamed 1)); (11, (TBasic (str "string"))); (12, (TNamed 2)); (13, (TPointer (TNamed 2)))].
Definition wu_other_values : list (N * constval) := [(11, (CString (str "b")))].
Definition wu_other_uses : list (N * tobj) := [].
Definition wu_other_defs : list (N * tobj) := [(2, 4); (9, 24)].
Definition wu_other_sels : list (N * (tobj * gotype)) := [].
Definition wu_other_objnames : list (N * gostring) := [(2, str "Error"); (3, str "Getter"); (4, str "Impl"); (31, str "Get"); (41, str "Use"); (24, str "Get"); (24, str "Get")].
Definition wu_other_objtypes : list (N * gotype) := [(4, (TNamed 4))].
Definition wu_other_underlying : list (N * gotype) := [(1, (TInterface 1)); (2, (TStruct [(str "TheCode", TBasic (str "string"))])); (3, (TInterface 3)); (4, (TStruct []))].
Definition wu_other_methods : list (gotype * gostring * tobj) := [(TNamed 3, str "Get", 31); (TNamed 4, str "Get", 24)].
Definition wu_other_impl_error : list gotype := [TNamed 1; TPointer (TNamed 2)].
Definition wu_other_impl_ree : list gotype := [TPointer (TNamed 2)].
Definition wu_other_impl_cause : list gotype := [].
Definition wu_other_impl : list (gotype * gotype) := [].
Definition wu_other_named_methods : list (N * list gostring) := [].
Definition wu_other_info : typeinfo := table_info wu_other_types wu_other_values wu_other_uses wu_other_defs wu_other_sels [1; 2; 3; 4] [] wu_other_objnames wu_other_objtypes wu_other_underlying wu_other_methods wu_other_impl_error wu_other_impl_ree wu_other_impl_cause wu_other_impl wu_other_named_methods.
Definition wu_other_f1 : func := Func 17 (Some (DeclInfo (Ident 9 (str "Get") None) (Some [Field 3 [] 4]) None)) (FuncType 7 [] (Some [Field 5 [] 6]) 8) (Some (Node 15 (KOther (str "*ast.BlockStmt")) [Node 14 KReturn [Node 13 (KUnary true) [Node 12 KComposite [Node 11 KBasicLit []]]]])) 10 16.
Definition wu_other_funcs : gmap fid func := list_to_map [(1, wu_other_f1)].
Definition wu_other_objs : gmap oid object := list_to_map [].
Definition wu_other_comments : list (N * list gostring) := [].
Definition wu_other : package := Package wu_other_funcs [1] [GenDecl 1 [Some (TypeSpec (Ident 2 (str "Impl") None) (XStruct []))]] [TopFunc 1] wu_other_objs (fun n => default [] (lookup_in wu_other_comments n)) wu_other_info.

(** 
<<
    package app
    // Errors: a
    func F() error { return lib.Use(other.Impl{}) }
>> *)
Definition wu_app_types : list (N * gotype) := [(2, (TNamed 1)); (8, (TSignature [TNamed 3] [TNamed 1] false)); (9, (TSignature [TNamed 3] [TNamed 1] false)); (10, (TNamed 4)); (11, (TNamed 1))].
Definition wu_app_values : list (N * constval) := [].
Definition wu_app_uses : list (N * tobj) := [(8, 41)].
Definition wu_app_defs : list (N * tobj) := [(5, 42)].
Definition wu_app_sels : list (N * (tobj * gotype)) := [].
Definition wu_app_objnames : list (N * gostring) := [(2, str "Error"); (3, str "Getter"); (4, str "Impl"); (31, str "Get"); (41, str "Use"); (24, str "Get"); (42, str "F")].
Definition wu_app_objtypes : list (N * gotype) := [].
Definition wu_app_underlying : list (N * gotype) := [(1, (TInterface 1)); (2, (TStruct [(str "TheCode", TBasic (str "string"))])); (3, (TInterface 3)); (4, (TStruct []))].
Definition wu_app_methods : list (gotype * gostring * tobj) := [(TNamed 3, str "Get", 31); (TNamed 4, str "Get", 24)].
Definition wu_app_impl_error : list gotype := [TNamed 1; TPointer (TNamed 2)].
Definition wu_app_impl_ree : list gotype := [TPointer (TNamed 2)].
Definition wu_app_impl_cause : list gotype := [].
Definition wu_app_impl : list (gotype * gotype) := [].
Definition wu_app_named_methods : list (N * list gostring) := [].
Definition wu_app_info : typeinfo := table_info wu_app_types wu_app_values wu_app_uses wu_app_defs wu_app_sels [1; 2; 3; 4] [(7, str "lib")] wu_app_objnames wu_app_objtypes wu_app_underlying wu_app_methods wu_app_impl_error wu_app_impl_ree wu_app_impl_cause wu_app_impl wu_app_named_methods.
Definition wu_app_f1 : func := Func 15 (Some (DeclInfo (Ident 5 (str "F") None) None (Some (str "Errors:" ++ [10] ++ [] ++ [10] ++ str "- a -- x")))) (FuncType 3 [] (Some [Field 1 [] 2]) 4) (Some (Node 13 (KOther (str "*ast.BlockStmt")) [Node 12 KReturn [Node 11 KCall [Node 9 KSelector [Node 7 (KIdent (str "lib") None) []; Node 8 (KIdent (str "Use") None) []]; Node 10 KComposite []]]])) 6 14.
Definition wu_app_funcs : gmap fid func := list_to_map [(1, wu_app_f1)].
Definition wu_app_objs : gmap oid object := list_to_map [].
Definition wu_app_comments : list (N * list gostring) := [].
Definition wu_app : package := Package wu_app_funcs [1] [] [TopFunc 1] wu_app_objs (fun n => default [] (lookup_in wu_app_comments n)) wu_app_info.

(** 
<<
    package app
    type Impl struct{}
    func (Impl) Get() error { return mk() }
    // Errors: a
    func F() error { return lib.Use(Impl{}) }
    // Errors: a
    func mk() error { return &Error{"a"} }
>> *)
Definition wo_app_types : list (N * gotype) := [(5, (TNamed 4)); (7, (TNamed 1)); (12, (TSignature [] [TNamed 1] false)); (13, (TNamed 1)); (19, (TNamed 1)); (25, (TSignature [TNamed 3] [TNamed 1] false)); (26, (TSignature [TNamed 3] [TNamed 1] false)); (27, (TNamed 4)); (28, (TNamed 1)); (34, (TNamed 1)); (39, (TBasic (str "string"))); (40, (TNamed 2)); (41, (TPointer (TNamed 2)))].
Definition wo_app_values : list (N * constval) := [(39, (CString (str "a")))].
Definition wo_app_uses : list (N * tobj) := [(12, 43); (25, 41)].
Definition wo_app_defs : list (N * tobj) := [(3, 4); (10, 24); (22, 42); (37, 43)].
Definition wo_app_sels : list (N * (tobj * gotype)) := [].
Definition wo_app_objnames : list (N * gostring) := [(2, str "Error"); (3, str "Getter"); (4, str "Impl"); (31, str "Get"); (41, str "Use"); (24, str "Get"); (24, str "Get"); (42, str "F"); (43, str "mk")].
Definition wo_app_objtypes : list (N * gotype) := [(4, (TNamed 4))].
Definition wo_app_underlying : list (N * gotype) := [(1, (TInterface 1)); (2, (TStruct [(str "TheCode", TBasic (str "string"))])); (3, (TInterface 3)); (4, (TStruct []))].
Definition wo_app_methods : list (gotype * gostring * tobj) := [(TNamed 3, str "Get", 31); (TNamed 4, str "Get", 24)].
Definition wo_app_impl_error : list gotype := [TNamed 1; TPointer (TNamed 2)].
Definition wo_app_impl_ree : list gotype := [TPointer (TNamed 2)].
Definition wo_app_impl_cause : list gotype := [].
Definition wo_app_impl : list (gotype * gotype) := [].
Definition wo_app_named_methods : list (N * list gostring) := [].
Definition wo_app_info : typeinfo := table_info wo_app_types wo_app_values wo_app_uses wo_app_defs wo_app_sels [1; 2; 3; 4] [(24, str "lib")] wo_app_objnames wo_app_objtypes wo_app_underlying wo_app_methods wo_app_impl_error wo_app_impl_ree wo_app_impl_cause wo_app_impl wo_app_named_methods.
Definition wo_app_f1 : func := Func 17 (Some (DeclInfo (Ident 10 (str "Get") None) (Some [Field 4 [] 5]) None)) (FuncType 8 [] (Some [Field 6 [] 7]) 9) (Some (Node 15 (KOther (str "*ast.BlockStmt")) [Node 14 KReturn [Node 13 KCall [Node 12 (KIdent (str "mk") (Some 1)) []]]])) 11 16.
Definition wo_app_f2 : func := Func 32 (Some (DeclInfo (Ident 22 (str "F") None) None (Some (str "Errors:" ++ [10] ++ [] ++ [10] ++ str "- a -- x")))) (FuncType 20 [] (Some [Field 18 [] 19]) 21) (Some (Node 30 (KOther (str "*ast.BlockStmt")) [Node 29 KReturn [Node 28 KCall [Node 26 KSelector [Node 24 (KIdent (str "lib") None) []; Node 25 (KIdent (str "Use") None) []]; Node 27 KComposite []]]])) 23 31.
Definition wo_app_f3 : func := Func 45 (Some (DeclInfo (Ident 37 (str "mk") None) None (Some (str "Errors:" ++ [10] ++ [] ++ [10] ++ str "- a -- x")))) (FuncType 35 [] (Some [Field 33 [] 34]) 36) (Some (Node 43 (KOther (str "*ast.BlockStmt")) [Node 42 KReturn [Node 41 (KUnary true) [Node 40 KComposite [Node 39 KBasicLit []]]]])) 38 44.
Definition wo_app_funcs : gmap fid func := list_to_map [(1, wo_app_f1); (2, wo_app_f2); (3, wo_app_f3)].
Definition wo_app_objs : gmap oid object := list_to_map [(1, Object false 1 (DFunc 3))].
Definition wo_app_comments : list (N * list gostring) := [].
Definition wo_app : package := Package wo_app_funcs [1; 2; 3] [GenDecl 2 [Some (TypeSpec (Ident 3 (str "Impl") None) (XStruct []))]] [TopFunc 1; TopFunc 2; TopFunc 3] wo_app_objs (fun n => default [] (lookup_in wo_app_comments n)) wo_app_info.
