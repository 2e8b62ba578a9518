(** * The test package multipackage of /repo/analysis/testdata/src, run on the model.  Generated by tools/conform.py; see Conform.v. *)
From Coq Require Import Ascii String.
From stdpp Require Import base list gmap.
From Verif Require Import GoString Scc Engine Constant CommentText CommentMap Phase FactText Conform Claims Analyse Verify SpecTaint SpecProgram SpecLiterals SpecCodeMethod SpecInterfaces SpecSites SpecCrash SpecSound SpecWhole SpecLayout Checkers RecursionChecker LiteralChecker CodeCheckers FormChecker InterfaceChecker SoundChecker ChainChecker ExampleLayout GoAst.
Local Open Scope N_scope.
Definition t_multipackage_inner1_f1 : func := Func 3 (Some (DeclInfo (Ident 4 (str "ExportedFunc1") (Some 1)) None (Some (comment_text [(str "// ExportedFunc1 is a demo function."); (str "//"); (str "// Errors:"); (str "//"); (str "//    - hello-error -- is always returned")])))) (FuncType 5 [] (Some [(Field 8 [] 9)]) 134) (Some (Node 10 (KOther (str "*ast.BlockStmt")) [(Node 11 KReturn [(Node 12 (KUnary true) [(Node 13 KComposite [(Node 15 KBasicLit [])])])])])) 140 221.
Definition t_multipackage_inner1_f2 : func := Func 16 (Some (DeclInfo (Ident 17 (str "CodeNotDeclared") (Some 2)) None None)) (FuncType 18 [] (Some [(Field 21 [] 22)]) 246) (Some (Node 23 (KOther (str "*ast.BlockStmt")) [(Node 24 KReturn [(Node 25 (KUnary true) [(Node 26 KComposite [(Node 28 KBasicLit [])])])])])) 252 371.
Definition t_multipackage_inner1_f3 : func := Func 34 (Some (DeclInfo (Ident 38 (str "CodeNotDeclared") None) (Some [(Field 36 [] 37)]) None)) (FuncType 39 [] (Some [(Field 42 [] 43)]) 431) (Some (Node 44 (KOther (str "*ast.BlockStmt")) [(Node 45 KReturn [(Node 46 (KUnary true) [(Node 47 KComposite [(Node 49 KBasicLit [])])])])])) 437 556.
Definition t_multipackage_inner1_f4 : func := Func 58 (Some (DeclInfo (Ident 64 (str "Code") None) (Some [(Field 60 [(Ident 61 (str "e") (Some 3))] 62)]) None)) (FuncType 65 [] (Some [(Field 68 [] 69)]) 690) (Some (Node 70 (KOther (str "*ast.BlockStmt")) [(Node 71 KReturn [(Node 72 KSelector [(Node 73 (KIdent (str "e") (Some 3)) []); (Node 74 (KIdent (str "TheCode") None) [])])])])) 711 731.
Definition t_multipackage_inner1_f5 : func := Func 75 (Some (DeclInfo (Ident 81 (str "Message") None) (Some [(Field 77 [(Ident 78 (str "e") (Some 4))] 79)]) None)) (FuncType 82 [] (Some [(Field 85 [] 86)]) 758) (Some (Node 87 (KOther (str "*ast.BlockStmt")) [(Node 88 KReturn [(Node 89 KSelector [(Node 90 (KIdent (str "e") (Some 4)) []); (Node 91 (KIdent (str "TheCode") None) [])])])])) 776 796.
Definition t_multipackage_inner1_f6 : func := Func 92 (Some (DeclInfo (Ident 98 (str "Details") None) (Some [(Field 94 [(Ident 95 (str "e") (Some 5))] 96)]) None)) (FuncType 99 [] (Some [(Field 102 [] 103)]) 823) (Some (Node 106 (KOther (str "*ast.BlockStmt")) [(Node 107 KReturn [(Node 108 (KIdent (str "nil") None) [])])])) 841 855.
Definition t_multipackage_inner1_f7 : func := Func 109 (Some (DeclInfo (Ident 115 (str "Cause") None) (Some [(Field 111 [(Ident 112 (str "e") (Some 6))] 113)]) None)) (FuncType 116 [] (Some [(Field 119 [] 120)]) 880) (Some (Node 121 (KOther (str "*ast.BlockStmt")) [(Node 122 KReturn [(Node 123 (KIdent (str "nil") None) [])])])) 900 914.
Definition t_multipackage_inner1_f8 : func := Func 124 (Some (DeclInfo (Ident 130 (str "Error") None) (Some [(Field 126 [(Ident 127 (str "e") (Some 7))] 128)]) None)) (FuncType 131 [] (Some [(Field 134 [] 135)]) 939) (Some (Node 136 (KOther (str "*ast.BlockStmt")) [(Node 137 KReturn [(Node 138 KCall [(Node 139 KSelector [(Node 140 (KIdent (str "e") (Some 7)) []); (Node 141 (KIdent (str "Message") None) [])])])])])) 959 981.
Definition t_multipackage_inner1_f9 : func := Func 150 (Some (DeclInfo (Ident 156 (str "Code") None) (Some [(Field 152 [(Ident 153 (str "e") (Some 8))] 154)]) None)) (FuncType 157 [] (Some [(Field 160 [] 161)]) 1133) (Some (Node 162 (KOther (str "*ast.BlockStmt")) [(Node 163 KReturn [(Node 164 KSelector [(Node 165 (KIdent (str "e") (Some 8)) []); (Node 166 (KIdent (str "TheCode") None) [])])])])) 1141 1161.
Definition t_multipackage_inner1_f10 : func := Func 167 (Some (DeclInfo (Ident 173 (str "Error") None) (Some [(Field 169 [(Ident 170 (str "e") (Some 9))] 171)]) None)) (FuncType 174 [] (Some [(Field 177 [] 178)]) 1192) (Some (Node 179 (KOther (str "*ast.BlockStmt")) [(Node 180 KReturn [(Node 181 KSelector [(Node 182 (KIdent (str "e") (Some 9)) []); (Node 183 (KIdent (str "TheCode") None) [])])])])) 1199 1219.
Definition t_multipackage_inner1_gendecls : list gendecl := [GenDecl 29 [(Some (TypeSpec (Ident 31 (str "SomeType") (Some 10)) (XStruct [])))]; GenDecl 50 [(Some (TypeSpec (Ident 52 (str "Error") (Some 11)) (XStruct [[(Ident 56 (str "TheCode") None)]])))]; GenDecl 142 [(Some (TypeSpec (Ident 144 (str "UnusedError") (Some 12)) (XStruct [[(Ident 148 (str "TheCode") None)]])))]].
Definition t_multipackage_inner1_top : list topdecl := [TopFunc 1; TopFunc 2; TopNode (Node 29 (KOther (str "*ast.GenDecl")) [(Node 30 (KOther (str "*ast.TypeSpec")) [])]); TopFunc 3; TopNode (Node 50 (KOther (str "*ast.GenDecl")) [(Node 51 (KOther (str "*ast.TypeSpec")) [])]); TopFunc 4; TopFunc 5; TopFunc 6; TopFunc 7; TopFunc 8; TopNode (Node 142 (KOther (str "*ast.GenDecl")) [(Node 143 (KOther (str "*ast.TypeSpec")) [])]); TopFunc 9; TopFunc 10].
Definition t_multipackage_inner1_objs : list (N * object) := [(1, Object false 118 (DFunc 1)); (2, Object false 228 (DFunc 2)); (3, Object true 673 DOther); (4, Object true 738 DOther); (5, Object true 803 DOther); (6, Object true 862 DOther); (7, Object true 921 DOther); (8, Object true 1110 DOther); (9, Object true 1168 DOther); (10, Object false 378 DType); (11, Object false 563 DType); (12, Object false 988 DType)].
Definition t_multipackage_inner1_types : list (N * gotype) := [(5, (TSignature [] [(TNamed 1)] false)); (9, (TNamed 1)); (12, (TPointer (TNamed 51))); (13, (TNamed 51)); (14, (TNamed 51)); (15, (TBasic (str "string"))); (18, (TSignature [] [(TNamed 1)] false)); (22, (TNamed 1)); (25, (TPointer (TNamed 51))); (26, (TNamed 51)); (27, (TNamed 51)); (28, (TBasic (str "string"))); (31, (TNamed 49)); (32, (TStruct [])); (37, (TNamed 49)); (39, (TSignature [] [(TNamed 1)] false)); (43, (TNamed 1)); (46, (TPointer (TNamed 51))); (47, (TNamed 51)); (48, (TNamed 51)); (49, (TBasic (str "string"))); (52, (TNamed 51)); (53, (TStruct [((str "TheCode"), (TBasic (str "string")))])); (56, (TBasic (str "string"))); (57, (TBasic (str "string"))); (61, (TPointer (TNamed 51))); (62, (TPointer (TNamed 51))); (63, (TNamed 51)); (65, (TSignature [] [(TBasic (str "string"))] false)); (69, (TBasic (str "string"))); (72, (TBasic (str "string"))); (73, (TPointer (TNamed 51))); (74, (TBasic (str "string"))); (78, (TPointer (TNamed 51))); (79, (TPointer (TNamed 51))); (80, (TNamed 51)); (82, (TSignature [] [(TBasic (str "string"))] false)); (86, (TBasic (str "string"))); (89, (TBasic (str "string"))); (90, (TPointer (TNamed 51))); (91, (TBasic (str "string"))); (95, (TPointer (TNamed 51))); (96, (TPointer (TNamed 51))); (97, (TNamed 51)); (99, (TSignature [] [(TMap (TBasic (str "string")) (TBasic (str "string")))] false)); (103, (TMap (TBasic (str "string")) (TBasic (str "string")))); (104, (TBasic (str "string"))); (105, (TBasic (str "string"))); (108, TUntypedNil); (112, (TPointer (TNamed 51))); (113, (TPointer (TNamed 51))); (114, (TNamed 51)); (116, (TSignature [] [(TNamed 1)] false)); (120, (TNamed 1)); (123, TUntypedNil); (127, (TPointer (TNamed 51))); (128, (TPointer (TNamed 51))); (129, (TNamed 51)); (131, (TSignature [] [(TBasic (str "string"))] false)); (135, (TBasic (str "string"))); (138, (TBasic (str "string"))); (139, (TSignature [] [(TBasic (str "string"))] false)); (140, (TPointer (TNamed 51))); (141, (TSignature [] [(TBasic (str "string"))] false)); (144, (TNamed 57)); (145, (TStruct [((str "TheCode"), (TBasic (str "string")))])); (148, (TBasic (str "string"))); (149, (TBasic (str "string"))); (153, (TPointer (TNamed 57))); (154, (TPointer (TNamed 57))); (155, (TNamed 57)); (157, (TSignature [] [(TBasic (str "string"))] false)); (161, (TBasic (str "string"))); (164, (TBasic (str "string"))); (165, (TPointer (TNamed 57))); (166, (TBasic (str "string"))); (170, (TPointer (TNamed 57))); (171, (TPointer (TNamed 57))); (172, (TNamed 57)); (174, (TSignature [] [(TBasic (str "string"))] false)); (178, (TBasic (str "string"))); (181, (TBasic (str "string"))); (182, (TPointer (TNamed 57))); (183, (TBasic (str "string")))].
Definition t_multipackage_inner1_values : list (N * constval) := [(15, CString (str "hello-error")); (28, CString (str "some-error")); (49, CString (str "some-error"))].
Definition t_multipackage_inner1_uses : list (N * tobj) := [(9, 1); (14, 51); (22, 1); (27, 51); (37, 49); (43, 1); (48, 51); (57, 5); (63, 51); (69, 5); (73, 60); (74, 67); (80, 51); (86, 5); (90, 61); (91, 67); (97, 51); (104, 5); (105, 5); (108, 24); (114, 51); (120, 1); (123, 24); (129, 51); (135, 5); (140, 64); (141, 53); (149, 5); (155, 57); (161, 5); (165, 65); (166, 67); (172, 57); (178, 5); (182, 66); (183, 67)].
Definition t_multipackage_inner1_defs : list (N * tobj) := [(4, 47); (17, 48); (31, 49); (38, 50); (52, 51); (61, 60); (64, 52); (78, 61); (81, 53); (95, 62); (98, 54); (112, 63); (115, 55); (127, 64); (130, 56); (144, 57); (153, 65); (156, 58); (170, 66); (173, 59)].
Definition t_multipackage_inner1_sels : list (N * (tobj * gotype)) := [(72, (67, (TPointer (TNamed 51)))); (89, (67, (TPointer (TNamed 51)))); (139, (53, (TPointer (TNamed 51)))); (164, (67, (TPointer (TNamed 57)))); (181, (67, (TPointer (TNamed 57))))].
Definition t_multipackage_inner1_pkgnames : list (N * gostring) := [].
Definition t_multipackage_inner1_objnames : list (N * gostring) := [(1, (str "error")); (2, (str "Error")); (3, (str "?")); (4, (str "bool")); (5, (str "string")); (6, (str "int")); (7, (str "int8")); (8, (str "int16")); (9, (str "int32")); (10, (str "int64")); (11, (str "uint")); (12, (str "uint8")); (13, (str "uint16")); (14, (str "uint32")); (15, (str "uint64")); (16, (str "uintptr")); (17, (str "float32")); (18, (str "float64")); (19, (str "complex64")); (20, (str "complex128")); (21, (str "true")); (22, (str "false")); (23, (str "iota")); (24, (str "nil")); (25, (str "append")); (26, (str "cap")); (27, (str "close")); (28, (str "complex")); (29, (str "copy")); (30, (str "delete")); (31, (str "imag")); (32, (str "len")); (33, (str "make")); (34, (str "new")); (35, (str "panic")); (36, (str "print")); (37, (str "println")); (38, (str "real")); (39, (str "recover")); (40, (str "Errorf")); (41, (str "Sprintf")); (42, (str "Println")); (43, (str "New")); (44, (str "HasPrefix")); (45, (str "Float32")); (46, (str "Float64")); (47, (str "ExportedFunc1")); (48, (str "CodeNotDeclared")); (49, (str "SomeType")); (50, (str "CodeNotDeclared")); (51, (str "Error")); (52, (str "Code")); (53, (str "Message")); (54, (str "Details")); (55, (str "Cause")); (56, (str "Error")); (57, (str "UnusedError")); (58, (str "Code")); (59, (str "Error")); (60, (str "e")); (61, (str "e")); (62, (str "e")); (63, (str "e")); (64, (str "e")); (65, (str "e")); (66, (str "e")); (67, (str "TheCode")); (68, (str "ExportedFunc2")); (69, (str "CodeNotDeclared")); (70, (str "SomeType")); (71, (str "CodeNotDeclared")); (72, (str "Error")); (73, (str "Code")); (74, (str "Message")); (75, (str "Details")); (76, (str "Cause")); (77, (str "Error")); (78, (str "UnusedError")); (79, (str "Code")); (80, (str "Error")); (81, (str "e")); (82, (str "e")); (83, (str "e")); (84, (str "e")); (85, (str "e")); (86, (str "e")); (87, (str "e")); (88, (str "inner1")); (89, (str "inner2")); (90, (str "RunPackage1")); (91, (str "RunPackage2")); (92, (str "Trap1")); (93, (str "Trap2")); (94, (str "TrapType")); (95, (str "returnError")); (96, (str "returnTrap")); (97, (str "Inner1Error")); (98, (str "Inner2Error")); (99, (str "Inner1UnusedError")); (100, (str "Inner2UnusedError")); (101, (str "CallToUndeclared1")); (102, (str "CallToUndeclared2")); (103, (str "CallToUndeclared3")); (104, (str "CallToUndeclared4")); (105, (str "Error")); (106, (str "Code")); (107, (str "Message")); (108, (str "Details")); (109, (str "Cause")); (110, (str "Error")); (111, (str "e")); (112, (str "e")); (113, (str "e")); (114, (str "e")); (115, (str "e")); (116, (str "trap")); (117, (str "object")); (118, (str "object"))].
Definition t_multipackage_inner1_objtypes : list (N * gotype) := [(1, (TNamed 1)); (2, (TSignature [] [(TBasic (str "string"))] false)); (4, (TBasic (str "bool"))); (5, (TBasic (str "string"))); (6, (TBasic (str "int"))); (7, (TBasic (str "int8"))); (8, (TBasic (str "int16"))); (9, (TBasic (str "int32"))); (10, (TBasic (str "int64"))); (11, (TBasic (str "uint"))); (12, (TBasic (str "uint8"))); (13, (TBasic (str "uint16"))); (14, (TBasic (str "uint32"))); (15, (TBasic (str "uint64"))); (16, (TBasic (str "uintptr"))); (17, (TBasic (str "float32"))); (18, (TBasic (str "float64"))); (19, (TBasic (str "complex64"))); (20, (TBasic (str "complex128"))); (40, (TSignature [(TBasic (str "string")); (TSlice (TInterface 4))] [(TNamed 1)] true)); (41, (TSignature [(TBasic (str "string")); (TSlice (TInterface 4))] [(TBasic (str "string"))] true)); (42, (TSignature [(TSlice (TInterface 4))] [(TBasic (str "int")); (TNamed 1)] true)); (43, (TSignature [(TBasic (str "string"))] [(TNamed 1)] false)); (44, (TSignature [(TBasic (str "string")); (TBasic (str "string"))] [(TBasic (str "bool"))] false)); (45, (TSignature [] [(TBasic (str "float32"))] false)); (46, (TSignature [] [(TBasic (str "float64"))] false)); (47, (TSignature [] [(TNamed 1)] false)); (48, (TSignature [] [(TNamed 1)] false)); (49, (TNamed 49)); (50, (TSignature [] [(TNamed 1)] false)); (51, (TNamed 51)); (52, (TSignature [] [(TBasic (str "string"))] false)); (53, (TSignature [] [(TBasic (str "string"))] false)); (54, (TSignature [] [(TMap (TBasic (str "string")) (TBasic (str "string")))] false)); (55, (TSignature [] [(TNamed 1)] false)); (56, (TSignature [] [(TBasic (str "string"))] false)); (57, (TNamed 57)); (58, (TSignature [] [(TBasic (str "string"))] false)); (59, (TSignature [] [(TBasic (str "string"))] false)); (60, (TPointer (TNamed 51))); (61, (TPointer (TNamed 51))); (62, (TPointer (TNamed 51))); (63, (TPointer (TNamed 51))); (64, (TPointer (TNamed 51))); (65, (TPointer (TNamed 57))); (66, (TPointer (TNamed 57))); (67, (TBasic (str "string"))); (68, (TSignature [] [(TNamed 1)] false)); (69, (TSignature [] [(TNamed 1)] false)); (70, (TNamed 70)); (71, (TSignature [] [(TNamed 1)] false)); (72, (TNamed 72)); (73, (TSignature [] [(TBasic (str "string"))] false)); (74, (TSignature [] [(TBasic (str "string"))] false)); (75, (TSignature [] [(TMap (TBasic (str "string")) (TBasic (str "string")))] false)); (76, (TSignature [] [(TNamed 1)] false)); (77, (TSignature [] [(TBasic (str "string"))] false)); (78, (TNamed 78)); (79, (TSignature [] [(TBasic (str "string"))] false)); (80, (TSignature [] [(TBasic (str "string"))] false)); (81, (TPointer (TNamed 72))); (82, (TPointer (TNamed 72))); (83, (TPointer (TNamed 72))); (84, (TPointer (TNamed 72))); (85, (TPointer (TNamed 72))); (86, (TPointer (TNamed 78))); (87, (TPointer (TNamed 78))); (90, (TSignature [] [(TNamed 1)] false)); (91, (TSignature [] [(TNamed 1)] false)); (92, (TSignature [] [(TNamed 1)] false)); (93, (TSignature [] [(TNamed 1)] false)); (94, (TNamed 94)); (95, (TSignature [] [(TNamed 1)] false)); (96, (TSignature [] [(TNamed 94)] false)); (97, (TSignature [] [(TNamed 1)] false)); (98, (TSignature [] [(TNamed 1)] false)); (99, (TSignature [] [(TNamed 1)] false)); (100, (TSignature [] [(TNamed 1)] false)); (101, (TSignature [] [(TNamed 1)] false)); (102, (TSignature [] [(TNamed 1)] false)); (103, (TSignature [] [(TNamed 1)] false)); (104, (TSignature [] [(TNamed 1)] false)); (105, (TNamed 105)); (106, (TSignature [] [(TBasic (str "string"))] false)); (107, (TSignature [] [(TBasic (str "string"))] false)); (108, (TSignature [] [(TMap (TBasic (str "string")) (TBasic (str "string")))] false)); (109, (TSignature [] [(TNamed 1)] false)); (110, (TSignature [] [(TBasic (str "string"))] false)); (111, (TPointer (TNamed 105))); (112, (TPointer (TNamed 105))); (113, (TPointer (TNamed 105))); (114, (TPointer (TNamed 105))); (115, (TPointer (TNamed 105))); (116, (TNamed 94)); (117, (TNamed 49)); (118, (TNamed 70))].
Definition t_multipackage_inner1_under : list (N * gotype) := [(1, (TInterface 1)); (49, (TStruct [])); (51, (TStruct [((str "TheCode"), (TBasic (str "string")))])); (57, (TStruct [((str "TheCode"), (TBasic (str "string")))])); (70, (TStruct [])); (72, (TStruct [((str "TheCode"), (TBasic (str "string")))])); (78, (TStruct [((str "TheCode"), (TBasic (str "string")))])); (94, (TStruct [])); (105, (TStruct [((str "TheCode"), (TBasic (str "string")))]))].
Definition t_multipackage_inner1_named_methods : list (N * (list gostring)) := [(49, [(str "CodeNotDeclared")]); (51, [(str "Code"); (str "Message"); (str "Details"); (str "Cause"); (str "Error")]); (57, [(str "Code"); (str "Error")]); (70, [(str "CodeNotDeclared")]); (72, [(str "Code"); (str "Message"); (str "Details"); (str "Cause"); (str "Error")]); (78, [(str "Code"); (str "Error")]); (94, [(str "returnError")]); (105, [(str "Code"); (str "Message"); (str "Details"); (str "Cause"); (str "Error")])].
Definition t_multipackage_inner1_methods : list (gotype * gostring * tobj) := [((TInterface 1), (str "Error"), 2); ((TNamed 1), (str "Error"), 2); ((TNamed 49), (str "CodeNotDeclared"), 50); ((TNamed 70), (str "CodeNotDeclared"), 71); ((TNamed 94), (str "returnError"), 95); ((TPointer (TNamed 105)), (str "Cause"), 109); ((TPointer (TNamed 105)), (str "Code"), 106); ((TPointer (TNamed 105)), (str "Details"), 108); ((TPointer (TNamed 105)), (str "Error"), 110); ((TPointer (TNamed 105)), (str "Message"), 107); ((TPointer (TNamed 49)), (str "CodeNotDeclared"), 50); ((TPointer (TNamed 51)), (str "Cause"), 55); ((TPointer (TNamed 51)), (str "Code"), 52); ((TPointer (TNamed 51)), (str "Details"), 54); ((TPointer (TNamed 51)), (str "Error"), 56); ((TPointer (TNamed 51)), (str "Message"), 53); ((TPointer (TNamed 57)), (str "Code"), 58); ((TPointer (TNamed 57)), (str "Error"), 59); ((TPointer (TNamed 70)), (str "CodeNotDeclared"), 71); ((TPointer (TNamed 72)), (str "Cause"), 76); ((TPointer (TNamed 72)), (str "Code"), 73); ((TPointer (TNamed 72)), (str "Details"), 75); ((TPointer (TNamed 72)), (str "Error"), 77); ((TPointer (TNamed 72)), (str "Message"), 74); ((TPointer (TNamed 78)), (str "Code"), 79); ((TPointer (TNamed 78)), (str "Error"), 80); ((TPointer (TNamed 94)), (str "returnError"), 95)].
Definition t_multipackage_inner1_ierr : list gotype := [(TInterface 1); (TNamed 1); (TPointer (TNamed 105)); (TPointer (TNamed 51)); (TPointer (TNamed 57)); (TPointer (TNamed 72)); (TPointer (TNamed 78))].
Definition t_multipackage_inner1_iree : list gotype := [(TPointer (TNamed 105)); (TPointer (TNamed 51)); (TPointer (TNamed 57)); (TPointer (TNamed 72)); (TPointer (TNamed 78))].
Definition t_multipackage_inner1_icause : list gotype := [(TPointer (TNamed 105)); (TPointer (TNamed 51)); (TPointer (TNamed 72))].
Definition t_multipackage_inner1_impl : list (gotype * gotype) := [((TInterface 1), (TInterface 1)); ((TNamed 1), (TInterface 1)); ((TPointer (TNamed 105)), (TInterface 1)); ((TPointer (TNamed 51)), (TInterface 1)); ((TPointer (TNamed 57)), (TInterface 1)); ((TPointer (TNamed 72)), (TInterface 1)); ((TPointer (TNamed 78)), (TInterface 1))].
Definition t_multipackage_inner1_nodes0 : list snode := [SNode 1 (Place 0 1) (Place 1218 37) true; SNode 2 (Place 8 1) (Place 14 1) false; SNode 3 (Place 112 8) (Place 220 10) true; SNode 4 (Place 117 8) (Place 130 8) false; SNode 5 (Place 112 8) (Place 138 8) false; SNode 6 (Place 130 8) (Place 132 8) false; SNode 7 (Place 133 8) (Place 138 8) false; SNode 8 (Place 133 8) (Place 138 8) true; SNode 9 (Place 133 8) (Place 138 8) false; SNode 10 (Place 139 8) (Place 220 10) true; SNode 11 (Place 190 9) (Place 218 9) true; SNode 12 (Place 197 9) (Place 218 9) false; SNode 13 (Place 198 9) (Place 218 9) false; SNode 14 (Place 198 9) (Place 203 9) false; SNode 15 (Place 204 9) (Place 217 9) false; SNode 16 (Place 222 12) (Place 370 14) true; SNode 17 (Place 227 12) (Place 242 12) false; SNode 18 (Place 222 12) (Place 250 12) false; SNode 19 (Place 242 12) (Place 244 12) false; SNode 20 (Place 245 12) (Place 250 12) false; SNode 21 (Place 245 12) (Place 250 12) true; SNode 22 (Place 245 12) (Place 250 12) false; SNode 23 (Place 251 12) (Place 370 14) true; SNode 24 (Place 341 13) (Place 368 13) true; SNode 25 (Place 348 13) (Place 368 13) false; SNode 26 (Place 349 13) (Place 368 13) false; SNode 27 (Place 349 13) (Place 354 13) false; SNode 28 (Place 355 13) (Place 367 13) false; SNode 29 (Place 372 16) (Place 394 16) true; SNode 30 (Place 377 16) (Place 394 16) true; SNode 31 (Place 377 16) (Place 385 16) false; SNode 32 (Place 386 16) (Place 394 16) false; SNode 33 (Place 392 16) (Place 394 16) false; SNode 34 (Place 396 18) (Place 555 20) true; SNode 35 (Place 401 18) (Place 411 18) false; SNode 36 (Place 402 18) (Place 410 18) true; SNode 37 (Place 402 18) (Place 410 18) false; SNode 38 (Place 412 18) (Place 427 18) false; SNode 39 (Place 396 18) (Place 435 18) false; SNode 40 (Place 427 18) (Place 429 18) false; SNode 41 (Place 430 18) (Place 435 18) false; SNode 42 (Place 430 18) (Place 435 18) true; SNode 43 (Place 430 18) (Place 435 18) false; SNode 44 (Place 436 18) (Place 555 20) true; SNode 45 (Place 526 19) (Place 553 19) true; SNode 46 (Place 533 19) (Place 553 19) false; SNode 47 (Place 534 19) (Place 553 19) false; SNode 48 (Place 534 19) (Place 539 19) false; SNode 49 (Place 540 19) (Place 552 19) false; SNode 50 (Place 557 22) (Place 664 24) true; SNode 51 (Place 562 22) (Place 664 24) true; SNode 52 (Place 562 22) (Place 567 22) false; SNode 53 (Place 568 22) (Place 664 24) false; SNode 54 (Place 575 22) (Place 664 24) false; SNode 55 (Place 648 23) (Place 662 23) true; SNode 56 (Place 648 23) (Place 655 23) false; SNode 57 (Place 656 23) (Place 662 23) false; SNode 58 (Place 666 26) (Place 730 26) true; SNode 59 (Place 671 26) (Place 681 26) false; SNode 60 (Place 672 26) (Place 680 26) true; SNode 61 (Place 672 26) (Place 673 26) false; SNode 62 (Place 674 26) (Place 680 26) false; SNode 63 (Place 675 26) (Place 680 26) false; SNode 64 (Place 682 26) (Place 686 26) false; SNode 65 (Place 666 26) (Place 695 26) false; SNode 66 (Place 686 26) (Place 688 26) false; SNode 67 (Place 689 26) (Place 695 26) false; SNode 68 (Place 689 26) (Place 695 26) true; SNode 69 (Place 689 26) (Place 695 26) false; SNode 70 (Place 710 26) (Place 730 26) true; SNode 71 (Place 712 26) (Place 728 26) true; SNode 72 (Place 719 26) (Place 728 26) false; SNode 73 (Place 719 26) (Place 720 26) false; SNode 74 (Place 721 26) (Place 728 26) false; SNode 75 (Place 731 27) (Place 795 27) true; SNode 76 (Place 736 27) (Place 746 27) false; SNode 77 (Place 737 27) (Place 745 27) true; SNode 78 (Place 737 27) (Place 738 27) false; SNode 79 (Place 739 27) (Place 745 27) false; SNode 80 (Place 740 27) (Place 745 27) false; SNode 81 (Place 747 27) (Place 754 27) false; SNode 82 (Place 731 27) (Place 763 27) false; SNode 83 (Place 754 27) (Place 756 27) false; SNode 84 (Place 757 27) (Place 763 27) false; SNode 85 (Place 757 27) (Place 763 27) true; SNode 86 (Place 757 27) (Place 763 27) false; SNode 87 (Place 775 27) (Place 795 27) true; SNode 88 (Place 777 27) (Place 793 27) true; SNode 89 (Place 784 27) (Place 793 27) false; SNode 90 (Place 784 27) (Place 785 27) false; SNode 91 (Place 786 27) (Place 793 27) false; SNode 92 (Place 796 28) (Place 854 28) true; SNode 93 (Place 801 28) (Place 811 28) false; SNode 94 (Place 802 28) (Place 810 28) true; SNode 95 (Place 802 28) (Place 803 28) false; SNode 96 (Place 804 28) (Place 810 28) false; SNode 97 (Place 805 28) (Place 810 28) false; SNode 98 (Place 812 28) (Place 819 28) false; SNode 99 (Place 796 28) (Place 839 28) false; SNode 100 (Place 819 28) (Place 821 28) false; SNode 101 (Place 822 28) (Place 839 28) false; SNode 102 (Place 822 28) (Place 839 28) true; SNode 103 (Place 822 28) (Place 839 28) false; SNode 104 (Place 826 28) (Place 832 28) false; SNode 105 (Place 833 28) (Place 839 28) false; SNode 106 (Place 840 28) (Place 854 28) true; SNode 107 (Place 842 28) (Place 852 28) true; SNode 108 (Place 849 28) (Place 852 28) false; SNode 109 (Place 855 29) (Place 913 29) true; SNode 110 (Place 860 29) (Place 870 29) false; SNode 111 (Place 861 29) (Place 869 29) true; SNode 112 (Place 861 29) (Place 862 29) false; SNode 113 (Place 863 29) (Place 869 29) false; SNode 114 (Place 864 29) (Place 869 29) false; SNode 115 (Place 871 29) (Place 876 29) false; SNode 116 (Place 855 29) (Place 884 29) false; SNode 117 (Place 876 29) (Place 878 29) false; SNode 118 (Place 879 29) (Place 884 29) false; SNode 119 (Place 879 29) (Place 884 29) true; SNode 120 (Place 879 29) (Place 884 29) false; SNode 121 (Place 899 29) (Place 913 29) true; SNode 122 (Place 901 29) (Place 911 29) true; SNode 123 (Place 908 29) (Place 911 29) false; SNode 124 (Place 914 30) (Place 980 30) true; SNode 125 (Place 919 30) (Place 929 30) false; SNode 126 (Place 920 30) (Place 928 30) true; SNode 127 (Place 920 30) (Place 921 30) false; SNode 128 (Place 922 30) (Place 928 30) false; SNode 129 (Place 923 30) (Place 928 30) false; SNode 130 (Place 930 30) (Place 935 30) false; SNode 131 (Place 914 30) (Place 944 30) false; SNode 132 (Place 935 30) (Place 937 30) false; SNode 133 (Place 938 30) (Place 944 30) false; SNode 134 (Place 938 30) (Place 944 30) true; SNode 135 (Place 938 30) (Place 944 30) false; SNode 136 (Place 958 30) (Place 980 30) true; SNode 137 (Place 960 30) (Place 978 30) true; SNode 138 (Place 967 30) (Place 978 30) false; SNode 139 (Place 967 30) (Place 976 30) false; SNode 140 (Place 967 30) (Place 968 30) false; SNode 141 (Place 969 30) (Place 976 30) false; SNode 142 (Place 982 32) (Place 1101 34) true; SNode 143 (Place 987 32) (Place 1101 34) true; SNode 144 (Place 987 32) (Place 998 32) false; SNode 145 (Place 999 32) (Place 1101 34) false; SNode 146 (Place 1006 32) (Place 1101 34) false; SNode 147 (Place 1085 33) (Place 1099 33) true; SNode 148 (Place 1085 33) (Place 1092 33) false; SNode 149 (Place 1093 33) (Place 1099 33) false; SNode 150 (Place 1103 36) (Place 1160 36) true; SNode 151 (Place 1108 36) (Place 1124 36) false; SNode 152 (Place 1109 36) (Place 1123 36) true; SNode 153 (Place 1109 36) (Place 1110 36) false; SNode 154 (Place 1111 36) (Place 1123 36) false; SNode 155 (Place 1112 36) (Place 1123 36) false; SNode 156 (Place 1125 36) (Place 1129 36) false; SNode 157 (Place 1103 36) (Place 1138 36) false; SNode 158 (Place 1129 36) (Place 1131 36) false; SNode 159 (Place 1132 36) (Place 1138 36) false; SNode 160 (Place 1132 36) (Place 1138 36) true; SNode 161 (Place 1132 36) (Place 1138 36) false; SNode 162 (Place 1140 36) (Place 1160 36) true; SNode 163 (Place 1142 36) (Place 1158 36) true; SNode 164 (Place 1149 36) (Place 1158 36) false; SNode 165 (Place 1149 36) (Place 1150 36) false; SNode 166 (Place 1151 36) (Place 1158 36) false; SNode 167 (Place 1161 37) (Place 1218 37) true; SNode 168 (Place 1166 37) (Place 1182 37) false; SNode 169 (Place 1167 37) (Place 1181 37) true; SNode 170 (Place 1167 37) (Place 1168 37) false; SNode 171 (Place 1169 37) (Place 1181 37) false; SNode 172 (Place 1170 37) (Place 1181 37) false; SNode 173 (Place 1183 37) (Place 1188 37) false; SNode 174 (Place 1161 37) (Place 1197 37) false; SNode 175 (Place 1188 37) (Place 1190 37) false; SNode 176 (Place 1191 37) (Place 1197 37) false; SNode 177 (Place 1191 37) (Place 1197 37) true; SNode 178 (Place 1191 37) (Place 1197 37) false; SNode 179 (Place 1198 37) (Place 1218 37) true; SNode 180 (Place 1200 37) (Place 1216 37) true; SNode 181 (Place 1207 37) (Place 1216 37) false; SNode 182 (Place 1207 37) (Place 1208 37) false; SNode 183 (Place 1209 37) (Place 1216 37) false].
Definition t_multipackage_inner1_cgroups0 : list cgroup := [CGroup (Place 16 3) (Place 111 7) [(str "// ExportedFunc1 is a demo function."); (str "//"); (str "// Errors:"); (str "//"); (str "//    - hello-error -- is always returned")]; CGroup (Place 141 8) (Place 188 8) [(str "// want ExportedFunc1:""ErrorCodes: hello-error""")]; CGroup (Place 253 12) (Place 339 12) [(str "// want `function ""CodeNotDeclared"" is exported, but does not declare any error codes`")]; CGroup (Place 438 18) (Place 524 18) [(str "// want `function ""CodeNotDeclared"" is exported, but does not declare any error codes`")]; CGroup (Place 577 22) (Place 646 22) [(str "// want Error:`ErrorType{Field:{Name:""TheCode"", Position:0}, Codes:}`")]; CGroup (Place 1008 32) (Place 1083 32) [(str "// want UnusedError:`ErrorType{Field:{Name:""TheCode"", Position:0}, Codes:}`")]].
Definition t_multipackage_inner1_files : list source_file := [SourceFile t_multipackage_inner1_nodes0 t_multipackage_inner1_cgroups0].
Definition t_multipackage_inner1_info : typeinfo := map_info (list_to_map t_multipackage_inner1_types) (list_to_map t_multipackage_inner1_values) (list_to_map t_multipackage_inner1_uses) (list_to_map t_multipackage_inner1_defs) (list_to_map t_multipackage_inner1_sels) (list_to_set [1; 4; 5; 6; 7; 8; 9; 10; 11; 12; 13; 14; 15; 16; 17; 18; 19; 20; 49; 51; 57; 70; 72; 78; 94; 105]) (list_to_map t_multipackage_inner1_pkgnames) (list_to_map t_multipackage_inner1_objnames) (list_to_map t_multipackage_inner1_objtypes) (list_to_map t_multipackage_inner1_under) t_multipackage_inner1_methods t_multipackage_inner1_ierr t_multipackage_inner1_iree t_multipackage_inner1_icause t_multipackage_inner1_impl (list_to_map t_multipackage_inner1_named_methods).
Definition t_multipackage_inner1 : package := Package (list_to_map [(1, t_multipackage_inner1_f1); (2, t_multipackage_inner1_f2); (3, t_multipackage_inner1_f3); (4, t_multipackage_inner1_f4); (5, t_multipackage_inner1_f5); (6, t_multipackage_inner1_f6); (7, t_multipackage_inner1_f7); (8, t_multipackage_inner1_f8); (9, t_multipackage_inner1_f9); (10, t_multipackage_inner1_f10)]) [1; 2; 3; 4; 5; 6; 7; 8; 9; 10] t_multipackage_inner1_gendecls t_multipackage_inner1_top (list_to_map t_multipackage_inner1_objs) (fun id => default [] (createCommentMap t_multipackage_inner1_files id)) t_multipackage_inner1_info.
Definition t_multipackage_inner1_rank : gostring -> nat := fun n => default 0%nat ((list_to_map [] : gmap gostring nat) !! n).
Definition t_multipackage_inner2_f1 : func := Func 3 (Some (DeclInfo (Ident 4 (str "ExportedFunc2") (Some 1)) None (Some (comment_text [(str "// ExportedFunc2 is a demo function."); (str "//"); (str "// Errors:"); (str "//"); (str "//    - hello-error -- is always returned")])))) (FuncType 5 [] (Some [(Field 8 [] 9)]) 134) (Some (Node 10 (KOther (str "*ast.BlockStmt")) [(Node 11 KReturn [(Node 12 (KUnary true) [(Node 13 KComposite [(Node 15 KBasicLit [])])])])])) 140 173.
Definition t_multipackage_inner2_f2 : func := Func 16 (Some (DeclInfo (Ident 17 (str "CodeNotDeclared") (Some 2)) None None)) (FuncType 18 [] (Some [(Field 21 [] 22)]) 198) (Some (Node 23 (KOther (str "*ast.BlockStmt")) [(Node 24 KReturn [(Node 25 (KUnary true) [(Node 26 KComposite [(Node 28 KBasicLit [])])])])])) 204 236.
Definition t_multipackage_inner2_f3 : func := Func 34 (Some (DeclInfo (Ident 38 (str "CodeNotDeclared") None) (Some [(Field 36 [] 37)]) None)) (FuncType 39 [] (Some [(Field 42 [] 43)]) 296) (Some (Node 44 (KOther (str "*ast.BlockStmt")) [(Node 45 KReturn [(Node 46 (KUnary true) [(Node 47 KComposite [(Node 49 KBasicLit [])])])])])) 302 334.
Definition t_multipackage_inner2_f4 : func := Func 58 (Some (DeclInfo (Ident 64 (str "Code") None) (Some [(Field 60 [(Ident 61 (str "e") (Some 3))] 62)]) None)) (FuncType 65 [] (Some [(Field 68 [] 69)]) 398) (Some (Node 70 (KOther (str "*ast.BlockStmt")) [(Node 71 KReturn [(Node 72 KSelector [(Node 73 (KIdent (str "e") (Some 3)) []); (Node 74 (KIdent (str "TheCode") None) [])])])])) 419 439.
Definition t_multipackage_inner2_f5 : func := Func 75 (Some (DeclInfo (Ident 81 (str "Message") None) (Some [(Field 77 [(Ident 78 (str "e") (Some 4))] 79)]) None)) (FuncType 82 [] (Some [(Field 85 [] 86)]) 466) (Some (Node 87 (KOther (str "*ast.BlockStmt")) [(Node 88 KReturn [(Node 89 KSelector [(Node 90 (KIdent (str "e") (Some 4)) []); (Node 91 (KIdent (str "TheCode") None) [])])])])) 484 504.
Definition t_multipackage_inner2_f6 : func := Func 92 (Some (DeclInfo (Ident 98 (str "Details") None) (Some [(Field 94 [(Ident 95 (str "e") (Some 5))] 96)]) None)) (FuncType 99 [] (Some [(Field 102 [] 103)]) 531) (Some (Node 106 (KOther (str "*ast.BlockStmt")) [(Node 107 KReturn [(Node 108 (KIdent (str "nil") None) [])])])) 549 563.
Definition t_multipackage_inner2_f7 : func := Func 109 (Some (DeclInfo (Ident 115 (str "Cause") None) (Some [(Field 111 [(Ident 112 (str "e") (Some 6))] 113)]) None)) (FuncType 116 [] (Some [(Field 119 [] 120)]) 588) (Some (Node 121 (KOther (str "*ast.BlockStmt")) [(Node 122 KReturn [(Node 123 (KIdent (str "nil") None) [])])])) 608 622.
Definition t_multipackage_inner2_f8 : func := Func 124 (Some (DeclInfo (Ident 130 (str "Error") None) (Some [(Field 126 [(Ident 127 (str "e") (Some 7))] 128)]) None)) (FuncType 131 [] (Some [(Field 134 [] 135)]) 647) (Some (Node 136 (KOther (str "*ast.BlockStmt")) [(Node 137 KReturn [(Node 138 KCall [(Node 139 KSelector [(Node 140 (KIdent (str "e") (Some 7)) []); (Node 141 (KIdent (str "Message") None) [])])])])])) 667 689.
Definition t_multipackage_inner2_f9 : func := Func 150 (Some (DeclInfo (Ident 156 (str "Code") None) (Some [(Field 152 [(Ident 153 (str "e") (Some 8))] 154)]) None)) (FuncType 157 [] (Some [(Field 160 [] 161)]) 765) (Some (Node 162 (KOther (str "*ast.BlockStmt")) [(Node 163 KReturn [(Node 164 KSelector [(Node 165 (KIdent (str "e") (Some 8)) []); (Node 166 (KIdent (str "TheCode") None) [])])])])) 773 793.
Definition t_multipackage_inner2_f10 : func := Func 167 (Some (DeclInfo (Ident 173 (str "Error") None) (Some [(Field 169 [(Ident 170 (str "e") (Some 9))] 171)]) None)) (FuncType 174 [] (Some [(Field 177 [] 178)]) 824) (Some (Node 179 (KOther (str "*ast.BlockStmt")) [(Node 180 KReturn [(Node 181 KSelector [(Node 182 (KIdent (str "e") (Some 9)) []); (Node 183 (KIdent (str "TheCode") None) [])])])])) 831 851.
Definition t_multipackage_inner2_gendecls : list gendecl := [GenDecl 29 [(Some (TypeSpec (Ident 31 (str "SomeType") (Some 10)) (XStruct [])))]; GenDecl 50 [(Some (TypeSpec (Ident 52 (str "Error") (Some 11)) (XStruct [[(Ident 56 (str "TheCode") None)]])))]; GenDecl 142 [(Some (TypeSpec (Ident 144 (str "UnusedError") (Some 12)) (XStruct [[(Ident 148 (str "TheCode") None)]])))]].
Definition t_multipackage_inner2_top : list topdecl := [TopFunc 1; TopFunc 2; TopNode (Node 29 (KOther (str "*ast.GenDecl")) [(Node 30 (KOther (str "*ast.TypeSpec")) [])]); TopFunc 3; TopNode (Node 50 (KOther (str "*ast.GenDecl")) [(Node 51 (KOther (str "*ast.TypeSpec")) [])]); TopFunc 4; TopFunc 5; TopFunc 6; TopFunc 7; TopFunc 8; TopNode (Node 142 (KOther (str "*ast.GenDecl")) [(Node 143 (KOther (str "*ast.TypeSpec")) [])]); TopFunc 9; TopFunc 10].
Definition t_multipackage_inner2_objs : list (N * object) := [(1, Object false 118 (DFunc 1)); (2, Object false 180 (DFunc 2)); (3, Object true 381 DOther); (4, Object true 446 DOther); (5, Object true 511 DOther); (6, Object true 570 DOther); (7, Object true 629 DOther); (8, Object true 742 DOther); (9, Object true 800 DOther); (10, Object false 243 DType); (11, Object false 341 DType); (12, Object false 696 DType)].
Definition t_multipackage_inner2_types : list (N * gotype) := [(5, (TSignature [] [(TNamed 1)] false)); (9, (TNamed 1)); (12, (TPointer (TNamed 72))); (13, (TNamed 72)); (14, (TNamed 72)); (15, (TBasic (str "string"))); (18, (TSignature [] [(TNamed 1)] false)); (22, (TNamed 1)); (25, (TPointer (TNamed 72))); (26, (TNamed 72)); (27, (TNamed 72)); (28, (TBasic (str "string"))); (31, (TNamed 70)); (32, (TStruct [])); (37, (TNamed 70)); (39, (TSignature [] [(TNamed 1)] false)); (43, (TNamed 1)); (46, (TPointer (TNamed 72))); (47, (TNamed 72)); (48, (TNamed 72)); (49, (TBasic (str "string"))); (52, (TNamed 72)); (53, (TStruct [((str "TheCode"), (TBasic (str "string")))])); (56, (TBasic (str "string"))); (57, (TBasic (str "string"))); (61, (TPointer (TNamed 72))); (62, (TPointer (TNamed 72))); (63, (TNamed 72)); (65, (TSignature [] [(TBasic (str "string"))] false)); (69, (TBasic (str "string"))); (72, (TBasic (str "string"))); (73, (TPointer (TNamed 72))); (74, (TBasic (str "string"))); (78, (TPointer (TNamed 72))); (79, (TPointer (TNamed 72))); (80, (TNamed 72)); (82, (TSignature [] [(TBasic (str "string"))] false)); (86, (TBasic (str "string"))); (89, (TBasic (str "string"))); (90, (TPointer (TNamed 72))); (91, (TBasic (str "string"))); (95, (TPointer (TNamed 72))); (96, (TPointer (TNamed 72))); (97, (TNamed 72)); (99, (TSignature [] [(TMap (TBasic (str "string")) (TBasic (str "string")))] false)); (103, (TMap (TBasic (str "string")) (TBasic (str "string")))); (104, (TBasic (str "string"))); (105, (TBasic (str "string"))); (108, TUntypedNil); (112, (TPointer (TNamed 72))); (113, (TPointer (TNamed 72))); (114, (TNamed 72)); (116, (TSignature [] [(TNamed 1)] false)); (120, (TNamed 1)); (123, TUntypedNil); (127, (TPointer (TNamed 72))); (128, (TPointer (TNamed 72))); (129, (TNamed 72)); (131, (TSignature [] [(TBasic (str "string"))] false)); (135, (TBasic (str "string"))); (138, (TBasic (str "string"))); (139, (TSignature [] [(TBasic (str "string"))] false)); (140, (TPointer (TNamed 72))); (141, (TSignature [] [(TBasic (str "string"))] false)); (144, (TNamed 78)); (145, (TStruct [((str "TheCode"), (TBasic (str "string")))])); (148, (TBasic (str "string"))); (149, (TBasic (str "string"))); (153, (TPointer (TNamed 78))); (154, (TPointer (TNamed 78))); (155, (TNamed 78)); (157, (TSignature [] [(TBasic (str "string"))] false)); (161, (TBasic (str "string"))); (164, (TBasic (str "string"))); (165, (TPointer (TNamed 78))); (166, (TBasic (str "string"))); (170, (TPointer (TNamed 78))); (171, (TPointer (TNamed 78))); (172, (TNamed 78)); (174, (TSignature [] [(TBasic (str "string"))] false)); (178, (TBasic (str "string"))); (181, (TBasic (str "string"))); (182, (TPointer (TNamed 78))); (183, (TBasic (str "string")))].
Definition t_multipackage_inner2_values : list (N * constval) := [(15, CString (str "hello-error")); (28, CString (str "some-error")); (49, CString (str "some-error"))].
Definition t_multipackage_inner2_uses : list (N * tobj) := [(9, 1); (14, 72); (22, 1); (27, 72); (37, 70); (43, 1); (48, 72); (57, 5); (63, 72); (69, 5); (73, 81); (74, 67); (80, 72); (86, 5); (90, 82); (91, 67); (97, 72); (104, 5); (105, 5); (108, 24); (114, 72); (120, 1); (123, 24); (129, 72); (135, 5); (140, 85); (141, 74); (149, 5); (155, 78); (161, 5); (165, 86); (166, 67); (172, 78); (178, 5); (182, 87); (183, 67)].
Definition t_multipackage_inner2_defs : list (N * tobj) := [(4, 68); (17, 69); (31, 70); (38, 71); (52, 72); (61, 81); (64, 73); (78, 82); (81, 74); (95, 83); (98, 75); (112, 84); (115, 76); (127, 85); (130, 77); (144, 78); (153, 86); (156, 79); (170, 87); (173, 80)].
Definition t_multipackage_inner2_sels : list (N * (tobj * gotype)) := [(72, (67, (TPointer (TNamed 72)))); (89, (67, (TPointer (TNamed 72)))); (139, (74, (TPointer (TNamed 72)))); (164, (67, (TPointer (TNamed 78)))); (181, (67, (TPointer (TNamed 78))))].
Definition t_multipackage_inner2_pkgnames : list (N * gostring) := [].
Definition t_multipackage_inner2_objnames : list (N * gostring) := [(1, (str "error")); (2, (str "Error")); (3, (str "?")); (4, (str "bool")); (5, (str "string")); (6, (str "int")); (7, (str "int8")); (8, (str "int16")); (9, (str "int32")); (10, (str "int64")); (11, (str "uint")); (12, (str "uint8")); (13, (str "uint16")); (14, (str "uint32")); (15, (str "uint64")); (16, (str "uintptr")); (17, (str "float32")); (18, (str "float64")); (19, (str "complex64")); (20, (str "complex128")); (21, (str "true")); (22, (str "false")); (23, (str "iota")); (24, (str "nil")); (25, (str "append")); (26, (str "cap")); (27, (str "close")); (28, (str "complex")); (29, (str "copy")); (30, (str "delete")); (31, (str "imag")); (32, (str "len")); (33, (str "make")); (34, (str "new")); (35, (str "panic")); (36, (str "print")); (37, (str "println")); (38, (str "real")); (39, (str "recover")); (40, (str "Errorf")); (41, (str "Sprintf")); (42, (str "Println")); (43, (str "New")); (44, (str "HasPrefix")); (45, (str "Float32")); (46, (str "Float64")); (47, (str "ExportedFunc1")); (48, (str "CodeNotDeclared")); (49, (str "SomeType")); (50, (str "CodeNotDeclared")); (51, (str "Error")); (52, (str "Code")); (53, (str "Message")); (54, (str "Details")); (55, (str "Cause")); (56, (str "Error")); (57, (str "UnusedError")); (58, (str "Code")); (59, (str "Error")); (60, (str "e")); (61, (str "e")); (62, (str "e")); (63, (str "e")); (64, (str "e")); (65, (str "e")); (66, (str "e")); (67, (str "TheCode")); (68, (str "ExportedFunc2")); (69, (str "CodeNotDeclared")); (70, (str "SomeType")); (71, (str "CodeNotDeclared")); (72, (str "Error")); (73, (str "Code")); (74, (str "Message")); (75, (str "Details")); (76, (str "Cause")); (77, (str "Error")); (78, (str "UnusedError")); (79, (str "Code")); (80, (str "Error")); (81, (str "e")); (82, (str "e")); (83, (str "e")); (84, (str "e")); (85, (str "e")); (86, (str "e")); (87, (str "e")); (88, (str "inner1")); (89, (str "inner2")); (90, (str "RunPackage1")); (91, (str "RunPackage2")); (92, (str "Trap1")); (93, (str "Trap2")); (94, (str "TrapType")); (95, (str "returnError")); (96, (str "returnTrap")); (97, (str "Inner1Error")); (98, (str "Inner2Error")); (99, (str "Inner1UnusedError")); (100, (str "Inner2UnusedError")); (101, (str "CallToUndeclared1")); (102, (str "CallToUndeclared2")); (103, (str "CallToUndeclared3")); (104, (str "CallToUndeclared4")); (105, (str "Error")); (106, (str "Code")); (107, (str "Message")); (108, (str "Details")); (109, (str "Cause")); (110, (str "Error")); (111, (str "e")); (112, (str "e")); (113, (str "e")); (114, (str "e")); (115, (str "e")); (116, (str "trap")); (117, (str "object")); (118, (str "object"))].
Definition t_multipackage_inner2_objtypes : list (N * gotype) := [(1, (TNamed 1)); (2, (TSignature [] [(TBasic (str "string"))] false)); (4, (TBasic (str "bool"))); (5, (TBasic (str "string"))); (6, (TBasic (str "int"))); (7, (TBasic (str "int8"))); (8, (TBasic (str "int16"))); (9, (TBasic (str "int32"))); (10, (TBasic (str "int64"))); (11, (TBasic (str "uint"))); (12, (TBasic (str "uint8"))); (13, (TBasic (str "uint16"))); (14, (TBasic (str "uint32"))); (15, (TBasic (str "uint64"))); (16, (TBasic (str "uintptr"))); (17, (TBasic (str "float32"))); (18, (TBasic (str "float64"))); (19, (TBasic (str "complex64"))); (20, (TBasic (str "complex128"))); (40, (TSignature [(TBasic (str "string")); (TSlice (TInterface 4))] [(TNamed 1)] true)); (41, (TSignature [(TBasic (str "string")); (TSlice (TInterface 4))] [(TBasic (str "string"))] true)); (42, (TSignature [(TSlice (TInterface 4))] [(TBasic (str "int")); (TNamed 1)] true)); (43, (TSignature [(TBasic (str "string"))] [(TNamed 1)] false)); (44, (TSignature [(TBasic (str "string")); (TBasic (str "string"))] [(TBasic (str "bool"))] false)); (45, (TSignature [] [(TBasic (str "float32"))] false)); (46, (TSignature [] [(TBasic (str "float64"))] false)); (47, (TSignature [] [(TNamed 1)] false)); (48, (TSignature [] [(TNamed 1)] false)); (49, (TNamed 49)); (50, (TSignature [] [(TNamed 1)] false)); (51, (TNamed 51)); (52, (TSignature [] [(TBasic (str "string"))] false)); (53, (TSignature [] [(TBasic (str "string"))] false)); (54, (TSignature [] [(TMap (TBasic (str "string")) (TBasic (str "string")))] false)); (55, (TSignature [] [(TNamed 1)] false)); (56, (TSignature [] [(TBasic (str "string"))] false)); (57, (TNamed 57)); (58, (TSignature [] [(TBasic (str "string"))] false)); (59, (TSignature [] [(TBasic (str "string"))] false)); (60, (TPointer (TNamed 51))); (61, (TPointer (TNamed 51))); (62, (TPointer (TNamed 51))); (63, (TPointer (TNamed 51))); (64, (TPointer (TNamed 51))); (65, (TPointer (TNamed 57))); (66, (TPointer (TNamed 57))); (67, (TBasic (str "string"))); (68, (TSignature [] [(TNamed 1)] false)); (69, (TSignature [] [(TNamed 1)] false)); (70, (TNamed 70)); (71, (TSignature [] [(TNamed 1)] false)); (72, (TNamed 72)); (73, (TSignature [] [(TBasic (str "string"))] false)); (74, (TSignature [] [(TBasic (str "string"))] false)); (75, (TSignature [] [(TMap (TBasic (str "string")) (TBasic (str "string")))] false)); (76, (TSignature [] [(TNamed 1)] false)); (77, (TSignature [] [(TBasic (str "string"))] false)); (78, (TNamed 78)); (79, (TSignature [] [(TBasic (str "string"))] false)); (80, (TSignature [] [(TBasic (str "string"))] false)); (81, (TPointer (TNamed 72))); (82, (TPointer (TNamed 72))); (83, (TPointer (TNamed 72))); (84, (TPointer (TNamed 72))); (85, (TPointer (TNamed 72))); (86, (TPointer (TNamed 78))); (87, (TPointer (TNamed 78))); (90, (TSignature [] [(TNamed 1)] false)); (91, (TSignature [] [(TNamed 1)] false)); (92, (TSignature [] [(TNamed 1)] false)); (93, (TSignature [] [(TNamed 1)] false)); (94, (TNamed 94)); (95, (TSignature [] [(TNamed 1)] false)); (96, (TSignature [] [(TNamed 94)] false)); (97, (TSignature [] [(TNamed 1)] false)); (98, (TSignature [] [(TNamed 1)] false)); (99, (TSignature [] [(TNamed 1)] false)); (100, (TSignature [] [(TNamed 1)] false)); (101, (TSignature [] [(TNamed 1)] false)); (102, (TSignature [] [(TNamed 1)] false)); (103, (TSignature [] [(TNamed 1)] false)); (104, (TSignature [] [(TNamed 1)] false)); (105, (TNamed 105)); (106, (TSignature [] [(TBasic (str "string"))] false)); (107, (TSignature [] [(TBasic (str "string"))] false)); (108, (TSignature [] [(TMap (TBasic (str "string")) (TBasic (str "string")))] false)); (109, (TSignature [] [(TNamed 1)] false)); (110, (TSignature [] [(TBasic (str "string"))] false)); (111, (TPointer (TNamed 105))); (112, (TPointer (TNamed 105))); (113, (TPointer (TNamed 105))); (114, (TPointer (TNamed 105))); (115, (TPointer (TNamed 105))); (116, (TNamed 94)); (117, (TNamed 49)); (118, (TNamed 70))].
Definition t_multipackage_inner2_under : list (N * gotype) := [(1, (TInterface 1)); (49, (TStruct [])); (51, (TStruct [((str "TheCode"), (TBasic (str "string")))])); (57, (TStruct [((str "TheCode"), (TBasic (str "string")))])); (70, (TStruct [])); (72, (TStruct [((str "TheCode"), (TBasic (str "string")))])); (78, (TStruct [((str "TheCode"), (TBasic (str "string")))])); (94, (TStruct [])); (105, (TStruct [((str "TheCode"), (TBasic (str "string")))]))].
Definition t_multipackage_inner2_named_methods : list (N * (list gostring)) := [(49, [(str "CodeNotDeclared")]); (51, [(str "Code"); (str "Message"); (str "Details"); (str "Cause"); (str "Error")]); (57, [(str "Code"); (str "Error")]); (70, [(str "CodeNotDeclared")]); (72, [(str "Code"); (str "Message"); (str "Details"); (str "Cause"); (str "Error")]); (78, [(str "Code"); (str "Error")]); (94, [(str "returnError")]); (105, [(str "Code"); (str "Message"); (str "Details"); (str "Cause"); (str "Error")])].
Definition t_multipackage_inner2_methods : list (gotype * gostring * tobj) := [((TInterface 1), (str "Error"), 2); ((TNamed 1), (str "Error"), 2); ((TNamed 49), (str "CodeNotDeclared"), 50); ((TNamed 70), (str "CodeNotDeclared"), 71); ((TNamed 94), (str "returnError"), 95); ((TPointer (TNamed 105)), (str "Cause"), 109); ((TPointer (TNamed 105)), (str "Code"), 106); ((TPointer (TNamed 105)), (str "Details"), 108); ((TPointer (TNamed 105)), (str "Error"), 110); ((TPointer (TNamed 105)), (str "Message"), 107); ((TPointer (TNamed 49)), (str "CodeNotDeclared"), 50); ((TPointer (TNamed 51)), (str "Cause"), 55); ((TPointer (TNamed 51)), (str "Code"), 52); ((TPointer (TNamed 51)), (str "Details"), 54); ((TPointer (TNamed 51)), (str "Error"), 56); ((TPointer (TNamed 51)), (str "Message"), 53); ((TPointer (TNamed 57)), (str "Code"), 58); ((TPointer (TNamed 57)), (str "Error"), 59); ((TPointer (TNamed 70)), (str "CodeNotDeclared"), 71); ((TPointer (TNamed 72)), (str "Cause"), 76); ((TPointer (TNamed 72)), (str "Code"), 73); ((TPointer (TNamed 72)), (str "Details"), 75); ((TPointer (TNamed 72)), (str "Error"), 77); ((TPointer (TNamed 72)), (str "Message"), 74); ((TPointer (TNamed 78)), (str "Code"), 79); ((TPointer (TNamed 78)), (str "Error"), 80); ((TPointer (TNamed 94)), (str "returnError"), 95)].
Definition t_multipackage_inner2_ierr : list gotype := [(TInterface 1); (TNamed 1); (TPointer (TNamed 105)); (TPointer (TNamed 51)); (TPointer (TNamed 57)); (TPointer (TNamed 72)); (TPointer (TNamed 78))].
Definition t_multipackage_inner2_iree : list gotype := [(TPointer (TNamed 105)); (TPointer (TNamed 51)); (TPointer (TNamed 57)); (TPointer (TNamed 72)); (TPointer (TNamed 78))].
Definition t_multipackage_inner2_icause : list gotype := [(TPointer (TNamed 105)); (TPointer (TNamed 51)); (TPointer (TNamed 72))].
Definition t_multipackage_inner2_impl : list (gotype * gotype) := [((TInterface 1), (TInterface 1)); ((TNamed 1), (TInterface 1)); ((TPointer (TNamed 105)), (TInterface 1)); ((TPointer (TNamed 51)), (TInterface 1)); ((TPointer (TNamed 57)), (TInterface 1)); ((TPointer (TNamed 72)), (TInterface 1)); ((TPointer (TNamed 78)), (TInterface 1))].
Definition t_multipackage_inner2_nodes0 : list snode := [SNode 1 (Place 0 1) (Place 850 37) true; SNode 2 (Place 8 1) (Place 14 1) false; SNode 3 (Place 112 8) (Place 172 10) true; SNode 4 (Place 117 8) (Place 130 8) false; SNode 5 (Place 112 8) (Place 138 8) false; SNode 6 (Place 130 8) (Place 132 8) false; SNode 7 (Place 133 8) (Place 138 8) false; SNode 8 (Place 133 8) (Place 138 8) true; SNode 9 (Place 133 8) (Place 138 8) false; SNode 10 (Place 139 8) (Place 172 10) true; SNode 11 (Place 142 9) (Place 170 9) true; SNode 12 (Place 149 9) (Place 170 9) false; SNode 13 (Place 150 9) (Place 170 9) false; SNode 14 (Place 150 9) (Place 155 9) false; SNode 15 (Place 156 9) (Place 169 9) false; SNode 16 (Place 174 12) (Place 235 14) true; SNode 17 (Place 179 12) (Place 194 12) false; SNode 18 (Place 174 12) (Place 202 12) false; SNode 19 (Place 194 12) (Place 196 12) false; SNode 20 (Place 197 12) (Place 202 12) false; SNode 21 (Place 197 12) (Place 202 12) true; SNode 22 (Place 197 12) (Place 202 12) false; SNode 23 (Place 203 12) (Place 235 14) true; SNode 24 (Place 206 13) (Place 233 13) true; SNode 25 (Place 213 13) (Place 233 13) false; SNode 26 (Place 214 13) (Place 233 13) false; SNode 27 (Place 214 13) (Place 219 13) false; SNode 28 (Place 220 13) (Place 232 13) false; SNode 29 (Place 237 16) (Place 259 16) true; SNode 30 (Place 242 16) (Place 259 16) true; SNode 31 (Place 242 16) (Place 250 16) false; SNode 32 (Place 251 16) (Place 259 16) false; SNode 33 (Place 257 16) (Place 259 16) false; SNode 34 (Place 261 18) (Place 333 20) true; SNode 35 (Place 266 18) (Place 276 18) false; SNode 36 (Place 267 18) (Place 275 18) true; SNode 37 (Place 267 18) (Place 275 18) false; SNode 38 (Place 277 18) (Place 292 18) false; SNode 39 (Place 261 18) (Place 300 18) false; SNode 40 (Place 292 18) (Place 294 18) false; SNode 41 (Place 295 18) (Place 300 18) false; SNode 42 (Place 295 18) (Place 300 18) true; SNode 43 (Place 295 18) (Place 300 18) false; SNode 44 (Place 301 18) (Place 333 20) true; SNode 45 (Place 304 19) (Place 331 19) true; SNode 46 (Place 311 19) (Place 331 19) false; SNode 47 (Place 312 19) (Place 331 19) false; SNode 48 (Place 312 19) (Place 317 19) false; SNode 49 (Place 318 19) (Place 330 19) false; SNode 50 (Place 335 22) (Place 372 24) true; SNode 51 (Place 340 22) (Place 372 24) true; SNode 52 (Place 340 22) (Place 345 22) false; SNode 53 (Place 346 22) (Place 372 24) false; SNode 54 (Place 353 22) (Place 372 24) false; SNode 55 (Place 356 23) (Place 370 23) true; SNode 56 (Place 356 23) (Place 363 23) false; SNode 57 (Place 364 23) (Place 370 23) false; SNode 58 (Place 374 26) (Place 438 26) true; SNode 59 (Place 379 26) (Place 389 26) false; SNode 60 (Place 380 26) (Place 388 26) true; SNode 61 (Place 380 26) (Place 381 26) false; SNode 62 (Place 382 26) (Place 388 26) false; SNode 63 (Place 383 26) (Place 388 26) false; SNode 64 (Place 390 26) (Place 394 26) false; SNode 65 (Place 374 26) (Place 403 26) false; SNode 66 (Place 394 26) (Place 396 26) false; SNode 67 (Place 397 26) (Place 403 26) false; SNode 68 (Place 397 26) (Place 403 26) true; SNode 69 (Place 397 26) (Place 403 26) false; SNode 70 (Place 418 26) (Place 438 26) true; SNode 71 (Place 420 26) (Place 436 26) true; SNode 72 (Place 427 26) (Place 436 26) false; SNode 73 (Place 427 26) (Place 428 26) false; SNode 74 (Place 429 26) (Place 436 26) false; SNode 75 (Place 439 27) (Place 503 27) true; SNode 76 (Place 444 27) (Place 454 27) false; SNode 77 (Place 445 27) (Place 453 27) true; SNode 78 (Place 445 27) (Place 446 27) false; SNode 79 (Place 447 27) (Place 453 27) false; SNode 80 (Place 448 27) (Place 453 27) false; SNode 81 (Place 455 27) (Place 462 27) false; SNode 82 (Place 439 27) (Place 471 27) false; SNode 83 (Place 462 27) (Place 464 27) false; SNode 84 (Place 465 27) (Place 471 27) false; SNode 85 (Place 465 27) (Place 471 27) true; SNode 86 (Place 465 27) (Place 471 27) false; SNode 87 (Place 483 27) (Place 503 27) true; SNode 88 (Place 485 27) (Place 501 27) true; SNode 89 (Place 492 27) (Place 501 27) false; SNode 90 (Place 492 27) (Place 493 27) false; SNode 91 (Place 494 27) (Place 501 27) false; SNode 92 (Place 504 28) (Place 562 28) true; SNode 93 (Place 509 28) (Place 519 28) false; SNode 94 (Place 510 28) (Place 518 28) true; SNode 95 (Place 510 28) (Place 511 28) false; SNode 96 (Place 512 28) (Place 518 28) false; SNode 97 (Place 513 28) (Place 518 28) false; SNode 98 (Place 520 28) (Place 527 28) false; SNode 99 (Place 504 28) (Place 547 28) false; SNode 100 (Place 527 28) (Place 529 28) false; SNode 101 (Place 530 28) (Place 547 28) false; SNode 102 (Place 530 28) (Place 547 28) true; SNode 103 (Place 530 28) (Place 547 28) false; SNode 104 (Place 534 28) (Place 540 28) false; SNode 105 (Place 541 28) (Place 547 28) false; SNode 106 (Place 548 28) (Place 562 28) true; SNode 107 (Place 550 28) (Place 560 28) true; SNode 108 (Place 557 28) (Place 560 28) false; SNode 109 (Place 563 29) (Place 621 29) true; SNode 110 (Place 568 29) (Place 578 29) false; SNode 111 (Place 569 29) (Place 577 29) true; SNode 112 (Place 569 29) (Place 570 29) false; SNode 113 (Place 571 29) (Place 577 29) false; SNode 114 (Place 572 29) (Place 577 29) false; SNode 115 (Place 579 29) (Place 584 29) false; SNode 116 (Place 563 29) (Place 592 29) false; SNode 117 (Place 584 29) (Place 586 29) false; SNode 118 (Place 587 29) (Place 592 29) false; SNode 119 (Place 587 29) (Place 592 29) true; SNode 120 (Place 587 29) (Place 592 29) false; SNode 121 (Place 607 29) (Place 621 29) true; SNode 122 (Place 609 29) (Place 619 29) true; SNode 123 (Place 616 29) (Place 619 29) false; SNode 124 (Place 622 30) (Place 688 30) true; SNode 125 (Place 627 30) (Place 637 30) false; SNode 126 (Place 628 30) (Place 636 30) true; SNode 127 (Place 628 30) (Place 629 30) false; SNode 128 (Place 630 30) (Place 636 30) false; SNode 129 (Place 631 30) (Place 636 30) false; SNode 130 (Place 638 30) (Place 643 30) false; SNode 131 (Place 622 30) (Place 652 30) false; SNode 132 (Place 643 30) (Place 645 30) false; SNode 133 (Place 646 30) (Place 652 30) false; SNode 134 (Place 646 30) (Place 652 30) true; SNode 135 (Place 646 30) (Place 652 30) false; SNode 136 (Place 666 30) (Place 688 30) true; SNode 137 (Place 668 30) (Place 686 30) true; SNode 138 (Place 675 30) (Place 686 30) false; SNode 139 (Place 675 30) (Place 684 30) false; SNode 140 (Place 675 30) (Place 676 30) false; SNode 141 (Place 677 30) (Place 684 30) false; SNode 142 (Place 690 32) (Place 733 34) true; SNode 143 (Place 695 32) (Place 733 34) true; SNode 144 (Place 695 32) (Place 706 32) false; SNode 145 (Place 707 32) (Place 733 34) false; SNode 146 (Place 714 32) (Place 733 34) false; SNode 147 (Place 717 33) (Place 731 33) true; SNode 148 (Place 717 33) (Place 724 33) false; SNode 149 (Place 725 33) (Place 731 33) false; SNode 150 (Place 735 36) (Place 792 36) true; SNode 151 (Place 740 36) (Place 756 36) false; SNode 152 (Place 741 36) (Place 755 36) true; SNode 153 (Place 741 36) (Place 742 36) false; SNode 154 (Place 743 36) (Place 755 36) false; SNode 155 (Place 744 36) (Place 755 36) false; SNode 156 (Place 757 36) (Place 761 36) false; SNode 157 (Place 735 36) (Place 770 36) false; SNode 158 (Place 761 36) (Place 763 36) false; SNode 159 (Place 764 36) (Place 770 36) false; SNode 160 (Place 764 36) (Place 770 36) true; SNode 161 (Place 764 36) (Place 770 36) false; SNode 162 (Place 772 36) (Place 792 36) true; SNode 163 (Place 774 36) (Place 790 36) true; SNode 164 (Place 781 36) (Place 790 36) false; SNode 165 (Place 781 36) (Place 782 36) false; SNode 166 (Place 783 36) (Place 790 36) false; SNode 167 (Place 793 37) (Place 850 37) true; SNode 168 (Place 798 37) (Place 814 37) false; SNode 169 (Place 799 37) (Place 813 37) true; SNode 170 (Place 799 37) (Place 800 37) false; SNode 171 (Place 801 37) (Place 813 37) false; SNode 172 (Place 802 37) (Place 813 37) false; SNode 173 (Place 815 37) (Place 820 37) false; SNode 174 (Place 793 37) (Place 829 37) false; SNode 175 (Place 820 37) (Place 822 37) false; SNode 176 (Place 823 37) (Place 829 37) false; SNode 177 (Place 823 37) (Place 829 37) true; SNode 178 (Place 823 37) (Place 829 37) false; SNode 179 (Place 830 37) (Place 850 37) true; SNode 180 (Place 832 37) (Place 848 37) true; SNode 181 (Place 839 37) (Place 848 37) false; SNode 182 (Place 839 37) (Place 840 37) false; SNode 183 (Place 841 37) (Place 848 37) false].
Definition t_multipackage_inner2_cgroups0 : list cgroup := [CGroup (Place 16 3) (Place 111 7) [(str "// ExportedFunc2 is a demo function."); (str "//"); (str "// Errors:"); (str "//"); (str "//    - hello-error -- is always returned")]].
Definition t_multipackage_inner2_files : list source_file := [SourceFile t_multipackage_inner2_nodes0 t_multipackage_inner2_cgroups0].
Definition t_multipackage_inner2_info : typeinfo := map_info (list_to_map t_multipackage_inner2_types) (list_to_map t_multipackage_inner2_values) (list_to_map t_multipackage_inner2_uses) (list_to_map t_multipackage_inner2_defs) (list_to_map t_multipackage_inner2_sels) (list_to_set [1; 4; 5; 6; 7; 8; 9; 10; 11; 12; 13; 14; 15; 16; 17; 18; 19; 20; 49; 51; 57; 70; 72; 78; 94; 105]) (list_to_map t_multipackage_inner2_pkgnames) (list_to_map t_multipackage_inner2_objnames) (list_to_map t_multipackage_inner2_objtypes) (list_to_map t_multipackage_inner2_under) t_multipackage_inner2_methods t_multipackage_inner2_ierr t_multipackage_inner2_iree t_multipackage_inner2_icause t_multipackage_inner2_impl (list_to_map t_multipackage_inner2_named_methods).
Definition t_multipackage_inner2 : package := Package (list_to_map [(1, t_multipackage_inner2_f1); (2, t_multipackage_inner2_f2); (3, t_multipackage_inner2_f3); (4, t_multipackage_inner2_f4); (5, t_multipackage_inner2_f5); (6, t_multipackage_inner2_f6); (7, t_multipackage_inner2_f7); (8, t_multipackage_inner2_f8); (9, t_multipackage_inner2_f9); (10, t_multipackage_inner2_f10)]) [1; 2; 3; 4; 5; 6; 7; 8; 9; 10] t_multipackage_inner2_gendecls t_multipackage_inner2_top (list_to_map t_multipackage_inner2_objs) (fun id => default [] (createCommentMap t_multipackage_inner2_files id)) t_multipackage_inner2_info.
Definition t_multipackage_inner2_rank : gostring -> nat := fun n => default 0%nat ((list_to_map [] : gmap gostring nat) !! n).
Definition t_multipackage_f1 : func := Func 8 (Some (DeclInfo (Ident 9 (str "RunPackage1") (Some 1)) None (Some (comment_text [(str "// RunPackage1 is a demo function."); (str "//"); (str "// Errors:"); (str "//"); (str "//    - hello-error -- is always returned")])))) (FuncType 10 [] (Some [(Field 13 [] 14)]) 194) (Some (Node 15 (KOther (str "*ast.BlockStmt")) [(Node 16 KReturn [(Node 17 KCall [(Node 18 KSelector [(Node 19 (KIdent (str "inner1") None) []); (Node 20 (KIdent (str "ExportedFunc1") None) [])])])])])) 200 280.
Definition t_multipackage_f2 : func := Func 21 (Some (DeclInfo (Ident 22 (str "RunPackage2") (Some 2)) None (Some (comment_text [(str "// RunPackage2 is a demo function"); (str "//"); (str "// Errors:"); (str "//"); (str "//    - hello-error -- is always returned")])))) (FuncType 23 [] (Some [(Field 26 [] 27)]) 394) (Some (Node 28 (KOther (str "*ast.BlockStmt")) [(Node 29 KReturn [(Node 30 KCall [(Node 31 KSelector [(Node 32 (KIdent (str "inner2") None) []); (Node 33 (KIdent (str "ExportedFunc2") None) [])])])])])) 400 480.
Definition t_multipackage_f3 : func := Func 34 (Some (DeclInfo (Ident 35 (str "Trap1") (Some 3)) None (Some (comment_text [(str "// Trap1 is a demo function."); (str "//"); (str "// Errors:"); (str "//"); (str "//    - hello-error -- is always returned")])))) (FuncType 36 [] (Some [(Field 39 [] 40)]) 583) (Some (Node 41 (KOther (str "*ast.BlockStmt")) [(Node 42 (KAssign 1%nat) [(Node 43 (KIdent (str "trap") (Some 4)) []); (Node 44 KCall [(Node 45 (KIdent (str "returnTrap") (Some 5)) [])])]); (Node 46 KReturn [(Node 47 KCall [(Node 48 KSelector [(Node 49 (KIdent (str "trap") (Some 4)) []); (Node 50 (KIdent (str "returnError") None) [])])])])])) 589 681.
Definition t_multipackage_f4 : func := Func 51 (Some (DeclInfo (Ident 52 (str "Trap2") (Some 6)) None (Some (comment_text [(str "// Trap2 is a demo function."); (str "//"); (str "// Errors:"); (str "//"); (str "//    - hello-error -- is always returned")])))) (FuncType 53 [] (Some [(Field 56 [] 57)]) 784) (Some (Node 58 (KOther (str "*ast.BlockStmt")) [(Node 59 KReturn [(Node 60 KCall [(Node 61 KSelector [(Node 62 KCall [(Node 63 (KIdent (str "returnTrap") (Some 5)) [])]); (Node 64 (KIdent (str "returnError") None) [])])])])])) 790 868.
Definition t_multipackage_f5 : func := Func 70 (Some (DeclInfo (Ident 74 (str "returnError") None) (Some [(Field 72 [] 73)]) None)) (FuncType 75 [] (Some [(Field 78 [] 79)]) 924) (Some (Node 80 (KOther (str "*ast.BlockStmt")) [(Node 81 KReturn [(Node 82 (KUnary true) [(Node 83 KComposite [(Node 85 KBasicLit [])])])])])) 930 963.
Definition t_multipackage_f6 : func := Func 86 (Some (DeclInfo (Ident 87 (str "returnTrap") (Some 5)) None None)) (FuncType 88 [] (Some [(Field 91 [] 92)]) 983) (Some (Node 93 (KOther (str "*ast.BlockStmt")) [(Node 94 KReturn [(Node 95 KComposite [])])])) 992 1014.
Definition t_multipackage_f7 : func := Func 97 (Some (DeclInfo (Ident 98 (str "Inner1Error") (Some 7)) None (Some (comment_text [(str "// Inner1Error returns an error from another package."); (str "//"); (str "// Errors:"); (str "//"); (str "//    - inner1-error -- is always returned")])))) (FuncType 99 [] (Some [(Field 102 [] 103)]) 1149) (Some (Node 104 (KOther (str "*ast.BlockStmt")) [(Node 105 KReturn [(Node 106 (KUnary true) [(Node 107 KComposite [(Node 111 KBasicLit [])])])])])) 1155 1243.
Definition t_multipackage_f8 : func := Func 112 (Some (DeclInfo (Ident 113 (str "Inner2Error") (Some 8)) None (Some (comment_text [(str "// Inner2Error returns an error from another package."); (str "//"); (str "// Errors:"); (str "//"); (str "//    - inner2-error -- is always returned")])))) (FuncType 114 [] (Some [(Field 117 [] 118)]) 1378) (Some (Node 119 (KOther (str "*ast.BlockStmt")) [(Node 120 KReturn [(Node 121 (KUnary true) [(Node 122 KComposite [(Node 126 KBasicLit [])])])])])) 1384 1472.
Definition t_multipackage_f9 : func := Func 127 (Some (DeclInfo (Ident 128 (str "Inner1UnusedError") (Some 9)) None (Some (comment_text [(str "// Inner1UnusedError returns an error from another package,"); (str "// which is not returned by any function in the inner package."); (str "//"); (str "// Errors:"); (str "//"); (str "//    - inner1-unused-error -- is always returned")])))) (FuncType 129 [] (Some [(Field 132 [] 133)]) 1689) (Some (Node 134 (KOther (str "*ast.BlockStmt")) [(Node 135 KReturn [(Node 136 (KUnary true) [(Node 137 KComposite [(Node 141 KBasicLit [])])])])])) 1695 1809.
Definition t_multipackage_f10 : func := Func 142 (Some (DeclInfo (Ident 143 (str "Inner2UnusedError") (Some 10)) None (Some (comment_text [(str "// Inner2UnusedError returns an error from another package,"); (str "// which is not returned by any function in the inner package."); (str "//"); (str "// Errors:"); (str "//"); (str "//    - inner2-unused-error -- is always returned")])))) (FuncType 144 [] (Some [(Field 147 [] 148)]) 2026) (Some (Node 149 (KOther (str "*ast.BlockStmt")) [(Node 150 KReturn [(Node 151 (KUnary true) [(Node 152 KComposite [(Node 156 KBasicLit [])])])])])) 2032 2146.
Definition t_multipackage_f11 : func := Func 157 (Some (DeclInfo (Ident 158 (str "CallToUndeclared1") (Some 11)) None (Some (comment_text [(str "// Errors:"); (str "//"); (str "//    - x-error --")])))) (FuncType 159 [] (Some [(Field 162 [] 163)]) 2206) (Some (Node 164 (KOther (str "*ast.BlockStmt")) [(Node 165 (KOther (str "*ast.IfStmt")) [(Node 166 (KIdent (str "true") None) []); (Node 167 (KOther (str "*ast.BlockStmt")) [(Node 168 KReturn [(Node 169 KCall [(Node 170 KSelector [(Node 171 (KIdent (str "inner1") None) []); (Node 172 (KIdent (str "CodeNotDeclared") None) [])])])])])]); (Node 173 KReturn [(Node 174 (KUnary true) [(Node 175 KComposite [(Node 177 KBasicLit [])])])])])) 2212 2423.
Definition t_multipackage_f12 : func := Func 178 (Some (DeclInfo (Ident 179 (str "CallToUndeclared2") (Some 12)) None (Some (comment_text [(str "// Errors:"); (str "//"); (str "//    - x-error --")])))) (FuncType 180 [] (Some [(Field 183 [] 184)]) 2483) (Some (Node 185 (KOther (str "*ast.BlockStmt")) [(Node 186 (KOther (str "*ast.IfStmt")) [(Node 187 (KIdent (str "true") None) []); (Node 188 (KOther (str "*ast.BlockStmt")) [(Node 189 KReturn [(Node 190 KCall [(Node 191 KSelector [(Node 192 (KIdent (str "inner2") None) []); (Node 193 (KIdent (str "CodeNotDeclared") None) [])])])])])]); (Node 194 KReturn [(Node 195 (KUnary true) [(Node 196 KComposite [(Node 198 KBasicLit [])])])])])) 2489 2700.
Definition t_multipackage_f13 : func := Func 199 (Some (DeclInfo (Ident 200 (str "CallToUndeclared3") (Some 13)) None (Some (comment_text [(str "// Errors:"); (str "//"); (str "//    - x-error --")])))) (FuncType 201 [] (Some [(Field 204 [] 205)]) 2760) (Some (Node 206 (KOther (str "*ast.BlockStmt")) [(Node 207 (KOther (str "*ast.IfStmt")) [(Node 208 (KIdent (str "true") None) []); (Node 209 (KOther (str "*ast.BlockStmt")) [(Node 210 (KAssign 1%nat) [(Node 211 (KIdent (str "object") (Some 14)) []); (Node 212 KComposite [])]); (Node 216 KReturn [(Node 217 KCall [(Node 218 KSelector [(Node 219 (KIdent (str "object") (Some 14)) []); (Node 220 (KIdent (str "CodeNotDeclared") None) [])])])])])]); (Node 221 KReturn [(Node 222 (KUnary true) [(Node 223 KComposite [(Node 225 KBasicLit [])])])])])) 2766 2976.
Definition t_multipackage_f14 : func := Func 226 (Some (DeclInfo (Ident 227 (str "CallToUndeclared4") (Some 15)) None (Some (comment_text [(str "// Errors:"); (str "//"); (str "//    - x-error --")])))) (FuncType 228 [] (Some [(Field 231 [] 232)]) 3036) (Some (Node 233 (KOther (str "*ast.BlockStmt")) [(Node 234 (KOther (str "*ast.IfStmt")) [(Node 235 (KIdent (str "true") None) []); (Node 236 (KOther (str "*ast.BlockStmt")) [(Node 237 (KAssign 1%nat) [(Node 238 (KIdent (str "object") (Some 16)) []); (Node 239 KComposite [])]); (Node 243 KReturn [(Node 244 KCall [(Node 245 KSelector [(Node 246 (KIdent (str "object") (Some 16)) []); (Node 247 (KIdent (str "CodeNotDeclared") None) [])])])])])]); (Node 248 KReturn [(Node 249 (KUnary true) [(Node 250 KComposite [(Node 252 KBasicLit [])])])])])) 3042 3252.
Definition t_multipackage_f15 : func := Func 261 (Some (DeclInfo (Ident 267 (str "Code") None) (Some [(Field 263 [(Ident 264 (str "e") (Some 17))] 265)]) None)) (FuncType 268 [] (Some [(Field 271 [] 272)]) 3386) (Some (Node 273 (KOther (str "*ast.BlockStmt")) [(Node 274 KReturn [(Node 275 KSelector [(Node 276 (KIdent (str "e") (Some 17)) []); (Node 277 (KIdent (str "TheCode") None) [])])])])) 3407 3427.
Definition t_multipackage_f16 : func := Func 278 (Some (DeclInfo (Ident 284 (str "Message") None) (Some [(Field 280 [(Ident 281 (str "e") (Some 18))] 282)]) None)) (FuncType 285 [] (Some [(Field 288 [] 289)]) 3454) (Some (Node 290 (KOther (str "*ast.BlockStmt")) [(Node 291 KReturn [(Node 292 KSelector [(Node 293 (KIdent (str "e") (Some 18)) []); (Node 294 (KIdent (str "TheCode") None) [])])])])) 3472 3492.
Definition t_multipackage_f17 : func := Func 295 (Some (DeclInfo (Ident 301 (str "Details") None) (Some [(Field 297 [(Ident 298 (str "e") (Some 19))] 299)]) None)) (FuncType 302 [] (Some [(Field 305 [] 306)]) 3519) (Some (Node 309 (KOther (str "*ast.BlockStmt")) [(Node 310 KReturn [(Node 311 (KIdent (str "nil") None) [])])])) 3537 3551.
Definition t_multipackage_f18 : func := Func 312 (Some (DeclInfo (Ident 318 (str "Cause") None) (Some [(Field 314 [(Ident 315 (str "e") (Some 20))] 316)]) None)) (FuncType 319 [] (Some [(Field 322 [] 323)]) 3576) (Some (Node 324 (KOther (str "*ast.BlockStmt")) [(Node 325 KReturn [(Node 326 (KIdent (str "nil") None) [])])])) 3596 3610.
Definition t_multipackage_f19 : func := Func 327 (Some (DeclInfo (Ident 333 (str "Error") None) (Some [(Field 329 [(Ident 330 (str "e") (Some 21))] 331)]) None)) (FuncType 334 [] (Some [(Field 337 [] 338)]) 3635) (Some (Node 339 (KOther (str "*ast.BlockStmt")) [(Node 340 KReturn [(Node 341 KCall [(Node 342 KSelector [(Node 343 (KIdent (str "e") (Some 21)) []); (Node 344 (KIdent (str "Message") None) [])])])])])) 3655 3677.
Definition t_multipackage_gendecls : list gendecl := [GenDecl 3 [None; None]; GenDecl 65 [(Some (TypeSpec (Ident 67 (str "TrapType") (Some 22)) (XStruct [])))]; GenDecl 253 [(Some (TypeSpec (Ident 255 (str "Error") (Some 23)) (XStruct [[(Ident 259 (str "TheCode") None)]])))]].
Definition t_multipackage_top : list topdecl := [TopNode (Node 3 (KOther (str "*ast.GenDecl")) [(Node 4 (KOther (str "*ast.ImportSpec")) []); (Node 6 (KOther (str "*ast.ImportSpec")) [])]); TopFunc 1; TopFunc 2; TopFunc 3; TopFunc 4; TopNode (Node 65 (KOther (str "*ast.GenDecl")) [(Node 66 (KOther (str "*ast.TypeSpec")) [])]); TopFunc 5; TopFunc 6; TopFunc 7; TopFunc 8; TopFunc 9; TopFunc 10; TopFunc 11; TopFunc 12; TopFunc 13; TopFunc 14; TopNode (Node 253 (KOther (str "*ast.GenDecl")) [(Node 254 (KOther (str "*ast.TypeSpec")) [])]); TopFunc 15; TopFunc 16; TopFunc 17; TopFunc 18; TopFunc 19].
Definition t_multipackage_objs : list (N * object) := [(1, Object false 180 (DFunc 1)); (2, Object false 380 (DFunc 2)); (3, Object false 575 (DFunc 3)); (4, Object true 632 DOther); (5, Object false 970 (DFunc 6)); (6, Object false 776 (DFunc 4)); (7, Object false 1135 (DFunc 7)); (8, Object false 1364 (DFunc 8)); (9, Object false 1669 (DFunc 9)); (10, Object false 2006 (DFunc 10)); (11, Object false 2186 (DFunc 11)); (12, Object false 2463 (DFunc 12)); (13, Object false 2740 (DFunc 13)); (14, Object true 2829 DOther); (15, Object false 3016 (DFunc 14)); (16, Object true 3105 DOther); (17, Object true 3369 DOther); (18, Object true 3434 DOther); (19, Object true 3499 DOther); (20, Object true 3558 DOther); (21, Object true 3617 DOther); (22, Object false 875 DType); (23, Object false 3259 DType)].
Definition t_multipackage_types : list (N * gotype) := [(10, (TSignature [] [(TNamed 1)] false)); (14, (TNamed 1)); (17, (TNamed 1)); (18, (TSignature [] [(TNamed 1)] false)); (20, (TSignature [] [(TNamed 1)] false)); (23, (TSignature [] [(TNamed 1)] false)); (27, (TNamed 1)); (30, (TNamed 1)); (31, (TSignature [] [(TNamed 1)] false)); (33, (TSignature [] [(TNamed 1)] false)); (36, (TSignature [] [(TNamed 1)] false)); (40, (TNamed 1)); (43, (TNamed 94)); (44, (TNamed 94)); (45, (TSignature [] [(TNamed 94)] false)); (47, (TNamed 1)); (48, (TSignature [] [(TNamed 1)] false)); (49, (TNamed 94)); (50, (TSignature [] [(TNamed 1)] false)); (53, (TSignature [] [(TNamed 1)] false)); (57, (TNamed 1)); (60, (TNamed 1)); (61, (TSignature [] [(TNamed 1)] false)); (62, (TNamed 94)); (63, (TSignature [] [(TNamed 94)] false)); (64, (TSignature [] [(TNamed 1)] false)); (67, (TNamed 94)); (68, (TStruct [])); (73, (TNamed 94)); (75, (TSignature [] [(TNamed 1)] false)); (79, (TNamed 1)); (82, (TPointer (TNamed 105))); (83, (TNamed 105)); (84, (TNamed 105)); (85, (TBasic (str "string"))); (88, (TSignature [] [(TNamed 94)] false)); (92, (TNamed 94)); (95, (TNamed 94)); (96, (TNamed 94)); (99, (TSignature [] [(TNamed 1)] false)); (103, (TNamed 1)); (106, (TPointer (TNamed 51))); (107, (TNamed 51)); (108, (TNamed 51)); (110, (TNamed 51)); (111, (TBasic (str "string"))); (114, (TSignature [] [(TNamed 1)] false)); (118, (TNamed 1)); (121, (TPointer (TNamed 72))); (122, (TNamed 72)); (123, (TNamed 72)); (125, (TNamed 72)); (126, (TBasic (str "string"))); (129, (TSignature [] [(TNamed 1)] false)); (133, (TNamed 1)); (136, (TPointer (TNamed 57))); (137, (TNamed 57)); (138, (TNamed 57)); (140, (TNamed 57)); (141, (TBasic (str "string"))); (144, (TSignature [] [(TNamed 1)] false)); (148, (TNamed 1)); (151, (TPointer (TNamed 78))); (152, (TNamed 78)); (153, (TNamed 78)); (155, (TNamed 78)); (156, (TBasic (str "string"))); (159, (TSignature [] [(TNamed 1)] false)); (163, (TNamed 1)); (166, (TBasic (str "bool"))); (169, (TNamed 1)); (170, (TSignature [] [(TNamed 1)] false)); (172, (TSignature [] [(TNamed 1)] false)); (174, (TPointer (TNamed 105))); (175, (TNamed 105)); (176, (TNamed 105)); (177, (TBasic (str "string"))); (180, (TSignature [] [(TNamed 1)] false)); (184, (TNamed 1)); (187, (TBasic (str "bool"))); (190, (TNamed 1)); (191, (TSignature [] [(TNamed 1)] false)); (193, (TSignature [] [(TNamed 1)] false)); (195, (TPointer (TNamed 105))); (196, (TNamed 105)); (197, (TNamed 105)); (198, (TBasic (str "string"))); (201, (TSignature [] [(TNamed 1)] false)); (205, (TNamed 1)); (208, (TBasic (str "bool"))); (211, (TNamed 49)); (212, (TNamed 49)); (213, (TNamed 49)); (215, (TNamed 49)); (217, (TNamed 1)); (218, (TSignature [] [(TNamed 1)] false)); (219, (TNamed 49)); (220, (TSignature [] [(TNamed 1)] false)); (222, (TPointer (TNamed 105))); (223, (TNamed 105)); (224, (TNamed 105)); (225, (TBasic (str "string"))); (228, (TSignature [] [(TNamed 1)] false)); (232, (TNamed 1)); (235, (TBasic (str "bool"))); (238, (TNamed 70)); (239, (TNamed 70)); (240, (TNamed 70)); (242, (TNamed 70)); (244, (TNamed 1)); (245, (TSignature [] [(TNamed 1)] false)); (246, (TNamed 70)); (247, (TSignature [] [(TNamed 1)] false)); (249, (TPointer (TNamed 105))); (250, (TNamed 105)); (251, (TNamed 105)); (252, (TBasic (str "string"))); (255, (TNamed 105)); (256, (TStruct [((str "TheCode"), (TBasic (str "string")))])); (259, (TBasic (str "string"))); (260, (TBasic (str "string"))); (264, (TPointer (TNamed 105))); (265, (TPointer (TNamed 105))); (266, (TNamed 105)); (268, (TSignature [] [(TBasic (str "string"))] false)); (272, (TBasic (str "string"))); (275, (TBasic (str "string"))); (276, (TPointer (TNamed 105))); (277, (TBasic (str "string"))); (281, (TPointer (TNamed 105))); (282, (TPointer (TNamed 105))); (283, (TNamed 105)); (285, (TSignature [] [(TBasic (str "string"))] false)); (289, (TBasic (str "string"))); (292, (TBasic (str "string"))); (293, (TPointer (TNamed 105))); (294, (TBasic (str "string"))); (298, (TPointer (TNamed 105))); (299, (TPointer (TNamed 105))); (300, (TNamed 105)); (302, (TSignature [] [(TMap (TBasic (str "string")) (TBasic (str "string")))] false)); (306, (TMap (TBasic (str "string")) (TBasic (str "string")))); (307, (TBasic (str "string"))); (308, (TBasic (str "string"))); (311, TUntypedNil); (315, (TPointer (TNamed 105))); (316, (TPointer (TNamed 105))); (317, (TNamed 105)); (319, (TSignature [] [(TNamed 1)] false)); (323, (TNamed 1)); (326, TUntypedNil); (330, (TPointer (TNamed 105))); (331, (TPointer (TNamed 105))); (332, (TNamed 105)); (334, (TSignature [] [(TBasic (str "string"))] false)); (338, (TBasic (str "string"))); (341, (TBasic (str "string"))); (342, (TSignature [] [(TBasic (str "string"))] false)); (343, (TPointer (TNamed 105))); (344, (TSignature [] [(TBasic (str "string"))] false))].
Definition t_multipackage_values : list (N * constval) := [(85, CString (str "hello-error")); (111, CString (str "inner1-error")); (126, CString (str "inner2-error")); (141, CString (str "inner1-unused-error")); (156, CString (str "inner2-unused-error")); (166, COther); (177, CString (str "x-error")); (187, COther); (198, CString (str "x-error")); (208, COther); (225, CString (str "x-error")); (235, COther); (252, CString (str "x-error"))].
Definition t_multipackage_uses : list (N * tobj) := [(14, 1); (19, 88); (20, 47); (27, 1); (32, 89); (33, 68); (40, 1); (45, 96); (49, 116); (50, 95); (57, 1); (63, 96); (64, 95); (73, 94); (79, 1); (84, 105); (92, 94); (96, 94); (103, 1); (109, 88); (110, 51); (118, 1); (124, 89); (125, 72); (133, 1); (139, 88); (140, 57); (148, 1); (154, 89); (155, 78); (163, 1); (166, 21); (171, 88); (172, 48); (176, 105); (184, 1); (187, 21); (192, 89); (193, 69); (197, 105); (205, 1); (208, 21); (214, 88); (215, 49); (219, 117); (220, 50); (224, 105); (232, 1); (235, 21); (241, 89); (242, 70); (246, 118); (247, 71); (251, 105); (260, 5); (266, 105); (272, 5); (276, 111); (277, 67); (283, 105); (289, 5); (293, 112); (294, 67); (300, 105); (307, 5); (308, 5); (311, 24); (317, 105); (323, 1); (326, 24); (332, 105); (338, 5); (343, 115); (344, 107)].
Definition t_multipackage_defs : list (N * tobj) := [(9, 90); (22, 91); (35, 92); (43, 116); (52, 93); (67, 94); (74, 95); (87, 96); (98, 97); (113, 98); (128, 99); (143, 100); (158, 101); (179, 102); (200, 103); (211, 117); (227, 104); (238, 118); (255, 105); (264, 111); (267, 106); (281, 112); (284, 107); (298, 113); (301, 108); (315, 114); (318, 109); (330, 115); (333, 110)].
Definition t_multipackage_sels : list (N * (tobj * gotype)) := [(48, (95, (TNamed 94))); (61, (95, (TNamed 94))); (218, (50, (TNamed 49))); (245, (71, (TNamed 70))); (275, (67, (TPointer (TNamed 105)))); (292, (67, (TPointer (TNamed 105)))); (342, (107, (TPointer (TNamed 105))))].
Definition t_multipackage_pkgnames : list (N * gostring) := [(19, (str "inner1")); (32, (str "inner2")); (109, (str "inner1")); (124, (str "inner2")); (139, (str "inner1")); (154, (str "inner2")); (171, (str "inner1")); (192, (str "inner2")); (214, (str "inner1")); (241, (str "inner2"))].
Definition t_multipackage_objnames : list (N * gostring) := [(1, (str "error")); (2, (str "Error")); (3, (str "?")); (4, (str "bool")); (5, (str "string")); (6, (str "int")); (7, (str "int8")); (8, (str "int16")); (9, (str "int32")); (10, (str "int64")); (11, (str "uint")); (12, (str "uint8")); (13, (str "uint16")); (14, (str "uint32")); (15, (str "uint64")); (16, (str "uintptr")); (17, (str "float32")); (18, (str "float64")); (19, (str "complex64")); (20, (str "complex128")); (21, (str "true")); (22, (str "false")); (23, (str "iota")); (24, (str "nil")); (25, (str "append")); (26, (str "cap")); (27, (str "close")); (28, (str "complex")); (29, (str "copy")); (30, (str "delete")); (31, (str "imag")); (32, (str "len")); (33, (str "make")); (34, (str "new")); (35, (str "panic")); (36, (str "print")); (37, (str "println")); (38, (str "real")); (39, (str "recover")); (40, (str "Errorf")); (41, (str "Sprintf")); (42, (str "Println")); (43, (str "New")); (44, (str "HasPrefix")); (45, (str "Float32")); (46, (str "Float64")); (47, (str "ExportedFunc1")); (48, (str "CodeNotDeclared")); (49, (str "SomeType")); (50, (str "CodeNotDeclared")); (51, (str "Error")); (52, (str "Code")); (53, (str "Message")); (54, (str "Details")); (55, (str "Cause")); (56, (str "Error")); (57, (str "UnusedError")); (58, (str "Code")); (59, (str "Error")); (60, (str "e")); (61, (str "e")); (62, (str "e")); (63, (str "e")); (64, (str "e")); (65, (str "e")); (66, (str "e")); (67, (str "TheCode")); (68, (str "ExportedFunc2")); (69, (str "CodeNotDeclared")); (70, (str "SomeType")); (71, (str "CodeNotDeclared")); (72, (str "Error")); (73, (str "Code")); (74, (str "Message")); (75, (str "Details")); (76, (str "Cause")); (77, (str "Error")); (78, (str "UnusedError")); (79, (str "Code")); (80, (str "Error")); (81, (str "e")); (82, (str "e")); (83, (str "e")); (84, (str "e")); (85, (str "e")); (86, (str "e")); (87, (str "e")); (88, (str "inner1")); (89, (str "inner2")); (90, (str "RunPackage1")); (91, (str "RunPackage2")); (92, (str "Trap1")); (93, (str "Trap2")); (94, (str "TrapType")); (95, (str "returnError")); (96, (str "returnTrap")); (97, (str "Inner1Error")); (98, (str "Inner2Error")); (99, (str "Inner1UnusedError")); (100, (str "Inner2UnusedError")); (101, (str "CallToUndeclared1")); (102, (str "CallToUndeclared2")); (103, (str "CallToUndeclared3")); (104, (str "CallToUndeclared4")); (105, (str "Error")); (106, (str "Code")); (107, (str "Message")); (108, (str "Details")); (109, (str "Cause")); (110, (str "Error")); (111, (str "e")); (112, (str "e")); (113, (str "e")); (114, (str "e")); (115, (str "e")); (116, (str "trap")); (117, (str "object")); (118, (str "object"))].
Definition t_multipackage_objtypes : list (N * gotype) := [(1, (TNamed 1)); (2, (TSignature [] [(TBasic (str "string"))] false)); (4, (TBasic (str "bool"))); (5, (TBasic (str "string"))); (6, (TBasic (str "int"))); (7, (TBasic (str "int8"))); (8, (TBasic (str "int16"))); (9, (TBasic (str "int32"))); (10, (TBasic (str "int64"))); (11, (TBasic (str "uint"))); (12, (TBasic (str "uint8"))); (13, (TBasic (str "uint16"))); (14, (TBasic (str "uint32"))); (15, (TBasic (str "uint64"))); (16, (TBasic (str "uintptr"))); (17, (TBasic (str "float32"))); (18, (TBasic (str "float64"))); (19, (TBasic (str "complex64"))); (20, (TBasic (str "complex128"))); (40, (TSignature [(TBasic (str "string")); (TSlice (TInterface 4))] [(TNamed 1)] true)); (41, (TSignature [(TBasic (str "string")); (TSlice (TInterface 4))] [(TBasic (str "string"))] true)); (42, (TSignature [(TSlice (TInterface 4))] [(TBasic (str "int")); (TNamed 1)] true)); (43, (TSignature [(TBasic (str "string"))] [(TNamed 1)] false)); (44, (TSignature [(TBasic (str "string")); (TBasic (str "string"))] [(TBasic (str "bool"))] false)); (45, (TSignature [] [(TBasic (str "float32"))] false)); (46, (TSignature [] [(TBasic (str "float64"))] false)); (47, (TSignature [] [(TNamed 1)] false)); (48, (TSignature [] [(TNamed 1)] false)); (49, (TNamed 49)); (50, (TSignature [] [(TNamed 1)] false)); (51, (TNamed 51)); (52, (TSignature [] [(TBasic (str "string"))] false)); (53, (TSignature [] [(TBasic (str "string"))] false)); (54, (TSignature [] [(TMap (TBasic (str "string")) (TBasic (str "string")))] false)); (55, (TSignature [] [(TNamed 1)] false)); (56, (TSignature [] [(TBasic (str "string"))] false)); (57, (TNamed 57)); (58, (TSignature [] [(TBasic (str "string"))] false)); (59, (TSignature [] [(TBasic (str "string"))] false)); (60, (TPointer (TNamed 51))); (61, (TPointer (TNamed 51))); (62, (TPointer (TNamed 51))); (63, (TPointer (TNamed 51))); (64, (TPointer (TNamed 51))); (65, (TPointer (TNamed 57))); (66, (TPointer (TNamed 57))); (67, (TBasic (str "string"))); (68, (TSignature [] [(TNamed 1)] false)); (69, (TSignature [] [(TNamed 1)] false)); (70, (TNamed 70)); (71, (TSignature [] [(TNamed 1)] false)); (72, (TNamed 72)); (73, (TSignature [] [(TBasic (str "string"))] false)); (74, (TSignature [] [(TBasic (str "string"))] false)); (75, (TSignature [] [(TMap (TBasic (str "string")) (TBasic (str "string")))] false)); (76, (TSignature [] [(TNamed 1)] false)); (77, (TSignature [] [(TBasic (str "string"))] false)); (78, (TNamed 78)); (79, (TSignature [] [(TBasic (str "string"))] false)); (80, (TSignature [] [(TBasic (str "string"))] false)); (81, (TPointer (TNamed 72))); (82, (TPointer (TNamed 72))); (83, (TPointer (TNamed 72))); (84, (TPointer (TNamed 72))); (85, (TPointer (TNamed 72))); (86, (TPointer (TNamed 78))); (87, (TPointer (TNamed 78))); (90, (TSignature [] [(TNamed 1)] false)); (91, (TSignature [] [(TNamed 1)] false)); (92, (TSignature [] [(TNamed 1)] false)); (93, (TSignature [] [(TNamed 1)] false)); (94, (TNamed 94)); (95, (TSignature [] [(TNamed 1)] false)); (96, (TSignature [] [(TNamed 94)] false)); (97, (TSignature [] [(TNamed 1)] false)); (98, (TSignature [] [(TNamed 1)] false)); (99, (TSignature [] [(TNamed 1)] false)); (100, (TSignature [] [(TNamed 1)] false)); (101, (TSignature [] [(TNamed 1)] false)); (102, (TSignature [] [(TNamed 1)] false)); (103, (TSignature [] [(TNamed 1)] false)); (104, (TSignature [] [(TNamed 1)] false)); (105, (TNamed 105)); (106, (TSignature [] [(TBasic (str "string"))] false)); (107, (TSignature [] [(TBasic (str "string"))] false)); (108, (TSignature [] [(TMap (TBasic (str "string")) (TBasic (str "string")))] false)); (109, (TSignature [] [(TNamed 1)] false)); (110, (TSignature [] [(TBasic (str "string"))] false)); (111, (TPointer (TNamed 105))); (112, (TPointer (TNamed 105))); (113, (TPointer (TNamed 105))); (114, (TPointer (TNamed 105))); (115, (TPointer (TNamed 105))); (116, (TNamed 94)); (117, (TNamed 49)); (118, (TNamed 70))].
Definition t_multipackage_under : list (N * gotype) := [(1, (TInterface 1)); (49, (TStruct [])); (51, (TStruct [((str "TheCode"), (TBasic (str "string")))])); (57, (TStruct [((str "TheCode"), (TBasic (str "string")))])); (70, (TStruct [])); (72, (TStruct [((str "TheCode"), (TBasic (str "string")))])); (78, (TStruct [((str "TheCode"), (TBasic (str "string")))])); (94, (TStruct [])); (105, (TStruct [((str "TheCode"), (TBasic (str "string")))]))].
Definition t_multipackage_named_methods : list (N * (list gostring)) := [(49, [(str "CodeNotDeclared")]); (51, [(str "Code"); (str "Message"); (str "Details"); (str "Cause"); (str "Error")]); (57, [(str "Code"); (str "Error")]); (70, [(str "CodeNotDeclared")]); (72, [(str "Code"); (str "Message"); (str "Details"); (str "Cause"); (str "Error")]); (78, [(str "Code"); (str "Error")]); (94, [(str "returnError")]); (105, [(str "Code"); (str "Message"); (str "Details"); (str "Cause"); (str "Error")])].
Definition t_multipackage_methods : list (gotype * gostring * tobj) := [((TInterface 1), (str "Error"), 2); ((TNamed 1), (str "Error"), 2); ((TNamed 49), (str "CodeNotDeclared"), 50); ((TNamed 70), (str "CodeNotDeclared"), 71); ((TNamed 94), (str "returnError"), 95); ((TPointer (TNamed 105)), (str "Cause"), 109); ((TPointer (TNamed 105)), (str "Code"), 106); ((TPointer (TNamed 105)), (str "Details"), 108); ((TPointer (TNamed 105)), (str "Error"), 110); ((TPointer (TNamed 105)), (str "Message"), 107); ((TPointer (TNamed 49)), (str "CodeNotDeclared"), 50); ((TPointer (TNamed 51)), (str "Cause"), 55); ((TPointer (TNamed 51)), (str "Code"), 52); ((TPointer (TNamed 51)), (str "Details"), 54); ((TPointer (TNamed 51)), (str "Error"), 56); ((TPointer (TNamed 51)), (str "Message"), 53); ((TPointer (TNamed 57)), (str "Code"), 58); ((TPointer (TNamed 57)), (str "Error"), 59); ((TPointer (TNamed 70)), (str "CodeNotDeclared"), 71); ((TPointer (TNamed 72)), (str "Cause"), 76); ((TPointer (TNamed 72)), (str "Code"), 73); ((TPointer (TNamed 72)), (str "Details"), 75); ((TPointer (TNamed 72)), (str "Error"), 77); ((TPointer (TNamed 72)), (str "Message"), 74); ((TPointer (TNamed 78)), (str "Code"), 79); ((TPointer (TNamed 78)), (str "Error"), 80); ((TPointer (TNamed 94)), (str "returnError"), 95)].
Definition t_multipackage_ierr : list gotype := [(TInterface 1); (TNamed 1); (TPointer (TNamed 105)); (TPointer (TNamed 51)); (TPointer (TNamed 57)); (TPointer (TNamed 72)); (TPointer (TNamed 78))].
Definition t_multipackage_iree : list gotype := [(TPointer (TNamed 105)); (TPointer (TNamed 51)); (TPointer (TNamed 57)); (TPointer (TNamed 72)); (TPointer (TNamed 78))].
Definition t_multipackage_icause : list gotype := [(TPointer (TNamed 105)); (TPointer (TNamed 51)); (TPointer (TNamed 72))].
Definition t_multipackage_impl : list (gotype * gotype) := [((TInterface 1), (TInterface 1)); ((TNamed 1), (TInterface 1)); ((TPointer (TNamed 105)), (TInterface 1)); ((TPointer (TNamed 51)), (TInterface 1)); ((TPointer (TNamed 57)), (TInterface 1)); ((TPointer (TNamed 72)), (TInterface 1)); ((TPointer (TNamed 78)), (TInterface 1))].
Definition t_multipackage_nodes0 : list snode := [SNode 1 (Place 0 1) (Place 3676 143) true; SNode 2 (Place 8 1) (Place 20 1) false; SNode 3 (Place 22 3) (Place 78 6) true; SNode 4 (Place 32 4) (Place 53 4) true; SNode 5 (Place 32 4) (Place 53 4) false; SNode 6 (Place 55 5) (Place 76 5) true; SNode 7 (Place 55 5) (Place 76 5) false; SNode 8 (Place 174 13) (Place 279 15) true; SNode 9 (Place 179 13) (Place 190 13) false; SNode 10 (Place 174 13) (Place 198 13) false; SNode 11 (Place 190 13) (Place 192 13) false; SNode 12 (Place 193 13) (Place 198 13) false; SNode 13 (Place 193 13) (Place 198 13) true; SNode 14 (Place 193 13) (Place 198 13) false; SNode 15 (Place 199 13) (Place 279 15) true; SNode 16 (Place 248 14) (Place 277 14) true; SNode 17 (Place 255 14) (Place 277 14) false; SNode 18 (Place 255 14) (Place 275 14) false; SNode 19 (Place 255 14) (Place 261 14) false; SNode 20 (Place 262 14) (Place 275 14) false; SNode 21 (Place 374 22) (Place 479 24) true; SNode 22 (Place 379 22) (Place 390 22) false; SNode 23 (Place 374 22) (Place 398 22) false; SNode 24 (Place 390 22) (Place 392 22) false; SNode 25 (Place 393 22) (Place 398 22) false; SNode 26 (Place 393 22) (Place 398 22) true; SNode 27 (Place 393 22) (Place 398 22) false; SNode 28 (Place 399 22) (Place 479 24) true; SNode 29 (Place 448 23) (Place 477 23) true; SNode 30 (Place 455 23) (Place 477 23) false; SNode 31 (Place 455 23) (Place 475 23) false; SNode 32 (Place 455 23) (Place 461 23) false; SNode 33 (Place 462 23) (Place 475 23) false; SNode 34 (Place 569 31) (Place 680 34) true; SNode 35 (Place 574 31) (Place 579 31) false; SNode 36 (Place 569 31) (Place 587 31) false; SNode 37 (Place 579 31) (Place 581 31) false; SNode 38 (Place 582 31) (Place 587 31) false; SNode 39 (Place 582 31) (Place 587 31) true; SNode 40 (Place 582 31) (Place 587 31) false; SNode 41 (Place 588 31) (Place 680 34) true; SNode 42 (Place 631 32) (Place 651 32) true; SNode 43 (Place 631 32) (Place 635 32) false; SNode 44 (Place 639 32) (Place 651 32) false; SNode 45 (Place 639 32) (Place 649 32) false; SNode 46 (Place 653 33) (Place 678 33) true; SNode 47 (Place 660 33) (Place 678 33) false; SNode 48 (Place 660 33) (Place 676 33) false; SNode 49 (Place 660 33) (Place 664 33) false; SNode 50 (Place 665 33) (Place 676 33) false; SNode 51 (Place 770 41) (Place 867 43) true; SNode 52 (Place 775 41) (Place 780 41) false; SNode 53 (Place 770 41) (Place 788 41) false; SNode 54 (Place 780 41) (Place 782 41) false; SNode 55 (Place 783 41) (Place 788 41) false; SNode 56 (Place 783 41) (Place 788 41) true; SNode 57 (Place 783 41) (Place 788 41) false; SNode 58 (Place 789 41) (Place 867 43) true; SNode 59 (Place 832 42) (Place 865 42) true; SNode 60 (Place 839 42) (Place 865 42) false; SNode 61 (Place 839 42) (Place 863 42) false; SNode 62 (Place 839 42) (Place 851 42) false; SNode 63 (Place 839 42) (Place 849 42) false; SNode 64 (Place 852 42) (Place 863 42) false; SNode 65 (Place 869 45) (Place 891 45) true; SNode 66 (Place 874 45) (Place 891 45) true; SNode 67 (Place 874 45) (Place 882 45) false; SNode 68 (Place 883 45) (Place 891 45) false; SNode 69 (Place 889 45) (Place 891 45) false; SNode 70 (Place 893 47) (Place 962 49) true; SNode 71 (Place 898 47) (Place 908 47) false; SNode 72 (Place 899 47) (Place 907 47) true; SNode 73 (Place 899 47) (Place 907 47) false; SNode 74 (Place 909 47) (Place 920 47) false; SNode 75 (Place 893 47) (Place 928 47) false; SNode 76 (Place 920 47) (Place 922 47) false; SNode 77 (Place 923 47) (Place 928 47) false; SNode 78 (Place 923 47) (Place 928 47) true; SNode 79 (Place 923 47) (Place 928 47) false; SNode 80 (Place 929 47) (Place 962 49) true; SNode 81 (Place 932 48) (Place 960 48) true; SNode 82 (Place 939 48) (Place 960 48) false; SNode 83 (Place 940 48) (Place 960 48) false; SNode 84 (Place 940 48) (Place 945 48) false; SNode 85 (Place 946 48) (Place 959 48) false; SNode 86 (Place 964 51) (Place 1013 53) true; SNode 87 (Place 969 51) (Place 979 51) false; SNode 88 (Place 964 51) (Place 990 51) false; SNode 89 (Place 979 51) (Place 981 51) false; SNode 90 (Place 982 51) (Place 990 51) false; SNode 91 (Place 982 51) (Place 990 51) true; SNode 92 (Place 982 51) (Place 990 51) false; SNode 93 (Place 991 51) (Place 1013 53) true; SNode 94 (Place 994 52) (Place 1011 52) true; SNode 95 (Place 1001 52) (Place 1011 52) false; SNode 96 (Place 1001 52) (Place 1009 52) false; SNode 97 (Place 1129 60) (Place 1242 62) true; SNode 98 (Place 1134 60) (Place 1145 60) false; SNode 99 (Place 1129 60) (Place 1153 60) false; SNode 100 (Place 1145 60) (Place 1147 60) false; SNode 101 (Place 1148 60) (Place 1153 60) false; SNode 102 (Place 1148 60) (Place 1153 60) true; SNode 103 (Place 1148 60) (Place 1153 60) false; SNode 104 (Place 1154 60) (Place 1242 62) true; SNode 105 (Place 1204 61) (Place 1240 61) true; SNode 106 (Place 1211 61) (Place 1240 61) false; SNode 107 (Place 1212 61) (Place 1240 61) false; SNode 108 (Place 1212 61) (Place 1224 61) false; SNode 109 (Place 1212 61) (Place 1218 61) false; SNode 110 (Place 1219 61) (Place 1224 61) false; SNode 111 (Place 1225 61) (Place 1239 61) false; SNode 112 (Place 1358 69) (Place 1471 71) true; SNode 113 (Place 1363 69) (Place 1374 69) false; SNode 114 (Place 1358 69) (Place 1382 69) false; SNode 115 (Place 1374 69) (Place 1376 69) false; SNode 116 (Place 1377 69) (Place 1382 69) false; SNode 117 (Place 1377 69) (Place 1382 69) true; SNode 118 (Place 1377 69) (Place 1382 69) false; SNode 119 (Place 1383 69) (Place 1471 71) true; SNode 120 (Place 1433 70) (Place 1469 70) true; SNode 121 (Place 1440 70) (Place 1469 70) false; SNode 122 (Place 1441 70) (Place 1469 70) false; SNode 123 (Place 1441 70) (Place 1453 70) false; SNode 124 (Place 1441 70) (Place 1447 70) false; SNode 125 (Place 1448 70) (Place 1453 70) false; SNode 126 (Place 1454 70) (Place 1468 70) false; SNode 127 (Place 1663 79) (Place 1808 81) true; SNode 128 (Place 1668 79) (Place 1685 79) false; SNode 129 (Place 1663 79) (Place 1693 79) false; SNode 130 (Place 1685 79) (Place 1687 79) false; SNode 131 (Place 1688 79) (Place 1693 79) false; SNode 132 (Place 1688 79) (Place 1693 79) true; SNode 133 (Place 1688 79) (Place 1693 79) false; SNode 134 (Place 1694 79) (Place 1808 81) true; SNode 135 (Place 1757 80) (Place 1806 80) true; SNode 136 (Place 1764 80) (Place 1806 80) false; SNode 137 (Place 1765 80) (Place 1806 80) false; SNode 138 (Place 1765 80) (Place 1783 80) false; SNode 139 (Place 1765 80) (Place 1771 80) false; SNode 140 (Place 1772 80) (Place 1783 80) false; SNode 141 (Place 1784 80) (Place 1805 80) false; SNode 142 (Place 2000 89) (Place 2145 91) true; SNode 143 (Place 2005 89) (Place 2022 89) false; SNode 144 (Place 2000 89) (Place 2030 89) false; SNode 145 (Place 2022 89) (Place 2024 89) false; SNode 146 (Place 2025 89) (Place 2030 89) false; SNode 147 (Place 2025 89) (Place 2030 89) true; SNode 148 (Place 2025 89) (Place 2030 89) false; SNode 149 (Place 2031 89) (Place 2145 91) true; SNode 150 (Place 2094 90) (Place 2143 90) true; SNode 151 (Place 2101 90) (Place 2143 90) false; SNode 152 (Place 2102 90) (Place 2143 90) false; SNode 153 (Place 2102 90) (Place 2120 90) false; SNode 154 (Place 2102 90) (Place 2108 90) false; SNode 155 (Place 2109 90) (Place 2120 90) false; SNode 156 (Place 2121 90) (Place 2142 90) false; SNode 157 (Place 2180 96) (Place 2422 101) true; SNode 158 (Place 2185 96) (Place 2202 96) false; SNode 159 (Place 2180 96) (Place 2210 96) false; SNode 160 (Place 2202 96) (Place 2204 96) false; SNode 161 (Place 2205 96) (Place 2210 96) false; SNode 162 (Place 2205 96) (Place 2210 96) true; SNode 163 (Place 2205 96) (Place 2210 96) false; SNode 164 (Place 2211 96) (Place 2422 101) true; SNode 165 (Place 2262 97) (Place 2394 99) true; SNode 166 (Place 2265 97) (Place 2269 97) false; SNode 167 (Place 2270 97) (Place 2394 99) true; SNode 168 (Place 2274 98) (Place 2305 98) true; SNode 169 (Place 2281 98) (Place 2305 98) false; SNode 170 (Place 2281 98) (Place 2303 98) false; SNode 171 (Place 2281 98) (Place 2287 98) false; SNode 172 (Place 2288 98) (Place 2303 98) false; SNode 173 (Place 2396 100) (Place 2420 100) true; SNode 174 (Place 2403 100) (Place 2420 100) false; SNode 175 (Place 2404 100) (Place 2420 100) false; SNode 176 (Place 2404 100) (Place 2409 100) false; SNode 177 (Place 2410 100) (Place 2419 100) false; SNode 178 (Place 2457 106) (Place 2699 111) true; SNode 179 (Place 2462 106) (Place 2479 106) false; SNode 180 (Place 2457 106) (Place 2487 106) false; SNode 181 (Place 2479 106) (Place 2481 106) false; SNode 182 (Place 2482 106) (Place 2487 106) false; SNode 183 (Place 2482 106) (Place 2487 106) true; SNode 184 (Place 2482 106) (Place 2487 106) false; SNode 185 (Place 2488 106) (Place 2699 111) true; SNode 186 (Place 2539 107) (Place 2671 109) true; SNode 187 (Place 2542 107) (Place 2546 107) false; SNode 188 (Place 2547 107) (Place 2671 109) true; SNode 189 (Place 2551 108) (Place 2582 108) true; SNode 190 (Place 2558 108) (Place 2582 108) false; SNode 191 (Place 2558 108) (Place 2580 108) false; SNode 192 (Place 2558 108) (Place 2564 108) false; SNode 193 (Place 2565 108) (Place 2580 108) false; SNode 194 (Place 2673 110) (Place 2697 110) true; SNode 195 (Place 2680 110) (Place 2697 110) false; SNode 196 (Place 2681 110) (Place 2697 110) false; SNode 197 (Place 2681 110) (Place 2686 110) false; SNode 198 (Place 2687 110) (Place 2696 110) false; SNode 199 (Place 2734 116) (Place 2975 122) true; SNode 200 (Place 2739 116) (Place 2756 116) false; SNode 201 (Place 2734 116) (Place 2764 116) false; SNode 202 (Place 2756 116) (Place 2758 116) false; SNode 203 (Place 2759 116) (Place 2764 116) false; SNode 204 (Place 2759 116) (Place 2764 116) true; SNode 205 (Place 2759 116) (Place 2764 116) false; SNode 206 (Place 2765 116) (Place 2975 122) true; SNode 207 (Place 2816 117) (Place 2947 120) true; SNode 208 (Place 2819 117) (Place 2823 117) false; SNode 209 (Place 2824 117) (Place 2947 120) true; SNode 210 (Place 2828 118) (Place 2855 118) true; SNode 211 (Place 2828 118) (Place 2834 118) false; SNode 212 (Place 2838 118) (Place 2855 118) false; SNode 213 (Place 2838 118) (Place 2853 118) false; SNode 214 (Place 2838 118) (Place 2844 118) false; SNode 215 (Place 2845 118) (Place 2853 118) false; SNode 216 (Place 2858 119) (Place 2889 119) true; SNode 217 (Place 2865 119) (Place 2889 119) false; SNode 218 (Place 2865 119) (Place 2887 119) false; SNode 219 (Place 2865 119) (Place 2871 119) false; SNode 220 (Place 2872 119) (Place 2887 119) false; SNode 221 (Place 2949 121) (Place 2973 121) true; SNode 222 (Place 2956 121) (Place 2973 121) false; SNode 223 (Place 2957 121) (Place 2973 121) false; SNode 224 (Place 2957 121) (Place 2962 121) false; SNode 225 (Place 2963 121) (Place 2972 121) false; SNode 226 (Place 3010 127) (Place 3251 133) true; SNode 227 (Place 3015 127) (Place 3032 127) false; SNode 228 (Place 3010 127) (Place 3040 127) false; SNode 229 (Place 3032 127) (Place 3034 127) false; SNode 230 (Place 3035 127) (Place 3040 127) false; SNode 231 (Place 3035 127) (Place 3040 127) true; SNode 232 (Place 3035 127) (Place 3040 127) false; SNode 233 (Place 3041 127) (Place 3251 133) true; SNode 234 (Place 3092 128) (Place 3223 131) true; SNode 235 (Place 3095 128) (Place 3099 128) false; SNode 236 (Place 3100 128) (Place 3223 131) true; SNode 237 (Place 3104 129) (Place 3131 129) true; SNode 238 (Place 3104 129) (Place 3110 129) false; SNode 239 (Place 3114 129) (Place 3131 129) false; SNode 240 (Place 3114 129) (Place 3129 129) false; SNode 241 (Place 3114 129) (Place 3120 129) false; SNode 242 (Place 3121 129) (Place 3129 129) false; SNode 243 (Place 3134 130) (Place 3165 130) true; SNode 244 (Place 3141 130) (Place 3165 130) false; SNode 245 (Place 3141 130) (Place 3163 130) false; SNode 246 (Place 3141 130) (Place 3147 130) false; SNode 247 (Place 3148 130) (Place 3163 130) false; SNode 248 (Place 3225 132) (Place 3249 132) true; SNode 249 (Place 3232 132) (Place 3249 132) false; SNode 250 (Place 3233 132) (Place 3249 132) false; SNode 251 (Place 3233 132) (Place 3238 132) false; SNode 252 (Place 3239 132) (Place 3248 132) false; SNode 253 (Place 3253 135) (Place 3360 137) true; SNode 254 (Place 3258 135) (Place 3360 137) true; SNode 255 (Place 3258 135) (Place 3263 135) false; SNode 256 (Place 3264 135) (Place 3360 137) false; SNode 257 (Place 3271 135) (Place 3360 137) false; SNode 258 (Place 3344 136) (Place 3358 136) true; SNode 259 (Place 3344 136) (Place 3351 136) false; SNode 260 (Place 3352 136) (Place 3358 136) false; SNode 261 (Place 3362 139) (Place 3426 139) true; SNode 262 (Place 3367 139) (Place 3377 139) false; SNode 263 (Place 3368 139) (Place 3376 139) true; SNode 264 (Place 3368 139) (Place 3369 139) false; SNode 265 (Place 3370 139) (Place 3376 139) false; SNode 266 (Place 3371 139) (Place 3376 139) false; SNode 267 (Place 3378 139) (Place 3382 139) false; SNode 268 (Place 3362 139) (Place 3391 139) false; SNode 269 (Place 3382 139) (Place 3384 139) false; SNode 270 (Place 3385 139) (Place 3391 139) false; SNode 271 (Place 3385 139) (Place 3391 139) true; SNode 272 (Place 3385 139) (Place 3391 139) false; SNode 273 (Place 3406 139) (Place 3426 139) true; SNode 274 (Place 3408 139) (Place 3424 139) true; SNode 275 (Place 3415 139) (Place 3424 139) false; SNode 276 (Place 3415 139) (Place 3416 139) false; SNode 277 (Place 3417 139) (Place 3424 139) false; SNode 278 (Place 3427 140) (Place 3491 140) true; SNode 279 (Place 3432 140) (Place 3442 140) false; SNode 280 (Place 3433 140) (Place 3441 140) true; SNode 281 (Place 3433 140) (Place 3434 140) false; SNode 282 (Place 3435 140) (Place 3441 140) false; SNode 283 (Place 3436 140) (Place 3441 140) false; SNode 284 (Place 3443 140) (Place 3450 140) false; SNode 285 (Place 3427 140) (Place 3459 140) false; SNode 286 (Place 3450 140) (Place 3452 140) false; SNode 287 (Place 3453 140) (Place 3459 140) false; SNode 288 (Place 3453 140) (Place 3459 140) true; SNode 289 (Place 3453 140) (Place 3459 140) false; SNode 290 (Place 3471 140) (Place 3491 140) true; SNode 291 (Place 3473 140) (Place 3489 140) true; SNode 292 (Place 3480 140) (Place 3489 140) false; SNode 293 (Place 3480 140) (Place 3481 140) false; SNode 294 (Place 3482 140) (Place 3489 140) false; SNode 295 (Place 3492 141) (Place 3550 141) true; SNode 296 (Place 3497 141) (Place 3507 141) false; SNode 297 (Place 3498 141) (Place 3506 141) true; SNode 298 (Place 3498 141) (Place 3499 141) false; SNode 299 (Place 3500 141) (Place 3506 141) false; SNode 300 (Place 3501 141) (Place 3506 141) false; SNode 301 (Place 3508 141) (Place 3515 141) false; SNode 302 (Place 3492 141) (Place 3535 141) false; SNode 303 (Place 3515 141) (Place 3517 141) false; SNode 304 (Place 3518 141) (Place 3535 141) false; SNode 305 (Place 3518 141) (Place 3535 141) true; SNode 306 (Place 3518 141) (Place 3535 141) false; SNode 307 (Place 3522 141) (Place 3528 141) false; SNode 308 (Place 3529 141) (Place 3535 141) false; SNode 309 (Place 3536 141) (Place 3550 141) true; SNode 310 (Place 3538 141) (Place 3548 141) true; SNode 311 (Place 3545 141) (Place 3548 141) false; SNode 312 (Place 3551 142) (Place 3609 142) true; SNode 313 (Place 3556 142) (Place 3566 142) false; SNode 314 (Place 3557 142) (Place 3565 142) true; SNode 315 (Place 3557 142) (Place 3558 142) false; SNode 316 (Place 3559 142) (Place 3565 142) false; SNode 317 (Place 3560 142) (Place 3565 142) false; SNode 318 (Place 3567 142) (Place 3572 142) false; SNode 319 (Place 3551 142) (Place 3580 142) false; SNode 320 (Place 3572 142) (Place 3574 142) false; SNode 321 (Place 3575 142) (Place 3580 142) false; SNode 322 (Place 3575 142) (Place 3580 142) true; SNode 323 (Place 3575 142) (Place 3580 142) false; SNode 324 (Place 3595 142) (Place 3609 142) true; SNode 325 (Place 3597 142) (Place 3607 142) true; SNode 326 (Place 3604 142) (Place 3607 142) false; SNode 327 (Place 3610 143) (Place 3676 143) true; SNode 328 (Place 3615 143) (Place 3625 143) false; SNode 329 (Place 3616 143) (Place 3624 143) true; SNode 330 (Place 3616 143) (Place 3617 143) false; SNode 331 (Place 3618 143) (Place 3624 143) false; SNode 332 (Place 3619 143) (Place 3624 143) false; SNode 333 (Place 3626 143) (Place 3631 143) false; SNode 334 (Place 3610 143) (Place 3640 143) false; SNode 335 (Place 3631 143) (Place 3633 143) false; SNode 336 (Place 3634 143) (Place 3640 143) false; SNode 337 (Place 3634 143) (Place 3640 143) true; SNode 338 (Place 3634 143) (Place 3640 143) false; SNode 339 (Place 3654 143) (Place 3676 143) true; SNode 340 (Place 3656 143) (Place 3674 143) true; SNode 341 (Place 3663 143) (Place 3674 143) false; SNode 342 (Place 3663 143) (Place 3672 143) false; SNode 343 (Place 3663 143) (Place 3664 143) false; SNode 344 (Place 3665 143) (Place 3672 143) false].
Definition t_multipackage_cgroups0 : list cgroup := [CGroup (Place 80 8) (Place 173 12) [(str "// RunPackage1 is a demo function."); (str "//"); (str "// Errors:"); (str "//"); (str "//    - hello-error -- is always returned")]; CGroup (Place 201 13) (Place 246 13) [(str "// want RunPackage1:""ErrorCodes: hello-error""")]; CGroup (Place 281 17) (Place 373 21) [(str "// RunPackage2 is a demo function"); (str "//"); (str "// Errors:"); (str "//"); (str "//    - hello-error -- is always returned")]; CGroup (Place 401 22) (Place 446 22) [(str "// want RunPackage2:""ErrorCodes: hello-error""")]; CGroup (Place 481 26) (Place 568 30) [(str "// Trap1 is a demo function."); (str "//"); (str "// Errors:"); (str "//"); (str "//    - hello-error -- is always returned")]; CGroup (Place 590 31) (Place 629 31) [(str "// want Trap1:""ErrorCodes: hello-error""")]; CGroup (Place 682 36) (Place 769 40) [(str "// Trap2 is a demo function."); (str "//"); (str "// Errors:"); (str "//"); (str "//    - hello-error -- is always returned")]; CGroup (Place 791 41) (Place 830 41) [(str "// want Trap2:""ErrorCodes: hello-error""")]; CGroup (Place 1015 55) (Place 1128 59) [(str "// Inner1Error returns an error from another package."); (str "//"); (str "// Errors:"); (str "//"); (str "//    - inner1-error -- is always returned")]; CGroup (Place 1156 60) (Place 1202 60) [(str "// want Inner1Error:""ErrorCodes: inner1-error""")]; CGroup (Place 1244 64) (Place 1357 68) [(str "// Inner2Error returns an error from another package."); (str "//"); (str "// Errors:"); (str "//"); (str "//    - inner2-error -- is always returned")]; CGroup (Place 1385 69) (Place 1431 69) [(str "// want Inner2Error:""ErrorCodes: inner2-error""")]; CGroup (Place 1473 73) (Place 1662 78) [(str "// Inner1UnusedError returns an error from another package,"); (str "// which is not returned by any function in the inner package."); (str "//"); (str "// Errors:"); (str "//"); (str "//    - inner1-unused-error -- is always returned")]; CGroup (Place 1696 79) (Place 1755 79) [(str "// want Inner1UnusedError:""ErrorCodes: inner1-unused-error""")]; CGroup (Place 1810 83) (Place 1999 88) [(str "// Inner2UnusedError returns an error from another package,"); (str "// which is not returned by any function in the inner package."); (str "//"); (str "// Errors:"); (str "//"); (str "//    - inner2-unused-error -- is always returned")]; CGroup (Place 2033 89) (Place 2092 89) [(str "// want Inner2UnusedError:""ErrorCodes: inner2-unused-error""")]; CGroup (Place 2147 93) (Place 2179 95) [(str "// Errors:"); (str "//"); (str "//    - x-error --")]; CGroup (Place 2213 96) (Place 2260 96) [(str "// want CallToUndeclared1:""ErrorCodes: x-error""")]; CGroup (Place 2306 98) (Place 2391 98) [(str "// want `function ""CodeNotDeclared"" in package ""inner1"" does not declare error codes`")]; CGroup (Place 2424 103) (Place 2456 105) [(str "// Errors:"); (str "//"); (str "//    - x-error --")]; CGroup (Place 2490 106) (Place 2537 106) [(str "// want CallToUndeclared2:""ErrorCodes: x-error""")]; CGroup (Place 2583 108) (Place 2668 108) [(str "// want `function ""CodeNotDeclared"" in package ""inner2"" does not declare error codes`")]; CGroup (Place 2701 113) (Place 2733 115) [(str "// Errors:"); (str "//"); (str "//    - x-error --")]; CGroup (Place 2767 116) (Place 2814 116) [(str "// want CallToUndeclared3:""ErrorCodes: x-error""")]; CGroup (Place 2890 119) (Place 2944 119) [(str "// want ""called function does not declare error codes""")]; CGroup (Place 2977 124) (Place 3009 126) [(str "// Errors:"); (str "//"); (str "//    - x-error --")]; CGroup (Place 3043 127) (Place 3090 127) [(str "// want CallToUndeclared4:""ErrorCodes: x-error""")]; CGroup (Place 3166 130) (Place 3220 130) [(str "// want ""called function does not declare error codes""")]; CGroup (Place 3273 135) (Place 3342 135) [(str "// want Error:`ErrorType{Field:{Name:""TheCode"", Position:0}, Codes:}`")]].
Definition t_multipackage_files : list source_file := [SourceFile t_multipackage_nodes0 t_multipackage_cgroups0].
Definition t_multipackage_info : typeinfo := map_info (list_to_map t_multipackage_types) (list_to_map t_multipackage_values) (list_to_map t_multipackage_uses) (list_to_map t_multipackage_defs) (list_to_map t_multipackage_sels) (list_to_set [1; 4; 5; 6; 7; 8; 9; 10; 11; 12; 13; 14; 15; 16; 17; 18; 19; 20; 49; 51; 57; 70; 72; 78; 94; 105]) (list_to_map t_multipackage_pkgnames) (list_to_map t_multipackage_objnames) (list_to_map t_multipackage_objtypes) (list_to_map t_multipackage_under) t_multipackage_methods t_multipackage_ierr t_multipackage_iree t_multipackage_icause t_multipackage_impl (list_to_map t_multipackage_named_methods).
Definition t_multipackage : package := Package (list_to_map [(1, t_multipackage_f1); (2, t_multipackage_f2); (3, t_multipackage_f3); (4, t_multipackage_f4); (5, t_multipackage_f5); (6, t_multipackage_f6); (7, t_multipackage_f7); (8, t_multipackage_f8); (9, t_multipackage_f9); (10, t_multipackage_f10); (11, t_multipackage_f11); (12, t_multipackage_f12); (13, t_multipackage_f13); (14, t_multipackage_f14); (15, t_multipackage_f15); (16, t_multipackage_f16); (17, t_multipackage_f17); (18, t_multipackage_f18); (19, t_multipackage_f19)]) [1; 2; 3; 4; 5; 6; 7; 8; 9; 10; 11; 12; 13; 14; 15; 16; 17; 18; 19] t_multipackage_gendecls t_multipackage_top (list_to_map t_multipackage_objs) (fun id => default [] (createCommentMap t_multipackage_files id)) t_multipackage_info.
Definition t_multipackage_rank : gostring -> nat := fun n => default 0%nat ((list_to_map [] : gmap gostring nat) !! n).

(** multipackage/inner1: 2 diagnostics and 3 facts, as its "want" comments demand. *)
Theorem t_multipackage_inner1_ascending :
  report (run_test t_multipackage_inner1 ascending (Facts ∅ ∅ ∅ ∅)) = Some [
    (16, (str "function ""CodeNotDeclared"" is exported, but does not declare any error codes")) (* inner1.go:12 *);
    (34, (str "function ""CodeNotDeclared"" is exported, but does not declare any error codes")) (* inner1.go:18 *)] /\
  fact_texts (facts_after_test (run_test t_multipackage_inner1 ascending (Facts ∅ ∅ ∅ ∅))) [47; 48; 49; 50; 51; 52; 53; 54; 55; 56; 57; 58; 59; 60; 61; 62; 63; 64; 65; 66] = [
    (47, (str "ErrorCodes: hello-error")) (* inner1.go:8 ExportedFunc1 *);
    (51, (str "ErrorType{Field:{Name:""TheCode"", Position:0}, Codes:}")) (* inner1.go:22 Error *);
    (57, (str "ErrorType{Field:{Name:""TheCode"", Position:0}, Codes:}")) (* inner1.go:32 UnusedError *)].
Proof. vm_compute. split; reflexivity. Qed.

(** multipackage/inner1: 2 diagnostics and 3 facts, as its "want" comments demand. *)
Theorem t_multipackage_inner1_descending :
  report (run_test t_multipackage_inner1 descending (Facts ∅ ∅ ∅ ∅)) = Some [
    (34, (str "function ""CodeNotDeclared"" is exported, but does not declare any error codes")) (* inner1.go:18 *);
    (16, (str "function ""CodeNotDeclared"" is exported, but does not declare any error codes")) (* inner1.go:12 *)] /\
  fact_texts (facts_after_test (run_test t_multipackage_inner1 descending (Facts ∅ ∅ ∅ ∅))) [47; 48; 49; 50; 51; 52; 53; 54; 55; 56; 57; 58; 59; 60; 61; 62; 63; 64; 65; 66] = [
    (47, (str "ErrorCodes: hello-error")) (* inner1.go:8 ExportedFunc1 *);
    (51, (str "ErrorType{Field:{Name:""TheCode"", Position:0}, Codes:}")) (* inner1.go:22 Error *);
    (57, (str "ErrorType{Field:{Name:""TheCode"", Position:0}, Codes:}")) (* inner1.go:32 UnusedError *)].
Proof. vm_compute. split; reflexivity. Qed.

(** The presuppositions of the general theorems that this package satisfies. *)
Theorem t_multipackage_inner1_presuppositions :
  (forall fa, usable_functions t_multipackage_inner1 fa) /\
  (forall fa, no_literal_recursion t_multipackage_inner1 (collectFunctions t_multipackage_inner1) fa) /\
  (forall fa, literals_apart t_multipackage_inner1 (collectFunctions t_multipackage_inner1) fa) /\
  types_usable t_multipackage_inner1 /\
  (forall w n, occurs t_multipackage_inner1 w n -> ~ ill_formed t_multipackage_inner1 w n) /\
  distinct_definitions t_multipackage_inner1 /\
  interfaces_ok t_multipackage_inner1 /\
  uses_resolved t_multipackage_inner1 (collectFunctions t_multipackage_inner1) /\
  (forall g fn, pk_funcs t_multipackage_inner1 !! g = Some fn -> disciplined t_multipackage_inner1 (facts_after_test (run_test t_multipackage_inner1 ascending (Facts ∅ ∅ ∅ ∅))) fn /\ resolved t_multipackage_inner1 (collectFunctions t_multipackage_inner1) (facts_after_test (run_test t_multipackage_inner1 ascending (Facts ∅ ∅ ∅ ∅))) fn) /\
  Forall layout t_multipackage_inner1_files.
Proof.
  split_and!.
  - intros fa; apply package_usable_spec; vm_compute; reflexivity.
  - intros fa; apply recursion_check_spec; vm_compute; reflexivity.
  - intros fa; apply apart_spec; vm_compute; reflexivity.
  - apply types_ok_spec; vm_compute; reflexivity.
  - apply package_formed_spec; vm_compute; reflexivity.
  - apply definitions_check_spec; vm_compute; reflexivity.
  - apply (interfaces_check_spec t_multipackage_inner1 t_multipackage_inner1_rank); vm_compute; reflexivity.
  - apply uses_check_spec; vm_compute; reflexivity.
  - intros g fn; apply sound_ok_spec; vm_compute; reflexivity.
  - apply layouts_spec; vm_compute; reflexivity.
Qed.

(** The presuppositions of the general theorems that this package satisfies. *)
Theorem t_multipackage_inner2_presuppositions :
  (forall fa, usable_functions t_multipackage_inner2 fa) /\
  (forall fa, no_literal_recursion t_multipackage_inner2 (collectFunctions t_multipackage_inner2) fa) /\
  (forall fa, literals_apart t_multipackage_inner2 (collectFunctions t_multipackage_inner2) fa) /\
  types_usable t_multipackage_inner2 /\
  (forall w n, occurs t_multipackage_inner2 w n -> ~ ill_formed t_multipackage_inner2 w n) /\
  distinct_definitions t_multipackage_inner2 /\
  interfaces_ok t_multipackage_inner2 /\
  uses_resolved t_multipackage_inner2 (collectFunctions t_multipackage_inner2) /\
  (forall g fn, pk_funcs t_multipackage_inner2 !! g = Some fn -> disciplined t_multipackage_inner2 (facts_after_test (run_test t_multipackage_inner2 ascending (facts_after_test (run_test t_multipackage_inner1 ascending (Facts ∅ ∅ ∅ ∅))))) fn /\ resolved t_multipackage_inner2 (collectFunctions t_multipackage_inner2) (facts_after_test (run_test t_multipackage_inner2 ascending (facts_after_test (run_test t_multipackage_inner1 ascending (Facts ∅ ∅ ∅ ∅))))) fn) /\
  Forall layout t_multipackage_inner2_files.
Proof.
  split_and!.
  - intros fa; apply package_usable_spec; vm_compute; reflexivity.
  - intros fa; apply recursion_check_spec; vm_compute; reflexivity.
  - intros fa; apply apart_spec; vm_compute; reflexivity.
  - apply types_ok_spec; vm_compute; reflexivity.
  - apply package_formed_spec; vm_compute; reflexivity.
  - apply definitions_check_spec; vm_compute; reflexivity.
  - apply (interfaces_check_spec t_multipackage_inner2 t_multipackage_inner2_rank); vm_compute; reflexivity.
  - apply uses_check_spec; vm_compute; reflexivity.
  - intros g fn; apply sound_ok_spec; vm_compute; reflexivity.
  - apply layouts_spec; vm_compute; reflexivity.
Qed.

(** multipackage: 4 diagnostics and 13 facts, as its "want" comments demand. *)
Theorem t_multipackage_ascending :
  report (run_test t_multipackage ascending (facts_after_test (run_test t_multipackage_inner2 ascending (facts_after_test (run_test t_multipackage_inner1 ascending (Facts ∅ ∅ ∅ ∅)))))) = Some [
    (170, (str "function ""CodeNotDeclared"" in package ""inner1"" does not declare error codes")) (* multipackage.go:98 *);
    (218, (str "called function does not declare error codes")) (* multipackage.go:119 *);
    (191, (str "function ""CodeNotDeclared"" in package ""inner2"" does not declare error codes")) (* multipackage.go:108 *);
    (245, (str "called function does not declare error codes")) (* multipackage.go:130 *)] /\
  fact_texts (facts_after_test (run_test t_multipackage ascending (facts_after_test (run_test t_multipackage_inner2 ascending (facts_after_test (run_test t_multipackage_inner1 ascending (Facts ∅ ∅ ∅ ∅))))))) [90; 91; 92; 93; 94; 95; 96; 97; 98; 99; 100; 101; 102; 103; 104; 105; 106; 107; 108; 109; 110; 111; 112; 113; 114; 115; 116; 117; 118] = [
    (90, (str "ErrorCodes: hello-error")) (* multipackage.go:13 RunPackage1 *);
    (91, (str "ErrorCodes: hello-error")) (* multipackage.go:22 RunPackage2 *);
    (92, (str "ErrorCodes: hello-error")) (* multipackage.go:31 Trap1 *);
    (93, (str "ErrorCodes: hello-error")) (* multipackage.go:41 Trap2 *);
    (97, (str "ErrorCodes: inner1-error")) (* multipackage.go:60 Inner1Error *);
    (98, (str "ErrorCodes: inner2-error")) (* multipackage.go:69 Inner2Error *);
    (99, (str "ErrorCodes: inner1-unused-error")) (* multipackage.go:79 Inner1UnusedError *);
    (100, (str "ErrorCodes: inner2-unused-error")) (* multipackage.go:89 Inner2UnusedError *);
    (101, (str "ErrorCodes: x-error")) (* multipackage.go:96 CallToUndeclared1 *);
    (102, (str "ErrorCodes: x-error")) (* multipackage.go:106 CallToUndeclared2 *);
    (103, (str "ErrorCodes: x-error")) (* multipackage.go:116 CallToUndeclared3 *);
    (104, (str "ErrorCodes: x-error")) (* multipackage.go:127 CallToUndeclared4 *);
    (105, (str "ErrorType{Field:{Name:""TheCode"", Position:0}, Codes:}")) (* multipackage.go:135 Error *)].
Proof. vm_compute. split; reflexivity. Qed.

(** multipackage: 4 diagnostics and 13 facts, as its "want" comments demand. *)
Theorem t_multipackage_descending :
  report (run_test t_multipackage descending (facts_after_test (run_test t_multipackage_inner2 descending (facts_after_test (run_test t_multipackage_inner1 descending (Facts ∅ ∅ ∅ ∅)))))) = Some [
    (245, (str "called function does not declare error codes")) (* multipackage.go:130 *);
    (191, (str "function ""CodeNotDeclared"" in package ""inner2"" does not declare error codes")) (* multipackage.go:108 *);
    (218, (str "called function does not declare error codes")) (* multipackage.go:119 *);
    (170, (str "function ""CodeNotDeclared"" in package ""inner1"" does not declare error codes")) (* multipackage.go:98 *)] /\
  fact_texts (facts_after_test (run_test t_multipackage descending (facts_after_test (run_test t_multipackage_inner2 descending (facts_after_test (run_test t_multipackage_inner1 descending (Facts ∅ ∅ ∅ ∅))))))) [90; 91; 92; 93; 94; 95; 96; 97; 98; 99; 100; 101; 102; 103; 104; 105; 106; 107; 108; 109; 110; 111; 112; 113; 114; 115; 116; 117; 118] = [
    (90, (str "ErrorCodes: hello-error")) (* multipackage.go:13 RunPackage1 *);
    (91, (str "ErrorCodes: hello-error")) (* multipackage.go:22 RunPackage2 *);
    (92, (str "ErrorCodes: hello-error")) (* multipackage.go:31 Trap1 *);
    (93, (str "ErrorCodes: hello-error")) (* multipackage.go:41 Trap2 *);
    (97, (str "ErrorCodes: inner1-error")) (* multipackage.go:60 Inner1Error *);
    (98, (str "ErrorCodes: inner2-error")) (* multipackage.go:69 Inner2Error *);
    (99, (str "ErrorCodes: inner1-unused-error")) (* multipackage.go:79 Inner1UnusedError *);
    (100, (str "ErrorCodes: inner2-unused-error")) (* multipackage.go:89 Inner2UnusedError *);
    (101, (str "ErrorCodes: x-error")) (* multipackage.go:96 CallToUndeclared1 *);
    (102, (str "ErrorCodes: x-error")) (* multipackage.go:106 CallToUndeclared2 *);
    (103, (str "ErrorCodes: x-error")) (* multipackage.go:116 CallToUndeclared3 *);
    (104, (str "ErrorCodes: x-error")) (* multipackage.go:127 CallToUndeclared4 *);
    (105, (str "ErrorType{Field:{Name:""TheCode"", Position:0}, Codes:}")) (* multipackage.go:135 Error *)].
Proof. vm_compute. split; reflexivity. Qed.

(** The presuppositions of the general theorems that this package satisfies. *)
Theorem t_multipackage_presuppositions :
  (forall fa, usable_functions t_multipackage fa) /\
  (forall fa, no_literal_recursion t_multipackage (collectFunctions t_multipackage) fa) /\
  (forall fa, literals_apart t_multipackage (collectFunctions t_multipackage) fa) /\
  types_usable t_multipackage /\
  (forall w n, occurs t_multipackage w n -> ~ ill_formed t_multipackage w n) /\
  distinct_definitions t_multipackage /\
  interfaces_ok t_multipackage /\
  uses_resolved t_multipackage (collectFunctions t_multipackage) /\
  (forall g fn, pk_funcs t_multipackage !! g = Some fn -> disciplined t_multipackage (facts_after_test (run_test t_multipackage ascending (facts_after_test (run_test t_multipackage_inner2 ascending (facts_after_test (run_test t_multipackage_inner1 ascending (Facts ∅ ∅ ∅ ∅))))))) fn /\ resolved t_multipackage (collectFunctions t_multipackage) (facts_after_test (run_test t_multipackage ascending (facts_after_test (run_test t_multipackage_inner2 ascending (facts_after_test (run_test t_multipackage_inner1 ascending (Facts ∅ ∅ ∅ ∅))))))) fn) /\
  Forall layout t_multipackage_files.
Proof.
  split_and!.
  - intros fa; apply package_usable_spec; vm_compute; reflexivity.
  - intros fa; apply recursion_check_spec; vm_compute; reflexivity.
  - intros fa; apply apart_spec; vm_compute; reflexivity.
  - apply types_ok_spec; vm_compute; reflexivity.
  - apply package_formed_spec; vm_compute; reflexivity.
  - apply definitions_check_spec; vm_compute; reflexivity.
  - apply (interfaces_check_spec t_multipackage t_multipackage_rank); vm_compute; reflexivity.
  - apply uses_check_spec; vm_compute; reflexivity.
  - intros g fn; apply sound_ok_spec; vm_compute; reflexivity.
  - apply layouts_spec; vm_compute; reflexivity.
Qed.
