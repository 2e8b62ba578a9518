(** * The test package dotimport of /repo/analysis/testdata/src, run on the model.  Generated by tools/conform.py; see Conform.v. *)
From Coq Require Import Ascii String.
From stdpp Require Import base list gmap.
From Verif Require Import GoString Scc Engine Constant CommentText CommentMap Phase FactText Conform Claims Analyse Verify SpecTaint SpecProgram SpecLiterals SpecCodeMethod SpecInterfaces SpecSites SpecCrash SpecSound SpecWhole SpecLayout Checkers RecursionChecker LiteralChecker CodeCheckers FormChecker InterfaceChecker SoundChecker ChainChecker ExampleLayout GoAst.
Local Open Scope N_scope.
Definition t_dotimport_inner1_f1 : func := Func 3 (Some (DeclInfo (Ident 4 (str "ExportedFunc1") (Some 1)) None (Some (comment_text [(str "// ExportedFunc1 is a demo function."); (str "//"); (str "// Errors:"); (str "//"); (str "//    - hello-error -- is always returned")])))) (FuncType 5 [] (Some [(Field 8 [] 9)]) 134) (Some (Node 10 (KOther (str "*ast.BlockStmt")) [(Node 11 KReturn [(Node 12 (KUnary true) [(Node 13 KComposite [(Node 15 KBasicLit [])])])])])) 140 227.
Definition t_dotimport_inner1_f2 : func := Func 16 (Some (DeclInfo (Ident 17 (str "CodeNotDeclared1") (Some 2)) None None)) (FuncType 18 [] (Some [(Field 21 [] 22)]) 253) (Some (Node 23 (KOther (str "*ast.BlockStmt")) [(Node 24 KReturn [(Node 25 (KUnary true) [(Node 26 KComposite [(Node 28 KBasicLit [])])])])])) 259 385.
Definition t_dotimport_inner1_f3 : func := Func 34 (Some (DeclInfo (Ident 38 (str "CodeNotDeclared") None) (Some [(Field 36 [] 37)]) None)) (FuncType 39 [] (Some [(Field 42 [] 43)]) 447) (Some (Node 44 (KOther (str "*ast.BlockStmt")) [(Node 45 KReturn [(Node 46 (KUnary true) [(Node 47 KComposite [(Node 49 KBasicLit [])])])])])) 453 578.
Definition t_dotimport_inner1_f4 : func := Func 58 (Some (DeclInfo (Ident 64 (str "Code") None) (Some [(Field 60 [(Ident 61 (str "e") (Some 3))] 62)]) None)) (FuncType 65 [] (Some [(Field 68 [] 69)]) 730) (Some (Node 70 (KOther (str "*ast.BlockStmt")) [(Node 71 KReturn [(Node 72 KSelector [(Node 73 (KIdent (str "e") (Some 3)) []); (Node 74 (KIdent (str "TheCode") None) [])])])])) 751 771.
Definition t_dotimport_inner1_f5 : func := Func 75 (Some (DeclInfo (Ident 81 (str "Message") None) (Some [(Field 77 [(Ident 78 (str "e") (Some 4))] 79)]) None)) (FuncType 82 [] (Some [(Field 85 [] 86)]) 804) (Some (Node 87 (KOther (str "*ast.BlockStmt")) [(Node 88 KReturn [(Node 89 KSelector [(Node 90 (KIdent (str "e") (Some 4)) []); (Node 91 (KIdent (str "TheCode") None) [])])])])) 822 842.
Definition t_dotimport_inner1_f6 : func := Func 92 (Some (DeclInfo (Ident 98 (str "Details") None) (Some [(Field 94 [(Ident 95 (str "e") (Some 5))] 96)]) None)) (FuncType 99 [] (Some [(Field 102 [] 103)]) 875) (Some (Node 106 (KOther (str "*ast.BlockStmt")) [(Node 107 KReturn [(Node 108 (KIdent (str "nil") None) [])])])) 893 907.
Definition t_dotimport_inner1_f7 : func := Func 109 (Some (DeclInfo (Ident 115 (str "Cause") None) (Some [(Field 111 [(Ident 112 (str "e") (Some 6))] 113)]) None)) (FuncType 116 [] (Some [(Field 119 [] 120)]) 938) (Some (Node 121 (KOther (str "*ast.BlockStmt")) [(Node 122 KReturn [(Node 123 (KIdent (str "nil") None) [])])])) 958 972.
Definition t_dotimport_inner1_f8 : func := Func 124 (Some (DeclInfo (Ident 130 (str "Error") None) (Some [(Field 126 [(Ident 127 (str "e") (Some 7))] 128)]) None)) (FuncType 131 [] (Some [(Field 134 [] 135)]) 1003) (Some (Node 136 (KOther (str "*ast.BlockStmt")) [(Node 137 KReturn [(Node 138 KCall [(Node 139 KSelector [(Node 140 (KIdent (str "e") (Some 7)) []); (Node 141 (KIdent (str "Message") None) [])])])])])) 1023 1045.
Definition t_dotimport_inner1_f9 : func := Func 150 (Some (DeclInfo (Ident 156 (str "Code") None) (Some [(Field 152 [(Ident 153 (str "e") (Some 8))] 154)]) None)) (FuncType 157 [] (Some [(Field 160 [] 161)]) 1215) (Some (Node 162 (KOther (str "*ast.BlockStmt")) [(Node 163 KReturn [(Node 164 KSelector [(Node 165 (KIdent (str "e") (Some 8)) []); (Node 166 (KIdent (str "TheCode") None) [])])])])) 1223 1243.
Definition t_dotimport_inner1_f10 : func := Func 167 (Some (DeclInfo (Ident 173 (str "Error") None) (Some [(Field 169 [(Ident 170 (str "e") (Some 9))] 171)]) None)) (FuncType 174 [] (Some [(Field 177 [] 178)]) 1280) (Some (Node 179 (KOther (str "*ast.BlockStmt")) [(Node 180 KReturn [(Node 181 KSelector [(Node 182 (KIdent (str "e") (Some 9)) []); (Node 183 (KIdent (str "TheCode") None) [])])])])) 1287 1307.
Definition t_dotimport_inner1_gendecls : list gendecl := [GenDecl 29 [(Some (TypeSpec (Ident 31 (str "SomeType1") (Some 10)) (XStruct [])))]; GenDecl 50 [(Some (TypeSpec (Ident 52 (str "Inner1Error") (Some 11)) (XStruct [[(Ident 56 (str "TheCode") None)]])))]; GenDecl 142 [(Some (TypeSpec (Ident 144 (str "Inner1UnusedError") (Some 12)) (XStruct [[(Ident 148 (str "TheCode") None)]])))]].
Definition t_dotimport_inner1_top : list topdecl := [TopFunc 1; TopFunc 2; TopNode (Node 29 (KOther (str "*ast.GenDecl")) [(Node 30 (KOther (str "*ast.TypeSpec")) [])]); TopFunc 3; TopNode (Node 50 (KOther (str "*ast.GenDecl")) [(Node 51 (KOther (str "*ast.TypeSpec")) [])]); TopFunc 4; TopFunc 5; TopFunc 6; TopFunc 7; TopFunc 8; TopNode (Node 142 (KOther (str "*ast.GenDecl")) [(Node 143 (KOther (str "*ast.TypeSpec")) [])]); TopFunc 9; TopFunc 10].
Definition t_dotimport_inner1_objs : list (N * object) := [(1, Object false 118 (DFunc 1)); (2, Object false 234 (DFunc 2)); (3, Object true 707 DOther); (4, Object true 778 DOther); (5, Object true 849 DOther); (6, Object true 914 DOther); (7, Object true 979 DOther); (8, Object true 1186 DOther); (9, Object true 1250 DOther); (10, Object false 392 DType); (11, Object false 585 DType); (12, Object false 1052 DType)].
Definition t_dotimport_inner1_types : list (N * gotype) := [(5, (TSignature [] [(TNamed 1)] false)); (9, (TNamed 1)); (12, (TPointer (TNamed 51))); (13, (TNamed 51)); (14, (TNamed 51)); (15, (TBasic (str "string"))); (18, (TSignature [] [(TNamed 1)] false)); (22, (TNamed 1)); (25, (TPointer (TNamed 51))); (26, (TNamed 51)); (27, (TNamed 51)); (28, (TBasic (str "string"))); (31, (TNamed 49)); (32, (TStruct [])); (37, (TNamed 49)); (39, (TSignature [] [(TNamed 1)] false)); (43, (TNamed 1)); (46, (TPointer (TNamed 51))); (47, (TNamed 51)); (48, (TNamed 51)); (49, (TBasic (str "string"))); (52, (TNamed 51)); (53, (TStruct [((str "TheCode"), (TBasic (str "string")))])); (56, (TBasic (str "string"))); (57, (TBasic (str "string"))); (61, (TPointer (TNamed 51))); (62, (TPointer (TNamed 51))); (63, (TNamed 51)); (65, (TSignature [] [(TBasic (str "string"))] false)); (69, (TBasic (str "string"))); (72, (TBasic (str "string"))); (73, (TPointer (TNamed 51))); (74, (TBasic (str "string"))); (78, (TPointer (TNamed 51))); (79, (TPointer (TNamed 51))); (80, (TNamed 51)); (82, (TSignature [] [(TBasic (str "string"))] false)); (86, (TBasic (str "string"))); (89, (TBasic (str "string"))); (90, (TPointer (TNamed 51))); (91, (TBasic (str "string"))); (95, (TPointer (TNamed 51))); (96, (TPointer (TNamed 51))); (97, (TNamed 51)); (99, (TSignature [] [(TMap (TBasic (str "string")) (TBasic (str "string")))] false)); (103, (TMap (TBasic (str "string")) (TBasic (str "string")))); (104, (TBasic (str "string"))); (105, (TBasic (str "string"))); (108, TUntypedNil); (112, (TPointer (TNamed 51))); (113, (TPointer (TNamed 51))); (114, (TNamed 51)); (116, (TSignature [] [(TNamed 1)] false)); (120, (TNamed 1)); (123, TUntypedNil); (127, (TPointer (TNamed 51))); (128, (TPointer (TNamed 51))); (129, (TNamed 51)); (131, (TSignature [] [(TBasic (str "string"))] false)); (135, (TBasic (str "string"))); (138, (TBasic (str "string"))); (139, (TSignature [] [(TBasic (str "string"))] false)); (140, (TPointer (TNamed 51))); (141, (TSignature [] [(TBasic (str "string"))] false)); (144, (TNamed 57)); (145, (TStruct [((str "TheCode"), (TBasic (str "string")))])); (148, (TBasic (str "string"))); (149, (TBasic (str "string"))); (153, (TPointer (TNamed 57))); (154, (TPointer (TNamed 57))); (155, (TNamed 57)); (157, (TSignature [] [(TBasic (str "string"))] false)); (161, (TBasic (str "string"))); (164, (TBasic (str "string"))); (165, (TPointer (TNamed 57))); (166, (TBasic (str "string"))); (170, (TPointer (TNamed 57))); (171, (TPointer (TNamed 57))); (172, (TNamed 57)); (174, (TSignature [] [(TBasic (str "string"))] false)); (178, (TBasic (str "string"))); (181, (TBasic (str "string"))); (182, (TPointer (TNamed 57))); (183, (TBasic (str "string")))].
Definition t_dotimport_inner1_values : list (N * constval) := [(15, CString (str "hello-error")); (28, CString (str "some-error")); (49, CString (str "some-error"))].
Definition t_dotimport_inner1_uses : list (N * tobj) := [(9, 1); (14, 51); (22, 1); (27, 51); (37, 49); (43, 1); (48, 51); (57, 5); (63, 51); (69, 5); (73, 60); (74, 67); (80, 51); (86, 5); (90, 61); (91, 67); (97, 51); (104, 5); (105, 5); (108, 24); (114, 51); (120, 1); (123, 24); (129, 51); (135, 5); (140, 64); (141, 53); (149, 5); (155, 57); (161, 5); (165, 65); (166, 67); (172, 57); (178, 5); (182, 66); (183, 67)].
Definition t_dotimport_inner1_defs : list (N * tobj) := [(4, 47); (17, 48); (31, 49); (38, 50); (52, 51); (61, 60); (64, 52); (78, 61); (81, 53); (95, 62); (98, 54); (112, 63); (115, 55); (127, 64); (130, 56); (144, 57); (153, 65); (156, 58); (170, 66); (173, 59)].
Definition t_dotimport_inner1_sels : list (N * (tobj * gotype)) := [(72, (67, (TPointer (TNamed 51)))); (89, (67, (TPointer (TNamed 51)))); (139, (53, (TPointer (TNamed 51)))); (164, (67, (TPointer (TNamed 57)))); (181, (67, (TPointer (TNamed 57))))].
Definition t_dotimport_inner1_pkgnames : list (N * gostring) := [].
Definition t_dotimport_inner1_objnames : list (N * gostring) := [(1, (str "error")); (2, (str "Error")); (3, (str "?")); (4, (str "bool")); (5, (str "string")); (6, (str "int")); (7, (str "int8")); (8, (str "int16")); (9, (str "int32")); (10, (str "int64")); (11, (str "uint")); (12, (str "uint8")); (13, (str "uint16")); (14, (str "uint32")); (15, (str "uint64")); (16, (str "uintptr")); (17, (str "float32")); (18, (str "float64")); (19, (str "complex64")); (20, (str "complex128")); (21, (str "true")); (22, (str "false")); (23, (str "iota")); (24, (str "nil")); (25, (str "append")); (26, (str "cap")); (27, (str "close")); (28, (str "complex")); (29, (str "copy")); (30, (str "delete")); (31, (str "imag")); (32, (str "len")); (33, (str "make")); (34, (str "new")); (35, (str "panic")); (36, (str "print")); (37, (str "println")); (38, (str "real")); (39, (str "recover")); (40, (str "Errorf")); (41, (str "Sprintf")); (42, (str "Println")); (43, (str "New")); (44, (str "HasPrefix")); (45, (str "Float32")); (46, (str "Float64")); (47, (str "ExportedFunc1")); (48, (str "CodeNotDeclared1")); (49, (str "SomeType1")); (50, (str "CodeNotDeclared")); (51, (str "Inner1Error")); (52, (str "Code")); (53, (str "Message")); (54, (str "Details")); (55, (str "Cause")); (56, (str "Error")); (57, (str "Inner1UnusedError")); (58, (str "Code")); (59, (str "Error")); (60, (str "e")); (61, (str "e")); (62, (str "e")); (63, (str "e")); (64, (str "e")); (65, (str "e")); (66, (str "e")); (67, (str "TheCode")); (68, (str "ExportedFunc2")); (69, (str "CodeNotDeclared2")); (70, (str "SomeType2")); (71, (str "CodeNotDeclared")); (72, (str "Inner2Error")); (73, (str "Code")); (74, (str "Message")); (75, (str "Details")); (76, (str "Cause")); (77, (str "Error")); (78, (str "Inner2UnusedError")); (79, (str "Code")); (80, (str "Error")); (81, (str "e")); (82, (str "e")); (83, (str "e")); (84, (str "e")); (85, (str "e")); (86, (str "e")); (87, (str "e")); (88, (str "RunPackage1")); (89, (str "RunPackage2")); (90, (str "ReturnInner1Error")); (91, (str "ReturnInner2Error")); (92, (str "ReturnInner1UnusedError")); (93, (str "ReturnInner2UnusedError")); (94, (str "CallToUndeclared1")); (95, (str "CallToUndeclared2")); (96, (str "CallToUndeclared3")); (97, (str "CallToUndeclared4")); (98, (str "Error")); (99, (str "Code")); (100, (str "Message")); (101, (str "Details")); (102, (str "Cause")); (103, (str "Error")); (104, (str "e")); (105, (str "e")); (106, (str "e")); (107, (str "e")); (108, (str "e")); (109, (str "object")); (110, (str "object"))].
Definition t_dotimport_inner1_objtypes : list (N * gotype) := [(1, (TNamed 1)); (2, (TSignature [] [(TBasic (str "string"))] false)); (4, (TBasic (str "bool"))); (5, (TBasic (str "string"))); (6, (TBasic (str "int"))); (7, (TBasic (str "int8"))); (8, (TBasic (str "int16"))); (9, (TBasic (str "int32"))); (10, (TBasic (str "int64"))); (11, (TBasic (str "uint"))); (12, (TBasic (str "uint8"))); (13, (TBasic (str "uint16"))); (14, (TBasic (str "uint32"))); (15, (TBasic (str "uint64"))); (16, (TBasic (str "uintptr"))); (17, (TBasic (str "float32"))); (18, (TBasic (str "float64"))); (19, (TBasic (str "complex64"))); (20, (TBasic (str "complex128"))); (40, (TSignature [(TBasic (str "string")); (TSlice (TInterface 4))] [(TNamed 1)] true)); (41, (TSignature [(TBasic (str "string")); (TSlice (TInterface 4))] [(TBasic (str "string"))] true)); (42, (TSignature [(TSlice (TInterface 4))] [(TBasic (str "int")); (TNamed 1)] true)); (43, (TSignature [(TBasic (str "string"))] [(TNamed 1)] false)); (44, (TSignature [(TBasic (str "string")); (TBasic (str "string"))] [(TBasic (str "bool"))] false)); (45, (TSignature [] [(TBasic (str "float32"))] false)); (46, (TSignature [] [(TBasic (str "float64"))] false)); (47, (TSignature [] [(TNamed 1)] false)); (48, (TSignature [] [(TNamed 1)] false)); (49, (TNamed 49)); (50, (TSignature [] [(TNamed 1)] false)); (51, (TNamed 51)); (52, (TSignature [] [(TBasic (str "string"))] false)); (53, (TSignature [] [(TBasic (str "string"))] false)); (54, (TSignature [] [(TMap (TBasic (str "string")) (TBasic (str "string")))] false)); (55, (TSignature [] [(TNamed 1)] false)); (56, (TSignature [] [(TBasic (str "string"))] false)); (57, (TNamed 57)); (58, (TSignature [] [(TBasic (str "string"))] false)); (59, (TSignature [] [(TBasic (str "string"))] false)); (60, (TPointer (TNamed 51))); (61, (TPointer (TNamed 51))); (62, (TPointer (TNamed 51))); (63, (TPointer (TNamed 51))); (64, (TPointer (TNamed 51))); (65, (TPointer (TNamed 57))); (66, (TPointer (TNamed 57))); (67, (TBasic (str "string"))); (68, (TSignature [] [(TNamed 1)] false)); (69, (TSignature [] [(TNamed 1)] false)); (70, (TNamed 70)); (71, (TSignature [] [(TNamed 1)] false)); (72, (TNamed 72)); (73, (TSignature [] [(TBasic (str "string"))] false)); (74, (TSignature [] [(TBasic (str "string"))] false)); (75, (TSignature [] [(TMap (TBasic (str "string")) (TBasic (str "string")))] false)); (76, (TSignature [] [(TNamed 1)] false)); (77, (TSignature [] [(TBasic (str "string"))] false)); (78, (TNamed 78)); (79, (TSignature [] [(TBasic (str "string"))] false)); (80, (TSignature [] [(TBasic (str "string"))] false)); (81, (TPointer (TNamed 72))); (82, (TPointer (TNamed 72))); (83, (TPointer (TNamed 72))); (84, (TPointer (TNamed 72))); (85, (TPointer (TNamed 72))); (86, (TPointer (TNamed 78))); (87, (TPointer (TNamed 78))); (88, (TSignature [] [(TNamed 1)] false)); (89, (TSignature [] [(TNamed 1)] false)); (90, (TSignature [] [(TNamed 1)] false)); (91, (TSignature [] [(TNamed 1)] false)); (92, (TSignature [] [(TNamed 1)] false)); (93, (TSignature [] [(TNamed 1)] false)); (94, (TSignature [] [(TNamed 1)] false)); (95, (TSignature [] [(TNamed 1)] false)); (96, (TSignature [] [(TNamed 1)] false)); (97, (TSignature [] [(TNamed 1)] false)); (98, (TNamed 98)); (99, (TSignature [] [(TBasic (str "string"))] false)); (100, (TSignature [] [(TBasic (str "string"))] false)); (101, (TSignature [] [(TMap (TBasic (str "string")) (TBasic (str "string")))] false)); (102, (TSignature [] [(TNamed 1)] false)); (103, (TSignature [] [(TBasic (str "string"))] false)); (104, (TPointer (TNamed 98))); (105, (TPointer (TNamed 98))); (106, (TPointer (TNamed 98))); (107, (TPointer (TNamed 98))); (108, (TPointer (TNamed 98))); (109, (TNamed 49)); (110, (TNamed 70))].
Definition t_dotimport_inner1_under : list (N * gotype) := [(1, (TInterface 1)); (49, (TStruct [])); (51, (TStruct [((str "TheCode"), (TBasic (str "string")))])); (57, (TStruct [((str "TheCode"), (TBasic (str "string")))])); (70, (TStruct [])); (72, (TStruct [((str "TheCode"), (TBasic (str "string")))])); (78, (TStruct [((str "TheCode"), (TBasic (str "string")))])); (98, (TStruct [((str "TheCode"), (TBasic (str "string")))]))].
Definition t_dotimport_inner1_named_methods : list (N * (list gostring)) := [(49, [(str "CodeNotDeclared")]); (51, [(str "Code"); (str "Message"); (str "Details"); (str "Cause"); (str "Error")]); (57, [(str "Code"); (str "Error")]); (70, [(str "CodeNotDeclared")]); (72, [(str "Code"); (str "Message"); (str "Details"); (str "Cause"); (str "Error")]); (78, [(str "Code"); (str "Error")]); (98, [(str "Code"); (str "Message"); (str "Details"); (str "Cause"); (str "Error")])].
Definition t_dotimport_inner1_methods : list (gotype * gostring * tobj) := [((TInterface 1), (str "Error"), 2); ((TNamed 1), (str "Error"), 2); ((TNamed 49), (str "CodeNotDeclared"), 50); ((TNamed 70), (str "CodeNotDeclared"), 71); ((TPointer (TNamed 49)), (str "CodeNotDeclared"), 50); ((TPointer (TNamed 51)), (str "Cause"), 55); ((TPointer (TNamed 51)), (str "Code"), 52); ((TPointer (TNamed 51)), (str "Details"), 54); ((TPointer (TNamed 51)), (str "Error"), 56); ((TPointer (TNamed 51)), (str "Message"), 53); ((TPointer (TNamed 57)), (str "Code"), 58); ((TPointer (TNamed 57)), (str "Error"), 59); ((TPointer (TNamed 70)), (str "CodeNotDeclared"), 71); ((TPointer (TNamed 72)), (str "Cause"), 76); ((TPointer (TNamed 72)), (str "Code"), 73); ((TPointer (TNamed 72)), (str "Details"), 75); ((TPointer (TNamed 72)), (str "Error"), 77); ((TPointer (TNamed 72)), (str "Message"), 74); ((TPointer (TNamed 78)), (str "Code"), 79); ((TPointer (TNamed 78)), (str "Error"), 80); ((TPointer (TNamed 98)), (str "Cause"), 102); ((TPointer (TNamed 98)), (str "Code"), 99); ((TPointer (TNamed 98)), (str "Details"), 101); ((TPointer (TNamed 98)), (str "Error"), 103); ((TPointer (TNamed 98)), (str "Message"), 100)].
Definition t_dotimport_inner1_ierr : list gotype := [(TInterface 1); (TNamed 1); (TPointer (TNamed 51)); (TPointer (TNamed 57)); (TPointer (TNamed 72)); (TPointer (TNamed 78)); (TPointer (TNamed 98))].
Definition t_dotimport_inner1_iree : list gotype := [(TPointer (TNamed 51)); (TPointer (TNamed 57)); (TPointer (TNamed 72)); (TPointer (TNamed 78)); (TPointer (TNamed 98))].
Definition t_dotimport_inner1_icause : list gotype := [(TPointer (TNamed 51)); (TPointer (TNamed 72)); (TPointer (TNamed 98))].
Definition t_dotimport_inner1_impl : list (gotype * gotype) := [((TInterface 1), (TInterface 1)); ((TNamed 1), (TInterface 1)); ((TPointer (TNamed 51)), (TInterface 1)); ((TPointer (TNamed 57)), (TInterface 1)); ((TPointer (TNamed 72)), (TInterface 1)); ((TPointer (TNamed 78)), (TInterface 1)); ((TPointer (TNamed 98)), (TInterface 1))].
Definition t_dotimport_inner1_nodes0 : list snode := [SNode 1 (Place 0 1) (Place 1306 37) true; SNode 2 (Place 8 1) (Place 14 1) false; SNode 3 (Place 112 8) (Place 226 10) true; SNode 4 (Place 117 8) (Place 130 8) false; SNode 5 (Place 112 8) (Place 138 8) false; SNode 6 (Place 130 8) (Place 132 8) false; SNode 7 (Place 133 8) (Place 138 8) false; SNode 8 (Place 133 8) (Place 138 8) true; SNode 9 (Place 133 8) (Place 138 8) false; SNode 10 (Place 139 8) (Place 226 10) true; SNode 11 (Place 190 9) (Place 224 9) true; SNode 12 (Place 197 9) (Place 224 9) false; SNode 13 (Place 198 9) (Place 224 9) false; SNode 14 (Place 198 9) (Place 209 9) false; SNode 15 (Place 210 9) (Place 223 9) false; SNode 16 (Place 228 12) (Place 384 14) true; SNode 17 (Place 233 12) (Place 249 12) false; SNode 18 (Place 228 12) (Place 257 12) false; SNode 19 (Place 249 12) (Place 251 12) false; SNode 20 (Place 252 12) (Place 257 12) false; SNode 21 (Place 252 12) (Place 257 12) true; SNode 22 (Place 252 12) (Place 257 12) false; SNode 23 (Place 258 12) (Place 384 14) true; SNode 24 (Place 349 13) (Place 382 13) true; SNode 25 (Place 356 13) (Place 382 13) false; SNode 26 (Place 357 13) (Place 382 13) false; SNode 27 (Place 357 13) (Place 368 13) false; SNode 28 (Place 369 13) (Place 381 13) false; SNode 29 (Place 386 16) (Place 409 16) true; SNode 30 (Place 391 16) (Place 409 16) true; SNode 31 (Place 391 16) (Place 400 16) false; SNode 32 (Place 401 16) (Place 409 16) false; SNode 33 (Place 407 16) (Place 409 16) false; SNode 34 (Place 411 18) (Place 577 20) true; SNode 35 (Place 416 18) (Place 427 18) false; SNode 36 (Place 417 18) (Place 426 18) true; SNode 37 (Place 417 18) (Place 426 18) false; SNode 38 (Place 428 18) (Place 443 18) false; SNode 39 (Place 411 18) (Place 451 18) false; SNode 40 (Place 443 18) (Place 445 18) false; SNode 41 (Place 446 18) (Place 451 18) false; SNode 42 (Place 446 18) (Place 451 18) true; SNode 43 (Place 446 18) (Place 451 18) false; SNode 44 (Place 452 18) (Place 577 20) true; SNode 45 (Place 542 19) (Place 575 19) true; SNode 46 (Place 549 19) (Place 575 19) false; SNode 47 (Place 550 19) (Place 575 19) false; SNode 48 (Place 550 19) (Place 561 19) false; SNode 49 (Place 562 19) (Place 574 19) false; SNode 50 (Place 579 22) (Place 698 24) true; SNode 51 (Place 584 22) (Place 698 24) true; SNode 52 (Place 584 22) (Place 595 22) false; SNode 53 (Place 596 22) (Place 698 24) false; SNode 54 (Place 603 22) (Place 698 24) false; SNode 55 (Place 682 23) (Place 696 23) true; SNode 56 (Place 682 23) (Place 689 23) false; SNode 57 (Place 690 23) (Place 696 23) false; SNode 58 (Place 700 26) (Place 770 26) true; SNode 59 (Place 705 26) (Place 721 26) false; SNode 60 (Place 706 26) (Place 720 26) true; SNode 61 (Place 706 26) (Place 707 26) false; SNode 62 (Place 708 26) (Place 720 26) false; SNode 63 (Place 709 26) (Place 720 26) false; SNode 64 (Place 722 26) (Place 726 26) false; SNode 65 (Place 700 26) (Place 735 26) false; SNode 66 (Place 726 26) (Place 728 26) false; SNode 67 (Place 729 26) (Place 735 26) false; SNode 68 (Place 729 26) (Place 735 26) true; SNode 69 (Place 729 26) (Place 735 26) false; SNode 70 (Place 750 26) (Place 770 26) true; SNode 71 (Place 752 26) (Place 768 26) true; SNode 72 (Place 759 26) (Place 768 26) false; SNode 73 (Place 759 26) (Place 760 26) false; SNode 74 (Place 761 26) (Place 768 26) false; SNode 75 (Place 771 27) (Place 841 27) true; SNode 76 (Place 776 27) (Place 792 27) false; SNode 77 (Place 777 27) (Place 791 27) true; SNode 78 (Place 777 27) (Place 778 27) false; SNode 79 (Place 779 27) (Place 791 27) false; SNode 80 (Place 780 27) (Place 791 27) false; SNode 81 (Place 793 27) (Place 800 27) false; SNode 82 (Place 771 27) (Place 809 27) false; SNode 83 (Place 800 27) (Place 802 27) false; SNode 84 (Place 803 27) (Place 809 27) false; SNode 85 (Place 803 27) (Place 809 27) true; SNode 86 (Place 803 27) (Place 809 27) false; SNode 87 (Place 821 27) (Place 841 27) true; SNode 88 (Place 823 27) (Place 839 27) true; SNode 89 (Place 830 27) (Place 839 27) false; SNode 90 (Place 830 27) (Place 831 27) false; SNode 91 (Place 832 27) (Place 839 27) false; SNode 92 (Place 842 28) (Place 906 28) true; SNode 93 (Place 847 28) (Place 863 28) false; SNode 94 (Place 848 28) (Place 862 28) true; SNode 95 (Place 848 28) (Place 849 28) false; SNode 96 (Place 850 28) (Place 862 28) false; SNode 97 (Place 851 28) (Place 862 28) false; SNode 98 (Place 864 28) (Place 871 28) false; SNode 99 (Place 842 28) (Place 891 28) false; SNode 100 (Place 871 28) (Place 873 28) false; SNode 101 (Place 874 28) (Place 891 28) false; SNode 102 (Place 874 28) (Place 891 28) true; SNode 103 (Place 874 28) (Place 891 28) false; SNode 104 (Place 878 28) (Place 884 28) false; SNode 105 (Place 885 28) (Place 891 28) false; SNode 106 (Place 892 28) (Place 906 28) true; SNode 107 (Place 894 28) (Place 904 28) true; SNode 108 (Place 901 28) (Place 904 28) false; SNode 109 (Place 907 29) (Place 971 29) true; SNode 110 (Place 912 29) (Place 928 29) false; SNode 111 (Place 913 29) (Place 927 29) true; SNode 112 (Place 913 29) (Place 914 29) false; SNode 113 (Place 915 29) (Place 927 29) false; SNode 114 (Place 916 29) (Place 927 29) false; SNode 115 (Place 929 29) (Place 934 29) false; SNode 116 (Place 907 29) (Place 942 29) false; SNode 117 (Place 934 29) (Place 936 29) false; SNode 118 (Place 937 29) (Place 942 29) false; SNode 119 (Place 937 29) (Place 942 29) true; SNode 120 (Place 937 29) (Place 942 29) false; SNode 121 (Place 957 29) (Place 971 29) true; SNode 122 (Place 959 29) (Place 969 29) true; SNode 123 (Place 966 29) (Place 969 29) false; SNode 124 (Place 972 30) (Place 1044 30) true; SNode 125 (Place 977 30) (Place 993 30) false; SNode 126 (Place 978 30) (Place 992 30) true; SNode 127 (Place 978 30) (Place 979 30) false; SNode 128 (Place 980 30) (Place 992 30) false; SNode 129 (Place 981 30) (Place 992 30) false; SNode 130 (Place 994 30) (Place 999 30) false; SNode 131 (Place 972 30) (Place 1008 30) false; SNode 132 (Place 999 30) (Place 1001 30) false; SNode 133 (Place 1002 30) (Place 1008 30) false; SNode 134 (Place 1002 30) (Place 1008 30) true; SNode 135 (Place 1002 30) (Place 1008 30) false; SNode 136 (Place 1022 30) (Place 1044 30) true; SNode 137 (Place 1024 30) (Place 1042 30) true; SNode 138 (Place 1031 30) (Place 1042 30) false; SNode 139 (Place 1031 30) (Place 1040 30) false; SNode 140 (Place 1031 30) (Place 1032 30) false; SNode 141 (Place 1033 30) (Place 1040 30) false; SNode 142 (Place 1046 32) (Place 1177 34) true; SNode 143 (Place 1051 32) (Place 1177 34) true; SNode 144 (Place 1051 32) (Place 1068 32) false; SNode 145 (Place 1069 32) (Place 1177 34) false; SNode 146 (Place 1076 32) (Place 1177 34) false; SNode 147 (Place 1161 33) (Place 1175 33) true; SNode 148 (Place 1161 33) (Place 1168 33) false; SNode 149 (Place 1169 33) (Place 1175 33) false; SNode 150 (Place 1179 36) (Place 1242 36) true; SNode 151 (Place 1184 36) (Place 1206 36) false; SNode 152 (Place 1185 36) (Place 1205 36) true; SNode 153 (Place 1185 36) (Place 1186 36) false; SNode 154 (Place 1187 36) (Place 1205 36) false; SNode 155 (Place 1188 36) (Place 1205 36) false; SNode 156 (Place 1207 36) (Place 1211 36) false; SNode 157 (Place 1179 36) (Place 1220 36) false; SNode 158 (Place 1211 36) (Place 1213 36) false; SNode 159 (Place 1214 36) (Place 1220 36) false; SNode 160 (Place 1214 36) (Place 1220 36) true; SNode 161 (Place 1214 36) (Place 1220 36) false; SNode 162 (Place 1222 36) (Place 1242 36) true; SNode 163 (Place 1224 36) (Place 1240 36) true; SNode 164 (Place 1231 36) (Place 1240 36) false; SNode 165 (Place 1231 36) (Place 1232 36) false; SNode 166 (Place 1233 36) (Place 1240 36) false; SNode 167 (Place 1243 37) (Place 1306 37) true; SNode 168 (Place 1248 37) (Place 1270 37) false; SNode 169 (Place 1249 37) (Place 1269 37) true; SNode 170 (Place 1249 37) (Place 1250 37) false; SNode 171 (Place 1251 37) (Place 1269 37) false; SNode 172 (Place 1252 37) (Place 1269 37) false; SNode 173 (Place 1271 37) (Place 1276 37) false; SNode 174 (Place 1243 37) (Place 1285 37) false; SNode 175 (Place 1276 37) (Place 1278 37) false; SNode 176 (Place 1279 37) (Place 1285 37) false; SNode 177 (Place 1279 37) (Place 1285 37) true; SNode 178 (Place 1279 37) (Place 1285 37) false; SNode 179 (Place 1286 37) (Place 1306 37) true; SNode 180 (Place 1288 37) (Place 1304 37) true; SNode 181 (Place 1295 37) (Place 1304 37) false; SNode 182 (Place 1295 37) (Place 1296 37) false; SNode 183 (Place 1297 37) (Place 1304 37) false].
Definition t_dotimport_inner1_cgroups0 : list cgroup := [CGroup (Place 16 3) (Place 111 7) [(str "// ExportedFunc1 is a demo function."); (str "//"); (str "// Errors:"); (str "//"); (str "//    - hello-error -- is always returned")]; CGroup (Place 141 8) (Place 188 8) [(str "// want ExportedFunc1:""ErrorCodes: hello-error""")]; CGroup (Place 260 12) (Place 347 12) [(str "// want `function ""CodeNotDeclared1"" is exported, but does not declare any error codes`")]; CGroup (Place 454 18) (Place 540 18) [(str "// want `function ""CodeNotDeclared"" is exported, but does not declare any error codes`")]; CGroup (Place 605 22) (Place 680 22) [(str "// want Inner1Error:`ErrorType{Field:{Name:""TheCode"", Position:0}, Codes:}`")]; CGroup (Place 1078 32) (Place 1159 32) [(str "// want Inner1UnusedError:`ErrorType{Field:{Name:""TheCode"", Position:0}, Codes:}`")]].
Definition t_dotimport_inner1_files : list source_file := [SourceFile t_dotimport_inner1_nodes0 t_dotimport_inner1_cgroups0].
Definition t_dotimport_inner1_info : typeinfo := map_info (list_to_map t_dotimport_inner1_types) (list_to_map t_dotimport_inner1_values) (list_to_map t_dotimport_inner1_uses) (list_to_map t_dotimport_inner1_defs) (list_to_map t_dotimport_inner1_sels) (list_to_set [1; 4; 5; 6; 7; 8; 9; 10; 11; 12; 13; 14; 15; 16; 17; 18; 19; 20; 49; 51; 57; 70; 72; 78; 98]) (list_to_map t_dotimport_inner1_pkgnames) (list_to_map t_dotimport_inner1_objnames) (list_to_map t_dotimport_inner1_objtypes) (list_to_map t_dotimport_inner1_under) t_dotimport_inner1_methods t_dotimport_inner1_ierr t_dotimport_inner1_iree t_dotimport_inner1_icause t_dotimport_inner1_impl (list_to_map t_dotimport_inner1_named_methods).
Definition t_dotimport_inner1 : package := Package (list_to_map [(1, t_dotimport_inner1_f1); (2, t_dotimport_inner1_f2); (3, t_dotimport_inner1_f3); (4, t_dotimport_inner1_f4); (5, t_dotimport_inner1_f5); (6, t_dotimport_inner1_f6); (7, t_dotimport_inner1_f7); (8, t_dotimport_inner1_f8); (9, t_dotimport_inner1_f9); (10, t_dotimport_inner1_f10)]) [1; 2; 3; 4; 5; 6; 7; 8; 9; 10] t_dotimport_inner1_gendecls t_dotimport_inner1_top (list_to_map t_dotimport_inner1_objs) (fun id => default [] (createCommentMap t_dotimport_inner1_files id)) t_dotimport_inner1_info.
Definition t_dotimport_inner1_rank : gostring -> nat := fun n => default 0%nat ((list_to_map [] : gmap gostring nat) !! n).
Definition t_dotimport_inner2_f1 : func := Func 3 (Some (DeclInfo (Ident 4 (str "ExportedFunc2") (Some 1)) None (Some (comment_text [(str "// ExportedFunc2 is a demo function."); (str "//"); (str "// Errors:"); (str "//"); (str "//    - hello-error -- is always returned")])))) (FuncType 5 [] (Some [(Field 8 [] 9)]) 134) (Some (Node 10 (KOther (str "*ast.BlockStmt")) [(Node 11 KReturn [(Node 12 (KUnary true) [(Node 13 KComposite [(Node 15 KBasicLit [])])])])])) 140 179.
Definition t_dotimport_inner2_f2 : func := Func 16 (Some (DeclInfo (Ident 17 (str "CodeNotDeclared2") (Some 2)) None None)) (FuncType 18 [] (Some [(Field 21 [] 22)]) 205) (Some (Node 23 (KOther (str "*ast.BlockStmt")) [(Node 24 KReturn [(Node 25 (KUnary true) [(Node 26 KComposite [(Node 28 KBasicLit [])])])])])) 211 249.
Definition t_dotimport_inner2_f3 : func := Func 34 (Some (DeclInfo (Ident 38 (str "CodeNotDeclared") None) (Some [(Field 36 [] 37)]) None)) (FuncType 39 [] (Some [(Field 42 [] 43)]) 311) (Some (Node 44 (KOther (str "*ast.BlockStmt")) [(Node 45 KReturn [(Node 46 (KUnary true) [(Node 47 KComposite [(Node 49 KBasicLit [])])])])])) 317 355.
Definition t_dotimport_inner2_f4 : func := Func 58 (Some (DeclInfo (Ident 64 (str "Code") None) (Some [(Field 60 [(Ident 61 (str "e") (Some 3))] 62)]) None)) (FuncType 65 [] (Some [(Field 68 [] 69)]) 431) (Some (Node 70 (KOther (str "*ast.BlockStmt")) [(Node 71 KReturn [(Node 72 KSelector [(Node 73 (KIdent (str "e") (Some 3)) []); (Node 74 (KIdent (str "TheCode") None) [])])])])) 452 472.
Definition t_dotimport_inner2_f5 : func := Func 75 (Some (DeclInfo (Ident 81 (str "Message") None) (Some [(Field 77 [(Ident 78 (str "e") (Some 4))] 79)]) None)) (FuncType 82 [] (Some [(Field 85 [] 86)]) 505) (Some (Node 87 (KOther (str "*ast.BlockStmt")) [(Node 88 KReturn [(Node 89 KSelector [(Node 90 (KIdent (str "e") (Some 4)) []); (Node 91 (KIdent (str "TheCode") None) [])])])])) 523 543.
Definition t_dotimport_inner2_f6 : func := Func 92 (Some (DeclInfo (Ident 98 (str "Details") None) (Some [(Field 94 [(Ident 95 (str "e") (Some 5))] 96)]) None)) (FuncType 99 [] (Some [(Field 102 [] 103)]) 576) (Some (Node 106 (KOther (str "*ast.BlockStmt")) [(Node 107 KReturn [(Node 108 (KIdent (str "nil") None) [])])])) 594 608.
Definition t_dotimport_inner2_f7 : func := Func 109 (Some (DeclInfo (Ident 115 (str "Cause") None) (Some [(Field 111 [(Ident 112 (str "e") (Some 6))] 113)]) None)) (FuncType 116 [] (Some [(Field 119 [] 120)]) 639) (Some (Node 121 (KOther (str "*ast.BlockStmt")) [(Node 122 KReturn [(Node 123 (KIdent (str "nil") None) [])])])) 659 673.
Definition t_dotimport_inner2_f8 : func := Func 124 (Some (DeclInfo (Ident 130 (str "Error") None) (Some [(Field 126 [(Ident 127 (str "e") (Some 7))] 128)]) None)) (FuncType 131 [] (Some [(Field 134 [] 135)]) 704) (Some (Node 136 (KOther (str "*ast.BlockStmt")) [(Node 137 KReturn [(Node 138 KCall [(Node 139 KSelector [(Node 140 (KIdent (str "e") (Some 7)) []); (Node 141 (KIdent (str "Message") None) [])])])])])) 724 746.
Definition t_dotimport_inner2_f9 : func := Func 150 (Some (DeclInfo (Ident 156 (str "Code") None) (Some [(Field 152 [(Ident 153 (str "e") (Some 8))] 154)]) None)) (FuncType 157 [] (Some [(Field 160 [] 161)]) 834) (Some (Node 162 (KOther (str "*ast.BlockStmt")) [(Node 163 KReturn [(Node 164 KSelector [(Node 165 (KIdent (str "e") (Some 8)) []); (Node 166 (KIdent (str "TheCode") None) [])])])])) 842 862.
Definition t_dotimport_inner2_f10 : func := Func 167 (Some (DeclInfo (Ident 173 (str "Error") None) (Some [(Field 169 [(Ident 170 (str "e") (Some 9))] 171)]) None)) (FuncType 174 [] (Some [(Field 177 [] 178)]) 899) (Some (Node 179 (KOther (str "*ast.BlockStmt")) [(Node 180 KReturn [(Node 181 KSelector [(Node 182 (KIdent (str "e") (Some 9)) []); (Node 183 (KIdent (str "TheCode") None) [])])])])) 906 926.
Definition t_dotimport_inner2_gendecls : list gendecl := [GenDecl 29 [(Some (TypeSpec (Ident 31 (str "SomeType2") (Some 10)) (XStruct [])))]; GenDecl 50 [(Some (TypeSpec (Ident 52 (str "Inner2Error") (Some 11)) (XStruct [[(Ident 56 (str "TheCode") None)]])))]; GenDecl 142 [(Some (TypeSpec (Ident 144 (str "Inner2UnusedError") (Some 12)) (XStruct [[(Ident 148 (str "TheCode") None)]])))]].
Definition t_dotimport_inner2_top : list topdecl := [TopFunc 1; TopFunc 2; TopNode (Node 29 (KOther (str "*ast.GenDecl")) [(Node 30 (KOther (str "*ast.TypeSpec")) [])]); TopFunc 3; TopNode (Node 50 (KOther (str "*ast.GenDecl")) [(Node 51 (KOther (str "*ast.TypeSpec")) [])]); TopFunc 4; TopFunc 5; TopFunc 6; TopFunc 7; TopFunc 8; TopNode (Node 142 (KOther (str "*ast.GenDecl")) [(Node 143 (KOther (str "*ast.TypeSpec")) [])]); TopFunc 9; TopFunc 10].
Definition t_dotimport_inner2_objs : list (N * object) := [(1, Object false 118 (DFunc 1)); (2, Object false 186 (DFunc 2)); (3, Object true 408 DOther); (4, Object true 479 DOther); (5, Object true 550 DOther); (6, Object true 615 DOther); (7, Object true 680 DOther); (8, Object true 805 DOther); (9, Object true 869 DOther); (10, Object false 256 DType); (11, Object false 362 DType); (12, Object false 753 DType)].
Definition t_dotimport_inner2_types : list (N * gotype) := [(5, (TSignature [] [(TNamed 1)] false)); (9, (TNamed 1)); (12, (TPointer (TNamed 72))); (13, (TNamed 72)); (14, (TNamed 72)); (15, (TBasic (str "string"))); (18, (TSignature [] [(TNamed 1)] false)); (22, (TNamed 1)); (25, (TPointer (TNamed 72))); (26, (TNamed 72)); (27, (TNamed 72)); (28, (TBasic (str "string"))); (31, (TNamed 70)); (32, (TStruct [])); (37, (TNamed 70)); (39, (TSignature [] [(TNamed 1)] false)); (43, (TNamed 1)); (46, (TPointer (TNamed 72))); (47, (TNamed 72)); (48, (TNamed 72)); (49, (TBasic (str "string"))); (52, (TNamed 72)); (53, (TStruct [((str "TheCode"), (TBasic (str "string")))])); (56, (TBasic (str "string"))); (57, (TBasic (str "string"))); (61, (TPointer (TNamed 72))); (62, (TPointer (TNamed 72))); (63, (TNamed 72)); (65, (TSignature [] [(TBasic (str "string"))] false)); (69, (TBasic (str "string"))); (72, (TBasic (str "string"))); (73, (TPointer (TNamed 72))); (74, (TBasic (str "string"))); (78, (TPointer (TNamed 72))); (79, (TPointer (TNamed 72))); (80, (TNamed 72)); (82, (TSignature [] [(TBasic (str "string"))] false)); (86, (TBasic (str "string"))); (89, (TBasic (str "string"))); (90, (TPointer (TNamed 72))); (91, (TBasic (str "string"))); (95, (TPointer (TNamed 72))); (96, (TPointer (TNamed 72))); (97, (TNamed 72)); (99, (TSignature [] [(TMap (TBasic (str "string")) (TBasic (str "string")))] false)); (103, (TMap (TBasic (str "string")) (TBasic (str "string")))); (104, (TBasic (str "string"))); (105, (TBasic (str "string"))); (108, TUntypedNil); (112, (TPointer (TNamed 72))); (113, (TPointer (TNamed 72))); (114, (TNamed 72)); (116, (TSignature [] [(TNamed 1)] false)); (120, (TNamed 1)); (123, TUntypedNil); (127, (TPointer (TNamed 72))); (128, (TPointer (TNamed 72))); (129, (TNamed 72)); (131, (TSignature [] [(TBasic (str "string"))] false)); (135, (TBasic (str "string"))); (138, (TBasic (str "string"))); (139, (TSignature [] [(TBasic (str "string"))] false)); (140, (TPointer (TNamed 72))); (141, (TSignature [] [(TBasic (str "string"))] false)); (144, (TNamed 78)); (145, (TStruct [((str "TheCode"), (TBasic (str "string")))])); (148, (TBasic (str "string"))); (149, (TBasic (str "string"))); (153, (TPointer (TNamed 78))); (154, (TPointer (TNamed 78))); (155, (TNamed 78)); (157, (TSignature [] [(TBasic (str "string"))] false)); (161, (TBasic (str "string"))); (164, (TBasic (str "string"))); (165, (TPointer (TNamed 78))); (166, (TBasic (str "string"))); (170, (TPointer (TNamed 78))); (171, (TPointer (TNamed 78))); (172, (TNamed 78)); (174, (TSignature [] [(TBasic (str "string"))] false)); (178, (TBasic (str "string"))); (181, (TBasic (str "string"))); (182, (TPointer (TNamed 78))); (183, (TBasic (str "string")))].
Definition t_dotimport_inner2_values : list (N * constval) := [(15, CString (str "hello-error")); (28, CString (str "some-error")); (49, CString (str "some-error"))].
Definition t_dotimport_inner2_uses : list (N * tobj) := [(9, 1); (14, 72); (22, 1); (27, 72); (37, 70); (43, 1); (48, 72); (57, 5); (63, 72); (69, 5); (73, 81); (74, 67); (80, 72); (86, 5); (90, 82); (91, 67); (97, 72); (104, 5); (105, 5); (108, 24); (114, 72); (120, 1); (123, 24); (129, 72); (135, 5); (140, 85); (141, 74); (149, 5); (155, 78); (161, 5); (165, 86); (166, 67); (172, 78); (178, 5); (182, 87); (183, 67)].
Definition t_dotimport_inner2_defs : list (N * tobj) := [(4, 68); (17, 69); (31, 70); (38, 71); (52, 72); (61, 81); (64, 73); (78, 82); (81, 74); (95, 83); (98, 75); (112, 84); (115, 76); (127, 85); (130, 77); (144, 78); (153, 86); (156, 79); (170, 87); (173, 80)].
Definition t_dotimport_inner2_sels : list (N * (tobj * gotype)) := [(72, (67, (TPointer (TNamed 72)))); (89, (67, (TPointer (TNamed 72)))); (139, (74, (TPointer (TNamed 72)))); (164, (67, (TPointer (TNamed 78)))); (181, (67, (TPointer (TNamed 78))))].
Definition t_dotimport_inner2_pkgnames : list (N * gostring) := [].
Definition t_dotimport_inner2_objnames : list (N * gostring) := [(1, (str "error")); (2, (str "Error")); (3, (str "?")); (4, (str "bool")); (5, (str "string")); (6, (str "int")); (7, (str "int8")); (8, (str "int16")); (9, (str "int32")); (10, (str "int64")); (11, (str "uint")); (12, (str "uint8")); (13, (str "uint16")); (14, (str "uint32")); (15, (str "uint64")); (16, (str "uintptr")); (17, (str "float32")); (18, (str "float64")); (19, (str "complex64")); (20, (str "complex128")); (21, (str "true")); (22, (str "false")); (23, (str "iota")); (24, (str "nil")); (25, (str "append")); (26, (str "cap")); (27, (str "close")); (28, (str "complex")); (29, (str "copy")); (30, (str "delete")); (31, (str "imag")); (32, (str "len")); (33, (str "make")); (34, (str "new")); (35, (str "panic")); (36, (str "print")); (37, (str "println")); (38, (str "real")); (39, (str "recover")); (40, (str "Errorf")); (41, (str "Sprintf")); (42, (str "Println")); (43, (str "New")); (44, (str "HasPrefix")); (45, (str "Float32")); (46, (str "Float64")); (47, (str "ExportedFunc1")); (48, (str "CodeNotDeclared1")); (49, (str "SomeType1")); (50, (str "CodeNotDeclared")); (51, (str "Inner1Error")); (52, (str "Code")); (53, (str "Message")); (54, (str "Details")); (55, (str "Cause")); (56, (str "Error")); (57, (str "Inner1UnusedError")); (58, (str "Code")); (59, (str "Error")); (60, (str "e")); (61, (str "e")); (62, (str "e")); (63, (str "e")); (64, (str "e")); (65, (str "e")); (66, (str "e")); (67, (str "TheCode")); (68, (str "ExportedFunc2")); (69, (str "CodeNotDeclared2")); (70, (str "SomeType2")); (71, (str "CodeNotDeclared")); (72, (str "Inner2Error")); (73, (str "Code")); (74, (str "Message")); (75, (str "Details")); (76, (str "Cause")); (77, (str "Error")); (78, (str "Inner2UnusedError")); (79, (str "Code")); (80, (str "Error")); (81, (str "e")); (82, (str "e")); (83, (str "e")); (84, (str "e")); (85, (str "e")); (86, (str "e")); (87, (str "e")); (88, (str "RunPackage1")); (89, (str "RunPackage2")); (90, (str "ReturnInner1Error")); (91, (str "ReturnInner2Error")); (92, (str "ReturnInner1UnusedError")); (93, (str "ReturnInner2UnusedError")); (94, (str "CallToUndeclared1")); (95, (str "CallToUndeclared2")); (96, (str "CallToUndeclared3")); (97, (str "CallToUndeclared4")); (98, (str "Error")); (99, (str "Code")); (100, (str "Message")); (101, (str "Details")); (102, (str "Cause")); (103, (str "Error")); (104, (str "e")); (105, (str "e")); (106, (str "e")); (107, (str "e")); (108, (str "e")); (109, (str "object")); (110, (str "object"))].
Definition t_dotimport_inner2_objtypes : list (N * gotype) := [(1, (TNamed 1)); (2, (TSignature [] [(TBasic (str "string"))] false)); (4, (TBasic (str "bool"))); (5, (TBasic (str "string"))); (6, (TBasic (str "int"))); (7, (TBasic (str "int8"))); (8, (TBasic (str "int16"))); (9, (TBasic (str "int32"))); (10, (TBasic (str "int64"))); (11, (TBasic (str "uint"))); (12, (TBasic (str "uint8"))); (13, (TBasic (str "uint16"))); (14, (TBasic (str "uint32"))); (15, (TBasic (str "uint64"))); (16, (TBasic (str "uintptr"))); (17, (TBasic (str "float32"))); (18, (TBasic (str "float64"))); (19, (TBasic (str "complex64"))); (20, (TBasic (str "complex128"))); (40, (TSignature [(TBasic (str "string")); (TSlice (TInterface 4))] [(TNamed 1)] true)); (41, (TSignature [(TBasic (str "string")); (TSlice (TInterface 4))] [(TBasic (str "string"))] true)); (42, (TSignature [(TSlice (TInterface 4))] [(TBasic (str "int")); (TNamed 1)] true)); (43, (TSignature [(TBasic (str "string"))] [(TNamed 1)] false)); (44, (TSignature [(TBasic (str "string")); (TBasic (str "string"))] [(TBasic (str "bool"))] false)); (45, (TSignature [] [(TBasic (str "float32"))] false)); (46, (TSignature [] [(TBasic (str "float64"))] false)); (47, (TSignature [] [(TNamed 1)] false)); (48, (TSignature [] [(TNamed 1)] false)); (49, (TNamed 49)); (50, (TSignature [] [(TNamed 1)] false)); (51, (TNamed 51)); (52, (TSignature [] [(TBasic (str "string"))] false)); (53, (TSignature [] [(TBasic (str "string"))] false)); (54, (TSignature [] [(TMap (TBasic (str "string")) (TBasic (str "string")))] false)); (55, (TSignature [] [(TNamed 1)] false)); (56, (TSignature [] [(TBasic (str "string"))] false)); (57, (TNamed 57)); (58, (TSignature [] [(TBasic (str "string"))] false)); (59, (TSignature [] [(TBasic (str "string"))] false)); (60, (TPointer (TNamed 51))); (61, (TPointer (TNamed 51))); (62, (TPointer (TNamed 51))); (63, (TPointer (TNamed 51))); (64, (TPointer (TNamed 51))); (65, (TPointer (TNamed 57))); (66, (TPointer (TNamed 57))); (67, (TBasic (str "string"))); (68, (TSignature [] [(TNamed 1)] false)); (69, (TSignature [] [(TNamed 1)] false)); (70, (TNamed 70)); (71, (TSignature [] [(TNamed 1)] false)); (72, (TNamed 72)); (73, (TSignature [] [(TBasic (str "string"))] false)); (74, (TSignature [] [(TBasic (str "string"))] false)); (75, (TSignature [] [(TMap (TBasic (str "string")) (TBasic (str "string")))] false)); (76, (TSignature [] [(TNamed 1)] false)); (77, (TSignature [] [(TBasic (str "string"))] false)); (78, (TNamed 78)); (79, (TSignature [] [(TBasic (str "string"))] false)); (80, (TSignature [] [(TBasic (str "string"))] false)); (81, (TPointer (TNamed 72))); (82, (TPointer (TNamed 72))); (83, (TPointer (TNamed 72))); (84, (TPointer (TNamed 72))); (85, (TPointer (TNamed 72))); (86, (TPointer (TNamed 78))); (87, (TPointer (TNamed 78))); (88, (TSignature [] [(TNamed 1)] false)); (89, (TSignature [] [(TNamed 1)] false)); (90, (TSignature [] [(TNamed 1)] false)); (91, (TSignature [] [(TNamed 1)] false)); (92, (TSignature [] [(TNamed 1)] false)); (93, (TSignature [] [(TNamed 1)] false)); (94, (TSignature [] [(TNamed 1)] false)); (95, (TSignature [] [(TNamed 1)] false)); (96, (TSignature [] [(TNamed 1)] false)); (97, (TSignature [] [(TNamed 1)] false)); (98, (TNamed 98)); (99, (TSignature [] [(TBasic (str "string"))] false)); (100, (TSignature [] [(TBasic (str "string"))] false)); (101, (TSignature [] [(TMap (TBasic (str "string")) (TBasic (str "string")))] false)); (102, (TSignature [] [(TNamed 1)] false)); (103, (TSignature [] [(TBasic (str "string"))] false)); (104, (TPointer (TNamed 98))); (105, (TPointer (TNamed 98))); (106, (TPointer (TNamed 98))); (107, (TPointer (TNamed 98))); (108, (TPointer (TNamed 98))); (109, (TNamed 49)); (110, (TNamed 70))].
Definition t_dotimport_inner2_under : list (N * gotype) := [(1, (TInterface 1)); (49, (TStruct [])); (51, (TStruct [((str "TheCode"), (TBasic (str "string")))])); (57, (TStruct [((str "TheCode"), (TBasic (str "string")))])); (70, (TStruct [])); (72, (TStruct [((str "TheCode"), (TBasic (str "string")))])); (78, (TStruct [((str "TheCode"), (TBasic (str "string")))])); (98, (TStruct [((str "TheCode"), (TBasic (str "string")))]))].
Definition t_dotimport_inner2_named_methods : list (N * (list gostring)) := [(49, [(str "CodeNotDeclared")]); (51, [(str "Code"); (str "Message"); (str "Details"); (str "Cause"); (str "Error")]); (57, [(str "Code"); (str "Error")]); (70, [(str "CodeNotDeclared")]); (72, [(str "Code"); (str "Message"); (str "Details"); (str "Cause"); (str "Error")]); (78, [(str "Code"); (str "Error")]); (98, [(str "Code"); (str "Message"); (str "Details"); (str "Cause"); (str "Error")])].
Definition t_dotimport_inner2_methods : list (gotype * gostring * tobj) := [((TInterface 1), (str "Error"), 2); ((TNamed 1), (str "Error"), 2); ((TNamed 49), (str "CodeNotDeclared"), 50); ((TNamed 70), (str "CodeNotDeclared"), 71); ((TPointer (TNamed 49)), (str "CodeNotDeclared"), 50); ((TPointer (TNamed 51)), (str "Cause"), 55); ((TPointer (TNamed 51)), (str "Code"), 52); ((TPointer (TNamed 51)), (str "Details"), 54); ((TPointer (TNamed 51)), (str "Error"), 56); ((TPointer (TNamed 51)), (str "Message"), 53); ((TPointer (TNamed 57)), (str "Code"), 58); ((TPointer (TNamed 57)), (str "Error"), 59); ((TPointer (TNamed 70)), (str "CodeNotDeclared"), 71); ((TPointer (TNamed 72)), (str "Cause"), 76); ((TPointer (TNamed 72)), (str "Code"), 73); ((TPointer (TNamed 72)), (str "Details"), 75); ((TPointer (TNamed 72)), (str "Error"), 77); ((TPointer (TNamed 72)), (str "Message"), 74); ((TPointer (TNamed 78)), (str "Code"), 79); ((TPointer (TNamed 78)), (str "Error"), 80); ((TPointer (TNamed 98)), (str "Cause"), 102); ((TPointer (TNamed 98)), (str "Code"), 99); ((TPointer (TNamed 98)), (str "Details"), 101); ((TPointer (TNamed 98)), (str "Error"), 103); ((TPointer (TNamed 98)), (str "Message"), 100)].
Definition t_dotimport_inner2_ierr : list gotype := [(TInterface 1); (TNamed 1); (TPointer (TNamed 51)); (TPointer (TNamed 57)); (TPointer (TNamed 72)); (TPointer (TNamed 78)); (TPointer (TNamed 98))].
Definition t_dotimport_inner2_iree : list gotype := [(TPointer (TNamed 51)); (TPointer (TNamed 57)); (TPointer (TNamed 72)); (TPointer (TNamed 78)); (TPointer (TNamed 98))].
Definition t_dotimport_inner2_icause : list gotype := [(TPointer (TNamed 51)); (TPointer (TNamed 72)); (TPointer (TNamed 98))].
Definition t_dotimport_inner2_impl : list (gotype * gotype) := [((TInterface 1), (TInterface 1)); ((TNamed 1), (TInterface 1)); ((TPointer (TNamed 51)), (TInterface 1)); ((TPointer (TNamed 57)), (TInterface 1)); ((TPointer (TNamed 72)), (TInterface 1)); ((TPointer (TNamed 78)), (TInterface 1)); ((TPointer (TNamed 98)), (TInterface 1))].
Definition t_dotimport_inner2_nodes0 : list snode := [SNode 1 (Place 0 1) (Place 925 37) true; SNode 2 (Place 8 1) (Place 14 1) false; SNode 3 (Place 112 8) (Place 178 10) true; SNode 4 (Place 117 8) (Place 130 8) false; SNode 5 (Place 112 8) (Place 138 8) false; SNode 6 (Place 130 8) (Place 132 8) false; SNode 7 (Place 133 8) (Place 138 8) false; SNode 8 (Place 133 8) (Place 138 8) true; SNode 9 (Place 133 8) (Place 138 8) false; SNode 10 (Place 139 8) (Place 178 10) true; SNode 11 (Place 142 9) (Place 176 9) true; SNode 12 (Place 149 9) (Place 176 9) false; SNode 13 (Place 150 9) (Place 176 9) false; SNode 14 (Place 150 9) (Place 161 9) false; SNode 15 (Place 162 9) (Place 175 9) false; SNode 16 (Place 180 12) (Place 248 14) true; SNode 17 (Place 185 12) (Place 201 12) false; SNode 18 (Place 180 12) (Place 209 12) false; SNode 19 (Place 201 12) (Place 203 12) false; SNode 20 (Place 204 12) (Place 209 12) false; SNode 21 (Place 204 12) (Place 209 12) true; SNode 22 (Place 204 12) (Place 209 12) false; SNode 23 (Place 210 12) (Place 248 14) true; SNode 24 (Place 213 13) (Place 246 13) true; SNode 25 (Place 220 13) (Place 246 13) false; SNode 26 (Place 221 13) (Place 246 13) false; SNode 27 (Place 221 13) (Place 232 13) false; SNode 28 (Place 233 13) (Place 245 13) false; SNode 29 (Place 250 16) (Place 273 16) true; SNode 30 (Place 255 16) (Place 273 16) true; SNode 31 (Place 255 16) (Place 264 16) false; SNode 32 (Place 265 16) (Place 273 16) false; SNode 33 (Place 271 16) (Place 273 16) false; SNode 34 (Place 275 18) (Place 354 20) true; SNode 35 (Place 280 18) (Place 291 18) false; SNode 36 (Place 281 18) (Place 290 18) true; SNode 37 (Place 281 18) (Place 290 18) false; SNode 38 (Place 292 18) (Place 307 18) false; SNode 39 (Place 275 18) (Place 315 18) false; SNode 40 (Place 307 18) (Place 309 18) false; SNode 41 (Place 310 18) (Place 315 18) false; SNode 42 (Place 310 18) (Place 315 18) true; SNode 43 (Place 310 18) (Place 315 18) false; SNode 44 (Place 316 18) (Place 354 20) true; SNode 45 (Place 319 19) (Place 352 19) true; SNode 46 (Place 326 19) (Place 352 19) false; SNode 47 (Place 327 19) (Place 352 19) false; SNode 48 (Place 327 19) (Place 338 19) false; SNode 49 (Place 339 19) (Place 351 19) false; SNode 50 (Place 356 22) (Place 399 24) true; SNode 51 (Place 361 22) (Place 399 24) true; SNode 52 (Place 361 22) (Place 372 22) false; SNode 53 (Place 373 22) (Place 399 24) false; SNode 54 (Place 380 22) (Place 399 24) false; SNode 55 (Place 383 23) (Place 397 23) true; SNode 56 (Place 383 23) (Place 390 23) false; SNode 57 (Place 391 23) (Place 397 23) false; SNode 58 (Place 401 26) (Place 471 26) true; SNode 59 (Place 406 26) (Place 422 26) false; SNode 60 (Place 407 26) (Place 421 26) true; SNode 61 (Place 407 26) (Place 408 26) false; SNode 62 (Place 409 26) (Place 421 26) false; SNode 63 (Place 410 26) (Place 421 26) false; SNode 64 (Place 423 26) (Place 427 26) false; SNode 65 (Place 401 26) (Place 436 26) false; SNode 66 (Place 427 26) (Place 429 26) false; SNode 67 (Place 430 26) (Place 436 26) false; SNode 68 (Place 430 26) (Place 436 26) true; SNode 69 (Place 430 26) (Place 436 26) false; SNode 70 (Place 451 26) (Place 471 26) true; SNode 71 (Place 453 26) (Place 469 26) true; SNode 72 (Place 460 26) (Place 469 26) false; SNode 73 (Place 460 26) (Place 461 26) false; SNode 74 (Place 462 26) (Place 469 26) false; SNode 75 (Place 472 27) (Place 542 27) true; SNode 76 (Place 477 27) (Place 493 27) false; SNode 77 (Place 478 27) (Place 492 27) true; SNode 78 (Place 478 27) (Place 479 27) false; SNode 79 (Place 480 27) (Place 492 27) false; SNode 80 (Place 481 27) (Place 492 27) false; SNode 81 (Place 494 27) (Place 501 27) false; SNode 82 (Place 472 27) (Place 510 27) false; SNode 83 (Place 501 27) (Place 503 27) false; SNode 84 (Place 504 27) (Place 510 27) false; SNode 85 (Place 504 27) (Place 510 27) true; SNode 86 (Place 504 27) (Place 510 27) false; SNode 87 (Place 522 27) (Place 542 27) true; SNode 88 (Place 524 27) (Place 540 27) true; SNode 89 (Place 531 27) (Place 540 27) false; SNode 90 (Place 531 27) (Place 532 27) false; SNode 91 (Place 533 27) (Place 540 27) false; SNode 92 (Place 543 28) (Place 607 28) true; SNode 93 (Place 548 28) (Place 564 28) false; SNode 94 (Place 549 28) (Place 563 28) true; SNode 95 (Place 549 28) (Place 550 28) false; SNode 96 (Place 551 28) (Place 563 28) false; SNode 97 (Place 552 28) (Place 563 28) false; SNode 98 (Place 565 28) (Place 572 28) false; SNode 99 (Place 543 28) (Place 592 28) false; SNode 100 (Place 572 28) (Place 574 28) false; SNode 101 (Place 575 28) (Place 592 28) false; SNode 102 (Place 575 28) (Place 592 28) true; SNode 103 (Place 575 28) (Place 592 28) false; SNode 104 (Place 579 28) (Place 585 28) false; SNode 105 (Place 586 28) (Place 592 28) false; SNode 106 (Place 593 28) (Place 607 28) true; SNode 107 (Place 595 28) (Place 605 28) true; SNode 108 (Place 602 28) (Place 605 28) false; SNode 109 (Place 608 29) (Place 672 29) true; SNode 110 (Place 613 29) (Place 629 29) false; SNode 111 (Place 614 29) (Place 628 29) true; SNode 112 (Place 614 29) (Place 615 29) false; SNode 113 (Place 616 29) (Place 628 29) false; SNode 114 (Place 617 29) (Place 628 29) false; SNode 115 (Place 630 29) (Place 635 29) false; SNode 116 (Place 608 29) (Place 643 29) false; SNode 117 (Place 635 29) (Place 637 29) false; SNode 118 (Place 638 29) (Place 643 29) false; SNode 119 (Place 638 29) (Place 643 29) true; SNode 120 (Place 638 29) (Place 643 29) false; SNode 121 (Place 658 29) (Place 672 29) true; SNode 122 (Place 660 29) (Place 670 29) true; SNode 123 (Place 667 29) (Place 670 29) false; SNode 124 (Place 673 30) (Place 745 30) true; SNode 125 (Place 678 30) (Place 694 30) false; SNode 126 (Place 679 30) (Place 693 30) true; SNode 127 (Place 679 30) (Place 680 30) false; SNode 128 (Place 681 30) (Place 693 30) false; SNode 129 (Place 682 30) (Place 693 30) false; SNode 130 (Place 695 30) (Place 700 30) false; SNode 131 (Place 673 30) (Place 709 30) false; SNode 132 (Place 700 30) (Place 702 30) false; SNode 133 (Place 703 30) (Place 709 30) false; SNode 134 (Place 703 30) (Place 709 30) true; SNode 135 (Place 703 30) (Place 709 30) false; SNode 136 (Place 723 30) (Place 745 30) true; SNode 137 (Place 725 30) (Place 743 30) true; SNode 138 (Place 732 30) (Place 743 30) false; SNode 139 (Place 732 30) (Place 741 30) false; SNode 140 (Place 732 30) (Place 733 30) false; SNode 141 (Place 734 30) (Place 741 30) false; SNode 142 (Place 747 32) (Place 796 34) true; SNode 143 (Place 752 32) (Place 796 34) true; SNode 144 (Place 752 32) (Place 769 32) false; SNode 145 (Place 770 32) (Place 796 34) false; SNode 146 (Place 777 32) (Place 796 34) false; SNode 147 (Place 780 33) (Place 794 33) true; SNode 148 (Place 780 33) (Place 787 33) false; SNode 149 (Place 788 33) (Place 794 33) false; SNode 150 (Place 798 36) (Place 861 36) true; SNode 151 (Place 803 36) (Place 825 36) false; SNode 152 (Place 804 36) (Place 824 36) true; SNode 153 (Place 804 36) (Place 805 36) false; SNode 154 (Place 806 36) (Place 824 36) false; SNode 155 (Place 807 36) (Place 824 36) false; SNode 156 (Place 826 36) (Place 830 36) false; SNode 157 (Place 798 36) (Place 839 36) false; SNode 158 (Place 830 36) (Place 832 36) false; SNode 159 (Place 833 36) (Place 839 36) false; SNode 160 (Place 833 36) (Place 839 36) true; SNode 161 (Place 833 36) (Place 839 36) false; SNode 162 (Place 841 36) (Place 861 36) true; SNode 163 (Place 843 36) (Place 859 36) true; SNode 164 (Place 850 36) (Place 859 36) false; SNode 165 (Place 850 36) (Place 851 36) false; SNode 166 (Place 852 36) (Place 859 36) false; SNode 167 (Place 862 37) (Place 925 37) true; SNode 168 (Place 867 37) (Place 889 37) false; SNode 169 (Place 868 37) (Place 888 37) true; SNode 170 (Place 868 37) (Place 869 37) false; SNode 171 (Place 870 37) (Place 888 37) false; SNode 172 (Place 871 37) (Place 888 37) false; SNode 173 (Place 890 37) (Place 895 37) false; SNode 174 (Place 862 37) (Place 904 37) false; SNode 175 (Place 895 37) (Place 897 37) false; SNode 176 (Place 898 37) (Place 904 37) false; SNode 177 (Place 898 37) (Place 904 37) true; SNode 178 (Place 898 37) (Place 904 37) false; SNode 179 (Place 905 37) (Place 925 37) true; SNode 180 (Place 907 37) (Place 923 37) true; SNode 181 (Place 914 37) (Place 923 37) false; SNode 182 (Place 914 37) (Place 915 37) false; SNode 183 (Place 916 37) (Place 923 37) false].
Definition t_dotimport_inner2_cgroups0 : list cgroup := [CGroup (Place 16 3) (Place 111 7) [(str "// ExportedFunc2 is a demo function."); (str "//"); (str "// Errors:"); (str "//"); (str "//    - hello-error -- is always returned")]].
Definition t_dotimport_inner2_files : list source_file := [SourceFile t_dotimport_inner2_nodes0 t_dotimport_inner2_cgroups0].
Definition t_dotimport_inner2_info : typeinfo := map_info (list_to_map t_dotimport_inner2_types) (list_to_map t_dotimport_inner2_values) (list_to_map t_dotimport_inner2_uses) (list_to_map t_dotimport_inner2_defs) (list_to_map t_dotimport_inner2_sels) (list_to_set [1; 4; 5; 6; 7; 8; 9; 10; 11; 12; 13; 14; 15; 16; 17; 18; 19; 20; 49; 51; 57; 70; 72; 78; 98]) (list_to_map t_dotimport_inner2_pkgnames) (list_to_map t_dotimport_inner2_objnames) (list_to_map t_dotimport_inner2_objtypes) (list_to_map t_dotimport_inner2_under) t_dotimport_inner2_methods t_dotimport_inner2_ierr t_dotimport_inner2_iree t_dotimport_inner2_icause t_dotimport_inner2_impl (list_to_map t_dotimport_inner2_named_methods).
Definition t_dotimport_inner2 : package := Package (list_to_map [(1, t_dotimport_inner2_f1); (2, t_dotimport_inner2_f2); (3, t_dotimport_inner2_f3); (4, t_dotimport_inner2_f4); (5, t_dotimport_inner2_f5); (6, t_dotimport_inner2_f6); (7, t_dotimport_inner2_f7); (8, t_dotimport_inner2_f8); (9, t_dotimport_inner2_f9); (10, t_dotimport_inner2_f10)]) [1; 2; 3; 4; 5; 6; 7; 8; 9; 10] t_dotimport_inner2_gendecls t_dotimport_inner2_top (list_to_map t_dotimport_inner2_objs) (fun id => default [] (createCommentMap t_dotimport_inner2_files id)) t_dotimport_inner2_info.
Definition t_dotimport_inner2_rank : gostring -> nat := fun n => default 0%nat ((list_to_map [] : gmap gostring nat) !! n).
Definition t_dotimport_f1 : func := Func 10 (Some (DeclInfo (Ident 11 (str "RunPackage1") (Some 1)) None (Some (comment_text [(str "// RunPackage1 is a demo function."); (str "//"); (str "// Errors:"); (str "//"); (str "//    - hello-error -- is always returned")])))) (FuncType 12 [] (Some [(Field 15 [] 16)]) 189) (Some (Node 17 (KOther (str "*ast.BlockStmt")) [(Node 18 KReturn [(Node 19 KCall [(Node 20 (KIdent (str "ExportedFunc1") None) [])])])])) 195 268.
Definition t_dotimport_f2 : func := Func 21 (Some (DeclInfo (Ident 22 (str "RunPackage2") (Some 2)) None (Some (comment_text [(str "// RunPackage2 is a demo function"); (str "//"); (str "// Errors:"); (str "//"); (str "//    - hello-error -- is always returned")])))) (FuncType 23 [] (Some [(Field 26 [] 27)]) 382) (Some (Node 28 (KOther (str "*ast.BlockStmt")) [(Node 29 KReturn [(Node 30 KCall [(Node 31 (KIdent (str "ExportedFunc2") None) [])])])])) 388 461.
Definition t_dotimport_f3 : func := Func 32 (Some (DeclInfo (Ident 33 (str "ReturnInner1Error") (Some 3)) None (Some (comment_text [(str "// ReturnInner1Error returns an error from another package."); (str "//"); (str "// Errors:"); (str "//"); (str "//    - inner1-error -- is always returned")])))) (FuncType 34 [] (Some [(Field 37 [] 38)]) 608) (Some (Node 39 (KOther (str "*ast.BlockStmt")) [(Node 40 KReturn [(Node 41 (KUnary true) [(Node 42 KComposite [(Node 44 KBasicLit [])])])])])) 614 707.
Definition t_dotimport_f4 : func := Func 45 (Some (DeclInfo (Ident 46 (str "ReturnInner2Error") (Some 4)) None (Some (comment_text [(str "// ReturnInner2Error returns an error from another package."); (str "//"); (str "// Errors:"); (str "//"); (str "//    - inner2-error -- is always returned")])))) (FuncType 47 [] (Some [(Field 50 [] 51)]) 854) (Some (Node 52 (KOther (str "*ast.BlockStmt")) [(Node 53 KReturn [(Node 54 (KUnary true) [(Node 55 KComposite [(Node 57 KBasicLit [])])])])])) 860 953.
Definition t_dotimport_f5 : func := Func 58 (Some (DeclInfo (Ident 59 (str "ReturnInner1UnusedError") (Some 5)) None (Some (comment_text [(str "// ReturnInner1UnusedError returns an error from another package,"); (str "// which is not returned by any function in the inner package."); (str "//"); (str "// Errors:"); (str "//"); (str "//    - inner1-unused-error -- is always returned")])))) (FuncType 60 [] (Some [(Field 63 [] 64)]) 1182) (Some (Node 65 (KOther (str "*ast.BlockStmt")) [(Node 66 KReturn [(Node 67 (KUnary true) [(Node 68 KComposite [(Node 70 KBasicLit [])])])])])) 1188 1307.
Definition t_dotimport_f6 : func := Func 71 (Some (DeclInfo (Ident 72 (str "ReturnInner2UnusedError") (Some 6)) None (Some (comment_text [(str "// ReturnInner2UnusedError returns an error from another package,"); (str "// which is not returned by any function in the inner package."); (str "//"); (str "// Errors:"); (str "//"); (str "//    - inner2-unused-error -- is always returned")])))) (FuncType 73 [] (Some [(Field 76 [] 77)]) 1536) (Some (Node 78 (KOther (str "*ast.BlockStmt")) [(Node 79 KReturn [(Node 80 (KUnary true) [(Node 81 KComposite [(Node 83 KBasicLit [])])])])])) 1542 1661.
Definition t_dotimport_f7 : func := Func 84 (Some (DeclInfo (Ident 85 (str "CallToUndeclared1") (Some 7)) None (Some (comment_text [(str "// Errors:"); (str "//"); (str "//    - x-error --")])))) (FuncType 86 [] (Some [(Field 89 [] 90)]) 1721) (Some (Node 91 (KOther (str "*ast.BlockStmt")) [(Node 92 (KOther (str "*ast.IfStmt")) [(Node 93 (KIdent (str "true") None) []); (Node 94 (KOther (str "*ast.BlockStmt")) [(Node 95 KReturn [(Node 96 KCall [(Node 97 (KIdent (str "CodeNotDeclared1") None) [])])])])]); (Node 98 KReturn [(Node 99 (KUnary true) [(Node 100 KComposite [(Node 102 KBasicLit [])])])])])) 1727 1937.
Definition t_dotimport_f8 : func := Func 103 (Some (DeclInfo (Ident 104 (str "CallToUndeclared2") (Some 8)) None (Some (comment_text [(str "// Errors:"); (str "//"); (str "//    - x-error --")])))) (FuncType 105 [] (Some [(Field 108 [] 109)]) 1997) (Some (Node 110 (KOther (str "*ast.BlockStmt")) [(Node 111 (KOther (str "*ast.IfStmt")) [(Node 112 (KIdent (str "true") None) []); (Node 113 (KOther (str "*ast.BlockStmt")) [(Node 114 KReturn [(Node 115 KCall [(Node 116 (KIdent (str "CodeNotDeclared2") None) [])])])])]); (Node 117 KReturn [(Node 118 (KUnary true) [(Node 119 KComposite [(Node 121 KBasicLit [])])])])])) 2003 2213.
Definition t_dotimport_f9 : func := Func 122 (Some (DeclInfo (Ident 123 (str "CallToUndeclared3") (Some 9)) None (Some (comment_text [(str "// Errors:"); (str "//"); (str "//    - x-error --")])))) (FuncType 124 [] (Some [(Field 127 [] 128)]) 2273) (Some (Node 129 (KOther (str "*ast.BlockStmt")) [(Node 130 (KOther (str "*ast.IfStmt")) [(Node 131 (KIdent (str "true") None) []); (Node 132 (KOther (str "*ast.BlockStmt")) [(Node 133 (KAssign 1%nat) [(Node 134 (KIdent (str "object") (Some 10)) []); (Node 135 KComposite [])]); (Node 137 KReturn [(Node 138 KCall [(Node 139 KSelector [(Node 140 (KIdent (str "object") (Some 10)) []); (Node 141 (KIdent (str "CodeNotDeclared") None) [])])])])])]); (Node 142 KReturn [(Node 143 (KUnary true) [(Node 144 KComposite [(Node 146 KBasicLit [])])])])])) 2279 2483.
Definition t_dotimport_f10 : func := Func 147 (Some (DeclInfo (Ident 148 (str "CallToUndeclared4") (Some 11)) None (Some (comment_text [(str "// Errors:"); (str "//"); (str "//    - x-error --")])))) (FuncType 149 [] (Some [(Field 152 [] 153)]) 2543) (Some (Node 154 (KOther (str "*ast.BlockStmt")) [(Node 155 (KOther (str "*ast.IfStmt")) [(Node 156 (KIdent (str "true") None) []); (Node 157 (KOther (str "*ast.BlockStmt")) [(Node 158 (KAssign 1%nat) [(Node 159 (KIdent (str "object") (Some 12)) []); (Node 160 KComposite [])]); (Node 162 KReturn [(Node 163 KCall [(Node 164 KSelector [(Node 165 (KIdent (str "object") (Some 12)) []); (Node 166 (KIdent (str "CodeNotDeclared") None) [])])])])])]); (Node 167 KReturn [(Node 168 (KUnary true) [(Node 169 KComposite [(Node 171 KBasicLit [])])])])])) 2549 2753.
Definition t_dotimport_f11 : func := Func 180 (Some (DeclInfo (Ident 186 (str "Code") None) (Some [(Field 182 [(Ident 183 (str "e") (Some 13))] 184)]) None)) (FuncType 187 [] (Some [(Field 190 [] 191)]) 2887) (Some (Node 192 (KOther (str "*ast.BlockStmt")) [(Node 193 KReturn [(Node 194 KSelector [(Node 195 (KIdent (str "e") (Some 13)) []); (Node 196 (KIdent (str "TheCode") None) [])])])])) 2908 2928.
Definition t_dotimport_f12 : func := Func 197 (Some (DeclInfo (Ident 203 (str "Message") None) (Some [(Field 199 [(Ident 200 (str "e") (Some 14))] 201)]) None)) (FuncType 204 [] (Some [(Field 207 [] 208)]) 2955) (Some (Node 209 (KOther (str "*ast.BlockStmt")) [(Node 210 KReturn [(Node 211 KSelector [(Node 212 (KIdent (str "e") (Some 14)) []); (Node 213 (KIdent (str "TheCode") None) [])])])])) 2973 2993.
Definition t_dotimport_f13 : func := Func 214 (Some (DeclInfo (Ident 220 (str "Details") None) (Some [(Field 216 [(Ident 217 (str "e") (Some 15))] 218)]) None)) (FuncType 221 [] (Some [(Field 224 [] 225)]) 3020) (Some (Node 228 (KOther (str "*ast.BlockStmt")) [(Node 229 KReturn [(Node 230 (KIdent (str "nil") None) [])])])) 3038 3052.
Definition t_dotimport_f14 : func := Func 231 (Some (DeclInfo (Ident 237 (str "Cause") None) (Some [(Field 233 [(Ident 234 (str "e") (Some 16))] 235)]) None)) (FuncType 238 [] (Some [(Field 241 [] 242)]) 3077) (Some (Node 243 (KOther (str "*ast.BlockStmt")) [(Node 244 KReturn [(Node 245 (KIdent (str "nil") None) [])])])) 3097 3111.
Definition t_dotimport_f15 : func := Func 246 (Some (DeclInfo (Ident 252 (str "Error") None) (Some [(Field 248 [(Ident 249 (str "e") (Some 17))] 250)]) None)) (FuncType 253 [] (Some [(Field 256 [] 257)]) 3136) (Some (Node 258 (KOther (str "*ast.BlockStmt")) [(Node 259 KReturn [(Node 260 KCall [(Node 261 KSelector [(Node 262 (KIdent (str "e") (Some 17)) []); (Node 263 (KIdent (str "Message") None) [])])])])])) 3156 3178.
Definition t_dotimport_gendecls : list gendecl := [GenDecl 3 [None; None]; GenDecl 172 [(Some (TypeSpec (Ident 174 (str "Error") (Some 18)) (XStruct [[(Ident 178 (str "TheCode") None)]])))]].
Definition t_dotimport_top : list topdecl := [TopNode (Node 3 (KOther (str "*ast.GenDecl")) [(Node 4 (KOther (str "*ast.ImportSpec")) []); (Node 7 (KOther (str "*ast.ImportSpec")) [])]); TopFunc 1; TopFunc 2; TopFunc 3; TopFunc 4; TopFunc 5; TopFunc 6; TopFunc 7; TopFunc 8; TopFunc 9; TopFunc 10; TopNode (Node 172 (KOther (str "*ast.GenDecl")) [(Node 173 (KOther (str "*ast.TypeSpec")) [])]); TopFunc 11; TopFunc 12; TopFunc 13; TopFunc 14; TopFunc 15].
Definition t_dotimport_objs : list (N * object) := [(1, Object false 175 (DFunc 1)); (2, Object false 368 (DFunc 2)); (3, Object false 588 (DFunc 3)); (4, Object false 834 (DFunc 4)); (5, Object false 1156 (DFunc 5)); (6, Object false 1510 (DFunc 6)); (7, Object false 1701 (DFunc 7)); (8, Object false 1977 (DFunc 8)); (9, Object false 2253 (DFunc 9)); (10, Object true 2342 DOther); (11, Object false 2523 (DFunc 10)); (12, Object true 2612 DOther); (13, Object true 2870 DOther); (14, Object true 2935 DOther); (15, Object true 3000 DOther); (16, Object true 3059 DOther); (17, Object true 3118 DOther); (18, Object false 2760 DType)].
Definition t_dotimport_types : list (N * gotype) := [(12, (TSignature [] [(TNamed 1)] false)); (16, (TNamed 1)); (19, (TNamed 1)); (20, (TSignature [] [(TNamed 1)] false)); (23, (TSignature [] [(TNamed 1)] false)); (27, (TNamed 1)); (30, (TNamed 1)); (31, (TSignature [] [(TNamed 1)] false)); (34, (TSignature [] [(TNamed 1)] false)); (38, (TNamed 1)); (41, (TPointer (TNamed 51))); (42, (TNamed 51)); (43, (TNamed 51)); (44, (TBasic (str "string"))); (47, (TSignature [] [(TNamed 1)] false)); (51, (TNamed 1)); (54, (TPointer (TNamed 72))); (55, (TNamed 72)); (56, (TNamed 72)); (57, (TBasic (str "string"))); (60, (TSignature [] [(TNamed 1)] false)); (64, (TNamed 1)); (67, (TPointer (TNamed 57))); (68, (TNamed 57)); (69, (TNamed 57)); (70, (TBasic (str "string"))); (73, (TSignature [] [(TNamed 1)] false)); (77, (TNamed 1)); (80, (TPointer (TNamed 78))); (81, (TNamed 78)); (82, (TNamed 78)); (83, (TBasic (str "string"))); (86, (TSignature [] [(TNamed 1)] false)); (90, (TNamed 1)); (93, (TBasic (str "bool"))); (96, (TNamed 1)); (97, (TSignature [] [(TNamed 1)] false)); (99, (TPointer (TNamed 98))); (100, (TNamed 98)); (101, (TNamed 98)); (102, (TBasic (str "string"))); (105, (TSignature [] [(TNamed 1)] false)); (109, (TNamed 1)); (112, (TBasic (str "bool"))); (115, (TNamed 1)); (116, (TSignature [] [(TNamed 1)] false)); (118, (TPointer (TNamed 98))); (119, (TNamed 98)); (120, (TNamed 98)); (121, (TBasic (str "string"))); (124, (TSignature [] [(TNamed 1)] false)); (128, (TNamed 1)); (131, (TBasic (str "bool"))); (134, (TNamed 49)); (135, (TNamed 49)); (136, (TNamed 49)); (138, (TNamed 1)); (139, (TSignature [] [(TNamed 1)] false)); (140, (TNamed 49)); (141, (TSignature [] [(TNamed 1)] false)); (143, (TPointer (TNamed 98))); (144, (TNamed 98)); (145, (TNamed 98)); (146, (TBasic (str "string"))); (149, (TSignature [] [(TNamed 1)] false)); (153, (TNamed 1)); (156, (TBasic (str "bool"))); (159, (TNamed 70)); (160, (TNamed 70)); (161, (TNamed 70)); (163, (TNamed 1)); (164, (TSignature [] [(TNamed 1)] false)); (165, (TNamed 70)); (166, (TSignature [] [(TNamed 1)] false)); (168, (TPointer (TNamed 98))); (169, (TNamed 98)); (170, (TNamed 98)); (171, (TBasic (str "string"))); (174, (TNamed 98)); (175, (TStruct [((str "TheCode"), (TBasic (str "string")))])); (178, (TBasic (str "string"))); (179, (TBasic (str "string"))); (183, (TPointer (TNamed 98))); (184, (TPointer (TNamed 98))); (185, (TNamed 98)); (187, (TSignature [] [(TBasic (str "string"))] false)); (191, (TBasic (str "string"))); (194, (TBasic (str "string"))); (195, (TPointer (TNamed 98))); (196, (TBasic (str "string"))); (200, (TPointer (TNamed 98))); (201, (TPointer (TNamed 98))); (202, (TNamed 98)); (204, (TSignature [] [(TBasic (str "string"))] false)); (208, (TBasic (str "string"))); (211, (TBasic (str "string"))); (212, (TPointer (TNamed 98))); (213, (TBasic (str "string"))); (217, (TPointer (TNamed 98))); (218, (TPointer (TNamed 98))); (219, (TNamed 98)); (221, (TSignature [] [(TMap (TBasic (str "string")) (TBasic (str "string")))] false)); (225, (TMap (TBasic (str "string")) (TBasic (str "string")))); (226, (TBasic (str "string"))); (227, (TBasic (str "string"))); (230, TUntypedNil); (234, (TPointer (TNamed 98))); (235, (TPointer (TNamed 98))); (236, (TNamed 98)); (238, (TSignature [] [(TNamed 1)] false)); (242, (TNamed 1)); (245, TUntypedNil); (249, (TPointer (TNamed 98))); (250, (TPointer (TNamed 98))); (251, (TNamed 98)); (253, (TSignature [] [(TBasic (str "string"))] false)); (257, (TBasic (str "string"))); (260, (TBasic (str "string"))); (261, (TSignature [] [(TBasic (str "string"))] false)); (262, (TPointer (TNamed 98))); (263, (TSignature [] [(TBasic (str "string"))] false))].
Definition t_dotimport_values : list (N * constval) := [(44, CString (str "inner1-error")); (57, CString (str "inner2-error")); (70, CString (str "inner1-unused-error")); (83, CString (str "inner2-unused-error")); (93, COther); (102, CString (str "x-error")); (112, COther); (121, CString (str "x-error")); (131, COther); (146, CString (str "x-error")); (156, COther); (171, CString (str "x-error"))].
Definition t_dotimport_uses : list (N * tobj) := [(16, 1); (20, 47); (27, 1); (31, 68); (38, 1); (43, 51); (51, 1); (56, 72); (64, 1); (69, 57); (77, 1); (82, 78); (90, 1); (93, 21); (97, 48); (101, 98); (109, 1); (112, 21); (116, 69); (120, 98); (128, 1); (131, 21); (136, 49); (140, 109); (141, 50); (145, 98); (153, 1); (156, 21); (161, 70); (165, 110); (166, 71); (170, 98); (179, 5); (185, 98); (191, 5); (195, 104); (196, 67); (202, 98); (208, 5); (212, 105); (213, 67); (219, 98); (226, 5); (227, 5); (230, 24); (236, 98); (242, 1); (245, 24); (251, 98); (257, 5); (262, 108); (263, 100)].
Definition t_dotimport_defs : list (N * tobj) := [(11, 88); (22, 89); (33, 90); (46, 91); (59, 92); (72, 93); (85, 94); (104, 95); (123, 96); (134, 109); (148, 97); (159, 110); (174, 98); (183, 104); (186, 99); (200, 105); (203, 100); (217, 106); (220, 101); (234, 107); (237, 102); (249, 108); (252, 103)].
Definition t_dotimport_sels : list (N * (tobj * gotype)) := [(139, (50, (TNamed 49))); (164, (71, (TNamed 70))); (194, (67, (TPointer (TNamed 98)))); (211, (67, (TPointer (TNamed 98)))); (261, (100, (TPointer (TNamed 98))))].
Definition t_dotimport_pkgnames : list (N * gostring) := [].
Definition t_dotimport_objnames : list (N * gostring) := [(1, (str "error")); (2, (str "Error")); (3, (str "?")); (4, (str "bool")); (5, (str "string")); (6, (str "int")); (7, (str "int8")); (8, (str "int16")); (9, (str "int32")); (10, (str "int64")); (11, (str "uint")); (12, (str "uint8")); (13, (str "uint16")); (14, (str "uint32")); (15, (str "uint64")); (16, (str "uintptr")); (17, (str "float32")); (18, (str "float64")); (19, (str "complex64")); (20, (str "complex128")); (21, (str "true")); (22, (str "false")); (23, (str "iota")); (24, (str "nil")); (25, (str "append")); (26, (str "cap")); (27, (str "close")); (28, (str "complex")); (29, (str "copy")); (30, (str "delete")); (31, (str "imag")); (32, (str "len")); (33, (str "make")); (34, (str "new")); (35, (str "panic")); (36, (str "print")); (37, (str "println")); (38, (str "real")); (39, (str "recover")); (40, (str "Errorf")); (41, (str "Sprintf")); (42, (str "Println")); (43, (str "New")); (44, (str "HasPrefix")); (45, (str "Float32")); (46, (str "Float64")); (47, (str "ExportedFunc1")); (48, (str "CodeNotDeclared1")); (49, (str "SomeType1")); (50, (str "CodeNotDeclared")); (51, (str "Inner1Error")); (52, (str "Code")); (53, (str "Message")); (54, (str "Details")); (55, (str "Cause")); (56, (str "Error")); (57, (str "Inner1UnusedError")); (58, (str "Code")); (59, (str "Error")); (60, (str "e")); (61, (str "e")); (62, (str "e")); (63, (str "e")); (64, (str "e")); (65, (str "e")); (66, (str "e")); (67, (str "TheCode")); (68, (str "ExportedFunc2")); (69, (str "CodeNotDeclared2")); (70, (str "SomeType2")); (71, (str "CodeNotDeclared")); (72, (str "Inner2Error")); (73, (str "Code")); (74, (str "Message")); (75, (str "Details")); (76, (str "Cause")); (77, (str "Error")); (78, (str "Inner2UnusedError")); (79, (str "Code")); (80, (str "Error")); (81, (str "e")); (82, (str "e")); (83, (str "e")); (84, (str "e")); (85, (str "e")); (86, (str "e")); (87, (str "e")); (88, (str "RunPackage1")); (89, (str "RunPackage2")); (90, (str "ReturnInner1Error")); (91, (str "ReturnInner2Error")); (92, (str "ReturnInner1UnusedError")); (93, (str "ReturnInner2UnusedError")); (94, (str "CallToUndeclared1")); (95, (str "CallToUndeclared2")); (96, (str "CallToUndeclared3")); (97, (str "CallToUndeclared4")); (98, (str "Error")); (99, (str "Code")); (100, (str "Message")); (101, (str "Details")); (102, (str "Cause")); (103, (str "Error")); (104, (str "e")); (105, (str "e")); (106, (str "e")); (107, (str "e")); (108, (str "e")); (109, (str "object")); (110, (str "object"))].
Definition t_dotimport_objtypes : list (N * gotype) := [(1, (TNamed 1)); (2, (TSignature [] [(TBasic (str "string"))] false)); (4, (TBasic (str "bool"))); (5, (TBasic (str "string"))); (6, (TBasic (str "int"))); (7, (TBasic (str "int8"))); (8, (TBasic (str "int16"))); (9, (TBasic (str "int32"))); (10, (TBasic (str "int64"))); (11, (TBasic (str "uint"))); (12, (TBasic (str "uint8"))); (13, (TBasic (str "uint16"))); (14, (TBasic (str "uint32"))); (15, (TBasic (str "uint64"))); (16, (TBasic (str "uintptr"))); (17, (TBasic (str "float32"))); (18, (TBasic (str "float64"))); (19, (TBasic (str "complex64"))); (20, (TBasic (str "complex128"))); (40, (TSignature [(TBasic (str "string")); (TSlice (TInterface 4))] [(TNamed 1)] true)); (41, (TSignature [(TBasic (str "string")); (TSlice (TInterface 4))] [(TBasic (str "string"))] true)); (42, (TSignature [(TSlice (TInterface 4))] [(TBasic (str "int")); (TNamed 1)] true)); (43, (TSignature [(TBasic (str "string"))] [(TNamed 1)] false)); (44, (TSignature [(TBasic (str "string")); (TBasic (str "string"))] [(TBasic (str "bool"))] false)); (45, (TSignature [] [(TBasic (str "float32"))] false)); (46, (TSignature [] [(TBasic (str "float64"))] false)); (47, (TSignature [] [(TNamed 1)] false)); (48, (TSignature [] [(TNamed 1)] false)); (49, (TNamed 49)); (50, (TSignature [] [(TNamed 1)] false)); (51, (TNamed 51)); (52, (TSignature [] [(TBasic (str "string"))] false)); (53, (TSignature [] [(TBasic (str "string"))] false)); (54, (TSignature [] [(TMap (TBasic (str "string")) (TBasic (str "string")))] false)); (55, (TSignature [] [(TNamed 1)] false)); (56, (TSignature [] [(TBasic (str "string"))] false)); (57, (TNamed 57)); (58, (TSignature [] [(TBasic (str "string"))] false)); (59, (TSignature [] [(TBasic (str "string"))] false)); (60, (TPointer (TNamed 51))); (61, (TPointer (TNamed 51))); (62, (TPointer (TNamed 51))); (63, (TPointer (TNamed 51))); (64, (TPointer (TNamed 51))); (65, (TPointer (TNamed 57))); (66, (TPointer (TNamed 57))); (67, (TBasic (str "string"))); (68, (TSignature [] [(TNamed 1)] false)); (69, (TSignature [] [(TNamed 1)] false)); (70, (TNamed 70)); (71, (TSignature [] [(TNamed 1)] false)); (72, (TNamed 72)); (73, (TSignature [] [(TBasic (str "string"))] false)); (74, (TSignature [] [(TBasic (str "string"))] false)); (75, (TSignature [] [(TMap (TBasic (str "string")) (TBasic (str "string")))] false)); (76, (TSignature [] [(TNamed 1)] false)); (77, (TSignature [] [(TBasic (str "string"))] false)); (78, (TNamed 78)); (79, (TSignature [] [(TBasic (str "string"))] false)); (80, (TSignature [] [(TBasic (str "string"))] false)); (81, (TPointer (TNamed 72))); (82, (TPointer (TNamed 72))); (83, (TPointer (TNamed 72))); (84, (TPointer (TNamed 72))); (85, (TPointer (TNamed 72))); (86, (TPointer (TNamed 78))); (87, (TPointer (TNamed 78))); (88, (TSignature [] [(TNamed 1)] false)); (89, (TSignature [] [(TNamed 1)] false)); (90, (TSignature [] [(TNamed 1)] false)); (91, (TSignature [] [(TNamed 1)] false)); (92, (TSignature [] [(TNamed 1)] false)); (93, (TSignature [] [(TNamed 1)] false)); (94, (TSignature [] [(TNamed 1)] false)); (95, (TSignature [] [(TNamed 1)] false)); (96, (TSignature [] [(TNamed 1)] false)); (97, (TSignature [] [(TNamed 1)] false)); (98, (TNamed 98)); (99, (TSignature [] [(TBasic (str "string"))] false)); (100, (TSignature [] [(TBasic (str "string"))] false)); (101, (TSignature [] [(TMap (TBasic (str "string")) (TBasic (str "string")))] false)); (102, (TSignature [] [(TNamed 1)] false)); (103, (TSignature [] [(TBasic (str "string"))] false)); (104, (TPointer (TNamed 98))); (105, (TPointer (TNamed 98))); (106, (TPointer (TNamed 98))); (107, (TPointer (TNamed 98))); (108, (TPointer (TNamed 98))); (109, (TNamed 49)); (110, (TNamed 70))].
Definition t_dotimport_under : list (N * gotype) := [(1, (TInterface 1)); (49, (TStruct [])); (51, (TStruct [((str "TheCode"), (TBasic (str "string")))])); (57, (TStruct [((str "TheCode"), (TBasic (str "string")))])); (70, (TStruct [])); (72, (TStruct [((str "TheCode"), (TBasic (str "string")))])); (78, (TStruct [((str "TheCode"), (TBasic (str "string")))])); (98, (TStruct [((str "TheCode"), (TBasic (str "string")))]))].
Definition t_dotimport_named_methods : list (N * (list gostring)) := [(49, [(str "CodeNotDeclared")]); (51, [(str "Code"); (str "Message"); (str "Details"); (str "Cause"); (str "Error")]); (57, [(str "Code"); (str "Error")]); (70, [(str "CodeNotDeclared")]); (72, [(str "Code"); (str "Message"); (str "Details"); (str "Cause"); (str "Error")]); (78, [(str "Code"); (str "Error")]); (98, [(str "Code"); (str "Message"); (str "Details"); (str "Cause"); (str "Error")])].
Definition t_dotimport_methods : list (gotype * gostring * tobj) := [((TInterface 1), (str "Error"), 2); ((TNamed 1), (str "Error"), 2); ((TNamed 49), (str "CodeNotDeclared"), 50); ((TNamed 70), (str "CodeNotDeclared"), 71); ((TPointer (TNamed 49)), (str "CodeNotDeclared"), 50); ((TPointer (TNamed 51)), (str "Cause"), 55); ((TPointer (TNamed 51)), (str "Code"), 52); ((TPointer (TNamed 51)), (str "Details"), 54); ((TPointer (TNamed 51)), (str "Error"), 56); ((TPointer (TNamed 51)), (str "Message"), 53); ((TPointer (TNamed 57)), (str "Code"), 58); ((TPointer (TNamed 57)), (str "Error"), 59); ((TPointer (TNamed 70)), (str "CodeNotDeclared"), 71); ((TPointer (TNamed 72)), (str "Cause"), 76); ((TPointer (TNamed 72)), (str "Code"), 73); ((TPointer (TNamed 72)), (str "Details"), 75); ((TPointer (TNamed 72)), (str "Error"), 77); ((TPointer (TNamed 72)), (str "Message"), 74); ((TPointer (TNamed 78)), (str "Code"), 79); ((TPointer (TNamed 78)), (str "Error"), 80); ((TPointer (TNamed 98)), (str "Cause"), 102); ((TPointer (TNamed 98)), (str "Code"), 99); ((TPointer (TNamed 98)), (str "Details"), 101); ((TPointer (TNamed 98)), (str "Error"), 103); ((TPointer (TNamed 98)), (str "Message"), 100)].
Definition t_dotimport_ierr : list gotype := [(TInterface 1); (TNamed 1); (TPointer (TNamed 51)); (TPointer (TNamed 57)); (TPointer (TNamed 72)); (TPointer (TNamed 78)); (TPointer (TNamed 98))].
Definition t_dotimport_iree : list gotype := [(TPointer (TNamed 51)); (TPointer (TNamed 57)); (TPointer (TNamed 72)); (TPointer (TNamed 78)); (TPointer (TNamed 98))].
Definition t_dotimport_icause : list gotype := [(TPointer (TNamed 51)); (TPointer (TNamed 72)); (TPointer (TNamed 98))].
Definition t_dotimport_impl : list (gotype * gotype) := [((TInterface 1), (TInterface 1)); ((TNamed 1), (TInterface 1)); ((TPointer (TNamed 51)), (TInterface 1)); ((TPointer (TNamed 57)), (TInterface 1)); ((TPointer (TNamed 72)), (TInterface 1)); ((TPointer (TNamed 78)), (TInterface 1)); ((TPointer (TNamed 98)), (TInterface 1))].
Definition t_dotimport_nodes0 : list snode := [SNode 1 (Place 0 1) (Place 3177 114) true; SNode 2 (Place 8 1) (Place 17 1) false; SNode 3 (Place 19 3) (Place 73 6) true; SNode 4 (Place 29 4) (Place 49 4) true; SNode 5 (Place 29 4) (Place 30 4) false; SNode 6 (Place 31 4) (Place 49 4) false; SNode 7 (Place 51 5) (Place 71 5) true; SNode 8 (Place 51 5) (Place 52 5) false; SNode 9 (Place 53 5) (Place 71 5) false; SNode 10 (Place 169 13) (Place 267 15) true; SNode 11 (Place 174 13) (Place 185 13) false; SNode 12 (Place 169 13) (Place 193 13) false; SNode 13 (Place 185 13) (Place 187 13) false; SNode 14 (Place 188 13) (Place 193 13) false; SNode 15 (Place 188 13) (Place 193 13) true; SNode 16 (Place 188 13) (Place 193 13) false; SNode 17 (Place 194 13) (Place 267 15) true; SNode 18 (Place 243 14) (Place 265 14) true; SNode 19 (Place 250 14) (Place 265 14) false; SNode 20 (Place 250 14) (Place 263 14) false; SNode 21 (Place 362 22) (Place 460 24) true; SNode 22 (Place 367 22) (Place 378 22) false; SNode 23 (Place 362 22) (Place 386 22) false; SNode 24 (Place 378 22) (Place 380 22) false; SNode 25 (Place 381 22) (Place 386 22) false; SNode 26 (Place 381 22) (Place 386 22) true; SNode 27 (Place 381 22) (Place 386 22) false; SNode 28 (Place 387 22) (Place 460 24) true; SNode 29 (Place 436 23) (Place 458 23) true; SNode 30 (Place 443 23) (Place 458 23) false; SNode 31 (Place 443 23) (Place 456 23) false; SNode 32 (Place 582 31) (Place 706 33) true; SNode 33 (Place 587 31) (Place 604 31) false; SNode 34 (Place 582 31) (Place 612 31) false; SNode 35 (Place 604 31) (Place 606 31) false; SNode 36 (Place 607 31) (Place 612 31) false; SNode 37 (Place 607 31) (Place 612 31) true; SNode 38 (Place 607 31) (Place 612 31) false; SNode 39 (Place 613 31) (Place 706 33) true; SNode 40 (Place 669 32) (Place 704 32) true; SNode 41 (Place 676 32) (Place 704 32) false; SNode 42 (Place 677 32) (Place 704 32) false; SNode 43 (Place 677 32) (Place 688 32) false; SNode 44 (Place 689 32) (Place 703 32) false; SNode 45 (Place 828 40) (Place 952 42) true; SNode 46 (Place 833 40) (Place 850 40) false; SNode 47 (Place 828 40) (Place 858 40) false; SNode 48 (Place 850 40) (Place 852 40) false; SNode 49 (Place 853 40) (Place 858 40) false; SNode 50 (Place 853 40) (Place 858 40) true; SNode 51 (Place 853 40) (Place 858 40) false; SNode 52 (Place 859 40) (Place 952 42) true; SNode 53 (Place 915 41) (Place 950 41) true; SNode 54 (Place 922 41) (Place 950 41) false; SNode 55 (Place 923 41) (Place 950 41) false; SNode 56 (Place 923 41) (Place 934 41) false; SNode 57 (Place 935 41) (Place 949 41) false; SNode 58 (Place 1150 50) (Place 1306 52) true; SNode 59 (Place 1155 50) (Place 1178 50) false; SNode 60 (Place 1150 50) (Place 1186 50) false; SNode 61 (Place 1178 50) (Place 1180 50) false; SNode 62 (Place 1181 50) (Place 1186 50) false; SNode 63 (Place 1181 50) (Place 1186 50) true; SNode 64 (Place 1181 50) (Place 1186 50) false; SNode 65 (Place 1187 50) (Place 1306 52) true; SNode 66 (Place 1256 51) (Place 1304 51) true; SNode 67 (Place 1263 51) (Place 1304 51) false; SNode 68 (Place 1264 51) (Place 1304 51) false; SNode 69 (Place 1264 51) (Place 1281 51) false; SNode 70 (Place 1282 51) (Place 1303 51) false; SNode 71 (Place 1504 60) (Place 1660 62) true; SNode 72 (Place 1509 60) (Place 1532 60) false; SNode 73 (Place 1504 60) (Place 1540 60) false; SNode 74 (Place 1532 60) (Place 1534 60) false; SNode 75 (Place 1535 60) (Place 1540 60) false; SNode 76 (Place 1535 60) (Place 1540 60) true; SNode 77 (Place 1535 60) (Place 1540 60) false; SNode 78 (Place 1541 60) (Place 1660 62) true; SNode 79 (Place 1610 61) (Place 1658 61) true; SNode 80 (Place 1617 61) (Place 1658 61) false; SNode 81 (Place 1618 61) (Place 1658 61) false; SNode 82 (Place 1618 61) (Place 1635 61) false; SNode 83 (Place 1636 61) (Place 1657 61) false; SNode 84 (Place 1695 67) (Place 1936 72) true; SNode 85 (Place 1700 67) (Place 1717 67) false; SNode 86 (Place 1695 67) (Place 1725 67) false; SNode 87 (Place 1717 67) (Place 1719 67) false; SNode 88 (Place 1720 67) (Place 1725 67) false; SNode 89 (Place 1720 67) (Place 1725 67) true; SNode 90 (Place 1720 67) (Place 1725 67) false; SNode 91 (Place 1726 67) (Place 1936 72) true; SNode 92 (Place 1777 68) (Place 1908 70) true; SNode 93 (Place 1780 68) (Place 1784 68) false; SNode 94 (Place 1785 68) (Place 1908 70) true; SNode 95 (Place 1789 69) (Place 1814 69) true; SNode 96 (Place 1796 69) (Place 1814 69) false; SNode 97 (Place 1796 69) (Place 1812 69) false; SNode 98 (Place 1910 71) (Place 1934 71) true; SNode 99 (Place 1917 71) (Place 1934 71) false; SNode 100 (Place 1918 71) (Place 1934 71) false; SNode 101 (Place 1918 71) (Place 1923 71) false; SNode 102 (Place 1924 71) (Place 1933 71) false; SNode 103 (Place 1971 77) (Place 2212 82) true; SNode 104 (Place 1976 77) (Place 1993 77) false; SNode 105 (Place 1971 77) (Place 2001 77) false; SNode 106 (Place 1993 77) (Place 1995 77) false; SNode 107 (Place 1996 77) (Place 2001 77) false; SNode 108 (Place 1996 77) (Place 2001 77) true; SNode 109 (Place 1996 77) (Place 2001 77) false; SNode 110 (Place 2002 77) (Place 2212 82) true; SNode 111 (Place 2053 78) (Place 2184 80) true; SNode 112 (Place 2056 78) (Place 2060 78) false; SNode 113 (Place 2061 78) (Place 2184 80) true; SNode 114 (Place 2065 79) (Place 2090 79) true; SNode 115 (Place 2072 79) (Place 2090 79) false; SNode 116 (Place 2072 79) (Place 2088 79) false; SNode 117 (Place 2186 81) (Place 2210 81) true; SNode 118 (Place 2193 81) (Place 2210 81) false; SNode 119 (Place 2194 81) (Place 2210 81) false; SNode 120 (Place 2194 81) (Place 2199 81) false; SNode 121 (Place 2200 81) (Place 2209 81) false; SNode 122 (Place 2247 87) (Place 2482 93) true; SNode 123 (Place 2252 87) (Place 2269 87) false; SNode 124 (Place 2247 87) (Place 2277 87) false; SNode 125 (Place 2269 87) (Place 2271 87) false; SNode 126 (Place 2272 87) (Place 2277 87) false; SNode 127 (Place 2272 87) (Place 2277 87) true; SNode 128 (Place 2272 87) (Place 2277 87) false; SNode 129 (Place 2278 87) (Place 2482 93) true; SNode 130 (Place 2329 88) (Place 2454 91) true; SNode 131 (Place 2332 88) (Place 2336 88) false; SNode 132 (Place 2337 88) (Place 2454 91) true; SNode 133 (Place 2341 89) (Place 2362 89) true; SNode 134 (Place 2341 89) (Place 2347 89) false; SNode 135 (Place 2351 89) (Place 2362 89) false; SNode 136 (Place 2351 89) (Place 2360 89) false; SNode 137 (Place 2365 90) (Place 2396 90) true; SNode 138 (Place 2372 90) (Place 2396 90) false; SNode 139 (Place 2372 90) (Place 2394 90) false; SNode 140 (Place 2372 90) (Place 2378 90) false; SNode 141 (Place 2379 90) (Place 2394 90) false; SNode 142 (Place 2456 92) (Place 2480 92) true; SNode 143 (Place 2463 92) (Place 2480 92) false; SNode 144 (Place 2464 92) (Place 2480 92) false; SNode 145 (Place 2464 92) (Place 2469 92) false; SNode 146 (Place 2470 92) (Place 2479 92) false; SNode 147 (Place 2517 98) (Place 2752 104) true; SNode 148 (Place 2522 98) (Place 2539 98) false; SNode 149 (Place 2517 98) (Place 2547 98) false; SNode 150 (Place 2539 98) (Place 2541 98) false; SNode 151 (Place 2542 98) (Place 2547 98) false; SNode 152 (Place 2542 98) (Place 2547 98) true; SNode 153 (Place 2542 98) (Place 2547 98) false; SNode 154 (Place 2548 98) (Place 2752 104) true; SNode 155 (Place 2599 99) (Place 2724 102) true; SNode 156 (Place 2602 99) (Place 2606 99) false; SNode 157 (Place 2607 99) (Place 2724 102) true; SNode 158 (Place 2611 100) (Place 2632 100) true; SNode 159 (Place 2611 100) (Place 2617 100) false; SNode 160 (Place 2621 100) (Place 2632 100) false; SNode 161 (Place 2621 100) (Place 2630 100) false; SNode 162 (Place 2635 101) (Place 2666 101) true; SNode 163 (Place 2642 101) (Place 2666 101) false; SNode 164 (Place 2642 101) (Place 2664 101) false; SNode 165 (Place 2642 101) (Place 2648 101) false; SNode 166 (Place 2649 101) (Place 2664 101) false; SNode 167 (Place 2726 103) (Place 2750 103) true; SNode 168 (Place 2733 103) (Place 2750 103) false; SNode 169 (Place 2734 103) (Place 2750 103) false; SNode 170 (Place 2734 103) (Place 2739 103) false; SNode 171 (Place 2740 103) (Place 2749 103) false; SNode 172 (Place 2754 106) (Place 2861 108) true; SNode 173 (Place 2759 106) (Place 2861 108) true; SNode 174 (Place 2759 106) (Place 2764 106) false; SNode 175 (Place 2765 106) (Place 2861 108) false; SNode 176 (Place 2772 106) (Place 2861 108) false; SNode 177 (Place 2845 107) (Place 2859 107) true; SNode 178 (Place 2845 107) (Place 2852 107) false; SNode 179 (Place 2853 107) (Place 2859 107) false; SNode 180 (Place 2863 110) (Place 2927 110) true; SNode 181 (Place 2868 110) (Place 2878 110) false; SNode 182 (Place 2869 110) (Place 2877 110) true; SNode 183 (Place 2869 110) (Place 2870 110) false; SNode 184 (Place 2871 110) (Place 2877 110) false; SNode 185 (Place 2872 110) (Place 2877 110) false; SNode 186 (Place 2879 110) (Place 2883 110) false; SNode 187 (Place 2863 110) (Place 2892 110) false; SNode 188 (Place 2883 110) (Place 2885 110) false; SNode 189 (Place 2886 110) (Place 2892 110) false; SNode 190 (Place 2886 110) (Place 2892 110) true; SNode 191 (Place 2886 110) (Place 2892 110) false; SNode 192 (Place 2907 110) (Place 2927 110) true; SNode 193 (Place 2909 110) (Place 2925 110) true; SNode 194 (Place 2916 110) (Place 2925 110) false; SNode 195 (Place 2916 110) (Place 2917 110) false; SNode 196 (Place 2918 110) (Place 2925 110) false; SNode 197 (Place 2928 111) (Place 2992 111) true; SNode 198 (Place 2933 111) (Place 2943 111) false; SNode 199 (Place 2934 111) (Place 2942 111) true; SNode 200 (Place 2934 111) (Place 2935 111) false; SNode 201 (Place 2936 111) (Place 2942 111) false; SNode 202 (Place 2937 111) (Place 2942 111) false; SNode 203 (Place 2944 111) (Place 2951 111) false; SNode 204 (Place 2928 111) (Place 2960 111) false; SNode 205 (Place 2951 111) (Place 2953 111) false; SNode 206 (Place 2954 111) (Place 2960 111) false; SNode 207 (Place 2954 111) (Place 2960 111) true; SNode 208 (Place 2954 111) (Place 2960 111) false; SNode 209 (Place 2972 111) (Place 2992 111) true; SNode 210 (Place 2974 111) (Place 2990 111) true; SNode 211 (Place 2981 111) (Place 2990 111) false; SNode 212 (Place 2981 111) (Place 2982 111) false; SNode 213 (Place 2983 111) (Place 2990 111) false; SNode 214 (Place 2993 112) (Place 3051 112) true; SNode 215 (Place 2998 112) (Place 3008 112) false; SNode 216 (Place 2999 112) (Place 3007 112) true; SNode 217 (Place 2999 112) (Place 3000 112) false; SNode 218 (Place 3001 112) (Place 3007 112) false; SNode 219 (Place 3002 112) (Place 3007 112) false; SNode 220 (Place 3009 112) (Place 3016 112) false; SNode 221 (Place 2993 112) (Place 3036 112) false; SNode 222 (Place 3016 112) (Place 3018 112) false; SNode 223 (Place 3019 112) (Place 3036 112) false; SNode 224 (Place 3019 112) (Place 3036 112) true; SNode 225 (Place 3019 112) (Place 3036 112) false; SNode 226 (Place 3023 112) (Place 3029 112) false; SNode 227 (Place 3030 112) (Place 3036 112) false; SNode 228 (Place 3037 112) (Place 3051 112) true; SNode 229 (Place 3039 112) (Place 3049 112) true; SNode 230 (Place 3046 112) (Place 3049 112) false; SNode 231 (Place 3052 113) (Place 3110 113) true; SNode 232 (Place 3057 113) (Place 3067 113) false; SNode 233 (Place 3058 113) (Place 3066 113) true; SNode 234 (Place 3058 113) (Place 3059 113) false; SNode 235 (Place 3060 113) (Place 3066 113) false; SNode 236 (Place 3061 113) (Place 3066 113) false; SNode 237 (Place 3068 113) (Place 3073 113) false; SNode 238 (Place 3052 113) (Place 3081 113) false; SNode 239 (Place 3073 113) (Place 3075 113) false; SNode 240 (Place 3076 113) (Place 3081 113) false; SNode 241 (Place 3076 113) (Place 3081 113) true; SNode 242 (Place 3076 113) (Place 3081 113) false; SNode 243 (Place 3096 113) (Place 3110 113) true; SNode 244 (Place 3098 113) (Place 3108 113) true; SNode 245 (Place 3105 113) (Place 3108 113) false; SNode 246 (Place 3111 114) (Place 3177 114) true; SNode 247 (Place 3116 114) (Place 3126 114) false; SNode 248 (Place 3117 114) (Place 3125 114) true; SNode 249 (Place 3117 114) (Place 3118 114) false; SNode 250 (Place 3119 114) (Place 3125 114) false; SNode 251 (Place 3120 114) (Place 3125 114) false; SNode 252 (Place 3127 114) (Place 3132 114) false; SNode 253 (Place 3111 114) (Place 3141 114) false; SNode 254 (Place 3132 114) (Place 3134 114) false; SNode 255 (Place 3135 114) (Place 3141 114) false; SNode 256 (Place 3135 114) (Place 3141 114) true; SNode 257 (Place 3135 114) (Place 3141 114) false; SNode 258 (Place 3155 114) (Place 3177 114) true; SNode 259 (Place 3157 114) (Place 3175 114) true; SNode 260 (Place 3164 114) (Place 3175 114) false; SNode 261 (Place 3164 114) (Place 3173 114) false; SNode 262 (Place 3164 114) (Place 3165 114) false; SNode 263 (Place 3166 114) (Place 3173 114) false].
Definition t_dotimport_cgroups0 : list cgroup := [CGroup (Place 75 8) (Place 168 12) [(str "// RunPackage1 is a demo function."); (str "//"); (str "// Errors:"); (str "//"); (str "//    - hello-error -- is always returned")]; CGroup (Place 196 13) (Place 241 13) [(str "// want RunPackage1:""ErrorCodes: hello-error""")]; CGroup (Place 269 17) (Place 361 21) [(str "// RunPackage2 is a demo function"); (str "//"); (str "// Errors:"); (str "//"); (str "//    - hello-error -- is always returned")]; CGroup (Place 389 22) (Place 434 22) [(str "// want RunPackage2:""ErrorCodes: hello-error""")]; CGroup (Place 462 26) (Place 581 30) [(str "// ReturnInner1Error returns an error from another package."); (str "//"); (str "// Errors:"); (str "//"); (str "//    - inner1-error -- is always returned")]; CGroup (Place 615 31) (Place 667 31) [(str "// want ReturnInner1Error:""ErrorCodes: inner1-error""")]; CGroup (Place 708 35) (Place 827 39) [(str "// ReturnInner2Error returns an error from another package."); (str "//"); (str "// Errors:"); (str "//"); (str "//    - inner2-error -- is always returned")]; CGroup (Place 861 40) (Place 913 40) [(str "// want ReturnInner2Error:""ErrorCodes: inner2-error""")]; CGroup (Place 954 44) (Place 1149 49) [(str "// ReturnInner1UnusedError returns an error from another package,"); (str "// which is not returned by any function in the inner package."); (str "//"); (str "// Errors:"); (str "//"); (str "//    - inner1-unused-error -- is always returned")]; CGroup (Place 1189 50) (Place 1254 50) [(str "// want ReturnInner1UnusedError:""ErrorCodes: inner1-unused-error""")]; CGroup (Place 1308 54) (Place 1503 59) [(str "// ReturnInner2UnusedError returns an error from another package,"); (str "// which is not returned by any function in the inner package."); (str "//"); (str "// Errors:"); (str "//"); (str "//    - inner2-unused-error -- is always returned")]; CGroup (Place 1543 60) (Place 1608 60) [(str "// want ReturnInner2UnusedError:""ErrorCodes: inner2-unused-error""")]; CGroup (Place 1662 64) (Place 1694 66) [(str "// Errors:"); (str "//"); (str "//    - x-error --")]; CGroup (Place 1728 67) (Place 1775 67) [(str "// want CallToUndeclared1:""ErrorCodes: x-error""")]; CGroup (Place 1815 69) (Place 1905 69) [(str "// want `function ""CodeNotDeclared1"" in dot-imported package does not declare error codes`")]; CGroup (Place 1938 74) (Place 1970 76) [(str "// Errors:"); (str "//"); (str "//    - x-error --")]; CGroup (Place 2004 77) (Place 2051 77) [(str "// want CallToUndeclared2:""ErrorCodes: x-error""")]; CGroup (Place 2091 79) (Place 2181 79) [(str "// want `function ""CodeNotDeclared2"" in dot-imported package does not declare error codes`")]; CGroup (Place 2214 84) (Place 2246 86) [(str "// Errors:"); (str "//"); (str "//    - x-error --")]; CGroup (Place 2280 87) (Place 2327 87) [(str "// want CallToUndeclared3:""ErrorCodes: x-error""")]; CGroup (Place 2397 90) (Place 2451 90) [(str "// want ""called function does not declare error codes""")]; CGroup (Place 2484 95) (Place 2516 97) [(str "// Errors:"); (str "//"); (str "//    - x-error --")]; CGroup (Place 2550 98) (Place 2597 98) [(str "// want CallToUndeclared4:""ErrorCodes: x-error""")]; CGroup (Place 2667 101) (Place 2721 101) [(str "// want ""called function does not declare error codes""")]; CGroup (Place 2774 106) (Place 2843 106) [(str "// want Error:`ErrorType{Field:{Name:""TheCode"", Position:0}, Codes:}`")]].
Definition t_dotimport_files : list source_file := [SourceFile t_dotimport_nodes0 t_dotimport_cgroups0].
Definition t_dotimport_info : typeinfo := map_info (list_to_map t_dotimport_types) (list_to_map t_dotimport_values) (list_to_map t_dotimport_uses) (list_to_map t_dotimport_defs) (list_to_map t_dotimport_sels) (list_to_set [1; 4; 5; 6; 7; 8; 9; 10; 11; 12; 13; 14; 15; 16; 17; 18; 19; 20; 49; 51; 57; 70; 72; 78; 98]) (list_to_map t_dotimport_pkgnames) (list_to_map t_dotimport_objnames) (list_to_map t_dotimport_objtypes) (list_to_map t_dotimport_under) t_dotimport_methods t_dotimport_ierr t_dotimport_iree t_dotimport_icause t_dotimport_impl (list_to_map t_dotimport_named_methods).
Definition t_dotimport : package := Package (list_to_map [(1, t_dotimport_f1); (2, t_dotimport_f2); (3, t_dotimport_f3); (4, t_dotimport_f4); (5, t_dotimport_f5); (6, t_dotimport_f6); (7, t_dotimport_f7); (8, t_dotimport_f8); (9, t_dotimport_f9); (10, t_dotimport_f10); (11, t_dotimport_f11); (12, t_dotimport_f12); (13, t_dotimport_f13); (14, t_dotimport_f14); (15, t_dotimport_f15)]) [1; 2; 3; 4; 5; 6; 7; 8; 9; 10; 11; 12; 13; 14; 15] t_dotimport_gendecls t_dotimport_top (list_to_map t_dotimport_objs) (fun id => default [] (createCommentMap t_dotimport_files id)) t_dotimport_info.
Definition t_dotimport_rank : gostring -> nat := fun n => default 0%nat ((list_to_map [] : gmap gostring nat) !! n).

(** dotimport/inner1: 2 diagnostics and 3 facts, as its "want" comments demand. *)
Theorem t_dotimport_inner1_ascending :
  report (run_test t_dotimport_inner1 ascending (Facts ∅ ∅ ∅ ∅)) = Some [
    (16, (str "function ""CodeNotDeclared1"" is exported, but does not declare any error codes")) (* inner1.go:12 *);
    (34, (str "function ""CodeNotDeclared"" is exported, but does not declare any error codes")) (* inner1.go:18 *)] /\
  fact_texts (facts_after_test (run_test t_dotimport_inner1 ascending (Facts ∅ ∅ ∅ ∅))) [47; 48; 49; 50; 51; 52; 53; 54; 55; 56; 57; 58; 59; 60; 61; 62; 63; 64; 65; 66] = [
    (47, (str "ErrorCodes: hello-error")) (* inner1.go:8 ExportedFunc1 *);
    (51, (str "ErrorType{Field:{Name:""TheCode"", Position:0}, Codes:}")) (* inner1.go:22 Inner1Error *);
    (57, (str "ErrorType{Field:{Name:""TheCode"", Position:0}, Codes:}")) (* inner1.go:32 Inner1UnusedError *)].
Proof. vm_compute. split; reflexivity. Qed.

(** dotimport/inner1: 2 diagnostics and 3 facts, as its "want" comments demand. *)
Theorem t_dotimport_inner1_descending :
  report (run_test t_dotimport_inner1 descending (Facts ∅ ∅ ∅ ∅)) = Some [
    (34, (str "function ""CodeNotDeclared"" is exported, but does not declare any error codes")) (* inner1.go:18 *);
    (16, (str "function ""CodeNotDeclared1"" is exported, but does not declare any error codes")) (* inner1.go:12 *)] /\
  fact_texts (facts_after_test (run_test t_dotimport_inner1 descending (Facts ∅ ∅ ∅ ∅))) [47; 48; 49; 50; 51; 52; 53; 54; 55; 56; 57; 58; 59; 60; 61; 62; 63; 64; 65; 66] = [
    (47, (str "ErrorCodes: hello-error")) (* inner1.go:8 ExportedFunc1 *);
    (51, (str "ErrorType{Field:{Name:""TheCode"", Position:0}, Codes:}")) (* inner1.go:22 Inner1Error *);
    (57, (str "ErrorType{Field:{Name:""TheCode"", Position:0}, Codes:}")) (* inner1.go:32 Inner1UnusedError *)].
Proof. vm_compute. split; reflexivity. Qed.

(** The presuppositions of the general theorems that this package satisfies. *)
Theorem t_dotimport_inner1_presuppositions :
  (forall fa, usable_functions t_dotimport_inner1 fa) /\
  (forall fa, no_literal_recursion t_dotimport_inner1 (collectFunctions t_dotimport_inner1) fa) /\
  (forall fa, literals_apart t_dotimport_inner1 (collectFunctions t_dotimport_inner1) fa) /\
  types_usable t_dotimport_inner1 /\
  (forall w n, occurs t_dotimport_inner1 w n -> ~ ill_formed t_dotimport_inner1 w n) /\
  distinct_definitions t_dotimport_inner1 /\
  interfaces_ok t_dotimport_inner1 /\
  uses_resolved t_dotimport_inner1 (collectFunctions t_dotimport_inner1) /\
  (forall g fn, pk_funcs t_dotimport_inner1 !! g = Some fn -> disciplined t_dotimport_inner1 (facts_after_test (run_test t_dotimport_inner1 ascending (Facts ∅ ∅ ∅ ∅))) fn /\ resolved t_dotimport_inner1 (collectFunctions t_dotimport_inner1) (facts_after_test (run_test t_dotimport_inner1 ascending (Facts ∅ ∅ ∅ ∅))) fn) /\
  Forall layout t_dotimport_inner1_files.
Proof.
  split_and!.
  - intros fa; apply package_usable_spec; vm_compute; reflexivity.
  - intros fa; apply recursion_check_spec; vm_compute; reflexivity.
  - intros fa; apply apart_spec; vm_compute; reflexivity.
  - apply types_ok_spec; vm_compute; reflexivity.
  - apply package_formed_spec; vm_compute; reflexivity.
  - apply definitions_check_spec; vm_compute; reflexivity.
  - apply (interfaces_check_spec t_dotimport_inner1 t_dotimport_inner1_rank); vm_compute; reflexivity.
  - apply uses_check_spec; vm_compute; reflexivity.
  - intros g fn; apply sound_ok_spec; vm_compute; reflexivity.
  - apply layouts_spec; vm_compute; reflexivity.
Qed.

(** The presuppositions of the general theorems that this package satisfies. *)
Theorem t_dotimport_inner2_presuppositions :
  (forall fa, usable_functions t_dotimport_inner2 fa) /\
  (forall fa, no_literal_recursion t_dotimport_inner2 (collectFunctions t_dotimport_inner2) fa) /\
  (forall fa, literals_apart t_dotimport_inner2 (collectFunctions t_dotimport_inner2) fa) /\
  types_usable t_dotimport_inner2 /\
  (forall w n, occurs t_dotimport_inner2 w n -> ~ ill_formed t_dotimport_inner2 w n) /\
  distinct_definitions t_dotimport_inner2 /\
  interfaces_ok t_dotimport_inner2 /\
  uses_resolved t_dotimport_inner2 (collectFunctions t_dotimport_inner2) /\
  (forall g fn, pk_funcs t_dotimport_inner2 !! g = Some fn -> disciplined t_dotimport_inner2 (facts_after_test (run_test t_dotimport_inner2 ascending (facts_after_test (run_test t_dotimport_inner1 ascending (Facts ∅ ∅ ∅ ∅))))) fn /\ resolved t_dotimport_inner2 (collectFunctions t_dotimport_inner2) (facts_after_test (run_test t_dotimport_inner2 ascending (facts_after_test (run_test t_dotimport_inner1 ascending (Facts ∅ ∅ ∅ ∅))))) fn) /\
  Forall layout t_dotimport_inner2_files.
Proof.
  split_and!.
  - intros fa; apply package_usable_spec; vm_compute; reflexivity.
  - intros fa; apply recursion_check_spec; vm_compute; reflexivity.
  - intros fa; apply apart_spec; vm_compute; reflexivity.
  - apply types_ok_spec; vm_compute; reflexivity.
  - apply package_formed_spec; vm_compute; reflexivity.
  - apply definitions_check_spec; vm_compute; reflexivity.
  - apply (interfaces_check_spec t_dotimport_inner2 t_dotimport_inner2_rank); vm_compute; reflexivity.
  - apply uses_check_spec; vm_compute; reflexivity.
  - intros g fn; apply sound_ok_spec; vm_compute; reflexivity.
  - apply layouts_spec; vm_compute; reflexivity.
Qed.

(** dotimport: 4 diagnostics and 11 facts, as its "want" comments demand. *)
Theorem t_dotimport_ascending :
  report (run_test t_dotimport ascending (facts_after_test (run_test t_dotimport_inner2 ascending (facts_after_test (run_test t_dotimport_inner1 ascending (Facts ∅ ∅ ∅ ∅)))))) = Some [
    (97, (str "function ""CodeNotDeclared1"" in dot-imported package does not declare error codes")) (* dotimport.go:69 *);
    (139, (str "called function does not declare error codes")) (* dotimport.go:90 *);
    (116, (str "function ""CodeNotDeclared2"" in dot-imported package does not declare error codes")) (* dotimport.go:79 *);
    (164, (str "called function does not declare error codes")) (* dotimport.go:101 *)] /\
  fact_texts (facts_after_test (run_test t_dotimport ascending (facts_after_test (run_test t_dotimport_inner2 ascending (facts_after_test (run_test t_dotimport_inner1 ascending (Facts ∅ ∅ ∅ ∅))))))) [88; 89; 90; 91; 92; 93; 94; 95; 96; 97; 98; 99; 100; 101; 102; 103; 104; 105; 106; 107; 108; 109; 110] = [
    (88, (str "ErrorCodes: hello-error")) (* dotimport.go:13 RunPackage1 *);
    (89, (str "ErrorCodes: hello-error")) (* dotimport.go:22 RunPackage2 *);
    (90, (str "ErrorCodes: inner1-error")) (* dotimport.go:31 ReturnInner1Error *);
    (91, (str "ErrorCodes: inner2-error")) (* dotimport.go:40 ReturnInner2Error *);
    (92, (str "ErrorCodes: inner1-unused-error")) (* dotimport.go:50 ReturnInner1UnusedError *);
    (93, (str "ErrorCodes: inner2-unused-error")) (* dotimport.go:60 ReturnInner2UnusedError *);
    (94, (str "ErrorCodes: x-error")) (* dotimport.go:67 CallToUndeclared1 *);
    (95, (str "ErrorCodes: x-error")) (* dotimport.go:77 CallToUndeclared2 *);
    (96, (str "ErrorCodes: x-error")) (* dotimport.go:87 CallToUndeclared3 *);
    (97, (str "ErrorCodes: x-error")) (* dotimport.go:98 CallToUndeclared4 *);
    (98, (str "ErrorType{Field:{Name:""TheCode"", Position:0}, Codes:}")) (* dotimport.go:106 Error *)].
Proof. vm_compute. split; reflexivity. Qed.

(** dotimport: 4 diagnostics and 11 facts, as its "want" comments demand. *)
Theorem t_dotimport_descending :
  report (run_test t_dotimport descending (facts_after_test (run_test t_dotimport_inner2 descending (facts_after_test (run_test t_dotimport_inner1 descending (Facts ∅ ∅ ∅ ∅)))))) = Some [
    (164, (str "called function does not declare error codes")) (* dotimport.go:101 *);
    (116, (str "function ""CodeNotDeclared2"" in dot-imported package does not declare error codes")) (* dotimport.go:79 *);
    (139, (str "called function does not declare error codes")) (* dotimport.go:90 *);
    (97, (str "function ""CodeNotDeclared1"" in dot-imported package does not declare error codes")) (* dotimport.go:69 *)] /\
  fact_texts (facts_after_test (run_test t_dotimport descending (facts_after_test (run_test t_dotimport_inner2 descending (facts_after_test (run_test t_dotimport_inner1 descending (Facts ∅ ∅ ∅ ∅))))))) [88; 89; 90; 91; 92; 93; 94; 95; 96; 97; 98; 99; 100; 101; 102; 103; 104; 105; 106; 107; 108; 109; 110] = [
    (88, (str "ErrorCodes: hello-error")) (* dotimport.go:13 RunPackage1 *);
    (89, (str "ErrorCodes: hello-error")) (* dotimport.go:22 RunPackage2 *);
    (90, (str "ErrorCodes: inner1-error")) (* dotimport.go:31 ReturnInner1Error *);
    (91, (str "ErrorCodes: inner2-error")) (* dotimport.go:40 ReturnInner2Error *);
    (92, (str "ErrorCodes: inner1-unused-error")) (* dotimport.go:50 ReturnInner1UnusedError *);
    (93, (str "ErrorCodes: inner2-unused-error")) (* dotimport.go:60 ReturnInner2UnusedError *);
    (94, (str "ErrorCodes: x-error")) (* dotimport.go:67 CallToUndeclared1 *);
    (95, (str "ErrorCodes: x-error")) (* dotimport.go:77 CallToUndeclared2 *);
    (96, (str "ErrorCodes: x-error")) (* dotimport.go:87 CallToUndeclared3 *);
    (97, (str "ErrorCodes: x-error")) (* dotimport.go:98 CallToUndeclared4 *);
    (98, (str "ErrorType{Field:{Name:""TheCode"", Position:0}, Codes:}")) (* dotimport.go:106 Error *)].
Proof. vm_compute. split; reflexivity. Qed.

(** The presuppositions of the general theorems that this package satisfies. *)
Theorem t_dotimport_presuppositions :
  (forall fa, usable_functions t_dotimport fa) /\
  (forall fa, no_literal_recursion t_dotimport (collectFunctions t_dotimport) fa) /\
  (forall fa, literals_apart t_dotimport (collectFunctions t_dotimport) fa) /\
  types_usable t_dotimport /\
  (forall w n, occurs t_dotimport w n -> ~ ill_formed t_dotimport w n) /\
  distinct_definitions t_dotimport /\
  interfaces_ok t_dotimport /\
  uses_resolved t_dotimport (collectFunctions t_dotimport) /\
  (forall g fn, pk_funcs t_dotimport !! g = Some fn -> disciplined t_dotimport (facts_after_test (run_test t_dotimport ascending (facts_after_test (run_test t_dotimport_inner2 ascending (facts_after_test (run_test t_dotimport_inner1 ascending (Facts ∅ ∅ ∅ ∅))))))) fn /\ resolved t_dotimport (collectFunctions t_dotimport) (facts_after_test (run_test t_dotimport ascending (facts_after_test (run_test t_dotimport_inner2 ascending (facts_after_test (run_test t_dotimport_inner1 ascending (Facts ∅ ∅ ∅ ∅))))))) fn) /\
  Forall layout t_dotimport_files.
Proof.
  split_and!.
  - intros fa; apply package_usable_spec; vm_compute; reflexivity.
  - intros fa; apply recursion_check_spec; vm_compute; reflexivity.
  - intros fa; apply apart_spec; vm_compute; reflexivity.
  - apply types_ok_spec; vm_compute; reflexivity.
  - apply package_formed_spec; vm_compute; reflexivity.
  - apply definitions_check_spec; vm_compute; reflexivity.
  - apply (interfaces_check_spec t_dotimport t_dotimport_rank); vm_compute; reflexivity.
  - apply uses_check_spec; vm_compute; reflexivity.
  - intros g fn; apply sound_ok_spec; vm_compute; reflexivity.
  - apply layouts_spec; vm_compute; reflexivity.
Qed.
