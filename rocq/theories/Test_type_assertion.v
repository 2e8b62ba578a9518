(** * The test package type_assertion of /repo/analysis/testdata/src, run on the model.  Generated by tools/conform.py; see Conform.v. *)
From Coq Require Import Ascii String.
From stdpp Require Import base list gmap.
From Verif Require Import GoString Scc Engine Constant CommentText CommentMap Phase FactText Conform Claims Analyse Verify SpecTaint SpecProgram SpecLiterals SpecCodeMethod SpecInterfaces SpecSites SpecCrash SpecSound SpecWhole SpecLayout Checkers RecursionChecker LiteralChecker CodeCheckers FormChecker InterfaceChecker SoundChecker ChainChecker ExampleLayout GoAst.
Local Open Scope N_scope.
Definition t_type_assertion_f1 : func := Func 3 (Some (DeclInfo (Ident 4 (str "TypeAssertionMethod") (Some 1)) None (Some (comment_text [(str "// Errors:"); (str "//"); (str "//  - interface-error --")])))) (FuncType 5 [] (Some [(Field 8 [] 9)]) 90) (Some (Node 11 (KOther (str "*ast.BlockStmt")) [(Node 12 (KAssign 1%nat) [(Node 13 (KIdent (str "value") (Some 2)) []); (Node 14 KCall [(Node 15 KSelector [(Node 16 KComposite []); (Node 18 (KIdent (str "Method") None) [])])])]); (Node 19 KReturn [(Node 20 (KTypeAssert (Some 22)) [(Node 21 (KIdent (str "value") (Some 2)) [])])])])) 97 211.
Definition t_type_assertion_f2 : func := Func 24 (Some (DeclInfo (Ident 25 (str "TypeAssertionInterface") (Some 3)) None (Some (comment_text [(str "// Errors:"); (str "//"); (str "//  - empty-interface-error --")])))) (FuncType 26 [] (Some [(Field 29 [] 30)]) 288) (Some (Node 31 (KOther (str "*ast.BlockStmt")) [(Node 32 KReturn [(Node 33 (KTypeAssert (Some 36)) [(Node 34 KCall [(Node 35 (KIdent (str "EmptyInterfaceError") None) [])])])])])) 294 402.
Definition t_type_assertion_f3 : func := Func 37 (Some (DeclInfo (Ident 38 (str "TypeAssertion") (Some 4)) None (Some (comment_text [(str "// Errors:"); (str "//"); (str "// - standard-error --")])))) (FuncType 39 [] (Some [(Field 42 [] 43)]) 462) (Some (Node 45 (KOther (str "*ast.BlockStmt")) [(Node 46 KReturn [(Node 47 (KTypeAssert (Some 50)) [(Node 48 KCall [(Node 49 (KIdent (str "StandardError") None) [])])])])])) 469 556.
Definition t_type_assertion_f4 : func := Func 52 (Some (DeclInfo (Ident 53 (str "TypeAssertionNoCodes") (Some 5)) None None)) (FuncType 54 [] (Some [(Field 57 [] 58)]) 586) (Some (Node 60 (KOther (str "*ast.BlockStmt")) [(Node 61 KReturn [(Node 62 (KTypeAssert (Some 65)) [(Node 63 KCall [(Node 64 (KIdent (str "StandardError") None) [])])])])])) 593 721.
Definition t_type_assertion_f5 : func := Func 67 (Some (DeclInfo (Ident 68 (str "TypeAssertionMultipleTypes") (Some 6)) None (Some (comment_text [(str "// Errors:"); (str "//"); (str "// - maybe-error -- sometimes"); (str "// - standard-error -- never but the analyser doesn't know that")])))) (FuncType 69 [] (Some [(Field 72 [] 73)]) 865) (Some (Node 74 (KOther (str "*ast.BlockStmt")) [(Node 75 (KOther (str "*ast.IfStmt")) [(Node 76 (KAssign 1%nat) [(Node 77 (KIdent (str "err") (Some 7)) []); (Node 78 KCall [(Node 79 (KIdent (str "MaybeError") None) [])])]); (Node 80 (KOther (str "*ast.BinaryExpr")) [(Node 81 (KIdent (str "err") (Some 7)) []); (Node 82 (KIdent (str "nil") None) [])]); (Node 83 (KOther (str "*ast.BlockStmt")) [(Node 84 (KOther (str "*ast.IfStmt")) [(Node 85 (KAssign 2%nat) [(Node 86 (KIdent (str "err") (Some 8)) []); (Node 87 (KIdent (str "ok") (Some 9)) []); (Node 88 (KTypeAssert (Some 90)) [(Node 89 (KIdent (str "err") (Some 7)) [])])]); (Node 91 (KIdent (str "ok") (Some 9)) []); (Node 92 (KOther (str "*ast.BlockStmt")) [(Node 93 KReturn [(Node 94 (KIdent (str "err") (Some 8)) [])])])]); (Node 95 KReturn [(Node 96 KCall [(Node 97 (KIdent (str "StandardError") None) [])])])])]); (Node 98 KReturn [(Node 99 (KIdent (str "nil") None) [])])])) 871 1089.
Definition t_type_assertion_f6 : func := Func 100 (Some (DeclInfo (Ident 101 (str "TypeAssertionSwitch") (Some 10)) None (Some (comment_text [(str "// Errors:"); (str "//"); (str "// - maybe-error -- sometimes"); (str "// - standard-error -- never but the analyser doesn't know that")])))) (FuncType 102 [] (Some [(Field 105 [] 106)]) 1226) (Some (Node 107 (KOther (str "*ast.BlockStmt")) [(Node 108 (KAssign 1%nat) [(Node 109 (KIdent (str "err") (Some 11)) []); (Node 110 KCall [(Node 111 (KIdent (str "MaybeError") None) [])])]); (Node 112 (KTypeSwitch false) [(Node 113 (KAssign 1%nat) [(Node 114 (KIdent (str "x") (Some 12)) []); (Node 115 (KTypeAssert None) [(Node 116 (KIdent (str "err") (Some 11)) [])])]); (Node 117 (KOther (str "*ast.BlockStmt")) [(Node 118 (KCaseClause 1%nat) [(Node 119 (KOther (str "*ast.StarExpr")) [(Node 120 (KIdent (str "Error") None) [])]); (Node 121 KReturn [(Node 122 (KIdent (str "x") (Some 12)) [])])]); (Node 123 (KCaseClause 1%nat) [(Node 124 (KIdent (str "nil") None) []); (Node 125 KReturn [(Node 126 (KIdent (str "nil") None) [])])]); (Node 127 (KCaseClause 0%nat) [(Node 128 KReturn [(Node 129 KCall [(Node 130 (KIdent (str "StandardError") None) [])])])])])])])) 1232 1438.
Definition t_type_assertion_f7 : func := Func 131 (Some (DeclInfo (Ident 132 (str "TypeAssertionSwitchFromNonError") (Some 13)) None (Some (comment_text [(str "// Errors:"); (str "//"); (str "//   - empty-interface-error -- always"); (str "//   - standard-error -- never")])))) (FuncType 133 [] (Some [(Field 136 [] 137)]) 1563) (Some (Node 138 (KOther (str "*ast.BlockStmt")) [(Node 139 (KAssign 1%nat) [(Node 140 (KIdent (str "iface") (Some 14)) []); (Node 141 KCall [(Node 142 (KIdent (str "EmptyInterfaceError") None) [])])]); (Node 143 (KTypeSwitch false) [(Node 144 (KAssign 1%nat) [(Node 145 (KIdent (str "err") (Some 15)) []); (Node 146 (KTypeAssert None) [(Node 147 (KIdent (str "iface") (Some 14)) [])])]); (Node 148 (KOther (str "*ast.BlockStmt")) [(Node 149 (KCaseClause 1%nat) [(Node 150 (KOther (str "*ast.StarExpr")) [(Node 151 (KIdent (str "Error") None) [])]); (Node 152 KReturn [(Node 153 (KIdent (str "err") (Some 15)) [])])]); (Node 154 (KCaseClause 1%nat) [(Node 155 (KIdent (str "ErrorInterface") None) []); (Node 156 KReturn [(Node 157 (KIdent (str "err") (Some 15)) [])])]); (Node 158 (KCaseClause 1%nat) [(Node 159 (KIdent (str "nil") None) []); (Node 160 KReturn [(Node 161 (KIdent (str "nil") None) [])])]); (Node 162 (KCaseClause 0%nat) [(Node 163 KReturn [(Node 164 KCall [(Node 165 (KIdent (str "StandardError") None) [])])])])])])])) 1569 1849.
Definition t_type_assertion_f8 : func := Func 176 (Some (DeclInfo (Ident 180 (str "Method") None) (Some [(Field 178 [] 179)]) (Some (comment_text [(str "// Errors:"); (str "//"); (str "//    - interface-error -- always")])))) (FuncType 181 [] (Some [(Field 184 [] 185)]) 1996) (Some (Node 186 (KOther (str "*ast.BlockStmt")) [(Node 187 KReturn [(Node 188 (KUnary true) [(Node 189 KComposite [(Node 191 KBasicLit [])])])])])) 2002 2084.
Definition t_type_assertion_f9 : func := Func 192 (Some (DeclInfo (Ident 193 (str "StandardError") (Some 16)) None (Some (comment_text [(str "// Errors:"); (str "//"); (str "//    - standard-error -- always")])))) (FuncType 194 [] (Some [(Field 197 [] 198)]) 2154) (Some (Node 199 (KOther (str "*ast.BlockStmt")) [(Node 200 KReturn [(Node 201 (KUnary true) [(Node 202 KComposite [(Node 204 KBasicLit [])])])])])) 2160 2247.
Definition t_type_assertion_f10 : func := Func 205 (Some (DeclInfo (Ident 206 (str "EmptyInterfaceError") (Some 17)) None (Some (comment_text [(str "// EmptyInterfaceError isn't detected by serum-analyzer as an error return type")])))) (FuncType 207 [] (Some [(Field 210 [] 211)]) 2356) (Some (Node 213 (KOther (str "*ast.BlockStmt")) [(Node 214 KReturn [(Node 215 (KUnary true) [(Node 216 KComposite [(Node 218 KBasicLit [])])])])])) 2368 2411.
Definition t_type_assertion_f11 : func := Func 219 (Some (DeclInfo (Ident 220 (str "MaybeError") (Some 18)) None (Some (comment_text [(str "// Errors:"); (str "//"); (str "//   - maybe-error -- sometimes")])))) (FuncType 221 [] (Some [(Field 224 [] 225)]) 2477) (Some (Node 226 (KOther (str "*ast.BlockStmt")) [(Node 227 (KOther (str "*ast.IfStmt")) [(Node 228 (KOther (str "*ast.BinaryExpr")) [(Node 229 KCall [(Node 230 KSelector [(Node 231 (KIdent (str "rand") None) []); (Node 232 (KIdent (str "Float64") None) [])])]); (Node 233 KBasicLit [])]); (Node 234 (KOther (str "*ast.BlockStmt")) [(Node 235 KReturn [(Node 236 (KUnary true) [(Node 237 KComposite [(Node 239 KBasicLit [])])])])])]); (Node 240 KReturn [(Node 241 (KIdent (str "nil") None) [])])])) 2483 2604.
Definition t_type_assertion_f12 : func := Func 250 (Some (DeclInfo (Ident 256 (str "Code") None) (Some [(Field 252 [(Ident 253 (str "e") (Some 19))] 254)]) None)) (FuncType 257 [] (Some [(Field 260 [] 261)]) 2738) (Some (Node 262 (KOther (str "*ast.BlockStmt")) [(Node 263 KReturn [(Node 264 KSelector [(Node 265 (KIdent (str "e") (Some 19)) []); (Node 266 (KIdent (str "TheCode") None) [])])])])) 2759 2779.
Definition t_type_assertion_f13 : func := Func 267 (Some (DeclInfo (Ident 273 (str "Message") None) (Some [(Field 269 [(Ident 270 (str "e") (Some 20))] 271)]) None)) (FuncType 274 [] (Some [(Field 277 [] 278)]) 2806) (Some (Node 279 (KOther (str "*ast.BlockStmt")) [(Node 280 KReturn [(Node 281 KSelector [(Node 282 (KIdent (str "e") (Some 20)) []); (Node 283 (KIdent (str "TheCode") None) [])])])])) 2824 2844.
Definition t_type_assertion_f14 : func := Func 284 (Some (DeclInfo (Ident 290 (str "Details") None) (Some [(Field 286 [(Ident 287 (str "e") (Some 21))] 288)]) None)) (FuncType 291 [] (Some [(Field 294 [] 295)]) 2871) (Some (Node 298 (KOther (str "*ast.BlockStmt")) [(Node 299 KReturn [(Node 300 (KIdent (str "nil") None) [])])])) 2889 2903.
Definition t_type_assertion_f15 : func := Func 301 (Some (DeclInfo (Ident 307 (str "Cause") None) (Some [(Field 303 [(Ident 304 (str "e") (Some 22))] 305)]) None)) (FuncType 308 [] (Some [(Field 311 [] 312)]) 2928) (Some (Node 313 (KOther (str "*ast.BlockStmt")) [(Node 314 KReturn [(Node 315 (KIdent (str "nil") None) [])])])) 2948 2962.
Definition t_type_assertion_f16 : func := Func 316 (Some (DeclInfo (Ident 322 (str "Error") None) (Some [(Field 318 [(Ident 319 (str "e") (Some 23))] 320)]) None)) (FuncType 323 [] (Some [(Field 326 [] 327)]) 2987) (Some (Node 328 (KOther (str "*ast.BlockStmt")) [(Node 329 KReturn [(Node 330 KCall [(Node 331 KSelector [(Node 332 (KIdent (str "e") (Some 23)) []); (Node 333 (KIdent (str "Message") None) [])])])])])) 3007 3029.
Definition t_type_assertion_gendecls : list gendecl := [GenDecl 168 [None]; GenDecl 171 [(Some (TypeSpec (Ident 173 (str "Receiver") (Some 24)) (XStruct [])))]; GenDecl 242 [(Some (TypeSpec (Ident 244 (str "Error") (Some 25)) (XStruct [[(Ident 248 (str "TheCode") None)]])))]; GenDecl 334 [(Some (TypeSpec (Ident 336 (str "ErrorInterface") (Some 26)) (XInterface 337 [IEmbed 340 (str "error"); IMethod 341 (Ident 342 (str "Code") None) None (FuncType 343 [] (Some [(Field 346 [] 347)]) 3078)])))]].
Definition t_type_assertion_top : list topdecl := [TopFunc 1; TopFunc 2; TopFunc 3; TopFunc 4; TopFunc 5; TopFunc 6; TopFunc 7; TopNode (Node 168 (KOther (str "*ast.GenDecl")) [(Node 169 (KOther (str "*ast.ImportSpec")) [])]); TopNode (Node 171 (KOther (str "*ast.GenDecl")) [(Node 172 (KOther (str "*ast.TypeSpec")) [])]); TopFunc 8; TopFunc 9; TopFunc 10; TopFunc 11; TopNode (Node 242 (KOther (str "*ast.GenDecl")) [(Node 243 (KOther (str "*ast.TypeSpec")) [])]); TopFunc 12; TopFunc 13; TopFunc 14; TopFunc 15; TopFunc 16; TopNode (Node 334 (KOther (str "*ast.GenDecl")) [(Node 335 (KOther (str "*ast.TypeSpec")) [])])].
Definition t_type_assertion_objs : list (N * object) := [(1, Object false 68 (DFunc 1)); (2, Object true 158 DOther); (3, Object false 263 (DFunc 2)); (4, Object false 446 (DFunc 3)); (5, Object false 563 (DFunc 4)); (6, Object false 836 (DFunc 5)); (7, Object true 953 DOther); (8, Object true 992 DOther); (9, Object true 997 DOther); (10, Object false 1204 (DFunc 6)); (11, Object true 1304 DOther); (12, Object true 1332 DOther); (13, Object false 1529 (DFunc 7)); (14, Object true 1663 DOther); (15, Object true 1702 DOther); (16, Object false 2138 (DFunc 9)); (17, Object false 2334 (DFunc 10)); (18, Object false 2464 (DFunc 11)); (19, Object true 2721 DOther); (20, Object true 2786 DOther); (21, Object true 2851 DOther); (22, Object true 2910 DOther); (23, Object true 2969 DOther); (24, Object false 1904 DType); (25, Object false 2611 DType); (26, Object false 3036 DType)].
Definition t_type_assertion_types : list (N * gotype) := [(5, (TSignature [] [(TPointer (TNamed 60))] false)); (9, (TPointer (TNamed 60))); (10, (TNamed 60)); (13, (TNamed 1)); (14, (TNamed 1)); (15, (TSignature [] [(TNamed 1)] false)); (16, (TNamed 55)); (17, (TNamed 55)); (18, (TSignature [] [(TNamed 1)] false)); (20, (TPointer (TNamed 60))); (21, (TNamed 1)); (22, (TPointer (TNamed 60))); (23, (TNamed 60)); (26, (TSignature [] [(TNamed 1)] false)); (30, (TNamed 1)); (33, (TNamed 1)); (34, (TInterface 4)); (35, (TSignature [] [(TInterface 4)] false)); (36, (TNamed 1)); (39, (TSignature [] [(TPointer (TNamed 60))] false)); (43, (TPointer (TNamed 60))); (44, (TNamed 60)); (47, (TPointer (TNamed 60))); (48, (TNamed 1)); (49, (TSignature [] [(TNamed 1)] false)); (50, (TPointer (TNamed 60))); (51, (TNamed 60)); (54, (TSignature [] [(TPointer (TNamed 60))] false)); (58, (TPointer (TNamed 60))); (59, (TNamed 60)); (62, (TPointer (TNamed 60))); (63, (TNamed 1)); (64, (TSignature [] [(TNamed 1)] false)); (65, (TPointer (TNamed 60))); (66, (TNamed 60)); (69, (TSignature [] [(TNamed 1)] false)); (73, (TNamed 1)); (77, (TNamed 1)); (78, (TNamed 1)); (79, (TSignature [] [(TNamed 1)] false)); (80, (TBasic (str "bool"))); (81, (TNamed 1)); (82, TUntypedNil); (86, (TNamed 66)); (87, (TBasic (str "bool"))); (88, (TTuple [(TNamed 66); (TBasic (str "bool"))])); (89, (TNamed 1)); (90, (TNamed 66)); (91, (TBasic (str "bool"))); (94, (TNamed 66)); (96, (TNamed 1)); (97, (TSignature [] [(TNamed 1)] false)); (99, TUntypedNil); (102, (TSignature [] [(TNamed 1)] false)); (106, (TNamed 1)); (109, (TNamed 1)); (110, (TNamed 1)); (111, (TSignature [] [(TNamed 1)] false)); (116, (TNamed 1)); (119, (TPointer (TNamed 60))); (120, (TNamed 60)); (122, (TPointer (TNamed 60))); (124, TUntypedNil); (126, TUntypedNil); (129, (TNamed 1)); (130, (TSignature [] [(TNamed 1)] false)); (133, (TSignature [] [(TNamed 1)] false)); (137, (TNamed 1)); (140, (TInterface 4)); (141, (TInterface 4)); (142, (TSignature [] [(TInterface 4)] false)); (147, (TInterface 4)); (150, (TPointer (TNamed 60))); (151, (TNamed 60)); (153, (TPointer (TNamed 60))); (155, (TNamed 66)); (157, (TNamed 66)); (159, TUntypedNil); (161, TUntypedNil); (164, (TNamed 1)); (165, (TSignature [] [(TNamed 1)] false)); (173, (TNamed 55)); (174, (TStruct [])); (179, (TNamed 55)); (181, (TSignature [] [(TNamed 1)] false)); (185, (TNamed 1)); (188, (TPointer (TNamed 60))); (189, (TNamed 60)); (190, (TNamed 60)); (191, (TBasic (str "string"))); (194, (TSignature [] [(TNamed 1)] false)); (198, (TNamed 1)); (201, (TPointer (TNamed 60))); (202, (TNamed 60)); (203, (TNamed 60)); (204, (TBasic (str "string"))); (207, (TSignature [] [(TInterface 4)] false)); (211, (TInterface 4)); (215, (TPointer (TNamed 60))); (216, (TNamed 60)); (217, (TNamed 60)); (218, (TBasic (str "string"))); (221, (TSignature [] [(TNamed 1)] false)); (225, (TNamed 1)); (228, (TBasic (str "bool"))); (229, (TBasic (str "float64"))); (230, (TSignature [] [(TBasic (str "float64"))] false)); (232, (TSignature [] [(TBasic (str "float64"))] false)); (233, (TBasic (str "float64"))); (236, (TPointer (TNamed 60))); (237, (TNamed 60)); (238, (TNamed 60)); (239, (TBasic (str "string"))); (241, TUntypedNil); (244, (TNamed 60)); (245, (TStruct [((str "TheCode"), (TBasic (str "string")))])); (248, (TBasic (str "string"))); (249, (TBasic (str "string"))); (253, (TPointer (TNamed 60))); (254, (TPointer (TNamed 60))); (255, (TNamed 60)); (257, (TSignature [] [(TBasic (str "string"))] false)); (261, (TBasic (str "string"))); (264, (TBasic (str "string"))); (265, (TPointer (TNamed 60))); (266, (TBasic (str "string"))); (270, (TPointer (TNamed 60))); (271, (TPointer (TNamed 60))); (272, (TNamed 60)); (274, (TSignature [] [(TBasic (str "string"))] false)); (278, (TBasic (str "string"))); (281, (TBasic (str "string"))); (282, (TPointer (TNamed 60))); (283, (TBasic (str "string"))); (287, (TPointer (TNamed 60))); (288, (TPointer (TNamed 60))); (289, (TNamed 60)); (291, (TSignature [] [(TMap (TBasic (str "string")) (TBasic (str "string")))] false)); (295, (TMap (TBasic (str "string")) (TBasic (str "string")))); (296, (TBasic (str "string"))); (297, (TBasic (str "string"))); (300, TUntypedNil); (304, (TPointer (TNamed 60))); (305, (TPointer (TNamed 60))); (306, (TNamed 60)); (308, (TSignature [] [(TNamed 1)] false)); (312, (TNamed 1)); (315, TUntypedNil); (319, (TPointer (TNamed 60))); (320, (TPointer (TNamed 60))); (321, (TNamed 60)); (323, (TSignature [] [(TBasic (str "string"))] false)); (327, (TBasic (str "string"))); (330, (TBasic (str "string"))); (331, (TSignature [] [(TBasic (str "string"))] false)); (332, (TPointer (TNamed 60))); (333, (TSignature [] [(TBasic (str "string"))] false)); (336, (TNamed 66)); (337, (TInterface 2)); (340, (TNamed 1)); (342, (TSignature [] [(TBasic (str "string"))] false)); (343, (TSignature [] [(TBasic (str "string"))] false)); (347, (TBasic (str "string")))].
Definition t_type_assertion_values : list (N * constval) := [(191, CString (str "interface-error")); (204, CString (str "standard-error")); (218, CString (str "empty-interface-error")); (233, COther); (239, CString (str "maybe-error"))].
Definition t_type_assertion_uses : list (N * tobj) := [(10, 60); (17, 55); (18, 56); (21, 74); (23, 60); (30, 1); (35, 58); (36, 1); (44, 60); (49, 57); (51, 60); (59, 60); (64, 57); (66, 60); (73, 1); (79, 59); (81, 75); (82, 24); (89, 75); (90, 66); (91, 77); (94, 76); (97, 57); (99, 24); (106, 1); (111, 59); (116, 78); (120, 60); (122, 79); (124, 24); (126, 24); (130, 57); (137, 1); (142, 58); (147, 82); (151, 60); (153, 83); (155, 66); (157, 84); (159, 24); (161, 24); (165, 57); (179, 55); (185, 1); (190, 60); (198, 1); (203, 60); (217, 60); (225, 1); (231, 47); (232, 46); (238, 60); (241, 24); (249, 5); (255, 60); (261, 5); (265, 67); (266, 73); (272, 60); (278, 5); (282, 68); (283, 73); (289, 60); (296, 5); (297, 5); (300, 24); (306, 60); (312, 1); (315, 24); (321, 60); (327, 5); (332, 71); (333, 62); (340, 1); (347, 5)].
Definition t_type_assertion_defs : list (N * tobj) := [(4, 48); (13, 74); (25, 49); (38, 50); (53, 51); (68, 52); (77, 75); (86, 76); (87, 77); (101, 53); (109, 78); (132, 54); (140, 82); (173, 55); (180, 56); (193, 57); (206, 58); (220, 59); (244, 60); (253, 67); (256, 61); (270, 68); (273, 62); (287, 69); (290, 63); (304, 70); (307, 64); (319, 71); (322, 65); (336, 66); (342, 72)].
Definition t_type_assertion_sels : list (N * (tobj * gotype)) := [(15, (56, (TNamed 55))); (264, (73, (TPointer (TNamed 60)))); (281, (73, (TPointer (TNamed 60)))); (331, (62, (TPointer (TNamed 60))))].
Definition t_type_assertion_pkgnames : list (N * gostring) := [(231, (str "rand"))].
Definition t_type_assertion_objnames : list (N * gostring) := [(1, (str "error")); (2, (str "Error")); (3, (str "?")); (4, (str "bool")); (5, (str "string")); (6, (str "int")); (7, (str "int8")); (8, (str "int16")); (9, (str "int32")); (10, (str "int64")); (11, (str "uint")); (12, (str "uint8")); (13, (str "uint16")); (14, (str "uint32")); (15, (str "uint64")); (16, (str "uintptr")); (17, (str "float32")); (18, (str "float64")); (19, (str "complex64")); (20, (str "complex128")); (21, (str "true")); (22, (str "false")); (23, (str "iota")); (24, (str "nil")); (25, (str "append")); (26, (str "cap")); (27, (str "close")); (28, (str "complex")); (29, (str "copy")); (30, (str "delete")); (31, (str "imag")); (32, (str "len")); (33, (str "make")); (34, (str "new")); (35, (str "panic")); (36, (str "print")); (37, (str "println")); (38, (str "real")); (39, (str "recover")); (40, (str "Errorf")); (41, (str "Sprintf")); (42, (str "Println")); (43, (str "New")); (44, (str "HasPrefix")); (45, (str "Float32")); (46, (str "Float64")); (47, (str "rand")); (48, (str "TypeAssertionMethod")); (49, (str "TypeAssertionInterface")); (50, (str "TypeAssertion")); (51, (str "TypeAssertionNoCodes")); (52, (str "TypeAssertionMultipleTypes")); (53, (str "TypeAssertionSwitch")); (54, (str "TypeAssertionSwitchFromNonError")); (55, (str "Receiver")); (56, (str "Method")); (57, (str "StandardError")); (58, (str "EmptyInterfaceError")); (59, (str "MaybeError")); (60, (str "Error")); (61, (str "Code")); (62, (str "Message")); (63, (str "Details")); (64, (str "Cause")); (65, (str "Error")); (66, (str "ErrorInterface")); (67, (str "e")); (68, (str "e")); (69, (str "e")); (70, (str "e")); (71, (str "e")); (72, (str "Code")); (73, (str "TheCode")); (74, (str "value")); (75, (str "err")); (76, (str "err")); (77, (str "ok")); (78, (str "err")); (79, (str "x")); (80, (str "x")); (81, (str "x")); (82, (str "iface")); (83, (str "err")); (84, (str "err")); (85, (str "err")); (86, (str "err"))].
Definition t_type_assertion_objtypes : list (N * gotype) := [(1, (TNamed 1)); (2, (TSignature [] [(TBasic (str "string"))] false)); (4, (TBasic (str "bool"))); (5, (TBasic (str "string"))); (6, (TBasic (str "int"))); (7, (TBasic (str "int8"))); (8, (TBasic (str "int16"))); (9, (TBasic (str "int32"))); (10, (TBasic (str "int64"))); (11, (TBasic (str "uint"))); (12, (TBasic (str "uint8"))); (13, (TBasic (str "uint16"))); (14, (TBasic (str "uint32"))); (15, (TBasic (str "uint64"))); (16, (TBasic (str "uintptr"))); (17, (TBasic (str "float32"))); (18, (TBasic (str "float64"))); (19, (TBasic (str "complex64"))); (20, (TBasic (str "complex128"))); (40, (TSignature [(TBasic (str "string")); (TSlice (TInterface 4))] [(TNamed 1)] true)); (41, (TSignature [(TBasic (str "string")); (TSlice (TInterface 4))] [(TBasic (str "string"))] true)); (42, (TSignature [(TSlice (TInterface 4))] [(TBasic (str "int")); (TNamed 1)] true)); (43, (TSignature [(TBasic (str "string"))] [(TNamed 1)] false)); (44, (TSignature [(TBasic (str "string")); (TBasic (str "string"))] [(TBasic (str "bool"))] false)); (45, (TSignature [] [(TBasic (str "float32"))] false)); (46, (TSignature [] [(TBasic (str "float64"))] false)); (48, (TSignature [] [(TPointer (TNamed 60))] false)); (49, (TSignature [] [(TNamed 1)] false)); (50, (TSignature [] [(TPointer (TNamed 60))] false)); (51, (TSignature [] [(TPointer (TNamed 60))] false)); (52, (TSignature [] [(TNamed 1)] false)); (53, (TSignature [] [(TNamed 1)] false)); (54, (TSignature [] [(TNamed 1)] false)); (55, (TNamed 55)); (56, (TSignature [] [(TNamed 1)] false)); (57, (TSignature [] [(TNamed 1)] false)); (58, (TSignature [] [(TInterface 4)] false)); (59, (TSignature [] [(TNamed 1)] false)); (60, (TNamed 60)); (61, (TSignature [] [(TBasic (str "string"))] false)); (62, (TSignature [] [(TBasic (str "string"))] false)); (63, (TSignature [] [(TMap (TBasic (str "string")) (TBasic (str "string")))] false)); (64, (TSignature [] [(TNamed 1)] false)); (65, (TSignature [] [(TBasic (str "string"))] false)); (66, (TNamed 66)); (67, (TPointer (TNamed 60))); (68, (TPointer (TNamed 60))); (69, (TPointer (TNamed 60))); (70, (TPointer (TNamed 60))); (71, (TPointer (TNamed 60))); (72, (TSignature [] [(TBasic (str "string"))] false)); (73, (TBasic (str "string"))); (74, (TNamed 1)); (75, (TNamed 1)); (76, (TNamed 66)); (77, (TBasic (str "bool"))); (78, (TNamed 1)); (79, (TPointer (TNamed 60))); (80, (TNamed 1)); (81, (TNamed 1)); (82, (TInterface 4)); (83, (TPointer (TNamed 60))); (84, (TNamed 66)); (85, (TInterface 4)); (86, (TInterface 4))].
Definition t_type_assertion_under : list (N * gotype) := [(1, (TInterface 1)); (55, (TStruct [])); (60, (TStruct [((str "TheCode"), (TBasic (str "string")))])); (66, (TInterface 2))].
Definition t_type_assertion_named_methods : list (N * (list gostring)) := [(55, [(str "Method")]); (60, [(str "Code"); (str "Message"); (str "Details"); (str "Cause"); (str "Error")])].
Definition t_type_assertion_methods : list (gotype * gostring * tobj) := [((TInterface 1), (str "Error"), 2); ((TInterface 2), (str "Code"), 3); ((TInterface 2), (str "Error"), 3); ((TNamed 1), (str "Error"), 2); ((TNamed 55), (str "Method"), 56); ((TNamed 66), (str "Code"), 72); ((TNamed 66), (str "Error"), 2); ((TPointer (TNamed 55)), (str "Method"), 56); ((TPointer (TNamed 60)), (str "Cause"), 64); ((TPointer (TNamed 60)), (str "Code"), 61); ((TPointer (TNamed 60)), (str "Details"), 63); ((TPointer (TNamed 60)), (str "Error"), 65); ((TPointer (TNamed 60)), (str "Message"), 62)].
Definition t_type_assertion_ierr : list gotype := [(TInterface 1); (TInterface 2); (TNamed 1); (TNamed 66); (TPointer (TNamed 60))].
Definition t_type_assertion_iree : list gotype := [(TInterface 2); (TNamed 66); (TPointer (TNamed 60))].
Definition t_type_assertion_icause : list gotype := [(TPointer (TNamed 60))].
Definition t_type_assertion_impl : list (gotype * gotype) := [((TInterface 1), (TInterface 1)); ((TInterface 2), (TInterface 1)); ((TInterface 2), (TInterface 2)); ((TNamed 1), (TInterface 1)); ((TNamed 66), (TInterface 1)); ((TNamed 66), (TInterface 2)); ((TPointer (TNamed 60)), (TInterface 1)); ((TPointer (TNamed 60)), (TInterface 2))].
Definition t_type_assertion_nodes0 : list snode := [SNode 1 (Place 0 1) (Place 1848 75) true; SNode 2 (Place 8 1) (Place 21 1) false; SNode 3 (Place 62 6) (Place 210 9) true; SNode 4 (Place 67 6) (Place 86 6) false; SNode 5 (Place 62 6) (Place 95 6) false; SNode 6 (Place 86 6) (Place 88 6) false; SNode 7 (Place 89 6) (Place 95 6) false; SNode 8 (Place 89 6) (Place 95 6) true; SNode 9 (Place 89 6) (Place 95 6) false; SNode 10 (Place 90 6) (Place 95 6) false; SNode 11 (Place 96 6) (Place 210 9) true; SNode 12 (Place 157 7) (Place 185 7) true; SNode 13 (Place 157 7) (Place 162 7) false; SNode 14 (Place 166 7) (Place 185 7) false; SNode 15 (Place 166 7) (Place 183 7) false; SNode 16 (Place 166 7) (Place 176 7) false; SNode 17 (Place 166 7) (Place 174 7) false; SNode 18 (Place 177 7) (Place 183 7) false; SNode 19 (Place 187 8) (Place 208 8) true; SNode 20 (Place 194 8) (Place 208 8) false; SNode 21 (Place 194 8) (Place 199 8) false; SNode 22 (Place 201 8) (Place 207 8) false; SNode 23 (Place 202 8) (Place 207 8) false; SNode 24 (Place 257 14) (Place 401 16) true; SNode 25 (Place 262 14) (Place 284 14) false; SNode 26 (Place 257 14) (Place 292 14) false; SNode 27 (Place 284 14) (Place 286 14) false; SNode 28 (Place 287 14) (Place 292 14) false; SNode 29 (Place 287 14) (Place 292 14) true; SNode 30 (Place 287 14) (Place 292 14) false; SNode 31 (Place 293 14) (Place 401 16) true; SNode 32 (Place 363 15) (Place 399 15) true; SNode 33 (Place 370 15) (Place 399 15) false; SNode 34 (Place 370 15) (Place 391 15) false; SNode 35 (Place 370 15) (Place 389 15) false; SNode 36 (Place 393 15) (Place 398 15) false; SNode 37 (Place 440 21) (Place 555 23) true; SNode 38 (Place 445 21) (Place 458 21) false; SNode 39 (Place 440 21) (Place 467 21) false; SNode 40 (Place 458 21) (Place 460 21) false; SNode 41 (Place 461 21) (Place 467 21) false; SNode 42 (Place 461 21) (Place 467 21) true; SNode 43 (Place 461 21) (Place 467 21) false; SNode 44 (Place 462 21) (Place 467 21) false; SNode 45 (Place 468 21) (Place 555 23) true; SNode 46 (Place 522 22) (Place 553 22) true; SNode 47 (Place 529 22) (Place 553 22) false; SNode 48 (Place 529 22) (Place 544 22) false; SNode 49 (Place 529 22) (Place 542 22) false; SNode 50 (Place 546 22) (Place 552 22) false; SNode 51 (Place 547 22) (Place 552 22) false; SNode 52 (Place 557 25) (Place 720 27) true; SNode 53 (Place 562 25) (Place 582 25) false; SNode 54 (Place 557 25) (Place 591 25) false; SNode 55 (Place 582 25) (Place 584 25) false; SNode 56 (Place 585 25) (Place 591 25) false; SNode 57 (Place 585 25) (Place 591 25) true; SNode 58 (Place 585 25) (Place 591 25) false; SNode 59 (Place 586 25) (Place 591 25) false; SNode 60 (Place 592 25) (Place 720 27) true; SNode 61 (Place 687 26) (Place 718 26) true; SNode 62 (Place 694 26) (Place 718 26) false; SNode 63 (Place 694 26) (Place 709 26) false; SNode 64 (Place 694 26) (Place 707 26) false; SNode 65 (Place 711 26) (Place 717 26) false; SNode 66 (Place 712 26) (Place 717 26) false; SNode 67 (Place 830 33) (Place 1088 41) true; SNode 68 (Place 835 33) (Place 861 33) false; SNode 69 (Place 830 33) (Place 869 33) false; SNode 70 (Place 861 33) (Place 863 33) false; SNode 71 (Place 864 33) (Place 869 33) false; SNode 72 (Place 864 33) (Place 869 33) true; SNode 73 (Place 864 33) (Place 869 33) false; SNode 74 (Place 870 33) (Place 1088 41) true; SNode 75 (Place 949 34) (Place 1074 39) true; SNode 76 (Place 952 34) (Place 971 34) true; SNode 77 (Place 952 34) (Place 955 34) false; SNode 78 (Place 959 34) (Place 971 34) false; SNode 79 (Place 959 34) (Place 969 34) false; SNode 80 (Place 973 34) (Place 983 34) false; SNode 81 (Place 973 34) (Place 976 34) false; SNode 82 (Place 980 34) (Place 983 34) false; SNode 83 (Place 984 34) (Place 1074 39) true; SNode 84 (Place 988 35) (Place 1046 37) true; SNode 85 (Place 991 35) (Place 1022 35) true; SNode 86 (Place 991 35) (Place 994 35) false; SNode 87 (Place 996 35) (Place 998 35) false; SNode 88 (Place 1002 35) (Place 1022 35) false; SNode 89 (Place 1002 35) (Place 1005 35) false; SNode 90 (Place 1007 35) (Place 1021 35) false; SNode 91 (Place 1024 35) (Place 1026 35) false; SNode 92 (Place 1027 35) (Place 1046 37) true; SNode 93 (Place 1032 36) (Place 1042 36) true; SNode 94 (Place 1039 36) (Place 1042 36) false; SNode 95 (Place 1049 38) (Place 1071 38) true; SNode 96 (Place 1056 38) (Place 1071 38) false; SNode 97 (Place 1056 38) (Place 1069 38) false; SNode 98 (Place 1076 40) (Place 1086 40) true; SNode 99 (Place 1083 40) (Place 1086 40) false; SNode 100 (Place 1198 47) (Place 1437 57) true; SNode 101 (Place 1203 47) (Place 1222 47) false; SNode 102 (Place 1198 47) (Place 1230 47) false; SNode 103 (Place 1222 47) (Place 1224 47) false; SNode 104 (Place 1225 47) (Place 1230 47) false; SNode 105 (Place 1225 47) (Place 1230 47) true; SNode 106 (Place 1225 47) (Place 1230 47) false; SNode 107 (Place 1231 47) (Place 1437 57) true; SNode 108 (Place 1303 48) (Place 1322 48) true; SNode 109 (Place 1303 48) (Place 1306 48) false; SNode 110 (Place 1310 48) (Place 1322 48) false; SNode 111 (Place 1310 48) (Place 1320 48) false; SNode 112 (Place 1324 49) (Place 1435 56) true; SNode 113 (Place 1331 49) (Place 1346 49) true; SNode 114 (Place 1331 49) (Place 1332 49) false; SNode 115 (Place 1336 49) (Place 1346 49) false; SNode 116 (Place 1336 49) (Place 1339 49) false; SNode 117 (Place 1347 49) (Place 1435 56) true; SNode 118 (Place 1350 50) (Place 1373 51) true; SNode 119 (Place 1355 50) (Place 1361 50) false; SNode 120 (Place 1356 50) (Place 1361 50) false; SNode 121 (Place 1365 51) (Place 1373 51) true; SNode 122 (Place 1372 51) (Place 1373 51) false; SNode 123 (Place 1375 52) (Place 1397 53) true; SNode 124 (Place 1380 52) (Place 1383 52) false; SNode 125 (Place 1387 53) (Place 1397 53) true; SNode 126 (Place 1394 53) (Place 1397 53) false; SNode 127 (Place 1399 54) (Place 1432 55) true; SNode 128 (Place 1410 55) (Place 1432 55) true; SNode 129 (Place 1417 55) (Place 1432 55) false; SNode 130 (Place 1417 55) (Place 1430 55) false; SNode 131 (Place 1523 63) (Place 1848 75) true; SNode 132 (Place 1528 63) (Place 1559 63) false; SNode 133 (Place 1523 63) (Place 1567 63) false; SNode 134 (Place 1559 63) (Place 1561 63) false; SNode 135 (Place 1562 63) (Place 1567 63) false; SNode 136 (Place 1562 63) (Place 1567 63) true; SNode 137 (Place 1562 63) (Place 1567 63) false; SNode 138 (Place 1568 63) (Place 1848 75) true; SNode 139 (Place 1662 64) (Place 1692 64) true; SNode 140 (Place 1662 64) (Place 1667 64) false; SNode 141 (Place 1671 64) (Place 1692 64) false; SNode 142 (Place 1671 64) (Place 1690 64) false; SNode 143 (Place 1694 65) (Place 1846 74) true; SNode 144 (Place 1701 65) (Place 1720 65) true; SNode 145 (Place 1701 65) (Place 1704 65) false; SNode 146 (Place 1708 65) (Place 1720 65) false; SNode 147 (Place 1708 65) (Place 1713 65) false; SNode 148 (Place 1721 65) (Place 1846 74) true; SNode 149 (Place 1724 66) (Place 1749 67) true; SNode 150 (Place 1729 66) (Place 1735 66) false; SNode 151 (Place 1730 66) (Place 1735 66) false; SNode 152 (Place 1739 67) (Place 1749 67) true; SNode 153 (Place 1746 67) (Place 1749 67) false; SNode 154 (Place 1751 68) (Place 1784 69) true; SNode 155 (Place 1756 68) (Place 1770 68) false; SNode 156 (Place 1774 69) (Place 1784 69) true; SNode 157 (Place 1781 69) (Place 1784 69) false; SNode 158 (Place 1786 70) (Place 1808 71) true; SNode 159 (Place 1791 70) (Place 1794 70) false; SNode 160 (Place 1798 71) (Place 1808 71) true; SNode 161 (Place 1805 71) (Place 1808 71) false; SNode 162 (Place 1810 72) (Place 1843 73) true; SNode 163 (Place 1821 73) (Place 1843 73) true; SNode 164 (Place 1828 73) (Place 1843 73) false; SNode 165 (Place 1828 73) (Place 1841 73) false].
Definition t_type_assertion_cgroups0 : list cgroup := [CGroup (Place 23 3) (Place 61 5) [(str "// Errors:"); (str "//"); (str "//  - interface-error --")]; CGroup (Place 98 6) (Place 155 6) [(str "// want TypeAssertionMethod:""ErrorCodes: interface-error""")]; CGroup (Place 212 11) (Place 256 13) [(str "// Errors:"); (str "//"); (str "//  - empty-interface-error --")]; CGroup (Place 295 14) (Place 361 14) [(str "// want TypeAssertionInterface:""ErrorCodes: empty-interface-error""")]; CGroup (Place 403 18) (Place 439 20) [(str "// Errors:"); (str "//"); (str "// - standard-error --")]; CGroup (Place 470 21) (Place 520 21) [(str "// want TypeAssertion:""ErrorCodes: standard-error""")]; CGroup (Place 594 25) (Place 685 25) [(str "// want `function ""TypeAssertionNoCodes"" is exported, but does not declare any error codes`")]; CGroup (Place 722 29) (Place 829 32) [(str "// Errors:"); (str "//"); (str "// - maybe-error -- sometimes"); (str "// - standard-error -- never but the analyser doesn't know that")]; CGroup (Place 872 33) (Place 947 33) [(str "// want TypeAssertionMultipleTypes:""ErrorCodes: maybe-error standard-error""")]; CGroup (Place 1090 43) (Place 1197 46) [(str "// Errors:"); (str "//"); (str "// - maybe-error -- sometimes"); (str "// - standard-error -- never but the analyser doesn't know that")]; CGroup (Place 1233 47) (Place 1301 47) [(str "// want TypeAssertionSwitch:""ErrorCodes: maybe-error standard-error""")]; CGroup (Place 1439 59) (Place 1522 62) [(str "// Errors:"); (str "//"); (str "//   - empty-interface-error -- always"); (str "//   - standard-error -- never")]; CGroup (Place 1570 63) (Place 1660 63) [(str "// want TypeAssertionSwitchFromNonError:""ErrorCodes: empty-interface-error standard-error""")]].
Definition t_type_assertion_nodes1 : list snode := [SNode 166 (Place 0 1) (Place 1235 51) true; SNode 167 (Place 8 1) (Place 21 1) false; SNode 168 (Place 23 3) (Place 46 5) true; SNode 169 (Place 33 4) (Place 44 4) true; SNode 170 (Place 33 4) (Place 44 4) false; SNode 171 (Place 48 7) (Place 70 7) true; SNode 172 (Place 53 7) (Place 70 7) true; SNode 173 (Place 53 7) (Place 61 7) false; SNode 174 (Place 62 7) (Place 70 7) false; SNode 175 (Place 68 7) (Place 70 7) false; SNode 176 (Place 120 12) (Place 233 14) true; SNode 177 (Place 125 12) (Place 135 12) false; SNode 178 (Place 126 12) (Place 134 12) true; SNode 179 (Place 126 12) (Place 134 12) false; SNode 180 (Place 136 12) (Place 142 12) false; SNode 181 (Place 120 12) (Place 150 12) false; SNode 182 (Place 142 12) (Place 144 12) false; SNode 183 (Place 145 12) (Place 150 12) false; SNode 184 (Place 145 12) (Place 150 12) true; SNode 185 (Place 145 12) (Place 150 12) false; SNode 186 (Place 151 12) (Place 233 14) true; SNode 187 (Place 199 13) (Place 231 13) true; SNode 188 (Place 206 13) (Place 231 13) false; SNode 189 (Place 207 13) (Place 231 13) false; SNode 190 (Place 207 13) (Place 212 13) false; SNode 191 (Place 213 13) (Place 230 13) false; SNode 192 (Place 282 19) (Place 396 21) true; SNode 193 (Place 287 19) (Place 300 19) false; SNode 194 (Place 282 19) (Place 308 19) false; SNode 195 (Place 300 19) (Place 302 19) false; SNode 196 (Place 303 19) (Place 308 19) false; SNode 197 (Place 303 19) (Place 308 19) true; SNode 198 (Place 303 19) (Place 308 19) false; SNode 199 (Place 309 19) (Place 396 21) true; SNode 200 (Place 363 20) (Place 394 20) true; SNode 201 (Place 370 20) (Place 394 20) false; SNode 202 (Place 371 20) (Place 394 20) false; SNode 203 (Place 371 20) (Place 376 20) false; SNode 204 (Place 377 20) (Place 393 20) false; SNode 205 (Place 478 24) (Place 560 26) true; SNode 206 (Place 483 24) (Place 502 24) false; SNode 207 (Place 478 24) (Place 516 24) false; SNode 208 (Place 502 24) (Place 504 24) false; SNode 209 (Place 505 24) (Place 516 24) false; SNode 210 (Place 505 24) (Place 516 24) true; SNode 211 (Place 505 24) (Place 516 24) false; SNode 212 (Place 514 24) (Place 516 24) false; SNode 213 (Place 517 24) (Place 560 26) true; SNode 214 (Place 520 25) (Place 558 25) true; SNode 215 (Place 527 25) (Place 558 25) false; SNode 216 (Place 528 25) (Place 558 25) false; SNode 217 (Place 528 25) (Place 533 25) false; SNode 218 (Place 534 25) (Place 557 25) false; SNode 219 (Place 608 31) (Place 753 36) true; SNode 220 (Place 613 31) (Place 623 31) false; SNode 221 (Place 608 31) (Place 631 31) false; SNode 222 (Place 623 31) (Place 625 31) false; SNode 223 (Place 626 31) (Place 631 31) false; SNode 224 (Place 626 31) (Place 631 31) true; SNode 225 (Place 626 31) (Place 631 31) false; SNode 226 (Place 632 31) (Place 753 36) true; SNode 227 (Place 680 32) (Place 739 34) true; SNode 228 (Place 683 32) (Place 703 32) false; SNode 229 (Place 683 32) (Place 697 32) false; SNode 230 (Place 683 32) (Place 695 32) false; SNode 231 (Place 683 32) (Place 687 32) false; SNode 232 (Place 688 32) (Place 695 32) false; SNode 233 (Place 700 32) (Place 703 32) false; SNode 234 (Place 704 32) (Place 739 34) true; SNode 235 (Place 708 33) (Place 736 33) true; SNode 236 (Place 715 33) (Place 736 33) false; SNode 237 (Place 716 33) (Place 736 33) false; SNode 238 (Place 716 33) (Place 721 33) false; SNode 239 (Place 722 33) (Place 735 33) false; SNode 240 (Place 741 35) (Place 751 35) true; SNode 241 (Place 748 35) (Place 751 35) false; SNode 242 (Place 755 38) (Place 862 40) true; SNode 243 (Place 760 38) (Place 862 40) true; SNode 244 (Place 760 38) (Place 765 38) false; SNode 245 (Place 766 38) (Place 862 40) false; SNode 246 (Place 773 38) (Place 862 40) false; SNode 247 (Place 846 39) (Place 860 39) true; SNode 248 (Place 846 39) (Place 853 39) false; SNode 249 (Place 854 39) (Place 860 39) false; SNode 250 (Place 864 42) (Place 928 42) true; SNode 251 (Place 869 42) (Place 879 42) false; SNode 252 (Place 870 42) (Place 878 42) true; SNode 253 (Place 870 42) (Place 871 42) false; SNode 254 (Place 872 42) (Place 878 42) false; SNode 255 (Place 873 42) (Place 878 42) false; SNode 256 (Place 880 42) (Place 884 42) false; SNode 257 (Place 864 42) (Place 893 42) false; SNode 258 (Place 884 42) (Place 886 42) false; SNode 259 (Place 887 42) (Place 893 42) false; SNode 260 (Place 887 42) (Place 893 42) true; SNode 261 (Place 887 42) (Place 893 42) false; SNode 262 (Place 908 42) (Place 928 42) true; SNode 263 (Place 910 42) (Place 926 42) true; SNode 264 (Place 917 42) (Place 926 42) false; SNode 265 (Place 917 42) (Place 918 42) false; SNode 266 (Place 919 42) (Place 926 42) false; SNode 267 (Place 929 43) (Place 993 43) true; SNode 268 (Place 934 43) (Place 944 43) false; SNode 269 (Place 935 43) (Place 943 43) true; SNode 270 (Place 935 43) (Place 936 43) false; SNode 271 (Place 937 43) (Place 943 43) false; SNode 272 (Place 938 43) (Place 943 43) false; SNode 273 (Place 945 43) (Place 952 43) false; SNode 274 (Place 929 43) (Place 961 43) false; SNode 275 (Place 952 43) (Place 954 43) false; SNode 276 (Place 955 43) (Place 961 43) false; SNode 277 (Place 955 43) (Place 961 43) true; SNode 278 (Place 955 43) (Place 961 43) false; SNode 279 (Place 973 43) (Place 993 43) true; SNode 280 (Place 975 43) (Place 991 43) true; SNode 281 (Place 982 43) (Place 991 43) false; SNode 282 (Place 982 43) (Place 983 43) false; SNode 283 (Place 984 43) (Place 991 43) false; SNode 284 (Place 994 44) (Place 1052 44) true; SNode 285 (Place 999 44) (Place 1009 44) false; SNode 286 (Place 1000 44) (Place 1008 44) true; SNode 287 (Place 1000 44) (Place 1001 44) false; SNode 288 (Place 1002 44) (Place 1008 44) false; SNode 289 (Place 1003 44) (Place 1008 44) false; SNode 290 (Place 1010 44) (Place 1017 44) false; SNode 291 (Place 994 44) (Place 1037 44) false; SNode 292 (Place 1017 44) (Place 1019 44) false; SNode 293 (Place 1020 44) (Place 1037 44) false; SNode 294 (Place 1020 44) (Place 1037 44) true; SNode 295 (Place 1020 44) (Place 1037 44) false; SNode 296 (Place 1024 44) (Place 1030 44) false; SNode 297 (Place 1031 44) (Place 1037 44) false; SNode 298 (Place 1038 44) (Place 1052 44) true; SNode 299 (Place 1040 44) (Place 1050 44) true; SNode 300 (Place 1047 44) (Place 1050 44) false; SNode 301 (Place 1053 45) (Place 1111 45) true; SNode 302 (Place 1058 45) (Place 1068 45) false; SNode 303 (Place 1059 45) (Place 1067 45) true; SNode 304 (Place 1059 45) (Place 1060 45) false; SNode 305 (Place 1061 45) (Place 1067 45) false; SNode 306 (Place 1062 45) (Place 1067 45) false; SNode 307 (Place 1069 45) (Place 1074 45) false; SNode 308 (Place 1053 45) (Place 1082 45) false; SNode 309 (Place 1074 45) (Place 1076 45) false; SNode 310 (Place 1077 45) (Place 1082 45) false; SNode 311 (Place 1077 45) (Place 1082 45) true; SNode 312 (Place 1077 45) (Place 1082 45) false; SNode 313 (Place 1097 45) (Place 1111 45) true; SNode 314 (Place 1099 45) (Place 1109 45) true; SNode 315 (Place 1106 45) (Place 1109 45) false; SNode 316 (Place 1112 46) (Place 1178 46) true; SNode 317 (Place 1117 46) (Place 1127 46) false; SNode 318 (Place 1118 46) (Place 1126 46) true; SNode 319 (Place 1118 46) (Place 1119 46) false; SNode 320 (Place 1120 46) (Place 1126 46) false; SNode 321 (Place 1121 46) (Place 1126 46) false; SNode 322 (Place 1128 46) (Place 1133 46) false; SNode 323 (Place 1112 46) (Place 1142 46) false; SNode 324 (Place 1133 46) (Place 1135 46) false; SNode 325 (Place 1136 46) (Place 1142 46) false; SNode 326 (Place 1136 46) (Place 1142 46) true; SNode 327 (Place 1136 46) (Place 1142 46) false; SNode 328 (Place 1156 46) (Place 1178 46) true; SNode 329 (Place 1158 46) (Place 1176 46) true; SNode 330 (Place 1165 46) (Place 1176 46) false; SNode 331 (Place 1165 46) (Place 1174 46) false; SNode 332 (Place 1165 46) (Place 1166 46) false; SNode 333 (Place 1167 46) (Place 1174 46) false; SNode 334 (Place 1180 48) (Place 1235 51) true; SNode 335 (Place 1185 48) (Place 1235 51) true; SNode 336 (Place 1185 48) (Place 1199 48) false; SNode 337 (Place 1200 48) (Place 1235 51) false; SNode 338 (Place 1210 48) (Place 1235 51) false; SNode 339 (Place 1213 49) (Place 1218 49) true; SNode 340 (Place 1213 49) (Place 1218 49) false; SNode 341 (Place 1220 50) (Place 1233 50) true; SNode 342 (Place 1220 50) (Place 1224 50) false; SNode 343 (Place 1224 50) (Place 1233 50) false; SNode 344 (Place 1224 50) (Place 1226 50) false; SNode 345 (Place 1227 50) (Place 1233 50) false; SNode 346 (Place 1227 50) (Place 1233 50) true; SNode 347 (Place 1227 50) (Place 1233 50) false].
Definition t_type_assertion_cgroups1 : list cgroup := [CGroup (Place 72 9) (Place 119 11) [(str "// Errors:"); (str "//"); (str "//    - interface-error -- always")]; CGroup (Place 153 12) (Place 197 12) [(str "// want Method:""ErrorCodes: interface-error""")]; CGroup (Place 235 16) (Place 281 18) [(str "// Errors:"); (str "//"); (str "//    - standard-error -- always")]; CGroup (Place 311 19) (Place 361 19) [(str "// want StandardError:""ErrorCodes: standard-error""")]; CGroup (Place 398 23) (Place 477 23) [(str "// EmptyInterfaceError isn't detected by serum-analyzer as an error return type")]; CGroup (Place 562 28) (Place 607 30) [(str "// Errors:"); (str "//"); (str "//   - maybe-error -- sometimes")]; CGroup (Place 634 31) (Place 678 31) [(str "// want MaybeError:""ErrorCodes: maybe-error""")]; CGroup (Place 775 38) (Place 844 38) [(str "// want Error:`ErrorType{Field:{Name:""TheCode"", Position:0}, Codes:}`")]].
Definition t_type_assertion_files : list source_file := [SourceFile t_type_assertion_nodes0 t_type_assertion_cgroups0; SourceFile t_type_assertion_nodes1 t_type_assertion_cgroups1].
Definition t_type_assertion_info : typeinfo := map_info (list_to_map t_type_assertion_types) (list_to_map t_type_assertion_values) (list_to_map t_type_assertion_uses) (list_to_map t_type_assertion_defs) (list_to_map t_type_assertion_sels) (list_to_set [1; 4; 5; 6; 7; 8; 9; 10; 11; 12; 13; 14; 15; 16; 17; 18; 19; 20; 55; 60; 66]) (list_to_map t_type_assertion_pkgnames) (list_to_map t_type_assertion_objnames) (list_to_map t_type_assertion_objtypes) (list_to_map t_type_assertion_under) t_type_assertion_methods t_type_assertion_ierr t_type_assertion_iree t_type_assertion_icause t_type_assertion_impl (list_to_map t_type_assertion_named_methods).
Definition t_type_assertion : package := Package (list_to_map [(1, t_type_assertion_f1); (2, t_type_assertion_f2); (3, t_type_assertion_f3); (4, t_type_assertion_f4); (5, t_type_assertion_f5); (6, t_type_assertion_f6); (7, t_type_assertion_f7); (8, t_type_assertion_f8); (9, t_type_assertion_f9); (10, t_type_assertion_f10); (11, t_type_assertion_f11); (12, t_type_assertion_f12); (13, t_type_assertion_f13); (14, t_type_assertion_f14); (15, t_type_assertion_f15); (16, t_type_assertion_f16)]) [1; 2; 3; 4; 5; 6; 7; 8; 9; 10; 11; 12; 13; 14; 15; 16] t_type_assertion_gendecls t_type_assertion_top (list_to_map t_type_assertion_objs) (fun id => default [] (createCommentMap t_type_assertion_files id)) t_type_assertion_info.
Definition t_type_assertion_rank : gostring -> nat := fun n => default 0%nat ((list_to_map [((str "ErrorInterface"), 1%nat)] : gmap gostring nat) !! n).

(** type_assertion: 11 diagnostics and 10 facts, as its "want" comments demand. *)
Theorem t_type_assertion_ascending :
  report (run_test t_type_assertion ascending (Facts ∅ ∅ ∅ ∅)) = Some [
    (52, (str "function ""TypeAssertionNoCodes"" is exported, but does not declare any error codes")) (* assert.go:25 *);
    (20, (str "type assertion is not supported in error code analysis")) (* assert.go:8 *);
    (3, (str "function ""TypeAssertionMethod"" has a mismatch of declared and actual error codes: unused codes: [interface-error]")) (* assert.go:6 *);
    (47, (str "type assertion is not supported in error code analysis")) (* assert.go:22 *);
    (37, (str "function ""TypeAssertion"" has a mismatch of declared and actual error codes: unused codes: [standard-error]")) (* assert.go:21 *);
    (146, (str "type assertion switch is not supported in error code analysis")) (* assert.go:65 *);
    (131, (str "function ""TypeAssertionSwitchFromNonError"" has a mismatch of declared and actual error codes: unused codes: [empty-interface-error]")) (* assert.go:63 *);
    (33, (str "type assertion is not supported in error code analysis")) (* assert.go:15 *);
    (24, (str "function ""TypeAssertionInterface"" has a mismatch of declared and actual error codes: unused codes: [empty-interface-error]")) (* assert.go:14 *);
    (115, (str "type assertion switch is not supported in error code analysis")) (* assert.go:49 *);
    (100, (str "function ""TypeAssertionSwitch"" has a mismatch of declared and actual error codes: unused codes: [maybe-error]")) (* assert.go:47 *)] /\
  fact_texts (facts_after_test (run_test t_type_assertion ascending (Facts ∅ ∅ ∅ ∅))) [48; 49; 50; 51; 52; 53; 54; 55; 56; 57; 58; 59; 60; 61; 62; 63; 64; 65; 66; 67; 68; 69; 70; 71; 72; 74; 75; 76; 77; 78; 82] = [
    (48, (str "ErrorCodes: interface-error")) (* assert.go:6 TypeAssertionMethod *);
    (49, (str "ErrorCodes: empty-interface-error")) (* assert.go:14 TypeAssertionInterface *);
    (50, (str "ErrorCodes: standard-error")) (* assert.go:21 TypeAssertion *);
    (52, (str "ErrorCodes: maybe-error standard-error")) (* assert.go:33 TypeAssertionMultipleTypes *);
    (53, (str "ErrorCodes: maybe-error standard-error")) (* assert.go:47 TypeAssertionSwitch *);
    (54, (str "ErrorCodes: empty-interface-error standard-error")) (* assert.go:63 TypeAssertionSwitchFromNonError *);
    (56, (str "ErrorCodes: interface-error")) (* definitions.go:12 Method *);
    (57, (str "ErrorCodes: standard-error")) (* definitions.go:19 StandardError *);
    (59, (str "ErrorCodes: maybe-error")) (* definitions.go:31 MaybeError *);
    (60, (str "ErrorType{Field:{Name:""TheCode"", Position:0}, Codes:}")) (* definitions.go:38 Error *)].
Proof. vm_compute. split; reflexivity. Qed.

(** type_assertion: 11 diagnostics and 10 facts, as its "want" comments demand. *)
Theorem t_type_assertion_descending :
  report (run_test t_type_assertion descending (Facts ∅ ∅ ∅ ∅)) = Some [
    (52, (str "function ""TypeAssertionNoCodes"" is exported, but does not declare any error codes")) (* assert.go:25 *);
    (115, (str "type assertion switch is not supported in error code analysis")) (* assert.go:49 *);
    (100, (str "function ""TypeAssertionSwitch"" has a mismatch of declared and actual error codes: unused codes: [maybe-error]")) (* assert.go:47 *);
    (33, (str "type assertion is not supported in error code analysis")) (* assert.go:15 *);
    (24, (str "function ""TypeAssertionInterface"" has a mismatch of declared and actual error codes: unused codes: [empty-interface-error]")) (* assert.go:14 *);
    (146, (str "type assertion switch is not supported in error code analysis")) (* assert.go:65 *);
    (131, (str "function ""TypeAssertionSwitchFromNonError"" has a mismatch of declared and actual error codes: unused codes: [empty-interface-error]")) (* assert.go:63 *);
    (47, (str "type assertion is not supported in error code analysis")) (* assert.go:22 *);
    (37, (str "function ""TypeAssertion"" has a mismatch of declared and actual error codes: unused codes: [standard-error]")) (* assert.go:21 *);
    (20, (str "type assertion is not supported in error code analysis")) (* assert.go:8 *);
    (3, (str "function ""TypeAssertionMethod"" has a mismatch of declared and actual error codes: unused codes: [interface-error]")) (* assert.go:6 *)] /\
  fact_texts (facts_after_test (run_test t_type_assertion descending (Facts ∅ ∅ ∅ ∅))) [48; 49; 50; 51; 52; 53; 54; 55; 56; 57; 58; 59; 60; 61; 62; 63; 64; 65; 66; 67; 68; 69; 70; 71; 72; 74; 75; 76; 77; 78; 82] = [
    (48, (str "ErrorCodes: interface-error")) (* assert.go:6 TypeAssertionMethod *);
    (49, (str "ErrorCodes: empty-interface-error")) (* assert.go:14 TypeAssertionInterface *);
    (50, (str "ErrorCodes: standard-error")) (* assert.go:21 TypeAssertion *);
    (52, (str "ErrorCodes: maybe-error standard-error")) (* assert.go:33 TypeAssertionMultipleTypes *);
    (53, (str "ErrorCodes: maybe-error standard-error")) (* assert.go:47 TypeAssertionSwitch *);
    (54, (str "ErrorCodes: empty-interface-error standard-error")) (* assert.go:63 TypeAssertionSwitchFromNonError *);
    (56, (str "ErrorCodes: interface-error")) (* definitions.go:12 Method *);
    (57, (str "ErrorCodes: standard-error")) (* definitions.go:19 StandardError *);
    (59, (str "ErrorCodes: maybe-error")) (* definitions.go:31 MaybeError *);
    (60, (str "ErrorType{Field:{Name:""TheCode"", Position:0}, Codes:}")) (* definitions.go:38 Error *)].
Proof. vm_compute. split; reflexivity. Qed.

(** The presuppositions of the general theorems that this package satisfies. *)
Theorem t_type_assertion_presuppositions :
  (forall fa, usable_functions t_type_assertion fa) /\
  (forall fa, no_literal_recursion t_type_assertion (collectFunctions t_type_assertion) fa) /\
  (forall fa, literals_apart t_type_assertion (collectFunctions t_type_assertion) fa) /\
  types_usable t_type_assertion /\
  (forall w n, occurs t_type_assertion w n -> ~ ill_formed t_type_assertion w n) /\
  distinct_definitions t_type_assertion /\
  interfaces_ok t_type_assertion /\
  uses_resolved t_type_assertion (collectFunctions t_type_assertion) /\
  (forall g fn, pk_funcs t_type_assertion !! g = Some fn -> disciplined t_type_assertion (facts_after_test (run_test t_type_assertion ascending (Facts ∅ ∅ ∅ ∅))) fn /\ resolved t_type_assertion (collectFunctions t_type_assertion) (facts_after_test (run_test t_type_assertion ascending (Facts ∅ ∅ ∅ ∅))) fn) /\
  Forall layout t_type_assertion_files.
Proof.
  split_and!.
  - intros fa; apply package_usable_spec; vm_compute; reflexivity.
  - intros fa; apply recursion_check_spec; vm_compute; reflexivity.
  - intros fa; apply apart_spec; vm_compute; reflexivity.
  - apply types_ok_spec; vm_compute; reflexivity.
  - apply package_formed_spec; vm_compute; reflexivity.
  - apply definitions_check_spec; vm_compute; reflexivity.
  - apply (interfaces_check_spec t_type_assertion t_type_assertion_rank); vm_compute; reflexivity.
  - apply uses_check_spec; vm_compute; reflexivity.
  - intros g fn; apply sound_ok_spec; vm_compute; reflexivity.
  - apply layouts_spec; vm_compute; reflexivity.
Qed.
