(** * The test package interfaces of /repo/analysis/testdata/src, run on the model.  Generated by tools/conform.py; see Conform.v. *)
From Coq Require Import Ascii String.
From stdpp Require Import base list gmap.
From Verif Require Import GoString Scc Engine Constant CommentText CommentMap Phase FactText Conform Claims Analyse Verify SpecTaint SpecProgram SpecLiterals SpecCodeMethod SpecInterfaces SpecSites SpecCrash SpecSound SpecWhole SpecLayout Checkers RecursionChecker LiteralChecker CodeCheckers FormChecker InterfaceChecker SoundChecker ChainChecker ExampleLayout GoAst.
Local Open Scope N_scope.
Definition t_interfaces_inner1_f1 : func := Func 93 (Some (DeclInfo (Ident 94 (str "FunctionForInterface1") (Some 1)) None (Some (comment_text [(str "// Errors:"); (str "//"); (str "//    - interface-1-error --"); (str "//    - interface-2-error --"); (str "//    - interface-3-error --"); (str "//    - interface-4-error --")])))) (FuncType 95 [(Field 97 [(Ident 98 (str "a") (Some 2)); (Ident 99 (str "b") (Some 3))] 100); (Field 101 [(Ident 102 (str "v") (Some 4))] 103)] (Some [(Field 105 [] 106)]) 2367) (Some (Node 107 (KOther (str "*ast.BlockStmt")) [(Node 108 (KOther (str "*ast.IfStmt")) [(Node 109 (KIdent (str "false") None) []); (Node 110 (KOther (str "*ast.BlockStmt")) [(Node 111 KReturn [(Node 112 KCall [(Node 113 KSelector [(Node 114 (KIdent (str "v") (Some 4)) []); (Node 115 (KIdent (str "Inner1Method1") None) [])])])])])]); (Node 116 (KAssign 1%nat) [(Node 117 (KIdent (str "a") (Some 2)) []); (Node 118 KCall [(Node 119 KSelector [(Node 120 (KIdent (str "v") (Some 4)) []); (Node 121 (KIdent (str "Inner1MethodWithoutError") None) [])]); (Node 122 (KIdent (str "b") (Some 3)) []); (Node 123 (KIdent (str "a") (Some 2)) [])])]); (Node 124 KReturn [(Node 125 KCall [(Node 126 KSelector [(Node 127 (KIdent (str "v") (Some 4)) []); (Node 128 (KIdent (str "Inner1Method2") None) [])]); (Node 129 (KIdent (str "a") (Some 2)) []); (Node 130 (KIdent (str "b") (Some 3)) [])])])])) 2373 2602.
Definition t_interfaces_inner1_f2 : func := Func 131 (Some (DeclInfo (Ident 132 (str "FunctionForInterface2") (Some 5)) None (Some (comment_text [(str "// Errors:"); (str "//"); (str "//    - some-error --")])))) (FuncType 133 [(Field 135 [(Ident 136 (str "v") (Some 6))] 137)] (Some [(Field 139 [] 140)]) 2687) (Some (Node 141 (KOther (str "*ast.BlockStmt")) [(Node 142 (KOther (str "*ast.IfStmt")) [(Node 143 (KIdent (str "true") None) []); (Node 144 (KOther (str "*ast.BlockStmt")) [(Node 145 KReturn [(Node 146 KCall [(Node 147 KSelector [(Node 148 (KIdent (str "v") (Some 6)) []); (Node 149 (KIdent (str "Inner1CodeNotDeclared") None) [])])])])])]); (Node 150 KReturn [(Node 151 (KUnary true) [(Node 152 KComposite [(Node 154 KBasicLit [])])])])])) 2693 2884.
Definition t_interfaces_inner1_f3 : func := Func 155 (Some (DeclInfo (Ident 156 (str "FunctionForInterface3") (Some 7)) None (Some (comment_text [(str "// Errors:"); (str "//"); (str "//    - interface-1-error --"); (str "//    - interface-2-error --")])))) (FuncType 157 [(Field 159 [(Ident 160 (str "v") (Some 8))] 161)] (Some [(Field 163 [] 164)]) 3005) (Some (Node 165 (KOther (str "*ast.BlockStmt")) [(Node 166 (KOther (str "*ast.IfStmt")) [(Node 167 (KIdent (str "false") None) []); (Node 168 (KOther (str "*ast.BlockStmt")) [(Node 169 KReturn [(Node 170 KCall [(Node 171 KSelector [(Node 172 (KIdent (str "v") (Some 8)) []); (Node 173 (KIdent (str "Inner1NoCodes") None) [])])])])])]); (Node 174 KReturn [(Node 175 KCall [(Node 176 KSelector [(Node 177 (KIdent (str "v") (Some 8)) []); (Node 178 (KIdent (str "Inner1YesCodes") None) [])])])])])) 3011 3218.
Definition t_interfaces_inner1_f4 : func := Func 179 (Some (DeclInfo (Ident 180 (str "FunctionForAllInterfaces") (Some 9)) None (Some (comment_text [(str "// Errors:"); (str "//"); (str "//    - interface-1-error --"); (str "//    - interface-2-error --"); (str "//    - interface-3-error --"); (str "//    - interface-4-error --")])))) (FuncType 181 [(Field 183 [(Ident 184 (str "v1") (Some 10))] 185); (Field 186 [(Ident 187 (str "v2") (Some 11))] 188); (Field 189 [(Ident 190 (str "v3") (Some 12))] 191)] (Some [(Field 193 [] 194)]) 3443) (Some (Node 195 (KOther (str "*ast.BlockStmt")) [(Node 196 (KOther (str "*ast.SwitchStmt")) [(Node 197 (KOther (str "*ast.BlockStmt")) [(Node 198 (KCaseClause 1%nat) [(Node 199 (KIdent (str "true") None) []); (Node 200 KReturn [(Node 201 KCall [(Node 202 KSelector [(Node 203 (KIdent (str "v2") (Some 11)) []); (Node 204 (KIdent (str "Inner1CodeNotDeclared") None) [])])])])]); (Node 205 (KCaseClause 1%nat) [(Node 206 (KIdent (str "true") None) []); (Node 207 KReturn [(Node 208 KCall [(Node 209 KSelector [(Node 210 (KIdent (str "v3") (Some 12)) []); (Node 211 (KIdent (str "Inner1NoCodes") None) [])])])])]); (Node 212 (KCaseClause 1%nat) [(Node 213 (KIdent (str "true") None) []); (Node 214 KReturn [(Node 215 KCall [(Node 216 KSelector [(Node 217 (KIdent (str "v3") (Some 12)) []); (Node 218 (KIdent (str "Inner1YesCodes") None) [])])])])])])]); (Node 219 KReturn [(Node 220 KCall [(Node 221 KSelector [(Node 222 (KIdent (str "v1") (Some 10)) []); (Node 223 (KIdent (str "Inner1Method2") None) [])]); (Node 224 KBasicLit []); (Node 225 KBasicLit [])])])])) 3449 3858.
Definition t_interfaces_inner1_f5 : func := Func 231 (Some (DeclInfo (Ident 235 (str "InterfaceMethod1") None) (Some [(Field 233 [] 234)]) (Some (comment_text [(str "// Errors:"); (str "//"); (str "//    - interface-1-error --")])))) (FuncType 236 [] (Some [(Field 239 [] 240)]) 3976) (Some (Node 241 (KOther (str "*ast.BlockStmt")) [(Node 242 KReturn [(Node 243 (KUnary true) [(Node 244 KComposite [(Node 246 KBasicLit [])])])])])) 3982 4078.
Definition t_interfaces_inner1_f6 : func := Func 247 (Some (DeclInfo (Ident 251 (str "InterfaceMethod2") None) (Some [(Field 249 [] 250)]) (Some (comment_text [(str "// Errors:"); (str "//"); (str "//    - interface-3-error --")])))) (FuncType 252 [(Field 254 [(Ident 255 (str "a") (Some 13)); (Ident 256 (str "b") (Some 14))] 257)] (Some [(Field 259 [] 260)]) 4176) (Some (Node 261 (KOther (str "*ast.BlockStmt")) [(Node 262 KReturn [(Node 263 (KUnary true) [(Node 264 KComposite [(Node 266 KBasicLit [])])])])])) 4182 4278.
Definition t_interfaces_inner1_f7 : func := Func 267 (Some (DeclInfo (Ident 271 (str "MethodWithoutError") None) (Some [(Field 269 [] 270)]) None)) (FuncType 272 [(Field 274 [(Ident 275 (str "a") (Some 15)); (Ident 276 (str "b") (Some 16))] 277)] (Some [(Field 279 [] 280)]) 4335) (Some (Node 281 (KOther (str "*ast.BlockStmt")) [(Node 282 KReturn [(Node 283 (KIdent (str "a") (Some 15)) [])])])) 4342 4355.
Definition t_interfaces_inner1_f8 : func := Func 289 (Some (DeclInfo (Ident 294 (str "InterfaceMethod1") None) (Some [(Field 291 [] 292)]) (Some (comment_text [(str "// Errors:"); (str "//"); (str "//    - interface-2-error --")])))) (FuncType 295 [] (Some [(Field 298 [] 299)]) 4488) (Some (Node 300 (KOther (str "*ast.BlockStmt")) [(Node 301 KReturn [(Node 302 (KUnary true) [(Node 303 KComposite [(Node 305 KBasicLit [])])])])])) 4494 4590.
Definition t_interfaces_inner1_f9 : func := Func 306 (Some (DeclInfo (Ident 311 (str "InterfaceMethod2") None) (Some [(Field 308 [] 309)]) (Some (comment_text [(str "// Errors:"); (str "//"); (str "//    - interface-4-error --")])))) (FuncType 312 [(Field 314 [(Ident 315 (str "a") (Some 17)); (Ident 316 (str "b") (Some 18))] 317)] (Some [(Field 319 [] 320)]) 4696) (Some (Node 321 (KOther (str "*ast.BlockStmt")) [(Node 322 KReturn [(Node 323 (KUnary true) [(Node 324 KComposite [(Node 326 KBasicLit [])])])])])) 4702 4798.
Definition t_interfaces_inner1_f10 : func := Func 327 (Some (DeclInfo (Ident 332 (str "MethodWithoutError") None) (Some [(Field 329 [] 330)]) None)) (FuncType 333 [(Field 335 [(Ident 336 (str "a") (Some 19)); (Ident 337 (str "b") (Some 20))] 338)] (Some [(Field 340 [] 341)]) 4863) (Some (Node 342 (KOther (str "*ast.BlockStmt")) [(Node 343 KReturn [(Node 344 (KIdent (str "a") (Some 19)) [])])])) 4870 4883.
Definition t_interfaces_inner1_f11 : func := Func 353 (Some (DeclInfo (Ident 359 (str "Code") None) (Some [(Field 355 [(Ident 356 (str "e") (Some 21))] 357)]) None)) (FuncType 360 [] (Some [(Field 363 [] 364)]) 5017) (Some (Node 365 (KOther (str "*ast.BlockStmt")) [(Node 366 KReturn [(Node 367 KSelector [(Node 368 (KIdent (str "e") (Some 21)) []); (Node 369 (KIdent (str "TheCode") None) [])])])])) 5038 5058.
Definition t_interfaces_inner1_f12 : func := Func 370 (Some (DeclInfo (Ident 376 (str "Message") None) (Some [(Field 372 [(Ident 373 (str "e") (Some 22))] 374)]) None)) (FuncType 377 [] (Some [(Field 380 [] 381)]) 5085) (Some (Node 382 (KOther (str "*ast.BlockStmt")) [(Node 383 KReturn [(Node 384 KSelector [(Node 385 (KIdent (str "e") (Some 22)) []); (Node 386 (KIdent (str "TheCode") None) [])])])])) 5103 5123.
Definition t_interfaces_inner1_f13 : func := Func 387 (Some (DeclInfo (Ident 393 (str "Details") None) (Some [(Field 389 [(Ident 390 (str "e") (Some 23))] 391)]) None)) (FuncType 394 [] (Some [(Field 397 [] 398)]) 5150) (Some (Node 401 (KOther (str "*ast.BlockStmt")) [(Node 402 KReturn [(Node 403 (KIdent (str "nil") None) [])])])) 5168 5182.
Definition t_interfaces_inner1_f14 : func := Func 404 (Some (DeclInfo (Ident 410 (str "Cause") None) (Some [(Field 406 [(Ident 407 (str "e") (Some 24))] 408)]) None)) (FuncType 411 [] (Some [(Field 414 [] 415)]) 5207) (Some (Node 416 (KOther (str "*ast.BlockStmt")) [(Node 417 KReturn [(Node 418 (KIdent (str "nil") None) [])])])) 5227 5241.
Definition t_interfaces_inner1_f15 : func := Func 419 (Some (DeclInfo (Ident 425 (str "Error") None) (Some [(Field 421 [(Ident 422 (str "e") (Some 25))] 423)]) None)) (FuncType 426 [] (Some [(Field 429 [] 430)]) 5266) (Some (Node 431 (KOther (str "*ast.BlockStmt")) [(Node 432 KReturn [(Node 433 KCall [(Node 434 KSelector [(Node 435 (KIdent (str "e") (Some 25)) []); (Node 436 (KIdent (str "Message") None) [])])])])])) 5286 5308.
Definition t_interfaces_inner1_gendecls : list gendecl := [GenDecl 3 [(Some (TypeSpec (Ident 5 (str "Inner1Interface1") (Some 30)) (XInterface 6 [IMethod 8 (Ident 9 (str "Inner1Method1") None) (Some (comment_text [(str "// InterfaceMethod1 is a method returning an error with error codes declared in doc."); (str "//"); (str "// Errors:"); (str "//"); (str "//    - interface-1-error -- could potentially be returned"); (str "//    - interface-2-error --")])) (FuncType 10 [] (Some [(Field 13 [] 14)]) 335); IMethod 15 (Ident 16 (str "Inner1Method2") None) (Some (comment_text [(str "// Errors:"); (str "//"); (str "//    - interface-3-error -- could potentially be returned"); (str "//    - interface-4-error --")])) (FuncType 17 [(Field 19 [(Ident 20 (str "a") (Some 26)); (Ident 21 (str "b") (Some 27))] 22)] (Some [(Field 24 [] 25)]) 548); IMethod 27 (Ident 28 (str "Inner1MethodWithoutError") None) (Some (comment_text [(str "// MethodWithoutError is just some method that does not return an error,"); (str "// to test if it is correctly ignored in the analysis.")])) (FuncType 29 [(Field 31 [(Ident 32 (str "a") (Some 28)); (Ident 33 (str "b") (Some 29))] 34)] (Some [(Field 36 [] 37)]) 797)])))]; GenDecl 38 [(Some (TypeSpec (Ident 40 (str "SimpleInterface") (Some 31)) (XInterface 41 [IMethod 43 (Ident 44 (str "SimpleInterfaceMethod") None) (Some (comment_text [(str "// SimpleInterfaceMethod is a method returning an error with error codes declared in doc."); (str "//"); (str "// Errors:"); (str "//"); (str "//    - interface-1-error -- could potentially be returned"); (str "//    - interface-2-error -- could potentially be returned")])) (FuncType 45 [] (Some [(Field 48 [] 49)]) 1160)])))]; GenDecl 50 [(Some (TypeSpec (Ident 52 (str "SimpleInterfaceIncompatible") (Some 32)) (XInterface 53 [IMethod 55 (Ident 56 (str "SimpleInterfaceMethod") None) (Some (comment_text [(str "// SimpleInterfaceMethod is a method returning an error with error codes declared in doc."); (str "//"); (str "// Errors:"); (str "//"); (str "//    - inner1-error -- could potentially be returned")])) (FuncType 57 [] (Some [(Field 60 [] 61)]) 1561)])))]; GenDecl 62 [(Some (TypeSpec (Ident 64 (str "Inner1Interface2") (Some 33)) (XInterface 65 [IMethod 67 (Ident 68 (str "Inner1CodeNotDeclared") None) None (FuncType 69 [] (Some [(Field 72 [] 73)]) 1686)])))]; GenDecl 74 [(Some (TypeSpec (Ident 76 (str "Inner1Interface3") (Some 34)) (XInterface 77 [IMethod 79 (Ident 80 (str "Inner1NoCodes") None) None (FuncType 81 [] (Some [(Field 84 [] 85)]) 1888); IMethod 86 (Ident 87 (str "Inner1YesCodes") None) (Some (comment_text [(str "// Errors:"); (str "//"); (str "//    - interface-1-error -- could potentially be returned"); (str "//    - interface-2-error --")])) (FuncType 88 [] (Some [(Field 91 [] 92)]) 2095)])))]; GenDecl 226 [(Some (TypeSpec (Ident 228 (str "ImplementOuter1") (Some 35)) (XStruct [])))]; GenDecl 284 [(Some (TypeSpec (Ident 286 (str "ImplementOuterPointer1") (Some 36)) (XStruct [])))]; GenDecl 345 [(Some (TypeSpec (Ident 347 (str "Error") (Some 37)) (XStruct [[(Ident 351 (str "TheCode") None)]])))]].
Definition t_interfaces_inner1_top : list topdecl := [TopNode (Node 3 (KOther (str "*ast.GenDecl")) [(Node 4 (KOther (str "*ast.TypeSpec")) [])]); TopNode (Node 38 (KOther (str "*ast.GenDecl")) [(Node 39 (KOther (str "*ast.TypeSpec")) [])]); TopNode (Node 50 (KOther (str "*ast.GenDecl")) [(Node 51 (KOther (str "*ast.TypeSpec")) [])]); TopNode (Node 62 (KOther (str "*ast.GenDecl")) [(Node 63 (KOther (str "*ast.TypeSpec")) [])]); TopNode (Node 74 (KOther (str "*ast.GenDecl")) [(Node 75 (KOther (str "*ast.TypeSpec")) [])]); TopFunc 1; TopFunc 2; TopFunc 3; TopFunc 4; TopNode (Node 226 (KOther (str "*ast.GenDecl")) [(Node 227 (KOther (str "*ast.TypeSpec")) [])]); TopFunc 5; TopFunc 6; TopFunc 7; TopNode (Node 284 (KOther (str "*ast.GenDecl")) [(Node 285 (KOther (str "*ast.TypeSpec")) [])]); TopFunc 8; TopFunc 9; TopFunc 10; TopNode (Node 345 (KOther (str "*ast.GenDecl")) [(Node 346 (KOther (str "*ast.TypeSpec")) [])]); TopFunc 11; TopFunc 12; TopFunc 13; TopFunc 14; TopFunc 15].
Definition t_interfaces_inner1_objs : list (N * object) := [(1, Object false 2312 (DFunc 1)); (2, Object true 2334 DOther); (3, Object true 2337 DOther); (4, Object true 2347 DOther); (5, Object false 2645 (DFunc 2)); (6, Object true 2667 DOther); (7, Object false 2963 (DFunc 3)); (8, Object true 2985 DOther); (9, Object false 3355 (DFunc 4)); (10, Object true 3380 DOther); (11, Object true 3401 DOther); (12, Object true 3422 DOther); (13, Object true 4163 DOther); (14, Object true 4166 DOther); (15, Object true 4322 DOther); (16, Object true 4325 DOther); (17, Object true 4683 DOther); (18, Object true 4686 DOther); (19, Object true 4850 DOther); (20, Object true 4853 DOther); (21, Object true 5000 DOther); (22, Object true 5065 DOther); (23, Object true 5130 DOther); (24, Object true 5189 DOther); (25, Object true 5248 DOther); (26, Object true 535 DOther); (27, Object true 538 DOther); (28, Object true 784 DOther); (29, Object true 787 DOther); (30, Object false 22 DType); (31, Object false 812 DType); (32, Object false 1254 DType); (33, Object false 1632 DType); (34, Object false 1784 DType); (35, Object false 3865 DType); (36, Object false 4362 DType); (37, Object false 4890 DType)].
Definition t_interfaces_inner1_types : list (N * gotype) := [(5, (TNamed 47)); (6, (TInterface 5)); (9, (TSignature [] [(TNamed 1)] false)); (10, (TSignature [] [(TNamed 1)] false)); (14, (TNamed 1)); (16, (TSignature [(TBasic (str "string")); (TBasic (str "string"))] [(TPointer (TNamed 64))] false)); (17, (TSignature [(TBasic (str "string")); (TBasic (str "string"))] [(TPointer (TNamed 64))] false)); (20, (TBasic (str "string"))); (21, (TBasic (str "string"))); (22, (TBasic (str "string"))); (25, (TPointer (TNamed 64))); (26, (TNamed 64)); (28, (TSignature [(TBasic (str "string")); (TBasic (str "string"))] [(TBasic (str "string"))] false)); (29, (TSignature [(TBasic (str "string")); (TBasic (str "string"))] [(TBasic (str "string"))] false)); (32, (TBasic (str "string"))); (33, (TBasic (str "string"))); (34, (TBasic (str "string"))); (37, (TBasic (str "string"))); (40, (TNamed 48)); (41, (TInterface 6)); (44, (TSignature [] [(TNamed 1)] false)); (45, (TSignature [] [(TNamed 1)] false)); (49, (TNamed 1)); (52, (TNamed 49)); (53, (TInterface 6)); (56, (TSignature [] [(TNamed 1)] false)); (57, (TSignature [] [(TNamed 1)] false)); (61, (TNamed 1)); (64, (TNamed 50)); (65, (TInterface 7)); (68, (TSignature [] [(TNamed 1)] false)); (69, (TSignature [] [(TNamed 1)] false)); (73, (TNamed 1)); (76, (TNamed 51)); (77, (TInterface 8)); (80, (TSignature [] [(TNamed 1)] false)); (81, (TSignature [] [(TNamed 1)] false)); (85, (TNamed 1)); (87, (TSignature [] [(TNamed 1)] false)); (88, (TSignature [] [(TNamed 1)] false)); (92, (TNamed 1)); (95, (TSignature [(TBasic (str "string")); (TBasic (str "string")); (TNamed 47)] [(TNamed 1)] false)); (98, (TBasic (str "string"))); (99, (TBasic (str "string"))); (100, (TBasic (str "string"))); (102, (TNamed 47)); (103, (TNamed 47)); (106, (TNamed 1)); (109, (TBasic (str "bool"))); (112, (TNamed 1)); (113, (TSignature [] [(TNamed 1)] false)); (114, (TNamed 47)); (115, (TSignature [] [(TNamed 1)] false)); (117, (TBasic (str "string"))); (118, (TBasic (str "string"))); (119, (TSignature [(TBasic (str "string")); (TBasic (str "string"))] [(TBasic (str "string"))] false)); (120, (TNamed 47)); (121, (TSignature [(TBasic (str "string")); (TBasic (str "string"))] [(TBasic (str "string"))] false)); (122, (TBasic (str "string"))); (123, (TBasic (str "string"))); (125, (TPointer (TNamed 64))); (126, (TSignature [(TBasic (str "string")); (TBasic (str "string"))] [(TPointer (TNamed 64))] false)); (127, (TNamed 47)); (128, (TSignature [(TBasic (str "string")); (TBasic (str "string"))] [(TPointer (TNamed 64))] false)); (129, (TBasic (str "string"))); (130, (TBasic (str "string"))); (133, (TSignature [(TNamed 50)] [(TNamed 1)] false)); (136, (TNamed 50)); (137, (TNamed 50)); (140, (TNamed 1)); (143, (TBasic (str "bool"))); (146, (TNamed 1)); (147, (TSignature [] [(TNamed 1)] false)); (148, (TNamed 50)); (149, (TSignature [] [(TNamed 1)] false)); (151, (TPointer (TNamed 64))); (152, (TNamed 64)); (153, (TNamed 64)); (154, (TBasic (str "string"))); (157, (TSignature [(TNamed 51)] [(TNamed 1)] false)); (160, (TNamed 51)); (161, (TNamed 51)); (164, (TNamed 1)); (167, (TBasic (str "bool"))); (170, (TNamed 1)); (171, (TSignature [] [(TNamed 1)] false)); (172, (TNamed 51)); (173, (TSignature [] [(TNamed 1)] false)); (175, (TNamed 1)); (176, (TSignature [] [(TNamed 1)] false)); (177, (TNamed 51)); (178, (TSignature [] [(TNamed 1)] false)); (181, (TSignature [(TNamed 47); (TNamed 50); (TNamed 51)] [(TNamed 1)] false)); (184, (TNamed 47)); (185, (TNamed 47)); (187, (TNamed 50)); (188, (TNamed 50)); (190, (TNamed 51)); (191, (TNamed 51)); (194, (TNamed 1)); (199, (TBasic (str "bool"))); (201, (TNamed 1)); (202, (TSignature [] [(TNamed 1)] false)); (203, (TNamed 50)); (204, (TSignature [] [(TNamed 1)] false)); (206, (TBasic (str "bool"))); (208, (TNamed 1)); (209, (TSignature [] [(TNamed 1)] false)); (210, (TNamed 51)); (211, (TSignature [] [(TNamed 1)] false)); (213, (TBasic (str "bool"))); (215, (TNamed 1)); (216, (TSignature [] [(TNamed 1)] false)); (217, (TNamed 51)); (218, (TSignature [] [(TNamed 1)] false)); (220, (TPointer (TNamed 64))); (221, (TSignature [(TBasic (str "string")); (TBasic (str "string"))] [(TPointer (TNamed 64))] false)); (222, (TNamed 47)); (223, (TSignature [(TBasic (str "string")); (TBasic (str "string"))] [(TPointer (TNamed 64))] false)); (224, (TBasic (str "string"))); (225, (TBasic (str "string"))); (228, (TNamed 56)); (229, (TStruct [])); (234, (TNamed 56)); (236, (TSignature [] [(TNamed 1)] false)); (240, (TNamed 1)); (243, (TPointer (TNamed 64))); (244, (TNamed 64)); (245, (TNamed 64)); (246, (TBasic (str "string"))); (250, (TNamed 56)); (252, (TSignature [(TBasic (str "string")); (TBasic (str "string"))] [(TNamed 1)] false)); (255, (TBasic (str "string"))); (256, (TBasic (str "string"))); (257, (TBasic (str "string"))); (260, (TNamed 1)); (263, (TPointer (TNamed 64))); (264, (TNamed 64)); (265, (TNamed 64)); (266, (TBasic (str "string"))); (270, (TNamed 56)); (272, (TSignature [(TBasic (str "string")); (TBasic (str "string"))] [(TBasic (str "string"))] false)); (275, (TBasic (str "string"))); (276, (TBasic (str "string"))); (277, (TBasic (str "string"))); (280, (TBasic (str "string"))); (283, (TBasic (str "string"))); (286, (TNamed 60)); (287, (TStruct [])); (292, (TPointer (TNamed 60))); (293, (TNamed 60)); (295, (TSignature [] [(TNamed 1)] false)); (299, (TNamed 1)); (302, (TPointer (TNamed 64))); (303, (TNamed 64)); (304, (TNamed 64)); (305, (TBasic (str "string"))); (309, (TPointer (TNamed 60))); (310, (TNamed 60)); (312, (TSignature [(TBasic (str "string")); (TBasic (str "string"))] [(TNamed 1)] false)); (315, (TBasic (str "string"))); (316, (TBasic (str "string"))); (317, (TBasic (str "string"))); (320, (TNamed 1)); (323, (TPointer (TNamed 64))); (324, (TNamed 64)); (325, (TNamed 64)); (326, (TBasic (str "string"))); (330, (TPointer (TNamed 60))); (331, (TNamed 60)); (333, (TSignature [(TBasic (str "string")); (TBasic (str "string"))] [(TBasic (str "string"))] false)); (336, (TBasic (str "string"))); (337, (TBasic (str "string"))); (338, (TBasic (str "string"))); (341, (TBasic (str "string"))); (344, (TBasic (str "string"))); (347, (TNamed 64)); (348, (TStruct [((str "TheCode"), (TBasic (str "string")))])); (351, (TBasic (str "string"))); (352, (TBasic (str "string"))); (356, (TPointer (TNamed 64))); (357, (TPointer (TNamed 64))); (358, (TNamed 64)); (360, (TSignature [] [(TBasic (str "string"))] false)); (364, (TBasic (str "string"))); (367, (TBasic (str "string"))); (368, (TPointer (TNamed 64))); (369, (TBasic (str "string"))); (373, (TPointer (TNamed 64))); (374, (TPointer (TNamed 64))); (375, (TNamed 64)); (377, (TSignature [] [(TBasic (str "string"))] false)); (381, (TBasic (str "string"))); (384, (TBasic (str "string"))); (385, (TPointer (TNamed 64))); (386, (TBasic (str "string"))); (390, (TPointer (TNamed 64))); (391, (TPointer (TNamed 64))); (392, (TNamed 64)); (394, (TSignature [] [(TMap (TBasic (str "string")) (TBasic (str "string")))] false)); (398, (TMap (TBasic (str "string")) (TBasic (str "string")))); (399, (TBasic (str "string"))); (400, (TBasic (str "string"))); (403, TUntypedNil); (407, (TPointer (TNamed 64))); (408, (TPointer (TNamed 64))); (409, (TNamed 64)); (411, (TSignature [] [(TNamed 1)] false)); (415, (TNamed 1)); (418, TUntypedNil); (422, (TPointer (TNamed 64))); (423, (TPointer (TNamed 64))); (424, (TNamed 64)); (426, (TSignature [] [(TBasic (str "string"))] false)); (430, (TBasic (str "string"))); (433, (TBasic (str "string"))); (434, (TSignature [] [(TBasic (str "string"))] false)); (435, (TPointer (TNamed 64))); (436, (TSignature [] [(TBasic (str "string"))] false))].
Definition t_interfaces_inner1_values : list (N * constval) := [(109, COther); (143, COther); (154, CString (str "some-error")); (167, COther); (199, COther); (206, COther); (213, COther); (224, CString (str "a")); (225, CString (str "b")); (246, CString (str "interface-1-error")); (266, CString (str "interface-3-error")); (305, CString (str "interface-2-error")); (326, CString (str "interface-4-error"))].
Definition t_interfaces_inner1_uses : list (N * tobj) := [(14, 1); (22, 5); (26, 64); (34, 5); (37, 5); (49, 1); (61, 1); (73, 1); (85, 1); (92, 1); (100, 5); (103, 47); (106, 1); (109, 22); (114, 97); (115, 83); (117, 95); (120, 97); (121, 87); (122, 96); (123, 95); (127, 97); (128, 84); (129, 95); (130, 96); (137, 50); (140, 1); (143, 21); (148, 98); (149, 92); (153, 64); (161, 51); (164, 1); (167, 22); (172, 99); (173, 93); (177, 99); (178, 94); (185, 47); (188, 50); (191, 51); (194, 1); (199, 21); (203, 101); (204, 92); (206, 21); (210, 102); (211, 93); (213, 21); (217, 102); (218, 94); (222, 100); (223, 84); (234, 56); (240, 1); (245, 64); (250, 56); (257, 5); (260, 1); (265, 64); (270, 56); (277, 5); (280, 5); (283, 72); (293, 60); (299, 1); (304, 64); (310, 60); (317, 5); (320, 1); (325, 64); (331, 60); (338, 5); (341, 5); (344, 76); (352, 5); (358, 64); (364, 5); (368, 78); (369, 103); (375, 64); (381, 5); (385, 79); (386, 103); (392, 64); (399, 5); (400, 5); (403, 24); (409, 64); (415, 1); (418, 24); (424, 64); (430, 5); (435, 82); (436, 66)].
Definition t_interfaces_inner1_defs : list (N * tobj) := [(5, 47); (9, 83); (16, 84); (20, 85); (21, 86); (28, 87); (32, 88); (33, 89); (40, 48); (44, 90); (52, 49); (56, 91); (64, 50); (68, 92); (76, 51); (80, 93); (87, 94); (94, 52); (98, 95); (99, 96); (102, 97); (132, 53); (136, 98); (156, 54); (160, 99); (180, 55); (184, 100); (187, 101); (190, 102); (228, 56); (235, 57); (251, 58); (255, 70); (256, 71); (271, 59); (275, 72); (276, 73); (286, 60); (294, 61); (311, 62); (315, 74); (316, 75); (332, 63); (336, 76); (337, 77); (347, 64); (356, 78); (359, 65); (373, 79); (376, 66); (390, 80); (393, 67); (407, 81); (410, 68); (422, 82); (425, 69)].
Definition t_interfaces_inner1_sels : list (N * (tobj * gotype)) := [(113, (83, (TNamed 47))); (119, (87, (TNamed 47))); (126, (84, (TNamed 47))); (147, (92, (TNamed 50))); (171, (93, (TNamed 51))); (176, (94, (TNamed 51))); (202, (92, (TNamed 50))); (209, (93, (TNamed 51))); (216, (94, (TNamed 51))); (221, (84, (TNamed 47))); (367, (103, (TPointer (TNamed 64)))); (384, (103, (TPointer (TNamed 64)))); (434, (66, (TPointer (TNamed 64))))].
Definition t_interfaces_inner1_pkgnames : list (N * gostring) := [].
Definition t_interfaces_inner1_objnames : list (N * gostring) := [(1, (str "error")); (2, (str "Error")); (3, (str "?")); (4, (str "bool")); (5, (str "string")); (6, (str "int")); (7, (str "int8")); (8, (str "int16")); (9, (str "int32")); (10, (str "int64")); (11, (str "uint")); (12, (str "uint8")); (13, (str "uint16")); (14, (str "uint32")); (15, (str "uint64")); (16, (str "uintptr")); (17, (str "float32")); (18, (str "float64")); (19, (str "complex64")); (20, (str "complex128")); (21, (str "true")); (22, (str "false")); (23, (str "iota")); (24, (str "nil")); (25, (str "append")); (26, (str "cap")); (27, (str "close")); (28, (str "complex")); (29, (str "copy")); (30, (str "delete")); (31, (str "imag")); (32, (str "len")); (33, (str "make")); (34, (str "new")); (35, (str "panic")); (36, (str "print")); (37, (str "println")); (38, (str "real")); (39, (str "recover")); (40, (str "Errorf")); (41, (str "Sprintf")); (42, (str "Println")); (43, (str "New")); (44, (str "HasPrefix")); (45, (str "Float32")); (46, (str "Float64")); (47, (str "Inner1Interface1")); (48, (str "SimpleInterface")); (49, (str "SimpleInterfaceIncompatible")); (50, (str "Inner1Interface2")); (51, (str "Inner1Interface3")); (52, (str "FunctionForInterface1")); (53, (str "FunctionForInterface2")); (54, (str "FunctionForInterface3")); (55, (str "FunctionForAllInterfaces")); (56, (str "ImplementOuter1")); (57, (str "InterfaceMethod1")); (58, (str "InterfaceMethod2")); (59, (str "MethodWithoutError")); (60, (str "ImplementOuterPointer1")); (61, (str "InterfaceMethod1")); (62, (str "InterfaceMethod2")); (63, (str "MethodWithoutError")); (64, (str "Error")); (65, (str "Code")); (66, (str "Message")); (67, (str "Details")); (68, (str "Cause")); (69, (str "Error")); (70, (str "a")); (71, (str "b")); (72, (str "a")); (73, (str "b")); (74, (str "a")); (75, (str "b")); (76, (str "a")); (77, (str "b")); (78, (str "e")); (79, (str "e")); (80, (str "e")); (81, (str "e")); (82, (str "e")); (83, (str "Inner1Method1")); (84, (str "Inner1Method2")); (85, (str "a")); (86, (str "b")); (87, (str "Inner1MethodWithoutError")); (88, (str "a")); (89, (str "b")); (90, (str "SimpleInterfaceMethod")); (91, (str "SimpleInterfaceMethod")); (92, (str "Inner1CodeNotDeclared")); (93, (str "Inner1NoCodes")); (94, (str "Inner1YesCodes")); (95, (str "a")); (96, (str "b")); (97, (str "v")); (98, (str "v")); (99, (str "v")); (100, (str "v1")); (101, (str "v2")); (102, (str "v3")); (103, (str "TheCode")); (104, (str "inner1")); (105, (str "ImplementOuter2")); (106, (str "InterfaceMethod1")); (107, (str "InterfaceMethod2")); (108, (str "MethodWithoutError")); (109, (str "ImplementOuterPointer2")); (110, (str "InterfaceMethod1")); (111, (str "InterfaceMethod2")); (112, (str "MethodWithoutError")); (113, (str "ImplementInner1Interface1")); (114, (str "Inner1Method1")); (115, (str "Inner1Method2")); (116, (str "Inner1MethodWithoutError")); (117, (str "Error")); (118, (str "Code")); (119, (str "Message")); (120, (str "Details")); (121, (str "Cause")); (122, (str "Error")); (123, (str "a")); (124, (str "b")); (125, (str "a")); (126, (str "b")); (127, (str "a")); (128, (str "b")); (129, (str "a")); (130, (str "b")); (131, (str "a")); (132, (str "b")); (133, (str "a")); (134, (str "b")); (135, (str "e")); (136, (str "e")); (137, (str "e")); (138, (str "e")); (139, (str "e")); (140, (str "inner1")); (141, (str "inner2")); (142, (str "SimpleInterface")); (143, (str "SomeInterface")); (144, (str "WithInvalidMethods")); (145, (str "EmbeddedSimpleInterface")); (146, (str "EmbeddedMultipleInterfaces")); (147, (str "EmbeddedOtherPackage")); (148, (str "EmbeddedOtherPackage2")); (149, (str "EmbeddedOtherPackage3")); (150, (str "SimpleInterface2")); (151, (str "OtherSimpleInterface")); (152, (str "EmbeddedSimpleInterface2")); (153, (str "InterfaceParam")); (154, (str "OuterFunction")); (155, (str "ImplementInner1Interface1")); (156, (str "ImplementInner1Interface2")); (157, (str "ImplementInner1Interface3")); (158, (str "Inner1Method1")); (159, (str "Inner1Method2")); (160, (str "Inner1MethodWithoutError")); (161, (str "Inner1CodeNotDeclared")); (162, (str "Inner1NoCodes")); (163, (str "Inner1YesCodes")); (164, (str "UsingExternalImplAsExternalInterface")); (165, (str "ReeError")); (166, (str "ReturnReeError")); (167, (str "CallEmbeddedInterface")); (168, (str "ConvertEmbeddedInterface")); (169, (str "Error")); (170, (str "Code")); (171, (str "Message")); (172, (str "Details")); (173, (str "Cause")); (174, (str "Error")); (175, (str "EmbeddedMultipleInterfaces2")); (176, (str "EmbeddedSimpleInterfaceOtherFile")); (177, (str "EmbeddedSimpleInterface2OtherFile")); (178, (str "InvalidSimpleImpl")); (179, (str "InterFaceWithoutErrorCodeDeclarations")); (180, (str "SimpleInterfaceMethod")); (181, (str "InvalidReturn")); (182, (str "InvalidReturn2")); (183, (str "InvalidReturn3")); (184, (str "InvalidAssignment")); (185, (str "InvalidAssignment2")); (186, (str "InvalidAssignment3")); (187, (str "ReturnTwoInvalidSimpleImpl")); (188, (str "InvalidAssignment4")); (189, (str "InvalidAssignment5")); (190, (str "InvalidAssignment6")); (191, (str "TakingSimpleInterface")); (192, (str "TakingSimpleInterfaceVariadic")); (193, (str "TakingSimpleInterfaceSlice")); (194, (str "InvalidFunctionCall")); (195, (str "SimpleInterfaceMap")); (196, (str "InvalidMapIndex")); (197, (str "SimpleInterfaceIncompatible")); (198, (str "RandomInterface")); (199, (str "InvalidConversion")); (200, (str "BoxSimpleInterface")); (201, (str "Box2SimpleInterface")); (202, (str "Box3SimpleInterface")); (203, (str "InvalidStructCreation")); (204, (str "interfaceSlice")); (205, (str "interfaceSlice2")); (206, (str "InvalidSliceCreation")); (207, (str "interfaceArray")); (208, (str "interfaceArray2")); (209, (str "InvalidArrayCreation")); (210, (str "interfaceMap")); (211, (str "interfaceMap2")); (212, (str "InvalidMapCreation")); (213, (str "InvalidForRange")); (214, (str "InvalidSimpleImplSlice")); (215, (str "InvalidSimpleImplMap1")); (216, (str "InvalidSimpleImplMap2")); (217, (str "InvalidSimpleImplMap3")); (218, (str "InvalidSimpleImplArray")); (219, (str "InvalidSimpleImplPointerToArray")); (220, (str "InvalidSimpleImplChan")); (221, (str "InvalidForRangeNamed")); (222, (str "SimpleInterfaceChan")); (223, (str "InvalidChannelOperation")); (224, (str "someLocalInterface")); (225, (str "someLocalInterfaceInvalidImpl")); (226, (str "local1")); (227, (str "local2")); (228, (str "local3")); (229, (str "InvalidLocalImplementation")); (230, (str "Interface1")); (231, (str "Interface2")); (232, (str "Interface3")); (233, (str "Interface1InvalidImpl")); (234, (str "Interface2InvalidImpl")); (235, (str "Interface3InvalidImpl")); (236, (str "I1")); (237, (str "I2")); (238, (str "I3")); (239, (str "GetInterface2InvalidImpl")); (240, (str "NestedInvalidConversions")); (241, (str "InvalidEmbeddedInterface")); (242, (str "a")); (243, (str "b")); (244, (str "a")); (245, (str "b")); (246, (str "e")); (247, (str "e")); (248, (str "e")); (249, (str "e")); (250, (str "e")); (251, (str "SimpleInterfaceMethod")); (252, (str "InterfaceMethod1")); (253, (str "InterfaceMethod2")); (254, (str "a")); (255, (str "b")); (256, (str "MethodWithoutError")); (257, (str "a")); (258, (str "b")); (259, (str "InvalidMethod1")); (260, (str "SimpleInterfaceMethod")); (261, (str "OtherMethod")); (262, (str "SimpleInterfaceMethod")); (263, (str "some")); (264, (str "a")); (265, (str "b")); (266, (str "a")); (267, (str "b")); (268, (str "a")); (269, (str "b")); (270, (str "Code")); (271, (str "Message")); (272, (str "Details")); (273, (str "Cause")); (274, (str "Error")); (275, (str "param")); (276, (str "param")); (277, (str "SimpleInterfaceMethod")); (278, (str "ExportedCodeNotDeclared")); (279, (str "localCodeNotDeclared")); (280, (str "_")); (281, (str "_")); (282, (str "_")); (283, (str "_")); (284, (str "x")); (285, (str "y")); (286, (str "z")); (287, (str "m")); (288, (str "_")); (289, (str "_")); (290, (str "_")); (291, (str "_")); (292, (str "_")); (293, (str "_")); (294, (str "_")); (295, (str "m")); (296, (str "m2")); (297, (str "slice")); (298, (str "SimpleInterfaceMethod")); (299, (str "RandomMethod")); (300, (str "incompatible")); (301, (str "bs")); (302, (str "slice")); (303, (str "m1")); (304, (str "m2")); (305, (str "m3")); (306, (str "array")); (307, (str "pa")); (308, (str "c")); (309, (str "slice")); (310, (str "m1")); (311, (str "m2")); (312, (str "m3")); (313, (str "array")); (314, (str "pa")); (315, (str "pa2")); (316, (str "c")); (317, (str "c")); (318, (str "csi")); (319, (str "csi2")); (320, (str "local1")); (321, (str "local2")); (322, (str "local3")); (323, (str "I1")); (324, (str "I2")); (325, (str "I3")); (326, (str "_")); (327, (str "_")); (328, (str "_")); (329, (str "i3")); (330, (str "x")); (331, (str "x")); (332, (str "y")); (333, (str "z")); (334, (str "y")); (335, (str "x")); (336, (str "u")); (337, (str "v")); (338, (str "x1")); (339, (str "x2")); (340, (str "x3")); (341, (str "_")); (342, (str "x4")); (343, (str "_")); (344, (str "si")); (345, (str "ok")); (346, (str "param")); (347, (str "slice")); (348, (str "_")); (349, (str "lambda")); (350, (str "s")); (351, (str "ok")); (352, (str "si")); (353, (str "val")); (354, (str "val")); (355, (str "val")); (356, (str "si")); (357, (str "u")); (358, (str "v")); (359, (str "x")); (360, (str "y")); (361, (str "index")); (362, (str "index")); (363, (str "index")); (364, (str "si")); (365, (str "i")); (366, (str "i")); (367, (str "i")); (368, (str "si2")); (369, (str "si")); (370, (str "i")); (371, (str "i")); (372, (str "i")); (373, (str "i")); (374, (str "si2")); (375, (str "si")); (376, (str "some")); (377, (str "local")); (378, (str "i1"))].
Definition t_interfaces_inner1_objtypes : list (N * gotype) := [(1, (TNamed 1)); (2, (TSignature [] [(TBasic (str "string"))] false)); (4, (TBasic (str "bool"))); (5, (TBasic (str "string"))); (6, (TBasic (str "int"))); (7, (TBasic (str "int8"))); (8, (TBasic (str "int16"))); (9, (TBasic (str "int32"))); (10, (TBasic (str "int64"))); (11, (TBasic (str "uint"))); (12, (TBasic (str "uint8"))); (13, (TBasic (str "uint16"))); (14, (TBasic (str "uint32"))); (15, (TBasic (str "uint64"))); (16, (TBasic (str "uintptr"))); (17, (TBasic (str "float32"))); (18, (TBasic (str "float64"))); (19, (TBasic (str "complex64"))); (20, (TBasic (str "complex128"))); (40, (TSignature [(TBasic (str "string")); (TSlice (TInterface 4))] [(TNamed 1)] true)); (41, (TSignature [(TBasic (str "string")); (TSlice (TInterface 4))] [(TBasic (str "string"))] true)); (42, (TSignature [(TSlice (TInterface 4))] [(TBasic (str "int")); (TNamed 1)] true)); (43, (TSignature [(TBasic (str "string"))] [(TNamed 1)] false)); (44, (TSignature [(TBasic (str "string")); (TBasic (str "string"))] [(TBasic (str "bool"))] false)); (45, (TSignature [] [(TBasic (str "float32"))] false)); (46, (TSignature [] [(TBasic (str "float64"))] false)); (47, (TNamed 47)); (48, (TNamed 48)); (49, (TNamed 49)); (50, (TNamed 50)); (51, (TNamed 51)); (52, (TSignature [(TBasic (str "string")); (TBasic (str "string")); (TNamed 47)] [(TNamed 1)] false)); (53, (TSignature [(TNamed 50)] [(TNamed 1)] false)); (54, (TSignature [(TNamed 51)] [(TNamed 1)] false)); (55, (TSignature [(TNamed 47); (TNamed 50); (TNamed 51)] [(TNamed 1)] false)); (56, (TNamed 56)); (57, (TSignature [] [(TNamed 1)] false)); (58, (TSignature [(TBasic (str "string")); (TBasic (str "string"))] [(TNamed 1)] false)); (59, (TSignature [(TBasic (str "string")); (TBasic (str "string"))] [(TBasic (str "string"))] false)); (60, (TNamed 60)); (61, (TSignature [] [(TNamed 1)] false)); (62, (TSignature [(TBasic (str "string")); (TBasic (str "string"))] [(TNamed 1)] false)); (63, (TSignature [(TBasic (str "string")); (TBasic (str "string"))] [(TBasic (str "string"))] false)); (64, (TNamed 64)); (65, (TSignature [] [(TBasic (str "string"))] false)); (66, (TSignature [] [(TBasic (str "string"))] false)); (67, (TSignature [] [(TMap (TBasic (str "string")) (TBasic (str "string")))] false)); (68, (TSignature [] [(TNamed 1)] false)); (69, (TSignature [] [(TBasic (str "string"))] false)); (70, (TBasic (str "string"))); (71, (TBasic (str "string"))); (72, (TBasic (str "string"))); (73, (TBasic (str "string"))); (74, (TBasic (str "string"))); (75, (TBasic (str "string"))); (76, (TBasic (str "string"))); (77, (TBasic (str "string"))); (78, (TPointer (TNamed 64))); (79, (TPointer (TNamed 64))); (80, (TPointer (TNamed 64))); (81, (TPointer (TNamed 64))); (82, (TPointer (TNamed 64))); (83, (TSignature [] [(TNamed 1)] false)); (84, (TSignature [(TBasic (str "string")); (TBasic (str "string"))] [(TPointer (TNamed 64))] false)); (85, (TBasic (str "string"))); (86, (TBasic (str "string"))); (87, (TSignature [(TBasic (str "string")); (TBasic (str "string"))] [(TBasic (str "string"))] false)); (88, (TBasic (str "string"))); (89, (TBasic (str "string"))); (90, (TSignature [] [(TNamed 1)] false)); (91, (TSignature [] [(TNamed 1)] false)); (92, (TSignature [] [(TNamed 1)] false)); (93, (TSignature [] [(TNamed 1)] false)); (94, (TSignature [] [(TNamed 1)] false)); (95, (TBasic (str "string"))); (96, (TBasic (str "string"))); (97, (TNamed 47)); (98, (TNamed 50)); (99, (TNamed 51)); (100, (TNamed 47)); (101, (TNamed 50)); (102, (TNamed 51)); (103, (TBasic (str "string"))); (105, (TNamed 105)); (106, (TSignature [] [(TNamed 1)] false)); (107, (TSignature [(TBasic (str "string")); (TBasic (str "string"))] [(TNamed 1)] false)); (108, (TSignature [(TBasic (str "string")); (TBasic (str "string"))] [(TBasic (str "string"))] false)); (109, (TNamed 109)); (110, (TSignature [] [(TNamed 1)] false)); (111, (TSignature [(TBasic (str "string")); (TBasic (str "string"))] [(TNamed 1)] false)); (112, (TSignature [(TBasic (str "string")); (TBasic (str "string"))] [(TBasic (str "string"))] false)); (113, (TNamed 113)); (114, (TSignature [] [(TNamed 1)] false)); (115, (TSignature [(TBasic (str "string")); (TBasic (str "string"))] [(TPointer (TNamed 64))] false)); (116, (TSignature [(TBasic (str "string")); (TBasic (str "string"))] [(TBasic (str "string"))] false)); (117, (TNamed 117)); (118, (TSignature [] [(TBasic (str "string"))] false)); (119, (TSignature [] [(TBasic (str "string"))] false)); (120, (TSignature [] [(TMap (TBasic (str "string")) (TBasic (str "string")))] false)); (121, (TSignature [] [(TNamed 1)] false)); (122, (TSignature [] [(TBasic (str "string"))] false)); (123, (TBasic (str "string"))); (124, (TBasic (str "string"))); (125, (TBasic (str "string"))); (126, (TBasic (str "string"))); (127, (TBasic (str "string"))); (128, (TBasic (str "string"))); (129, (TBasic (str "string"))); (130, (TBasic (str "string"))); (131, (TBasic (str "string"))); (132, (TBasic (str "string"))); (133, (TBasic (str "string"))); (134, (TBasic (str "string"))); (135, (TPointer (TNamed 117))); (136, (TPointer (TNamed 117))); (137, (TPointer (TNamed 117))); (138, (TPointer (TNamed 117))); (139, (TPointer (TNamed 117))); (142, (TNamed 142)); (143, (TNamed 143)); (144, (TNamed 144)); (145, (TNamed 145)); (146, (TNamed 146)); (147, (TNamed 147)); (148, (TNamed 148)); (149, (TNamed 149)); (150, (TNamed 150)); (151, (TNamed 151)); (152, (TNamed 152)); (153, (TSignature [(TNamed 143); (TBasic (str "string")); (TBasic (str "string"))] [(TNamed 1)] false)); (154, (TSignature [(TBasic (str "string")); (TBasic (str "string"))] [(TNamed 1)] false)); (155, (TNamed 155)); (156, (TNamed 156)); (157, (TNamed 157)); (158, (TSignature [] [(TNamed 1)] false)); (159, (TSignature [(TBasic (str "string")); (TBasic (str "string"))] [(TPointer (TNamed 64))] false)); (160, (TSignature [(TBasic (str "string")); (TBasic (str "string"))] [(TBasic (str "string"))] false)); (161, (TSignature [] [(TNamed 1)] false)); (162, (TSignature [] [(TNamed 1)] false)); (163, (TSignature [] [(TNamed 1)] false)); (164, (TSignature [(TBasic (str "string")); (TBasic (str "string"))] [(TNamed 1)] false)); (165, (TNamed 165)); (166, (TSignature [] [(TNamed 165)] false)); (167, (TSignature [(TNamed 145)] [(TNamed 1)] false)); (168, (TSignature [(TNamed 145)] [(TNamed 142)] false)); (169, (TNamed 169)); (170, (TSignature [] [(TBasic (str "string"))] false)); (171, (TSignature [] [(TBasic (str "string"))] false)); (172, (TSignature [] [(TMap (TBasic (str "string")) (TBasic (str "string")))] false)); (173, (TSignature [] [(TNamed 1)] false)); (174, (TSignature [] [(TBasic (str "string"))] false)); (175, (TNamed 175)); (176, (TNamed 176)); (177, (TNamed 177)); (178, (TNamed 178)); (179, (TNamed 179)); (180, (TSignature [] [(TNamed 1)] false)); (181, (TSignature [] [(TNamed 142)] false)); (182, (TSignature [] [(TBasic (str "int")); (TBasic (str "int")); (TNamed 142)] false)); (183, (TSignature [] [(TBasic (str "int")); (TBasic (str "int")); (TNamed 142); (TNamed 142)] false)); (184, (TSignature [] [(TPointer (TNamed 142))] false)); (185, (TSignature [] [] false)); (186, (TSignature [] [(TBasic (str "int")); (TNamed 142); (TNamed 142)] false)); (187, (TSignature [] [(TNamed 178); (TNamed 178)] false)); (188, (TSignature [] [] false)); (189, (TSignature [] [] false)); (190, (TSignature [(TMap (TBasic (str "int")) (TNamed 178))] [] false)); (191, (TSignature [(TBasic (str "int")); (TBasic (str "int")); (TNamed 142)] [] false)); (192, (TSignature [(TBasic (str "int")); (TSlice (TNamed 142))] [] true)); (193, (TSignature [(TBasic (str "int")); (TSlice (TNamed 142))] [] false)); (194, (TSignature [] [] false)); (195, (TNamed 195)); (196, (TSignature [(TMap (TNamed 142) (TStruct [])); (TNamed 195); (TSlice (TStruct []))] [] false)); (197, (TNamed 197)); (198, (TNamed 198)); (199, (TSignature [(TNamed 197); (TNamed 198)] [] false)); (200, (TNamed 200)); (201, (TNamed 201)); (202, (TNamed 202)); (203, (TSignature [] [] false)); (204, (TNamed 204)); (205, (TNamed 205)); (206, (TSignature [] [] false)); (207, (TNamed 207)); (208, (TNamed 208)); (209, (TSignature [] [] false)); (210, (TNamed 210)); (211, (TNamed 211)); (212, (TSignature [] [] false)); (213, (TSignature [(TSlice (TNamed 178)); (TMap (TNamed 178) (TStruct [])); (TMap (TBasic (str "string")) (TNamed 178)); (TMap (TNamed 178) (TNamed 178)); (TArray 5 (TNamed 178)); (TPointer (TArray 5 (TNamed 178))); (TChan 3 (TNamed 178))] [] false)); (214, (TNamed 214)); (215, (TNamed 215)); (216, (TNamed 216)); (217, (TNamed 217)); (218, (TNamed 218)); (219, (TNamed 219)); (220, (TNamed 220)); (221, (TSignature [(TNamed 214); (TNamed 215); (TNamed 216); (TNamed 217); (TNamed 218); (TNamed 219); (TPointer (TNamed 218)); (TNamed 220)] [] false)); (222, (TNamed 222)); (223, (TSignature [(TChan 3 (TNamed 178)); (TChan 3 (TNamed 142)); (TNamed 222)] [] false)); (224, (TNamed 224)); (225, (TNamed 225)); (226, (TSignature [] [(TNamed 1)] false)); (227, (TSignature [] [(TNamed 1)] false)); (228, (TSignature [] [(TNamed 1)] false)); (229, (TSignature [] [] false)); (230, (TNamed 230)); (231, (TNamed 231)); (232, (TNamed 232)); (233, (TNamed 233)); (234, (TNamed 234)); (235, (TNamed 235)); (236, (TSignature [] [(TNamed 1)] false)); (237, (TSignature [] [(TNamed 1)] false)); (238, (TSignature [] [(TNamed 1)] false)); (239, (TSignature [(TBasic (str "int")); (TBasic (str "int")); (TNamed 232)] [(TNamed 234)] false)); (240, (TSignature [(TNamed 235)] [] false)); (241, (TSignature [] [(TNamed 145)] false)); (242, (TBasic (str "string"))); (243, (TBasic (str "string"))); (244, (TBasic (str "string"))); (245, (TBasic (str "string"))); (246, (TPointer (TNamed 169))); (247, (TPointer (TNamed 169))); (248, (TPointer (TNamed 169))); (249, (TPointer (TNamed 169))); (250, (TPointer (TNamed 169))); (251, (TSignature [] [(TNamed 1)] false)); (252, (TSignature [] [(TNamed 1)] false)); (253, (TSignature [(TBasic (str "string")); (TBasic (str "string"))] [(TNamed 1)] false)); (254, (TBasic (str "string"))); (255, (TBasic (str "string"))); (256, (TSignature [(TBasic (str "string")); (TBasic (str "string"))] [(TBasic (str "string"))] false)); (257, (TBasic (str "string"))); (258, (TBasic (str "string"))); (259, (TSignature [] [(TNamed 1); (TBasic (str "string"))] false)); (260, (TSignature [] [(TNamed 1)] false)); (261, (TSignature [] [(TNamed 1)] false)); (262, (TSignature [] [(TNamed 1)] false)); (263, (TNamed 143)); (264, (TBasic (str "string"))); (265, (TBasic (str "string"))); (266, (TBasic (str "string"))); (267, (TBasic (str "string"))); (268, (TBasic (str "string"))); (269, (TBasic (str "string"))); (270, (TSignature [] [(TBasic (str "string"))] false)); (271, (TSignature [] [(TBasic (str "string"))] false)); (272, (TSignature [] [(TMap (TBasic (str "string")) (TBasic (str "string")))] false)); (273, (TSignature [] [(TNamed 1)] false)); (274, (TSignature [] [(TBasic (str "string"))] false)); (275, (TNamed 145)); (276, (TNamed 145)); (277, (TSignature [] [(TNamed 1)] false)); (278, (TSignature [] [(TNamed 1)] false)); (279, (TSignature [] [(TNamed 1)] false)); (280, (TBasic (str "int"))); (281, (TBasic (str "int"))); (282, (TNamed 142)); (283, (TNamed 142)); (284, (TBasic (str "int"))); (285, (TNamed 142)); (286, (TNamed 142)); (287, (TMap (TBasic (str "int")) (TNamed 178))); (288, (TBasic (str "int"))); (289, (TBasic (str "int"))); (290, (TNamed 142)); (291, (TBasic (str "int"))); (292, (TSlice (TNamed 142))); (293, (TBasic (str "int"))); (294, (TSlice (TNamed 142))); (295, (TMap (TNamed 142) (TStruct []))); (296, (TNamed 195)); (297, (TSlice (TStruct []))); (298, (TSignature [] [(TNamed 1)] false)); (299, (TSignature [] [] false)); (300, (TNamed 197)); (301, (TNamed 198)); (302, (TSlice (TNamed 178))); (303, (TMap (TNamed 178) (TStruct []))); (304, (TMap (TBasic (str "string")) (TNamed 178))); (305, (TMap (TNamed 178) (TNamed 178))); (306, (TArray 5 (TNamed 178))); (307, (TPointer (TArray 5 (TNamed 178)))); (308, (TChan 3 (TNamed 178))); (309, (TNamed 214)); (310, (TNamed 215)); (311, (TNamed 216)); (312, (TNamed 217)); (313, (TNamed 218)); (314, (TNamed 219)); (315, (TPointer (TNamed 218))); (316, (TNamed 220)); (317, (TChan 3 (TNamed 178))); (318, (TChan 3 (TNamed 142))); (319, (TNamed 222)); (320, (TSignature [] [(TNamed 1)] false)); (321, (TSignature [] [(TNamed 1)] false)); (322, (TSignature [] [(TNamed 1)] false)); (323, (TSignature [] [(TNamed 1)] false)); (324, (TSignature [] [(TNamed 1)] false)); (325, (TSignature [] [(TNamed 1)] false)); (326, (TBasic (str "int"))); (327, (TBasic (str "int"))); (328, (TNamed 232)); (329, (TNamed 235)); (330, (TNamed 142)); (331, (TBasic (str "int"))); (332, (TBasic (str "int"))); (333, (TNamed 142)); (334, (TNamed 142)); (335, (TNamed 178)); (336, (TNamed 142)); (337, (TNamed 142)); (338, (TNamed 142)); (339, (TNamed 142)); (340, (TNamed 142)); (341, (TNamed 142)); (342, (TNamed 142)); (343, (TNamed 142)); (344, (TNamed 142)); (345, (TBasic (str "bool"))); (346, (TNamed 178)); (347, (TSlice (TNamed 142))); (348, (TNamed 142)); (349, (TSignature [(TNamed 142)] [] false)); (350, (TNamed 142)); (351, (TBasic (str "bool"))); (352, (TNamed 142)); (353, (TNamed 198)); (354, (TNamed 142)); (355, (TNamed 197)); (356, (TNamed 142)); (357, (TBasic (str "int"))); (358, (TBasic (str "int"))); (359, (TNamed 142)); (360, (TNamed 142)); (361, (TBasic (str "int"))); (362, (TBasic (str "int"))); (363, (TBasic (str "int"))); (364, (TNamed 142)); (365, (TBasic (str "int"))); (366, (TBasic (str "int"))); (367, (TBasic (str "int"))); (368, (TNamed 142)); (369, (TNamed 142)); (370, (TBasic (str "int"))); (371, (TBasic (str "int"))); (372, (TBasic (str "int"))); (373, (TBasic (str "int"))); (374, (TNamed 142)); (375, (TNamed 142)); (376, (TNamed 178)); (377, (TNamed 224)); (378, (TNamed 230))].
Definition t_interfaces_inner1_under : list (N * gotype) := [(1, (TInterface 1)); (47, (TInterface 5)); (48, (TInterface 6)); (49, (TInterface 6)); (50, (TInterface 7)); (51, (TInterface 8)); (56, (TStruct [])); (60, (TStruct [])); (64, (TStruct [((str "TheCode"), (TBasic (str "string")))])); (105, (TStruct [])); (109, (TStruct [])); (113, (TStruct [])); (117, (TStruct [((str "TheCode"), (TBasic (str "string")))])); (142, (TInterface 6)); (143, (TInterface 9)); (144, (TInterface 10)); (145, (TInterface 6)); (146, (TInterface 12)); (147, (TInterface 6)); (148, (TInterface 6)); (149, (TInterface 6)); (150, (TInterface 6)); (151, (TInterface 11)); (152, (TInterface 6)); (155, (TStruct [])); (156, (TStruct [])); (157, (TStruct [])); (165, (TInterface 13)); (169, (TStruct [((str "TheCode"), (TBasic (str "string")))])); (175, (TInterface 12)); (176, (TInterface 6)); (177, (TInterface 6)); (178, (TStruct [])); (179, (TInterface 14)); (195, (TMap (TNamed 142) (TStruct []))); (197, (TInterface 6)); (198, (TInterface 15)); (200, (TStruct [((str "si"), (TNamed 142))])); (201, (TStruct [((str "_"), (TBasic (str "int"))); ((str "_"), (TBasic (str "int"))); ((str "_"), (TNamed 142)); ((str "_"), (TNamed 142)); ((str "_"), (TNamed 142))])); (202, (TStruct [((str "u"), (TBasic (str "int"))); ((str "v"), (TBasic (str "int"))); ((str "x"), (TNamed 142)); ((str "y"), (TNamed 142))])); (204, (TSlice (TNamed 142))); (205, (TSlice (TNamed 142))); (207, (TArray 2 (TNamed 142))); (208, (TSlice (TNamed 142))); (210, (TMap (TBasic (str "int")) (TNamed 142))); (211, (TSlice (TNamed 142))); (214, (TSlice (TNamed 178))); (215, (TMap (TNamed 178) (TStruct []))); (216, (TMap (TBasic (str "string")) (TNamed 178))); (217, (TMap (TNamed 178) (TNamed 178))); (218, (TArray 5 (TNamed 178))); (219, (TPointer (TArray 5 (TNamed 178)))); (220, (TChan 3 (TNamed 178))); (222, (TChan 3 (TNamed 142))); (224, (TInterface 16)); (225, (TStruct [])); (230, (TInterface 17)); (231, (TInterface 18)); (232, (TInterface 19)); (233, (TStruct [((str "_"), (TBasic (str "string"))); ((str "_"), (TNamed 231))])); (234, (TStruct [])); (235, (TStruct []))].
Definition t_interfaces_inner1_named_methods : list (N * (list gostring)) := [(56, [(str "InterfaceMethod1"); (str "InterfaceMethod2"); (str "MethodWithoutError")]); (60, [(str "InterfaceMethod1"); (str "InterfaceMethod2"); (str "MethodWithoutError")]); (64, [(str "Code"); (str "Message"); (str "Details"); (str "Cause"); (str "Error")]); (105, [(str "InterfaceMethod1"); (str "InterfaceMethod2"); (str "MethodWithoutError")]); (109, [(str "InterfaceMethod1"); (str "InterfaceMethod2"); (str "MethodWithoutError")]); (113, [(str "Inner1Method1"); (str "Inner1Method2"); (str "Inner1MethodWithoutError")]); (117, [(str "Code"); (str "Message"); (str "Details"); (str "Cause"); (str "Error")]); (155, [(str "Inner1Method1"); (str "Inner1Method2"); (str "Inner1MethodWithoutError")]); (156, [(str "Inner1CodeNotDeclared")]); (157, [(str "Inner1NoCodes"); (str "Inner1YesCodes")]); (169, [(str "Code"); (str "Message"); (str "Details"); (str "Cause"); (str "Error")]); (178, [(str "SimpleInterfaceMethod")]); (225, [(str "local1"); (str "local2"); (str "local3")]); (233, [(str "I1")]); (234, [(str "I2")]); (235, [(str "I3")])].
Definition t_interfaces_inner1_methods : list (gotype * gostring * tobj) := [((TInterface 1), (str "Error"), 2); ((TInterface 10), (str "InvalidMethod1"), 259); ((TInterface 11), (str "OtherMethod"), 261); ((TInterface 12), (str "OtherMethod"), 261); ((TInterface 12), (str "SimpleInterfaceMethod"), 251); ((TInterface 13), (str "Cause"), 273); ((TInterface 13), (str "Code"), 270); ((TInterface 13), (str "Details"), 272); ((TInterface 13), (str "Error"), 274); ((TInterface 13), (str "Message"), 271); ((TInterface 14), (str "ExportedCodeNotDeclared"), 278); ((TInterface 14), (str "localCodeNotDeclared"), 279); ((TInterface 15), (str "RandomMethod"), 299); ((TInterface 16), (str "local1"), 320); ((TInterface 16), (str "local2"), 321); ((TInterface 16), (str "local3"), 322); ((TInterface 17), (str "I1"), 323); ((TInterface 18), (str "I2"), 324); ((TInterface 19), (str "I3"), 325); ((TInterface 5), (str "Inner1Method1"), 83); ((TInterface 5), (str "Inner1Method2"), 84); ((TInterface 5), (str "Inner1MethodWithoutError"), 87); ((TInterface 6), (str "SimpleInterfaceMethod"), 90); ((TInterface 7), (str "Inner1CodeNotDeclared"), 92); ((TInterface 8), (str "Inner1NoCodes"), 93); ((TInterface 8), (str "Inner1YesCodes"), 94); ((TInterface 9), (str "InterfaceMethod1"), 252); ((TInterface 9), (str "InterfaceMethod2"), 253); ((TInterface 9), (str "MethodWithoutError"), 256); ((TNamed 1), (str "Error"), 2); ((TNamed 105), (str "InterfaceMethod1"), 106); ((TNamed 105), (str "InterfaceMethod2"), 107); ((TNamed 105), (str "MethodWithoutError"), 108); ((TNamed 113), (str "Inner1Method1"), 114); ((TNamed 113), (str "Inner1Method2"), 115); ((TNamed 113), (str "Inner1MethodWithoutError"), 116); ((TNamed 142), (str "SimpleInterfaceMethod"), 251); ((TNamed 143), (str "InterfaceMethod1"), 252); ((TNamed 143), (str "InterfaceMethod2"), 253); ((TNamed 143), (str "MethodWithoutError"), 256); ((TNamed 144), (str "InvalidMethod1"), 259); ((TNamed 145), (str "SimpleInterfaceMethod"), 251); ((TNamed 146), (str "OtherMethod"), 261); ((TNamed 146), (str "SimpleInterfaceMethod"), 251); ((TNamed 147), (str "SimpleInterfaceMethod"), 251); ((TNamed 148), (str "SimpleInterfaceMethod"), 251); ((TNamed 149), (str "SimpleInterfaceMethod"), 90); ((TNamed 150), (str "SimpleInterfaceMethod"), 260); ((TNamed 151), (str "OtherMethod"), 261); ((TNamed 152), (str "SimpleInterfaceMethod"), 262); ((TNamed 155), (str "Inner1Method1"), 158); ((TNamed 155), (str "Inner1Method2"), 159); ((TNamed 155), (str "Inner1MethodWithoutError"), 160); ((TNamed 156), (str "Inner1CodeNotDeclared"), 161); ((TNamed 157), (str "Inner1NoCodes"), 162); ((TNamed 157), (str "Inner1YesCodes"), 163); ((TNamed 165), (str "Cause"), 273); ((TNamed 165), (str "Code"), 270); ((TNamed 165), (str "Details"), 272); ((TNamed 165), (str "Error"), 274); ((TNamed 165), (str "Message"), 271); ((TNamed 175), (str "OtherMethod"), 261); ((TNamed 175), (str "SimpleInterfaceMethod"), 251); ((TNamed 176), (str "SimpleInterfaceMethod"), 251); ((TNamed 177), (str "SimpleInterfaceMethod"), 277); ((TNamed 178), (str "SimpleInterfaceMethod"), 180); ((TNamed 179), (str "ExportedCodeNotDeclared"), 278); ((TNamed 179), (str "localCodeNotDeclared"), 279); ((TNamed 197), (str "SimpleInterfaceMethod"), 298); ((TNamed 198), (str "RandomMethod"), 299); ((TNamed 224), (str "local1"), 320); ((TNamed 224), (str "local2"), 321); ((TNamed 224), (str "local3"), 322); ((TNamed 225), (str "local1"), 226); ((TNamed 225), (str "local2"), 227); ((TNamed 225), (str "local3"), 228); ((TNamed 230), (str "I1"), 323); ((TNamed 231), (str "I2"), 324); ((TNamed 232), (str "I3"), 325); ((TNamed 233), (str "I1"), 236); ((TNamed 234), (str "I2"), 237); ((TNamed 235), (str "I3"), 238); ((TNamed 47), (str "Inner1Method1"), 83); ((TNamed 47), (str "Inner1Method2"), 84); ((TNamed 47), (str "Inner1MethodWithoutError"), 87); ((TNamed 48), (str "SimpleInterfaceMethod"), 90); ((TNamed 49), (str "SimpleInterfaceMethod"), 91); ((TNamed 50), (str "Inner1CodeNotDeclared"), 92); ((TNamed 51), (str "Inner1NoCodes"), 93); ((TNamed 51), (str "Inner1YesCodes"), 94); ((TNamed 56), (str "InterfaceMethod1"), 57); ((TNamed 56), (str "InterfaceMethod2"), 58); ((TNamed 56), (str "MethodWithoutError"), 59); ((TPointer (TNamed 105)), (str "InterfaceMethod1"), 106); ((TPointer (TNamed 105)), (str "InterfaceMethod2"), 107); ((TPointer (TNamed 105)), (str "MethodWithoutError"), 108); ((TPointer (TNamed 109)), (str "InterfaceMethod1"), 110); ((TPointer (TNamed 109)), (str "InterfaceMethod2"), 111); ((TPointer (TNamed 109)), (str "MethodWithoutError"), 112); ((TPointer (TNamed 113)), (str "Inner1Method1"), 114); ((TPointer (TNamed 113)), (str "Inner1Method2"), 115); ((TPointer (TNamed 113)), (str "Inner1MethodWithoutError"), 116); ((TPointer (TNamed 117)), (str "Cause"), 121); ((TPointer (TNamed 117)), (str "Code"), 118); ((TPointer (TNamed 117)), (str "Details"), 120); ((TPointer (TNamed 117)), (str "Error"), 122); ((TPointer (TNamed 117)), (str "Message"), 119); ((TPointer (TNamed 155)), (str "Inner1Method1"), 158); ((TPointer (TNamed 155)), (str "Inner1Method2"), 159); ((TPointer (TNamed 155)), (str "Inner1MethodWithoutError"), 160); ((TPointer (TNamed 156)), (str "Inner1CodeNotDeclared"), 161); ((TPointer (TNamed 157)), (str "Inner1NoCodes"), 162); ((TPointer (TNamed 157)), (str "Inner1YesCodes"), 163); ((TPointer (TNamed 169)), (str "Cause"), 173); ((TPointer (TNamed 169)), (str "Code"), 170); ((TPointer (TNamed 169)), (str "Details"), 172); ((TPointer (TNamed 169)), (str "Error"), 174); ((TPointer (TNamed 169)), (str "Message"), 171); ((TPointer (TNamed 178)), (str "SimpleInterfaceMethod"), 180); ((TPointer (TNamed 225)), (str "local1"), 226); ((TPointer (TNamed 225)), (str "local2"), 227); ((TPointer (TNamed 225)), (str "local3"), 228); ((TPointer (TNamed 233)), (str "I1"), 236); ((TPointer (TNamed 234)), (str "I2"), 237); ((TPointer (TNamed 235)), (str "I3"), 238); ((TPointer (TNamed 56)), (str "InterfaceMethod1"), 57); ((TPointer (TNamed 56)), (str "InterfaceMethod2"), 58); ((TPointer (TNamed 56)), (str "MethodWithoutError"), 59); ((TPointer (TNamed 60)), (str "InterfaceMethod1"), 61); ((TPointer (TNamed 60)), (str "InterfaceMethod2"), 62); ((TPointer (TNamed 60)), (str "MethodWithoutError"), 63); ((TPointer (TNamed 64)), (str "Cause"), 68); ((TPointer (TNamed 64)), (str "Code"), 65); ((TPointer (TNamed 64)), (str "Details"), 67); ((TPointer (TNamed 64)), (str "Error"), 69); ((TPointer (TNamed 64)), (str "Message"), 66)].
Definition t_interfaces_inner1_ierr : list gotype := [(TInterface 1); (TInterface 13); (TNamed 1); (TNamed 165); (TPointer (TNamed 117)); (TPointer (TNamed 169)); (TPointer (TNamed 64))].
Definition t_interfaces_inner1_iree : list gotype := [(TInterface 13); (TNamed 165); (TPointer (TNamed 117)); (TPointer (TNamed 169)); (TPointer (TNamed 64))].
Definition t_interfaces_inner1_icause : list gotype := [(TInterface 13); (TNamed 165); (TPointer (TNamed 117)); (TPointer (TNamed 169)); (TPointer (TNamed 64))].
Definition t_interfaces_inner1_impl : list (gotype * gotype) := [((TInterface 1), (TInterface 1)); ((TInterface 10), (TInterface 10)); ((TInterface 11), (TInterface 11)); ((TInterface 12), (TInterface 11)); ((TInterface 12), (TInterface 12)); ((TInterface 12), (TInterface 6)); ((TInterface 13), (TInterface 1)); ((TInterface 13), (TInterface 13)); ((TInterface 14), (TInterface 14)); ((TInterface 15), (TInterface 15)); ((TInterface 16), (TInterface 16)); ((TInterface 17), (TInterface 17)); ((TInterface 18), (TInterface 18)); ((TInterface 19), (TInterface 19)); ((TInterface 5), (TInterface 5)); ((TInterface 6), (TInterface 6)); ((TInterface 7), (TInterface 7)); ((TInterface 8), (TInterface 8)); ((TInterface 9), (TInterface 9)); ((TNamed 1), (TInterface 1)); ((TNamed 105), (TInterface 9)); ((TNamed 113), (TInterface 5)); ((TNamed 142), (TInterface 6)); ((TNamed 143), (TInterface 9)); ((TNamed 144), (TInterface 10)); ((TNamed 145), (TInterface 6)); ((TNamed 146), (TInterface 11)); ((TNamed 146), (TInterface 12)); ((TNamed 146), (TInterface 6)); ((TNamed 147), (TInterface 6)); ((TNamed 148), (TInterface 6)); ((TNamed 149), (TInterface 6)); ((TNamed 150), (TInterface 6)); ((TNamed 151), (TInterface 11)); ((TNamed 152), (TInterface 6)); ((TNamed 155), (TInterface 5)); ((TNamed 156), (TInterface 7)); ((TNamed 157), (TInterface 8)); ((TNamed 165), (TInterface 1)); ((TNamed 165), (TInterface 13)); ((TNamed 175), (TInterface 11)); ((TNamed 175), (TInterface 12)); ((TNamed 175), (TInterface 6)); ((TNamed 176), (TInterface 6)); ((TNamed 177), (TInterface 6)); ((TNamed 178), (TInterface 6)); ((TNamed 179), (TInterface 14)); ((TNamed 197), (TInterface 6)); ((TNamed 198), (TInterface 15)); ((TNamed 224), (TInterface 16)); ((TNamed 225), (TInterface 16)); ((TNamed 230), (TInterface 17)); ((TNamed 231), (TInterface 18)); ((TNamed 232), (TInterface 19)); ((TNamed 233), (TInterface 17)); ((TNamed 234), (TInterface 18)); ((TNamed 235), (TInterface 19)); ((TNamed 47), (TInterface 5)); ((TNamed 48), (TInterface 6)); ((TNamed 49), (TInterface 6)); ((TNamed 50), (TInterface 7)); ((TNamed 51), (TInterface 8)); ((TNamed 56), (TInterface 9)); ((TPointer (TNamed 105)), (TInterface 9)); ((TPointer (TNamed 109)), (TInterface 9)); ((TPointer (TNamed 113)), (TInterface 5)); ((TPointer (TNamed 117)), (TInterface 1)); ((TPointer (TNamed 117)), (TInterface 13)); ((TPointer (TNamed 155)), (TInterface 5)); ((TPointer (TNamed 156)), (TInterface 7)); ((TPointer (TNamed 157)), (TInterface 8)); ((TPointer (TNamed 169)), (TInterface 1)); ((TPointer (TNamed 169)), (TInterface 13)); ((TPointer (TNamed 178)), (TInterface 6)); ((TPointer (TNamed 225)), (TInterface 16)); ((TPointer (TNamed 233)), (TInterface 17)); ((TPointer (TNamed 234)), (TInterface 18)); ((TPointer (TNamed 235)), (TInterface 19)); ((TPointer (TNamed 56)), (TInterface 9)); ((TPointer (TNamed 60)), (TInterface 9)); ((TPointer (TNamed 64)), (TInterface 1)); ((TPointer (TNamed 64)), (TInterface 13))].
Definition t_interfaces_inner1_nodes0 : list snode := [SNode 1 (Place 0 1) (Place 5307 157) true; SNode 2 (Place 8 1) (Place 14 1) false; SNode 3 (Place 16 3) (Place 804 21) true; SNode 4 (Place 21 3) (Place 804 21) true; SNode 5 (Place 21 3) (Place 37 3) false; SNode 6 (Place 38 3) (Place 804 21) false; SNode 7 (Place 48 3) (Place 804 21) false; SNode 8 (Place 318 10) (Place 339 10) true; SNode 9 (Place 318 10) (Place 331 10) false; SNode 10 (Place 331 10) (Place 339 10) false; SNode 11 (Place 331 10) (Place 333 10) false; SNode 12 (Place 334 10) (Place 339 10) false; SNode 13 (Place 334 10) (Place 339 10) true; SNode 14 (Place 334 10) (Place 339 10) false; SNode 15 (Place 520 16) (Place 553 16) true; SNode 16 (Place 520 16) (Place 533 16) false; SNode 17 (Place 533 16) (Place 553 16) false; SNode 18 (Place 533 16) (Place 546 16) false; SNode 19 (Place 534 16) (Place 545 16) true; SNode 20 (Place 534 16) (Place 535 16) false; SNode 21 (Place 537 16) (Place 538 16) false; SNode 22 (Place 539 16) (Place 545 16) false; SNode 23 (Place 547 16) (Place 553 16) false; SNode 24 (Place 547 16) (Place 553 16) true; SNode 25 (Place 547 16) (Place 553 16) false; SNode 26 (Place 548 16) (Place 553 16) false; SNode 27 (Place 758 20) (Place 802 20) true; SNode 28 (Place 758 20) (Place 782 20) false; SNode 29 (Place 782 20) (Place 802 20) false; SNode 30 (Place 782 20) (Place 795 20) false; SNode 31 (Place 783 20) (Place 794 20) true; SNode 32 (Place 783 20) (Place 784 20) false; SNode 33 (Place 786 20) (Place 787 20) false; SNode 34 (Place 788 20) (Place 794 20) false; SNode 35 (Place 796 20) (Place 802 20) false; SNode 36 (Place 796 20) (Place 802 20) true; SNode 37 (Place 796 20) (Place 802 20) false; SNode 38 (Place 806 23) (Place 1246 31) true; SNode 39 (Place 811 23) (Place 1246 31) true; SNode 40 (Place 811 23) (Place 826 23) false; SNode 41 (Place 827 23) (Place 1246 31) false; SNode 42 (Place 837 23) (Place 1246 31) false; SNode 43 (Place 1135 30) (Place 1164 30) true; SNode 44 (Place 1135 30) (Place 1156 30) false; SNode 45 (Place 1156 30) (Place 1164 30) false; SNode 46 (Place 1156 30) (Place 1158 30) false; SNode 47 (Place 1159 30) (Place 1164 30) false; SNode 48 (Place 1159 30) (Place 1164 30) true; SNode 49 (Place 1159 30) (Place 1164 30) false; SNode 50 (Place 1248 33) (Place 1624 40) true; SNode 51 (Place 1253 33) (Place 1624 40) true; SNode 52 (Place 1253 33) (Place 1280 33) false; SNode 53 (Place 1281 33) (Place 1624 40) false; SNode 54 (Place 1291 33) (Place 1624 40) false; SNode 55 (Place 1536 39) (Place 1565 39) true; SNode 56 (Place 1536 39) (Place 1557 39) false; SNode 57 (Place 1557 39) (Place 1565 39) false; SNode 58 (Place 1557 39) (Place 1559 39) false; SNode 59 (Place 1560 39) (Place 1565 39) false; SNode 60 (Place 1560 39) (Place 1565 39) true; SNode 61 (Place 1560 39) (Place 1565 39) false; SNode 62 (Place 1626 42) (Place 1776 44) true; SNode 63 (Place 1631 42) (Place 1776 44) true; SNode 64 (Place 1631 42) (Place 1647 42) false; SNode 65 (Place 1648 42) (Place 1776 44) false; SNode 66 (Place 1658 42) (Place 1776 44) false; SNode 67 (Place 1661 43) (Place 1690 43) true; SNode 68 (Place 1661 43) (Place 1682 43) false; SNode 69 (Place 1682 43) (Place 1690 43) false; SNode 70 (Place 1682 43) (Place 1684 43) false; SNode 71 (Place 1685 43) (Place 1690 43) false; SNode 72 (Place 1685 43) (Place 1690 43) true; SNode 73 (Place 1685 43) (Place 1690 43) false; SNode 74 (Place 1778 46) (Place 2174 54) true; SNode 75 (Place 1783 46) (Place 2174 54) true; SNode 76 (Place 1783 46) (Place 1799 46) false; SNode 77 (Place 1800 46) (Place 2174 54) false; SNode 78 (Place 1810 46) (Place 2174 54) false; SNode 79 (Place 1871 47) (Place 1892 47) true; SNode 80 (Place 1871 47) (Place 1884 47) false; SNode 81 (Place 1884 47) (Place 1892 47) false; SNode 82 (Place 1884 47) (Place 1886 47) false; SNode 83 (Place 1887 47) (Place 1892 47) false; SNode 84 (Place 1887 47) (Place 1892 47) true; SNode 85 (Place 1887 47) (Place 1892 47) false; SNode 86 (Place 2077 53) (Place 2099 53) true; SNode 87 (Place 2077 53) (Place 2091 53) false; SNode 88 (Place 2091 53) (Place 2099 53) false; SNode 89 (Place 2091 53) (Place 2093 53) false; SNode 90 (Place 2094 53) (Place 2099 53) false; SNode 91 (Place 2094 53) (Place 2099 53) true; SNode 92 (Place 2094 53) (Place 2099 53) false; SNode 93 (Place 2306 62) (Place 2601 68) true; SNode 94 (Place 2311 62) (Place 2332 62) false; SNode 95 (Place 2306 62) (Place 2371 62) false; SNode 96 (Place 2332 62) (Place 2365 62) false; SNode 97 (Place 2333 62) (Place 2344 62) true; SNode 98 (Place 2333 62) (Place 2334 62) false; SNode 99 (Place 2336 62) (Place 2337 62) false; SNode 100 (Place 2338 62) (Place 2344 62) false; SNode 101 (Place 2346 62) (Place 2364 62) true; SNode 102 (Place 2346 62) (Place 2347 62) false; SNode 103 (Place 2348 62) (Place 2364 62) false; SNode 104 (Place 2366 62) (Place 2371 62) false; SNode 105 (Place 2366 62) (Place 2371 62) true; SNode 106 (Place 2366 62) (Place 2371 62) false; SNode 107 (Place 2372 62) (Place 2601 68) true; SNode 108 (Place 2491 63) (Place 2531 65) true; SNode 109 (Place 2494 63) (Place 2499 63) false; SNode 110 (Place 2500 63) (Place 2531 65) true; SNode 111 (Place 2504 64) (Place 2528 64) true; SNode 112 (Place 2511 64) (Place 2528 64) false; SNode 113 (Place 2511 64) (Place 2526 64) false; SNode 114 (Place 2511 64) (Place 2512 64) false; SNode 115 (Place 2513 64) (Place 2526 64) false; SNode 116 (Place 2533 66) (Place 2569 66) true; SNode 117 (Place 2533 66) (Place 2534 66) false; SNode 118 (Place 2537 66) (Place 2569 66) false; SNode 119 (Place 2537 66) (Place 2563 66) false; SNode 120 (Place 2537 66) (Place 2538 66) false; SNode 121 (Place 2539 66) (Place 2563 66) false; SNode 122 (Place 2564 66) (Place 2565 66) false; SNode 123 (Place 2567 66) (Place 2568 66) false; SNode 124 (Place 2571 67) (Place 2599 67) true; SNode 125 (Place 2578 67) (Place 2599 67) false; SNode 126 (Place 2578 67) (Place 2593 67) false; SNode 127 (Place 2578 67) (Place 2579 67) false; SNode 128 (Place 2580 67) (Place 2593 67) false; SNode 129 (Place 2594 67) (Place 2595 67) false; SNode 130 (Place 2597 67) (Place 2598 67) false; SNode 131 (Place 2639 73) (Place 2883 78) true; SNode 132 (Place 2644 73) (Place 2665 73) false; SNode 133 (Place 2639 73) (Place 2691 73) false; SNode 134 (Place 2665 73) (Place 2685 73) false; SNode 135 (Place 2666 73) (Place 2684 73) true; SNode 136 (Place 2666 73) (Place 2667 73) false; SNode 137 (Place 2668 73) (Place 2684 73) false; SNode 138 (Place 2686 73) (Place 2691 73) false; SNode 139 (Place 2686 73) (Place 2691 73) true; SNode 140 (Place 2686 73) (Place 2691 73) false; SNode 141 (Place 2692 73) (Place 2883 78) true; SNode 142 (Place 2750 74) (Place 2852 76) true; SNode 143 (Place 2753 74) (Place 2757 74) false; SNode 144 (Place 2758 74) (Place 2852 76) true; SNode 145 (Place 2762 75) (Place 2794 75) true; SNode 146 (Place 2769 75) (Place 2794 75) false; SNode 147 (Place 2769 75) (Place 2792 75) false; SNode 148 (Place 2769 75) (Place 2770 75) false; SNode 149 (Place 2771 75) (Place 2792 75) false; SNode 150 (Place 2854 77) (Place 2881 77) true; SNode 151 (Place 2861 77) (Place 2881 77) false; SNode 152 (Place 2862 77) (Place 2881 77) false; SNode 153 (Place 2862 77) (Place 2867 77) false; SNode 154 (Place 2868 77) (Place 2880 77) false; SNode 155 (Place 2957 84) (Place 3217 89) true; SNode 156 (Place 2962 84) (Place 2983 84) false; SNode 157 (Place 2957 84) (Place 3009 84) false; SNode 158 (Place 2983 84) (Place 3003 84) false; SNode 159 (Place 2984 84) (Place 3002 84) true; SNode 160 (Place 2984 84) (Place 2985 84) false; SNode 161 (Place 2986 84) (Place 3002 84) false; SNode 162 (Place 3004 84) (Place 3009 84) false; SNode 163 (Place 3004 84) (Place 3009 84) true; SNode 164 (Place 3004 84) (Place 3009 84) false; SNode 165 (Place 3010 84) (Place 3217 89) true; SNode 166 (Place 3093 85) (Place 3188 87) true; SNode 167 (Place 3096 85) (Place 3101 85) false; SNode 168 (Place 3102 85) (Place 3188 87) true; SNode 169 (Place 3106 86) (Place 3130 86) true; SNode 170 (Place 3113 86) (Place 3130 86) false; SNode 171 (Place 3113 86) (Place 3128 86) false; SNode 172 (Place 3113 86) (Place 3114 86) false; SNode 173 (Place 3115 86) (Place 3128 86) false; SNode 174 (Place 3190 88) (Place 3215 88) true; SNode 175 (Place 3197 88) (Place 3215 88) false; SNode 176 (Place 3197 88) (Place 3213 88) false; SNode 177 (Place 3197 88) (Place 3198 88) false; SNode 178 (Place 3199 88) (Place 3213 88) false; SNode 179 (Place 3349 97) (Place 3857 107) true; SNode 180 (Place 3354 97) (Place 3378 97) false; SNode 181 (Place 3349 97) (Place 3447 97) false; SNode 182 (Place 3378 97) (Place 3441 97) false; SNode 183 (Place 3379 97) (Place 3398 97) true; SNode 184 (Place 3379 97) (Place 3381 97) false; SNode 185 (Place 3382 97) (Place 3398 97) false; SNode 186 (Place 3400 97) (Place 3419 97) true; SNode 187 (Place 3400 97) (Place 3402 97) false; SNode 188 (Place 3403 97) (Place 3419 97) false; SNode 189 (Place 3421 97) (Place 3440 97) true; SNode 190 (Place 3421 97) (Place 3423 97) false; SNode 191 (Place 3424 97) (Place 3440 97) false; SNode 192 (Place 3442 97) (Place 3447 97) false; SNode 193 (Place 3442 97) (Place 3447 97) true; SNode 194 (Place 3442 97) (Place 3447 97) false; SNode 195 (Place 3448 97) (Place 3857 107) true; SNode 196 (Place 3570 98) (Place 3820 105) true; SNode 197 (Place 3577 98) (Place 3820 105) true; SNode 198 (Place 3580 99) (Place 3626 100) true; SNode 199 (Place 3585 99) (Place 3589 99) false; SNode 200 (Place 3593 100) (Place 3626 100) true; SNode 201 (Place 3600 100) (Place 3626 100) false; SNode 202 (Place 3600 100) (Place 3624 100) false; SNode 203 (Place 3600 100) (Place 3602 100) false; SNode 204 (Place 3603 100) (Place 3624 100) false; SNode 205 (Place 3683 101) (Place 3721 102) true; SNode 206 (Place 3688 101) (Place 3692 101) false; SNode 207 (Place 3696 102) (Place 3721 102) true; SNode 208 (Place 3703 102) (Place 3721 102) false; SNode 209 (Place 3703 102) (Place 3719 102) false; SNode 210 (Place 3703 102) (Place 3705 102) false; SNode 211 (Place 3706 102) (Place 3719 102) false; SNode 212 (Place 3778 103) (Place 3817 104) true; SNode 213 (Place 3783 103) (Place 3787 103) false; SNode 214 (Place 3791 104) (Place 3817 104) true; SNode 215 (Place 3798 104) (Place 3817 104) false; SNode 216 (Place 3798 104) (Place 3815 104) false; SNode 217 (Place 3798 104) (Place 3800 104) false; SNode 218 (Place 3801 104) (Place 3815 104) false; SNode 219 (Place 3822 106) (Place 3855 106) true; SNode 220 (Place 3829 106) (Place 3855 106) false; SNode 221 (Place 3829 106) (Place 3845 106) false; SNode 222 (Place 3829 106) (Place 3831 106) false; SNode 223 (Place 3832 106) (Place 3845 106) false; SNode 224 (Place 3846 106) (Place 3849 106) false; SNode 225 (Place 3851 106) (Place 3854 106) false; SNode 226 (Place 3859 109) (Place 3888 109) true; SNode 227 (Place 3864 109) (Place 3888 109) true; SNode 228 (Place 3864 109) (Place 3879 109) false; SNode 229 (Place 3880 109) (Place 3888 109) false; SNode 230 (Place 3886 109) (Place 3888 109) false; SNode 231 (Place 3933 114) (Place 4077 116) true; SNode 232 (Place 3938 114) (Place 3955 114) false; SNode 233 (Place 3939 114) (Place 3954 114) true; SNode 234 (Place 3939 114) (Place 3954 114) false; SNode 235 (Place 3956 114) (Place 3972 114) false; SNode 236 (Place 3933 114) (Place 3980 114) false; SNode 237 (Place 3972 114) (Place 3974 114) false; SNode 238 (Place 3975 114) (Place 3980 114) false; SNode 239 (Place 3975 114) (Place 3980 114) true; SNode 240 (Place 3975 114) (Place 3980 114) false; SNode 241 (Place 3981 114) (Place 4077 116) true; SNode 242 (Place 4041 115) (Place 4075 115) true; SNode 243 (Place 4048 115) (Place 4075 115) false; SNode 244 (Place 4049 115) (Place 4075 115) false; SNode 245 (Place 4049 115) (Place 4054 115) false; SNode 246 (Place 4055 115) (Place 4074 115) false; SNode 247 (Place 4122 121) (Place 4277 123) true; SNode 248 (Place 4127 121) (Place 4144 121) false; SNode 249 (Place 4128 121) (Place 4143 121) true; SNode 250 (Place 4128 121) (Place 4143 121) false; SNode 251 (Place 4145 121) (Place 4161 121) false; SNode 252 (Place 4122 121) (Place 4180 121) false; SNode 253 (Place 4161 121) (Place 4174 121) false; SNode 254 (Place 4162 121) (Place 4173 121) true; SNode 255 (Place 4162 121) (Place 4163 121) false; SNode 256 (Place 4165 121) (Place 4166 121) false; SNode 257 (Place 4167 121) (Place 4173 121) false; SNode 258 (Place 4175 121) (Place 4180 121) false; SNode 259 (Place 4175 121) (Place 4180 121) true; SNode 260 (Place 4175 121) (Place 4180 121) false; SNode 261 (Place 4181 121) (Place 4277 123) true; SNode 262 (Place 4241 122) (Place 4275 122) true; SNode 263 (Place 4248 122) (Place 4275 122) false; SNode 264 (Place 4249 122) (Place 4275 122) false; SNode 265 (Place 4249 122) (Place 4254 122) false; SNode 266 (Place 4255 122) (Place 4274 122) false; SNode 267 (Place 4279 125) (Place 4354 127) true; SNode 268 (Place 4284 125) (Place 4301 125) false; SNode 269 (Place 4285 125) (Place 4300 125) true; SNode 270 (Place 4285 125) (Place 4300 125) false; SNode 271 (Place 4302 125) (Place 4320 125) false; SNode 272 (Place 4279 125) (Place 4340 125) false; SNode 273 (Place 4320 125) (Place 4333 125) false; SNode 274 (Place 4321 125) (Place 4332 125) true; SNode 275 (Place 4321 125) (Place 4322 125) false; SNode 276 (Place 4324 125) (Place 4325 125) false; SNode 277 (Place 4326 125) (Place 4332 125) false; SNode 278 (Place 4334 125) (Place 4340 125) false; SNode 279 (Place 4334 125) (Place 4340 125) true; SNode 280 (Place 4334 125) (Place 4340 125) false; SNode 281 (Place 4341 125) (Place 4354 127) true; SNode 282 (Place 4344 126) (Place 4352 126) true; SNode 283 (Place 4351 126) (Place 4352 126) false; SNode 284 (Place 4356 129) (Place 4392 129) true; SNode 285 (Place 4361 129) (Place 4392 129) true; SNode 286 (Place 4361 129) (Place 4383 129) false; SNode 287 (Place 4384 129) (Place 4392 129) false; SNode 288 (Place 4390 129) (Place 4392 129) false; SNode 289 (Place 4437 134) (Place 4589 136) true; SNode 290 (Place 4442 134) (Place 4467 134) false; SNode 291 (Place 4443 134) (Place 4466 134) true; SNode 292 (Place 4443 134) (Place 4466 134) false; SNode 293 (Place 4444 134) (Place 4466 134) false; SNode 294 (Place 4468 134) (Place 4484 134) false; SNode 295 (Place 4437 134) (Place 4492 134) false; SNode 296 (Place 4484 134) (Place 4486 134) false; SNode 297 (Place 4487 134) (Place 4492 134) false; SNode 298 (Place 4487 134) (Place 4492 134) true; SNode 299 (Place 4487 134) (Place 4492 134) false; SNode 300 (Place 4493 134) (Place 4589 136) true; SNode 301 (Place 4553 135) (Place 4587 135) true; SNode 302 (Place 4560 135) (Place 4587 135) false; SNode 303 (Place 4561 135) (Place 4587 135) false; SNode 304 (Place 4561 135) (Place 4566 135) false; SNode 305 (Place 4567 135) (Place 4586 135) false; SNode 306 (Place 4634 141) (Place 4797 143) true; SNode 307 (Place 4639 141) (Place 4664 141) false; SNode 308 (Place 4640 141) (Place 4663 141) true; SNode 309 (Place 4640 141) (Place 4663 141) false; SNode 310 (Place 4641 141) (Place 4663 141) false; SNode 311 (Place 4665 141) (Place 4681 141) false; SNode 312 (Place 4634 141) (Place 4700 141) false; SNode 313 (Place 4681 141) (Place 4694 141) false; SNode 314 (Place 4682 141) (Place 4693 141) true; SNode 315 (Place 4682 141) (Place 4683 141) false; SNode 316 (Place 4685 141) (Place 4686 141) false; SNode 317 (Place 4687 141) (Place 4693 141) false; SNode 318 (Place 4695 141) (Place 4700 141) false; SNode 319 (Place 4695 141) (Place 4700 141) true; SNode 320 (Place 4695 141) (Place 4700 141) false; SNode 321 (Place 4701 141) (Place 4797 143) true; SNode 322 (Place 4761 142) (Place 4795 142) true; SNode 323 (Place 4768 142) (Place 4795 142) false; SNode 324 (Place 4769 142) (Place 4795 142) false; SNode 325 (Place 4769 142) (Place 4774 142) false; SNode 326 (Place 4775 142) (Place 4794 142) false; SNode 327 (Place 4799 145) (Place 4882 147) true; SNode 328 (Place 4804 145) (Place 4829 145) false; SNode 329 (Place 4805 145) (Place 4828 145) true; SNode 330 (Place 4805 145) (Place 4828 145) false; SNode 331 (Place 4806 145) (Place 4828 145) false; SNode 332 (Place 4830 145) (Place 4848 145) false; SNode 333 (Place 4799 145) (Place 4868 145) false; SNode 334 (Place 4848 145) (Place 4861 145) false; SNode 335 (Place 4849 145) (Place 4860 145) true; SNode 336 (Place 4849 145) (Place 4850 145) false; SNode 337 (Place 4852 145) (Place 4853 145) false; SNode 338 (Place 4854 145) (Place 4860 145) false; SNode 339 (Place 4862 145) (Place 4868 145) false; SNode 340 (Place 4862 145) (Place 4868 145) true; SNode 341 (Place 4862 145) (Place 4868 145) false; SNode 342 (Place 4869 145) (Place 4882 147) true; SNode 343 (Place 4872 146) (Place 4880 146) true; SNode 344 (Place 4879 146) (Place 4880 146) false; SNode 345 (Place 4884 149) (Place 4991 151) true; SNode 346 (Place 4889 149) (Place 4991 151) true; SNode 347 (Place 4889 149) (Place 4894 149) false; SNode 348 (Place 4895 149) (Place 4991 151) false; SNode 349 (Place 4902 149) (Place 4991 151) false; SNode 350 (Place 4975 150) (Place 4989 150) true; SNode 351 (Place 4975 150) (Place 4982 150) false; SNode 352 (Place 4983 150) (Place 4989 150) false; SNode 353 (Place 4993 153) (Place 5057 153) true; SNode 354 (Place 4998 153) (Place 5008 153) false; SNode 355 (Place 4999 153) (Place 5007 153) true; SNode 356 (Place 4999 153) (Place 5000 153) false; SNode 357 (Place 5001 153) (Place 5007 153) false; SNode 358 (Place 5002 153) (Place 5007 153) false; SNode 359 (Place 5009 153) (Place 5013 153) false; SNode 360 (Place 4993 153) (Place 5022 153) false; SNode 361 (Place 5013 153) (Place 5015 153) false; SNode 362 (Place 5016 153) (Place 5022 153) false; SNode 363 (Place 5016 153) (Place 5022 153) true; SNode 364 (Place 5016 153) (Place 5022 153) false; SNode 365 (Place 5037 153) (Place 5057 153) true; SNode 366 (Place 5039 153) (Place 5055 153) true; SNode 367 (Place 5046 153) (Place 5055 153) false; SNode 368 (Place 5046 153) (Place 5047 153) false; SNode 369 (Place 5048 153) (Place 5055 153) false; SNode 370 (Place 5058 154) (Place 5122 154) true; SNode 371 (Place 5063 154) (Place 5073 154) false; SNode 372 (Place 5064 154) (Place 5072 154) true; SNode 373 (Place 5064 154) (Place 5065 154) false; SNode 374 (Place 5066 154) (Place 5072 154) false; SNode 375 (Place 5067 154) (Place 5072 154) false; SNode 376 (Place 5074 154) (Place 5081 154) false; SNode 377 (Place 5058 154) (Place 5090 154) false; SNode 378 (Place 5081 154) (Place 5083 154) false; SNode 379 (Place 5084 154) (Place 5090 154) false; SNode 380 (Place 5084 154) (Place 5090 154) true; SNode 381 (Place 5084 154) (Place 5090 154) false; SNode 382 (Place 5102 154) (Place 5122 154) true; SNode 383 (Place 5104 154) (Place 5120 154) true; SNode 384 (Place 5111 154) (Place 5120 154) false; SNode 385 (Place 5111 154) (Place 5112 154) false; SNode 386 (Place 5113 154) (Place 5120 154) false; SNode 387 (Place 5123 155) (Place 5181 155) true; SNode 388 (Place 5128 155) (Place 5138 155) false; SNode 389 (Place 5129 155) (Place 5137 155) true; SNode 390 (Place 5129 155) (Place 5130 155) false; SNode 391 (Place 5131 155) (Place 5137 155) false; SNode 392 (Place 5132 155) (Place 5137 155) false; SNode 393 (Place 5139 155) (Place 5146 155) false; SNode 394 (Place 5123 155) (Place 5166 155) false; SNode 395 (Place 5146 155) (Place 5148 155) false; SNode 396 (Place 5149 155) (Place 5166 155) false; SNode 397 (Place 5149 155) (Place 5166 155) true; SNode 398 (Place 5149 155) (Place 5166 155) false; SNode 399 (Place 5153 155) (Place 5159 155) false; SNode 400 (Place 5160 155) (Place 5166 155) false; SNode 401 (Place 5167 155) (Place 5181 155) true; SNode 402 (Place 5169 155) (Place 5179 155) true; SNode 403 (Place 5176 155) (Place 5179 155) false; SNode 404 (Place 5182 156) (Place 5240 156) true; SNode 405 (Place 5187 156) (Place 5197 156) false; SNode 406 (Place 5188 156) (Place 5196 156) true; SNode 407 (Place 5188 156) (Place 5189 156) false; SNode 408 (Place 5190 156) (Place 5196 156) false; SNode 409 (Place 5191 156) (Place 5196 156) false; SNode 410 (Place 5198 156) (Place 5203 156) false; SNode 411 (Place 5182 156) (Place 5211 156) false; SNode 412 (Place 5203 156) (Place 5205 156) false; SNode 413 (Place 5206 156) (Place 5211 156) false; SNode 414 (Place 5206 156) (Place 5211 156) true; SNode 415 (Place 5206 156) (Place 5211 156) false; SNode 416 (Place 5226 156) (Place 5240 156) true; SNode 417 (Place 5228 156) (Place 5238 156) true; SNode 418 (Place 5235 156) (Place 5238 156) false; SNode 419 (Place 5241 157) (Place 5307 157) true; SNode 420 (Place 5246 157) (Place 5256 157) false; SNode 421 (Place 5247 157) (Place 5255 157) true; SNode 422 (Place 5247 157) (Place 5248 157) false; SNode 423 (Place 5249 157) (Place 5255 157) false; SNode 424 (Place 5250 157) (Place 5255 157) false; SNode 425 (Place 5257 157) (Place 5262 157) false; SNode 426 (Place 5241 157) (Place 5271 157) false; SNode 427 (Place 5262 157) (Place 5264 157) false; SNode 428 (Place 5265 157) (Place 5271 157) false; SNode 429 (Place 5265 157) (Place 5271 157) true; SNode 430 (Place 5265 157) (Place 5271 157) false; SNode 431 (Place 5285 157) (Place 5307 157) true; SNode 432 (Place 5287 157) (Place 5305 157) true; SNode 433 (Place 5294 157) (Place 5305 157) false; SNode 434 (Place 5294 157) (Place 5303 157) false; SNode 435 (Place 5294 157) (Place 5295 157) false; SNode 436 (Place 5296 157) (Place 5303 157) false].
Definition t_interfaces_inner1_cgroups0 : list cgroup := [CGroup (Place 50 3) (Place 120 3) [(str "// want Inner1Interface1:""ErrorInterface: Inner1Method1 Inner1Method2""")]; CGroup (Place 122 4) (Place 316 9) [(str "// InterfaceMethod1 is a method returning an error with error codes declared in doc."); (str "//"); (str "// Errors:"); (str "//"); (str "//    - interface-1-error -- could potentially be returned"); (str "//    - interface-2-error --")]; CGroup (Place 340 10) (Place 411 10) [(str "// want Inner1Method1:""ErrorCodes: interface-1-error interface-2-error""")]; CGroup (Place 414 12) (Place 518 15) [(str "// Errors:"); (str "//"); (str "//    - interface-3-error -- could potentially be returned"); (str "//    - interface-4-error --")]; CGroup (Place 554 16) (Place 625 16) [(str "// want Inner1Method2:""ErrorCodes: interface-3-error interface-4-error""")]; CGroup (Place 628 18) (Place 756 19) [(str "// MethodWithoutError is just some method that does not return an error,"); (str "// to test if it is correctly ignored in the analysis.")]; CGroup (Place 839 23) (Place 902 23) [(str "// want SimpleInterface:""ErrorInterface: SimpleInterfaceMethod""")]; CGroup (Place 904 24) (Place 1133 29) [(str "// SimpleInterfaceMethod is a method returning an error with error codes declared in doc."); (str "//"); (str "// Errors:"); (str "//"); (str "//    - interface-1-error -- could potentially be returned"); (str "//    - interface-2-error -- could potentially be returned")]; CGroup (Place 1165 30) (Place 1244 30) [(str "// want SimpleInterfaceMethod:""ErrorCodes: interface-1-error interface-2-error""")]; CGroup (Place 1293 33) (Place 1368 33) [(str "// want SimpleInterfaceIncompatible:""ErrorInterface: SimpleInterfaceMethod""")]; CGroup (Place 1370 34) (Place 1534 38) [(str "// SimpleInterfaceMethod is a method returning an error with error codes declared in doc."); (str "//"); (str "// Errors:"); (str "//"); (str "//    - inner1-error -- could potentially be returned")]; CGroup (Place 1566 39) (Place 1622 39) [(str "// want SimpleInterfaceMethod:""ErrorCodes: inner1-error""")]; CGroup (Place 1691 43) (Place 1774 43) [(str "// want `interface method ""Inner1CodeNotDeclared"" does not declare any error codes`")]; CGroup (Place 1812 46) (Place 1869 46) [(str "// want Inner1Interface3:""ErrorInterface: Inner1YesCodes""")]; CGroup (Place 1893 47) (Place 1968 47) [(str "// want `interface method ""Inner1NoCodes"" does not declare any error codes`")]; CGroup (Place 1971 49) (Place 2075 52) [(str "// Errors:"); (str "//"); (str "//    - interface-1-error -- could potentially be returned"); (str "//    - interface-2-error --")]; CGroup (Place 2100 53) (Place 2172 53) [(str "// want Inner1YesCodes:""ErrorCodes: interface-1-error interface-2-error""")]; CGroup (Place 2176 56) (Place 2305 61) [(str "// Errors:"); (str "//"); (str "//    - interface-1-error --"); (str "//    - interface-2-error --"); (str "//    - interface-3-error --"); (str "//    - interface-4-error --")]; CGroup (Place 2374 62) (Place 2489 62) [(str "// want FunctionForInterface1:""ErrorCodes: interface-1-error interface-2-error interface-3-error interface-4-error""")]; CGroup (Place 2603 70) (Place 2638 72) [(str "// Errors:"); (str "//"); (str "//    - some-error --")]; CGroup (Place 2694 73) (Place 2748 73) [(str "// want FunctionForInterface2:""ErrorCodes: some-error""")]; CGroup (Place 2795 75) (Place 2849 75) [(str "// want ""called function does not declare error codes""")]; CGroup (Place 2885 80) (Place 2956 83) [(str "// Errors:"); (str "//"); (str "//    - interface-1-error --"); (str "//    - interface-2-error --")]; CGroup (Place 3012 84) (Place 3091 84) [(str "// want FunctionForInterface3:""ErrorCodes: interface-1-error interface-2-error""")]; CGroup (Place 3131 86) (Place 3185 86) [(str "// want ""called function does not declare error codes""")]; CGroup (Place 3219 91) (Place 3348 96) [(str "// Errors:"); (str "//"); (str "//    - interface-1-error --"); (str "//    - interface-2-error --"); (str "//    - interface-3-error --"); (str "//    - interface-4-error --")]; CGroup (Place 3450 97) (Place 3568 97) [(str "// want FunctionForAllInterfaces:""ErrorCodes: interface-1-error interface-2-error interface-3-error interface-4-error""")]; CGroup (Place 3627 100) (Place 3681 100) [(str "// want ""called function does not declare error codes""")]; CGroup (Place 3722 102) (Place 3776 102) [(str "// want ""called function does not declare error codes""")]; CGroup (Place 3890 111) (Place 3932 113) [(str "// Errors:"); (str "//"); (str "//    - interface-1-error --")]; CGroup (Place 3983 114) (Place 4039 114) [(str "// want InterfaceMethod1:""ErrorCodes: interface-1-error""")]; CGroup (Place 4079 118) (Place 4121 120) [(str "// Errors:"); (str "//"); (str "//    - interface-3-error --")]; CGroup (Place 4183 121) (Place 4239 121) [(str "// want InterfaceMethod2:""ErrorCodes: interface-3-error""")]; CGroup (Place 4394 131) (Place 4436 133) [(str "// Errors:"); (str "//"); (str "//    - interface-2-error --")]; CGroup (Place 4495 134) (Place 4551 134) [(str "// want InterfaceMethod1:""ErrorCodes: interface-2-error""")]; CGroup (Place 4591 138) (Place 4633 140) [(str "// Errors:"); (str "//"); (str "//    - interface-4-error --")]; CGroup (Place 4703 141) (Place 4759 141) [(str "// want InterfaceMethod2:""ErrorCodes: interface-4-error""")]; CGroup (Place 4904 149) (Place 4973 149) [(str "// want Error:`ErrorType{Field:{Name:""TheCode"", Position:0}, Codes:}`")]].
Definition t_interfaces_inner1_files : list source_file := [SourceFile t_interfaces_inner1_nodes0 t_interfaces_inner1_cgroups0].
Definition t_interfaces_inner1_info : typeinfo := map_info (list_to_map t_interfaces_inner1_types) (list_to_map t_interfaces_inner1_values) (list_to_map t_interfaces_inner1_uses) (list_to_map t_interfaces_inner1_defs) (list_to_map t_interfaces_inner1_sels) (list_to_set [1; 4; 5; 6; 7; 8; 9; 10; 11; 12; 13; 14; 15; 16; 17; 18; 19; 20; 47; 48; 49; 50; 51; 56; 60; 64; 105; 109; 113; 117; 142; 143; 144; 145; 146; 147; 148; 149; 150; 151; 152; 155; 156; 157; 165; 169; 175; 176; 177; 178; 179; 195; 197; 198; 200; 201; 202; 204; 205; 207; 208; 210; 211; 214; 215; 216; 217; 218; 219; 220; 222; 224; 225; 230; 231; 232; 233; 234; 235]) (list_to_map t_interfaces_inner1_pkgnames) (list_to_map t_interfaces_inner1_objnames) (list_to_map t_interfaces_inner1_objtypes) (list_to_map t_interfaces_inner1_under) t_interfaces_inner1_methods t_interfaces_inner1_ierr t_interfaces_inner1_iree t_interfaces_inner1_icause t_interfaces_inner1_impl (list_to_map t_interfaces_inner1_named_methods).
Definition t_interfaces_inner1 : package := Package (list_to_map [(1, t_interfaces_inner1_f1); (2, t_interfaces_inner1_f2); (3, t_interfaces_inner1_f3); (4, t_interfaces_inner1_f4); (5, t_interfaces_inner1_f5); (6, t_interfaces_inner1_f6); (7, t_interfaces_inner1_f7); (8, t_interfaces_inner1_f8); (9, t_interfaces_inner1_f9); (10, t_interfaces_inner1_f10); (11, t_interfaces_inner1_f11); (12, t_interfaces_inner1_f12); (13, t_interfaces_inner1_f13); (14, t_interfaces_inner1_f14); (15, t_interfaces_inner1_f15)]) [1; 2; 3; 4; 5; 6; 7; 8; 9; 10; 11; 12; 13; 14; 15] t_interfaces_inner1_gendecls t_interfaces_inner1_top (list_to_map t_interfaces_inner1_objs) (fun id => default [] (createCommentMap t_interfaces_inner1_files id)) t_interfaces_inner1_info.
Definition t_interfaces_inner1_rank : gostring -> nat := fun n => default 0%nat ((list_to_map [((str "Inner1Interface1"), 1%nat); ((str "SimpleInterface"), 1%nat); ((str "SimpleInterfaceIncompatible"), 1%nat); ((str "Inner1Interface2"), 1%nat); ((str "Inner1Interface3"), 1%nat)] : gmap gostring nat) !! n).
Definition t_interfaces_inner2_f1 : func := Func 11 (Some (DeclInfo (Ident 15 (str "InterfaceMethod1") None) (Some [(Field 13 [] 14)]) (Some (comment_text [(str "// Errors:"); (str "//"); (str "//    - interface-1-error --")])))) (FuncType 16 [] (Some [(Field 19 [] 20)]) 161) (Some (Node 21 (KOther (str "*ast.BlockStmt")) [(Node 22 KReturn [(Node 23 (KUnary true) [(Node 24 KComposite [(Node 26 KBasicLit [])])])])])) 167 206.
Definition t_interfaces_inner2_f2 : func := Func 27 (Some (DeclInfo (Ident 31 (str "InterfaceMethod2") None) (Some [(Field 29 [] 30)]) (Some (comment_text [(str "// Errors:"); (str "//"); (str "//    - interface-3-error --")])))) (FuncType 32 [(Field 34 [(Ident 35 (str "a") (Some 1)); (Ident 36 (str "b") (Some 2))] 37)] (Some [(Field 39 [] 40)]) 304) (Some (Node 41 (KOther (str "*ast.BlockStmt")) [(Node 42 KReturn [(Node 43 (KUnary true) [(Node 44 KComposite [(Node 46 KBasicLit [])])])])])) 310 349.
Definition t_interfaces_inner2_f3 : func := Func 47 (Some (DeclInfo (Ident 51 (str "MethodWithoutError") None) (Some [(Field 49 [] 50)]) None)) (FuncType 52 [(Field 54 [(Ident 55 (str "a") (Some 3)); (Ident 56 (str "b") (Some 4))] 57)] (Some [(Field 59 [] 60)]) 406) (Some (Node 61 (KOther (str "*ast.BlockStmt")) [(Node 62 KReturn [(Node 63 (KIdent (str "a") (Some 3)) [])])])) 413 426.
Definition t_interfaces_inner2_f4 : func := Func 69 (Some (DeclInfo (Ident 74 (str "InterfaceMethod1") None) (Some [(Field 71 [] 72)]) (Some (comment_text [(str "// Errors:"); (str "//"); (str "//    - interface-2-error --")])))) (FuncType 75 [] (Some [(Field 78 [] 79)]) 559) (Some (Node 80 (KOther (str "*ast.BlockStmt")) [(Node 81 KReturn [(Node 82 (KUnary true) [(Node 83 KComposite [(Node 85 KBasicLit [])])])])])) 565 604.
Definition t_interfaces_inner2_f5 : func := Func 86 (Some (DeclInfo (Ident 91 (str "InterfaceMethod2") None) (Some [(Field 88 [] 89)]) (Some (comment_text [(str "// Errors:"); (str "//"); (str "//    - interface-4-error --")])))) (FuncType 92 [(Field 94 [(Ident 95 (str "a") (Some 5)); (Ident 96 (str "b") (Some 6))] 97)] (Some [(Field 99 [] 100)]) 710) (Some (Node 101 (KOther (str "*ast.BlockStmt")) [(Node 102 KReturn [(Node 103 (KUnary true) [(Node 104 KComposite [(Node 106 KBasicLit [])])])])])) 716 755.
Definition t_interfaces_inner2_f6 : func := Func 107 (Some (DeclInfo (Ident 112 (str "MethodWithoutError") None) (Some [(Field 109 [] 110)]) None)) (FuncType 113 [(Field 115 [(Ident 116 (str "a") (Some 7)); (Ident 117 (str "b") (Some 8))] 118)] (Some [(Field 120 [] 121)]) 820) (Some (Node 122 (KOther (str "*ast.BlockStmt")) [(Node 123 KReturn [(Node 124 (KIdent (str "a") (Some 7)) [])])])) 827 840.
Definition t_interfaces_inner2_f7 : func := Func 130 (Some (DeclInfo (Ident 134 (str "Inner1Method1") None) (Some [(Field 132 [] 133)]) (Some (comment_text [(str "// Errors:"); (str "//"); (str "//    - interface-2-error --")])))) (FuncType 135 [] (Some [(Field 138 [] 139)]) 975) (Some (Node 140 (KOther (str "*ast.BlockStmt")) [(Node 141 KReturn [(Node 142 (KUnary true) [(Node 143 KComposite [(Node 145 KBasicLit [])])])])])) 981 1074.
Definition t_interfaces_inner2_f8 : func := Func 146 (Some (DeclInfo (Ident 150 (str "Inner1Method2") None) (Some [(Field 148 [] 149)]) (Some (comment_text [(str "// Errors: none")])))) (FuncType 151 [(Field 153 [(Ident 154 (str "a") (Some 9)); (Ident 155 (str "b") (Some 10))] 156)] (Some [(Field 158 [] 159)]) 1152) (Some (Node 163 (KOther (str "*ast.BlockStmt")) [(Node 164 KReturn [(Node 165 (KIdent (str "nil") None) [])])])) 1166 1217.
Definition t_interfaces_inner2_f9 : func := Func 166 (Some (DeclInfo (Ident 170 (str "Inner1MethodWithoutError") None) (Some [(Field 168 [] 169)]) None)) (FuncType 171 [(Field 173 [(Ident 174 (str "a") (Some 11)); (Ident 175 (str "b") (Some 12))] 176)] (Some [(Field 178 [] 179)]) 1290) (Some (Node 180 (KOther (str "*ast.BlockStmt")) [(Node 181 KReturn [(Node 182 (KOther (str "*ast.BinaryExpr")) [(Node 183 (KIdent (str "a") (Some 11)) []); (Node 184 (KIdent (str "b") (Some 12)) [])])])])) 1297 1314.
Definition t_interfaces_inner2_f10 : func := Func 193 (Some (DeclInfo (Ident 199 (str "Code") None) (Some [(Field 195 [(Ident 196 (str "e") (Some 13))] 197)]) None)) (FuncType 200 [] (Some [(Field 203 [] 204)]) 1378) (Some (Node 205 (KOther (str "*ast.BlockStmt")) [(Node 206 KReturn [(Node 207 KSelector [(Node 208 (KIdent (str "e") (Some 13)) []); (Node 209 (KIdent (str "TheCode") None) [])])])])) 1399 1419.
Definition t_interfaces_inner2_f11 : func := Func 210 (Some (DeclInfo (Ident 216 (str "Message") None) (Some [(Field 212 [(Ident 213 (str "e") (Some 14))] 214)]) None)) (FuncType 217 [] (Some [(Field 220 [] 221)]) 1446) (Some (Node 222 (KOther (str "*ast.BlockStmt")) [(Node 223 KReturn [(Node 224 KSelector [(Node 225 (KIdent (str "e") (Some 14)) []); (Node 226 (KIdent (str "TheCode") None) [])])])])) 1464 1484.
Definition t_interfaces_inner2_f12 : func := Func 227 (Some (DeclInfo (Ident 233 (str "Details") None) (Some [(Field 229 [(Ident 230 (str "e") (Some 15))] 231)]) None)) (FuncType 234 [] (Some [(Field 237 [] 238)]) 1511) (Some (Node 241 (KOther (str "*ast.BlockStmt")) [(Node 242 KReturn [(Node 243 (KIdent (str "nil") None) [])])])) 1529 1543.
Definition t_interfaces_inner2_f13 : func := Func 244 (Some (DeclInfo (Ident 250 (str "Cause") None) (Some [(Field 246 [(Ident 247 (str "e") (Some 16))] 248)]) None)) (FuncType 251 [] (Some [(Field 254 [] 255)]) 1568) (Some (Node 256 (KOther (str "*ast.BlockStmt")) [(Node 257 KReturn [(Node 258 (KIdent (str "nil") None) [])])])) 1588 1602.
Definition t_interfaces_inner2_f14 : func := Func 259 (Some (DeclInfo (Ident 265 (str "Error") None) (Some [(Field 261 [(Ident 262 (str "e") (Some 17))] 263)]) None)) (FuncType 266 [] (Some [(Field 269 [] 270)]) 1627) (Some (Node 271 (KOther (str "*ast.BlockStmt")) [(Node 272 KReturn [(Node 273 KCall [(Node 274 KSelector [(Node 275 (KIdent (str "e") (Some 17)) []); (Node 276 (KIdent (str "Message") None) [])])])])])) 1647 1669.
Definition t_interfaces_inner2_gendecls : list gendecl := [GenDecl 3 [None]; GenDecl 6 [(Some (TypeSpec (Ident 8 (str "ImplementOuter2") (Some 18)) (XStruct [])))]; GenDecl 64 [(Some (TypeSpec (Ident 66 (str "ImplementOuterPointer2") (Some 19)) (XStruct [])))]; GenDecl 125 [(Some (TypeSpec (Ident 127 (str "ImplementInner1Interface1") (Some 20)) (XStruct [])))]; GenDecl 185 [(Some (TypeSpec (Ident 187 (str "Error") (Some 21)) (XStruct [[(Ident 191 (str "TheCode") None)]])))]].
Definition t_interfaces_inner2_top : list topdecl := [TopNode (Node 3 (KOther (str "*ast.GenDecl")) [(Node 4 (KOther (str "*ast.ImportSpec")) [])]); TopNode (Node 6 (KOther (str "*ast.GenDecl")) [(Node 7 (KOther (str "*ast.TypeSpec")) [])]); TopFunc 1; TopFunc 2; TopFunc 3; TopNode (Node 64 (KOther (str "*ast.GenDecl")) [(Node 65 (KOther (str "*ast.TypeSpec")) [])]); TopFunc 4; TopFunc 5; TopFunc 6; TopNode (Node 125 (KOther (str "*ast.GenDecl")) [(Node 126 (KOther (str "*ast.TypeSpec")) [])]); TopFunc 7; TopFunc 8; TopFunc 9; TopNode (Node 185 (KOther (str "*ast.GenDecl")) [(Node 186 (KOther (str "*ast.TypeSpec")) [])]); TopFunc 10; TopFunc 11; TopFunc 12; TopFunc 13; TopFunc 14].
Definition t_interfaces_inner2_objs : list (N * object) := [(1, Object true 291 DOther); (2, Object true 294 DOther); (3, Object true 393 DOther); (4, Object true 396 DOther); (5, Object true 697 DOther); (6, Object true 700 DOther); (7, Object true 807 DOther); (8, Object true 810 DOther); (9, Object true 1139 DOther); (10, Object true 1142 DOther); (11, Object true 1277 DOther); (12, Object true 1280 DOther); (13, Object true 1361 DOther); (14, Object true 1426 DOther); (15, Object true 1491 DOther); (16, Object true 1550 DOther); (17, Object true 1609 DOther); (18, Object false 50 DType); (19, Object false 433 DType); (20, Object false 847 DType); (21, Object false 1321 DType)].
Definition t_interfaces_inner2_types : list (N * gotype) := [(8, (TNamed 105)); (9, (TStruct [])); (14, (TNamed 105)); (16, (TSignature [] [(TNamed 1)] false)); (20, (TNamed 1)); (23, (TPointer (TNamed 117))); (24, (TNamed 117)); (25, (TNamed 117)); (26, (TBasic (str "string"))); (30, (TNamed 105)); (32, (TSignature [(TBasic (str "string")); (TBasic (str "string"))] [(TNamed 1)] false)); (35, (TBasic (str "string"))); (36, (TBasic (str "string"))); (37, (TBasic (str "string"))); (40, (TNamed 1)); (43, (TPointer (TNamed 117))); (44, (TNamed 117)); (45, (TNamed 117)); (46, (TBasic (str "string"))); (50, (TNamed 105)); (52, (TSignature [(TBasic (str "string")); (TBasic (str "string"))] [(TBasic (str "string"))] false)); (55, (TBasic (str "string"))); (56, (TBasic (str "string"))); (57, (TBasic (str "string"))); (60, (TBasic (str "string"))); (63, (TBasic (str "string"))); (66, (TNamed 109)); (67, (TStruct [])); (72, (TPointer (TNamed 109))); (73, (TNamed 109)); (75, (TSignature [] [(TNamed 1)] false)); (79, (TNamed 1)); (82, (TPointer (TNamed 117))); (83, (TNamed 117)); (84, (TNamed 117)); (85, (TBasic (str "string"))); (89, (TPointer (TNamed 109))); (90, (TNamed 109)); (92, (TSignature [(TBasic (str "string")); (TBasic (str "string"))] [(TNamed 1)] false)); (95, (TBasic (str "string"))); (96, (TBasic (str "string"))); (97, (TBasic (str "string"))); (100, (TNamed 1)); (103, (TPointer (TNamed 117))); (104, (TNamed 117)); (105, (TNamed 117)); (106, (TBasic (str "string"))); (110, (TPointer (TNamed 109))); (111, (TNamed 109)); (113, (TSignature [(TBasic (str "string")); (TBasic (str "string"))] [(TBasic (str "string"))] false)); (116, (TBasic (str "string"))); (117, (TBasic (str "string"))); (118, (TBasic (str "string"))); (121, (TBasic (str "string"))); (124, (TBasic (str "string"))); (127, (TNamed 113)); (128, (TStruct [])); (133, (TNamed 113)); (135, (TSignature [] [(TNamed 1)] false)); (139, (TNamed 1)); (142, (TPointer (TNamed 117))); (143, (TNamed 117)); (144, (TNamed 117)); (145, (TBasic (str "string"))); (149, (TNamed 113)); (151, (TSignature [(TBasic (str "string")); (TBasic (str "string"))] [(TPointer (TNamed 64))] false)); (154, (TBasic (str "string"))); (155, (TBasic (str "string"))); (156, (TBasic (str "string"))); (159, (TPointer (TNamed 64))); (160, (TNamed 64)); (162, (TNamed 64)); (165, TUntypedNil); (169, (TNamed 113)); (171, (TSignature [(TBasic (str "string")); (TBasic (str "string"))] [(TBasic (str "string"))] false)); (174, (TBasic (str "string"))); (175, (TBasic (str "string"))); (176, (TBasic (str "string"))); (179, (TBasic (str "string"))); (182, (TBasic (str "string"))); (183, (TBasic (str "string"))); (184, (TBasic (str "string"))); (187, (TNamed 117)); (188, (TStruct [((str "TheCode"), (TBasic (str "string")))])); (191, (TBasic (str "string"))); (192, (TBasic (str "string"))); (196, (TPointer (TNamed 117))); (197, (TPointer (TNamed 117))); (198, (TNamed 117)); (200, (TSignature [] [(TBasic (str "string"))] false)); (204, (TBasic (str "string"))); (207, (TBasic (str "string"))); (208, (TPointer (TNamed 117))); (209, (TBasic (str "string"))); (213, (TPointer (TNamed 117))); (214, (TPointer (TNamed 117))); (215, (TNamed 117)); (217, (TSignature [] [(TBasic (str "string"))] false)); (221, (TBasic (str "string"))); (224, (TBasic (str "string"))); (225, (TPointer (TNamed 117))); (226, (TBasic (str "string"))); (230, (TPointer (TNamed 117))); (231, (TPointer (TNamed 117))); (232, (TNamed 117)); (234, (TSignature [] [(TMap (TBasic (str "string")) (TBasic (str "string")))] false)); (238, (TMap (TBasic (str "string")) (TBasic (str "string")))); (239, (TBasic (str "string"))); (240, (TBasic (str "string"))); (243, TUntypedNil); (247, (TPointer (TNamed 117))); (248, (TPointer (TNamed 117))); (249, (TNamed 117)); (251, (TSignature [] [(TNamed 1)] false)); (255, (TNamed 1)); (258, TUntypedNil); (262, (TPointer (TNamed 117))); (263, (TPointer (TNamed 117))); (264, (TNamed 117)); (266, (TSignature [] [(TBasic (str "string"))] false)); (270, (TBasic (str "string"))); (273, (TBasic (str "string"))); (274, (TSignature [] [(TBasic (str "string"))] false)); (275, (TPointer (TNamed 117))); (276, (TSignature [] [(TBasic (str "string"))] false))].
Definition t_interfaces_inner2_values : list (N * constval) := [(26, CString (str "interface-1-error")); (46, CString (str "interface-3-error")); (85, CString (str "interface-2-error")); (106, CString (str "interface-4-error")); (145, CString (str "interface-2-error"))].
Definition t_interfaces_inner2_uses : list (N * tobj) := [(14, 105); (20, 1); (25, 117); (30, 105); (37, 5); (40, 1); (45, 117); (50, 105); (57, 5); (60, 5); (63, 125); (73, 109); (79, 1); (84, 117); (90, 109); (97, 5); (100, 1); (105, 117); (111, 109); (118, 5); (121, 5); (124, 129); (133, 113); (139, 1); (144, 117); (149, 113); (156, 5); (161, 104); (162, 64); (165, 24); (169, 113); (176, 5); (179, 5); (183, 133); (184, 134); (192, 5); (198, 117); (204, 5); (208, 135); (209, 103); (215, 117); (221, 5); (225, 136); (226, 103); (232, 117); (239, 5); (240, 5); (243, 24); (249, 117); (255, 1); (258, 24); (264, 117); (270, 5); (275, 139); (276, 119)].
Definition t_interfaces_inner2_defs : list (N * tobj) := [(8, 105); (15, 106); (31, 107); (35, 123); (36, 124); (51, 108); (55, 125); (56, 126); (66, 109); (74, 110); (91, 111); (95, 127); (96, 128); (112, 112); (116, 129); (117, 130); (127, 113); (134, 114); (150, 115); (154, 131); (155, 132); (170, 116); (174, 133); (175, 134); (187, 117); (196, 135); (199, 118); (213, 136); (216, 119); (230, 137); (233, 120); (247, 138); (250, 121); (262, 139); (265, 122)].
Definition t_interfaces_inner2_sels : list (N * (tobj * gotype)) := [(207, (103, (TPointer (TNamed 117)))); (224, (103, (TPointer (TNamed 117)))); (274, (119, (TPointer (TNamed 117))))].
Definition t_interfaces_inner2_pkgnames : list (N * gostring) := [(161, (str "inner1"))].
Definition t_interfaces_inner2_objnames : list (N * gostring) := [(1, (str "error")); (2, (str "Error")); (3, (str "?")); (4, (str "bool")); (5, (str "string")); (6, (str "int")); (7, (str "int8")); (8, (str "int16")); (9, (str "int32")); (10, (str "int64")); (11, (str "uint")); (12, (str "uint8")); (13, (str "uint16")); (14, (str "uint32")); (15, (str "uint64")); (16, (str "uintptr")); (17, (str "float32")); (18, (str "float64")); (19, (str "complex64")); (20, (str "complex128")); (21, (str "true")); (22, (str "false")); (23, (str "iota")); (24, (str "nil")); (25, (str "append")); (26, (str "cap")); (27, (str "close")); (28, (str "complex")); (29, (str "copy")); (30, (str "delete")); (31, (str "imag")); (32, (str "len")); (33, (str "make")); (34, (str "new")); (35, (str "panic")); (36, (str "print")); (37, (str "println")); (38, (str "real")); (39, (str "recover")); (40, (str "Errorf")); (41, (str "Sprintf")); (42, (str "Println")); (43, (str "New")); (44, (str "HasPrefix")); (45, (str "Float32")); (46, (str "Float64")); (47, (str "Inner1Interface1")); (48, (str "SimpleInterface")); (49, (str "SimpleInterfaceIncompatible")); (50, (str "Inner1Interface2")); (51, (str "Inner1Interface3")); (52, (str "FunctionForInterface1")); (53, (str "FunctionForInterface2")); (54, (str "FunctionForInterface3")); (55, (str "FunctionForAllInterfaces")); (56, (str "ImplementOuter1")); (57, (str "InterfaceMethod1")); (58, (str "InterfaceMethod2")); (59, (str "MethodWithoutError")); (60, (str "ImplementOuterPointer1")); (61, (str "InterfaceMethod1")); (62, (str "InterfaceMethod2")); (63, (str "MethodWithoutError")); (64, (str "Error")); (65, (str "Code")); (66, (str "Message")); (67, (str "Details")); (68, (str "Cause")); (69, (str "Error")); (70, (str "a")); (71, (str "b")); (72, (str "a")); (73, (str "b")); (74, (str "a")); (75, (str "b")); (76, (str "a")); (77, (str "b")); (78, (str "e")); (79, (str "e")); (80, (str "e")); (81, (str "e")); (82, (str "e")); (83, (str "Inner1Method1")); (84, (str "Inner1Method2")); (85, (str "a")); (86, (str "b")); (87, (str "Inner1MethodWithoutError")); (88, (str "a")); (89, (str "b")); (90, (str "SimpleInterfaceMethod")); (91, (str "SimpleInterfaceMethod")); (92, (str "Inner1CodeNotDeclared")); (93, (str "Inner1NoCodes")); (94, (str "Inner1YesCodes")); (95, (str "a")); (96, (str "b")); (97, (str "v")); (98, (str "v")); (99, (str "v")); (100, (str "v1")); (101, (str "v2")); (102, (str "v3")); (103, (str "TheCode")); (104, (str "inner1")); (105, (str "ImplementOuter2")); (106, (str "InterfaceMethod1")); (107, (str "InterfaceMethod2")); (108, (str "MethodWithoutError")); (109, (str "ImplementOuterPointer2")); (110, (str "InterfaceMethod1")); (111, (str "InterfaceMethod2")); (112, (str "MethodWithoutError")); (113, (str "ImplementInner1Interface1")); (114, (str "Inner1Method1")); (115, (str "Inner1Method2")); (116, (str "Inner1MethodWithoutError")); (117, (str "Error")); (118, (str "Code")); (119, (str "Message")); (120, (str "Details")); (121, (str "Cause")); (122, (str "Error")); (123, (str "a")); (124, (str "b")); (125, (str "a")); (126, (str "b")); (127, (str "a")); (128, (str "b")); (129, (str "a")); (130, (str "b")); (131, (str "a")); (132, (str "b")); (133, (str "a")); (134, (str "b")); (135, (str "e")); (136, (str "e")); (137, (str "e")); (138, (str "e")); (139, (str "e")); (140, (str "inner1")); (141, (str "inner2")); (142, (str "SimpleInterface")); (143, (str "SomeInterface")); (144, (str "WithInvalidMethods")); (145, (str "EmbeddedSimpleInterface")); (146, (str "EmbeddedMultipleInterfaces")); (147, (str "EmbeddedOtherPackage")); (148, (str "EmbeddedOtherPackage2")); (149, (str "EmbeddedOtherPackage3")); (150, (str "SimpleInterface2")); (151, (str "OtherSimpleInterface")); (152, (str "EmbeddedSimpleInterface2")); (153, (str "InterfaceParam")); (154, (str "OuterFunction")); (155, (str "ImplementInner1Interface1")); (156, (str "ImplementInner1Interface2")); (157, (str "ImplementInner1Interface3")); (158, (str "Inner1Method1")); (159, (str "Inner1Method2")); (160, (str "Inner1MethodWithoutError")); (161, (str "Inner1CodeNotDeclared")); (162, (str "Inner1NoCodes")); (163, (str "Inner1YesCodes")); (164, (str "UsingExternalImplAsExternalInterface")); (165, (str "ReeError")); (166, (str "ReturnReeError")); (167, (str "CallEmbeddedInterface")); (168, (str "ConvertEmbeddedInterface")); (169, (str "Error")); (170, (str "Code")); (171, (str "Message")); (172, (str "Details")); (173, (str "Cause")); (174, (str "Error")); (175, (str "EmbeddedMultipleInterfaces2")); (176, (str "EmbeddedSimpleInterfaceOtherFile")); (177, (str "EmbeddedSimpleInterface2OtherFile")); (178, (str "InvalidSimpleImpl")); (179, (str "InterFaceWithoutErrorCodeDeclarations")); (180, (str "SimpleInterfaceMethod")); (181, (str "InvalidReturn")); (182, (str "InvalidReturn2")); (183, (str "InvalidReturn3")); (184, (str "InvalidAssignment")); (185, (str "InvalidAssignment2")); (186, (str "InvalidAssignment3")); (187, (str "ReturnTwoInvalidSimpleImpl")); (188, (str "InvalidAssignment4")); (189, (str "InvalidAssignment5")); (190, (str "InvalidAssignment6")); (191, (str "TakingSimpleInterface")); (192, (str "TakingSimpleInterfaceVariadic")); (193, (str "TakingSimpleInterfaceSlice")); (194, (str "InvalidFunctionCall")); (195, (str "SimpleInterfaceMap")); (196, (str "InvalidMapIndex")); (197, (str "SimpleInterfaceIncompatible")); (198, (str "RandomInterface")); (199, (str "InvalidConversion")); (200, (str "BoxSimpleInterface")); (201, (str "Box2SimpleInterface")); (202, (str "Box3SimpleInterface")); (203, (str "InvalidStructCreation")); (204, (str "interfaceSlice")); (205, (str "interfaceSlice2")); (206, (str "InvalidSliceCreation")); (207, (str "interfaceArray")); (208, (str "interfaceArray2")); (209, (str "InvalidArrayCreation")); (210, (str "interfaceMap")); (211, (str "interfaceMap2")); (212, (str "InvalidMapCreation")); (213, (str "InvalidForRange")); (214, (str "InvalidSimpleImplSlice")); (215, (str "InvalidSimpleImplMap1")); (216, (str "InvalidSimpleImplMap2")); (217, (str "InvalidSimpleImplMap3")); (218, (str "InvalidSimpleImplArray")); (219, (str "InvalidSimpleImplPointerToArray")); (220, (str "InvalidSimpleImplChan")); (221, (str "InvalidForRangeNamed")); (222, (str "SimpleInterfaceChan")); (223, (str "InvalidChannelOperation")); (224, (str "someLocalInterface")); (225, (str "someLocalInterfaceInvalidImpl")); (226, (str "local1")); (227, (str "local2")); (228, (str "local3")); (229, (str "InvalidLocalImplementation")); (230, (str "Interface1")); (231, (str "Interface2")); (232, (str "Interface3")); (233, (str "Interface1InvalidImpl")); (234, (str "Interface2InvalidImpl")); (235, (str "Interface3InvalidImpl")); (236, (str "I1")); (237, (str "I2")); (238, (str "I3")); (239, (str "GetInterface2InvalidImpl")); (240, (str "NestedInvalidConversions")); (241, (str "InvalidEmbeddedInterface")); (242, (str "a")); (243, (str "b")); (244, (str "a")); (245, (str "b")); (246, (str "e")); (247, (str "e")); (248, (str "e")); (249, (str "e")); (250, (str "e")); (251, (str "SimpleInterfaceMethod")); (252, (str "InterfaceMethod1")); (253, (str "InterfaceMethod2")); (254, (str "a")); (255, (str "b")); (256, (str "MethodWithoutError")); (257, (str "a")); (258, (str "b")); (259, (str "InvalidMethod1")); (260, (str "SimpleInterfaceMethod")); (261, (str "OtherMethod")); (262, (str "SimpleInterfaceMethod")); (263, (str "some")); (264, (str "a")); (265, (str "b")); (266, (str "a")); (267, (str "b")); (268, (str "a")); (269, (str "b")); (270, (str "Code")); (271, (str "Message")); (272, (str "Details")); (273, (str "Cause")); (274, (str "Error")); (275, (str "param")); (276, (str "param")); (277, (str "SimpleInterfaceMethod")); (278, (str "ExportedCodeNotDeclared")); (279, (str "localCodeNotDeclared")); (280, (str "_")); (281, (str "_")); (282, (str "_")); (283, (str "_")); (284, (str "x")); (285, (str "y")); (286, (str "z")); (287, (str "m")); (288, (str "_")); (289, (str "_")); (290, (str "_")); (291, (str "_")); (292, (str "_")); (293, (str "_")); (294, (str "_")); (295, (str "m")); (296, (str "m2")); (297, (str "slice")); (298, (str "SimpleInterfaceMethod")); (299, (str "RandomMethod")); (300, (str "incompatible")); (301, (str "bs")); (302, (str "slice")); (303, (str "m1")); (304, (str "m2")); (305, (str "m3")); (306, (str "array")); (307, (str "pa")); (308, (str "c")); (309, (str "slice")); (310, (str "m1")); (311, (str "m2")); (312, (str "m3")); (313, (str "array")); (314, (str "pa")); (315, (str "pa2")); (316, (str "c")); (317, (str "c")); (318, (str "csi")); (319, (str "csi2")); (320, (str "local1")); (321, (str "local2")); (322, (str "local3")); (323, (str "I1")); (324, (str "I2")); (325, (str "I3")); (326, (str "_")); (327, (str "_")); (328, (str "_")); (329, (str "i3")); (330, (str "x")); (331, (str "x")); (332, (str "y")); (333, (str "z")); (334, (str "y")); (335, (str "x")); (336, (str "u")); (337, (str "v")); (338, (str "x1")); (339, (str "x2")); (340, (str "x3")); (341, (str "_")); (342, (str "x4")); (343, (str "_")); (344, (str "si")); (345, (str "ok")); (346, (str "param")); (347, (str "slice")); (348, (str "_")); (349, (str "lambda")); (350, (str "s")); (351, (str "ok")); (352, (str "si")); (353, (str "val")); (354, (str "val")); (355, (str "val")); (356, (str "si")); (357, (str "u")); (358, (str "v")); (359, (str "x")); (360, (str "y")); (361, (str "index")); (362, (str "index")); (363, (str "index")); (364, (str "si")); (365, (str "i")); (366, (str "i")); (367, (str "i")); (368, (str "si2")); (369, (str "si")); (370, (str "i")); (371, (str "i")); (372, (str "i")); (373, (str "i")); (374, (str "si2")); (375, (str "si")); (376, (str "some")); (377, (str "local")); (378, (str "i1"))].
Definition t_interfaces_inner2_objtypes : list (N * gotype) := [(1, (TNamed 1)); (2, (TSignature [] [(TBasic (str "string"))] false)); (4, (TBasic (str "bool"))); (5, (TBasic (str "string"))); (6, (TBasic (str "int"))); (7, (TBasic (str "int8"))); (8, (TBasic (str "int16"))); (9, (TBasic (str "int32"))); (10, (TBasic (str "int64"))); (11, (TBasic (str "uint"))); (12, (TBasic (str "uint8"))); (13, (TBasic (str "uint16"))); (14, (TBasic (str "uint32"))); (15, (TBasic (str "uint64"))); (16, (TBasic (str "uintptr"))); (17, (TBasic (str "float32"))); (18, (TBasic (str "float64"))); (19, (TBasic (str "complex64"))); (20, (TBasic (str "complex128"))); (40, (TSignature [(TBasic (str "string")); (TSlice (TInterface 4))] [(TNamed 1)] true)); (41, (TSignature [(TBasic (str "string")); (TSlice (TInterface 4))] [(TBasic (str "string"))] true)); (42, (TSignature [(TSlice (TInterface 4))] [(TBasic (str "int")); (TNamed 1)] true)); (43, (TSignature [(TBasic (str "string"))] [(TNamed 1)] false)); (44, (TSignature [(TBasic (str "string")); (TBasic (str "string"))] [(TBasic (str "bool"))] false)); (45, (TSignature [] [(TBasic (str "float32"))] false)); (46, (TSignature [] [(TBasic (str "float64"))] false)); (47, (TNamed 47)); (48, (TNamed 48)); (49, (TNamed 49)); (50, (TNamed 50)); (51, (TNamed 51)); (52, (TSignature [(TBasic (str "string")); (TBasic (str "string")); (TNamed 47)] [(TNamed 1)] false)); (53, (TSignature [(TNamed 50)] [(TNamed 1)] false)); (54, (TSignature [(TNamed 51)] [(TNamed 1)] false)); (55, (TSignature [(TNamed 47); (TNamed 50); (TNamed 51)] [(TNamed 1)] false)); (56, (TNamed 56)); (57, (TSignature [] [(TNamed 1)] false)); (58, (TSignature [(TBasic (str "string")); (TBasic (str "string"))] [(TNamed 1)] false)); (59, (TSignature [(TBasic (str "string")); (TBasic (str "string"))] [(TBasic (str "string"))] false)); (60, (TNamed 60)); (61, (TSignature [] [(TNamed 1)] false)); (62, (TSignature [(TBasic (str "string")); (TBasic (str "string"))] [(TNamed 1)] false)); (63, (TSignature [(TBasic (str "string")); (TBasic (str "string"))] [(TBasic (str "string"))] false)); (64, (TNamed 64)); (65, (TSignature [] [(TBasic (str "string"))] false)); (66, (TSignature [] [(TBasic (str "string"))] false)); (67, (TSignature [] [(TMap (TBasic (str "string")) (TBasic (str "string")))] false)); (68, (TSignature [] [(TNamed 1)] false)); (69, (TSignature [] [(TBasic (str "string"))] false)); (70, (TBasic (str "string"))); (71, (TBasic (str "string"))); (72, (TBasic (str "string"))); (73, (TBasic (str "string"))); (74, (TBasic (str "string"))); (75, (TBasic (str "string"))); (76, (TBasic (str "string"))); (77, (TBasic (str "string"))); (78, (TPointer (TNamed 64))); (79, (TPointer (TNamed 64))); (80, (TPointer (TNamed 64))); (81, (TPointer (TNamed 64))); (82, (TPointer (TNamed 64))); (83, (TSignature [] [(TNamed 1)] false)); (84, (TSignature [(TBasic (str "string")); (TBasic (str "string"))] [(TPointer (TNamed 64))] false)); (85, (TBasic (str "string"))); (86, (TBasic (str "string"))); (87, (TSignature [(TBasic (str "string")); (TBasic (str "string"))] [(TBasic (str "string"))] false)); (88, (TBasic (str "string"))); (89, (TBasic (str "string"))); (90, (TSignature [] [(TNamed 1)] false)); (91, (TSignature [] [(TNamed 1)] false)); (92, (TSignature [] [(TNamed 1)] false)); (93, (TSignature [] [(TNamed 1)] false)); (94, (TSignature [] [(TNamed 1)] false)); (95, (TBasic (str "string"))); (96, (TBasic (str "string"))); (97, (TNamed 47)); (98, (TNamed 50)); (99, (TNamed 51)); (100, (TNamed 47)); (101, (TNamed 50)); (102, (TNamed 51)); (103, (TBasic (str "string"))); (105, (TNamed 105)); (106, (TSignature [] [(TNamed 1)] false)); (107, (TSignature [(TBasic (str "string")); (TBasic (str "string"))] [(TNamed 1)] false)); (108, (TSignature [(TBasic (str "string")); (TBasic (str "string"))] [(TBasic (str "string"))] false)); (109, (TNamed 109)); (110, (TSignature [] [(TNamed 1)] false)); (111, (TSignature [(TBasic (str "string")); (TBasic (str "string"))] [(TNamed 1)] false)); (112, (TSignature [(TBasic (str "string")); (TBasic (str "string"))] [(TBasic (str "string"))] false)); (113, (TNamed 113)); (114, (TSignature [] [(TNamed 1)] false)); (115, (TSignature [(TBasic (str "string")); (TBasic (str "string"))] [(TPointer (TNamed 64))] false)); (116, (TSignature [(TBasic (str "string")); (TBasic (str "string"))] [(TBasic (str "string"))] false)); (117, (TNamed 117)); (118, (TSignature [] [(TBasic (str "string"))] false)); (119, (TSignature [] [(TBasic (str "string"))] false)); (120, (TSignature [] [(TMap (TBasic (str "string")) (TBasic (str "string")))] false)); (121, (TSignature [] [(TNamed 1)] false)); (122, (TSignature [] [(TBasic (str "string"))] false)); (123, (TBasic (str "string"))); (124, (TBasic (str "string"))); (125, (TBasic (str "string"))); (126, (TBasic (str "string"))); (127, (TBasic (str "string"))); (128, (TBasic (str "string"))); (129, (TBasic (str "string"))); (130, (TBasic (str "string"))); (131, (TBasic (str "string"))); (132, (TBasic (str "string"))); (133, (TBasic (str "string"))); (134, (TBasic (str "string"))); (135, (TPointer (TNamed 117))); (136, (TPointer (TNamed 117))); (137, (TPointer (TNamed 117))); (138, (TPointer (TNamed 117))); (139, (TPointer (TNamed 117))); (142, (TNamed 142)); (143, (TNamed 143)); (144, (TNamed 144)); (145, (TNamed 145)); (146, (TNamed 146)); (147, (TNamed 147)); (148, (TNamed 148)); (149, (TNamed 149)); (150, (TNamed 150)); (151, (TNamed 151)); (152, (TNamed 152)); (153, (TSignature [(TNamed 143); (TBasic (str "string")); (TBasic (str "string"))] [(TNamed 1)] false)); (154, (TSignature [(TBasic (str "string")); (TBasic (str "string"))] [(TNamed 1)] false)); (155, (TNamed 155)); (156, (TNamed 156)); (157, (TNamed 157)); (158, (TSignature [] [(TNamed 1)] false)); (159, (TSignature [(TBasic (str "string")); (TBasic (str "string"))] [(TPointer (TNamed 64))] false)); (160, (TSignature [(TBasic (str "string")); (TBasic (str "string"))] [(TBasic (str "string"))] false)); (161, (TSignature [] [(TNamed 1)] false)); (162, (TSignature [] [(TNamed 1)] false)); (163, (TSignature [] [(TNamed 1)] false)); (164, (TSignature [(TBasic (str "string")); (TBasic (str "string"))] [(TNamed 1)] false)); (165, (TNamed 165)); (166, (TSignature [] [(TNamed 165)] false)); (167, (TSignature [(TNamed 145)] [(TNamed 1)] false)); (168, (TSignature [(TNamed 145)] [(TNamed 142)] false)); (169, (TNamed 169)); (170, (TSignature [] [(TBasic (str "string"))] false)); (171, (TSignature [] [(TBasic (str "string"))] false)); (172, (TSignature [] [(TMap (TBasic (str "string")) (TBasic (str "string")))] false)); (173, (TSignature [] [(TNamed 1)] false)); (174, (TSignature [] [(TBasic (str "string"))] false)); (175, (TNamed 175)); (176, (TNamed 176)); (177, (TNamed 177)); (178, (TNamed 178)); (179, (TNamed 179)); (180, (TSignature [] [(TNamed 1)] false)); (181, (TSignature [] [(TNamed 142)] false)); (182, (TSignature [] [(TBasic (str "int")); (TBasic (str "int")); (TNamed 142)] false)); (183, (TSignature [] [(TBasic (str "int")); (TBasic (str "int")); (TNamed 142); (TNamed 142)] false)); (184, (TSignature [] [(TPointer (TNamed 142))] false)); (185, (TSignature [] [] false)); (186, (TSignature [] [(TBasic (str "int")); (TNamed 142); (TNamed 142)] false)); (187, (TSignature [] [(TNamed 178); (TNamed 178)] false)); (188, (TSignature [] [] false)); (189, (TSignature [] [] false)); (190, (TSignature [(TMap (TBasic (str "int")) (TNamed 178))] [] false)); (191, (TSignature [(TBasic (str "int")); (TBasic (str "int")); (TNamed 142)] [] false)); (192, (TSignature [(TBasic (str "int")); (TSlice (TNamed 142))] [] true)); (193, (TSignature [(TBasic (str "int")); (TSlice (TNamed 142))] [] false)); (194, (TSignature [] [] false)); (195, (TNamed 195)); (196, (TSignature [(TMap (TNamed 142) (TStruct [])); (TNamed 195); (TSlice (TStruct []))] [] false)); (197, (TNamed 197)); (198, (TNamed 198)); (199, (TSignature [(TNamed 197); (TNamed 198)] [] false)); (200, (TNamed 200)); (201, (TNamed 201)); (202, (TNamed 202)); (203, (TSignature [] [] false)); (204, (TNamed 204)); (205, (TNamed 205)); (206, (TSignature [] [] false)); (207, (TNamed 207)); (208, (TNamed 208)); (209, (TSignature [] [] false)); (210, (TNamed 210)); (211, (TNamed 211)); (212, (TSignature [] [] false)); (213, (TSignature [(TSlice (TNamed 178)); (TMap (TNamed 178) (TStruct [])); (TMap (TBasic (str "string")) (TNamed 178)); (TMap (TNamed 178) (TNamed 178)); (TArray 5 (TNamed 178)); (TPointer (TArray 5 (TNamed 178))); (TChan 3 (TNamed 178))] [] false)); (214, (TNamed 214)); (215, (TNamed 215)); (216, (TNamed 216)); (217, (TNamed 217)); (218, (TNamed 218)); (219, (TNamed 219)); (220, (TNamed 220)); (221, (TSignature [(TNamed 214); (TNamed 215); (TNamed 216); (TNamed 217); (TNamed 218); (TNamed 219); (TPointer (TNamed 218)); (TNamed 220)] [] false)); (222, (TNamed 222)); (223, (TSignature [(TChan 3 (TNamed 178)); (TChan 3 (TNamed 142)); (TNamed 222)] [] false)); (224, (TNamed 224)); (225, (TNamed 225)); (226, (TSignature [] [(TNamed 1)] false)); (227, (TSignature [] [(TNamed 1)] false)); (228, (TSignature [] [(TNamed 1)] false)); (229, (TSignature [] [] false)); (230, (TNamed 230)); (231, (TNamed 231)); (232, (TNamed 232)); (233, (TNamed 233)); (234, (TNamed 234)); (235, (TNamed 235)); (236, (TSignature [] [(TNamed 1)] false)); (237, (TSignature [] [(TNamed 1)] false)); (238, (TSignature [] [(TNamed 1)] false)); (239, (TSignature [(TBasic (str "int")); (TBasic (str "int")); (TNamed 232)] [(TNamed 234)] false)); (240, (TSignature [(TNamed 235)] [] false)); (241, (TSignature [] [(TNamed 145)] false)); (242, (TBasic (str "string"))); (243, (TBasic (str "string"))); (244, (TBasic (str "string"))); (245, (TBasic (str "string"))); (246, (TPointer (TNamed 169))); (247, (TPointer (TNamed 169))); (248, (TPointer (TNamed 169))); (249, (TPointer (TNamed 169))); (250, (TPointer (TNamed 169))); (251, (TSignature [] [(TNamed 1)] false)); (252, (TSignature [] [(TNamed 1)] false)); (253, (TSignature [(TBasic (str "string")); (TBasic (str "string"))] [(TNamed 1)] false)); (254, (TBasic (str "string"))); (255, (TBasic (str "string"))); (256, (TSignature [(TBasic (str "string")); (TBasic (str "string"))] [(TBasic (str "string"))] false)); (257, (TBasic (str "string"))); (258, (TBasic (str "string"))); (259, (TSignature [] [(TNamed 1); (TBasic (str "string"))] false)); (260, (TSignature [] [(TNamed 1)] false)); (261, (TSignature [] [(TNamed 1)] false)); (262, (TSignature [] [(TNamed 1)] false)); (263, (TNamed 143)); (264, (TBasic (str "string"))); (265, (TBasic (str "string"))); (266, (TBasic (str "string"))); (267, (TBasic (str "string"))); (268, (TBasic (str "string"))); (269, (TBasic (str "string"))); (270, (TSignature [] [(TBasic (str "string"))] false)); (271, (TSignature [] [(TBasic (str "string"))] false)); (272, (TSignature [] [(TMap (TBasic (str "string")) (TBasic (str "string")))] false)); (273, (TSignature [] [(TNamed 1)] false)); (274, (TSignature [] [(TBasic (str "string"))] false)); (275, (TNamed 145)); (276, (TNamed 145)); (277, (TSignature [] [(TNamed 1)] false)); (278, (TSignature [] [(TNamed 1)] false)); (279, (TSignature [] [(TNamed 1)] false)); (280, (TBasic (str "int"))); (281, (TBasic (str "int"))); (282, (TNamed 142)); (283, (TNamed 142)); (284, (TBasic (str "int"))); (285, (TNamed 142)); (286, (TNamed 142)); (287, (TMap (TBasic (str "int")) (TNamed 178))); (288, (TBasic (str "int"))); (289, (TBasic (str "int"))); (290, (TNamed 142)); (291, (TBasic (str "int"))); (292, (TSlice (TNamed 142))); (293, (TBasic (str "int"))); (294, (TSlice (TNamed 142))); (295, (TMap (TNamed 142) (TStruct []))); (296, (TNamed 195)); (297, (TSlice (TStruct []))); (298, (TSignature [] [(TNamed 1)] false)); (299, (TSignature [] [] false)); (300, (TNamed 197)); (301, (TNamed 198)); (302, (TSlice (TNamed 178))); (303, (TMap (TNamed 178) (TStruct []))); (304, (TMap (TBasic (str "string")) (TNamed 178))); (305, (TMap (TNamed 178) (TNamed 178))); (306, (TArray 5 (TNamed 178))); (307, (TPointer (TArray 5 (TNamed 178)))); (308, (TChan 3 (TNamed 178))); (309, (TNamed 214)); (310, (TNamed 215)); (311, (TNamed 216)); (312, (TNamed 217)); (313, (TNamed 218)); (314, (TNamed 219)); (315, (TPointer (TNamed 218))); (316, (TNamed 220)); (317, (TChan 3 (TNamed 178))); (318, (TChan 3 (TNamed 142))); (319, (TNamed 222)); (320, (TSignature [] [(TNamed 1)] false)); (321, (TSignature [] [(TNamed 1)] false)); (322, (TSignature [] [(TNamed 1)] false)); (323, (TSignature [] [(TNamed 1)] false)); (324, (TSignature [] [(TNamed 1)] false)); (325, (TSignature [] [(TNamed 1)] false)); (326, (TBasic (str "int"))); (327, (TBasic (str "int"))); (328, (TNamed 232)); (329, (TNamed 235)); (330, (TNamed 142)); (331, (TBasic (str "int"))); (332, (TBasic (str "int"))); (333, (TNamed 142)); (334, (TNamed 142)); (335, (TNamed 178)); (336, (TNamed 142)); (337, (TNamed 142)); (338, (TNamed 142)); (339, (TNamed 142)); (340, (TNamed 142)); (341, (TNamed 142)); (342, (TNamed 142)); (343, (TNamed 142)); (344, (TNamed 142)); (345, (TBasic (str "bool"))); (346, (TNamed 178)); (347, (TSlice (TNamed 142))); (348, (TNamed 142)); (349, (TSignature [(TNamed 142)] [] false)); (350, (TNamed 142)); (351, (TBasic (str "bool"))); (352, (TNamed 142)); (353, (TNamed 198)); (354, (TNamed 142)); (355, (TNamed 197)); (356, (TNamed 142)); (357, (TBasic (str "int"))); (358, (TBasic (str "int"))); (359, (TNamed 142)); (360, (TNamed 142)); (361, (TBasic (str "int"))); (362, (TBasic (str "int"))); (363, (TBasic (str "int"))); (364, (TNamed 142)); (365, (TBasic (str "int"))); (366, (TBasic (str "int"))); (367, (TBasic (str "int"))); (368, (TNamed 142)); (369, (TNamed 142)); (370, (TBasic (str "int"))); (371, (TBasic (str "int"))); (372, (TBasic (str "int"))); (373, (TBasic (str "int"))); (374, (TNamed 142)); (375, (TNamed 142)); (376, (TNamed 178)); (377, (TNamed 224)); (378, (TNamed 230))].
Definition t_interfaces_inner2_under : list (N * gotype) := [(1, (TInterface 1)); (47, (TInterface 5)); (48, (TInterface 6)); (49, (TInterface 6)); (50, (TInterface 7)); (51, (TInterface 8)); (56, (TStruct [])); (60, (TStruct [])); (64, (TStruct [((str "TheCode"), (TBasic (str "string")))])); (105, (TStruct [])); (109, (TStruct [])); (113, (TStruct [])); (117, (TStruct [((str "TheCode"), (TBasic (str "string")))])); (142, (TInterface 6)); (143, (TInterface 9)); (144, (TInterface 10)); (145, (TInterface 6)); (146, (TInterface 12)); (147, (TInterface 6)); (148, (TInterface 6)); (149, (TInterface 6)); (150, (TInterface 6)); (151, (TInterface 11)); (152, (TInterface 6)); (155, (TStruct [])); (156, (TStruct [])); (157, (TStruct [])); (165, (TInterface 13)); (169, (TStruct [((str "TheCode"), (TBasic (str "string")))])); (175, (TInterface 12)); (176, (TInterface 6)); (177, (TInterface 6)); (178, (TStruct [])); (179, (TInterface 14)); (195, (TMap (TNamed 142) (TStruct []))); (197, (TInterface 6)); (198, (TInterface 15)); (200, (TStruct [((str "si"), (TNamed 142))])); (201, (TStruct [((str "_"), (TBasic (str "int"))); ((str "_"), (TBasic (str "int"))); ((str "_"), (TNamed 142)); ((str "_"), (TNamed 142)); ((str "_"), (TNamed 142))])); (202, (TStruct [((str "u"), (TBasic (str "int"))); ((str "v"), (TBasic (str "int"))); ((str "x"), (TNamed 142)); ((str "y"), (TNamed 142))])); (204, (TSlice (TNamed 142))); (205, (TSlice (TNamed 142))); (207, (TArray 2 (TNamed 142))); (208, (TSlice (TNamed 142))); (210, (TMap (TBasic (str "int")) (TNamed 142))); (211, (TSlice (TNamed 142))); (214, (TSlice (TNamed 178))); (215, (TMap (TNamed 178) (TStruct []))); (216, (TMap (TBasic (str "string")) (TNamed 178))); (217, (TMap (TNamed 178) (TNamed 178))); (218, (TArray 5 (TNamed 178))); (219, (TPointer (TArray 5 (TNamed 178)))); (220, (TChan 3 (TNamed 178))); (222, (TChan 3 (TNamed 142))); (224, (TInterface 16)); (225, (TStruct [])); (230, (TInterface 17)); (231, (TInterface 18)); (232, (TInterface 19)); (233, (TStruct [((str "_"), (TBasic (str "string"))); ((str "_"), (TNamed 231))])); (234, (TStruct [])); (235, (TStruct []))].
Definition t_interfaces_inner2_named_methods : list (N * (list gostring)) := [(56, [(str "InterfaceMethod1"); (str "InterfaceMethod2"); (str "MethodWithoutError")]); (60, [(str "InterfaceMethod1"); (str "InterfaceMethod2"); (str "MethodWithoutError")]); (64, [(str "Code"); (str "Message"); (str "Details"); (str "Cause"); (str "Error")]); (105, [(str "InterfaceMethod1"); (str "InterfaceMethod2"); (str "MethodWithoutError")]); (109, [(str "InterfaceMethod1"); (str "InterfaceMethod2"); (str "MethodWithoutError")]); (113, [(str "Inner1Method1"); (str "Inner1Method2"); (str "Inner1MethodWithoutError")]); (117, [(str "Code"); (str "Message"); (str "Details"); (str "Cause"); (str "Error")]); (155, [(str "Inner1Method1"); (str "Inner1Method2"); (str "Inner1MethodWithoutError")]); (156, [(str "Inner1CodeNotDeclared")]); (157, [(str "Inner1NoCodes"); (str "Inner1YesCodes")]); (169, [(str "Code"); (str "Message"); (str "Details"); (str "Cause"); (str "Error")]); (178, [(str "SimpleInterfaceMethod")]); (225, [(str "local1"); (str "local2"); (str "local3")]); (233, [(str "I1")]); (234, [(str "I2")]); (235, [(str "I3")])].
Definition t_interfaces_inner2_methods : list (gotype * gostring * tobj) := [((TInterface 1), (str "Error"), 2); ((TInterface 10), (str "InvalidMethod1"), 259); ((TInterface 11), (str "OtherMethod"), 261); ((TInterface 12), (str "OtherMethod"), 261); ((TInterface 12), (str "SimpleInterfaceMethod"), 251); ((TInterface 13), (str "Cause"), 273); ((TInterface 13), (str "Code"), 270); ((TInterface 13), (str "Details"), 272); ((TInterface 13), (str "Error"), 274); ((TInterface 13), (str "Message"), 271); ((TInterface 14), (str "ExportedCodeNotDeclared"), 278); ((TInterface 14), (str "localCodeNotDeclared"), 279); ((TInterface 15), (str "RandomMethod"), 299); ((TInterface 16), (str "local1"), 320); ((TInterface 16), (str "local2"), 321); ((TInterface 16), (str "local3"), 322); ((TInterface 17), (str "I1"), 323); ((TInterface 18), (str "I2"), 324); ((TInterface 19), (str "I3"), 325); ((TInterface 5), (str "Inner1Method1"), 83); ((TInterface 5), (str "Inner1Method2"), 84); ((TInterface 5), (str "Inner1MethodWithoutError"), 87); ((TInterface 6), (str "SimpleInterfaceMethod"), 90); ((TInterface 7), (str "Inner1CodeNotDeclared"), 92); ((TInterface 8), (str "Inner1NoCodes"), 93); ((TInterface 8), (str "Inner1YesCodes"), 94); ((TInterface 9), (str "InterfaceMethod1"), 252); ((TInterface 9), (str "InterfaceMethod2"), 253); ((TInterface 9), (str "MethodWithoutError"), 256); ((TNamed 1), (str "Error"), 2); ((TNamed 105), (str "InterfaceMethod1"), 106); ((TNamed 105), (str "InterfaceMethod2"), 107); ((TNamed 105), (str "MethodWithoutError"), 108); ((TNamed 113), (str "Inner1Method1"), 114); ((TNamed 113), (str "Inner1Method2"), 115); ((TNamed 113), (str "Inner1MethodWithoutError"), 116); ((TNamed 142), (str "SimpleInterfaceMethod"), 251); ((TNamed 143), (str "InterfaceMethod1"), 252); ((TNamed 143), (str "InterfaceMethod2"), 253); ((TNamed 143), (str "MethodWithoutError"), 256); ((TNamed 144), (str "InvalidMethod1"), 259); ((TNamed 145), (str "SimpleInterfaceMethod"), 251); ((TNamed 146), (str "OtherMethod"), 261); ((TNamed 146), (str "SimpleInterfaceMethod"), 251); ((TNamed 147), (str "SimpleInterfaceMethod"), 251); ((TNamed 148), (str "SimpleInterfaceMethod"), 251); ((TNamed 149), (str "SimpleInterfaceMethod"), 90); ((TNamed 150), (str "SimpleInterfaceMethod"), 260); ((TNamed 151), (str "OtherMethod"), 261); ((TNamed 152), (str "SimpleInterfaceMethod"), 262); ((TNamed 155), (str "Inner1Method1"), 158); ((TNamed 155), (str "Inner1Method2"), 159); ((TNamed 155), (str "Inner1MethodWithoutError"), 160); ((TNamed 156), (str "Inner1CodeNotDeclared"), 161); ((TNamed 157), (str "Inner1NoCodes"), 162); ((TNamed 157), (str "Inner1YesCodes"), 163); ((TNamed 165), (str "Cause"), 273); ((TNamed 165), (str "Code"), 270); ((TNamed 165), (str "Details"), 272); ((TNamed 165), (str "Error"), 274); ((TNamed 165), (str "Message"), 271); ((TNamed 175), (str "OtherMethod"), 261); ((TNamed 175), (str "SimpleInterfaceMethod"), 251); ((TNamed 176), (str "SimpleInterfaceMethod"), 251); ((TNamed 177), (str "SimpleInterfaceMethod"), 277); ((TNamed 178), (str "SimpleInterfaceMethod"), 180); ((TNamed 179), (str "ExportedCodeNotDeclared"), 278); ((TNamed 179), (str "localCodeNotDeclared"), 279); ((TNamed 197), (str "SimpleInterfaceMethod"), 298); ((TNamed 198), (str "RandomMethod"), 299); ((TNamed 224), (str "local1"), 320); ((TNamed 224), (str "local2"), 321); ((TNamed 224), (str "local3"), 322); ((TNamed 225), (str "local1"), 226); ((TNamed 225), (str "local2"), 227); ((TNamed 225), (str "local3"), 228); ((TNamed 230), (str "I1"), 323); ((TNamed 231), (str "I2"), 324); ((TNamed 232), (str "I3"), 325); ((TNamed 233), (str "I1"), 236); ((TNamed 234), (str "I2"), 237); ((TNamed 235), (str "I3"), 238); ((TNamed 47), (str "Inner1Method1"), 83); ((TNamed 47), (str "Inner1Method2"), 84); ((TNamed 47), (str "Inner1MethodWithoutError"), 87); ((TNamed 48), (str "SimpleInterfaceMethod"), 90); ((TNamed 49), (str "SimpleInterfaceMethod"), 91); ((TNamed 50), (str "Inner1CodeNotDeclared"), 92); ((TNamed 51), (str "Inner1NoCodes"), 93); ((TNamed 51), (str "Inner1YesCodes"), 94); ((TNamed 56), (str "InterfaceMethod1"), 57); ((TNamed 56), (str "InterfaceMethod2"), 58); ((TNamed 56), (str "MethodWithoutError"), 59); ((TPointer (TNamed 105)), (str "InterfaceMethod1"), 106); ((TPointer (TNamed 105)), (str "InterfaceMethod2"), 107); ((TPointer (TNamed 105)), (str "MethodWithoutError"), 108); ((TPointer (TNamed 109)), (str "InterfaceMethod1"), 110); ((TPointer (TNamed 109)), (str "InterfaceMethod2"), 111); ((TPointer (TNamed 109)), (str "MethodWithoutError"), 112); ((TPointer (TNamed 113)), (str "Inner1Method1"), 114); ((TPointer (TNamed 113)), (str "Inner1Method2"), 115); ((TPointer (TNamed 113)), (str "Inner1MethodWithoutError"), 116); ((TPointer (TNamed 117)), (str "Cause"), 121); ((TPointer (TNamed 117)), (str "Code"), 118); ((TPointer (TNamed 117)), (str "Details"), 120); ((TPointer (TNamed 117)), (str "Error"), 122); ((TPointer (TNamed 117)), (str "Message"), 119); ((TPointer (TNamed 155)), (str "Inner1Method1"), 158); ((TPointer (TNamed 155)), (str "Inner1Method2"), 159); ((TPointer (TNamed 155)), (str "Inner1MethodWithoutError"), 160); ((TPointer (TNamed 156)), (str "Inner1CodeNotDeclared"), 161); ((TPointer (TNamed 157)), (str "Inner1NoCodes"), 162); ((TPointer (TNamed 157)), (str "Inner1YesCodes"), 163); ((TPointer (TNamed 169)), (str "Cause"), 173); ((TPointer (TNamed 169)), (str "Code"), 170); ((TPointer (TNamed 169)), (str "Details"), 172); ((TPointer (TNamed 169)), (str "Error"), 174); ((TPointer (TNamed 169)), (str "Message"), 171); ((TPointer (TNamed 178)), (str "SimpleInterfaceMethod"), 180); ((TPointer (TNamed 225)), (str "local1"), 226); ((TPointer (TNamed 225)), (str "local2"), 227); ((TPointer (TNamed 225)), (str "local3"), 228); ((TPointer (TNamed 233)), (str "I1"), 236); ((TPointer (TNamed 234)), (str "I2"), 237); ((TPointer (TNamed 235)), (str "I3"), 238); ((TPointer (TNamed 56)), (str "InterfaceMethod1"), 57); ((TPointer (TNamed 56)), (str "InterfaceMethod2"), 58); ((TPointer (TNamed 56)), (str "MethodWithoutError"), 59); ((TPointer (TNamed 60)), (str "InterfaceMethod1"), 61); ((TPointer (TNamed 60)), (str "InterfaceMethod2"), 62); ((TPointer (TNamed 60)), (str "MethodWithoutError"), 63); ((TPointer (TNamed 64)), (str "Cause"), 68); ((TPointer (TNamed 64)), (str "Code"), 65); ((TPointer (TNamed 64)), (str "Details"), 67); ((TPointer (TNamed 64)), (str "Error"), 69); ((TPointer (TNamed 64)), (str "Message"), 66)].
Definition t_interfaces_inner2_ierr : list gotype := [(TInterface 1); (TInterface 13); (TNamed 1); (TNamed 165); (TPointer (TNamed 117)); (TPointer (TNamed 169)); (TPointer (TNamed 64))].
Definition t_interfaces_inner2_iree : list gotype := [(TInterface 13); (TNamed 165); (TPointer (TNamed 117)); (TPointer (TNamed 169)); (TPointer (TNamed 64))].
Definition t_interfaces_inner2_icause : list gotype := [(TInterface 13); (TNamed 165); (TPointer (TNamed 117)); (TPointer (TNamed 169)); (TPointer (TNamed 64))].
Definition t_interfaces_inner2_impl : list (gotype * gotype) := [((TInterface 1), (TInterface 1)); ((TInterface 10), (TInterface 10)); ((TInterface 11), (TInterface 11)); ((TInterface 12), (TInterface 11)); ((TInterface 12), (TInterface 12)); ((TInterface 12), (TInterface 6)); ((TInterface 13), (TInterface 1)); ((TInterface 13), (TInterface 13)); ((TInterface 14), (TInterface 14)); ((TInterface 15), (TInterface 15)); ((TInterface 16), (TInterface 16)); ((TInterface 17), (TInterface 17)); ((TInterface 18), (TInterface 18)); ((TInterface 19), (TInterface 19)); ((TInterface 5), (TInterface 5)); ((TInterface 6), (TInterface 6)); ((TInterface 7), (TInterface 7)); ((TInterface 8), (TInterface 8)); ((TInterface 9), (TInterface 9)); ((TNamed 1), (TInterface 1)); ((TNamed 105), (TInterface 9)); ((TNamed 113), (TInterface 5)); ((TNamed 142), (TInterface 6)); ((TNamed 143), (TInterface 9)); ((TNamed 144), (TInterface 10)); ((TNamed 145), (TInterface 6)); ((TNamed 146), (TInterface 11)); ((TNamed 146), (TInterface 12)); ((TNamed 146), (TInterface 6)); ((TNamed 147), (TInterface 6)); ((TNamed 148), (TInterface 6)); ((TNamed 149), (TInterface 6)); ((TNamed 150), (TInterface 6)); ((TNamed 151), (TInterface 11)); ((TNamed 152), (TInterface 6)); ((TNamed 155), (TInterface 5)); ((TNamed 156), (TInterface 7)); ((TNamed 157), (TInterface 8)); ((TNamed 165), (TInterface 1)); ((TNamed 165), (TInterface 13)); ((TNamed 175), (TInterface 11)); ((TNamed 175), (TInterface 12)); ((TNamed 175), (TInterface 6)); ((TNamed 176), (TInterface 6)); ((TNamed 177), (TInterface 6)); ((TNamed 178), (TInterface 6)); ((TNamed 179), (TInterface 14)); ((TNamed 197), (TInterface 6)); ((TNamed 198), (TInterface 15)); ((TNamed 224), (TInterface 16)); ((TNamed 225), (TInterface 16)); ((TNamed 230), (TInterface 17)); ((TNamed 231), (TInterface 18)); ((TNamed 232), (TInterface 19)); ((TNamed 233), (TInterface 17)); ((TNamed 234), (TInterface 18)); ((TNamed 235), (TInterface 19)); ((TNamed 47), (TInterface 5)); ((TNamed 48), (TInterface 6)); ((TNamed 49), (TInterface 6)); ((TNamed 50), (TInterface 7)); ((TNamed 51), (TInterface 8)); ((TNamed 56), (TInterface 9)); ((TPointer (TNamed 105)), (TInterface 9)); ((TPointer (TNamed 109)), (TInterface 9)); ((TPointer (TNamed 113)), (TInterface 5)); ((TPointer (TNamed 117)), (TInterface 1)); ((TPointer (TNamed 117)), (TInterface 13)); ((TPointer (TNamed 155)), (TInterface 5)); ((TPointer (TNamed 156)), (TInterface 7)); ((TPointer (TNamed 157)), (TInterface 8)); ((TPointer (TNamed 169)), (TInterface 1)); ((TPointer (TNamed 169)), (TInterface 13)); ((TPointer (TNamed 178)), (TInterface 6)); ((TPointer (TNamed 225)), (TInterface 16)); ((TPointer (TNamed 233)), (TInterface 17)); ((TPointer (TNamed 234)), (TInterface 18)); ((TPointer (TNamed 235)), (TInterface 19)); ((TPointer (TNamed 56)), (TInterface 9)); ((TPointer (TNamed 60)), (TInterface 9)); ((TPointer (TNamed 64)), (TInterface 1)); ((TPointer (TNamed 64)), (TInterface 13))].
Definition t_interfaces_inner2_nodes0 : list snode := [SNode 1 (Place 0 1) (Place 1668 71) true; SNode 2 (Place 8 1) (Place 14 1) false; SNode 3 (Place 16 3) (Place 42 3) true; SNode 4 (Place 23 3) (Place 42 3) true; SNode 5 (Place 23 3) (Place 42 3) false; SNode 6 (Place 44 5) (Place 73 5) true; SNode 7 (Place 49 5) (Place 73 5) true; SNode 8 (Place 49 5) (Place 64 5) false; SNode 9 (Place 65 5) (Place 73 5) false; SNode 10 (Place 71 5) (Place 73 5) false; SNode 11 (Place 118 10) (Place 205 12) true; SNode 12 (Place 123 10) (Place 140 10) false; SNode 13 (Place 124 10) (Place 139 10) true; SNode 14 (Place 124 10) (Place 139 10) false; SNode 15 (Place 141 10) (Place 157 10) false; SNode 16 (Place 118 10) (Place 165 10) false; SNode 17 (Place 157 10) (Place 159 10) false; SNode 18 (Place 160 10) (Place 165 10) false; SNode 19 (Place 160 10) (Place 165 10) true; SNode 20 (Place 160 10) (Place 165 10) false; SNode 21 (Place 166 10) (Place 205 12) true; SNode 22 (Place 169 11) (Place 203 11) true; SNode 23 (Place 176 11) (Place 203 11) false; SNode 24 (Place 177 11) (Place 203 11) false; SNode 25 (Place 177 11) (Place 182 11) false; SNode 26 (Place 183 11) (Place 202 11) false; SNode 27 (Place 250 17) (Place 348 19) true; SNode 28 (Place 255 17) (Place 272 17) false; SNode 29 (Place 256 17) (Place 271 17) true; SNode 30 (Place 256 17) (Place 271 17) false; SNode 31 (Place 273 17) (Place 289 17) false; SNode 32 (Place 250 17) (Place 308 17) false; SNode 33 (Place 289 17) (Place 302 17) false; SNode 34 (Place 290 17) (Place 301 17) true; SNode 35 (Place 290 17) (Place 291 17) false; SNode 36 (Place 293 17) (Place 294 17) false; SNode 37 (Place 295 17) (Place 301 17) false; SNode 38 (Place 303 17) (Place 308 17) false; SNode 39 (Place 303 17) (Place 308 17) true; SNode 40 (Place 303 17) (Place 308 17) false; SNode 41 (Place 309 17) (Place 348 19) true; SNode 42 (Place 312 18) (Place 346 18) true; SNode 43 (Place 319 18) (Place 346 18) false; SNode 44 (Place 320 18) (Place 346 18) false; SNode 45 (Place 320 18) (Place 325 18) false; SNode 46 (Place 326 18) (Place 345 18) false; SNode 47 (Place 350 21) (Place 425 23) true; SNode 48 (Place 355 21) (Place 372 21) false; SNode 49 (Place 356 21) (Place 371 21) true; SNode 50 (Place 356 21) (Place 371 21) false; SNode 51 (Place 373 21) (Place 391 21) false; SNode 52 (Place 350 21) (Place 411 21) false; SNode 53 (Place 391 21) (Place 404 21) false; SNode 54 (Place 392 21) (Place 403 21) true; SNode 55 (Place 392 21) (Place 393 21) false; SNode 56 (Place 395 21) (Place 396 21) false; SNode 57 (Place 397 21) (Place 403 21) false; SNode 58 (Place 405 21) (Place 411 21) false; SNode 59 (Place 405 21) (Place 411 21) true; SNode 60 (Place 405 21) (Place 411 21) false; SNode 61 (Place 412 21) (Place 425 23) true; SNode 62 (Place 415 22) (Place 423 22) true; SNode 63 (Place 422 22) (Place 423 22) false; SNode 64 (Place 427 25) (Place 463 25) true; SNode 65 (Place 432 25) (Place 463 25) true; SNode 66 (Place 432 25) (Place 454 25) false; SNode 67 (Place 455 25) (Place 463 25) false; SNode 68 (Place 461 25) (Place 463 25) false; SNode 69 (Place 508 30) (Place 603 32) true; SNode 70 (Place 513 30) (Place 538 30) false; SNode 71 (Place 514 30) (Place 537 30) true; SNode 72 (Place 514 30) (Place 537 30) false; SNode 73 (Place 515 30) (Place 537 30) false; SNode 74 (Place 539 30) (Place 555 30) false; SNode 75 (Place 508 30) (Place 563 30) false; SNode 76 (Place 555 30) (Place 557 30) false; SNode 77 (Place 558 30) (Place 563 30) false; SNode 78 (Place 558 30) (Place 563 30) true; SNode 79 (Place 558 30) (Place 563 30) false; SNode 80 (Place 564 30) (Place 603 32) true; SNode 81 (Place 567 31) (Place 601 31) true; SNode 82 (Place 574 31) (Place 601 31) false; SNode 83 (Place 575 31) (Place 601 31) false; SNode 84 (Place 575 31) (Place 580 31) false; SNode 85 (Place 581 31) (Place 600 31) false; SNode 86 (Place 648 37) (Place 754 39) true; SNode 87 (Place 653 37) (Place 678 37) false; SNode 88 (Place 654 37) (Place 677 37) true; SNode 89 (Place 654 37) (Place 677 37) false; SNode 90 (Place 655 37) (Place 677 37) false; SNode 91 (Place 679 37) (Place 695 37) false; SNode 92 (Place 648 37) (Place 714 37) false; SNode 93 (Place 695 37) (Place 708 37) false; SNode 94 (Place 696 37) (Place 707 37) true; SNode 95 (Place 696 37) (Place 697 37) false; SNode 96 (Place 699 37) (Place 700 37) false; SNode 97 (Place 701 37) (Place 707 37) false; SNode 98 (Place 709 37) (Place 714 37) false; SNode 99 (Place 709 37) (Place 714 37) true; SNode 100 (Place 709 37) (Place 714 37) false; SNode 101 (Place 715 37) (Place 754 39) true; SNode 102 (Place 718 38) (Place 752 38) true; SNode 103 (Place 725 38) (Place 752 38) false; SNode 104 (Place 726 38) (Place 752 38) false; SNode 105 (Place 726 38) (Place 731 38) false; SNode 106 (Place 732 38) (Place 751 38) false; SNode 107 (Place 756 41) (Place 839 43) true; SNode 108 (Place 761 41) (Place 786 41) false; SNode 109 (Place 762 41) (Place 785 41) true; SNode 110 (Place 762 41) (Place 785 41) false; SNode 111 (Place 763 41) (Place 785 41) false; SNode 112 (Place 787 41) (Place 805 41) false; SNode 113 (Place 756 41) (Place 825 41) false; SNode 114 (Place 805 41) (Place 818 41) false; SNode 115 (Place 806 41) (Place 817 41) true; SNode 116 (Place 806 41) (Place 807 41) false; SNode 117 (Place 809 41) (Place 810 41) false; SNode 118 (Place 811 41) (Place 817 41) false; SNode 119 (Place 819 41) (Place 825 41) false; SNode 120 (Place 819 41) (Place 825 41) true; SNode 121 (Place 819 41) (Place 825 41) false; SNode 122 (Place 826 41) (Place 839 43) true; SNode 123 (Place 829 42) (Place 837 42) true; SNode 124 (Place 836 42) (Place 837 42) false; SNode 125 (Place 841 45) (Place 880 45) true; SNode 126 (Place 846 45) (Place 880 45) true; SNode 127 (Place 846 45) (Place 871 45) false; SNode 128 (Place 872 45) (Place 880 45) false; SNode 129 (Place 878 45) (Place 880 45) false; SNode 130 (Place 925 50) (Place 1073 52) true; SNode 131 (Place 930 50) (Place 957 50) false; SNode 132 (Place 931 50) (Place 956 50) true; SNode 133 (Place 931 50) (Place 956 50) false; SNode 134 (Place 958 50) (Place 971 50) false; SNode 135 (Place 925 50) (Place 979 50) false; SNode 136 (Place 971 50) (Place 973 50) false; SNode 137 (Place 974 50) (Place 979 50) false; SNode 138 (Place 974 50) (Place 979 50) true; SNode 139 (Place 974 50) (Place 979 50) false; SNode 140 (Place 980 50) (Place 1073 52) true; SNode 141 (Place 1037 51) (Place 1071 51) true; SNode 142 (Place 1044 51) (Place 1071 51) false; SNode 143 (Place 1045 51) (Place 1071 51) false; SNode 144 (Place 1045 51) (Place 1050 51) false; SNode 145 (Place 1051 51) (Place 1070 51) false; SNode 146 (Place 1091 55) (Place 1216 57) true; SNode 147 (Place 1096 55) (Place 1123 55) false; SNode 148 (Place 1097 55) (Place 1122 55) true; SNode 149 (Place 1097 55) (Place 1122 55) false; SNode 150 (Place 1124 55) (Place 1137 55) false; SNode 151 (Place 1091 55) (Place 1164 55) false; SNode 152 (Place 1137 55) (Place 1150 55) false; SNode 153 (Place 1138 55) (Place 1149 55) true; SNode 154 (Place 1138 55) (Place 1139 55) false; SNode 155 (Place 1141 55) (Place 1142 55) false; SNode 156 (Place 1143 55) (Place 1149 55) false; SNode 157 (Place 1151 55) (Place 1164 55) false; SNode 158 (Place 1151 55) (Place 1164 55) true; SNode 159 (Place 1151 55) (Place 1164 55) false; SNode 160 (Place 1152 55) (Place 1164 55) false; SNode 161 (Place 1152 55) (Place 1158 55) false; SNode 162 (Place 1159 55) (Place 1164 55) false; SNode 163 (Place 1165 55) (Place 1216 57) true; SNode 164 (Place 1204 56) (Place 1214 56) true; SNode 165 (Place 1211 56) (Place 1214 56) false; SNode 166 (Place 1218 59) (Place 1313 61) true; SNode 167 (Place 1223 59) (Place 1250 59) false; SNode 168 (Place 1224 59) (Place 1249 59) true; SNode 169 (Place 1224 59) (Place 1249 59) false; SNode 170 (Place 1251 59) (Place 1275 59) false; SNode 171 (Place 1218 59) (Place 1295 59) false; SNode 172 (Place 1275 59) (Place 1288 59) false; SNode 173 (Place 1276 59) (Place 1287 59) true; SNode 174 (Place 1276 59) (Place 1277 59) false; SNode 175 (Place 1279 59) (Place 1280 59) false; SNode 176 (Place 1281 59) (Place 1287 59) false; SNode 177 (Place 1289 59) (Place 1295 59) false; SNode 178 (Place 1289 59) (Place 1295 59) true; SNode 179 (Place 1289 59) (Place 1295 59) false; SNode 180 (Place 1296 59) (Place 1313 61) true; SNode 181 (Place 1299 60) (Place 1311 60) true; SNode 182 (Place 1306 60) (Place 1311 60) false; SNode 183 (Place 1306 60) (Place 1307 60) false; SNode 184 (Place 1310 60) (Place 1311 60) false; SNode 185 (Place 1315 63) (Place 1352 65) true; SNode 186 (Place 1320 63) (Place 1352 65) true; SNode 187 (Place 1320 63) (Place 1325 63) false; SNode 188 (Place 1326 63) (Place 1352 65) false; SNode 189 (Place 1333 63) (Place 1352 65) false; SNode 190 (Place 1336 64) (Place 1350 64) true; SNode 191 (Place 1336 64) (Place 1343 64) false; SNode 192 (Place 1344 64) (Place 1350 64) false; SNode 193 (Place 1354 67) (Place 1418 67) true; SNode 194 (Place 1359 67) (Place 1369 67) false; SNode 195 (Place 1360 67) (Place 1368 67) true; SNode 196 (Place 1360 67) (Place 1361 67) false; SNode 197 (Place 1362 67) (Place 1368 67) false; SNode 198 (Place 1363 67) (Place 1368 67) false; SNode 199 (Place 1370 67) (Place 1374 67) false; SNode 200 (Place 1354 67) (Place 1383 67) false; SNode 201 (Place 1374 67) (Place 1376 67) false; SNode 202 (Place 1377 67) (Place 1383 67) false; SNode 203 (Place 1377 67) (Place 1383 67) true; SNode 204 (Place 1377 67) (Place 1383 67) false; SNode 205 (Place 1398 67) (Place 1418 67) true; SNode 206 (Place 1400 67) (Place 1416 67) true; SNode 207 (Place 1407 67) (Place 1416 67) false; SNode 208 (Place 1407 67) (Place 1408 67) false; SNode 209 (Place 1409 67) (Place 1416 67) false; SNode 210 (Place 1419 68) (Place 1483 68) true; SNode 211 (Place 1424 68) (Place 1434 68) false; SNode 212 (Place 1425 68) (Place 1433 68) true; SNode 213 (Place 1425 68) (Place 1426 68) false; SNode 214 (Place 1427 68) (Place 1433 68) false; SNode 215 (Place 1428 68) (Place 1433 68) false; SNode 216 (Place 1435 68) (Place 1442 68) false; SNode 217 (Place 1419 68) (Place 1451 68) false; SNode 218 (Place 1442 68) (Place 1444 68) false; SNode 219 (Place 1445 68) (Place 1451 68) false; SNode 220 (Place 1445 68) (Place 1451 68) true; SNode 221 (Place 1445 68) (Place 1451 68) false; SNode 222 (Place 1463 68) (Place 1483 68) true; SNode 223 (Place 1465 68) (Place 1481 68) true; SNode 224 (Place 1472 68) (Place 1481 68) false; SNode 225 (Place 1472 68) (Place 1473 68) false; SNode 226 (Place 1474 68) (Place 1481 68) false; SNode 227 (Place 1484 69) (Place 1542 69) true; SNode 228 (Place 1489 69) (Place 1499 69) false; SNode 229 (Place 1490 69) (Place 1498 69) true; SNode 230 (Place 1490 69) (Place 1491 69) false; SNode 231 (Place 1492 69) (Place 1498 69) false; SNode 232 (Place 1493 69) (Place 1498 69) false; SNode 233 (Place 1500 69) (Place 1507 69) false; SNode 234 (Place 1484 69) (Place 1527 69) false; SNode 235 (Place 1507 69) (Place 1509 69) false; SNode 236 (Place 1510 69) (Place 1527 69) false; SNode 237 (Place 1510 69) (Place 1527 69) true; SNode 238 (Place 1510 69) (Place 1527 69) false; SNode 239 (Place 1514 69) (Place 1520 69) false; SNode 240 (Place 1521 69) (Place 1527 69) false; SNode 241 (Place 1528 69) (Place 1542 69) true; SNode 242 (Place 1530 69) (Place 1540 69) true; SNode 243 (Place 1537 69) (Place 1540 69) false; SNode 244 (Place 1543 70) (Place 1601 70) true; SNode 245 (Place 1548 70) (Place 1558 70) false; SNode 246 (Place 1549 70) (Place 1557 70) true; SNode 247 (Place 1549 70) (Place 1550 70) false; SNode 248 (Place 1551 70) (Place 1557 70) false; SNode 249 (Place 1552 70) (Place 1557 70) false; SNode 250 (Place 1559 70) (Place 1564 70) false; SNode 251 (Place 1543 70) (Place 1572 70) false; SNode 252 (Place 1564 70) (Place 1566 70) false; SNode 253 (Place 1567 70) (Place 1572 70) false; SNode 254 (Place 1567 70) (Place 1572 70) true; SNode 255 (Place 1567 70) (Place 1572 70) false; SNode 256 (Place 1587 70) (Place 1601 70) true; SNode 257 (Place 1589 70) (Place 1599 70) true; SNode 258 (Place 1596 70) (Place 1599 70) false; SNode 259 (Place 1602 71) (Place 1668 71) true; SNode 260 (Place 1607 71) (Place 1617 71) false; SNode 261 (Place 1608 71) (Place 1616 71) true; SNode 262 (Place 1608 71) (Place 1609 71) false; SNode 263 (Place 1610 71) (Place 1616 71) false; SNode 264 (Place 1611 71) (Place 1616 71) false; SNode 265 (Place 1618 71) (Place 1623 71) false; SNode 266 (Place 1602 71) (Place 1632 71) false; SNode 267 (Place 1623 71) (Place 1625 71) false; SNode 268 (Place 1626 71) (Place 1632 71) false; SNode 269 (Place 1626 71) (Place 1632 71) true; SNode 270 (Place 1626 71) (Place 1632 71) false; SNode 271 (Place 1646 71) (Place 1668 71) true; SNode 272 (Place 1648 71) (Place 1666 71) true; SNode 273 (Place 1655 71) (Place 1666 71) false; SNode 274 (Place 1655 71) (Place 1664 71) false; SNode 275 (Place 1655 71) (Place 1656 71) false; SNode 276 (Place 1657 71) (Place 1664 71) false].
Definition t_interfaces_inner2_cgroups0 : list cgroup := [CGroup (Place 75 7) (Place 117 9) [(str "// Errors:"); (str "//"); (str "//    - interface-1-error --")]; CGroup (Place 207 14) (Place 249 16) [(str "// Errors:"); (str "//"); (str "//    - interface-3-error --")]; CGroup (Place 465 27) (Place 507 29) [(str "// Errors:"); (str "//"); (str "//    - interface-2-error --")]; CGroup (Place 605 34) (Place 647 36) [(str "// Errors:"); (str "//"); (str "//    - interface-4-error --")]; CGroup (Place 882 47) (Place 924 49) [(str "// Errors:"); (str "//"); (str "//    - interface-2-error --")]; CGroup (Place 982 50) (Place 1035 50) [(str "// want Inner1Method1:""ErrorCodes: interface-2-error""")]; CGroup (Place 1075 54) (Place 1090 54) [(str "// Errors: none")]; CGroup (Place 1167 55) (Place 1202 55) [(str "// want Inner1Method2:""ErrorCodes:""")]].
Definition t_interfaces_inner2_files : list source_file := [SourceFile t_interfaces_inner2_nodes0 t_interfaces_inner2_cgroups0].
Definition t_interfaces_inner2_info : typeinfo := map_info (list_to_map t_interfaces_inner2_types) (list_to_map t_interfaces_inner2_values) (list_to_map t_interfaces_inner2_uses) (list_to_map t_interfaces_inner2_defs) (list_to_map t_interfaces_inner2_sels) (list_to_set [1; 4; 5; 6; 7; 8; 9; 10; 11; 12; 13; 14; 15; 16; 17; 18; 19; 20; 47; 48; 49; 50; 51; 56; 60; 64; 105; 109; 113; 117; 142; 143; 144; 145; 146; 147; 148; 149; 150; 151; 152; 155; 156; 157; 165; 169; 175; 176; 177; 178; 179; 195; 197; 198; 200; 201; 202; 204; 205; 207; 208; 210; 211; 214; 215; 216; 217; 218; 219; 220; 222; 224; 225; 230; 231; 232; 233; 234; 235]) (list_to_map t_interfaces_inner2_pkgnames) (list_to_map t_interfaces_inner2_objnames) (list_to_map t_interfaces_inner2_objtypes) (list_to_map t_interfaces_inner2_under) t_interfaces_inner2_methods t_interfaces_inner2_ierr t_interfaces_inner2_iree t_interfaces_inner2_icause t_interfaces_inner2_impl (list_to_map t_interfaces_inner2_named_methods).
Definition t_interfaces_inner2 : package := Package (list_to_map [(1, t_interfaces_inner2_f1); (2, t_interfaces_inner2_f2); (3, t_interfaces_inner2_f3); (4, t_interfaces_inner2_f4); (5, t_interfaces_inner2_f5); (6, t_interfaces_inner2_f6); (7, t_interfaces_inner2_f7); (8, t_interfaces_inner2_f8); (9, t_interfaces_inner2_f9); (10, t_interfaces_inner2_f10); (11, t_interfaces_inner2_f11); (12, t_interfaces_inner2_f12); (13, t_interfaces_inner2_f13); (14, t_interfaces_inner2_f14)]) [1; 2; 3; 4; 5; 6; 7; 8; 9; 10; 11; 12; 13; 14] t_interfaces_inner2_gendecls t_interfaces_inner2_top (list_to_map t_interfaces_inner2_objs) (fun id => default [] (createCommentMap t_interfaces_inner2_files id)) t_interfaces_inner2_info.
Definition t_interfaces_inner2_rank : gostring -> nat := fun n => default 0%nat ((list_to_map [] : gmap gostring nat) !! n).
Definition t_interfaces_f1 : func := Func 152 (Some (DeclInfo (Ident 153 (str "InterfaceParam") (Some 1)) None (Some (comment_text [(str "// Errors:"); (str "//"); (str "//    - interface-1-error --"); (str "//    - interface-2-error --"); (str "//    - interface-3-error --"); (str "//    - interface-4-error --")])))) (FuncType 154 [(Field 156 [(Ident 157 (str "some") (Some 2))] 158); (Field 159 [(Ident 160 (str "a") (Some 3)); (Ident 161 (str "b") (Some 4))] 162)] (Some [(Field 164 [] 165)]) 4183) (Some (Node 166 (KOther (str "*ast.BlockStmt")) [(Node 167 (KOther (str "*ast.IfStmt")) [(Node 168 (KIdent (str "false") None) []); (Node 169 (KOther (str "*ast.BlockStmt")) [(Node 170 KReturn [(Node 171 KCall [(Node 172 KSelector [(Node 173 (KIdent (str "some") (Some 2)) []); (Node 174 (KIdent (str "InterfaceMethod1") None) [])])])])])]); (Node 175 KReturn [(Node 176 KCall [(Node 177 KSelector [(Node 178 (KIdent (str "some") (Some 2)) []); (Node 179 (KIdent (str "InterfaceMethod2") None) [])]); (Node 180 (KIdent (str "a") (Some 3)) []); (Node 181 (KIdent (str "b") (Some 4)) [])])])])) 4189 4385.
Definition t_interfaces_f2 : func := Func 182 (Some (DeclInfo (Ident 183 (str "OuterFunction") (Some 5)) None (Some (comment_text [(str "// Errors:"); (str "//"); (str "//    - interface-1-error --"); (str "//    - interface-2-error --"); (str "//    - interface-3-error --"); (str "//    - interface-4-error --")])))) (FuncType 184 [(Field 186 [(Ident 187 (str "a") (Some 6)); (Ident 188 (str "b") (Some 7))] 189)] (Some [(Field 191 [] 192)]) 4549) (Some (Node 193 (KOther (str "*ast.BlockStmt")) [(Node 194 (KOther (str "*ast.IfStmt")) [(Node 195 (KIdent (str "false") None) []); (Node 196 (KOther (str "*ast.BlockStmt")) [(Node 197 KReturn [(Node 198 KCall [(Node 199 (KIdent (str "InterfaceParam") (Some 1)) []); (Node 200 KComposite []); (Node 204 (KIdent (str "a") (Some 6)) []); (Node 205 (KIdent (str "b") (Some 7)) [])])])])]); (Node 206 KReturn [(Node 207 KCall [(Node 208 (KIdent (str "InterfaceParam") (Some 1)) []); (Node 209 KComposite []); (Node 213 (KIdent (str "a") (Some 6)) []); (Node 214 (KIdent (str "b") (Some 7)) [])])])])) 4555 4792.
Definition t_interfaces_f3 : func := Func 228 (Some (DeclInfo (Ident 232 (str "Inner1Method1") None) (Some [(Field 230 [] 231)]) (Some (comment_text [(str "// Errors:"); (str "//"); (str "//    - interface-1-error --")])))) (FuncType 233 [] (Some [(Field 236 [] 237)]) 5004) (Some (Node 238 (KOther (str "*ast.BlockStmt")) [(Node 239 KReturn [(Node 240 (KUnary true) [(Node 241 KComposite [(Node 243 KBasicLit [])])])])])) 5010 5103.
Definition t_interfaces_f4 : func := Func 244 (Some (DeclInfo (Ident 248 (str "Inner1Method2") None) (Some [(Field 246 [] 247)]) (Some (comment_text [(str "// Errors:"); (str "//"); (str "//    - interface-3-error --")])))) (FuncType 249 [(Field 251 [(Ident 252 (str "a") (Some 8)); (Ident 253 (str "b") (Some 9))] 254)] (Some [(Field 256 [] 257)]) 5208) (Some (Node 261 (KOther (str "*ast.BlockStmt")) [(Node 262 KReturn [(Node 263 (KUnary true) [(Node 264 KComposite [(Node 268 KBasicLit [])])])])])) 5222 5322.
Definition t_interfaces_f5 : func := Func 269 (Some (DeclInfo (Ident 273 (str "Inner1MethodWithoutError") None) (Some [(Field 271 [] 272)]) None)) (FuncType 274 [(Field 276 [(Ident 277 (str "a") (Some 10)); (Ident 278 (str "b") (Some 11))] 279)] (Some [(Field 281 [] 282)]) 5395) (Some (Node 283 (KOther (str "*ast.BlockStmt")) [(Node 284 KReturn [(Node 285 (KIdent (str "a") (Some 10)) [])])])) 5402 5415.
Definition t_interfaces_f6 : func := Func 286 (Some (DeclInfo (Ident 290 (str "Inner1CodeNotDeclared") None) (Some [(Field 288 [] 289)]) (Some (comment_text [(str "// Errors:"); (str "//"); (str "//    - interface-1-error --")])))) (FuncType 291 [] (Some [(Field 294 [] 295)]) 5517) (Some (Node 296 (KOther (str "*ast.BlockStmt")) [(Node 297 KReturn [(Node 298 (KUnary true) [(Node 299 KComposite [(Node 301 KBasicLit [])])])])])) 5523 5624.
Definition t_interfaces_f7 : func := Func 302 (Some (DeclInfo (Ident 306 (str "Inner1NoCodes") None) (Some [(Field 304 [] 305)]) None)) (FuncType 307 [] (Some [(Field 310 [] 311)]) 5675) (Some (Node 312 (KOther (str "*ast.BlockStmt")) [(Node 313 KReturn [(Node 314 (KIdent (str "nil") None) [])])])) 5681 5781.
Definition t_interfaces_f8 : func := Func 315 (Some (DeclInfo (Ident 319 (str "Inner1YesCodes") None) (Some [(Field 317 [] 318)]) (Some (comment_text [(str "// Errors:"); (str "//"); (str "//    - interface-1-error -- could potentially be returned"); (str "//    - interface-2-error --")])))) (FuncType 320 [] (Some [(Field 323 [] 324)]) 5935) (Some (Node 325 (KOther (str "*ast.BlockStmt")) [(Node 326 (KOther (str "*ast.IfStmt")) [(Node 327 (KIdent (str "false") None) []); (Node 328 (KOther (str "*ast.BlockStmt")) [(Node 329 KReturn [(Node 330 (KUnary true) [(Node 331 KComposite [(Node 333 KBasicLit [])])])])])]); (Node 334 KReturn [(Node 335 (KUnary true) [(Node 336 KComposite [(Node 338 KBasicLit [])])])])])) 5941 6105.
Definition t_interfaces_f9 : func := Func 339 (Some (DeclInfo (Ident 340 (str "UsingExternalImplAsExternalInterface") (Some 12)) None (Some (comment_text [(str "// Errors:"); (str "//"); (str "//    - interface-1-error --"); (str "//    - interface-2-error --"); (str "//    - interface-3-error --"); (str "//    - interface-4-error --")])))) (FuncType 341 [(Field 343 [(Ident 344 (str "a") (Some 13)); (Ident 345 (str "b") (Some 14))] 346)] (Some [(Field 348 [] 349)]) 6292) (Some (Node 350 (KOther (str "*ast.BlockStmt")) [(Node 351 KReturn [(Node 352 KCall [(Node 353 KSelector [(Node 354 (KIdent (str "inner1") None) []); (Node 355 (KIdent (str "FunctionForInterface1") None) [])]); (Node 356 (KIdent (str "a") (Some 13)) []); (Node 357 (KIdent (str "b") (Some 14)) []); (Node 358 KComposite [])])])])) 6298 6511.
Definition t_interfaces_f10 : func := Func 404 (Some (DeclInfo (Ident 405 (str "ReturnReeError") (Some 15)) None (Some (comment_text [(str "// Errors:"); (str "//"); (str "//    - ree-error --")])))) (FuncType 406 [] (Some [(Field 409 [] 410)]) 6692) (Some (Node 411 (KOther (str "*ast.BlockStmt")) [(Node 412 KReturn [(Node 413 (KUnary true) [(Node 414 KComposite [(Node 416 KBasicLit [])])])])])) 6701 6779.
Definition t_interfaces_f11 : func := Func 417 (Some (DeclInfo (Ident 418 (str "CallEmbeddedInterface") (Some 16)) None (Some (comment_text [(str "// Errors:"); (str "//"); (str "//    - interface-1-error --"); (str "//    - interface-2-error --")])))) (FuncType 419 [(Field 421 [(Ident 422 (str "param") (Some 17))] 423)] (Some [(Field 425 [] 426)]) 6911) (Some (Node 427 (KOther (str "*ast.BlockStmt")) [(Node 428 KReturn [(Node 429 KCall [(Node 430 KSelector [(Node 431 (KIdent (str "param") (Some 17)) []); (Node 432 (KIdent (str "SimpleInterfaceMethod") None) [])])])])])) 6917 7038.
Definition t_interfaces_f12 : func := Func 433 (Some (DeclInfo (Ident 434 (str "ConvertEmbeddedInterface") (Some 18)) None None)) (FuncType 435 [(Field 437 [(Ident 438 (str "param") (Some 19))] 439)] (Some [(Field 441 [] 442)]) 7101) (Some (Node 443 (KOther (str "*ast.BlockStmt")) [(Node 444 KReturn [(Node 445 (KIdent (str "param") (Some 19)) [])])])) 7117 7134.
Definition t_interfaces_f13 : func := Func 454 (Some (DeclInfo (Ident 460 (str "Code") None) (Some [(Field 456 [(Ident 457 (str "e") (Some 20))] 458)]) None)) (FuncType 461 [] (Some [(Field 464 [] 465)]) 7268) (Some (Node 466 (KOther (str "*ast.BlockStmt")) [(Node 467 KReturn [(Node 468 KSelector [(Node 469 (KIdent (str "e") (Some 20)) []); (Node 470 (KIdent (str "TheCode") None) [])])])])) 7289 7309.
Definition t_interfaces_f14 : func := Func 471 (Some (DeclInfo (Ident 477 (str "Message") None) (Some [(Field 473 [(Ident 474 (str "e") (Some 21))] 475)]) None)) (FuncType 478 [] (Some [(Field 481 [] 482)]) 7336) (Some (Node 483 (KOther (str "*ast.BlockStmt")) [(Node 484 KReturn [(Node 485 KSelector [(Node 486 (KIdent (str "e") (Some 21)) []); (Node 487 (KIdent (str "TheCode") None) [])])])])) 7354 7374.
Definition t_interfaces_f15 : func := Func 488 (Some (DeclInfo (Ident 494 (str "Details") None) (Some [(Field 490 [(Ident 491 (str "e") (Some 22))] 492)]) None)) (FuncType 495 [] (Some [(Field 498 [] 499)]) 7401) (Some (Node 502 (KOther (str "*ast.BlockStmt")) [(Node 503 KReturn [(Node 504 (KIdent (str "nil") None) [])])])) 7419 7433.
Definition t_interfaces_f16 : func := Func 505 (Some (DeclInfo (Ident 511 (str "Cause") None) (Some [(Field 507 [(Ident 508 (str "e") (Some 23))] 509)]) None)) (FuncType 512 [] (Some [(Field 515 [] 516)]) 7458) (Some (Node 517 (KOther (str "*ast.BlockStmt")) [(Node 518 KReturn [(Node 519 (KIdent (str "nil") None) [])])])) 7478 7492.
Definition t_interfaces_f17 : func := Func 520 (Some (DeclInfo (Ident 526 (str "Error") None) (Some [(Field 522 [(Ident 523 (str "e") (Some 24))] 524)]) None)) (FuncType 527 [] (Some [(Field 530 [] 531)]) 7517) (Some (Node 532 (KOther (str "*ast.BlockStmt")) [(Node 533 KReturn [(Node 534 KCall [(Node 535 KSelector [(Node 536 (KIdent (str "e") (Some 24)) []); (Node 537 (KIdent (str "Message") None) [])])])])])) 7537 7559.
Definition t_interfaces_f18 : func := Func 596 (Some (DeclInfo (Ident 600 (str "SimpleInterfaceMethod") None) (Some [(Field 598 [] 599)]) (Some (comment_text [(str "// InterfaceMethod is a method used to implement SimpleInterface,"); (str "// but the declared (and actual) error codes are not a subset of the ones declared in the interface."); (str "//"); (str "// Errors:"); (str "//"); (str "//    - unknown-error -- is always returned making InvalidSimpleImpl an invalid implementation of the interface")])))) (FuncType 601 [] (Some [(Field 604 [] 605)]) 9459) (Some (Node 606 (KOther (str "*ast.BlockStmt")) [(Node 607 KReturn [(Node 608 (KUnary true) [(Node 609 KComposite [(Node 611 KBasicLit [])])])])])) 9465 9558.
Definition t_interfaces_f19 : func := Func 612 (Some (DeclInfo (Ident 613 (str "InvalidReturn") (Some 25)) None None)) (FuncType 614 [] (Some [(Field 617 [] 618)]) 9581) (Some (Node 619 (KOther (str "*ast.BlockStmt")) [(Node 620 KReturn [(Node 621 KComposite [])])])) 9597 9809.
Definition t_interfaces_f20 : func := Func 623 (Some (DeclInfo (Ident 624 (str "InvalidReturn2") (Some 26)) None None)) (FuncType 625 [] (Some [(Field 628 [] 629); (Field 630 [] 631); (Field 632 [] 633)]) 9833) (Some (Node 634 (KOther (str "*ast.BlockStmt")) [(Node 635 KReturn [(Node 636 KBasicLit []); (Node 637 KBasicLit []); (Node 638 KComposite [])])])) 9861 10080.
Definition t_interfaces_f21 : func := Func 640 (Some (DeclInfo (Ident 641 (str "InvalidReturn3") (Some 27)) None None)) (FuncType 642 [] (Some [(Field 645 [(Ident 646 (str "_") (Some 28)); (Ident 647 (str "_") (Some 29))] 648); (Field 649 [(Ident 650 (str "_") (Some 30)); (Ident 651 (str "_") (Some 31))] 652)]) 10104) (Some (Node 653 (KOther (str "*ast.BlockStmt")) [(Node 654 KReturn [(Node 655 KBasicLit []); (Node 656 KBasicLit []); (Node 657 (KIdent (str "nil") None) []); (Node 658 KComposite [])])])) 10137 10361.
Definition t_interfaces_f22 : func := Func 660 (Some (DeclInfo (Ident 661 (str "InvalidAssignment") (Some 32)) None None)) (FuncType 662 [] (Some [(Field 665 [] 666)]) 10388) (Some (Node 668 (KOther (str "*ast.BlockStmt")) [(Node 669 (KOther (str "*ast.DeclStmt")) [(Node 670 (KOther (str "*ast.GenDecl")) [(Node 671 (KValueSpec [(Ident 672 (str "x") (Some 33))] (Some 673)) [])])]); (Node 674 (KAssign 1%nat) [(Node 675 (KIdent (str "x") (Some 33)) []); (Node 676 KComposite [])]); (Node 678 KReturn [(Node 679 (KUnary true) [(Node 680 (KIdent (str "x") (Some 33)) [])])])])) 10405 10648.
Definition t_interfaces_f23 : func := Func 681 (Some (DeclInfo (Ident 682 (str "InvalidAssignment2") (Some 34)) None None)) (FuncType 683 [] None 0) (Some (Node 685 (KOther (str "*ast.BlockStmt")) [(Node 686 (KOther (str "*ast.DeclStmt")) [(Node 687 (KOther (str "*ast.GenDecl")) [(Node 688 (KValueSpec [(Ident 689 (str "x") (Some 35)); (Ident 690 (str "y") (Some 36))] (Some 691)) [])])]); (Node 692 (KOther (str "*ast.DeclStmt")) [(Node 693 (KOther (str "*ast.GenDecl")) [(Node 694 (KValueSpec [(Ident 695 (str "z") (Some 37))] (Some 696)) [])])]); (Node 697 (KAssign 3%nat) [(Node 698 (KIdent (str "x") (Some 35)) []); (Node 699 (KIdent (str "y") (Some 36)) []); (Node 700 (KIdent (str "z") (Some 37)) []); (Node 701 KBasicLit []); (Node 702 KBasicLit []); (Node 703 KComposite [])]); (Node 705 (KAssign 3%nat) [(Node 706 (KIdent (str "_") None) []); (Node 707 (KIdent (str "_") None) []); (Node 708 (KIdent (str "_") None) []); (Node 709 (KIdent (str "x") (Some 35)) []); (Node 710 (KIdent (str "y") (Some 36)) []); (Node 711 (KIdent (str "z") (Some 37)) [])])])) 10676 10953.
Definition t_interfaces_f24 : func := Func 712 (Some (DeclInfo (Ident 713 (str "InvalidAssignment3") (Some 38)) None None)) (FuncType 714 [] (Some [(Field 717 [(Ident 718 (str "x") (Some 39))] 719); (Field 720 [(Ident 721 (str "y") (Some 40)); (Ident 722 (str "z") (Some 41))] 723)]) 10981) (Some (Node 724 (KOther (str "*ast.BlockStmt")) [(Node 725 (KAssign 1%nat) [(Node 726 (KIdent (str "x") (Some 39)) []); (Node 727 KBasicLit [])]); (Node 728 (KAssign 1%nat) [(Node 729 (KIdent (str "y") (Some 40)) []); (Node 730 (KIdent (str "nil") None) [])]); (Node 731 (KAssign 1%nat) [(Node 732 (KIdent (str "z") (Some 41)) []); (Node 733 KComposite [])]); (Node 735 KReturn [])])) 11011 11244.
Definition t_interfaces_f25 : func := Func 736 (Some (DeclInfo (Ident 737 (str "ReturnTwoInvalidSimpleImpl") (Some 42)) None None)) (FuncType 738 [] (Some [(Field 741 [] 742); (Field 743 [] 744)]) 11280) (Some (Node 745 (KOther (str "*ast.BlockStmt")) [(Node 746 KReturn [(Node 747 KComposite []); (Node 749 KComposite [])])])) 11319 11371.
Definition t_interfaces_f26 : func := Func 751 (Some (DeclInfo (Ident 752 (str "InvalidAssignment4") (Some 43)) None None)) (FuncType 753 [] None 0) (Some (Node 755 (KOther (str "*ast.BlockStmt")) [(Node 756 (KOther (str "*ast.DeclStmt")) [(Node 757 (KOther (str "*ast.GenDecl")) [(Node 758 (KValueSpec [(Ident 759 (str "y") (Some 44))] (Some 760)) [])])]); (Node 761 (KAssign 2%nat) [(Node 762 (KIdent (str "x") (Some 45)) []); (Node 763 (KIdent (str "y") (Some 44)) []); (Node 764 KCall [(Node 765 (KIdent (str "ReturnTwoInvalidSimpleImpl") (Some 42)) [])])]); (Node 766 (KAssign 2%nat) [(Node 767 (KIdent (str "_") None) []); (Node 768 (KIdent (str "_") None) []); (Node 769 (KIdent (str "x") (Some 45)) []); (Node 770 (KIdent (str "y") (Some 44)) [])]); (Node 771 (KOther (str "*ast.DeclStmt")) [(Node 772 (KOther (str "*ast.GenDecl")) [(Node 773 (KValueSpec [(Ident 774 (str "u") (Some 46)); (Ident 775 (str "v") (Some 47))] (Some 776)) [])])]); (Node 777 (KAssign 2%nat) [(Node 778 (KIdent (str "u") (Some 46)) []); (Node 779 (KIdent (str "v") (Some 47)) []); (Node 780 KCall [(Node 781 (KIdent (str "ReturnTwoInvalidSimpleImpl") (Some 42)) [])])]); (Node 782 (KAssign 2%nat) [(Node 783 (KIdent (str "_") None) []); (Node 784 (KIdent (str "_") None) []); (Node 785 (KIdent (str "u") (Some 46)) []); (Node 786 (KIdent (str "v") (Some 47)) [])])])) 11399 12099.
Definition t_interfaces_f27 : func := Func 787 (Some (DeclInfo (Ident 788 (str "InvalidAssignment5") (Some 48)) None None)) (FuncType 789 [] None 0) (Some (Node 791 (KOther (str "*ast.BlockStmt")) [(Node 792 (KOther (str "*ast.DeclStmt")) [(Node 793 (KOther (str "*ast.GenDecl")) [(Node 794 (KValueSpec [(Ident 795 (str "x1") (Some 49))] (Some 796)) [(Node 797 KComposite [])])])]); (Node 799 (KOther (str "*ast.DeclStmt")) [(Node 800 (KOther (str "*ast.GenDecl")) [(Node 801 (KValueSpec [(Ident 802 (str "x2") (Some 50)); (Ident 803 (str "x3") (Some 51)); (Ident 804 (str "_") (Some 52))] (Some 805)) [(Node 806 (KIdent (str "nil") None) []); (Node 807 KComposite []); (Node 809 (KIdent (str "nil") None) [])])])]); (Node 810 (KOther (str "*ast.DeclStmt")) [(Node 811 (KOther (str "*ast.GenDecl")) [(Node 812 (KValueSpec [(Ident 813 (str "x4") (Some 53)); (Ident 814 (str "_") (Some 54))] (Some 815)) [(Node 816 KCall [(Node 817 (KIdent (str "ReturnTwoInvalidSimpleImpl") (Some 42)) [])])])])]); (Node 818 (KAssign 4%nat) [(Node 819 (KIdent (str "_") None) []); (Node 820 (KIdent (str "_") None) []); (Node 821 (KIdent (str "_") None) []); (Node 822 (KIdent (str "_") None) []); (Node 823 (KIdent (str "x1") (Some 49)) []); (Node 824 (KIdent (str "x2") (Some 50)) []); (Node 825 (KIdent (str "x3") (Some 51)) []); (Node 826 (KIdent (str "x4") (Some 53)) [])])])) 12127 13075.
Definition t_interfaces_f28 : func := Func 827 (Some (DeclInfo (Ident 828 (str "InvalidAssignment6") (Some 55)) None None)) (FuncType 829 [(Field 831 [(Ident 832 (str "m") (Some 56))] 833)] None 0) (Some (Node 836 (KOther (str "*ast.BlockStmt")) [(Node 837 (KOther (str "*ast.DeclStmt")) [(Node 838 (KOther (str "*ast.GenDecl")) [(Node 839 (KValueSpec [(Ident 840 (str "si") (Some 57))] (Some 841)) [])])]); (Node 842 (KOther (str "*ast.DeclStmt")) [(Node 843 (KOther (str "*ast.GenDecl")) [(Node 844 (KValueSpec [(Ident 845 (str "ok") (Some 58))] (Some 846)) [])])]); (Node 847 (KOther (str "*ast.IfStmt")) [(Node 848 (KAssign 1%nat) [(Node 849 (KIdent (str "si") (Some 57)) []); (Node 850 KIndex [(Node 851 (KIdent (str "m") (Some 56)) []); (Node 852 KBasicLit [])])]); (Node 853 (KIdent (str "true") None) []); (Node 854 (KOther (str "*ast.BlockStmt")) [(Node 855 (KAssign 1%nat) [(Node 856 (KIdent (str "_") None) []); (Node 857 (KIdent (str "si") (Some 57)) [])])])]); (Node 858 (KOther (str "*ast.IfStmt")) [(Node 859 (KAssign 2%nat) [(Node 860 (KIdent (str "si") (Some 57)) []); (Node 861 (KIdent (str "ok") (Some 58)) []); (Node 862 KIndex [(Node 863 (KIdent (str "m") (Some 56)) []); (Node 864 KBasicLit [])])]); (Node 865 (KIdent (str "ok") (Some 58)) []); (Node 866 (KOther (str "*ast.BlockStmt")) [(Node 867 (KAssign 1%nat) [(Node 868 (KIdent (str "_") None) []); (Node 869 (KIdent (str "si") (Some 57)) [])])])]); (Node 870 (KOther (str "*ast.ForStmt")) [(Node 871 (KAssign 2%nat) [(Node 872 (KIdent (str "si") (Some 57)) []); (Node 873 (KIdent (str "ok") (Some 58)) []); (Node 874 KIndex [(Node 875 (KIdent (str "m") (Some 56)) []); (Node 876 KBasicLit [])])]); (Node 877 (KIdent (str "ok") (Some 58)) []); (Node 878 (KOther (str "*ast.BlockStmt")) [(Node 879 (KAssign 1%nat) [(Node 880 (KIdent (str "_") None) []); (Node 881 (KIdent (str "si") (Some 57)) [])])])]); (Node 882 (KOther (str "*ast.SwitchStmt")) [(Node 883 (KAssign 2%nat) [(Node 884 (KIdent (str "si") (Some 57)) []); (Node 885 (KIdent (str "ok") (Some 58)) []); (Node 886 KIndex [(Node 887 (KIdent (str "m") (Some 56)) []); (Node 888 KBasicLit [])])]); (Node 889 (KOther (str "*ast.BlockStmt")) [(Node 890 (KCaseClause 1%nat) [(Node 891 (KIdent (str "ok") (Some 58)) []); (Node 892 (KAssign 1%nat) [(Node 893 (KIdent (str "_") None) []); (Node 894 (KIdent (str "si") (Some 57)) [])])])])])])) 13130 14051.
Definition t_interfaces_f29 : func := Func 895 (Some (DeclInfo (Ident 896 (str "TakingSimpleInterface") (Some 59)) None None)) (FuncType 897 [(Field 899 [(Ident 900 (str "_") (Some 60)); (Ident 901 (str "_") (Some 61))] 902); (Field 903 [(Ident 904 (str "_") (Some 62))] 905)] None 0) (Some (Node 906 (KOther (str "*ast.BlockStmt")) [])) 14109 14111.
Definition t_interfaces_f30 : func := Func 907 (Some (DeclInfo (Ident 908 (str "TakingSimpleInterfaceVariadic") (Some 63)) None None)) (FuncType 909 [(Field 911 [(Ident 912 (str "_") (Some 64))] 913); (Field 914 [(Ident 915 (str "_") (Some 65))] 916)] None 0) (Some (Node 918 (KOther (str "*ast.BlockStmt")) [])) 14177 14179.
Definition t_interfaces_f31 : func := Func 919 (Some (DeclInfo (Ident 920 (str "TakingSimpleInterfaceSlice") (Some 66)) None None)) (FuncType 921 [(Field 923 [(Ident 924 (str "_") (Some 67))] 925); (Field 926 [(Ident 927 (str "_") (Some 68))] 928)] None 0) (Some (Node 930 (KOther (str "*ast.BlockStmt")) [])) 14241 14243.
Definition t_interfaces_f32 : func := Func 931 (Some (DeclInfo (Ident 932 (str "InvalidFunctionCall") (Some 69)) None None)) (FuncType 933 [] None 0) (Some (Node 935 (KOther (str "*ast.BlockStmt")) [(Node 936 (KAssign 1%nat) [(Node 937 (KIdent (str "param") (Some 70)) []); (Node 938 KComposite [])]); (Node 940 (KOther (str "*ast.ExprStmt")) [(Node 941 KCall [(Node 942 (KIdent (str "TakingSimpleInterface") (Some 59)) []); (Node 943 KBasicLit []); (Node 944 KBasicLit []); (Node 945 (KIdent (str "param") (Some 70)) [])])]); (Node 946 (KOther (str "*ast.ExprStmt")) [(Node 947 KCall [(Node 948 (KIdent (str "TakingSimpleInterface") (Some 59)) []); (Node 949 KBasicLit []); (Node 950 KBasicLit []); (Node 951 (KIdent (str "nil") None) [])])]); (Node 952 (KOther (str "*ast.ExprStmt")) [(Node 953 KCall [(Node 954 (KIdent (str "TakingSimpleInterfaceVariadic") (Some 63)) []); (Node 955 (KUnary false) [(Node 956 KBasicLit [])]); (Node 957 (KIdent (str "nil") None) []); (Node 958 (KIdent (str "param") (Some 70)) [])])]); (Node 959 (KOther (str "*ast.ExprStmt")) [(Node 960 KCall [(Node 961 (KIdent (str "TakingSimpleInterfaceVariadic") (Some 63)) []); (Node 962 (KUnary false) [(Node 963 KBasicLit [])]); (Node 964 (KIdent (str "param") (Some 70)) []); (Node 965 (KIdent (str "nil") None) []); (Node 966 (KIdent (str "nil") None) [])])]); (Node 967 (KOther (str "*ast.ExprStmt")) [(Node 968 KCall [(Node 969 (KIdent (str "TakingSimpleInterfaceVariadic") (Some 63)) []); (Node 970 (KUnary false) [(Node 971 KBasicLit [])]); (Node 972 (KIdent (str "nil") None) []); (Node 973 (KIdent (str "nil") None) []); (Node 974 (KIdent (str "nil") None) [])])]); (Node 975 (KOther (str "*ast.ExprStmt")) [(Node 976 KCall [(Node 977 (KIdent (str "TakingSimpleInterfaceSlice") (Some 66)) []); (Node 978 KBasicLit []); (Node 979 KComposite [(Node 982 (KIdent (str "nil") None) []); (Node 983 (KIdent (str "nil") None) [])])])]); (Node 984 (KOther (str "*ast.ExprStmt")) [(Node 985 KCall [(Node 986 (KIdent (str "TakingSimpleInterfaceSlice") (Some 66)) []); (Node 987 KBasicLit []); (Node 988 (KIdent (str "nil") None) [])])]); (Node 989 (KOther (str "*ast.DeclStmt")) [(Node 990 (KOther (str "*ast.GenDecl")) [(Node 991 (KValueSpec [(Ident 992 (str "slice") (Some 71))] (Some 993)) [])])]); (Node 995 (KAssign 1%nat) [(Node 996 (KIdent (str "slice") (Some 71)) []); (Node 997 KCall [(Node 998 (KIdent (str "append") None) []); (Node 999 (KIdent (str "slice") (Some 71)) []); (Node 1000 (KIdent (str "param") (Some 70)) [])])]); (Node 1001 (KAssign 1%nat) [(Node 1002 (KIdent (str "slice") (Some 71)) []); (Node 1003 KCall [(Node 1004 (KIdent (str "append") None) []); (Node 1005 (KIdent (str "slice") (Some 71)) []); (Node 1006 (KIdent (str "nil") None) []); (Node 1007 (KIdent (str "nil") None) []); (Node 1008 (KIdent (str "param") (Some 70)) [])])]); (Node 1009 (KAssign 1%nat) [(Node 1010 (KIdent (str "slice") (Some 71)) []); (Node 1011 KCall [(Node 1012 (KIdent (str "append") None) []); (Node 1013 (KIdent (str "slice") (Some 71)) []); (Node 1014 (KIdent (str "nil") None) []); (Node 1015 (KIdent (str "nil") None) [])])]); (Node 1016 (KAssign 1%nat) [(Node 1017 (KIdent (str "lambda") (Some 72)) []); (Node 1018 (KFuncLit 33) [(Node 1024 (KOther (str "*ast.BlockStmt")) [])])]); (Node 1025 (KOther (str "*ast.ExprStmt")) [(Node 1026 KCall [(Node 1027 (KIdent (str "lambda") (Some 72)) []); (Node 1028 KComposite [])])])])) 14272 15992.
Definition t_interfaces_f33 : func := Func 1018 None (FuncType 1019 [(Field 1021 [(Ident 1022 (str "_") (Some 73))] 1023)] None 0) (Some (Node 1024 (KOther (str "*ast.BlockStmt")) [])) 15778 15780.
Definition t_interfaces_f34 : func := Func 1037 (Some (DeclInfo (Ident 1038 (str "InvalidMapIndex") (Some 74)) None None)) (FuncType 1039 [(Field 1041 [(Ident 1042 (str "m") (Some 75))] 1043); (Field 1047 [(Ident 1048 (str "m2") (Some 76))] 1049); (Field 1050 [(Ident 1051 (str "slice") (Some 77))] 1052)] None 0) (Some (Node 1055 (KOther (str "*ast.BlockStmt")) [(Node 1056 (KAssign 1%nat) [(Node 1057 (KIdent (str "_") None) []); (Node 1058 KIndex [(Node 1059 (KIdent (str "m") (Some 75)) []); (Node 1060 KComposite [])])]); (Node 1062 (KAssign 1%nat) [(Node 1063 (KIdent (str "_") None) []); (Node 1064 KIndex [(Node 1065 (KIdent (str "m") (Some 75)) []); (Node 1066 (KIdent (str "nil") None) [])])]); (Node 1067 (KAssign 1%nat) [(Node 1068 (KIdent (str "_") None) []); (Node 1069 KIndex [(Node 1070 (KIdent (str "m2") (Some 76)) []); (Node 1071 KComposite [])])]); (Node 1073 (KAssign 1%nat) [(Node 1074 (KIdent (str "_") None) []); (Node 1075 KIndex [(Node 1076 (KIdent (str "m2") (Some 76)) []); (Node 1077 (KIdent (str "nil") None) [])])]); (Node 1078 (KAssign 1%nat) [(Node 1079 (KIdent (str "_") None) []); (Node 1080 KIndex [(Node 1081 (KIdent (str "slice") (Some 77)) []); (Node 1082 KBasicLit [])])])])) 16148 16674.
Definition t_interfaces_f35 : func := Func 1104 (Some (DeclInfo (Ident 1105 (str "InvalidConversion") (Some 78)) None None)) (FuncType 1106 [(Field 1108 [(Ident 1109 (str "incompatible") (Some 79))] 1110); (Field 1111 [(Ident 1112 (str "bs") (Some 80))] 1113)] None 0) (Some (Node 1114 (KOther (str "*ast.BlockStmt")) [(Node 1115 (KAssign 1%nat) [(Node 1116 (KIdent (str "_") None) []); (Node 1117 KCall [(Node 1118 (KIdent (str "SimpleInterface") None) []); (Node 1119 KComposite [])])]); (Node 1121 (KAssign 1%nat) [(Node 1122 (KIdent (str "_") None) []); (Node 1123 KCall [(Node 1124 (KIdent (str "SimpleInterface") None) []); (Node 1125 (KIdent (str "nil") None) [])])]); (Node 1126 (KAssign 1%nat) [(Node 1127 (KIdent (str "_") None) []); (Node 1128 KCall [(Node 1129 (KIdent (str "SimpleInterface") None) []); (Node 1130 (KIdent (str "incompatible") (Some 79)) [])])]); (Node 1131 (KAssign 1%nat) [(Node 1132 (KIdent (str "_") None) []); (Node 1133 (KTypeAssert (Some 1135)) [(Node 1134 (KIdent (str "incompatible") (Some 79)) [])])]); (Node 1136 (KAssign 2%nat) [(Node 1137 (KIdent (str "s") (Some 81)) []); (Node 1138 (KIdent (str "ok") (Some 82)) []); (Node 1139 (KTypeAssert (Some 1141)) [(Node 1140 (KIdent (str "incompatible") (Some 79)) [])])]); (Node 1142 (KAssign 2%nat) [(Node 1143 (KIdent (str "_") None) []); (Node 1144 (KIdent (str "_") None) []); (Node 1145 (KIdent (str "s") (Some 81)) []); (Node 1146 (KIdent (str "ok") (Some 82)) [])]); (Node 1147 (KAssign 1%nat) [(Node 1148 (KIdent (str "_") None) []); (Node 1149 (KTypeAssert (Some 1153)) [(Node 1150 (KTypeAssert (Some 1152)) [(Node 1151 (KIdent (str "incompatible") (Some 79)) [])])])]); (Node 1154 (KOther (str "*ast.DeclStmt")) [(Node 1155 (KOther (str "*ast.GenDecl")) [(Node 1156 (KValueSpec [(Ident 1157 (str "si") (Some 83))] (Some 1158)) [])])]); (Node 1159 (KTypeSwitch false) [(Node 1160 (KAssign 1%nat) [(Node 1161 (KIdent (str "val") (Some 84)) []); (Node 1162 (KTypeAssert None) [(Node 1163 (KIdent (str "incompatible") (Some 79)) [])])]); (Node 1164 (KOther (str "*ast.BlockStmt")) [(Node 1165 (KCaseClause 1%nat) [(Node 1166 (KIdent (str "RandomInterface") (Some 85)) []); (Node 1167 (KAssign 1%nat) [(Node 1168 (KIdent (str "_") None) []); (Node 1169 (KIdent (str "val") (Some 84)) [])])]); (Node 1170 (KCaseClause 1%nat) [(Node 1171 (KIdent (str "SimpleInterface") None) []); (Node 1172 (KAssign 1%nat) [(Node 1173 (KIdent (str "si") (Some 83)) []); (Node 1174 (KIdent (str "val") (Some 84)) [])])]); (Node 1175 (KCaseClause 0%nat) [(Node 1176 (KAssign 1%nat) [(Node 1177 (KIdent (str "_") None) []); (Node 1178 (KIdent (str "val") (Some 84)) [])])])])]); (Node 1179 (KAssign 1%nat) [(Node 1180 (KIdent (str "_") None) []); (Node 1181 (KIdent (str "si") (Some 83)) [])])])) 17372 18840.
Definition t_interfaces_f36 : func := Func 1219 (Some (DeclInfo (Ident 1220 (str "InvalidStructCreation") (Some 86)) None None)) (FuncType 1221 [] None 0) (Some (Node 1223 (KOther (str "*ast.BlockStmt")) [(Node 1224 (KAssign 1%nat) [(Node 1225 (KIdent (str "_") None) []); (Node 1226 KComposite [(Node 1228 KComposite [])])]); (Node 1230 (KAssign 1%nat) [(Node 1231 (KIdent (str "_") None) []); (Node 1232 KComposite [(Node 1234 (KIdent (str "nil") None) [])])]); (Node 1235 (KAssign 1%nat) [(Node 1236 (KIdent (str "_") None) []); (Node 1237 KComposite [(Node 1239 KKeyValue [(Node 1240 (KIdent (str "si") None) []); (Node 1241 KComposite [])])])]); (Node 1243 (KAssign 1%nat) [(Node 1244 (KIdent (str "_") None) []); (Node 1245 KComposite [(Node 1247 KKeyValue [(Node 1248 (KIdent (str "si") None) []); (Node 1249 (KIdent (str "nil") None) [])])])]); (Node 1250 (KAssign 1%nat) [(Node 1251 (KIdent (str "_") None) []); (Node 1252 KComposite [])]); (Node 1254 (KAssign 1%nat) [(Node 1255 (KIdent (str "_") None) []); (Node 1256 (KUnary true) [(Node 1257 KComposite [(Node 1259 KComposite [])])])]); (Node 1261 (KAssign 1%nat) [(Node 1262 (KIdent (str "_") None) []); (Node 1263 KComposite [(Node 1265 KBasicLit []); (Node 1266 KBasicLit []); (Node 1267 KComposite []); (Node 1269 (KIdent (str "nil") None) []); (Node 1270 (KIdent (str "nil") None) [])])]); (Node 1271 (KAssign 1%nat) [(Node 1272 (KIdent (str "_") None) []); (Node 1273 KComposite [(Node 1275 KBasicLit []); (Node 1276 KBasicLit []); (Node 1277 (KIdent (str "nil") None) []); (Node 1278 (KIdent (str "nil") None) []); (Node 1279 KComposite [])])]); (Node 1281 (KAssign 1%nat) [(Node 1282 (KIdent (str "_") None) []); (Node 1283 KComposite [(Node 1285 KBasicLit []); (Node 1286 KBasicLit []); (Node 1287 KComposite []); (Node 1289 KComposite []); (Node 1291 KComposite [])])]); (Node 1293 (KAssign 1%nat) [(Node 1294 (KIdent (str "_") None) []); (Node 1295 KComposite [])]); (Node 1297 (KAssign 1%nat) [(Node 1298 (KIdent (str "_") None) []); (Node 1299 KComposite [(Node 1301 KBasicLit []); (Node 1302 KBasicLit []); (Node 1303 (KIdent (str "nil") None) []); (Node 1304 (KIdent (str "nil") None) [])])]); (Node 1305 (KAssign 1%nat) [(Node 1306 (KIdent (str "_") None) []); (Node 1307 KComposite [(Node 1309 KBasicLit []); (Node 1310 KBasicLit []); (Node 1311 (KIdent (str "nil") None) []); (Node 1312 KComposite [])])]); (Node 1314 (KAssign 1%nat) [(Node 1315 (KIdent (str "_") None) []); (Node 1316 KComposite [(Node 1318 KKeyValue [(Node 1319 (KIdent (str "u") None) []); (Node 1320 KBasicLit [])]); (Node 1321 KKeyValue [(Node 1322 (KIdent (str "v") None) []); (Node 1323 KBasicLit [])]); (Node 1324 KKeyValue [(Node 1325 (KIdent (str "x") None) []); (Node 1326 (KIdent (str "nil") None) [])]); (Node 1327 KKeyValue [(Node 1328 (KIdent (str "y") None) []); (Node 1329 KComposite [])])])]); (Node 1331 (KAssign 1%nat) [(Node 1332 (KIdent (str "_") None) []); (Node 1333 KComposite [(Node 1335 KKeyValue [(Node 1336 (KIdent (str "u") None) []); (Node 1337 KBasicLit [])]); (Node 1338 KKeyValue [(Node 1339 (KIdent (str "x") None) []); (Node 1340 (KIdent (str "nil") None) [])]); (Node 1341 KKeyValue [(Node 1342 (KIdent (str "y") None) []); (Node 1343 KComposite [])])])]); (Node 1345 (KAssign 1%nat) [(Node 1346 (KIdent (str "_") None) []); (Node 1347 KComposite [(Node 1349 KKeyValue [(Node 1350 (KIdent (str "u") None) []); (Node 1351 KBasicLit [])])])]); (Node 1352 (KAssign 1%nat) [(Node 1353 (KIdent (str "_") None) []); (Node 1354 KComposite [(Node 1357 KComposite [(Node 1358 KKeyValue [(Node 1359 (KIdent (str "si") None) []); (Node 1360 KComposite [])])]); (Node 1362 KComposite [(Node 1363 KComposite [])]); (Node 1365 KComposite [(Node 1366 KKeyValue [(Node 1367 (KIdent (str "si") None) []); (Node 1368 (KIdent (str "nil") None) [])])]); (Node 1369 KComposite [(Node 1370 (KIdent (str "nil") None) [])]); (Node 1371 KComposite [])])]); (Node 1372 (KAssign 1%nat) [(Node 1373 (KIdent (str "_") None) []); (Node 1374 KComposite [(Node 1380 KKeyValue [(Node 1381 (KIdent (str "si") None) []); (Node 1382 KComposite [])])])]); (Node 1384 (KAssign 1%nat) [(Node 1385 (KIdent (str "_") None) []); (Node 1386 KComposite [(Node 1392 KComposite [])])]); (Node 1394 (KAssign 1%nat) [(Node 1395 (KIdent (str "_") None) []); (Node 1396 KComposite [(Node 1402 KKeyValue [(Node 1403 (KIdent (str "si") None) []); (Node 1404 (KIdent (str "nil") None) [])])])]); (Node 1405 (KAssign 1%nat) [(Node 1406 (KIdent (str "_") None) []); (Node 1407 KComposite [(Node 1413 (KIdent (str "nil") None) [])])]); (Node 1414 (KAssign 1%nat) [(Node 1415 (KIdent (str "_") None) []); (Node 1416 KComposite [])]); (Node 1422 (KAssign 1%nat) [(Node 1423 (KIdent (str "_") None) []); (Node 1424 KComposite [(Node 1431 KComposite [(Node 1432 KKeyValue [(Node 1433 (KIdent (str "si") None) []); (Node 1434 KComposite [])])]); (Node 1436 KComposite [(Node 1437 KComposite [])]); (Node 1439 KComposite [(Node 1440 KKeyValue [(Node 1441 (KIdent (str "si") None) []); (Node 1442 (KIdent (str "nil") None) [])])]); (Node 1443 KComposite [(Node 1444 (KIdent (str "nil") None) [])]); (Node 1445 KComposite [])])]); (Node 1446 (KAssign 1%nat) [(Node 1447 (KIdent (str "_") None) []); (Node 1448 KComposite [(Node 1452 KKeyValue [(Node 1453 KBasicLit []); (Node 1454 KComposite [(Node 1455 KKeyValue [(Node 1456 (KIdent (str "si") None) []); (Node 1457 KComposite [])])])]); (Node 1459 KKeyValue [(Node 1460 KBasicLit []); (Node 1461 KComposite [(Node 1462 KComposite [])])]); (Node 1464 KKeyValue [(Node 1465 KBasicLit []); (Node 1466 KComposite [(Node 1467 KKeyValue [(Node 1468 (KIdent (str "si") None) []); (Node 1469 (KIdent (str "nil") None) [])])])]); (Node 1470 KKeyValue [(Node 1471 KBasicLit []); (Node 1472 KComposite [(Node 1473 (KIdent (str "nil") None) [])])]); (Node 1474 KKeyValue [(Node 1475 KBasicLit []); (Node 1476 KComposite [])])])])])) 19087 23985.
Definition t_interfaces_f37 : func := Func 1486 (Some (DeclInfo (Ident 1487 (str "InvalidSliceCreation") (Some 87)) None None)) (FuncType 1488 [] None 0) (Some (Node 1490 (KOther (str "*ast.BlockStmt")) [(Node 1491 (KAssign 1%nat) [(Node 1492 (KIdent (str "_") None) []); (Node 1493 KComposite [])]); (Node 1496 (KAssign 1%nat) [(Node 1497 (KIdent (str "_") None) []); (Node 1498 KComposite [(Node 1501 (KIdent (str "nil") None) []); (Node 1502 (KIdent (str "nil") None) []); (Node 1503 (KIdent (str "nil") None) [])])]); (Node 1504 (KAssign 1%nat) [(Node 1505 (KIdent (str "_") None) []); (Node 1506 KComposite [(Node 1509 (KIdent (str "nil") None) []); (Node 1510 KComposite []); (Node 1512 (KIdent (str "nil") None) [])])]); (Node 1513 (KAssign 1%nat) [(Node 1514 (KIdent (str "_") None) []); (Node 1515 KComposite [(Node 1518 (KIdent (str "nil") None) []); (Node 1519 KComposite []); (Node 1521 (KIdent (str "nil") None) []); (Node 1522 (KIdent (str "nil") None) []); (Node 1523 KComposite [])])]); (Node 1525 (KOther (str "*ast.DeclStmt")) [(Node 1526 (KOther (str "*ast.GenDecl")) [(Node 1527 (KValueSpec [(Ident 1528 (str "index") (Some 88))] None) [(Node 1529 (KOther (str "*ast.BinaryExpr")) [(Node 1530 KBasicLit []); (Node 1531 KBasicLit [])])])])]); (Node 1532 (KAssign 1%nat) [(Node 1533 (KIdent (str "_") None) []); (Node 1534 KComposite [(Node 1537 KKeyValue [(Node 1538 KBasicLit []); (Node 1539 (KIdent (str "nil") None) [])]); (Node 1540 KKeyValue [(Node 1541 KBasicLit []); (Node 1542 KComposite [])]); (Node 1544 KKeyValue [(Node 1545 KBasicLit []); (Node 1546 (KIdent (str "nil") None) [])]); (Node 1547 KKeyValue [(Node 1548 KBasicLit []); (Node 1549 (KIdent (str "nil") None) [])]); (Node 1550 KKeyValue [(Node 1551 KBasicLit []); (Node 1552 KComposite [])]); (Node 1554 KKeyValue [(Node 1555 (KIdent (str "index") (Some 88)) []); (Node 1556 KComposite [])])])]); (Node 1558 (KAssign 1%nat) [(Node 1559 (KIdent (str "_") None) []); (Node 1560 KComposite [])]); (Node 1562 (KAssign 1%nat) [(Node 1563 (KIdent (str "_") None) []); (Node 1564 KComposite [(Node 1566 (KIdent (str "nil") None) [])])]); (Node 1567 (KAssign 1%nat) [(Node 1568 (KIdent (str "_") None) []); (Node 1569 KComposite [(Node 1571 KComposite []); (Node 1573 (KIdent (str "nil") None) [])])]); (Node 1574 (KAssign 1%nat) [(Node 1575 (KIdent (str "_") None) []); (Node 1576 KComposite [(Node 1578 KKeyValue [(Node 1579 KBasicLit []); (Node 1580 KComposite [])]); (Node 1582 KKeyValue [(Node 1583 KBasicLit []); (Node 1584 (KIdent (str "nil") None) [])])])]); (Node 1585 (KAssign 1%nat) [(Node 1586 (KIdent (str "_") None) []); (Node 1587 KComposite [])]); (Node 1589 (KAssign 1%nat) [(Node 1590 (KIdent (str "_") None) []); (Node 1591 KComposite [(Node 1593 (KIdent (str "nil") None) [])])]); (Node 1594 (KAssign 1%nat) [(Node 1595 (KIdent (str "_") None) []); (Node 1596 KComposite [(Node 1598 KComposite []); (Node 1600 (KIdent (str "nil") None) [])])]); (Node 1601 (KAssign 1%nat) [(Node 1602 (KIdent (str "_") None) []); (Node 1603 KComposite [(Node 1605 KKeyValue [(Node 1606 KBasicLit []); (Node 1607 KComposite [])]); (Node 1609 KKeyValue [(Node 1610 KBasicLit []); (Node 1611 (KIdent (str "nil") None) [])])])]); (Node 1612 (KAssign 1%nat) [(Node 1613 (KIdent (str "_") None) []); (Node 1614 KComposite [(Node 1619 KComposite [(Node 1620 KComposite [(Node 1621 (KIdent (str "nil") None) []); (Node 1622 KComposite [])]); (Node 1624 KComposite []); (Node 1625 KComposite [(Node 1626 (KIdent (str "nil") None) [])])]); (Node 1627 KComposite [(Node 1628 KKeyValue [(Node 1629 KBasicLit []); (Node 1630 KComposite [])]); (Node 1631 KKeyValue [(Node 1632 KBasicLit []); (Node 1633 KComposite [(Node 1634 KKeyValue [(Node 1635 KBasicLit []); (Node 1636 KComposite [])])])]); (Node 1638 KComposite [(Node 1639 KComposite [])])])])]); (Node 1641 (KAssign 1%nat) [(Node 1642 (KIdent (str "_") None) []); (Node 1643 KComposite [(Node 1646 KComposite [(Node 1647 (KIdent (str "nil") None) []); (Node 1648 (KIdent (str "nil") None) []); (Node 1649 KComposite [])])])])])) 24090 27590.
Definition t_interfaces_f38 : func := Func 1661 (Some (DeclInfo (Ident 1662 (str "InvalidArrayCreation") (Some 89)) None None)) (FuncType 1663 [] None 0) (Some (Node 1665 (KOther (str "*ast.BlockStmt")) [(Node 1666 (KAssign 1%nat) [(Node 1667 (KIdent (str "_") None) []); (Node 1668 KComposite [])]); (Node 1672 (KAssign 1%nat) [(Node 1673 (KIdent (str "_") None) []); (Node 1674 KComposite [(Node 1678 (KIdent (str "nil") None) []); (Node 1679 (KIdent (str "nil") None) []); (Node 1680 (KIdent (str "nil") None) [])])]); (Node 1681 (KAssign 1%nat) [(Node 1682 (KIdent (str "_") None) []); (Node 1683 KComposite [(Node 1687 (KIdent (str "nil") None) []); (Node 1688 KComposite []); (Node 1690 (KIdent (str "nil") None) [])])]); (Node 1691 (KAssign 1%nat) [(Node 1692 (KIdent (str "_") None) []); (Node 1693 KComposite [(Node 1697 (KIdent (str "nil") None) []); (Node 1698 KComposite []); (Node 1700 (KIdent (str "nil") None) []); (Node 1701 (KIdent (str "nil") None) []); (Node 1702 KComposite [])])]); (Node 1704 (KOther (str "*ast.DeclStmt")) [(Node 1705 (KOther (str "*ast.GenDecl")) [(Node 1706 (KValueSpec [(Ident 1707 (str "index") (Some 90))] None) [(Node 1708 (KOther (str "*ast.BinaryExpr")) [(Node 1709 KBasicLit []); (Node 1710 KBasicLit [])])])])]); (Node 1711 (KAssign 1%nat) [(Node 1712 (KIdent (str "_") None) []); (Node 1713 KComposite [(Node 1717 KKeyValue [(Node 1718 KBasicLit []); (Node 1719 (KIdent (str "nil") None) [])]); (Node 1720 KKeyValue [(Node 1721 KBasicLit []); (Node 1722 KComposite [])]); (Node 1724 KKeyValue [(Node 1725 KBasicLit []); (Node 1726 (KIdent (str "nil") None) [])]); (Node 1727 KKeyValue [(Node 1728 KBasicLit []); (Node 1729 (KIdent (str "nil") None) [])]); (Node 1730 KKeyValue [(Node 1731 KBasicLit []); (Node 1732 KComposite [])]); (Node 1734 KKeyValue [(Node 1735 (KIdent (str "index") (Some 90)) []); (Node 1736 KComposite [])])])]); (Node 1738 (KAssign 1%nat) [(Node 1739 (KIdent (str "_") None) []); (Node 1740 KComposite [])]); (Node 1742 (KAssign 1%nat) [(Node 1743 (KIdent (str "_") None) []); (Node 1744 KComposite [(Node 1746 (KIdent (str "nil") None) [])])]); (Node 1747 (KAssign 1%nat) [(Node 1748 (KIdent (str "_") None) []); (Node 1749 KComposite [(Node 1751 KComposite []); (Node 1753 (KIdent (str "nil") None) [])])]); (Node 1754 (KAssign 1%nat) [(Node 1755 (KIdent (str "_") None) []); (Node 1756 KComposite [(Node 1758 KKeyValue [(Node 1759 KBasicLit []); (Node 1760 KComposite [])]); (Node 1762 KKeyValue [(Node 1763 KBasicLit []); (Node 1764 (KIdent (str "nil") None) [])])])]); (Node 1765 (KAssign 1%nat) [(Node 1766 (KIdent (str "_") None) []); (Node 1767 KComposite [])]); (Node 1769 (KAssign 1%nat) [(Node 1770 (KIdent (str "_") None) []); (Node 1771 KComposite [(Node 1773 (KIdent (str "nil") None) [])])]); (Node 1774 (KAssign 1%nat) [(Node 1775 (KIdent (str "_") None) []); (Node 1776 KComposite [(Node 1778 KComposite []); (Node 1780 (KIdent (str "nil") None) [])])]); (Node 1781 (KAssign 1%nat) [(Node 1782 (KIdent (str "_") None) []); (Node 1783 KComposite [(Node 1785 KKeyValue [(Node 1786 KBasicLit []); (Node 1787 KComposite [])]); (Node 1789 KKeyValue [(Node 1790 KBasicLit []); (Node 1791 (KIdent (str "nil") None) [])])])]); (Node 1792 (KAssign 1%nat) [(Node 1793 (KIdent (str "_") None) []); (Node 1794 KComposite [(Node 1802 KComposite [(Node 1803 KComposite [(Node 1804 (KIdent (str "nil") None) []); (Node 1805 KComposite [])]); (Node 1807 KComposite []); (Node 1808 KComposite [(Node 1809 (KIdent (str "nil") None) [])])]); (Node 1810 KComposite [(Node 1811 KKeyValue [(Node 1812 KBasicLit []); (Node 1813 KComposite [])]); (Node 1814 KKeyValue [(Node 1815 KBasicLit []); (Node 1816 KComposite [(Node 1817 KKeyValue [(Node 1818 KBasicLit []); (Node 1819 KComposite [])])])]); (Node 1821 KComposite [(Node 1822 KComposite [])])])])]); (Node 1824 (KAssign 1%nat) [(Node 1825 (KIdent (str "_") None) []); (Node 1826 KComposite [(Node 1829 KComposite [(Node 1830 (KIdent (str "nil") None) []); (Node 1831 KComposite [])])])])])) 27696 31207.
Definition t_interfaces_f39 : func := Func 1843 (Some (DeclInfo (Ident 1844 (str "InvalidMapCreation") (Some 91)) None None)) (FuncType 1845 [] None 0) (Some (Node 1847 (KOther (str "*ast.BlockStmt")) [(Node 1848 (KAssign 1%nat) [(Node 1849 (KIdent (str "_") None) []); (Node 1850 KComposite [])]); (Node 1854 (KAssign 1%nat) [(Node 1855 (KIdent (str "_") None) []); (Node 1856 KComposite [(Node 1860 KKeyValue [(Node 1861 KBasicLit []); (Node 1862 (KIdent (str "nil") None) [])]); (Node 1863 KKeyValue [(Node 1864 KBasicLit []); (Node 1865 (KIdent (str "nil") None) [])])])]); (Node 1866 (KAssign 1%nat) [(Node 1867 (KIdent (str "_") None) []); (Node 1868 KComposite [(Node 1872 KKeyValue [(Node 1873 KBasicLit []); (Node 1874 (KIdent (str "nil") None) [])]); (Node 1875 KKeyValue [(Node 1876 KBasicLit []); (Node 1877 KComposite [])]); (Node 1879 KKeyValue [(Node 1880 KBasicLit []); (Node 1881 (KIdent (str "nil") None) [])])])]); (Node 1882 (KOther (str "*ast.DeclStmt")) [(Node 1883 (KOther (str "*ast.GenDecl")) [(Node 1884 (KValueSpec [(Ident 1885 (str "index") (Some 92))] None) [(Node 1886 (KOther (str "*ast.BinaryExpr")) [(Node 1887 KBasicLit []); (Node 1888 KBasicLit [])])])])]); (Node 1889 (KAssign 1%nat) [(Node 1890 (KIdent (str "_") None) []); (Node 1891 KComposite [(Node 1895 KKeyValue [(Node 1896 KBasicLit []); (Node 1897 (KIdent (str "nil") None) [])]); (Node 1898 KKeyValue [(Node 1899 KBasicLit []); (Node 1900 KComposite [])]); (Node 1902 KKeyValue [(Node 1903 KBasicLit []); (Node 1904 (KIdent (str "nil") None) [])]); (Node 1905 KKeyValue [(Node 1906 KBasicLit []); (Node 1907 (KIdent (str "nil") None) [])]); (Node 1908 KKeyValue [(Node 1909 KBasicLit []); (Node 1910 KComposite [])]); (Node 1912 KKeyValue [(Node 1913 (KIdent (str "index") (Some 92)) []); (Node 1914 KComposite [])])])]); (Node 1916 (KAssign 1%nat) [(Node 1917 (KIdent (str "_") None) []); (Node 1918 KComposite [])]); (Node 1920 (KAssign 1%nat) [(Node 1921 (KIdent (str "_") None) []); (Node 1922 KComposite [(Node 1924 KKeyValue [(Node 1925 KBasicLit []); (Node 1926 (KIdent (str "nil") None) [])])])]); (Node 1927 (KAssign 1%nat) [(Node 1928 (KIdent (str "_") None) []); (Node 1929 KComposite [(Node 1931 KKeyValue [(Node 1932 KBasicLit []); (Node 1933 KComposite [])]); (Node 1935 KKeyValue [(Node 1936 KBasicLit []); (Node 1937 (KIdent (str "nil") None) [])])])]); (Node 1938 (KAssign 1%nat) [(Node 1939 (KIdent (str "_") None) []); (Node 1940 KComposite [])]); (Node 1942 (KAssign 1%nat) [(Node 1943 (KIdent (str "_") None) []); (Node 1944 KComposite [(Node 1946 KKeyValue [(Node 1947 KBasicLit []); (Node 1948 (KIdent (str "nil") None) [])])])]); (Node 1949 (KAssign 1%nat) [(Node 1950 (KIdent (str "_") None) []); (Node 1951 KComposite [(Node 1953 KKeyValue [(Node 1954 KBasicLit []); (Node 1955 KComposite [])]); (Node 1957 KKeyValue [(Node 1958 KBasicLit []); (Node 1959 (KIdent (str "nil") None) [])])])]); (Node 1960 (KAssign 1%nat) [(Node 1961 (KIdent (str "_") None) []); (Node 1962 KComposite [(Node 1970 KKeyValue [(Node 1971 KBasicLit []); (Node 1972 KComposite [(Node 1973 KKeyValue [(Node 1974 KBasicLit []); (Node 1975 KComposite [(Node 1976 KKeyValue [(Node 1977 KBasicLit []); (Node 1978 (KIdent (str "nil") None) [])]); (Node 1979 KKeyValue [(Node 1980 KBasicLit []); (Node 1981 KComposite [])])])]); (Node 1983 KKeyValue [(Node 1984 KBasicLit []); (Node 1985 KComposite [])]); (Node 1986 KKeyValue [(Node 1987 KBasicLit []); (Node 1988 KComposite [(Node 1989 KKeyValue [(Node 1990 KBasicLit []); (Node 1991 (KIdent (str "nil") None) [])])])])])]); (Node 1992 KKeyValue [(Node 1993 KBasicLit []); (Node 1994 KComposite [(Node 1995 KKeyValue [(Node 1996 KBasicLit []); (Node 1997 KComposite [])]); (Node 1998 KKeyValue [(Node 1999 KBasicLit []); (Node 2000 KComposite [(Node 2001 KKeyValue [(Node 2002 KBasicLit []); (Node 2003 KComposite [])])])])])])])]); (Node 2005 (KAssign 1%nat) [(Node 2006 (KIdent (str "_") None) []); (Node 2007 KComposite [(Node 2011 KKeyValue [(Node 2012 KBasicLit []); (Node 2013 KComposite [(Node 2014 KKeyValue [(Node 2015 KBasicLit []); (Node 2016 (KIdent (str "nil") None) [])]); (Node 2017 KKeyValue [(Node 2018 KBasicLit []); (Node 2019 KComposite [])])])])])]); (Node 2021 (KAssign 1%nat) [(Node 2022 (KIdent (str "_") None) []); (Node 2023 KComposite [])]); (Node 2027 (KAssign 1%nat) [(Node 2028 (KIdent (str "_") None) []); (Node 2029 KComposite [(Node 2033 KKeyValue [(Node 2034 KComposite []); (Node 2036 KBasicLit [])])])]); (Node 2037 (KAssign 1%nat) [(Node 2038 (KIdent (str "_") None) []); (Node 2039 KComposite [(Node 2043 KKeyValue [(Node 2044 (KIdent (str "nil") None) []); (Node 2045 KBasicLit [])]); (Node 2046 KKeyValue [(Node 2047 KComposite []); (Node 2049 KBasicLit [])]); (Node 2050 KKeyValue [(Node 2051 (KIdent (str "nil") None) []); (Node 2052 KBasicLit [])])])]); (Node 2053 (KAssign 1%nat) [(Node 2054 (KIdent (str "_") None) []); (Node 2055 KComposite [(Node 2059 KKeyValue [(Node 2060 (KIdent (str "nil") None) []); (Node 2061 KComposite [])]); (Node 2063 KKeyValue [(Node 2064 KComposite []); (Node 2066 (KIdent (str "nil") None) [])]); (Node 2067 KKeyValue [(Node 2068 KComposite []); (Node 2070 KComposite [])])])]); (Node 2072 (KAssign 1%nat) [(Node 2073 (KIdent (str "_") None) []); (Node 2074 KComposite [(Node 2079 KKeyValue [(Node 2080 KBasicLit []); (Node 2081 KComposite [(Node 2082 KComposite []); (Node 2084 (KIdent (str "nil") None) [])])])])])])) 31312 35488.
Definition t_interfaces_f40 : func := Func 2085 (Some (DeclInfo (Ident 2086 (str "InvalidForRange") (Some 93)) None None)) (FuncType 2087 [(Field 2089 [(Ident 2090 (str "slice") (Some 94))] 2091); (Field 2093 [(Ident 2094 (str "m1") (Some 95))] 2095); (Field 2099 [(Ident 2100 (str "m2") (Some 96))] 2101); (Field 2104 [(Ident 2105 (str "m3") (Some 97))] 2106); (Field 2109 [(Ident 2110 (str "array") (Some 98))] 2111); (Field 2114 [(Ident 2115 (str "pa") (Some 99))] 2116); (Field 2120 [(Ident 2121 (str "c") (Some 100))] 2122)] None 0) (Some (Node 2124 (KOther (str "*ast.BlockStmt")) [(Node 2125 (KOther (str "*ast.DeclStmt")) [(Node 2126 (KOther (str "*ast.GenDecl")) [(Node 2127 (KValueSpec [(Ident 2128 (str "si") (Some 101))] (Some 2129)) [])])]); (Node 2130 (KRange true true) [(Node 2131 (KIdent (str "_") None) []); (Node 2132 (KIdent (str "si") (Some 101)) []); (Node 2133 (KIdent (str "slice") (Some 94)) []); (Node 2134 (KOther (str "*ast.BlockStmt")) [(Node 2135 (KAssign 1%nat) [(Node 2136 (KIdent (str "_") None) []); (Node 2137 (KIdent (str "si") (Some 101)) [])])])]); (Node 2138 (KRange true false) [(Node 2139 (KIdent (str "i") (Some 102)) []); (Node 2140 (KIdent (str "slice") (Some 94)) []); (Node 2141 (KOther (str "*ast.BlockStmt")) [(Node 2142 (KAssign 1%nat) [(Node 2143 (KIdent (str "_") None) []); (Node 2144 (KIdent (str "i") (Some 102)) [])])])]); (Node 2145 (KRange true true) [(Node 2146 (KIdent (str "_") None) []); (Node 2147 (KIdent (str "si") (Some 101)) []); (Node 2148 (KIdent (str "array") (Some 98)) []); (Node 2149 (KOther (str "*ast.BlockStmt")) [(Node 2150 (KAssign 1%nat) [(Node 2151 (KIdent (str "_") None) []); (Node 2152 (KIdent (str "si") (Some 101)) [])])])]); (Node 2153 (KRange true false) [(Node 2154 (KIdent (str "i") (Some 103)) []); (Node 2155 (KIdent (str "array") (Some 98)) []); (Node 2156 (KOther (str "*ast.BlockStmt")) [(Node 2157 (KAssign 1%nat) [(Node 2158 (KIdent (str "_") None) []); (Node 2159 (KIdent (str "i") (Some 103)) [])])])]); (Node 2160 (KRange true true) [(Node 2161 (KIdent (str "_") None) []); (Node 2162 (KIdent (str "si") (Some 101)) []); (Node 2163 (KIdent (str "pa") (Some 99)) []); (Node 2164 (KOther (str "*ast.BlockStmt")) [(Node 2165 (KAssign 1%nat) [(Node 2166 (KIdent (str "_") None) []); (Node 2167 (KIdent (str "si") (Some 101)) [])])])]); (Node 2168 (KRange true false) [(Node 2169 (KIdent (str "i") (Some 104)) []); (Node 2170 (KIdent (str "pa") (Some 99)) []); (Node 2171 (KOther (str "*ast.BlockStmt")) [(Node 2172 (KAssign 1%nat) [(Node 2173 (KIdent (str "_") None) []); (Node 2174 (KIdent (str "i") (Some 104)) [])])])]); (Node 2175 (KRange true true) [(Node 2176 (KIdent (str "si") (Some 101)) []); (Node 2177 (KIdent (str "_") None) []); (Node 2178 (KIdent (str "m1") (Some 95)) []); (Node 2179 (KOther (str "*ast.BlockStmt")) [(Node 2180 (KAssign 1%nat) [(Node 2181 (KIdent (str "_") None) []); (Node 2182 (KIdent (str "si") (Some 101)) [])])])]); (Node 2183 (KRange true false) [(Node 2184 (KIdent (str "si") (Some 101)) []); (Node 2185 (KIdent (str "m1") (Some 95)) []); (Node 2186 (KOther (str "*ast.BlockStmt")) [(Node 2187 (KAssign 1%nat) [(Node 2188 (KIdent (str "_") None) []); (Node 2189 (KIdent (str "si") (Some 101)) [])])])]); (Node 2190 (KRange true true) [(Node 2191 (KIdent (str "_") None) []); (Node 2192 (KIdent (str "si") (Some 101)) []); (Node 2193 (KIdent (str "m2") (Some 96)) []); (Node 2194 (KOther (str "*ast.BlockStmt")) [(Node 2195 (KAssign 1%nat) [(Node 2196 (KIdent (str "_") None) []); (Node 2197 (KIdent (str "si") (Some 101)) [])])])]); (Node 2198 (KOther (str "*ast.DeclStmt")) [(Node 2199 (KOther (str "*ast.GenDecl")) [(Node 2200 (KValueSpec [(Ident 2201 (str "si2") (Some 105))] (Some 2202)) [])])]); (Node 2203 (KRange true true) [(Node 2204 (KIdent (str "si") (Some 101)) []); (Node 2205 (KIdent (str "si2") (Some 105)) []); (Node 2206 (KIdent (str "m3") (Some 97)) []); (Node 2207 (KOther (str "*ast.BlockStmt")) [(Node 2208 (KAssign 2%nat) [(Node 2209 (KIdent (str "_") None) []); (Node 2210 (KIdent (str "_") None) []); (Node 2211 (KIdent (str "si") (Some 101)) []); (Node 2212 (KIdent (str "si2") (Some 105)) [])])])]); (Node 2213 (KRange true true) [(Node 2214 (KIdent (str "si") (Some 101)) []); (Node 2215 (KIdent (str "si") (Some 101)) []); (Node 2216 (KIdent (str "m3") (Some 97)) []); (Node 2217 (KOther (str "*ast.BlockStmt")) [(Node 2218 (KAssign 1%nat) [(Node 2219 (KIdent (str "_") None) []); (Node 2220 (KIdent (str "si") (Some 101)) [])])])]); (Node 2221 (KRange true false) [(Node 2222 (KIdent (str "si") (Some 101)) []); (Node 2223 (KIdent (str "m3") (Some 97)) []); (Node 2224 (KOther (str "*ast.BlockStmt")) [(Node 2225 (KAssign 1%nat) [(Node 2226 (KIdent (str "_") None) []); (Node 2227 (KIdent (str "si") (Some 101)) [])])])]); (Node 2228 (KRange true false) [(Node 2229 (KIdent (str "si") (Some 101)) []); (Node 2230 (KIdent (str "c") (Some 100)) []); (Node 2231 (KOther (str "*ast.BlockStmt")) [(Node 2232 (KAssign 1%nat) [(Node 2233 (KIdent (str "_") None) []); (Node 2234 (KIdent (str "si") (Some 101)) [])])])])])) 35740 38457.
Definition t_interfaces_f41 : func := Func 2271 (Some (DeclInfo (Ident 2272 (str "InvalidForRangeNamed") (Some 106)) None None)) (FuncType 2273 [(Field 2275 [(Ident 2276 (str "slice") (Some 107))] 2277); (Field 2278 [(Ident 2279 (str "m1") (Some 108))] 2280); (Field 2281 [(Ident 2282 (str "m2") (Some 109))] 2283); (Field 2284 [(Ident 2285 (str "m3") (Some 110))] 2286); (Field 2287 [(Ident 2288 (str "array") (Some 111))] 2289); (Field 2290 [(Ident 2291 (str "pa") (Some 112))] 2292); (Field 2293 [(Ident 2294 (str "pa2") (Some 113))] 2295); (Field 2297 [(Ident 2298 (str "c") (Some 114))] 2299)] None 0) (Some (Node 2300 (KOther (str "*ast.BlockStmt")) [(Node 2301 (KOther (str "*ast.DeclStmt")) [(Node 2302 (KOther (str "*ast.GenDecl")) [(Node 2303 (KValueSpec [(Ident 2304 (str "si") (Some 115))] (Some 2305)) [])])]); (Node 2306 (KRange true true) [(Node 2307 (KIdent (str "_") None) []); (Node 2308 (KIdent (str "si") (Some 115)) []); (Node 2309 (KIdent (str "slice") (Some 107)) []); (Node 2310 (KOther (str "*ast.BlockStmt")) [(Node 2311 (KAssign 1%nat) [(Node 2312 (KIdent (str "_") None) []); (Node 2313 (KIdent (str "si") (Some 115)) [])])])]); (Node 2314 (KRange true false) [(Node 2315 (KIdent (str "i") (Some 116)) []); (Node 2316 (KIdent (str "slice") (Some 107)) []); (Node 2317 (KOther (str "*ast.BlockStmt")) [(Node 2318 (KAssign 1%nat) [(Node 2319 (KIdent (str "_") None) []); (Node 2320 (KIdent (str "i") (Some 116)) [])])])]); (Node 2321 (KRange true true) [(Node 2322 (KIdent (str "_") None) []); (Node 2323 (KIdent (str "si") (Some 115)) []); (Node 2324 (KIdent (str "array") (Some 111)) []); (Node 2325 (KOther (str "*ast.BlockStmt")) [(Node 2326 (KAssign 1%nat) [(Node 2327 (KIdent (str "_") None) []); (Node 2328 (KIdent (str "si") (Some 115)) [])])])]); (Node 2329 (KRange true false) [(Node 2330 (KIdent (str "i") (Some 117)) []); (Node 2331 (KIdent (str "array") (Some 111)) []); (Node 2332 (KOther (str "*ast.BlockStmt")) [(Node 2333 (KAssign 1%nat) [(Node 2334 (KIdent (str "_") None) []); (Node 2335 (KIdent (str "i") (Some 117)) [])])])]); (Node 2336 (KRange true true) [(Node 2337 (KIdent (str "_") None) []); (Node 2338 (KIdent (str "si") (Some 115)) []); (Node 2339 (KIdent (str "pa") (Some 112)) []); (Node 2340 (KOther (str "*ast.BlockStmt")) [(Node 2341 (KAssign 1%nat) [(Node 2342 (KIdent (str "_") None) []); (Node 2343 (KIdent (str "si") (Some 115)) [])])])]); (Node 2344 (KRange true false) [(Node 2345 (KIdent (str "i") (Some 118)) []); (Node 2346 (KIdent (str "pa") (Some 112)) []); (Node 2347 (KOther (str "*ast.BlockStmt")) [(Node 2348 (KAssign 1%nat) [(Node 2349 (KIdent (str "_") None) []); (Node 2350 (KIdent (str "i") (Some 118)) [])])])]); (Node 2351 (KRange true true) [(Node 2352 (KIdent (str "_") None) []); (Node 2353 (KIdent (str "si") (Some 115)) []); (Node 2354 (KIdent (str "pa2") (Some 113)) []); (Node 2355 (KOther (str "*ast.BlockStmt")) [(Node 2356 (KAssign 1%nat) [(Node 2357 (KIdent (str "_") None) []); (Node 2358 (KIdent (str "si") (Some 115)) [])])])]); (Node 2359 (KRange true false) [(Node 2360 (KIdent (str "i") (Some 119)) []); (Node 2361 (KIdent (str "pa2") (Some 113)) []); (Node 2362 (KOther (str "*ast.BlockStmt")) [(Node 2363 (KAssign 1%nat) [(Node 2364 (KIdent (str "_") None) []); (Node 2365 (KIdent (str "i") (Some 119)) [])])])]); (Node 2366 (KRange true true) [(Node 2367 (KIdent (str "si") (Some 115)) []); (Node 2368 (KIdent (str "_") None) []); (Node 2369 (KIdent (str "m1") (Some 108)) []); (Node 2370 (KOther (str "*ast.BlockStmt")) [(Node 2371 (KAssign 1%nat) [(Node 2372 (KIdent (str "_") None) []); (Node 2373 (KIdent (str "si") (Some 115)) [])])])]); (Node 2374 (KRange true false) [(Node 2375 (KIdent (str "si") (Some 115)) []); (Node 2376 (KIdent (str "m1") (Some 108)) []); (Node 2377 (KOther (str "*ast.BlockStmt")) [(Node 2378 (KAssign 1%nat) [(Node 2379 (KIdent (str "_") None) []); (Node 2380 (KIdent (str "si") (Some 115)) [])])])]); (Node 2381 (KRange true true) [(Node 2382 (KIdent (str "_") None) []); (Node 2383 (KIdent (str "si") (Some 115)) []); (Node 2384 (KIdent (str "m2") (Some 109)) []); (Node 2385 (KOther (str "*ast.BlockStmt")) [(Node 2386 (KAssign 1%nat) [(Node 2387 (KIdent (str "_") None) []); (Node 2388 (KIdent (str "si") (Some 115)) [])])])]); (Node 2389 (KOther (str "*ast.DeclStmt")) [(Node 2390 (KOther (str "*ast.GenDecl")) [(Node 2391 (KValueSpec [(Ident 2392 (str "si2") (Some 120))] (Some 2393)) [])])]); (Node 2394 (KRange true true) [(Node 2395 (KIdent (str "si") (Some 115)) []); (Node 2396 (KIdent (str "si2") (Some 120)) []); (Node 2397 (KIdent (str "m3") (Some 110)) []); (Node 2398 (KOther (str "*ast.BlockStmt")) [(Node 2399 (KAssign 2%nat) [(Node 2400 (KIdent (str "_") None) []); (Node 2401 (KIdent (str "_") None) []); (Node 2402 (KIdent (str "si") (Some 115)) []); (Node 2403 (KIdent (str "si2") (Some 120)) [])])])]); (Node 2404 (KRange true true) [(Node 2405 (KIdent (str "si") (Some 115)) []); (Node 2406 (KIdent (str "si") (Some 115)) []); (Node 2407 (KIdent (str "m3") (Some 110)) []); (Node 2408 (KOther (str "*ast.BlockStmt")) [(Node 2409 (KAssign 1%nat) [(Node 2410 (KIdent (str "_") None) []); (Node 2411 (KIdent (str "si") (Some 115)) [])])])]); (Node 2412 (KRange true false) [(Node 2413 (KIdent (str "si") (Some 115)) []); (Node 2414 (KIdent (str "m3") (Some 110)) []); (Node 2415 (KOther (str "*ast.BlockStmt")) [(Node 2416 (KAssign 1%nat) [(Node 2417 (KIdent (str "_") None) []); (Node 2418 (KIdent (str "si") (Some 115)) [])])])]); (Node 2419 (KRange true false) [(Node 2420 (KIdent (str "si") (Some 115)) []); (Node 2421 (KIdent (str "c") (Some 114)) []); (Node 2422 (KOther (str "*ast.BlockStmt")) [(Node 2423 (KAssign 1%nat) [(Node 2424 (KIdent (str "_") None) []); (Node 2425 (KIdent (str "si") (Some 115)) [])])])])])) 39151 42121.
Definition t_interfaces_f42 : func := Func 2431 (Some (DeclInfo (Ident 2432 (str "InvalidChannelOperation") (Some 121)) None None)) (FuncType 2433 [(Field 2435 [(Ident 2436 (str "c") (Some 122))] 2437); (Field 2439 [(Ident 2440 (str "csi") (Some 123))] 2441); (Field 2443 [(Ident 2444 (str "csi2") (Some 124))] 2445)] None 0) (Some (Node 2446 (KOther (str "*ast.BlockStmt")) [(Node 2447 (KOther (str "*ast.DeclStmt")) [(Node 2448 (KOther (str "*ast.GenDecl")) [(Node 2449 (KValueSpec [(Ident 2450 (str "si") (Some 125))] (Some 2451)) [(Node 2452 (KUnary false) [(Node 2453 (KIdent (str "c") (Some 122)) [])])])])]); (Node 2454 (KOther (str "*ast.DeclStmt")) [(Node 2455 (KOther (str "*ast.GenDecl")) [(Node 2456 (KValueSpec [(Ident 2457 (str "some") (Some 126))] None) [(Node 2458 (KUnary false) [(Node 2459 (KIdent (str "c") (Some 122)) [])])])])]); (Node 2460 KSend [(Node 2461 (KIdent (str "c") (Some 122)) []); (Node 2462 KComposite [])]); (Node 2464 KSend [(Node 2465 (KIdent (str "c") (Some 122)) []); (Node 2466 (KIdent (str "some") (Some 126)) [])]); (Node 2467 KSend [(Node 2468 (KIdent (str "csi") (Some 123)) []); (Node 2469 KComposite [])]); (Node 2471 KSend [(Node 2472 (KIdent (str "csi") (Some 123)) []); (Node 2473 (KUnary false) [(Node 2474 (KIdent (str "c") (Some 122)) [])])]); (Node 2475 KSend [(Node 2476 (KIdent (str "csi") (Some 123)) []); (Node 2477 (KIdent (str "si") (Some 125)) [])]); (Node 2478 KSend [(Node 2479 (KIdent (str "csi2") (Some 124)) []); (Node 2480 KComposite [])]); (Node 2482 KSend [(Node 2483 (KIdent (str "csi2") (Some 124)) []); (Node 2484 (KUnary false) [(Node 2485 (KIdent (str "c") (Some 122)) [])])]); (Node 2486 (KOther (str "*ast.SelectStmt")) [(Node 2487 (KOther (str "*ast.BlockStmt")) [(Node 2488 (KOther (str "*ast.CommClause")) [(Node 2489 (KAssign 1%nat) [(Node 2490 (KIdent (str "si") (Some 125)) []); (Node 2491 (KUnary false) [(Node 2492 (KIdent (str "c") (Some 122)) [])])]); (Node 2493 (KAssign 1%nat) [(Node 2494 (KIdent (str "_") None) []); (Node 2495 (KIdent (str "si") (Some 125)) [])])]); (Node 2496 (KOther (str "*ast.CommClause")) [(Node 2497 (KAssign 1%nat) [(Node 2498 (KIdent (str "some") (Some 126)) []); (Node 2499 (KUnary false) [(Node 2500 (KIdent (str "c") (Some 122)) [])])]); (Node 2501 (KAssign 1%nat) [(Node 2502 (KIdent (str "_") None) []); (Node 2503 (KIdent (str "si") (Some 125)) [])])]); (Node 2504 (KOther (str "*ast.CommClause")) [(Node 2505 KSend [(Node 2506 (KIdent (str "c") (Some 122)) []); (Node 2507 KComposite [])]); (Node 2509 (KAssign 1%nat) [(Node 2510 (KIdent (str "_") None) []); (Node 2511 (KIdent (str "si") (Some 125)) [])])]); (Node 2512 (KOther (str "*ast.CommClause")) [(Node 2513 KSend [(Node 2514 (KIdent (str "c") (Some 122)) []); (Node 2515 (KIdent (str "some") (Some 126)) [])]); (Node 2516 (KAssign 1%nat) [(Node 2517 (KIdent (str "_") None) []); (Node 2518 (KIdent (str "si") (Some 125)) [])])]); (Node 2519 (KOther (str "*ast.CommClause")) [(Node 2520 KSend [(Node 2521 (KIdent (str "csi") (Some 123)) []); (Node 2522 KComposite [])]); (Node 2524 (KAssign 1%nat) [(Node 2525 (KIdent (str "_") None) []); (Node 2526 (KIdent (str "si") (Some 125)) [])])]); (Node 2527 (KOther (str "*ast.CommClause")) [(Node 2528 KSend [(Node 2529 (KIdent (str "csi") (Some 123)) []); (Node 2530 (KUnary false) [(Node 2531 (KIdent (str "c") (Some 122)) [])])]); (Node 2532 (KAssign 1%nat) [(Node 2533 (KIdent (str "_") None) []); (Node 2534 (KIdent (str "si") (Some 125)) [])])]); (Node 2535 (KOther (str "*ast.CommClause")) [(Node 2536 KSend [(Node 2537 (KIdent (str "csi2") (Some 124)) []); (Node 2538 KComposite [])]); (Node 2540 (KAssign 1%nat) [(Node 2541 (KIdent (str "_") None) []); (Node 2542 (KIdent (str "si") (Some 125)) [])])]); (Node 2543 (KOther (str "*ast.CommClause")) [(Node 2544 KSend [(Node 2545 (KIdent (str "csi2") (Some 124)) []); (Node 2546 (KUnary false) [(Node 2547 (KIdent (str "c") (Some 122)) [])])]); (Node 2548 (KAssign 1%nat) [(Node 2549 (KIdent (str "_") None) []); (Node 2550 (KIdent (str "si") (Some 125)) [])])]); (Node 2551 (KOther (str "*ast.CommClause")) [(Node 2552 KSend [(Node 2553 (KIdent (str "csi") (Some 123)) []); (Node 2554 (KIdent (str "si") (Some 125)) [])]); (Node 2555 (KAssign 1%nat) [(Node 2556 (KIdent (str "_") None) []); (Node 2557 (KIdent (str "si") (Some 125)) [])])])])])])) 42277 44769.
Definition t_interfaces_f43 : func := Func 2588 (Some (DeclInfo (Ident 2592 (str "local1") None) (Some [(Field 2590 [] 2591)]) None)) (FuncType 2593 [] (Some [(Field 2596 [] 2597)]) 45342) (Some (Node 2598 (KOther (str "*ast.BlockStmt")) [(Node 2599 KReturn [(Node 2600 (KUnary true) [(Node 2601 KComposite [(Node 2603 KBasicLit [])])])])])) 45348 45383.
Definition t_interfaces_f44 : func := Func 2604 (Some (DeclInfo (Ident 2608 (str "local2") None) (Some [(Field 2606 [] 2607)]) None)) (FuncType 2609 [] (Some [(Field 2612 [] 2613)]) 45431) (Some (Node 2614 (KOther (str "*ast.BlockStmt")) [(Node 2615 (KOther (str "*ast.SwitchStmt")) [(Node 2616 (KOther (str "*ast.BlockStmt")) [(Node 2617 (KCaseClause 1%nat) [(Node 2618 (KIdent (str "true") None) []); (Node 2619 KReturn [(Node 2620 (KUnary true) [(Node 2621 KComposite [(Node 2623 KBasicLit [])])])])]); (Node 2624 (KCaseClause 1%nat) [(Node 2625 (KIdent (str "true") None) []); (Node 2626 KReturn [(Node 2627 (KUnary true) [(Node 2628 KComposite [(Node 2630 KBasicLit [])])])])])])]); (Node 2631 KReturn [(Node 2632 (KUnary true) [(Node 2633 KComposite [(Node 2635 KBasicLit [])])])])])) 45437 45591.
Definition t_interfaces_f45 : func := Func 2636 (Some (DeclInfo (Ident 2640 (str "local3") None) (Some [(Field 2638 [] 2639)]) None)) (FuncType 2641 [] (Some [(Field 2644 [] 2645)]) 45639) (Some (Node 2646 (KOther (str "*ast.BlockStmt")) [(Node 2647 KReturn [(Node 2648 (KUnary true) [(Node 2649 KComposite [(Node 2651 KBasicLit [])])])])])) 45645 45680.
Definition t_interfaces_f46 : func := Func 2652 (Some (DeclInfo (Ident 2653 (str "InvalidLocalImplementation") (Some 127)) None None)) (FuncType 2654 [] None 0) (Some (Node 2656 (KOther (str "*ast.BlockStmt")) [(Node 2657 (KOther (str "*ast.DeclStmt")) [(Node 2658 (KOther (str "*ast.GenDecl")) [(Node 2659 (KValueSpec [(Ident 2660 (str "local") (Some 128))] (Some 2661)) [(Node 2662 KComposite [])])])]); (Node 2664 (KAssign 1%nat) [(Node 2665 (KIdent (str "_") None) []); (Node 2666 (KIdent (str "local") (Some 128)) [])])])) 45716 46147.
Definition t_interfaces_f47 : func := Func 2719 (Some (DeclInfo (Ident 2723 (str "I1") None) (Some [(Field 2721 [] 2722)]) (Some (comment_text [(str "// Errors:"); (str "//"); (str "//    - unknown-error --")])))) (FuncType 2724 [] (Some [(Field 2727 [] 2728)]) 46726) (Some (Node 2729 (KOther (str "*ast.BlockStmt")) [(Node 2730 KReturn [(Node 2731 (KUnary true) [(Node 2732 KComposite [(Node 2734 KBasicLit [])])])])])) 46732 46806.
Definition t_interfaces_f48 : func := Func 2735 (Some (DeclInfo (Ident 2739 (str "I2") None) (Some [(Field 2737 [] 2738)]) (Some (comment_text [(str "// Errors:"); (str "//"); (str "//    - unknown-error --")])))) (FuncType 2740 [] (Some [(Field 2743 [] 2744)]) 46881) (Some (Node 2745 (KOther (str "*ast.BlockStmt")) [(Node 2746 KReturn [(Node 2747 (KUnary true) [(Node 2748 KComposite [(Node 2750 KBasicLit [])])])])])) 46887 46961.
Definition t_interfaces_f49 : func := Func 2751 (Some (DeclInfo (Ident 2755 (str "I3") None) (Some [(Field 2753 [] 2754)]) (Some (comment_text [(str "// Errors:"); (str "//"); (str "//    - unknown-1-error --"); (str "//    - unknown-2-error --"); (str "//    - unknown-3-error --")])))) (FuncType 2756 [] (Some [(Field 2759 [] 2760)]) 47092) (Some (Node 2761 (KOther (str "*ast.BlockStmt")) [(Node 2762 (KOther (str "*ast.SwitchStmt")) [(Node 2763 (KOther (str "*ast.BlockStmt")) [(Node 2764 (KCaseClause 1%nat) [(Node 2765 (KIdent (str "true") None) []); (Node 2766 KReturn [(Node 2767 (KUnary true) [(Node 2768 KComposite [(Node 2770 KBasicLit [])])])])]); (Node 2771 (KCaseClause 1%nat) [(Node 2772 (KIdent (str "true") None) []); (Node 2773 KReturn [(Node 2774 (KUnary true) [(Node 2775 KComposite [(Node 2777 KBasicLit [])])])])]); (Node 2778 (KCaseClause 0%nat) [(Node 2779 KReturn [(Node 2780 (KUnary true) [(Node 2781 KComposite [(Node 2783 KBasicLit [])])])])])])])])) 47098 47326.
Definition t_interfaces_f50 : func := Func 2784 (Some (DeclInfo (Ident 2785 (str "GetInterface2InvalidImpl") (Some 129)) None None)) (FuncType 2786 [(Field 2788 [(Ident 2789 (str "_") (Some 130)); (Ident 2790 (str "_") (Some 131))] 2791); (Field 2792 [(Ident 2793 (str "_") (Some 132))] 2794)] (Some [(Field 2796 [] 2797)]) 47382) (Some (Node 2798 (KOther (str "*ast.BlockStmt")) [(Node 2799 KReturn [(Node 2800 KComposite [])])])) 47404 47439.
Definition t_interfaces_f51 : func := Func 2802 (Some (DeclInfo (Ident 2803 (str "NestedInvalidConversions") (Some 133)) None None)) (FuncType 2804 [(Field 2806 [(Ident 2807 (str "i3") (Some 134))] 2808)] None 0) (Some (Node 2809 (KOther (str "*ast.BlockStmt")) [(Node 2810 (KOther (str "*ast.DeclStmt")) [(Node 2811 (KOther (str "*ast.GenDecl")) [(Node 2812 (KValueSpec [(Ident 2813 (str "i1") (Some 135))] (Some 2814)) [(Node 2815 KComposite [(Node 2817 KBasicLit []); (Node 2818 KCall [(Node 2819 (KIdent (str "GetInterface2InvalidImpl") (Some 129)) []); (Node 2820 KBasicLit []); (Node 2821 KBasicLit []); (Node 2822 (KIdent (str "i3") (Some 134)) [])])])])])]); (Node 2823 (KAssign 1%nat) [(Node 2824 (KIdent (str "_") None) []); (Node 2825 (KIdent (str "i1") (Some 135)) [])])])) 47497 48105.
Definition t_interfaces_f52 : func := Func 2826 (Some (DeclInfo (Ident 2827 (str "InvalidEmbeddedInterface") (Some 136)) None None)) (FuncType 2828 [] (Some [(Field 2831 [] 2832)]) 48139) (Some (Node 2833 (KOther (str "*ast.BlockStmt")) [(Node 2834 KReturn [(Node 2835 KComposite [])])])) 48163 48383.
Definition t_interfaces_gendecls : list gendecl := [GenDecl 3 [None; None]; GenDecl 8 [(Some (TypeSpec (Ident 10 (str "SimpleInterface") (Some 137)) (XInterface 11 [IMethod 13 (Ident 14 (str "SimpleInterfaceMethod") None) (Some (comment_text [(str "// SimpleInterfaceMethod is a method returning an error with error codes declared in doc."); (str "//"); (str "// Errors:"); (str "//"); (str "//    - interface-1-error -- could potentially be returned"); (str "//    - interface-2-error -- could potentially be returned")])) (FuncType 15 [] (Some [(Field 18 [] 19)]) 428)])))]; GenDecl 20 [(Some (TypeSpec (Ident 22 (str "SomeInterface") (Some 142)) (XInterface 23 [IMethod 25 (Ident 26 (str "InterfaceMethod1") None) (Some (comment_text [(str "// InterfaceMethod1 is a method returning an error with error codes declared in doc."); (str "//"); (str "// Errors:"); (str "//"); (str "//    - interface-1-error -- could potentially be returned"); (str "//    - interface-2-error --")])) (FuncType 27 [] (Some [(Field 30 [] 31)]) 838); IMethod 32 (Ident 33 (str "InterfaceMethod2") None) (Some (comment_text [(str "// Errors:"); (str "//"); (str "//    - interface-3-error -- could potentially be returned"); (str "//    - interface-4-error --")])) (FuncType 34 [(Field 36 [(Ident 37 (str "a") (Some 138)); (Ident 38 (str "b") (Some 139))] 39)] (Some [(Field 41 [] 42)]) 1057); IMethod 43 (Ident 44 (str "MethodWithoutError") None) (Some (comment_text [(str "// MethodWithoutError is just some method that does not return an error,"); (str "// to test if it is correctly ignored in the analysis.")])) (FuncType 45 [(Field 47 [(Ident 48 (str "a") (Some 140)); (Ident 49 (str "b") (Some 141))] 50)] (Some [(Field 52 [] 53)]) 1302)])))]; GenDecl 54 [(Some (TypeSpec (Ident 56 (str "WithInvalidMethods") (Some 143)) (XInterface 57 [IMethod 59 (Ident 60 (str "InvalidMethod1") None) None (FuncType 61 [] (Some [(Field 64 [] 65); (Field 66 [] 67)]) 1366)])))]; GenDecl 68 [(Some (TypeSpec (Ident 70 (str "EmbeddedSimpleInterface") (Some 144)) (XInterface 71 [IEmbed 74 (str "SimpleInterface")]))); (Some (TypeSpec (Ident 76 (str "EmbeddedMultipleInterfaces") (Some 145)) (XInterface 77 [IEmbed 80 (str "SimpleInterface"); IEmbed 82 (str "SimpleInterface2"); IEmbed 84 (str "OtherSimpleInterface")]))); (Some (TypeSpec (Ident 86 (str "EmbeddedOtherPackage") (Some 146)) (XInterface 87 [IEmbed 90 (str "SimpleInterface"); IEmbedSel 92]))); (Some (TypeSpec (Ident 96 (str "EmbeddedOtherPackage2") (Some 147)) (XInterface 97 [IEmbed 100 (str "SimpleInterface"); IEmbedSel 102]))); (Some (TypeSpec (Ident 106 (str "EmbeddedOtherPackage3") (Some 148)) (XInterface 107 [IEmbedSel 110; IEmbedSel 114]))); (Some (TypeSpec (Ident 118 (str "SimpleInterface2") (Some 149)) (XInterface 119 [IMethod 121 (Ident 122 (str "SimpleInterfaceMethod") None) (Some (comment_text [(str "// Errors:"); (str "//"); (str "//    - interface-2-error -- could potentially be returned"); (str "//    - interface-3-error -- could potentially be returned")])) (FuncType 123 [] (Some [(Field 126 [] 127)]) 3112)]))); (Some (TypeSpec (Ident 129 (str "OtherSimpleInterface") (Some 150)) (XInterface 130 [IMethod 132 (Ident 133 (str "OtherMethod") None) (Some (comment_text [(str "// Errors:"); (str "//"); (str "//    - interface-5-error --")])) (FuncType 134 [] (Some [(Field 137 [] 138)]) 3360)]))); (Some (TypeSpec (Ident 140 (str "EmbeddedSimpleInterface2") (Some 151)) (XInterface 141 [IEmbed 144 (str "SimpleInterface"); IMethod 145 (Ident 146 (str "SimpleInterfaceMethod") None) (Some (comment_text [(str "// Errors:"); (str "//"); (str "//    - interface-1-error -- could potentially be returned"); (str "//    - interface-3-error -- could potentially be returned")])) (FuncType 147 [] (Some [(Field 150 [] 151)]) 3908)])))]; GenDecl 215 [(Some (TypeSpec (Ident 217 (str "ImplementInner1Interface1") (Some 152)) (XStruct []))); (Some (TypeSpec (Ident 221 (str "ImplementInner1Interface2") (Some 153)) (XStruct []))); (Some (TypeSpec (Ident 225 (str "ImplementInner1Interface3") (Some 154)) (XStruct [])))]; GenDecl 362 [(Some (TypeSpec (Ident 364 (str "ReeError") (Some 155)) (XInterface 365 [IMethod 367 (Ident 368 (str "Code") None) None (FuncType 369 [] (Some [(Field 372 [] 373)]) 6547); IMethod 374 (Ident 375 (str "Message") None) None (FuncType 376 [] (Some [(Field 379 [] 380)]) 6565); IMethod 381 (Ident 382 (str "Details") None) None (FuncType 383 [] (Some [(Field 386 [] 387)]) 6583); IMethod 390 (Ident 391 (str "Cause") None) None (FuncType 392 [] (Some [(Field 395 [] 396)]) 6610); IMethod 397 (Ident 398 (str "Error") None) None (FuncType 399 [] (Some [(Field 402 [] 403)]) 6625)])))]; GenDecl 446 [(Some (TypeSpec (Ident 448 (str "Error") (Some 156)) (XStruct [[(Ident 452 (str "TheCode") None)]])))]; GenDecl 540 [(Some (TypeSpec (Ident 542 (str "EmbeddedMultipleInterfaces2") (Some 157)) (XInterface 543 [IEmbed 546 (str "SimpleInterface"); IEmbed 548 (str "SimpleInterface2"); IEmbed 550 (str "OtherSimpleInterface")]))); (Some (TypeSpec (Ident 552 (str "EmbeddedSimpleInterfaceOtherFile") (Some 158)) (XInterface 553 [IEmbed 556 (str "SimpleInterface")]))); (Some (TypeSpec (Ident 558 (str "EmbeddedSimpleInterface2OtherFile") (Some 159)) (XInterface 559 [IEmbed 562 (str "SimpleInterface"); IMethod 563 (Ident 564 (str "SimpleInterfaceMethod") None) (Some (comment_text [(str "// Errors:"); (str "//"); (str "//    - interface-1-error -- could potentially be returned"); (str "//    - interface-3-error -- could potentially be returned")])) (FuncType 565 [] (Some [(Field 568 [] 569)]) 8676)])))]; GenDecl 572 [(Some (TypeSpec (Ident 574 (str "InvalidSimpleImpl") (Some 160)) (XStruct [])))]; GenDecl 577 [(Some (TypeSpec (Ident 579 (str "InterFaceWithoutErrorCodeDeclarations") (Some 161)) (XInterface 580 [IMethod 582 (Ident 583 (str "ExportedCodeNotDeclared") None) None (FuncType 584 [] (Some [(Field 587 [] 588)]) 8903); IMethod 589 (Ident 590 (str "localCodeNotDeclared") None) None (FuncType 591 [] (Some [(Field 594 [] 595)]) 9019)])))]; GenDecl 670 [None]; GenDecl 687 [None]; GenDecl 693 [None]; GenDecl 757 [None]; GenDecl 772 [None]; GenDecl 793 [None]; GenDecl 800 [None]; GenDecl 811 [None]; GenDecl 838 [None]; GenDecl 843 [None]; GenDecl 990 [None]; GenDecl 1030 [(Some (TypeSpec (Ident 1032 (str "SimpleInterfaceMap") (Some 162)) XOther))]; GenDecl 1083 [(Some (TypeSpec (Ident 1085 (str "SimpleInterfaceIncompatible") (Some 163)) (XInterface 1086 [IMethod 1088 (Ident 1089 (str "SimpleInterfaceMethod") None) (Some (comment_text [(str "// SimpleInterfaceMethod is a method returning an error with error codes declared in doc."); (str "//"); (str "// Errors:"); (str "//"); (str "//    - interface-1-error    -- could potentially be returned"); (str "//    - incompatible-1-error -- could potentially be returned"); (str "//    - incompatible-2-error -- could potentially be returned")])) (FuncType 1090 [] (Some [(Field 1093 [] 1094)]) 17122)])))]; GenDecl 1095 [(Some (TypeSpec (Ident 1097 (str "RandomInterface") (Some 85)) (XInterface 1098 [IMethod 1100 (Ident 1101 (str "RandomMethod") None) None (FuncType 1102 [] None 0)])))]; GenDecl 1155 [None]; GenDecl 1182 [(Some (TypeSpec (Ident 1184 (str "BoxSimpleInterface") (Some 164)) (XStruct [[(Ident 1188 (str "si") None)]])))]; GenDecl 1190 [(Some (TypeSpec (Ident 1192 (str "Box2SimpleInterface") (Some 165)) (XStruct [[(Ident 1196 (str "_") None); (Ident 1197 (str "_") None)]; [(Ident 1200 (str "_") None)]; [(Ident 1203 (str "_") None); (Ident 1204 (str "_") None)]])))]; GenDecl 1206 [(Some (TypeSpec (Ident 1208 (str "Box3SimpleInterface") (Some 166)) (XStruct [[(Ident 1212 (str "u") None); (Ident 1213 (str "v") None)]; [(Ident 1216 (str "x") None); (Ident 1217 (str "y") None)]])))]; GenDecl 1477 [(Some (TypeSpec (Ident 1479 (str "interfaceSlice") (Some 167)) XOther))]; GenDecl 1482 [(Some (TypeSpec (Ident 1484 (str "interfaceSlice2") (Some 168)) XOther))]; GenDecl 1526 [None]; GenDecl 1651 [(Some (TypeSpec (Ident 1653 (str "interfaceArray") (Some 169)) XOther))]; GenDecl 1657 [(Some (TypeSpec (Ident 1659 (str "interfaceArray2") (Some 170)) XOther))]; GenDecl 1705 [None]; GenDecl 1833 [(Some (TypeSpec (Ident 1835 (str "interfaceMap") (Some 171)) XOther))]; GenDecl 1839 [(Some (TypeSpec (Ident 1841 (str "interfaceMap2") (Some 172)) XOther))]; GenDecl 1883 [None]; GenDecl 2126 [None]; GenDecl 2199 [None]; GenDecl 2235 [(Some (TypeSpec (Ident 2237 (str "InvalidSimpleImplSlice") (Some 173)) XOther)); (Some (TypeSpec (Ident 2241 (str "InvalidSimpleImplMap1") (Some 174)) XOther)); (Some (TypeSpec (Ident 2247 (str "InvalidSimpleImplMap2") (Some 175)) XOther)); (Some (TypeSpec (Ident 2252 (str "InvalidSimpleImplMap3") (Some 176)) XOther)); (Some (TypeSpec (Ident 2257 (str "InvalidSimpleImplArray") (Some 177)) XOther)); (Some (TypeSpec (Ident 2262 (str "InvalidSimpleImplPointerToArray") (Some 178)) XOther)); (Some (TypeSpec (Ident 2268 (str "InvalidSimpleImplChan") (Some 179)) XOther))]; GenDecl 2302 [None]; GenDecl 2390 [None]; GenDecl 2426 [(Some (TypeSpec (Ident 2428 (str "SimpleInterfaceChan") (Some 180)) XOther))]; GenDecl 2448 [None]; GenDecl 2455 [None]; GenDecl 2558 [(Some (TypeSpec (Ident 2560 (str "someLocalInterface") (Some 181)) (XInterface 2561 [IMethod 2563 (Ident 2564 (str "local1") None) (Some (comment_text [(str "// Errors:"); (str "//"); (str "//    - local-1-error --"); (str "//    - local-2-error --")])) (FuncType 2565 [] (Some [(Field 2568 [] 2569)]) 44952); IMethod 2570 (Ident 2571 (str "local2") None) (Some (comment_text [(str "// Errors:"); (str "//"); (str "//    - local-3-error --"); (str "//    - local-4-error --")])) (FuncType 2572 [] (Some [(Field 2575 [] 2576)]) 45099); IMethod 2577 (Ident 2578 (str "local3") None) None (FuncType 2579 [] (Some [(Field 2582 [] 2583)]) 45174)]))); (Some (TypeSpec (Ident 2585 (str "someLocalInterfaceInvalidImpl") (Some 182)) (XStruct [])))]; GenDecl 2658 [None]; GenDecl 2667 [(Some (TypeSpec (Ident 2669 (str "Interface1") (Some 183)) (XInterface 2670 [IMethod 2672 (Ident 2673 (str "I1") None) (Some (comment_text [(str "// Errors: none")])) (FuncType 2674 [] (Some [(Field 2677 [] 2678)]) 46245)]))); (Some (TypeSpec (Ident 2680 (str "Interface2") (Some 184)) (XInterface 2681 [IMethod 2683 (Ident 2684 (str "I2") None) (Some (comment_text [(str "// Errors: none")])) (FuncType 2685 [] (Some [(Field 2688 [] 2689)]) 46368)]))); (Some (TypeSpec (Ident 2691 (str "Interface3") (Some 185)) (XInterface 2692 [IMethod 2694 (Ident 2695 (str "I3") None) (Some (comment_text [(str "// Errors: none")])) (FuncType 2696 [] (Some [(Field 2699 [] 2700)]) 46491)]))); (Some (TypeSpec (Ident 2702 (str "Interface1InvalidImpl") (Some 186)) (XStruct [[(Ident 2706 (str "_") None)]; [(Ident 2709 (str "_") None)]]))); (Some (TypeSpec (Ident 2712 (str "Interface2InvalidImpl") (Some 187)) (XStruct []))); (Some (TypeSpec (Ident 2716 (str "Interface3InvalidImpl") (Some 188)) (XStruct [])))]; GenDecl 2811 [None]].
Definition t_interfaces_top : list topdecl := [TopNode (Node 3 (KOther (str "*ast.GenDecl")) [(Node 4 (KOther (str "*ast.ImportSpec")) []); (Node 6 (KOther (str "*ast.ImportSpec")) [])]); TopNode (Node 8 (KOther (str "*ast.GenDecl")) [(Node 9 (KOther (str "*ast.TypeSpec")) [])]); TopNode (Node 20 (KOther (str "*ast.GenDecl")) [(Node 21 (KOther (str "*ast.TypeSpec")) [])]); TopNode (Node 54 (KOther (str "*ast.GenDecl")) [(Node 55 (KOther (str "*ast.TypeSpec")) [])]); TopNode (Node 68 (KOther (str "*ast.GenDecl")) [(Node 69 (KOther (str "*ast.TypeSpec")) []); (Node 75 (KOther (str "*ast.TypeSpec")) []); (Node 85 (KOther (str "*ast.TypeSpec")) []); (Node 95 (KOther (str "*ast.TypeSpec")) []); (Node 105 (KOther (str "*ast.TypeSpec")) []); (Node 117 (KOther (str "*ast.TypeSpec")) []); (Node 128 (KOther (str "*ast.TypeSpec")) []); (Node 139 (KOther (str "*ast.TypeSpec")) [])]); TopFunc 1; TopFunc 2; TopNode (Node 215 (KOther (str "*ast.GenDecl")) [(Node 216 (KOther (str "*ast.TypeSpec")) []); (Node 220 (KOther (str "*ast.TypeSpec")) []); (Node 224 (KOther (str "*ast.TypeSpec")) [])]); TopFunc 3; TopFunc 4; TopFunc 5; TopFunc 6; TopFunc 7; TopFunc 8; TopFunc 9; TopNode (Node 362 (KOther (str "*ast.GenDecl")) [(Node 363 (KOther (str "*ast.TypeSpec")) [])]); TopFunc 10; TopFunc 11; TopFunc 12; TopNode (Node 446 (KOther (str "*ast.GenDecl")) [(Node 447 (KOther (str "*ast.TypeSpec")) [])]); TopFunc 13; TopFunc 14; TopFunc 15; TopFunc 16; TopFunc 17; TopNode (Node 540 (KOther (str "*ast.GenDecl")) [(Node 541 (KOther (str "*ast.TypeSpec")) []); (Node 551 (KOther (str "*ast.TypeSpec")) []); (Node 557 (KOther (str "*ast.TypeSpec")) [])]); TopNode (Node 572 (KOther (str "*ast.GenDecl")) [(Node 573 (KOther (str "*ast.TypeSpec")) [])]); TopNode (Node 577 (KOther (str "*ast.GenDecl")) [(Node 578 (KOther (str "*ast.TypeSpec")) [])]); TopFunc 18; TopFunc 19; TopFunc 20; TopFunc 21; TopFunc 22; TopFunc 23; TopFunc 24; TopFunc 25; TopFunc 26; TopFunc 27; TopFunc 28; TopFunc 29; TopFunc 30; TopFunc 31; TopFunc 32; TopNode (Node 1030 (KOther (str "*ast.GenDecl")) [(Node 1031 (KOther (str "*ast.TypeSpec")) [])]); TopFunc 34; TopNode (Node 1083 (KOther (str "*ast.GenDecl")) [(Node 1084 (KOther (str "*ast.TypeSpec")) [])]); TopNode (Node 1095 (KOther (str "*ast.GenDecl")) [(Node 1096 (KOther (str "*ast.TypeSpec")) [])]); TopFunc 35; TopNode (Node 1182 (KOther (str "*ast.GenDecl")) [(Node 1183 (KOther (str "*ast.TypeSpec")) [])]); TopNode (Node 1190 (KOther (str "*ast.GenDecl")) [(Node 1191 (KOther (str "*ast.TypeSpec")) [])]); TopNode (Node 1206 (KOther (str "*ast.GenDecl")) [(Node 1207 (KOther (str "*ast.TypeSpec")) [])]); TopFunc 36; TopNode (Node 1477 (KOther (str "*ast.GenDecl")) [(Node 1478 (KOther (str "*ast.TypeSpec")) [])]); TopNode (Node 1482 (KOther (str "*ast.GenDecl")) [(Node 1483 (KOther (str "*ast.TypeSpec")) [])]); TopFunc 37; TopNode (Node 1651 (KOther (str "*ast.GenDecl")) [(Node 1652 (KOther (str "*ast.TypeSpec")) [])]); TopNode (Node 1657 (KOther (str "*ast.GenDecl")) [(Node 1658 (KOther (str "*ast.TypeSpec")) [])]); TopFunc 38; TopNode (Node 1833 (KOther (str "*ast.GenDecl")) [(Node 1834 (KOther (str "*ast.TypeSpec")) [])]); TopNode (Node 1839 (KOther (str "*ast.GenDecl")) [(Node 1840 (KOther (str "*ast.TypeSpec")) [])]); TopFunc 39; TopFunc 40; TopNode (Node 2235 (KOther (str "*ast.GenDecl")) [(Node 2236 (KOther (str "*ast.TypeSpec")) []); (Node 2240 (KOther (str "*ast.TypeSpec")) []); (Node 2246 (KOther (str "*ast.TypeSpec")) []); (Node 2251 (KOther (str "*ast.TypeSpec")) []); (Node 2256 (KOther (str "*ast.TypeSpec")) []); (Node 2261 (KOther (str "*ast.TypeSpec")) []); (Node 2267 (KOther (str "*ast.TypeSpec")) [])]); TopFunc 41; TopNode (Node 2426 (KOther (str "*ast.GenDecl")) [(Node 2427 (KOther (str "*ast.TypeSpec")) [])]); TopFunc 42; TopNode (Node 2558 (KOther (str "*ast.GenDecl")) [(Node 2559 (KOther (str "*ast.TypeSpec")) []); (Node 2584 (KOther (str "*ast.TypeSpec")) [])]); TopFunc 43; TopFunc 44; TopFunc 45; TopFunc 46; TopNode (Node 2667 (KOther (str "*ast.GenDecl")) [(Node 2668 (KOther (str "*ast.TypeSpec")) []); (Node 2679 (KOther (str "*ast.TypeSpec")) []); (Node 2690 (KOther (str "*ast.TypeSpec")) []); (Node 2701 (KOther (str "*ast.TypeSpec")) []); (Node 2711 (KOther (str "*ast.TypeSpec")) []); (Node 2715 (KOther (str "*ast.TypeSpec")) [])]); TopFunc 47; TopFunc 48; TopFunc 49; TopFunc 50; TopFunc 51; TopFunc 52].
Definition t_interfaces_objs : list (N * object) := [(1, Object false 4135 (DFunc 1)); (2, Object true 4150 DOther); (3, Object true 4170 DOther); (4, Object true 4173 DOther); (5, Object false 4522 (DFunc 2)); (6, Object true 4536 DOther); (7, Object true 4539 DOther); (8, Object true 5195 DOther); (9, Object true 5198 DOther); (10, Object true 5382 DOther); (11, Object true 5385 DOther); (12, Object false 6242 (DFunc 9)); (13, Object true 6279 DOther); (14, Object true 6282 DOther); (15, Object false 6675 (DFunc 10)); (16, Object false 6858 (DFunc 11)); (17, Object true 6880 DOther); (18, Object false 7045 (DFunc 12)); (19, Object true 7070 DOther); (20, Object true 7251 DOther); (21, Object true 7316 DOther); (22, Object true 7381 DOther); (23, Object true 7440 DOther); (24, Object true 7499 DOther); (25, Object false 9565 (DFunc 19)); (26, Object false 9816 (DFunc 20)); (27, Object false 10087 (DFunc 21)); (28, Object true 10105 DOther); (29, Object true 10108 DOther); (30, Object true 10115 DOther); (31, Object true 10118 DOther); (32, Object false 10368 (DFunc 22)); (33, Object true 10412 (DValueSpec [(Ident 672 (str "x") (Some 33))] [])); (34, Object false 10655 (DFunc 23)); (35, Object true 10683 (DValueSpec [(Ident 689 (str "x") (Some 35)); (Ident 690 (str "y") (Some 36))] [])); (36, Object true 10686 (DValueSpec [(Ident 689 (str "x") (Some 35)); (Ident 690 (str "y") (Some 36))] [])); (37, Object true 10697 (DValueSpec [(Ident 695 (str "z") (Some 37))] [])); (38, Object false 10960 (DFunc 24)); (39, Object true 10982 DOther); (40, Object true 10989 DOther); (41, Object true 10992 DOther); (42, Object false 11251 (DFunc 25)); (43, Object false 11378 (DFunc 26)); (44, Object true 11406 (DValueSpec [(Ident 759 (str "y") (Some 44))] [])); (45, Object true 11425 DOther); (46, Object true 11662 (DValueSpec [(Ident 774 (str "u") (Some 46)); (Ident 775 (str "v") (Some 47))] [])); (47, Object true 11665 (DValueSpec [(Ident 774 (str "u") (Some 46)); (Ident 775 (str "v") (Some 47))] [])); (48, Object false 12106 (DFunc 27)); (49, Object true 12134 (DValueSpec [(Ident 795 (str "x1") (Some 49))] [(Node 797 KComposite [])])); (50, Object true 12378 (DValueSpec [(Ident 802 (str "x2") (Some 50)); (Ident 803 (str "x3") (Some 51)); (Ident 804 (str "_") (Some 52))] [(Node 806 (KIdent (str "nil") None) []); (Node 807 KComposite []); (Node 809 (KIdent (str "nil") None) [])])); (51, Object true 12382 (DValueSpec [(Ident 802 (str "x2") (Some 50)); (Ident 803 (str "x3") (Some 51)); (Ident 804 (str "_") (Some 52))] [(Node 806 (KIdent (str "nil") None) []); (Node 807 KComposite []); (Node 809 (KIdent (str "nil") None) [])])); (52, Object true 12386 (DValueSpec [(Ident 802 (str "x2") (Some 50)); (Ident 803 (str "x3") (Some 51)); (Ident 804 (str "_") (Some 52))] [(Node 806 (KIdent (str "nil") None) []); (Node 807 KComposite []); (Node 809 (KIdent (str "nil") None) [])])); (53, Object true 12622 (DValueSpec [(Ident 813 (str "x4") (Some 53)); (Ident 814 (str "_") (Some 54))] [(Node 816 KCall [(Node 817 (KIdent (str "ReturnTwoInvalidSimpleImpl") (Some 42)) [])])])); (54, Object true 12626 (DValueSpec [(Ident 813 (str "x4") (Some 53)); (Ident 814 (str "_") (Some 54))] [(Node 816 KCall [(Node 817 (KIdent (str "ReturnTwoInvalidSimpleImpl") (Some 42)) [])])])); (55, Object false 13082 (DFunc 28)); (56, Object true 13101 DOther); (57, Object true 13137 (DValueSpec [(Ident 840 (str "si") (Some 57))] [])); (58, Object true 13161 (DValueSpec [(Ident 845 (str "ok") (Some 58))] [])); (59, Object false 14058 (DFunc 29)); (60, Object true 14080 DOther); (61, Object true 14083 DOther); (62, Object true 14090 DOther); (63, Object false 14118 (DFunc 30)); (64, Object true 14148 DOther); (65, Object true 14155 DOther); (66, Object false 14186 (DFunc 31)); (67, Object true 14213 DOther); (68, Object true 14220 DOther); (69, Object false 14250 (DFunc 32)); (70, Object true 14275 DOther); (71, Object true 15243 (DValueSpec [(Ident 992 (str "slice") (Some 71))] [])); (72, Object true 15744 DOther); (73, Object true 15759 DOther); (74, Object false 16053 (DFunc 34)); (75, Object true 16071 DOther); (76, Object true 16104 DOther); (77, Object true 16128 DOther); (78, Object false 17292 (DFunc 35)); (79, Object true 17310 DOther); (80, Object true 17352 DOther); (81, Object true 18124 DOther); (82, Object true 18127 DOther); (83, Object true 18476 (DValueSpec [(Ident 1157 (str "si") (Some 83))] [])); (84, Object true 18503 DOther); (85, Object false 17240 DType); (86, Object false 19063 (DFunc 36)); (87, Object false 24067 (DFunc 37)); (88, Object false 24854 (DValueSpec [(Ident 1528 (str "index") (Some 88))] [(Node 1529 (KOther (str "*ast.BinaryExpr")) [(Node 1530 KBasicLit []); (Node 1531 KBasicLit [])])])); (89, Object false 27673 (DFunc 38)); (90, Object false 28466 (DValueSpec [(Ident 1707 (str "index") (Some 90))] [(Node 1708 (KOther (str "*ast.BinaryExpr")) [(Node 1709 KBasicLit []); (Node 1710 KBasicLit [])])])); (91, Object false 31291 (DFunc 39)); (92, Object false 31667 (DValueSpec [(Ident 1885 (str "index") (Some 92))] [(Node 1886 (KOther (str "*ast.BinaryExpr")) [(Node 1887 KBasicLit []); (Node 1888 KBasicLit [])])])); (93, Object false 35495 (DFunc 40)); (94, Object true 35513 DOther); (95, Object true 35541 DOther); (96, Object true 35577 DOther); (97, Object true 35611 DOther); (98, Object true 35656 DOther); (99, Object true 35685 DOther); (100, Object true 35712 DOther); (101, Object true 35747 (DValueSpec [(Ident 2128 (str "si") (Some 101))] [])); (102, Object true 35992 DOther); (103, Object true 36249 DOther); (104, Object true 36503 DOther); (105, Object true 37187 (DValueSpec [(Ident 2201 (str "si2") (Some 105))] [])); (106, Object false 38891 (DFunc 41)); (107, Object true 38914 DOther); (108, Object true 38945 DOther); (109, Object true 38972 DOther); (110, Object true 38999 DOther); (111, Object true 39026 DOther); (112, Object true 39057 DOther); (113, Object true 39094 DOther); (114, Object true 39124 DOther); (115, Object true 39158 (DValueSpec [(Ident 2304 (str "si") (Some 115))] [])); (116, Object true 39403 DOther); (117, Object true 39660 DOther); (118, Object true 39914 DOther); (119, Object true 40166 DOther); (120, Object true 40851 (DValueSpec [(Ident 2392 (str "si2") (Some 120))] [])); (121, Object false 42175 (DFunc 42)); (122, Object true 42199 DOther); (123, Object true 42225 DOther); (124, Object true 42251 DOther); (125, Object true 42284 (DValueSpec [(Ident 2450 (str "si") (Some 125))] [(Node 2452 (KUnary false) [(Node 2453 (KIdent (str "c") (Some 122)) [])])])); (126, Object true 42495 (DValueSpec [(Ident 2457 (str "some") (Some 126))] [(Node 2458 (KUnary false) [(Node 2459 (KIdent (str "c") (Some 122)) [])])])); (127, Object false 45687 (DFunc 46)); (128, Object true 45723 (DValueSpec [(Ident 2660 (str "local") (Some 128))] [(Node 2662 KComposite [])])); (129, Object false 47333 (DFunc 50)); (130, Object true 47358 DOther); (131, Object true 47361 DOther); (132, Object true 47368 DOther); (133, Object false 47446 (DFunc 51)); (134, Object true 47471 DOther); (135, Object true 47504 (DValueSpec [(Ident 2813 (str "i1") (Some 135))] [(Node 2815 KComposite [(Node 2817 KBasicLit []); (Node 2818 KCall [(Node 2819 (KIdent (str "GetInterface2InvalidImpl") (Some 129)) []); (Node 2820 KBasicLit []); (Node 2821 KBasicLit []); (Node 2822 (KIdent (str "i3") (Some 134)) [])])])])); (136, Object false 48112 (DFunc 52)); (137, Object false 80 DType); (138, Object true 1044 DOther); (139, Object true 1047 DOther); (140, Object true 1289 DOther); (141, Object true 1292 DOther); (142, Object false 522 DType); (143, Object false 1317 DType); (144, Object false 1449 DType); (145, Object false 1580 DType); (146, Object false 1961 DType); (147, Object false 2111 DType); (148, Object false 2478 DType); (149, Object false 2852 DType); (150, Object false 3203 DType); (151, Object false 3423 DType); (152, Object false 4802 DType); (153, Object false 4838 DType); (154, Object false 4874 DType); (155, Object false 6518 DType); (156, Object false 7141 DType); (157, Object false 7641 DType); (158, Object false 8024 DType); (159, Object false 8173 DType); (160, Object false 8793 DType); (161, Object false 8826 DType); (162, Object false 15999 DType); (163, Object false 16681 DType); (164, Object false 18847 DType); (165, Object false 18903 DType); (166, Object false 18994 DType); (167, Object false 23992 DType); (168, Object false 24030 DType); (169, Object false 27597 DType); (170, Object false 27636 DType); (171, Object false 31214 DType); (172, Object false 31256 DType); (173, Object false 38467 DType); (174, Object false 38520 DType); (175, Object false 38584 DType); (176, Object false 38646 DType); (177, Object false 38719 DType); (178, Object false 38773 DType); (179, Object false 38828 DType); (180, Object false 42128 DType); (181, Object false 44779 DType); (182, Object false 45254 DType); (183, Object false 46157 DType); (184, Object false 46280 DType); (185, Object false 46403 DType); (186, Object false 46526 DType); (187, Object false 46587 DType); (188, Object false 46619 DType)].
Definition t_interfaces_types : list (N * gotype) := [(10, (TNamed 142)); (11, (TInterface 6)); (14, (TSignature [] [(TNamed 1)] false)); (15, (TSignature [] [(TNamed 1)] false)); (19, (TNamed 1)); (22, (TNamed 143)); (23, (TInterface 9)); (26, (TSignature [] [(TNamed 1)] false)); (27, (TSignature [] [(TNamed 1)] false)); (31, (TNamed 1)); (33, (TSignature [(TBasic (str "string")); (TBasic (str "string"))] [(TNamed 1)] false)); (34, (TSignature [(TBasic (str "string")); (TBasic (str "string"))] [(TNamed 1)] false)); (37, (TBasic (str "string"))); (38, (TBasic (str "string"))); (39, (TBasic (str "string"))); (42, (TNamed 1)); (44, (TSignature [(TBasic (str "string")); (TBasic (str "string"))] [(TBasic (str "string"))] false)); (45, (TSignature [(TBasic (str "string")); (TBasic (str "string"))] [(TBasic (str "string"))] false)); (48, (TBasic (str "string"))); (49, (TBasic (str "string"))); (50, (TBasic (str "string"))); (53, (TBasic (str "string"))); (56, (TNamed 144)); (57, (TInterface 10)); (60, (TSignature [] [(TNamed 1); (TBasic (str "string"))] false)); (61, (TSignature [] [(TNamed 1); (TBasic (str "string"))] false)); (65, (TNamed 1)); (67, (TBasic (str "string"))); (70, (TNamed 145)); (71, (TInterface 6)); (74, (TNamed 142)); (76, (TNamed 146)); (77, (TInterface 12)); (80, (TNamed 142)); (82, (TNamed 150)); (84, (TNamed 151)); (86, (TNamed 147)); (87, (TInterface 6)); (90, (TNamed 142)); (92, (TNamed 48)); (94, (TNamed 48)); (96, (TNamed 148)); (97, (TInterface 6)); (100, (TNamed 142)); (102, (TNamed 49)); (104, (TNamed 49)); (106, (TNamed 149)); (107, (TInterface 6)); (110, (TNamed 48)); (112, (TNamed 48)); (114, (TNamed 49)); (116, (TNamed 49)); (118, (TNamed 150)); (119, (TInterface 6)); (122, (TSignature [] [(TNamed 1)] false)); (123, (TSignature [] [(TNamed 1)] false)); (127, (TNamed 1)); (129, (TNamed 151)); (130, (TInterface 11)); (133, (TSignature [] [(TNamed 1)] false)); (134, (TSignature [] [(TNamed 1)] false)); (138, (TNamed 1)); (140, (TNamed 152)); (141, (TInterface 6)); (144, (TNamed 142)); (146, (TSignature [] [(TNamed 1)] false)); (147, (TSignature [] [(TNamed 1)] false)); (151, (TNamed 1)); (154, (TSignature [(TNamed 143); (TBasic (str "string")); (TBasic (str "string"))] [(TNamed 1)] false)); (157, (TNamed 143)); (158, (TNamed 143)); (160, (TBasic (str "string"))); (161, (TBasic (str "string"))); (162, (TBasic (str "string"))); (165, (TNamed 1)); (168, (TBasic (str "bool"))); (171, (TNamed 1)); (172, (TSignature [] [(TNamed 1)] false)); (173, (TNamed 143)); (174, (TSignature [] [(TNamed 1)] false)); (176, (TNamed 1)); (177, (TSignature [(TBasic (str "string")); (TBasic (str "string"))] [(TNamed 1)] false)); (178, (TNamed 143)); (179, (TSignature [(TBasic (str "string")); (TBasic (str "string"))] [(TNamed 1)] false)); (180, (TBasic (str "string"))); (181, (TBasic (str "string"))); (184, (TSignature [(TBasic (str "string")); (TBasic (str "string"))] [(TNamed 1)] false)); (187, (TBasic (str "string"))); (188, (TBasic (str "string"))); (189, (TBasic (str "string"))); (192, (TNamed 1)); (195, (TBasic (str "bool"))); (198, (TNamed 1)); (199, (TSignature [(TNamed 143); (TBasic (str "string")); (TBasic (str "string"))] [(TNamed 1)] false)); (200, (TNamed 56)); (201, (TNamed 56)); (203, (TNamed 56)); (204, (TBasic (str "string"))); (205, (TBasic (str "string"))); (207, (TNamed 1)); (208, (TSignature [(TNamed 143); (TBasic (str "string")); (TBasic (str "string"))] [(TNamed 1)] false)); (209, (TNamed 105)); (210, (TNamed 105)); (212, (TNamed 105)); (213, (TBasic (str "string"))); (214, (TBasic (str "string"))); (217, (TNamed 155)); (218, (TStruct [])); (221, (TNamed 156)); (222, (TStruct [])); (225, (TNamed 157)); (226, (TStruct [])); (231, (TNamed 155)); (233, (TSignature [] [(TNamed 1)] false)); (237, (TNamed 1)); (240, (TPointer (TNamed 169))); (241, (TNamed 169)); (242, (TNamed 169)); (243, (TBasic (str "string"))); (247, (TNamed 155)); (249, (TSignature [(TBasic (str "string")); (TBasic (str "string"))] [(TPointer (TNamed 64))] false)); (252, (TBasic (str "string"))); (253, (TBasic (str "string"))); (254, (TBasic (str "string"))); (257, (TPointer (TNamed 64))); (258, (TNamed 64)); (260, (TNamed 64)); (263, (TPointer (TNamed 64))); (264, (TNamed 64)); (265, (TNamed 64)); (267, (TNamed 64)); (268, (TBasic (str "string"))); (272, (TNamed 155)); (274, (TSignature [(TBasic (str "string")); (TBasic (str "string"))] [(TBasic (str "string"))] false)); (277, (TBasic (str "string"))); (278, (TBasic (str "string"))); (279, (TBasic (str "string"))); (282, (TBasic (str "string"))); (285, (TBasic (str "string"))); (289, (TNamed 156)); (291, (TSignature [] [(TNamed 1)] false)); (295, (TNamed 1)); (298, (TPointer (TNamed 169))); (299, (TNamed 169)); (300, (TNamed 169)); (301, (TBasic (str "string"))); (305, (TNamed 157)); (307, (TSignature [] [(TNamed 1)] false)); (311, (TNamed 1)); (314, TUntypedNil); (318, (TNamed 157)); (320, (TSignature [] [(TNamed 1)] false)); (324, (TNamed 1)); (327, (TBasic (str "bool"))); (330, (TPointer (TNamed 169))); (331, (TNamed 169)); (332, (TNamed 169)); (333, (TBasic (str "string"))); (335, (TPointer (TNamed 169))); (336, (TNamed 169)); (337, (TNamed 169)); (338, (TBasic (str "string"))); (341, (TSignature [(TBasic (str "string")); (TBasic (str "string"))] [(TNamed 1)] false)); (344, (TBasic (str "string"))); (345, (TBasic (str "string"))); (346, (TBasic (str "string"))); (349, (TNamed 1)); (352, (TNamed 1)); (353, (TSignature [(TBasic (str "string")); (TBasic (str "string")); (TNamed 47)] [(TNamed 1)] false)); (355, (TSignature [(TBasic (str "string")); (TBasic (str "string")); (TNamed 47)] [(TNamed 1)] false)); (356, (TBasic (str "string"))); (357, (TBasic (str "string"))); (358, (TNamed 113)); (359, (TNamed 113)); (361, (TNamed 113)); (364, (TNamed 165)); (365, (TInterface 13)); (368, (TSignature [] [(TBasic (str "string"))] false)); (369, (TSignature [] [(TBasic (str "string"))] false)); (373, (TBasic (str "string"))); (375, (TSignature [] [(TBasic (str "string"))] false)); (376, (TSignature [] [(TBasic (str "string"))] false)); (380, (TBasic (str "string"))); (382, (TSignature [] [(TMap (TBasic (str "string")) (TBasic (str "string")))] false)); (383, (TSignature [] [(TMap (TBasic (str "string")) (TBasic (str "string")))] false)); (387, (TMap (TBasic (str "string")) (TBasic (str "string")))); (388, (TBasic (str "string"))); (389, (TBasic (str "string"))); (391, (TSignature [] [(TNamed 1)] false)); (392, (TSignature [] [(TNamed 1)] false)); (396, (TNamed 1)); (398, (TSignature [] [(TBasic (str "string"))] false)); (399, (TSignature [] [(TBasic (str "string"))] false)); (403, (TBasic (str "string"))); (406, (TSignature [] [(TNamed 165)] false)); (410, (TNamed 165)); (413, (TPointer (TNamed 169))); (414, (TNamed 169)); (415, (TNamed 169)); (416, (TBasic (str "string"))); (419, (TSignature [(TNamed 145)] [(TNamed 1)] false)); (422, (TNamed 145)); (423, (TNamed 145)); (426, (TNamed 1)); (429, (TNamed 1)); (430, (TSignature [] [(TNamed 1)] false)); (431, (TNamed 145)); (432, (TSignature [] [(TNamed 1)] false)); (435, (TSignature [(TNamed 145)] [(TNamed 142)] false)); (438, (TNamed 145)); (439, (TNamed 145)); (442, (TNamed 142)); (445, (TNamed 145)); (448, (TNamed 169)); (449, (TStruct [((str "TheCode"), (TBasic (str "string")))])); (452, (TBasic (str "string"))); (453, (TBasic (str "string"))); (457, (TPointer (TNamed 169))); (458, (TPointer (TNamed 169))); (459, (TNamed 169)); (461, (TSignature [] [(TBasic (str "string"))] false)); (465, (TBasic (str "string"))); (468, (TBasic (str "string"))); (469, (TPointer (TNamed 169))); (470, (TBasic (str "string"))); (474, (TPointer (TNamed 169))); (475, (TPointer (TNamed 169))); (476, (TNamed 169)); (478, (TSignature [] [(TBasic (str "string"))] false)); (482, (TBasic (str "string"))); (485, (TBasic (str "string"))); (486, (TPointer (TNamed 169))); (487, (TBasic (str "string"))); (491, (TPointer (TNamed 169))); (492, (TPointer (TNamed 169))); (493, (TNamed 169)); (495, (TSignature [] [(TMap (TBasic (str "string")) (TBasic (str "string")))] false)); (499, (TMap (TBasic (str "string")) (TBasic (str "string")))); (500, (TBasic (str "string"))); (501, (TBasic (str "string"))); (504, TUntypedNil); (508, (TPointer (TNamed 169))); (509, (TPointer (TNamed 169))); (510, (TNamed 169)); (512, (TSignature [] [(TNamed 1)] false)); (516, (TNamed 1)); (519, TUntypedNil); (523, (TPointer (TNamed 169))); (524, (TPointer (TNamed 169))); (525, (TNamed 169)); (527, (TSignature [] [(TBasic (str "string"))] false)); (531, (TBasic (str "string"))); (534, (TBasic (str "string"))); (535, (TSignature [] [(TBasic (str "string"))] false)); (536, (TPointer (TNamed 169))); (537, (TSignature [] [(TBasic (str "string"))] false)); (542, (TNamed 175)); (543, (TInterface 12)); (546, (TNamed 142)); (548, (TNamed 150)); (550, (TNamed 151)); (552, (TNamed 176)); (553, (TInterface 6)); (556, (TNamed 142)); (558, (TNamed 177)); (559, (TInterface 6)); (562, (TNamed 142)); (564, (TSignature [] [(TNamed 1)] false)); (565, (TSignature [] [(TNamed 1)] false)); (569, (TNamed 1)); (574, (TNamed 178)); (575, (TStruct [])); (579, (TNamed 179)); (580, (TInterface 14)); (583, (TSignature [] [(TNamed 1)] false)); (584, (TSignature [] [(TNamed 1)] false)); (588, (TNamed 1)); (590, (TSignature [] [(TNamed 1)] false)); (591, (TSignature [] [(TNamed 1)] false)); (595, (TNamed 1)); (599, (TNamed 178)); (601, (TSignature [] [(TNamed 1)] false)); (605, (TNamed 1)); (608, (TPointer (TNamed 169))); (609, (TNamed 169)); (610, (TNamed 169)); (611, (TBasic (str "string"))); (614, (TSignature [] [(TNamed 142)] false)); (618, (TNamed 142)); (621, (TNamed 178)); (622, (TNamed 178)); (625, (TSignature [] [(TBasic (str "int")); (TBasic (str "int")); (TNamed 142)] false)); (629, (TBasic (str "int"))); (631, (TBasic (str "int"))); (633, (TNamed 142)); (636, (TBasic (str "int"))); (637, (TBasic (str "int"))); (638, (TNamed 178)); (639, (TNamed 178)); (642, (TSignature [] [(TBasic (str "int")); (TBasic (str "int")); (TNamed 142); (TNamed 142)] false)); (646, (TBasic (str "int"))); (647, (TBasic (str "int"))); (648, (TBasic (str "int"))); (650, (TNamed 142)); (651, (TNamed 142)); (652, (TNamed 142)); (655, (TBasic (str "int"))); (656, (TBasic (str "int"))); (657, TUntypedNil); (658, (TNamed 178)); (659, (TNamed 178)); (662, (TSignature [] [(TPointer (TNamed 142))] false)); (666, (TPointer (TNamed 142))); (667, (TNamed 142)); (672, (TNamed 142)); (673, (TNamed 142)); (675, (TNamed 142)); (676, (TNamed 178)); (677, (TNamed 178)); (679, (TPointer (TNamed 142))); (680, (TNamed 142)); (683, (TSignature [] [] false)); (689, (TBasic (str "int"))); (690, (TBasic (str "int"))); (691, (TBasic (str "int"))); (695, (TNamed 142)); (696, (TNamed 142)); (698, (TBasic (str "int"))); (699, (TBasic (str "int"))); (700, (TNamed 142)); (701, (TBasic (str "int"))); (702, (TBasic (str "int"))); (703, (TNamed 178)); (704, (TNamed 178)); (709, (TBasic (str "int"))); (710, (TBasic (str "int"))); (711, (TNamed 142)); (714, (TSignature [] [(TBasic (str "int")); (TNamed 142); (TNamed 142)] false)); (718, (TBasic (str "int"))); (719, (TBasic (str "int"))); (721, (TNamed 142)); (722, (TNamed 142)); (723, (TNamed 142)); (726, (TBasic (str "int"))); (727, (TBasic (str "int"))); (729, (TNamed 142)); (730, TUntypedNil); (732, (TNamed 142)); (733, (TNamed 178)); (734, (TNamed 178)); (738, (TSignature [] [(TNamed 178); (TNamed 178)] false)); (742, (TNamed 178)); (744, (TNamed 178)); (747, (TNamed 178)); (748, (TNamed 178)); (749, (TNamed 178)); (750, (TNamed 178)); (753, (TSignature [] [] false)); (759, (TNamed 142)); (760, (TNamed 142)); (762, (TNamed 178)); (763, (TNamed 142)); (764, (TTuple [(TNamed 178); (TNamed 178)])); (765, (TSignature [] [(TNamed 178); (TNamed 178)] false)); (769, (TNamed 178)); (770, (TNamed 142)); (774, (TNamed 142)); (775, (TNamed 142)); (776, (TNamed 142)); (778, (TNamed 142)); (779, (TNamed 142)); (780, (TTuple [(TNamed 178); (TNamed 178)])); (781, (TSignature [] [(TNamed 178); (TNamed 178)] false)); (785, (TNamed 142)); (786, (TNamed 142)); (789, (TSignature [] [] false)); (795, (TNamed 142)); (796, (TNamed 142)); (797, (TNamed 178)); (798, (TNamed 178)); (802, (TNamed 142)); (803, (TNamed 142)); (804, (TNamed 142)); (805, (TNamed 142)); (806, TUntypedNil); (807, (TNamed 178)); (808, (TNamed 178)); (809, TUntypedNil); (813, (TNamed 142)); (814, (TNamed 142)); (815, (TNamed 142)); (816, (TTuple [(TNamed 178); (TNamed 178)])); (817, (TSignature [] [(TNamed 178); (TNamed 178)] false)); (823, (TNamed 142)); (824, (TNamed 142)); (825, (TNamed 142)); (826, (TNamed 142)); (829, (TSignature [(TMap (TBasic (str "int")) (TNamed 178))] [] false)); (832, (TMap (TBasic (str "int")) (TNamed 178))); (833, (TMap (TBasic (str "int")) (TNamed 178))); (834, (TBasic (str "int"))); (835, (TNamed 178)); (840, (TNamed 142)); (841, (TNamed 142)); (845, (TBasic (str "bool"))); (846, (TBasic (str "bool"))); (849, (TNamed 142)); (850, (TNamed 178)); (851, (TMap (TBasic (str "int")) (TNamed 178))); (852, (TBasic (str "int"))); (853, (TBasic (str "bool"))); (857, (TNamed 142)); (860, (TNamed 142)); (861, (TBasic (str "bool"))); (862, (TTuple [(TNamed 178); (TBasic (str "bool"))])); (863, (TMap (TBasic (str "int")) (TNamed 178))); (864, (TBasic (str "int"))); (865, (TBasic (str "bool"))); (869, (TNamed 142)); (872, (TNamed 142)); (873, (TBasic (str "bool"))); (874, (TTuple [(TNamed 178); (TBasic (str "bool"))])); (875, (TMap (TBasic (str "int")) (TNamed 178))); (876, (TBasic (str "int"))); (877, (TBasic (str "bool"))); (881, (TNamed 142)); (884, (TNamed 142)); (885, (TBasic (str "bool"))); (886, (TTuple [(TNamed 178); (TBasic (str "bool"))])); (887, (TMap (TBasic (str "int")) (TNamed 178))); (888, (TBasic (str "int"))); (891, (TBasic (str "bool"))); (894, (TNamed 142)); (897, (TSignature [(TBasic (str "int")); (TBasic (str "int")); (TNamed 142)] [] false)); (900, (TBasic (str "int"))); (901, (TBasic (str "int"))); (902, (TBasic (str "int"))); (904, (TNamed 142)); (905, (TNamed 142)); (909, (TSignature [(TBasic (str "int")); (TSlice (TNamed 142))] [] true)); (912, (TBasic (str "int"))); (913, (TBasic (str "int"))); (915, (TSlice (TNamed 142))); (916, (TSlice (TNamed 142))); (917, (TNamed 142)); (921, (TSignature [(TBasic (str "int")); (TSlice (TNamed 142))] [] false)); (924, (TBasic (str "int"))); (925, (TBasic (str "int"))); (927, (TSlice (TNamed 142))); (928, (TSlice (TNamed 142))); (929, (TNamed 142)); (933, (TSignature [] [] false)); (937, (TNamed 178)); (938, (TNamed 178)); (939, (TNamed 178)); (941, (TTuple [])); (942, (TSignature [(TBasic (str "int")); (TBasic (str "int")); (TNamed 142)] [] false)); (943, (TBasic (str "int"))); (944, (TBasic (str "int"))); (945, (TNamed 178)); (947, (TTuple [])); (948, (TSignature [(TBasic (str "int")); (TBasic (str "int")); (TNamed 142)] [] false)); (949, (TBasic (str "int"))); (950, (TBasic (str "int"))); (951, TUntypedNil); (953, (TTuple [])); (954, (TSignature [(TBasic (str "int")); (TSlice (TNamed 142))] [] true)); (955, (TBasic (str "int"))); (956, (TBasic (str "int"))); (957, TUntypedNil); (958, (TNamed 178)); (960, (TTuple [])); (961, (TSignature [(TBasic (str "int")); (TSlice (TNamed 142))] [] true)); (962, (TBasic (str "int"))); (963, (TBasic (str "int"))); (964, (TNamed 178)); (965, TUntypedNil); (966, TUntypedNil); (968, (TTuple [])); (969, (TSignature [(TBasic (str "int")); (TSlice (TNamed 142))] [] true)); (970, (TBasic (str "int"))); (971, (TBasic (str "int"))); (972, TUntypedNil); (973, TUntypedNil); (974, TUntypedNil); (976, (TTuple [])); (977, (TSignature [(TBasic (str "int")); (TSlice (TNamed 142))] [] false)); (978, (TBasic (str "int"))); (979, (TSlice (TNamed 142))); (980, (TSlice (TNamed 142))); (981, (TNamed 142)); (982, TUntypedNil); (983, TUntypedNil); (985, (TTuple [])); (986, (TSignature [(TBasic (str "int")); (TSlice (TNamed 142))] [] false)); (987, (TBasic (str "int"))); (988, TUntypedNil); (992, (TSlice (TNamed 142))); (993, (TSlice (TNamed 142))); (994, (TNamed 142)); (996, (TSlice (TNamed 142))); (997, (TSlice (TNamed 142))); (998, (TSignature [(TSlice (TNamed 142)); (TSlice (TNamed 142))] [(TSlice (TNamed 142))] true)); (999, (TSlice (TNamed 142))); (1000, (TNamed 178)); (1002, (TSlice (TNamed 142))); (1003, (TSlice (TNamed 142))); (1004, (TSignature [(TSlice (TNamed 142)); (TSlice (TNamed 142))] [(TSlice (TNamed 142))] true)); (1005, (TSlice (TNamed 142))); (1006, TUntypedNil); (1007, TUntypedNil); (1008, (TNamed 178)); (1010, (TSlice (TNamed 142))); (1011, (TSlice (TNamed 142))); (1012, (TSignature [(TSlice (TNamed 142)); (TSlice (TNamed 142))] [(TSlice (TNamed 142))] true)); (1013, (TSlice (TNamed 142))); (1014, TUntypedNil); (1015, TUntypedNil); (1017, (TSignature [(TNamed 142)] [] false)); (1018, (TSignature [(TNamed 142)] [] false)); (1019, (TSignature [(TNamed 142)] [] false)); (1022, (TNamed 142)); (1023, (TNamed 142)); (1026, (TTuple [])); (1027, (TSignature [(TNamed 142)] [] false)); (1028, (TNamed 178)); (1029, (TNamed 178)); (1032, (TNamed 195)); (1033, (TMap (TNamed 142) (TStruct []))); (1034, (TNamed 142)); (1035, (TStruct [])); (1039, (TSignature [(TMap (TNamed 142) (TStruct [])); (TNamed 195); (TSlice (TStruct []))] [] false)); (1042, (TMap (TNamed 142) (TStruct []))); (1043, (TMap (TNamed 142) (TStruct []))); (1044, (TNamed 142)); (1045, (TStruct [])); (1048, (TNamed 195)); (1049, (TNamed 195)); (1051, (TSlice (TStruct []))); (1052, (TSlice (TStruct []))); (1053, (TStruct [])); (1058, (TStruct [])); (1059, (TMap (TNamed 142) (TStruct []))); (1060, (TNamed 178)); (1061, (TNamed 178)); (1064, (TStruct [])); (1065, (TMap (TNamed 142) (TStruct []))); (1066, TUntypedNil); (1069, (TStruct [])); (1070, (TNamed 195)); (1071, (TNamed 178)); (1072, (TNamed 178)); (1075, (TStruct [])); (1076, (TNamed 195)); (1077, TUntypedNil); (1080, (TStruct [])); (1081, (TSlice (TStruct []))); (1082, (TBasic (str "int"))); (1085, (TNamed 197)); (1086, (TInterface 6)); (1089, (TSignature [] [(TNamed 1)] false)); (1090, (TSignature [] [(TNamed 1)] false)); (1094, (TNamed 1)); (1097, (TNamed 198)); (1098, (TInterface 15)); (1101, (TSignature [] [] false)); (1102, (TSignature [] [] false)); (1106, (TSignature [(TNamed 197); (TNamed 198)] [] false)); (1109, (TNamed 197)); (1110, (TNamed 197)); (1112, (TNamed 198)); (1113, (TNamed 198)); (1117, (TNamed 142)); (1118, (TNamed 142)); (1119, (TNamed 178)); (1120, (TNamed 178)); (1123, (TNamed 142)); (1124, (TNamed 142)); (1125, TUntypedNil); (1128, (TNamed 142)); (1129, (TNamed 142)); (1130, (TNamed 197)); (1133, (TNamed 142)); (1134, (TNamed 197)); (1135, (TNamed 142)); (1137, (TNamed 142)); (1138, (TBasic (str "bool"))); (1139, (TTuple [(TNamed 142); (TBasic (str "bool"))])); (1140, (TNamed 197)); (1141, (TNamed 142)); (1145, (TNamed 142)); (1146, (TBasic (str "bool"))); (1149, (TNamed 142)); (1150, (TNamed 198)); (1151, (TNamed 197)); (1152, (TNamed 198)); (1153, (TNamed 142)); (1157, (TNamed 142)); (1158, (TNamed 142)); (1163, (TNamed 197)); (1166, (TNamed 198)); (1169, (TNamed 198)); (1171, (TNamed 142)); (1173, (TNamed 142)); (1174, (TNamed 142)); (1178, (TNamed 197)); (1181, (TNamed 142)); (1184, (TNamed 200)); (1185, (TStruct [((str "si"), (TNamed 142))])); (1188, (TNamed 142)); (1189, (TNamed 142)); (1192, (TNamed 201)); (1193, (TStruct [((str "_"), (TBasic (str "int"))); ((str "_"), (TBasic (str "int"))); ((str "_"), (TNamed 142)); ((str "_"), (TNamed 142)); ((str "_"), (TNamed 142))])); (1196, (TBasic (str "int"))); (1197, (TBasic (str "int"))); (1198, (TBasic (str "int"))); (1200, (TNamed 142)); (1201, (TNamed 142)); (1203, (TNamed 142)); (1204, (TNamed 142)); (1205, (TNamed 142)); (1208, (TNamed 202)); (1209, (TStruct [((str "u"), (TBasic (str "int"))); ((str "v"), (TBasic (str "int"))); ((str "x"), (TNamed 142)); ((str "y"), (TNamed 142))])); (1212, (TBasic (str "int"))); (1213, (TBasic (str "int"))); (1214, (TBasic (str "int"))); (1216, (TNamed 142)); (1217, (TNamed 142)); (1218, (TNamed 142)); (1221, (TSignature [] [] false)); (1226, (TNamed 200)); (1227, (TNamed 200)); (1228, (TNamed 178)); (1229, (TNamed 178)); (1232, (TNamed 200)); (1233, (TNamed 200)); (1234, TUntypedNil); (1237, (TNamed 200)); (1238, (TNamed 200)); (1240, (TNamed 142)); (1241, (TNamed 178)); (1242, (TNamed 178)); (1245, (TNamed 200)); (1246, (TNamed 200)); (1248, (TNamed 142)); (1249, TUntypedNil); (1252, (TNamed 200)); (1253, (TNamed 200)); (1256, (TPointer (TNamed 200))); (1257, (TNamed 200)); (1258, (TNamed 200)); (1259, (TNamed 178)); (1260, (TNamed 178)); (1263, (TNamed 201)); (1264, (TNamed 201)); (1265, (TBasic (str "int"))); (1266, (TBasic (str "int"))); (1267, (TNamed 178)); (1268, (TNamed 178)); (1269, TUntypedNil); (1270, TUntypedNil); (1273, (TNamed 201)); (1274, (TNamed 201)); (1275, (TBasic (str "int"))); (1276, (TBasic (str "int"))); (1277, TUntypedNil); (1278, TUntypedNil); (1279, (TNamed 178)); (1280, (TNamed 178)); (1283, (TNamed 201)); (1284, (TNamed 201)); (1285, (TBasic (str "int"))); (1286, (TBasic (str "int"))); (1287, (TNamed 178)); (1288, (TNamed 178)); (1289, (TNamed 178)); (1290, (TNamed 178)); (1291, (TNamed 178)); (1292, (TNamed 178)); (1295, (TNamed 201)); (1296, (TNamed 201)); (1299, (TNamed 202)); (1300, (TNamed 202)); (1301, (TBasic (str "int"))); (1302, (TBasic (str "int"))); (1303, TUntypedNil); (1304, TUntypedNil); (1307, (TNamed 202)); (1308, (TNamed 202)); (1309, (TBasic (str "int"))); (1310, (TBasic (str "int"))); (1311, TUntypedNil); (1312, (TNamed 178)); (1313, (TNamed 178)); (1316, (TNamed 202)); (1317, (TNamed 202)); (1319, (TBasic (str "int"))); (1320, (TBasic (str "int"))); (1322, (TBasic (str "int"))); (1323, (TBasic (str "int"))); (1325, (TNamed 142)); (1326, TUntypedNil); (1328, (TNamed 142)); (1329, (TNamed 178)); (1330, (TNamed 178)); (1333, (TNamed 202)); (1334, (TNamed 202)); (1336, (TBasic (str "int"))); (1337, (TBasic (str "int"))); (1339, (TNamed 142)); (1340, TUntypedNil); (1342, (TNamed 142)); (1343, (TNamed 178)); (1344, (TNamed 178)); (1347, (TNamed 202)); (1348, (TNamed 202)); (1350, (TBasic (str "int"))); (1351, (TBasic (str "int"))); (1354, (TSlice (TNamed 200))); (1355, (TSlice (TNamed 200))); (1356, (TNamed 200)); (1357, (TNamed 200)); (1359, (TNamed 142)); (1360, (TNamed 178)); (1361, (TNamed 178)); (1362, (TNamed 200)); (1363, (TNamed 178)); (1364, (TNamed 178)); (1365, (TNamed 200)); (1367, (TNamed 142)); (1368, TUntypedNil); (1369, (TNamed 200)); (1370, TUntypedNil); (1371, (TNamed 200)); (1374, (TStruct [((str "si"), (TNamed 142))])); (1375, (TStruct [((str "si"), (TNamed 142))])); (1378, (TNamed 142)); (1379, (TNamed 142)); (1381, (TNamed 142)); (1382, (TNamed 178)); (1383, (TNamed 178)); (1386, (TStruct [((str "si"), (TNamed 142))])); (1387, (TStruct [((str "si"), (TNamed 142))])); (1390, (TNamed 142)); (1391, (TNamed 142)); (1392, (TNamed 178)); (1393, (TNamed 178)); (1396, (TStruct [((str "si"), (TNamed 142))])); (1397, (TStruct [((str "si"), (TNamed 142))])); (1400, (TNamed 142)); (1401, (TNamed 142)); (1403, (TNamed 142)); (1404, TUntypedNil); (1407, (TStruct [((str "si"), (TNamed 142))])); (1408, (TStruct [((str "si"), (TNamed 142))])); (1411, (TNamed 142)); (1412, (TNamed 142)); (1413, TUntypedNil); (1416, (TStruct [((str "si"), (TNamed 142))])); (1417, (TStruct [((str "si"), (TNamed 142))])); (1420, (TNamed 142)); (1421, (TNamed 142)); (1424, (TSlice (TStruct [((str "si"), (TNamed 142))]))); (1425, (TSlice (TStruct [((str "si"), (TNamed 142))]))); (1426, (TStruct [((str "si"), (TNamed 142))])); (1429, (TNamed 142)); (1430, (TNamed 142)); (1431, (TStruct [((str "si"), (TNamed 142))])); (1433, (TNamed 142)); (1434, (TNamed 178)); (1435, (TNamed 178)); (1436, (TStruct [((str "si"), (TNamed 142))])); (1437, (TNamed 178)); (1438, (TNamed 178)); (1439, (TStruct [((str "si"), (TNamed 142))])); (1441, (TNamed 142)); (1442, TUntypedNil); (1443, (TStruct [((str "si"), (TNamed 142))])); (1444, TUntypedNil); (1445, (TStruct [((str "si"), (TNamed 142))])); (1448, (TMap (TBasic (str "string")) (TNamed 200))); (1449, (TMap (TBasic (str "string")) (TNamed 200))); (1450, (TBasic (str "string"))); (1451, (TNamed 200)); (1453, (TBasic (str "string"))); (1454, (TNamed 200)); (1456, (TNamed 142)); (1457, (TNamed 178)); (1458, (TNamed 178)); (1460, (TBasic (str "string"))); (1461, (TNamed 200)); (1462, (TNamed 178)); (1463, (TNamed 178)); (1465, (TBasic (str "string"))); (1466, (TNamed 200)); (1468, (TNamed 142)); (1469, TUntypedNil); (1471, (TBasic (str "string"))); (1472, (TNamed 200)); (1473, TUntypedNil); (1475, (TBasic (str "string"))); (1476, (TNamed 200)); (1479, (TNamed 204)); (1480, (TSlice (TNamed 142))); (1481, (TNamed 142)); (1484, (TNamed 205)); (1485, (TNamed 204)); (1488, (TSignature [] [] false)); (1493, (TSlice (TNamed 142))); (1494, (TSlice (TNamed 142))); (1495, (TNamed 142)); (1498, (TSlice (TNamed 142))); (1499, (TSlice (TNamed 142))); (1500, (TNamed 142)); (1501, TUntypedNil); (1502, TUntypedNil); (1503, TUntypedNil); (1506, (TSlice (TNamed 142))); (1507, (TSlice (TNamed 142))); (1508, (TNamed 142)); (1509, TUntypedNil); (1510, (TNamed 178)); (1511, (TNamed 178)); (1512, TUntypedNil); (1515, (TSlice (TNamed 142))); (1516, (TSlice (TNamed 142))); (1517, (TNamed 142)); (1518, TUntypedNil); (1519, (TNamed 178)); (1520, (TNamed 178)); (1521, TUntypedNil); (1522, TUntypedNil); (1523, (TNamed 178)); (1524, (TNamed 178)); (1528, (TBasic (str "int"))); (1529, (TBasic (str "int"))); (1530, (TBasic (str "int"))); (1531, (TBasic (str "int"))); (1534, (TSlice (TNamed 142))); (1535, (TSlice (TNamed 142))); (1536, (TNamed 142)); (1538, (TBasic (str "int"))); (1539, TUntypedNil); (1541, (TBasic (str "int"))); (1542, (TNamed 178)); (1543, (TNamed 178)); (1545, (TBasic (str "int"))); (1546, TUntypedNil); (1548, (TBasic (str "int"))); (1549, TUntypedNil); (1551, (TBasic (str "int"))); (1552, (TNamed 178)); (1553, (TNamed 178)); (1555, (TBasic (str "int"))); (1556, (TNamed 178)); (1557, (TNamed 178)); (1560, (TNamed 204)); (1561, (TNamed 204)); (1564, (TNamed 204)); (1565, (TNamed 204)); (1566, TUntypedNil); (1569, (TNamed 204)); (1570, (TNamed 204)); (1571, (TNamed 178)); (1572, (TNamed 178)); (1573, TUntypedNil); (1576, (TNamed 204)); (1577, (TNamed 204)); (1579, (TBasic (str "int"))); (1580, (TNamed 178)); (1581, (TNamed 178)); (1583, (TBasic (str "int"))); (1584, TUntypedNil); (1587, (TNamed 205)); (1588, (TNamed 205)); (1591, (TNamed 205)); (1592, (TNamed 205)); (1593, TUntypedNil); (1596, (TNamed 205)); (1597, (TNamed 205)); (1598, (TNamed 178)); (1599, (TNamed 178)); (1600, TUntypedNil); (1603, (TNamed 205)); (1604, (TNamed 205)); (1606, (TBasic (str "int"))); (1607, (TNamed 178)); (1608, (TNamed 178)); (1610, (TBasic (str "int"))); (1611, TUntypedNil); (1614, (TSlice (TSlice (TSlice (TNamed 142))))); (1615, (TSlice (TSlice (TSlice (TNamed 142))))); (1616, (TSlice (TSlice (TNamed 142)))); (1617, (TSlice (TNamed 142))); (1618, (TNamed 142)); (1619, (TSlice (TSlice (TNamed 142)))); (1620, (TSlice (TNamed 142))); (1621, TUntypedNil); (1622, (TNamed 178)); (1623, (TNamed 178)); (1624, (TSlice (TNamed 142))); (1625, (TSlice (TNamed 142))); (1626, TUntypedNil); (1627, (TSlice (TSlice (TNamed 142)))); (1629, (TBasic (str "int"))); (1630, (TSlice (TNamed 142))); (1632, (TBasic (str "int"))); (1633, (TSlice (TNamed 142))); (1635, (TBasic (str "int"))); (1636, (TNamed 178)); (1637, (TNamed 178)); (1638, (TSlice (TNamed 142))); (1639, (TNamed 178)); (1640, (TNamed 178)); (1643, (TSlice (TNamed 205))); (1644, (TSlice (TNamed 205))); (1645, (TNamed 205)); (1646, (TNamed 205)); (1647, TUntypedNil); (1648, TUntypedNil); (1649, (TNamed 178)); (1650, (TNamed 178)); (1653, (TNamed 207)); (1654, (TArray 2 (TNamed 142))); (1655, (TBasic (str "int"))); (1656, (TNamed 142)); (1659, (TNamed 208)); (1660, (TNamed 204)); (1663, (TSignature [] [] false)); (1668, (TArray 0 (TNamed 142))); (1669, (TArray 0 (TNamed 142))); (1670, (TBasic (str "int"))); (1671, (TNamed 142)); (1674, (TArray 3 (TNamed 142))); (1675, (TArray 3 (TNamed 142))); (1676, (TBasic (str "int"))); (1677, (TNamed 142)); (1678, TUntypedNil); (1679, TUntypedNil); (1680, TUntypedNil); (1683, (TArray 3 (TNamed 142))); (1684, (TArray 3 (TNamed 142))); (1685, (TBasic (str "int"))); (1686, (TNamed 142)); (1687, TUntypedNil); (1688, (TNamed 178)); (1689, (TNamed 178)); (1690, TUntypedNil); (1693, (TArray 5 (TNamed 142))); (1694, (TArray 5 (TNamed 142))); (1696, (TNamed 142)); (1697, TUntypedNil); (1698, (TNamed 178)); (1699, (TNamed 178)); (1700, TUntypedNil); (1701, TUntypedNil); (1702, (TNamed 178)); (1703, (TNamed 178)); (1707, (TBasic (str "int"))); (1708, (TBasic (str "int"))); (1709, (TBasic (str "int"))); (1710, (TBasic (str "int"))); (1713, (TArray 301 (TNamed 142))); (1714, (TArray 301 (TNamed 142))); (1716, (TNamed 142)); (1718, (TBasic (str "int"))); (1719, TUntypedNil); (1721, (TBasic (str "int"))); (1722, (TNamed 178)); (1723, (TNamed 178)); (1725, (TBasic (str "int"))); (1726, TUntypedNil); (1728, (TBasic (str "int"))); (1729, TUntypedNil); (1731, (TBasic (str "int"))); (1732, (TNamed 178)); (1733, (TNamed 178)); (1735, (TBasic (str "int"))); (1736, (TNamed 178)); (1737, (TNamed 178)); (1740, (TNamed 207)); (1741, (TNamed 207)); (1744, (TNamed 207)); (1745, (TNamed 207)); (1746, TUntypedNil); (1749, (TNamed 207)); (1750, (TNamed 207)); (1751, (TNamed 178)); (1752, (TNamed 178)); (1753, TUntypedNil); (1756, (TNamed 207)); (1757, (TNamed 207)); (1759, (TBasic (str "int"))); (1760, (TNamed 178)); (1761, (TNamed 178)); (1763, (TBasic (str "int"))); (1764, TUntypedNil); (1767, (TNamed 208)); (1768, (TNamed 208)); (1771, (TNamed 208)); (1772, (TNamed 208)); (1773, TUntypedNil); (1776, (TNamed 208)); (1777, (TNamed 208)); (1778, (TNamed 178)); (1779, (TNamed 178)); (1780, TUntypedNil); (1783, (TNamed 208)); (1784, (TNamed 208)); (1786, (TBasic (str "int"))); (1787, (TNamed 178)); (1788, (TNamed 178)); (1790, (TBasic (str "int"))); (1791, TUntypedNil); (1794, (TArray 2 (TArray 10 (TArray 10 (TNamed 142))))); (1795, (TArray 2 (TArray 10 (TArray 10 (TNamed 142))))); (1797, (TArray 10 (TArray 10 (TNamed 142)))); (1798, (TBasic (str "int"))); (1799, (TArray 10 (TNamed 142))); (1800, (TBasic (str "int"))); (1801, (TNamed 142)); (1802, (TArray 10 (TArray 10 (TNamed 142)))); (1803, (TArray 10 (TNamed 142))); (1804, TUntypedNil); (1805, (TNamed 178)); (1806, (TNamed 178)); (1807, (TArray 10 (TNamed 142))); (1808, (TArray 10 (TNamed 142))); (1809, TUntypedNil); (1810, (TArray 10 (TArray 10 (TNamed 142)))); (1812, (TBasic (str "int"))); (1813, (TArray 10 (TNamed 142))); (1815, (TBasic (str "int"))); (1816, (TArray 10 (TNamed 142))); (1818, (TBasic (str "int"))); (1819, (TNamed 178)); (1820, (TNamed 178)); (1821, (TArray 10 (TNamed 142))); (1822, (TNamed 178)); (1823, (TNamed 178)); (1826, (TSlice (TNamed 208))); (1827, (TSlice (TNamed 208))); (1828, (TNamed 208)); (1829, (TNamed 208)); (1830, TUntypedNil); (1831, (TNamed 178)); (1832, (TNamed 178)); (1835, (TNamed 210)); (1836, (TMap (TBasic (str "int")) (TNamed 142))); (1837, (TBasic (str "int"))); (1838, (TNamed 142)); (1841, (TNamed 211)); (1842, (TNamed 204)); (1845, (TSignature [] [] false)); (1850, (TMap (TBasic (str "string")) (TNamed 142))); (1851, (TMap (TBasic (str "string")) (TNamed 142))); (1852, (TBasic (str "string"))); (1853, (TNamed 142)); (1856, (TMap (TBasic (str "string")) (TNamed 142))); (1857, (TMap (TBasic (str "string")) (TNamed 142))); (1858, (TBasic (str "string"))); (1859, (TNamed 142)); (1861, (TBasic (str "string"))); (1862, TUntypedNil); (1864, (TBasic (str "string"))); (1865, TUntypedNil); (1868, (TMap (TBasic (str "string")) (TNamed 142))); (1869, (TMap (TBasic (str "string")) (TNamed 142))); (1870, (TBasic (str "string"))); (1871, (TNamed 142)); (1873, (TBasic (str "string"))); (1874, TUntypedNil); (1876, (TBasic (str "string"))); (1877, (TNamed 178)); (1878, (TNamed 178)); (1880, (TBasic (str "string"))); (1881, TUntypedNil); (1885, (TBasic (str "int"))); (1886, (TBasic (str "int"))); (1887, (TBasic (str "int"))); (1888, (TBasic (str "int"))); (1891, (TMap (TBasic (str "int")) (TNamed 142))); (1892, (TMap (TBasic (str "int")) (TNamed 142))); (1893, (TBasic (str "int"))); (1894, (TNamed 142)); (1896, (TBasic (str "int"))); (1897, TUntypedNil); (1899, (TBasic (str "int"))); (1900, (TNamed 178)); (1901, (TNamed 178)); (1903, (TBasic (str "int"))); (1904, TUntypedNil); (1906, (TBasic (str "int"))); (1907, TUntypedNil); (1909, (TBasic (str "int"))); (1910, (TNamed 178)); (1911, (TNamed 178)); (1913, (TBasic (str "int"))); (1914, (TNamed 178)); (1915, (TNamed 178)); (1918, (TNamed 210)); (1919, (TNamed 210)); (1922, (TNamed 210)); (1923, (TNamed 210)); (1925, (TBasic (str "int"))); (1926, TUntypedNil); (1929, (TNamed 210)); (1930, (TNamed 210)); (1932, (TBasic (str "int"))); (1933, (TNamed 178)); (1934, (TNamed 178)); (1936, (TBasic (str "int"))); (1937, TUntypedNil); (1940, (TNamed 211)); (1941, (TNamed 211)); (1944, (TNamed 211)); (1945, (TNamed 211)); (1947, (TBasic (str "int"))); (1948, TUntypedNil); (1951, (TNamed 211)); (1952, (TNamed 211)); (1954, (TBasic (str "int"))); (1955, (TNamed 178)); (1956, (TNamed 178)); (1958, (TBasic (str "int"))); (1959, TUntypedNil); (1962, (TMap (TBasic (str "string")) (TMap (TBasic (str "int")) (TMap (TBasic (str "int")) (TNamed 142))))); (1963, (TMap (TBasic (str "string")) (TMap (TBasic (str "int")) (TMap (TBasic (str "int")) (TNamed 142))))); (1964, (TBasic (str "string"))); (1965, (TMap (TBasic (str "int")) (TMap (TBasic (str "int")) (TNamed 142)))); (1966, (TBasic (str "int"))); (1967, (TMap (TBasic (str "int")) (TNamed 142))); (1968, (TBasic (str "int"))); (1969, (TNamed 142)); (1971, (TBasic (str "string"))); (1972, (TMap (TBasic (str "int")) (TMap (TBasic (str "int")) (TNamed 142)))); (1974, (TBasic (str "int"))); (1975, (TMap (TBasic (str "int")) (TNamed 142))); (1977, (TBasic (str "int"))); (1978, TUntypedNil); (1980, (TBasic (str "int"))); (1981, (TNamed 178)); (1982, (TNamed 178)); (1984, (TBasic (str "int"))); (1985, (TMap (TBasic (str "int")) (TNamed 142))); (1987, (TBasic (str "int"))); (1988, (TMap (TBasic (str "int")) (TNamed 142))); (1990, (TBasic (str "int"))); (1991, TUntypedNil); (1993, (TBasic (str "string"))); (1994, (TMap (TBasic (str "int")) (TMap (TBasic (str "int")) (TNamed 142)))); (1996, (TBasic (str "int"))); (1997, (TMap (TBasic (str "int")) (TNamed 142))); (1999, (TBasic (str "int"))); (2000, (TMap (TBasic (str "int")) (TNamed 142))); (2002, (TBasic (str "int"))); (2003, (TNamed 178)); (2004, (TNamed 178)); (2007, (TMap (TBasic (str "string")) (TNamed 211))); (2008, (TMap (TBasic (str "string")) (TNamed 211))); (2009, (TBasic (str "string"))); (2010, (TNamed 211)); (2012, (TBasic (str "string"))); (2013, (TNamed 211)); (2015, (TBasic (str "int"))); (2016, TUntypedNil); (2018, (TBasic (str "int"))); (2019, (TNamed 178)); (2020, (TNamed 178)); (2023, (TMap (TNamed 142) (TBasic (str "int")))); (2024, (TMap (TNamed 142) (TBasic (str "int")))); (2025, (TNamed 142)); (2026, (TBasic (str "int"))); (2029, (TMap (TNamed 142) (TBasic (str "int")))); (2030, (TMap (TNamed 142) (TBasic (str "int")))); (2031, (TNamed 142)); (2032, (TBasic (str "int"))); (2034, (TNamed 178)); (2035, (TNamed 178)); (2036, (TBasic (str "int"))); (2039, (TMap (TNamed 142) (TBasic (str "int")))); (2040, (TMap (TNamed 142) (TBasic (str "int")))); (2041, (TNamed 142)); (2042, (TBasic (str "int"))); (2044, TUntypedNil); (2045, (TBasic (str "int"))); (2047, (TNamed 178)); (2048, (TNamed 178)); (2049, (TBasic (str "int"))); (2051, TUntypedNil); (2052, (TBasic (str "int"))); (2055, (TMap (TNamed 142) (TNamed 142))); (2056, (TMap (TNamed 142) (TNamed 142))); (2057, (TNamed 142)); (2058, (TNamed 142)); (2060, TUntypedNil); (2061, (TNamed 178)); (2062, (TNamed 178)); (2064, (TNamed 178)); (2065, (TNamed 178)); (2066, TUntypedNil); (2068, (TNamed 178)); (2069, (TNamed 178)); (2070, (TNamed 178)); (2071, (TNamed 178)); (2074, (TMap (TBasic (str "string")) (TSlice (TNamed 142)))); (2075, (TMap (TBasic (str "string")) (TSlice (TNamed 142)))); (2076, (TBasic (str "string"))); (2077, (TSlice (TNamed 142))); (2078, (TNamed 142)); (2080, (TBasic (str "string"))); (2081, (TSlice (TNamed 142))); (2082, (TNamed 178)); (2083, (TNamed 178)); (2084, TUntypedNil); (2087, (TSignature [(TSlice (TNamed 178)); (TMap (TNamed 178) (TStruct [])); (TMap (TBasic (str "string")) (TNamed 178)); (TMap (TNamed 178) (TNamed 178)); (TArray 5 (TNamed 178)); (TPointer (TArray 5 (TNamed 178))); (TChan 3 (TNamed 178))] [] false)); (2090, (TSlice (TNamed 178))); (2091, (TSlice (TNamed 178))); (2092, (TNamed 178)); (2094, (TMap (TNamed 178) (TStruct []))); (2095, (TMap (TNamed 178) (TStruct []))); (2096, (TNamed 178)); (2097, (TStruct [])); (2100, (TMap (TBasic (str "string")) (TNamed 178))); (2101, (TMap (TBasic (str "string")) (TNamed 178))); (2102, (TBasic (str "string"))); (2103, (TNamed 178)); (2105, (TMap (TNamed 178) (TNamed 178))); (2106, (TMap (TNamed 178) (TNamed 178))); (2107, (TNamed 178)); (2108, (TNamed 178)); (2110, (TArray 5 (TNamed 178))); (2111, (TArray 5 (TNamed 178))); (2112, (TBasic (str "int"))); (2113, (TNamed 178)); (2115, (TPointer (TArray 5 (TNamed 178)))); (2116, (TPointer (TArray 5 (TNamed 178)))); (2117, (TArray 5 (TNamed 178))); (2118, (TBasic (str "int"))); (2119, (TNamed 178)); (2121, (TChan 3 (TNamed 178))); (2122, (TChan 3 (TNamed 178))); (2123, (TNamed 178)); (2128, (TNamed 142)); (2129, (TNamed 142)); (2132, (TNamed 142)); (2133, (TSlice (TNamed 178))); (2137, (TNamed 142)); (2139, (TBasic (str "int"))); (2140, (TSlice (TNamed 178))); (2144, (TBasic (str "int"))); (2147, (TNamed 142)); (2148, (TArray 5 (TNamed 178))); (2152, (TNamed 142)); (2154, (TBasic (str "int"))); (2155, (TArray 5 (TNamed 178))); (2159, (TBasic (str "int"))); (2162, (TNamed 142)); (2163, (TPointer (TArray 5 (TNamed 178)))); (2167, (TNamed 142)); (2169, (TBasic (str "int"))); (2170, (TPointer (TArray 5 (TNamed 178)))); (2174, (TBasic (str "int"))); (2176, (TNamed 142)); (2178, (TMap (TNamed 178) (TStruct []))); (2182, (TNamed 142)); (2184, (TNamed 142)); (2185, (TMap (TNamed 178) (TStruct []))); (2189, (TNamed 142)); (2192, (TNamed 142)); (2193, (TMap (TBasic (str "string")) (TNamed 178))); (2197, (TNamed 142)); (2201, (TNamed 142)); (2202, (TNamed 142)); (2204, (TNamed 142)); (2205, (TNamed 142)); (2206, (TMap (TNamed 178) (TNamed 178))); (2211, (TNamed 142)); (2212, (TNamed 142)); (2214, (TNamed 142)); (2215, (TNamed 142)); (2216, (TMap (TNamed 178) (TNamed 178))); (2220, (TNamed 142)); (2222, (TNamed 142)); (2223, (TMap (TNamed 178) (TNamed 178))); (2227, (TNamed 142)); (2229, (TNamed 142)); (2230, (TChan 3 (TNamed 178))); (2234, (TNamed 142)); (2237, (TNamed 214)); (2238, (TSlice (TNamed 178))); (2239, (TNamed 178)); (2241, (TNamed 215)); (2242, (TMap (TNamed 178) (TStruct []))); (2243, (TNamed 178)); (2244, (TStruct [])); (2247, (TNamed 216)); (2248, (TMap (TBasic (str "string")) (TNamed 178))); (2249, (TBasic (str "string"))); (2250, (TNamed 178)); (2252, (TNamed 217)); (2253, (TMap (TNamed 178) (TNamed 178))); (2254, (TNamed 178)); (2255, (TNamed 178)); (2257, (TNamed 218)); (2258, (TArray 5 (TNamed 178))); (2259, (TBasic (str "int"))); (2260, (TNamed 178)); (2262, (TNamed 219)); (2263, (TPointer (TArray 5 (TNamed 178)))); (2264, (TArray 5 (TNamed 178))); (2265, (TBasic (str "int"))); (2266, (TNamed 178)); (2268, (TNamed 220)); (2269, (TChan 3 (TNamed 178))); (2270, (TNamed 178)); (2273, (TSignature [(TNamed 214); (TNamed 215); (TNamed 216); (TNamed 217); (TNamed 218); (TNamed 219); (TPointer (TNamed 218)); (TNamed 220)] [] false)); (2276, (TNamed 214)); (2277, (TNamed 214)); (2279, (TNamed 215)); (2280, (TNamed 215)); (2282, (TNamed 216)); (2283, (TNamed 216)); (2285, (TNamed 217)); (2286, (TNamed 217)); (2288, (TNamed 218)); (2289, (TNamed 218)); (2291, (TNamed 219)); (2292, (TNamed 219)); (2294, (TPointer (TNamed 218))); (2295, (TPointer (TNamed 218))); (2296, (TNamed 218)); (2298, (TNamed 220)); (2299, (TNamed 220)); (2304, (TNamed 142)); (2305, (TNamed 142)); (2308, (TNamed 142)); (2309, (TNamed 214)); (2313, (TNamed 142)); (2315, (TBasic (str "int"))); (2316, (TNamed 214)); (2320, (TBasic (str "int"))); (2323, (TNamed 142)); (2324, (TNamed 218)); (2328, (TNamed 142)); (2330, (TBasic (str "int"))); (2331, (TNamed 218)); (2335, (TBasic (str "int"))); (2338, (TNamed 142)); (2339, (TNamed 219)); (2343, (TNamed 142)); (2345, (TBasic (str "int"))); (2346, (TNamed 219)); (2350, (TBasic (str "int"))); (2353, (TNamed 142)); (2354, (TPointer (TNamed 218))); (2358, (TNamed 142)); (2360, (TBasic (str "int"))); (2361, (TPointer (TNamed 218))); (2365, (TBasic (str "int"))); (2367, (TNamed 142)); (2369, (TNamed 215)); (2373, (TNamed 142)); (2375, (TNamed 142)); (2376, (TNamed 215)); (2380, (TNamed 142)); (2383, (TNamed 142)); (2384, (TNamed 216)); (2388, (TNamed 142)); (2392, (TNamed 142)); (2393, (TNamed 142)); (2395, (TNamed 142)); (2396, (TNamed 142)); (2397, (TNamed 217)); (2402, (TNamed 142)); (2403, (TNamed 142)); (2405, (TNamed 142)); (2406, (TNamed 142)); (2407, (TNamed 217)); (2411, (TNamed 142)); (2413, (TNamed 142)); (2414, (TNamed 217)); (2418, (TNamed 142)); (2420, (TNamed 142)); (2421, (TNamed 220)); (2425, (TNamed 142)); (2428, (TNamed 222)); (2429, (TChan 3 (TNamed 142))); (2430, (TNamed 142)); (2433, (TSignature [(TChan 3 (TNamed 178)); (TChan 3 (TNamed 142)); (TNamed 222)] [] false)); (2436, (TChan 3 (TNamed 178))); (2437, (TChan 3 (TNamed 178))); (2438, (TNamed 178)); (2440, (TChan 3 (TNamed 142))); (2441, (TChan 3 (TNamed 142))); (2442, (TNamed 142)); (2444, (TNamed 222)); (2445, (TNamed 222)); (2450, (TNamed 142)); (2451, (TNamed 142)); (2452, (TNamed 178)); (2453, (TChan 3 (TNamed 178))); (2457, (TNamed 178)); (2458, (TNamed 178)); (2459, (TChan 3 (TNamed 178))); (2461, (TChan 3 (TNamed 178))); (2462, (TNamed 178)); (2463, (TNamed 178)); (2465, (TChan 3 (TNamed 178))); (2466, (TNamed 178)); (2468, (TChan 3 (TNamed 142))); (2469, (TNamed 178)); (2470, (TNamed 178)); (2472, (TChan 3 (TNamed 142))); (2473, (TNamed 178)); (2474, (TChan 3 (TNamed 178))); (2476, (TChan 3 (TNamed 142))); (2477, (TNamed 142)); (2479, (TNamed 222)); (2480, (TNamed 178)); (2481, (TNamed 178)); (2483, (TNamed 222)); (2484, (TNamed 178)); (2485, (TChan 3 (TNamed 178))); (2490, (TNamed 142)); (2491, (TNamed 178)); (2492, (TChan 3 (TNamed 178))); (2495, (TNamed 142)); (2498, (TNamed 178)); (2499, (TNamed 178)); (2500, (TChan 3 (TNamed 178))); (2503, (TNamed 142)); (2506, (TChan 3 (TNamed 178))); (2507, (TNamed 178)); (2508, (TNamed 178)); (2511, (TNamed 142)); (2514, (TChan 3 (TNamed 178))); (2515, (TNamed 178)); (2518, (TNamed 142)); (2521, (TChan 3 (TNamed 142))); (2522, (TNamed 178)); (2523, (TNamed 178)); (2526, (TNamed 142)); (2529, (TChan 3 (TNamed 142))); (2530, (TNamed 178)); (2531, (TChan 3 (TNamed 178))); (2534, (TNamed 142)); (2537, (TNamed 222)); (2538, (TNamed 178)); (2539, (TNamed 178)); (2542, (TNamed 142)); (2545, (TNamed 222)); (2546, (TNamed 178)); (2547, (TChan 3 (TNamed 178))); (2550, (TNamed 142)); (2553, (TChan 3 (TNamed 142))); (2554, (TNamed 142)); (2557, (TNamed 142)); (2560, (TNamed 224)); (2561, (TInterface 16)); (2564, (TSignature [] [(TNamed 1)] false)); (2565, (TSignature [] [(TNamed 1)] false)); (2569, (TNamed 1)); (2571, (TSignature [] [(TNamed 1)] false)); (2572, (TSignature [] [(TNamed 1)] false)); (2576, (TNamed 1)); (2578, (TSignature [] [(TNamed 1)] false)); (2579, (TSignature [] [(TNamed 1)] false)); (2583, (TNamed 1)); (2585, (TNamed 225)); (2586, (TStruct [])); (2591, (TNamed 225)); (2593, (TSignature [] [(TNamed 1)] false)); (2597, (TNamed 1)); (2600, (TPointer (TNamed 169))); (2601, (TNamed 169)); (2602, (TNamed 169)); (2603, (TBasic (str "string"))); (2607, (TNamed 225)); (2609, (TSignature [] [(TNamed 1)] false)); (2613, (TNamed 1)); (2618, (TBasic (str "bool"))); (2620, (TPointer (TNamed 169))); (2621, (TNamed 169)); (2622, (TNamed 169)); (2623, (TBasic (str "string"))); (2625, (TBasic (str "bool"))); (2627, (TPointer (TNamed 169))); (2628, (TNamed 169)); (2629, (TNamed 169)); (2630, (TBasic (str "string"))); (2632, (TPointer (TNamed 169))); (2633, (TNamed 169)); (2634, (TNamed 169)); (2635, (TBasic (str "string"))); (2639, (TNamed 225)); (2641, (TSignature [] [(TNamed 1)] false)); (2645, (TNamed 1)); (2648, (TPointer (TNamed 169))); (2649, (TNamed 169)); (2650, (TNamed 169)); (2651, (TBasic (str "string"))); (2654, (TSignature [] [] false)); (2660, (TNamed 224)); (2661, (TNamed 224)); (2662, (TNamed 225)); (2663, (TNamed 225)); (2666, (TNamed 224)); (2669, (TNamed 230)); (2670, (TInterface 17)); (2673, (TSignature [] [(TNamed 1)] false)); (2674, (TSignature [] [(TNamed 1)] false)); (2678, (TNamed 1)); (2680, (TNamed 231)); (2681, (TInterface 18)); (2684, (TSignature [] [(TNamed 1)] false)); (2685, (TSignature [] [(TNamed 1)] false)); (2689, (TNamed 1)); (2691, (TNamed 232)); (2692, (TInterface 19)); (2695, (TSignature [] [(TNamed 1)] false)); (2696, (TSignature [] [(TNamed 1)] false)); (2700, (TNamed 1)); (2702, (TNamed 233)); (2703, (TStruct [((str "_"), (TBasic (str "string"))); ((str "_"), (TNamed 231))])); (2706, (TBasic (str "string"))); (2707, (TBasic (str "string"))); (2709, (TNamed 231)); (2710, (TNamed 231)); (2712, (TNamed 234)); (2713, (TStruct [])); (2716, (TNamed 235)); (2717, (TStruct [])); (2722, (TNamed 233)); (2724, (TSignature [] [(TNamed 1)] false)); (2728, (TNamed 1)); (2731, (TPointer (TNamed 169))); (2732, (TNamed 169)); (2733, (TNamed 169)); (2734, (TBasic (str "string"))); (2738, (TNamed 234)); (2740, (TSignature [] [(TNamed 1)] false)); (2744, (TNamed 1)); (2747, (TPointer (TNamed 169))); (2748, (TNamed 169)); (2749, (TNamed 169)); (2750, (TBasic (str "string"))); (2754, (TNamed 235)); (2756, (TSignature [] [(TNamed 1)] false)); (2760, (TNamed 1)); (2765, (TBasic (str "bool"))); (2767, (TPointer (TNamed 169))); (2768, (TNamed 169)); (2769, (TNamed 169)); (2770, (TBasic (str "string"))); (2772, (TBasic (str "bool"))); (2774, (TPointer (TNamed 169))); (2775, (TNamed 169)); (2776, (TNamed 169)); (2777, (TBasic (str "string"))); (2780, (TPointer (TNamed 169))); (2781, (TNamed 169)); (2782, (TNamed 169)); (2783, (TBasic (str "string"))); (2786, (TSignature [(TBasic (str "int")); (TBasic (str "int")); (TNamed 232)] [(TNamed 234)] false)); (2789, (TBasic (str "int"))); (2790, (TBasic (str "int"))); (2791, (TBasic (str "int"))); (2793, (TNamed 232)); (2794, (TNamed 232)); (2797, (TNamed 234)); (2800, (TNamed 234)); (2801, (TNamed 234)); (2804, (TSignature [(TNamed 235)] [] false)); (2807, (TNamed 235)); (2808, (TNamed 235)); (2813, (TNamed 230)); (2814, (TNamed 230)); (2815, (TNamed 233)); (2816, (TNamed 233)); (2817, (TBasic (str "string"))); (2818, (TNamed 234)); (2819, (TSignature [(TBasic (str "int")); (TBasic (str "int")); (TNamed 232)] [(TNamed 234)] false)); (2820, (TBasic (str "int"))); (2821, (TBasic (str "int"))); (2822, (TNamed 235)); (2825, (TNamed 230)); (2828, (TSignature [] [(TNamed 145)] false)); (2832, (TNamed 145)); (2835, (TNamed 178)); (2836, (TNamed 178))].
Definition t_interfaces_values : list (N * constval) := [(168, COther); (195, COther); (243, CString (str "interface-1-error")); (268, CString (str "interface-3-error")); (301, CString (str "interface-1-error")); (327, COther); (333, CString (str "interface-1-error")); (338, CString (str "interface-2-error")); (416, CString (str "ree-error")); (611, CString (str "unknown-error")); (636, COther); (637, COther); (655, COther); (656, COther); (701, COther); (702, COther); (727, COther); (852, COther); (853, COther); (864, COther); (876, COther); (888, COther); (943, COther); (944, COther); (949, COther); (950, COther); (955, COther); (956, COther); (962, COther); (963, COther); (970, COther); (971, COther); (978, COther); (987, COther); (1082, COther); (1265, COther); (1266, COther); (1275, COther); (1276, COther); (1285, COther); (1286, COther); (1301, COther); (1302, COther); (1309, COther); (1310, COther); (1320, COther); (1323, COther); (1337, COther); (1351, COther); (1453, CString (str "a")); (1460, CString (str "b")); (1465, CString (str "c")); (1471, CString (str "d")); (1475, CString (str "e")); (1529, COther); (1530, COther); (1531, COther); (1538, COther); (1541, COther); (1545, COther); (1548, COther); (1551, COther); (1555, COther); (1579, COther); (1583, COther); (1606, COther); (1610, COther); (1629, COther); (1632, COther); (1635, COther); (1655, COther); (1670, COther); (1676, COther); (1685, COther); (1708, COther); (1709, COther); (1710, COther); (1718, COther); (1721, COther); (1725, COther); (1728, COther); (1731, COther); (1735, COther); (1759, COther); (1763, COther); (1786, COther); (1790, COther); (1798, COther); (1800, COther); (1812, COther); (1815, COther); (1818, COther); (1861, CString (str "a")); (1864, CString (str "b")); (1873, CString (str "x")); (1876, CString (str "y")); (1880, CString (str "z")); (1886, COther); (1887, COther); (1888, COther); (1896, COther); (1899, COther); (1903, COther); (1906, COther); (1909, COther); (1913, COther); (1925, COther); (1932, COther); (1936, COther); (1947, COther); (1954, COther); (1958, COther); (1971, CString (str "a")); (1974, COther); (1977, COther); (1980, COther); (1984, COther); (1987, COther); (1990, COther); (1993, CString (str "b")); (1996, COther); (1999, COther); (2002, COther); (2012, CString (str "index")); (2015, COther); (2018, COther); (2036, COther); (2045, COther); (2049, COther); (2052, COther); (2080, CString (str "index")); (2112, COther); (2118, COther); (2259, COther); (2265, COther); (2603, CString (str "unknown-error")); (2618, COther); (2623, CString (str "some-1-error")); (2625, COther); (2630, CString (str "local-3-error")); (2635, CString (str "some-2-error")); (2651, CString (str "unknown-error")); (2734, CString (str "unknown-error")); (2750, CString (str "unknown-error")); (2765, COther); (2770, CString (str "unknown-1-error")); (2772, COther); (2777, CString (str "unknown-2-error")); (2783, CString (str "unknown-3-error")); (2817, CString (str "some string")); (2820, COther); (2821, COther)].
Definition t_interfaces_uses : list (N * tobj) := [(19, 1); (31, 1); (39, 5); (42, 1); (50, 5); (53, 5); (65, 1); (67, 5); (74, 142); (80, 142); (82, 150); (84, 151); (90, 142); (93, 140); (94, 48); (100, 142); (103, 140); (104, 49); (111, 140); (112, 48); (115, 140); (116, 49); (127, 1); (138, 1); (144, 142); (151, 1); (158, 143); (162, 5); (165, 1); (168, 22); (173, 263); (174, 252); (178, 263); (179, 253); (180, 264); (181, 265); (189, 5); (192, 1); (195, 22); (199, 153); (202, 140); (203, 56); (204, 266); (205, 267); (208, 153); (211, 141); (212, 105); (213, 266); (214, 267); (231, 155); (237, 1); (242, 169); (247, 155); (254, 5); (259, 140); (260, 64); (266, 140); (267, 64); (272, 155); (279, 5); (282, 5); (285, 244); (289, 156); (295, 1); (300, 169); (305, 157); (311, 1); (314, 24); (318, 157); (324, 1); (327, 22); (332, 169); (337, 169); (346, 5); (349, 1); (354, 140); (355, 52); (356, 268); (357, 269); (360, 141); (361, 113); (373, 5); (380, 5); (388, 5); (389, 5); (396, 1); (403, 5); (410, 165); (415, 169); (423, 145); (426, 1); (431, 275); (432, 251); (439, 145); (442, 142); (445, 276); (453, 5); (459, 169); (465, 5); (469, 246); (470, 103); (476, 169); (482, 5); (486, 247); (487, 103); (493, 169); (500, 5); (501, 5); (504, 24); (510, 169); (516, 1); (519, 24); (525, 169); (531, 5); (536, 250); (537, 171); (546, 142); (548, 150); (550, 151); (556, 142); (562, 142); (569, 1); (588, 1); (595, 1); (599, 178); (605, 1); (610, 169); (618, 142); (622, 178); (629, 6); (631, 6); (633, 142); (639, 178); (648, 6); (652, 142); (657, 24); (659, 178); (667, 142); (673, 142); (675, 330); (677, 178); (680, 330); (691, 6); (696, 142); (698, 331); (699, 332); (700, 333); (704, 178); (709, 331); (710, 332); (711, 333); (719, 6); (723, 142); (726, 284); (729, 285); (730, 24); (732, 286); (734, 178); (742, 178); (744, 178); (748, 178); (750, 178); (760, 142); (763, 334); (765, 187); (769, 335); (770, 334); (776, 142); (778, 336); (779, 337); (781, 187); (785, 336); (786, 337); (796, 142); (798, 178); (805, 142); (806, 24); (808, 178); (809, 24); (815, 142); (817, 187); (823, 338); (824, 339); (825, 340); (826, 342); (834, 6); (835, 178); (841, 142); (846, 4); (849, 344); (851, 287); (853, 21); (857, 344); (860, 344); (861, 345); (863, 287); (865, 345); (869, 344); (872, 344); (873, 345); (875, 287); (877, 345); (881, 344); (884, 344); (885, 345); (887, 287); (891, 345); (894, 344); (902, 6); (905, 142); (913, 6); (917, 142); (925, 6); (929, 142); (939, 178); (942, 191); (945, 346); (948, 191); (951, 24); (954, 192); (957, 24); (958, 346); (961, 192); (964, 346); (965, 24); (966, 24); (969, 192); (972, 24); (973, 24); (974, 24); (977, 193); (981, 142); (982, 24); (983, 24); (986, 193); (988, 24); (994, 142); (996, 347); (998, 25); (999, 347); (1000, 346); (1002, 347); (1004, 25); (1005, 347); (1006, 24); (1007, 24); (1008, 346); (1010, 347); (1012, 25); (1013, 347); (1014, 24); (1015, 24); (1023, 142); (1027, 349); (1029, 178); (1034, 142); (1044, 142); (1049, 195); (1059, 295); (1061, 178); (1065, 295); (1066, 24); (1070, 296); (1072, 178); (1076, 296); (1077, 24); (1081, 297); (1094, 1); (1110, 197); (1113, 198); (1118, 142); (1120, 178); (1124, 142); (1125, 24); (1129, 142); (1130, 300); (1134, 300); (1135, 142); (1140, 300); (1141, 142); (1145, 350); (1146, 351); (1151, 300); (1152, 198); (1153, 142); (1158, 142); (1163, 300); (1166, 198); (1169, 353); (1171, 142); (1173, 352); (1174, 354); (1178, 355); (1181, 352); (1189, 142); (1198, 6); (1201, 142); (1205, 142); (1214, 6); (1218, 142); (1227, 200); (1229, 178); (1233, 200); (1234, 24); (1238, 200); (1240, 356); (1242, 178); (1246, 200); (1248, 356); (1249, 24); (1253, 200); (1258, 200); (1260, 178); (1264, 201); (1268, 178); (1269, 24); (1270, 24); (1274, 201); (1277, 24); (1278, 24); (1280, 178); (1284, 201); (1288, 178); (1290, 178); (1292, 178); (1296, 201); (1300, 202); (1303, 24); (1304, 24); (1308, 202); (1311, 24); (1313, 178); (1317, 202); (1319, 357); (1322, 358); (1325, 359); (1326, 24); (1328, 360); (1330, 178); (1334, 202); (1336, 357); (1339, 359); (1340, 24); (1342, 360); (1344, 178); (1348, 202); (1350, 357); (1356, 200); (1359, 356); (1361, 178); (1364, 178); (1367, 356); (1368, 24); (1370, 24); (1379, 142); (1381, 356); (1383, 178); (1391, 142); (1393, 178); (1401, 142); (1403, 356); (1404, 24); (1412, 142); (1413, 24); (1421, 142); (1430, 142); (1433, 356); (1435, 178); (1438, 178); (1441, 356); (1442, 24); (1444, 24); (1450, 5); (1451, 200); (1456, 356); (1458, 178); (1463, 178); (1468, 356); (1469, 24); (1473, 24); (1481, 142); (1485, 204); (1495, 142); (1500, 142); (1501, 24); (1502, 24); (1503, 24); (1508, 142); (1509, 24); (1511, 178); (1512, 24); (1517, 142); (1518, 24); (1520, 178); (1521, 24); (1522, 24); (1524, 178); (1536, 142); (1539, 24); (1543, 178); (1546, 24); (1549, 24); (1553, 178); (1555, 361); (1557, 178); (1561, 204); (1565, 204); (1566, 24); (1570, 204); (1572, 178); (1573, 24); (1577, 204); (1581, 178); (1584, 24); (1588, 205); (1592, 205); (1593, 24); (1597, 205); (1599, 178); (1600, 24); (1604, 205); (1608, 178); (1611, 24); (1618, 142); (1621, 24); (1623, 178); (1626, 24); (1637, 178); (1640, 178); (1645, 205); (1647, 24); (1648, 24); (1650, 178); (1656, 142); (1660, 204); (1671, 142); (1677, 142); (1678, 24); (1679, 24); (1680, 24); (1686, 142); (1687, 24); (1689, 178); (1690, 24); (1696, 142); (1697, 24); (1699, 178); (1700, 24); (1701, 24); (1703, 178); (1716, 142); (1719, 24); (1723, 178); (1726, 24); (1729, 24); (1733, 178); (1735, 362); (1737, 178); (1741, 207); (1745, 207); (1746, 24); (1750, 207); (1752, 178); (1753, 24); (1757, 207); (1761, 178); (1764, 24); (1768, 208); (1772, 208); (1773, 24); (1777, 208); (1779, 178); (1780, 24); (1784, 208); (1788, 178); (1791, 24); (1801, 142); (1804, 24); (1806, 178); (1809, 24); (1820, 178); (1823, 178); (1828, 208); (1830, 24); (1832, 178); (1837, 6); (1838, 142); (1842, 204); (1852, 5); (1853, 142); (1858, 5); (1859, 142); (1862, 24); (1865, 24); (1870, 5); (1871, 142); (1874, 24); (1878, 178); (1881, 24); (1893, 6); (1894, 142); (1897, 24); (1901, 178); (1904, 24); (1907, 24); (1911, 178); (1913, 363); (1915, 178); (1919, 210); (1923, 210); (1926, 24); (1930, 210); (1934, 178); (1937, 24); (1941, 211); (1945, 211); (1948, 24); (1952, 211); (1956, 178); (1959, 24); (1964, 5); (1966, 6); (1968, 6); (1969, 142); (1978, 24); (1982, 178); (1991, 24); (2004, 178); (2009, 5); (2010, 211); (2016, 24); (2020, 178); (2025, 142); (2026, 6); (2031, 142); (2032, 6); (2035, 178); (2041, 142); (2042, 6); (2044, 24); (2048, 178); (2051, 24); (2057, 142); (2058, 142); (2060, 24); (2062, 178); (2065, 178); (2066, 24); (2069, 178); (2071, 178); (2076, 5); (2078, 142); (2083, 178); (2084, 24); (2092, 178); (2096, 178); (2102, 5); (2103, 178); (2107, 178); (2108, 178); (2113, 178); (2119, 178); (2123, 178); (2129, 142); (2132, 364); (2133, 302); (2137, 364); (2140, 302); (2144, 365); (2147, 364); (2148, 306); (2152, 364); (2155, 306); (2159, 366); (2162, 364); (2163, 307); (2167, 364); (2170, 307); (2174, 367); (2176, 364); (2178, 303); (2182, 364); (2184, 364); (2185, 303); (2189, 364); (2192, 364); (2193, 304); (2197, 364); (2202, 142); (2204, 364); (2205, 368); (2206, 305); (2211, 364); (2212, 368); (2214, 364); (2215, 364); (2216, 305); (2220, 364); (2222, 364); (2223, 305); (2227, 364); (2229, 364); (2230, 308); (2234, 364); (2239, 178); (2243, 178); (2249, 5); (2250, 178); (2254, 178); (2255, 178); (2260, 178); (2266, 178); (2270, 178); (2277, 214); (2280, 215); (2283, 216); (2286, 217); (2289, 218); (2292, 219); (2296, 218); (2299, 220); (2305, 142); (2308, 369); (2309, 309); (2313, 369); (2316, 309); (2320, 370); (2323, 369); (2324, 313); (2328, 369); (2331, 313); (2335, 371); (2338, 369); (2339, 314); (2343, 369); (2346, 314); (2350, 372); (2353, 369); (2354, 315); (2358, 369); (2361, 315); (2365, 373); (2367, 369); (2369, 310); (2373, 369); (2375, 369); (2376, 310); (2380, 369); (2383, 369); (2384, 311); (2388, 369); (2393, 142); (2395, 369); (2396, 374); (2397, 312); (2402, 369); (2403, 374); (2405, 369); (2406, 369); (2407, 312); (2411, 369); (2413, 369); (2414, 312); (2418, 369); (2420, 369); (2421, 316); (2425, 369); (2430, 142); (2438, 178); (2442, 142); (2445, 222); (2451, 142); (2453, 317); (2459, 317); (2461, 317); (2463, 178); (2465, 317); (2466, 376); (2468, 318); (2470, 178); (2472, 318); (2474, 317); (2476, 318); (2477, 375); (2479, 319); (2481, 178); (2483, 319); (2485, 317); (2490, 375); (2492, 317); (2495, 375); (2498, 376); (2500, 317); (2503, 375); (2506, 317); (2508, 178); (2511, 375); (2514, 317); (2515, 376); (2518, 375); (2521, 318); (2523, 178); (2526, 375); (2529, 318); (2531, 317); (2534, 375); (2537, 319); (2539, 178); (2542, 375); (2545, 319); (2547, 317); (2550, 375); (2553, 318); (2554, 375); (2557, 375); (2569, 1); (2576, 1); (2583, 1); (2591, 225); (2597, 1); (2602, 169); (2607, 225); (2613, 1); (2618, 21); (2622, 169); (2625, 21); (2629, 169); (2634, 169); (2639, 225); (2645, 1); (2650, 169); (2661, 224); (2663, 225); (2666, 377); (2678, 1); (2689, 1); (2700, 1); (2707, 5); (2710, 231); (2722, 233); (2728, 1); (2733, 169); (2738, 234); (2744, 1); (2749, 169); (2754, 235); (2760, 1); (2765, 21); (2769, 169); (2772, 21); (2776, 169); (2782, 169); (2791, 6); (2794, 232); (2797, 234); (2801, 234); (2808, 235); (2814, 230); (2816, 233); (2819, 239); (2822, 329); (2825, 378); (2832, 145); (2836, 178)].
Definition t_interfaces_defs : list (N * tobj) := [(10, 142); (14, 251); (22, 143); (26, 252); (33, 253); (37, 254); (38, 255); (44, 256); (48, 257); (49, 258); (56, 144); (60, 259); (70, 145); (76, 146); (86, 147); (96, 148); (106, 149); (118, 150); (122, 260); (129, 151); (133, 261); (140, 152); (146, 262); (153, 153); (157, 263); (160, 264); (161, 265); (183, 154); (187, 266); (188, 267); (217, 155); (221, 156); (225, 157); (232, 158); (248, 159); (252, 242); (253, 243); (273, 160); (277, 244); (278, 245); (290, 161); (306, 162); (319, 163); (340, 164); (344, 268); (345, 269); (364, 165); (368, 270); (375, 271); (382, 272); (391, 273); (398, 274); (405, 166); (418, 167); (422, 275); (434, 168); (438, 276); (448, 169); (457, 246); (460, 170); (474, 247); (477, 171); (491, 248); (494, 172); (508, 249); (511, 173); (523, 250); (526, 174); (542, 175); (552, 176); (558, 177); (564, 277); (574, 178); (579, 179); (583, 278); (590, 279); (600, 180); (613, 181); (624, 182); (641, 183); (646, 280); (647, 281); (650, 282); (651, 283); (661, 184); (672, 330); (682, 185); (689, 331); (690, 332); (695, 333); (713, 186); (718, 284); (721, 285); (722, 286); (737, 187); (752, 188); (759, 334); (762, 335); (774, 336); (775, 337); (788, 189); (795, 338); (802, 339); (803, 340); (804, 341); (813, 342); (814, 343); (828, 190); (832, 287); (840, 344); (845, 345); (896, 191); (900, 288); (901, 289); (904, 290); (908, 192); (912, 291); (915, 292); (920, 193); (924, 293); (927, 294); (932, 194); (937, 346); (992, 347); (1017, 349); (1022, 348); (1032, 195); (1038, 196); (1042, 295); (1048, 296); (1051, 297); (1085, 197); (1089, 298); (1097, 198); (1101, 299); (1105, 199); (1109, 300); (1112, 301); (1137, 350); (1138, 351); (1157, 352); (1184, 200); (1192, 201); (1208, 202); (1220, 203); (1479, 204); (1484, 205); (1487, 206); (1528, 361); (1653, 207); (1659, 208); (1662, 209); (1707, 362); (1835, 210); (1841, 211); (1844, 212); (1885, 363); (2086, 213); (2090, 302); (2094, 303); (2100, 304); (2105, 305); (2110, 306); (2115, 307); (2121, 308); (2128, 364); (2139, 365); (2154, 366); (2169, 367); (2201, 368); (2237, 214); (2241, 215); (2247, 216); (2252, 217); (2257, 218); (2262, 219); (2268, 220); (2272, 221); (2276, 309); (2279, 310); (2282, 311); (2285, 312); (2288, 313); (2291, 314); (2294, 315); (2298, 316); (2304, 369); (2315, 370); (2330, 371); (2345, 372); (2360, 373); (2392, 374); (2428, 222); (2432, 223); (2436, 317); (2440, 318); (2444, 319); (2450, 375); (2457, 376); (2560, 224); (2564, 320); (2571, 321); (2578, 322); (2585, 225); (2592, 226); (2608, 227); (2640, 228); (2653, 229); (2660, 377); (2669, 230); (2673, 323); (2680, 231); (2684, 324); (2691, 232); (2695, 325); (2702, 233); (2712, 234); (2716, 235); (2723, 236); (2739, 237); (2755, 238); (2785, 239); (2789, 326); (2790, 327); (2793, 328); (2803, 240); (2807, 329); (2813, 378); (2827, 241)].
Definition t_interfaces_sels : list (N * (tobj * gotype)) := [(172, (252, (TNamed 143))); (177, (253, (TNamed 143))); (430, (251, (TNamed 145))); (468, (103, (TPointer (TNamed 169)))); (485, (103, (TPointer (TNamed 169)))); (535, (171, (TPointer (TNamed 169))))].
Definition t_interfaces_pkgnames : list (N * gostring) := [(93, (str "inner1")); (103, (str "inner1")); (111, (str "inner1")); (115, (str "inner1")); (202, (str "inner1")); (211, (str "inner2")); (259, (str "inner1")); (266, (str "inner1")); (354, (str "inner1")); (360, (str "inner2"))].
Definition t_interfaces_objnames : list (N * gostring) := [(1, (str "error")); (2, (str "Error")); (3, (str "?")); (4, (str "bool")); (5, (str "string")); (6, (str "int")); (7, (str "int8")); (8, (str "int16")); (9, (str "int32")); (10, (str "int64")); (11, (str "uint")); (12, (str "uint8")); (13, (str "uint16")); (14, (str "uint32")); (15, (str "uint64")); (16, (str "uintptr")); (17, (str "float32")); (18, (str "float64")); (19, (str "complex64")); (20, (str "complex128")); (21, (str "true")); (22, (str "false")); (23, (str "iota")); (24, (str "nil")); (25, (str "append")); (26, (str "cap")); (27, (str "close")); (28, (str "complex")); (29, (str "copy")); (30, (str "delete")); (31, (str "imag")); (32, (str "len")); (33, (str "make")); (34, (str "new")); (35, (str "panic")); (36, (str "print")); (37, (str "println")); (38, (str "real")); (39, (str "recover")); (40, (str "Errorf")); (41, (str "Sprintf")); (42, (str "Println")); (43, (str "New")); (44, (str "HasPrefix")); (45, (str "Float32")); (46, (str "Float64")); (47, (str "Inner1Interface1")); (48, (str "SimpleInterface")); (49, (str "SimpleInterfaceIncompatible")); (50, (str "Inner1Interface2")); (51, (str "Inner1Interface3")); (52, (str "FunctionForInterface1")); (53, (str "FunctionForInterface2")); (54, (str "FunctionForInterface3")); (55, (str "FunctionForAllInterfaces")); (56, (str "ImplementOuter1")); (57, (str "InterfaceMethod1")); (58, (str "InterfaceMethod2")); (59, (str "MethodWithoutError")); (60, (str "ImplementOuterPointer1")); (61, (str "InterfaceMethod1")); (62, (str "InterfaceMethod2")); (63, (str "MethodWithoutError")); (64, (str "Error")); (65, (str "Code")); (66, (str "Message")); (67, (str "Details")); (68, (str "Cause")); (69, (str "Error")); (70, (str "a")); (71, (str "b")); (72, (str "a")); (73, (str "b")); (74, (str "a")); (75, (str "b")); (76, (str "a")); (77, (str "b")); (78, (str "e")); (79, (str "e")); (80, (str "e")); (81, (str "e")); (82, (str "e")); (83, (str "Inner1Method1")); (84, (str "Inner1Method2")); (85, (str "a")); (86, (str "b")); (87, (str "Inner1MethodWithoutError")); (88, (str "a")); (89, (str "b")); (90, (str "SimpleInterfaceMethod")); (91, (str "SimpleInterfaceMethod")); (92, (str "Inner1CodeNotDeclared")); (93, (str "Inner1NoCodes")); (94, (str "Inner1YesCodes")); (95, (str "a")); (96, (str "b")); (97, (str "v")); (98, (str "v")); (99, (str "v")); (100, (str "v1")); (101, (str "v2")); (102, (str "v3")); (103, (str "TheCode")); (104, (str "inner1")); (105, (str "ImplementOuter2")); (106, (str "InterfaceMethod1")); (107, (str "InterfaceMethod2")); (108, (str "MethodWithoutError")); (109, (str "ImplementOuterPointer2")); (110, (str "InterfaceMethod1")); (111, (str "InterfaceMethod2")); (112, (str "MethodWithoutError")); (113, (str "ImplementInner1Interface1")); (114, (str "Inner1Method1")); (115, (str "Inner1Method2")); (116, (str "Inner1MethodWithoutError")); (117, (str "Error")); (118, (str "Code")); (119, (str "Message")); (120, (str "Details")); (121, (str "Cause")); (122, (str "Error")); (123, (str "a")); (124, (str "b")); (125, (str "a")); (126, (str "b")); (127, (str "a")); (128, (str "b")); (129, (str "a")); (130, (str "b")); (131, (str "a")); (132, (str "b")); (133, (str "a")); (134, (str "b")); (135, (str "e")); (136, (str "e")); (137, (str "e")); (138, (str "e")); (139, (str "e")); (140, (str "inner1")); (141, (str "inner2")); (142, (str "SimpleInterface")); (143, (str "SomeInterface")); (144, (str "WithInvalidMethods")); (145, (str "EmbeddedSimpleInterface")); (146, (str "EmbeddedMultipleInterfaces")); (147, (str "EmbeddedOtherPackage")); (148, (str "EmbeddedOtherPackage2")); (149, (str "EmbeddedOtherPackage3")); (150, (str "SimpleInterface2")); (151, (str "OtherSimpleInterface")); (152, (str "EmbeddedSimpleInterface2")); (153, (str "InterfaceParam")); (154, (str "OuterFunction")); (155, (str "ImplementInner1Interface1")); (156, (str "ImplementInner1Interface2")); (157, (str "ImplementInner1Interface3")); (158, (str "Inner1Method1")); (159, (str "Inner1Method2")); (160, (str "Inner1MethodWithoutError")); (161, (str "Inner1CodeNotDeclared")); (162, (str "Inner1NoCodes")); (163, (str "Inner1YesCodes")); (164, (str "UsingExternalImplAsExternalInterface")); (165, (str "ReeError")); (166, (str "ReturnReeError")); (167, (str "CallEmbeddedInterface")); (168, (str "ConvertEmbeddedInterface")); (169, (str "Error")); (170, (str "Code")); (171, (str "Message")); (172, (str "Details")); (173, (str "Cause")); (174, (str "Error")); (175, (str "EmbeddedMultipleInterfaces2")); (176, (str "EmbeddedSimpleInterfaceOtherFile")); (177, (str "EmbeddedSimpleInterface2OtherFile")); (178, (str "InvalidSimpleImpl")); (179, (str "InterFaceWithoutErrorCodeDeclarations")); (180, (str "SimpleInterfaceMethod")); (181, (str "InvalidReturn")); (182, (str "InvalidReturn2")); (183, (str "InvalidReturn3")); (184, (str "InvalidAssignment")); (185, (str "InvalidAssignment2")); (186, (str "InvalidAssignment3")); (187, (str "ReturnTwoInvalidSimpleImpl")); (188, (str "InvalidAssignment4")); (189, (str "InvalidAssignment5")); (190, (str "InvalidAssignment6")); (191, (str "TakingSimpleInterface")); (192, (str "TakingSimpleInterfaceVariadic")); (193, (str "TakingSimpleInterfaceSlice")); (194, (str "InvalidFunctionCall")); (195, (str "SimpleInterfaceMap")); (196, (str "InvalidMapIndex")); (197, (str "SimpleInterfaceIncompatible")); (198, (str "RandomInterface")); (199, (str "InvalidConversion")); (200, (str "BoxSimpleInterface")); (201, (str "Box2SimpleInterface")); (202, (str "Box3SimpleInterface")); (203, (str "InvalidStructCreation")); (204, (str "interfaceSlice")); (205, (str "interfaceSlice2")); (206, (str "InvalidSliceCreation")); (207, (str "interfaceArray")); (208, (str "interfaceArray2")); (209, (str "InvalidArrayCreation")); (210, (str "interfaceMap")); (211, (str "interfaceMap2")); (212, (str "InvalidMapCreation")); (213, (str "InvalidForRange")); (214, (str "InvalidSimpleImplSlice")); (215, (str "InvalidSimpleImplMap1")); (216, (str "InvalidSimpleImplMap2")); (217, (str "InvalidSimpleImplMap3")); (218, (str "InvalidSimpleImplArray")); (219, (str "InvalidSimpleImplPointerToArray")); (220, (str "InvalidSimpleImplChan")); (221, (str "InvalidForRangeNamed")); (222, (str "SimpleInterfaceChan")); (223, (str "InvalidChannelOperation")); (224, (str "someLocalInterface")); (225, (str "someLocalInterfaceInvalidImpl")); (226, (str "local1")); (227, (str "local2")); (228, (str "local3")); (229, (str "InvalidLocalImplementation")); (230, (str "Interface1")); (231, (str "Interface2")); (232, (str "Interface3")); (233, (str "Interface1InvalidImpl")); (234, (str "Interface2InvalidImpl")); (235, (str "Interface3InvalidImpl")); (236, (str "I1")); (237, (str "I2")); (238, (str "I3")); (239, (str "GetInterface2InvalidImpl")); (240, (str "NestedInvalidConversions")); (241, (str "InvalidEmbeddedInterface")); (242, (str "a")); (243, (str "b")); (244, (str "a")); (245, (str "b")); (246, (str "e")); (247, (str "e")); (248, (str "e")); (249, (str "e")); (250, (str "e")); (251, (str "SimpleInterfaceMethod")); (252, (str "InterfaceMethod1")); (253, (str "InterfaceMethod2")); (254, (str "a")); (255, (str "b")); (256, (str "MethodWithoutError")); (257, (str "a")); (258, (str "b")); (259, (str "InvalidMethod1")); (260, (str "SimpleInterfaceMethod")); (261, (str "OtherMethod")); (262, (str "SimpleInterfaceMethod")); (263, (str "some")); (264, (str "a")); (265, (str "b")); (266, (str "a")); (267, (str "b")); (268, (str "a")); (269, (str "b")); (270, (str "Code")); (271, (str "Message")); (272, (str "Details")); (273, (str "Cause")); (274, (str "Error")); (275, (str "param")); (276, (str "param")); (277, (str "SimpleInterfaceMethod")); (278, (str "ExportedCodeNotDeclared")); (279, (str "localCodeNotDeclared")); (280, (str "_")); (281, (str "_")); (282, (str "_")); (283, (str "_")); (284, (str "x")); (285, (str "y")); (286, (str "z")); (287, (str "m")); (288, (str "_")); (289, (str "_")); (290, (str "_")); (291, (str "_")); (292, (str "_")); (293, (str "_")); (294, (str "_")); (295, (str "m")); (296, (str "m2")); (297, (str "slice")); (298, (str "SimpleInterfaceMethod")); (299, (str "RandomMethod")); (300, (str "incompatible")); (301, (str "bs")); (302, (str "slice")); (303, (str "m1")); (304, (str "m2")); (305, (str "m3")); (306, (str "array")); (307, (str "pa")); (308, (str "c")); (309, (str "slice")); (310, (str "m1")); (311, (str "m2")); (312, (str "m3")); (313, (str "array")); (314, (str "pa")); (315, (str "pa2")); (316, (str "c")); (317, (str "c")); (318, (str "csi")); (319, (str "csi2")); (320, (str "local1")); (321, (str "local2")); (322, (str "local3")); (323, (str "I1")); (324, (str "I2")); (325, (str "I3")); (326, (str "_")); (327, (str "_")); (328, (str "_")); (329, (str "i3")); (330, (str "x")); (331, (str "x")); (332, (str "y")); (333, (str "z")); (334, (str "y")); (335, (str "x")); (336, (str "u")); (337, (str "v")); (338, (str "x1")); (339, (str "x2")); (340, (str "x3")); (341, (str "_")); (342, (str "x4")); (343, (str "_")); (344, (str "si")); (345, (str "ok")); (346, (str "param")); (347, (str "slice")); (348, (str "_")); (349, (str "lambda")); (350, (str "s")); (351, (str "ok")); (352, (str "si")); (353, (str "val")); (354, (str "val")); (355, (str "val")); (356, (str "si")); (357, (str "u")); (358, (str "v")); (359, (str "x")); (360, (str "y")); (361, (str "index")); (362, (str "index")); (363, (str "index")); (364, (str "si")); (365, (str "i")); (366, (str "i")); (367, (str "i")); (368, (str "si2")); (369, (str "si")); (370, (str "i")); (371, (str "i")); (372, (str "i")); (373, (str "i")); (374, (str "si2")); (375, (str "si")); (376, (str "some")); (377, (str "local")); (378, (str "i1"))].
Definition t_interfaces_objtypes : list (N * gotype) := [(1, (TNamed 1)); (2, (TSignature [] [(TBasic (str "string"))] false)); (4, (TBasic (str "bool"))); (5, (TBasic (str "string"))); (6, (TBasic (str "int"))); (7, (TBasic (str "int8"))); (8, (TBasic (str "int16"))); (9, (TBasic (str "int32"))); (10, (TBasic (str "int64"))); (11, (TBasic (str "uint"))); (12, (TBasic (str "uint8"))); (13, (TBasic (str "uint16"))); (14, (TBasic (str "uint32"))); (15, (TBasic (str "uint64"))); (16, (TBasic (str "uintptr"))); (17, (TBasic (str "float32"))); (18, (TBasic (str "float64"))); (19, (TBasic (str "complex64"))); (20, (TBasic (str "complex128"))); (40, (TSignature [(TBasic (str "string")); (TSlice (TInterface 4))] [(TNamed 1)] true)); (41, (TSignature [(TBasic (str "string")); (TSlice (TInterface 4))] [(TBasic (str "string"))] true)); (42, (TSignature [(TSlice (TInterface 4))] [(TBasic (str "int")); (TNamed 1)] true)); (43, (TSignature [(TBasic (str "string"))] [(TNamed 1)] false)); (44, (TSignature [(TBasic (str "string")); (TBasic (str "string"))] [(TBasic (str "bool"))] false)); (45, (TSignature [] [(TBasic (str "float32"))] false)); (46, (TSignature [] [(TBasic (str "float64"))] false)); (47, (TNamed 47)); (48, (TNamed 48)); (49, (TNamed 49)); (50, (TNamed 50)); (51, (TNamed 51)); (52, (TSignature [(TBasic (str "string")); (TBasic (str "string")); (TNamed 47)] [(TNamed 1)] false)); (53, (TSignature [(TNamed 50)] [(TNamed 1)] false)); (54, (TSignature [(TNamed 51)] [(TNamed 1)] false)); (55, (TSignature [(TNamed 47); (TNamed 50); (TNamed 51)] [(TNamed 1)] false)); (56, (TNamed 56)); (57, (TSignature [] [(TNamed 1)] false)); (58, (TSignature [(TBasic (str "string")); (TBasic (str "string"))] [(TNamed 1)] false)); (59, (TSignature [(TBasic (str "string")); (TBasic (str "string"))] [(TBasic (str "string"))] false)); (60, (TNamed 60)); (61, (TSignature [] [(TNamed 1)] false)); (62, (TSignature [(TBasic (str "string")); (TBasic (str "string"))] [(TNamed 1)] false)); (63, (TSignature [(TBasic (str "string")); (TBasic (str "string"))] [(TBasic (str "string"))] false)); (64, (TNamed 64)); (65, (TSignature [] [(TBasic (str "string"))] false)); (66, (TSignature [] [(TBasic (str "string"))] false)); (67, (TSignature [] [(TMap (TBasic (str "string")) (TBasic (str "string")))] false)); (68, (TSignature [] [(TNamed 1)] false)); (69, (TSignature [] [(TBasic (str "string"))] false)); (70, (TBasic (str "string"))); (71, (TBasic (str "string"))); (72, (TBasic (str "string"))); (73, (TBasic (str "string"))); (74, (TBasic (str "string"))); (75, (TBasic (str "string"))); (76, (TBasic (str "string"))); (77, (TBasic (str "string"))); (78, (TPointer (TNamed 64))); (79, (TPointer (TNamed 64))); (80, (TPointer (TNamed 64))); (81, (TPointer (TNamed 64))); (82, (TPointer (TNamed 64))); (83, (TSignature [] [(TNamed 1)] false)); (84, (TSignature [(TBasic (str "string")); (TBasic (str "string"))] [(TPointer (TNamed 64))] false)); (85, (TBasic (str "string"))); (86, (TBasic (str "string"))); (87, (TSignature [(TBasic (str "string")); (TBasic (str "string"))] [(TBasic (str "string"))] false)); (88, (TBasic (str "string"))); (89, (TBasic (str "string"))); (90, (TSignature [] [(TNamed 1)] false)); (91, (TSignature [] [(TNamed 1)] false)); (92, (TSignature [] [(TNamed 1)] false)); (93, (TSignature [] [(TNamed 1)] false)); (94, (TSignature [] [(TNamed 1)] false)); (95, (TBasic (str "string"))); (96, (TBasic (str "string"))); (97, (TNamed 47)); (98, (TNamed 50)); (99, (TNamed 51)); (100, (TNamed 47)); (101, (TNamed 50)); (102, (TNamed 51)); (103, (TBasic (str "string"))); (105, (TNamed 105)); (106, (TSignature [] [(TNamed 1)] false)); (107, (TSignature [(TBasic (str "string")); (TBasic (str "string"))] [(TNamed 1)] false)); (108, (TSignature [(TBasic (str "string")); (TBasic (str "string"))] [(TBasic (str "string"))] false)); (109, (TNamed 109)); (110, (TSignature [] [(TNamed 1)] false)); (111, (TSignature [(TBasic (str "string")); (TBasic (str "string"))] [(TNamed 1)] false)); (112, (TSignature [(TBasic (str "string")); (TBasic (str "string"))] [(TBasic (str "string"))] false)); (113, (TNamed 113)); (114, (TSignature [] [(TNamed 1)] false)); (115, (TSignature [(TBasic (str "string")); (TBasic (str "string"))] [(TPointer (TNamed 64))] false)); (116, (TSignature [(TBasic (str "string")); (TBasic (str "string"))] [(TBasic (str "string"))] false)); (117, (TNamed 117)); (118, (TSignature [] [(TBasic (str "string"))] false)); (119, (TSignature [] [(TBasic (str "string"))] false)); (120, (TSignature [] [(TMap (TBasic (str "string")) (TBasic (str "string")))] false)); (121, (TSignature [] [(TNamed 1)] false)); (122, (TSignature [] [(TBasic (str "string"))] false)); (123, (TBasic (str "string"))); (124, (TBasic (str "string"))); (125, (TBasic (str "string"))); (126, (TBasic (str "string"))); (127, (TBasic (str "string"))); (128, (TBasic (str "string"))); (129, (TBasic (str "string"))); (130, (TBasic (str "string"))); (131, (TBasic (str "string"))); (132, (TBasic (str "string"))); (133, (TBasic (str "string"))); (134, (TBasic (str "string"))); (135, (TPointer (TNamed 117))); (136, (TPointer (TNamed 117))); (137, (TPointer (TNamed 117))); (138, (TPointer (TNamed 117))); (139, (TPointer (TNamed 117))); (142, (TNamed 142)); (143, (TNamed 143)); (144, (TNamed 144)); (145, (TNamed 145)); (146, (TNamed 146)); (147, (TNamed 147)); (148, (TNamed 148)); (149, (TNamed 149)); (150, (TNamed 150)); (151, (TNamed 151)); (152, (TNamed 152)); (153, (TSignature [(TNamed 143); (TBasic (str "string")); (TBasic (str "string"))] [(TNamed 1)] false)); (154, (TSignature [(TBasic (str "string")); (TBasic (str "string"))] [(TNamed 1)] false)); (155, (TNamed 155)); (156, (TNamed 156)); (157, (TNamed 157)); (158, (TSignature [] [(TNamed 1)] false)); (159, (TSignature [(TBasic (str "string")); (TBasic (str "string"))] [(TPointer (TNamed 64))] false)); (160, (TSignature [(TBasic (str "string")); (TBasic (str "string"))] [(TBasic (str "string"))] false)); (161, (TSignature [] [(TNamed 1)] false)); (162, (TSignature [] [(TNamed 1)] false)); (163, (TSignature [] [(TNamed 1)] false)); (164, (TSignature [(TBasic (str "string")); (TBasic (str "string"))] [(TNamed 1)] false)); (165, (TNamed 165)); (166, (TSignature [] [(TNamed 165)] false)); (167, (TSignature [(TNamed 145)] [(TNamed 1)] false)); (168, (TSignature [(TNamed 145)] [(TNamed 142)] false)); (169, (TNamed 169)); (170, (TSignature [] [(TBasic (str "string"))] false)); (171, (TSignature [] [(TBasic (str "string"))] false)); (172, (TSignature [] [(TMap (TBasic (str "string")) (TBasic (str "string")))] false)); (173, (TSignature [] [(TNamed 1)] false)); (174, (TSignature [] [(TBasic (str "string"))] false)); (175, (TNamed 175)); (176, (TNamed 176)); (177, (TNamed 177)); (178, (TNamed 178)); (179, (TNamed 179)); (180, (TSignature [] [(TNamed 1)] false)); (181, (TSignature [] [(TNamed 142)] false)); (182, (TSignature [] [(TBasic (str "int")); (TBasic (str "int")); (TNamed 142)] false)); (183, (TSignature [] [(TBasic (str "int")); (TBasic (str "int")); (TNamed 142); (TNamed 142)] false)); (184, (TSignature [] [(TPointer (TNamed 142))] false)); (185, (TSignature [] [] false)); (186, (TSignature [] [(TBasic (str "int")); (TNamed 142); (TNamed 142)] false)); (187, (TSignature [] [(TNamed 178); (TNamed 178)] false)); (188, (TSignature [] [] false)); (189, (TSignature [] [] false)); (190, (TSignature [(TMap (TBasic (str "int")) (TNamed 178))] [] false)); (191, (TSignature [(TBasic (str "int")); (TBasic (str "int")); (TNamed 142)] [] false)); (192, (TSignature [(TBasic (str "int")); (TSlice (TNamed 142))] [] true)); (193, (TSignature [(TBasic (str "int")); (TSlice (TNamed 142))] [] false)); (194, (TSignature [] [] false)); (195, (TNamed 195)); (196, (TSignature [(TMap (TNamed 142) (TStruct [])); (TNamed 195); (TSlice (TStruct []))] [] false)); (197, (TNamed 197)); (198, (TNamed 198)); (199, (TSignature [(TNamed 197); (TNamed 198)] [] false)); (200, (TNamed 200)); (201, (TNamed 201)); (202, (TNamed 202)); (203, (TSignature [] [] false)); (204, (TNamed 204)); (205, (TNamed 205)); (206, (TSignature [] [] false)); (207, (TNamed 207)); (208, (TNamed 208)); (209, (TSignature [] [] false)); (210, (TNamed 210)); (211, (TNamed 211)); (212, (TSignature [] [] false)); (213, (TSignature [(TSlice (TNamed 178)); (TMap (TNamed 178) (TStruct [])); (TMap (TBasic (str "string")) (TNamed 178)); (TMap (TNamed 178) (TNamed 178)); (TArray 5 (TNamed 178)); (TPointer (TArray 5 (TNamed 178))); (TChan 3 (TNamed 178))] [] false)); (214, (TNamed 214)); (215, (TNamed 215)); (216, (TNamed 216)); (217, (TNamed 217)); (218, (TNamed 218)); (219, (TNamed 219)); (220, (TNamed 220)); (221, (TSignature [(TNamed 214); (TNamed 215); (TNamed 216); (TNamed 217); (TNamed 218); (TNamed 219); (TPointer (TNamed 218)); (TNamed 220)] [] false)); (222, (TNamed 222)); (223, (TSignature [(TChan 3 (TNamed 178)); (TChan 3 (TNamed 142)); (TNamed 222)] [] false)); (224, (TNamed 224)); (225, (TNamed 225)); (226, (TSignature [] [(TNamed 1)] false)); (227, (TSignature [] [(TNamed 1)] false)); (228, (TSignature [] [(TNamed 1)] false)); (229, (TSignature [] [] false)); (230, (TNamed 230)); (231, (TNamed 231)); (232, (TNamed 232)); (233, (TNamed 233)); (234, (TNamed 234)); (235, (TNamed 235)); (236, (TSignature [] [(TNamed 1)] false)); (237, (TSignature [] [(TNamed 1)] false)); (238, (TSignature [] [(TNamed 1)] false)); (239, (TSignature [(TBasic (str "int")); (TBasic (str "int")); (TNamed 232)] [(TNamed 234)] false)); (240, (TSignature [(TNamed 235)] [] false)); (241, (TSignature [] [(TNamed 145)] false)); (242, (TBasic (str "string"))); (243, (TBasic (str "string"))); (244, (TBasic (str "string"))); (245, (TBasic (str "string"))); (246, (TPointer (TNamed 169))); (247, (TPointer (TNamed 169))); (248, (TPointer (TNamed 169))); (249, (TPointer (TNamed 169))); (250, (TPointer (TNamed 169))); (251, (TSignature [] [(TNamed 1)] false)); (252, (TSignature [] [(TNamed 1)] false)); (253, (TSignature [(TBasic (str "string")); (TBasic (str "string"))] [(TNamed 1)] false)); (254, (TBasic (str "string"))); (255, (TBasic (str "string"))); (256, (TSignature [(TBasic (str "string")); (TBasic (str "string"))] [(TBasic (str "string"))] false)); (257, (TBasic (str "string"))); (258, (TBasic (str "string"))); (259, (TSignature [] [(TNamed 1); (TBasic (str "string"))] false)); (260, (TSignature [] [(TNamed 1)] false)); (261, (TSignature [] [(TNamed 1)] false)); (262, (TSignature [] [(TNamed 1)] false)); (263, (TNamed 143)); (264, (TBasic (str "string"))); (265, (TBasic (str "string"))); (266, (TBasic (str "string"))); (267, (TBasic (str "string"))); (268, (TBasic (str "string"))); (269, (TBasic (str "string"))); (270, (TSignature [] [(TBasic (str "string"))] false)); (271, (TSignature [] [(TBasic (str "string"))] false)); (272, (TSignature [] [(TMap (TBasic (str "string")) (TBasic (str "string")))] false)); (273, (TSignature [] [(TNamed 1)] false)); (274, (TSignature [] [(TBasic (str "string"))] false)); (275, (TNamed 145)); (276, (TNamed 145)); (277, (TSignature [] [(TNamed 1)] false)); (278, (TSignature [] [(TNamed 1)] false)); (279, (TSignature [] [(TNamed 1)] false)); (280, (TBasic (str "int"))); (281, (TBasic (str "int"))); (282, (TNamed 142)); (283, (TNamed 142)); (284, (TBasic (str "int"))); (285, (TNamed 142)); (286, (TNamed 142)); (287, (TMap (TBasic (str "int")) (TNamed 178))); (288, (TBasic (str "int"))); (289, (TBasic (str "int"))); (290, (TNamed 142)); (291, (TBasic (str "int"))); (292, (TSlice (TNamed 142))); (293, (TBasic (str "int"))); (294, (TSlice (TNamed 142))); (295, (TMap (TNamed 142) (TStruct []))); (296, (TNamed 195)); (297, (TSlice (TStruct []))); (298, (TSignature [] [(TNamed 1)] false)); (299, (TSignature [] [] false)); (300, (TNamed 197)); (301, (TNamed 198)); (302, (TSlice (TNamed 178))); (303, (TMap (TNamed 178) (TStruct []))); (304, (TMap (TBasic (str "string")) (TNamed 178))); (305, (TMap (TNamed 178) (TNamed 178))); (306, (TArray 5 (TNamed 178))); (307, (TPointer (TArray 5 (TNamed 178)))); (308, (TChan 3 (TNamed 178))); (309, (TNamed 214)); (310, (TNamed 215)); (311, (TNamed 216)); (312, (TNamed 217)); (313, (TNamed 218)); (314, (TNamed 219)); (315, (TPointer (TNamed 218))); (316, (TNamed 220)); (317, (TChan 3 (TNamed 178))); (318, (TChan 3 (TNamed 142))); (319, (TNamed 222)); (320, (TSignature [] [(TNamed 1)] false)); (321, (TSignature [] [(TNamed 1)] false)); (322, (TSignature [] [(TNamed 1)] false)); (323, (TSignature [] [(TNamed 1)] false)); (324, (TSignature [] [(TNamed 1)] false)); (325, (TSignature [] [(TNamed 1)] false)); (326, (TBasic (str "int"))); (327, (TBasic (str "int"))); (328, (TNamed 232)); (329, (TNamed 235)); (330, (TNamed 142)); (331, (TBasic (str "int"))); (332, (TBasic (str "int"))); (333, (TNamed 142)); (334, (TNamed 142)); (335, (TNamed 178)); (336, (TNamed 142)); (337, (TNamed 142)); (338, (TNamed 142)); (339, (TNamed 142)); (340, (TNamed 142)); (341, (TNamed 142)); (342, (TNamed 142)); (343, (TNamed 142)); (344, (TNamed 142)); (345, (TBasic (str "bool"))); (346, (TNamed 178)); (347, (TSlice (TNamed 142))); (348, (TNamed 142)); (349, (TSignature [(TNamed 142)] [] false)); (350, (TNamed 142)); (351, (TBasic (str "bool"))); (352, (TNamed 142)); (353, (TNamed 198)); (354, (TNamed 142)); (355, (TNamed 197)); (356, (TNamed 142)); (357, (TBasic (str "int"))); (358, (TBasic (str "int"))); (359, (TNamed 142)); (360, (TNamed 142)); (361, (TBasic (str "int"))); (362, (TBasic (str "int"))); (363, (TBasic (str "int"))); (364, (TNamed 142)); (365, (TBasic (str "int"))); (366, (TBasic (str "int"))); (367, (TBasic (str "int"))); (368, (TNamed 142)); (369, (TNamed 142)); (370, (TBasic (str "int"))); (371, (TBasic (str "int"))); (372, (TBasic (str "int"))); (373, (TBasic (str "int"))); (374, (TNamed 142)); (375, (TNamed 142)); (376, (TNamed 178)); (377, (TNamed 224)); (378, (TNamed 230))].
Definition t_interfaces_under : list (N * gotype) := [(1, (TInterface 1)); (47, (TInterface 5)); (48, (TInterface 6)); (49, (TInterface 6)); (50, (TInterface 7)); (51, (TInterface 8)); (56, (TStruct [])); (60, (TStruct [])); (64, (TStruct [((str "TheCode"), (TBasic (str "string")))])); (105, (TStruct [])); (109, (TStruct [])); (113, (TStruct [])); (117, (TStruct [((str "TheCode"), (TBasic (str "string")))])); (142, (TInterface 6)); (143, (TInterface 9)); (144, (TInterface 10)); (145, (TInterface 6)); (146, (TInterface 12)); (147, (TInterface 6)); (148, (TInterface 6)); (149, (TInterface 6)); (150, (TInterface 6)); (151, (TInterface 11)); (152, (TInterface 6)); (155, (TStruct [])); (156, (TStruct [])); (157, (TStruct [])); (165, (TInterface 13)); (169, (TStruct [((str "TheCode"), (TBasic (str "string")))])); (175, (TInterface 12)); (176, (TInterface 6)); (177, (TInterface 6)); (178, (TStruct [])); (179, (TInterface 14)); (195, (TMap (TNamed 142) (TStruct []))); (197, (TInterface 6)); (198, (TInterface 15)); (200, (TStruct [((str "si"), (TNamed 142))])); (201, (TStruct [((str "_"), (TBasic (str "int"))); ((str "_"), (TBasic (str "int"))); ((str "_"), (TNamed 142)); ((str "_"), (TNamed 142)); ((str "_"), (TNamed 142))])); (202, (TStruct [((str "u"), (TBasic (str "int"))); ((str "v"), (TBasic (str "int"))); ((str "x"), (TNamed 142)); ((str "y"), (TNamed 142))])); (204, (TSlice (TNamed 142))); (205, (TSlice (TNamed 142))); (207, (TArray 2 (TNamed 142))); (208, (TSlice (TNamed 142))); (210, (TMap (TBasic (str "int")) (TNamed 142))); (211, (TSlice (TNamed 142))); (214, (TSlice (TNamed 178))); (215, (TMap (TNamed 178) (TStruct []))); (216, (TMap (TBasic (str "string")) (TNamed 178))); (217, (TMap (TNamed 178) (TNamed 178))); (218, (TArray 5 (TNamed 178))); (219, (TPointer (TArray 5 (TNamed 178)))); (220, (TChan 3 (TNamed 178))); (222, (TChan 3 (TNamed 142))); (224, (TInterface 16)); (225, (TStruct [])); (230, (TInterface 17)); (231, (TInterface 18)); (232, (TInterface 19)); (233, (TStruct [((str "_"), (TBasic (str "string"))); ((str "_"), (TNamed 231))])); (234, (TStruct [])); (235, (TStruct []))].
Definition t_interfaces_named_methods : list (N * (list gostring)) := [(56, [(str "InterfaceMethod1"); (str "InterfaceMethod2"); (str "MethodWithoutError")]); (60, [(str "InterfaceMethod1"); (str "InterfaceMethod2"); (str "MethodWithoutError")]); (64, [(str "Code"); (str "Message"); (str "Details"); (str "Cause"); (str "Error")]); (105, [(str "InterfaceMethod1"); (str "InterfaceMethod2"); (str "MethodWithoutError")]); (109, [(str "InterfaceMethod1"); (str "InterfaceMethod2"); (str "MethodWithoutError")]); (113, [(str "Inner1Method1"); (str "Inner1Method2"); (str "Inner1MethodWithoutError")]); (117, [(str "Code"); (str "Message"); (str "Details"); (str "Cause"); (str "Error")]); (155, [(str "Inner1Method1"); (str "Inner1Method2"); (str "Inner1MethodWithoutError")]); (156, [(str "Inner1CodeNotDeclared")]); (157, [(str "Inner1NoCodes"); (str "Inner1YesCodes")]); (169, [(str "Code"); (str "Message"); (str "Details"); (str "Cause"); (str "Error")]); (178, [(str "SimpleInterfaceMethod")]); (225, [(str "local1"); (str "local2"); (str "local3")]); (233, [(str "I1")]); (234, [(str "I2")]); (235, [(str "I3")])].
Definition t_interfaces_methods : list (gotype * gostring * tobj) := [((TInterface 1), (str "Error"), 2); ((TInterface 10), (str "InvalidMethod1"), 259); ((TInterface 11), (str "OtherMethod"), 261); ((TInterface 12), (str "OtherMethod"), 261); ((TInterface 12), (str "SimpleInterfaceMethod"), 251); ((TInterface 13), (str "Cause"), 273); ((TInterface 13), (str "Code"), 270); ((TInterface 13), (str "Details"), 272); ((TInterface 13), (str "Error"), 274); ((TInterface 13), (str "Message"), 271); ((TInterface 14), (str "ExportedCodeNotDeclared"), 278); ((TInterface 14), (str "localCodeNotDeclared"), 279); ((TInterface 15), (str "RandomMethod"), 299); ((TInterface 16), (str "local1"), 320); ((TInterface 16), (str "local2"), 321); ((TInterface 16), (str "local3"), 322); ((TInterface 17), (str "I1"), 323); ((TInterface 18), (str "I2"), 324); ((TInterface 19), (str "I3"), 325); ((TInterface 5), (str "Inner1Method1"), 83); ((TInterface 5), (str "Inner1Method2"), 84); ((TInterface 5), (str "Inner1MethodWithoutError"), 87); ((TInterface 6), (str "SimpleInterfaceMethod"), 90); ((TInterface 7), (str "Inner1CodeNotDeclared"), 92); ((TInterface 8), (str "Inner1NoCodes"), 93); ((TInterface 8), (str "Inner1YesCodes"), 94); ((TInterface 9), (str "InterfaceMethod1"), 252); ((TInterface 9), (str "InterfaceMethod2"), 253); ((TInterface 9), (str "MethodWithoutError"), 256); ((TNamed 1), (str "Error"), 2); ((TNamed 105), (str "InterfaceMethod1"), 106); ((TNamed 105), (str "InterfaceMethod2"), 107); ((TNamed 105), (str "MethodWithoutError"), 108); ((TNamed 113), (str "Inner1Method1"), 114); ((TNamed 113), (str "Inner1Method2"), 115); ((TNamed 113), (str "Inner1MethodWithoutError"), 116); ((TNamed 142), (str "SimpleInterfaceMethod"), 251); ((TNamed 143), (str "InterfaceMethod1"), 252); ((TNamed 143), (str "InterfaceMethod2"), 253); ((TNamed 143), (str "MethodWithoutError"), 256); ((TNamed 144), (str "InvalidMethod1"), 259); ((TNamed 145), (str "SimpleInterfaceMethod"), 251); ((TNamed 146), (str "OtherMethod"), 261); ((TNamed 146), (str "SimpleInterfaceMethod"), 251); ((TNamed 147), (str "SimpleInterfaceMethod"), 251); ((TNamed 148), (str "SimpleInterfaceMethod"), 251); ((TNamed 149), (str "SimpleInterfaceMethod"), 90); ((TNamed 150), (str "SimpleInterfaceMethod"), 260); ((TNamed 151), (str "OtherMethod"), 261); ((TNamed 152), (str "SimpleInterfaceMethod"), 262); ((TNamed 155), (str "Inner1Method1"), 158); ((TNamed 155), (str "Inner1Method2"), 159); ((TNamed 155), (str "Inner1MethodWithoutError"), 160); ((TNamed 156), (str "Inner1CodeNotDeclared"), 161); ((TNamed 157), (str "Inner1NoCodes"), 162); ((TNamed 157), (str "Inner1YesCodes"), 163); ((TNamed 165), (str "Cause"), 273); ((TNamed 165), (str "Code"), 270); ((TNamed 165), (str "Details"), 272); ((TNamed 165), (str "Error"), 274); ((TNamed 165), (str "Message"), 271); ((TNamed 175), (str "OtherMethod"), 261); ((TNamed 175), (str "SimpleInterfaceMethod"), 251); ((TNamed 176), (str "SimpleInterfaceMethod"), 251); ((TNamed 177), (str "SimpleInterfaceMethod"), 277); ((TNamed 178), (str "SimpleInterfaceMethod"), 180); ((TNamed 179), (str "ExportedCodeNotDeclared"), 278); ((TNamed 179), (str "localCodeNotDeclared"), 279); ((TNamed 197), (str "SimpleInterfaceMethod"), 298); ((TNamed 198), (str "RandomMethod"), 299); ((TNamed 224), (str "local1"), 320); ((TNamed 224), (str "local2"), 321); ((TNamed 224), (str "local3"), 322); ((TNamed 225), (str "local1"), 226); ((TNamed 225), (str "local2"), 227); ((TNamed 225), (str "local3"), 228); ((TNamed 230), (str "I1"), 323); ((TNamed 231), (str "I2"), 324); ((TNamed 232), (str "I3"), 325); ((TNamed 233), (str "I1"), 236); ((TNamed 234), (str "I2"), 237); ((TNamed 235), (str "I3"), 238); ((TNamed 47), (str "Inner1Method1"), 83); ((TNamed 47), (str "Inner1Method2"), 84); ((TNamed 47), (str "Inner1MethodWithoutError"), 87); ((TNamed 48), (str "SimpleInterfaceMethod"), 90); ((TNamed 49), (str "SimpleInterfaceMethod"), 91); ((TNamed 50), (str "Inner1CodeNotDeclared"), 92); ((TNamed 51), (str "Inner1NoCodes"), 93); ((TNamed 51), (str "Inner1YesCodes"), 94); ((TNamed 56), (str "InterfaceMethod1"), 57); ((TNamed 56), (str "InterfaceMethod2"), 58); ((TNamed 56), (str "MethodWithoutError"), 59); ((TPointer (TNamed 105)), (str "InterfaceMethod1"), 106); ((TPointer (TNamed 105)), (str "InterfaceMethod2"), 107); ((TPointer (TNamed 105)), (str "MethodWithoutError"), 108); ((TPointer (TNamed 109)), (str "InterfaceMethod1"), 110); ((TPointer (TNamed 109)), (str "InterfaceMethod2"), 111); ((TPointer (TNamed 109)), (str "MethodWithoutError"), 112); ((TPointer (TNamed 113)), (str "Inner1Method1"), 114); ((TPointer (TNamed 113)), (str "Inner1Method2"), 115); ((TPointer (TNamed 113)), (str "Inner1MethodWithoutError"), 116); ((TPointer (TNamed 117)), (str "Cause"), 121); ((TPointer (TNamed 117)), (str "Code"), 118); ((TPointer (TNamed 117)), (str "Details"), 120); ((TPointer (TNamed 117)), (str "Error"), 122); ((TPointer (TNamed 117)), (str "Message"), 119); ((TPointer (TNamed 155)), (str "Inner1Method1"), 158); ((TPointer (TNamed 155)), (str "Inner1Method2"), 159); ((TPointer (TNamed 155)), (str "Inner1MethodWithoutError"), 160); ((TPointer (TNamed 156)), (str "Inner1CodeNotDeclared"), 161); ((TPointer (TNamed 157)), (str "Inner1NoCodes"), 162); ((TPointer (TNamed 157)), (str "Inner1YesCodes"), 163); ((TPointer (TNamed 169)), (str "Cause"), 173); ((TPointer (TNamed 169)), (str "Code"), 170); ((TPointer (TNamed 169)), (str "Details"), 172); ((TPointer (TNamed 169)), (str "Error"), 174); ((TPointer (TNamed 169)), (str "Message"), 171); ((TPointer (TNamed 178)), (str "SimpleInterfaceMethod"), 180); ((TPointer (TNamed 225)), (str "local1"), 226); ((TPointer (TNamed 225)), (str "local2"), 227); ((TPointer (TNamed 225)), (str "local3"), 228); ((TPointer (TNamed 233)), (str "I1"), 236); ((TPointer (TNamed 234)), (str "I2"), 237); ((TPointer (TNamed 235)), (str "I3"), 238); ((TPointer (TNamed 56)), (str "InterfaceMethod1"), 57); ((TPointer (TNamed 56)), (str "InterfaceMethod2"), 58); ((TPointer (TNamed 56)), (str "MethodWithoutError"), 59); ((TPointer (TNamed 60)), (str "InterfaceMethod1"), 61); ((TPointer (TNamed 60)), (str "InterfaceMethod2"), 62); ((TPointer (TNamed 60)), (str "MethodWithoutError"), 63); ((TPointer (TNamed 64)), (str "Cause"), 68); ((TPointer (TNamed 64)), (str "Code"), 65); ((TPointer (TNamed 64)), (str "Details"), 67); ((TPointer (TNamed 64)), (str "Error"), 69); ((TPointer (TNamed 64)), (str "Message"), 66)].
Definition t_interfaces_ierr : list gotype := [(TInterface 1); (TInterface 13); (TNamed 1); (TNamed 165); (TPointer (TNamed 117)); (TPointer (TNamed 169)); (TPointer (TNamed 64))].
Definition t_interfaces_iree : list gotype := [(TInterface 13); (TNamed 165); (TPointer (TNamed 117)); (TPointer (TNamed 169)); (TPointer (TNamed 64))].
Definition t_interfaces_icause : list gotype := [(TInterface 13); (TNamed 165); (TPointer (TNamed 117)); (TPointer (TNamed 169)); (TPointer (TNamed 64))].
Definition t_interfaces_impl : list (gotype * gotype) := [((TInterface 1), (TInterface 1)); ((TInterface 10), (TInterface 10)); ((TInterface 11), (TInterface 11)); ((TInterface 12), (TInterface 11)); ((TInterface 12), (TInterface 12)); ((TInterface 12), (TInterface 6)); ((TInterface 13), (TInterface 1)); ((TInterface 13), (TInterface 13)); ((TInterface 14), (TInterface 14)); ((TInterface 15), (TInterface 15)); ((TInterface 16), (TInterface 16)); ((TInterface 17), (TInterface 17)); ((TInterface 18), (TInterface 18)); ((TInterface 19), (TInterface 19)); ((TInterface 5), (TInterface 5)); ((TInterface 6), (TInterface 6)); ((TInterface 7), (TInterface 7)); ((TInterface 8), (TInterface 8)); ((TInterface 9), (TInterface 9)); ((TNamed 1), (TInterface 1)); ((TNamed 105), (TInterface 9)); ((TNamed 113), (TInterface 5)); ((TNamed 142), (TInterface 6)); ((TNamed 143), (TInterface 9)); ((TNamed 144), (TInterface 10)); ((TNamed 145), (TInterface 6)); ((TNamed 146), (TInterface 11)); ((TNamed 146), (TInterface 12)); ((TNamed 146), (TInterface 6)); ((TNamed 147), (TInterface 6)); ((TNamed 148), (TInterface 6)); ((TNamed 149), (TInterface 6)); ((TNamed 150), (TInterface 6)); ((TNamed 151), (TInterface 11)); ((TNamed 152), (TInterface 6)); ((TNamed 155), (TInterface 5)); ((TNamed 156), (TInterface 7)); ((TNamed 157), (TInterface 8)); ((TNamed 165), (TInterface 1)); ((TNamed 165), (TInterface 13)); ((TNamed 175), (TInterface 11)); ((TNamed 175), (TInterface 12)); ((TNamed 175), (TInterface 6)); ((TNamed 176), (TInterface 6)); ((TNamed 177), (TInterface 6)); ((TNamed 178), (TInterface 6)); ((TNamed 179), (TInterface 14)); ((TNamed 197), (TInterface 6)); ((TNamed 198), (TInterface 15)); ((TNamed 224), (TInterface 16)); ((TNamed 225), (TInterface 16)); ((TNamed 230), (TInterface 17)); ((TNamed 231), (TInterface 18)); ((TNamed 232), (TInterface 19)); ((TNamed 233), (TInterface 17)); ((TNamed 234), (TInterface 18)); ((TNamed 235), (TInterface 19)); ((TNamed 47), (TInterface 5)); ((TNamed 48), (TInterface 6)); ((TNamed 49), (TInterface 6)); ((TNamed 50), (TInterface 7)); ((TNamed 51), (TInterface 8)); ((TNamed 56), (TInterface 9)); ((TPointer (TNamed 105)), (TInterface 9)); ((TPointer (TNamed 109)), (TInterface 9)); ((TPointer (TNamed 113)), (TInterface 5)); ((TPointer (TNamed 117)), (TInterface 1)); ((TPointer (TNamed 117)), (TInterface 13)); ((TPointer (TNamed 155)), (TInterface 5)); ((TPointer (TNamed 156)), (TInterface 7)); ((TPointer (TNamed 157)), (TInterface 8)); ((TPointer (TNamed 169)), (TInterface 1)); ((TPointer (TNamed 169)), (TInterface 13)); ((TPointer (TNamed 178)), (TInterface 6)); ((TPointer (TNamed 225)), (TInterface 16)); ((TPointer (TNamed 233)), (TInterface 17)); ((TPointer (TNamed 234)), (TInterface 18)); ((TPointer (TNamed 235)), (TInterface 19)); ((TPointer (TNamed 56)), (TInterface 9)); ((TPointer (TNamed 60)), (TInterface 9)); ((TPointer (TNamed 64)), (TInterface 1)); ((TPointer (TNamed 64)), (TInterface 13))].
Definition t_interfaces_nodes0 : list snode := [SNode 1 (Place 0 1) (Place 7558 211) true; SNode 2 (Place 8 1) (Place 18 1) false; SNode 3 (Place 20 3) (Place 72 6) true; SNode 4 (Place 30 4) (Place 49 4) true; SNode 5 (Place 30 4) (Place 49 4) false; SNode 6 (Place 51 5) (Place 70 5) true; SNode 7 (Place 51 5) (Place 70 5) false; SNode 8 (Place 74 8) (Place 514 16) true; SNode 9 (Place 79 8) (Place 514 16) true; SNode 10 (Place 79 8) (Place 94 8) false; SNode 11 (Place 95 8) (Place 514 16) false; SNode 12 (Place 105 8) (Place 514 16) false; SNode 13 (Place 403 15) (Place 432 15) true; SNode 14 (Place 403 15) (Place 424 15) false; SNode 15 (Place 424 15) (Place 432 15) false; SNode 16 (Place 424 15) (Place 426 15) false; SNode 17 (Place 427 15) (Place 432 15) false; SNode 18 (Place 427 15) (Place 432 15) true; SNode 19 (Place 427 15) (Place 432 15) false; SNode 20 (Place 516 18) (Place 1309 36) true; SNode 21 (Place 521 18) (Place 1309 36) true; SNode 22 (Place 521 18) (Place 534 18) false; SNode 23 (Place 535 18) (Place 1309 36) false; SNode 24 (Place 545 18) (Place 1309 36) false; SNode 25 (Place 818 25) (Place 842 25) true; SNode 26 (Place 818 25) (Place 834 25) false; SNode 27 (Place 834 25) (Place 842 25) false; SNode 28 (Place 834 25) (Place 836 25) false; SNode 29 (Place 837 25) (Place 842 25) false; SNode 30 (Place 837 25) (Place 842 25) true; SNode 31 (Place 837 25) (Place 842 25) false; SNode 32 (Place 1026 31) (Place 1061 31) true; SNode 33 (Place 1026 31) (Place 1042 31) false; SNode 34 (Place 1042 31) (Place 1061 31) false; SNode 35 (Place 1042 31) (Place 1055 31) false; SNode 36 (Place 1043 31) (Place 1054 31) true; SNode 37 (Place 1043 31) (Place 1044 31) false; SNode 38 (Place 1046 31) (Place 1047 31) false; SNode 39 (Place 1048 31) (Place 1054 31) false; SNode 40 (Place 1056 31) (Place 1061 31) false; SNode 41 (Place 1056 31) (Place 1061 31) true; SNode 42 (Place 1056 31) (Place 1061 31) false; SNode 43 (Place 1269 35) (Place 1307 35) true; SNode 44 (Place 1269 35) (Place 1287 35) false; SNode 45 (Place 1287 35) (Place 1307 35) false; SNode 46 (Place 1287 35) (Place 1300 35) false; SNode 47 (Place 1288 35) (Place 1299 35) true; SNode 48 (Place 1288 35) (Place 1289 35) false; SNode 49 (Place 1291 35) (Place 1292 35) false; SNode 50 (Place 1293 35) (Place 1299 35) false; SNode 51 (Place 1301 35) (Place 1307 35) false; SNode 52 (Place 1301 35) (Place 1307 35) true; SNode 53 (Place 1301 35) (Place 1307 35) false; SNode 54 (Place 1311 38) (Place 1438 40) true; SNode 55 (Place 1316 38) (Place 1438 40) true; SNode 56 (Place 1316 38) (Place 1334 38) false; SNode 57 (Place 1335 38) (Place 1438 40) false; SNode 58 (Place 1345 38) (Place 1438 40) false; SNode 59 (Place 1348 39) (Place 1380 39) true; SNode 60 (Place 1348 39) (Place 1362 39) false; SNode 61 (Place 1362 39) (Place 1380 39) false; SNode 62 (Place 1362 39) (Place 1364 39) false; SNode 63 (Place 1365 39) (Place 1380 39) false; SNode 64 (Place 1366 39) (Place 1371 39) true; SNode 65 (Place 1366 39) (Place 1371 39) false; SNode 66 (Place 1373 39) (Place 1379 39) true; SNode 67 (Place 1373 39) (Place 1379 39) false; SNode 68 (Place 1440 42) (Place 3997 92) true; SNode 69 (Place 1448 43) (Place 1576 45) true; SNode 70 (Place 1448 43) (Place 1471 43) false; SNode 71 (Place 1472 43) (Place 1576 45) false; SNode 72 (Place 1482 43) (Place 1576 45) false; SNode 73 (Place 1558 44) (Place 1573 44) true; SNode 74 (Place 1558 44) (Place 1573 44) false; SNode 75 (Place 1579 47) (Place 1957 51) true; SNode 76 (Place 1579 47) (Place 1605 47) false; SNode 77 (Place 1606 47) (Place 1957 51) false; SNode 78 (Place 1616 47) (Place 1957 51) false; SNode 79 (Place 1707 48) (Place 1722 48) true; SNode 80 (Place 1707 48) (Place 1722 48) false; SNode 81 (Place 1725 49) (Place 1741 49) true; SNode 82 (Place 1725 49) (Place 1741 49) false; SNode 83 (Place 1934 50) (Place 1954 50) true; SNode 84 (Place 1934 50) (Place 1954 50) false; SNode 85 (Place 1960 53) (Place 2107 56) true; SNode 86 (Place 1960 53) (Place 1980 53) false; SNode 87 (Place 1981 53) (Place 2107 56) false; SNode 88 (Place 1991 53) (Place 2107 56) false; SNode 89 (Place 2064 54) (Place 2079 54) true; SNode 90 (Place 2064 54) (Place 2079 54) false; SNode 91 (Place 2082 55) (Place 2104 55) true; SNode 92 (Place 2082 55) (Place 2104 55) false; SNode 93 (Place 2082 55) (Place 2088 55) false; SNode 94 (Place 2089 55) (Place 2104 55) false; SNode 95 (Place 2110 58) (Place 2474 61) true; SNode 96 (Place 2110 58) (Place 2131 58) false; SNode 97 (Place 2132 58) (Place 2474 61) false; SNode 98 (Place 2142 58) (Place 2474 61) false; SNode 99 (Place 2216 59) (Place 2231 59) true; SNode 100 (Place 2216 59) (Place 2231 59) false; SNode 101 (Place 2234 60) (Place 2268 60) true; SNode 102 (Place 2234 60) (Place 2268 60) false; SNode 103 (Place 2234 60) (Place 2240 60) false; SNode 104 (Place 2241 60) (Place 2268 60) false; SNode 105 (Place 2477 63) (Place 2848 66) true; SNode 106 (Place 2477 63) (Place 2498 63) false; SNode 107 (Place 2499 63) (Place 2848 66) false; SNode 108 (Place 2509 63) (Place 2848 66) false; SNode 109 (Place 2583 64) (Place 2605 64) true; SNode 110 (Place 2583 64) (Place 2605 64) false; SNode 111 (Place 2583 64) (Place 2589 64) false; SNode 112 (Place 2590 64) (Place 2605 64) false; SNode 113 (Place 2608 65) (Place 2642 65) true; SNode 114 (Place 2608 65) (Place 2642 65) false; SNode 115 (Place 2608 65) (Place 2614 65) false; SNode 116 (Place 2615 65) (Place 2642 65) false; SNode 117 (Place 2851 68) (Place 3199 74) true; SNode 118 (Place 2851 68) (Place 2867 68) false; SNode 119 (Place 2868 68) (Place 3199 74) false; SNode 120 (Place 2878 68) (Place 3199 74) false; SNode 121 (Place 3087 73) (Place 3116 73) true; SNode 122 (Place 3087 73) (Place 3108 73) false; SNode 123 (Place 3108 73) (Place 3116 73) false; SNode 124 (Place 3108 73) (Place 3110 73) false; SNode 125 (Place 3111 73) (Place 3116 73) false; SNode 126 (Place 3111 73) (Place 3116 73) true; SNode 127 (Place 3111 73) (Place 3116 73) false; SNode 128 (Place 3202 76) (Place 3419 81) true; SNode 129 (Place 3202 76) (Place 3222 76) false; SNode 130 (Place 3223 76) (Place 3419 81) false; SNode 131 (Place 3233 76) (Place 3419 81) false; SNode 132 (Place 3345 80) (Place 3364 80) true; SNode 133 (Place 3345 80) (Place 3356 80) false; SNode 134 (Place 3356 80) (Place 3364 80) false; SNode 135 (Place 3356 80) (Place 3358 80) false; SNode 136 (Place 3359 80) (Place 3364 80) false; SNode 137 (Place 3359 80) (Place 3364 80) true; SNode 138 (Place 3359 80) (Place 3364 80) false; SNode 139 (Place 3422 83) (Place 3995 91) true; SNode 140 (Place 3422 83) (Place 3446 83) false; SNode 141 (Place 3447 83) (Place 3995 91) false; SNode 142 (Place 3457 83) (Place 3995 91) false; SNode 143 (Place 3534 84) (Place 3549 84) true; SNode 144 (Place 3534 84) (Place 3549 84) false; SNode 145 (Place 3883 90) (Place 3912 90) true; SNode 146 (Place 3883 90) (Place 3904 90) false; SNode 147 (Place 3904 90) (Place 3912 90) false; SNode 148 (Place 3904 90) (Place 3906 90) false; SNode 149 (Place 3907 90) (Place 3912 90) false; SNode 150 (Place 3907 90) (Place 3912 90) true; SNode 151 (Place 3907 90) (Place 3912 90) false; SNode 152 (Place 4129 100) (Place 4384 105) true; SNode 153 (Place 4134 100) (Place 4148 100) false; SNode 154 (Place 4129 100) (Place 4187 100) false; SNode 155 (Place 4148 100) (Place 4181 100) false; SNode 156 (Place 4149 100) (Place 4167 100) true; SNode 157 (Place 4149 100) (Place 4153 100) false; SNode 158 (Place 4154 100) (Place 4167 100) false; SNode 159 (Place 4169 100) (Place 4180 100) true; SNode 160 (Place 4169 100) (Place 4170 100) false; SNode 161 (Place 4172 100) (Place 4173 100) false; SNode 162 (Place 4174 100) (Place 4180 100) false; SNode 163 (Place 4182 100) (Place 4187 100) false; SNode 164 (Place 4182 100) (Place 4187 100) true; SNode 165 (Place 4182 100) (Place 4187 100) false; SNode 166 (Place 4188 100) (Place 4384 105) true; SNode 167 (Place 4300 101) (Place 4346 103) true; SNode 168 (Place 4303 101) (Place 4308 101) false; SNode 169 (Place 4309 101) (Place 4346 103) true; SNode 170 (Place 4313 102) (Place 4343 102) true; SNode 171 (Place 4320 102) (Place 4343 102) false; SNode 172 (Place 4320 102) (Place 4341 102) false; SNode 173 (Place 4320 102) (Place 4324 102) false; SNode 174 (Place 4325 102) (Place 4341 102) false; SNode 175 (Place 4348 104) (Place 4382 104) true; SNode 176 (Place 4355 104) (Place 4382 104) false; SNode 177 (Place 4355 104) (Place 4376 104) false; SNode 178 (Place 4355 104) (Place 4359 104) false; SNode 179 (Place 4360 104) (Place 4376 104) false; SNode 180 (Place 4377 104) (Place 4378 104) false; SNode 181 (Place 4380 104) (Place 4381 104) false; SNode 182 (Place 4516 113) (Place 4791 118) true; SNode 183 (Place 4521 113) (Place 4534 113) false; SNode 184 (Place 4516 113) (Place 4553 113) false; SNode 185 (Place 4534 113) (Place 4547 113) false; SNode 186 (Place 4535 113) (Place 4546 113) true; SNode 187 (Place 4535 113) (Place 4536 113) false; SNode 188 (Place 4538 113) (Place 4539 113) false; SNode 189 (Place 4540 113) (Place 4546 113) false; SNode 190 (Place 4548 113) (Place 4553 113) false; SNode 191 (Place 4548 113) (Place 4553 113) true; SNode 192 (Place 4548 113) (Place 4553 113) false; SNode 193 (Place 4554 113) (Place 4791 118) true; SNode 194 (Place 4665 114) (Place 4734 116) true; SNode 195 (Place 4668 114) (Place 4673 114) false; SNode 196 (Place 4674 114) (Place 4734 116) true; SNode 197 (Place 4678 115) (Place 4731 115) true; SNode 198 (Place 4685 115) (Place 4731 115) false; SNode 199 (Place 4685 115) (Place 4699 115) false; SNode 200 (Place 4700 115) (Place 4724 115) false; SNode 201 (Place 4700 115) (Place 4722 115) false; SNode 202 (Place 4700 115) (Place 4706 115) false; SNode 203 (Place 4707 115) (Place 4722 115) false; SNode 204 (Place 4726 115) (Place 4727 115) false; SNode 205 (Place 4729 115) (Place 4730 115) false; SNode 206 (Place 4736 117) (Place 4789 117) true; SNode 207 (Place 4743 117) (Place 4789 117) false; SNode 208 (Place 4743 117) (Place 4757 117) false; SNode 209 (Place 4758 117) (Place 4782 117) false; SNode 210 (Place 4758 117) (Place 4780 117) false; SNode 211 (Place 4758 117) (Place 4764 117) false; SNode 212 (Place 4765 117) (Place 4780 117) false; SNode 213 (Place 4784 117) (Place 4785 117) false; SNode 214 (Place 4787 117) (Place 4788 117) false; SNode 215 (Place 4793 120) (Place 4909 124) true; SNode 216 (Place 4801 121) (Place 4835 121) true; SNode 217 (Place 4801 121) (Place 4826 121) false; SNode 218 (Place 4827 121) (Place 4835 121) false; SNode 219 (Place 4833 121) (Place 4835 121) false; SNode 220 (Place 4837 122) (Place 4871 122) true; SNode 221 (Place 4837 122) (Place 4862 122) false; SNode 222 (Place 4863 122) (Place 4871 122) false; SNode 223 (Place 4869 122) (Place 4871 122) false; SNode 224 (Place 4873 123) (Place 4907 123) true; SNode 225 (Place 4873 123) (Place 4898 123) false; SNode 226 (Place 4899 123) (Place 4907 123) false; SNode 227 (Place 4905 123) (Place 4907 123) false; SNode 228 (Place 4954 129) (Place 5102 131) true; SNode 229 (Place 4959 129) (Place 4986 129) false; SNode 230 (Place 4960 129) (Place 4985 129) true; SNode 231 (Place 4960 129) (Place 4985 129) false; SNode 232 (Place 4987 129) (Place 5000 129) false; SNode 233 (Place 4954 129) (Place 5008 129) false; SNode 234 (Place 5000 129) (Place 5002 129) false; SNode 235 (Place 5003 129) (Place 5008 129) false; SNode 236 (Place 5003 129) (Place 5008 129) true; SNode 237 (Place 5003 129) (Place 5008 129) false; SNode 238 (Place 5009 129) (Place 5102 131) true; SNode 239 (Place 5066 130) (Place 5100 130) true; SNode 240 (Place 5073 130) (Place 5100 130) false; SNode 241 (Place 5074 130) (Place 5100 130) false; SNode 242 (Place 5074 130) (Place 5079 130) false; SNode 243 (Place 5080 130) (Place 5099 130) false; SNode 244 (Place 5147 136) (Place 5321 138) true; SNode 245 (Place 5152 136) (Place 5179 136) false; SNode 246 (Place 5153 136) (Place 5178 136) true; SNode 247 (Place 5153 136) (Place 5178 136) false; SNode 248 (Place 5180 136) (Place 5193 136) false; SNode 249 (Place 5147 136) (Place 5220 136) false; SNode 250 (Place 5193 136) (Place 5206 136) false; SNode 251 (Place 5194 136) (Place 5205 136) true; SNode 252 (Place 5194 136) (Place 5195 136) false; SNode 253 (Place 5197 136) (Place 5198 136) false; SNode 254 (Place 5199 136) (Place 5205 136) false; SNode 255 (Place 5207 136) (Place 5220 136) false; SNode 256 (Place 5207 136) (Place 5220 136) true; SNode 257 (Place 5207 136) (Place 5220 136) false; SNode 258 (Place 5208 136) (Place 5220 136) false; SNode 259 (Place 5208 136) (Place 5214 136) false; SNode 260 (Place 5215 136) (Place 5220 136) false; SNode 261 (Place 5221 136) (Place 5321 138) true; SNode 262 (Place 5278 137) (Place 5319 137) true; SNode 263 (Place 5285 137) (Place 5319 137) false; SNode 264 (Place 5286 137) (Place 5319 137) false; SNode 265 (Place 5286 137) (Place 5298 137) false; SNode 266 (Place 5286 137) (Place 5292 137) false; SNode 267 (Place 5293 137) (Place 5298 137) false; SNode 268 (Place 5299 137) (Place 5318 137) false; SNode 269 (Place 5323 140) (Place 5414 142) true; SNode 270 (Place 5328 140) (Place 5355 140) false; SNode 271 (Place 5329 140) (Place 5354 140) true; SNode 272 (Place 5329 140) (Place 5354 140) false; SNode 273 (Place 5356 140) (Place 5380 140) false; SNode 274 (Place 5323 140) (Place 5400 140) false; SNode 275 (Place 5380 140) (Place 5393 140) false; SNode 276 (Place 5381 140) (Place 5392 140) true; SNode 277 (Place 5381 140) (Place 5382 140) false; SNode 278 (Place 5384 140) (Place 5385 140) false; SNode 279 (Place 5386 140) (Place 5392 140) false; SNode 280 (Place 5394 140) (Place 5400 140) false; SNode 281 (Place 5394 140) (Place 5400 140) true; SNode 282 (Place 5394 140) (Place 5400 140) false; SNode 283 (Place 5401 140) (Place 5414 142) true; SNode 284 (Place 5404 141) (Place 5412 141) true; SNode 285 (Place 5411 141) (Place 5412 141) false; SNode 286 (Place 5459 147) (Place 5623 149) true; SNode 287 (Place 5464 147) (Place 5491 147) false; SNode 288 (Place 5465 147) (Place 5490 147) true; SNode 289 (Place 5465 147) (Place 5490 147) false; SNode 290 (Place 5492 147) (Place 5513 147) false; SNode 291 (Place 5459 147) (Place 5521 147) false; SNode 292 (Place 5513 147) (Place 5515 147) false; SNode 293 (Place 5516 147) (Place 5521 147) false; SNode 294 (Place 5516 147) (Place 5521 147) true; SNode 295 (Place 5516 147) (Place 5521 147) false; SNode 296 (Place 5522 147) (Place 5623 149) true; SNode 297 (Place 5587 148) (Place 5621 148) true; SNode 298 (Place 5594 148) (Place 5621 148) false; SNode 299 (Place 5595 148) (Place 5621 148) false; SNode 300 (Place 5595 148) (Place 5600 148) false; SNode 301 (Place 5601 148) (Place 5620 148) false; SNode 302 (Place 5625 151) (Place 5780 153) true; SNode 303 (Place 5630 151) (Place 5657 151) false; SNode 304 (Place 5631 151) (Place 5656 151) true; SNode 305 (Place 5631 151) (Place 5656 151) false; SNode 306 (Place 5658 151) (Place 5671 151) false; SNode 307 (Place 5625 151) (Place 5679 151) false; SNode 308 (Place 5671 151) (Place 5673 151) false; SNode 309 (Place 5674 151) (Place 5679 151) false; SNode 310 (Place 5674 151) (Place 5679 151) true; SNode 311 (Place 5674 151) (Place 5679 151) false; SNode 312 (Place 5680 151) (Place 5780 153) true; SNode 313 (Place 5768 152) (Place 5778 152) true; SNode 314 (Place 5775 152) (Place 5778 152) false; SNode 315 (Place 5884 159) (Place 6104 164) true; SNode 316 (Place 5889 159) (Place 5916 159) false; SNode 317 (Place 5890 159) (Place 5915 159) true; SNode 318 (Place 5890 159) (Place 5915 159) false; SNode 319 (Place 5917 159) (Place 5931 159) false; SNode 320 (Place 5884 159) (Place 5939 159) false; SNode 321 (Place 5931 159) (Place 5933 159) false; SNode 322 (Place 5934 159) (Place 5939 159) false; SNode 323 (Place 5934 159) (Place 5939 159) true; SNode 324 (Place 5934 159) (Place 5939 159) false; SNode 325 (Place 5940 159) (Place 6104 164) true; SNode 326 (Place 6016 160) (Place 6066 162) true; SNode 327 (Place 6019 160) (Place 6024 160) false; SNode 328 (Place 6025 160) (Place 6066 162) true; SNode 329 (Place 6029 161) (Place 6063 161) true; SNode 330 (Place 6036 161) (Place 6063 161) false; SNode 331 (Place 6037 161) (Place 6063 161) false; SNode 332 (Place 6037 161) (Place 6042 161) false; SNode 333 (Place 6043 161) (Place 6062 161) false; SNode 334 (Place 6068 163) (Place 6102 163) true; SNode 335 (Place 6075 163) (Place 6102 163) false; SNode 336 (Place 6076 163) (Place 6102 163) false; SNode 337 (Place 6076 163) (Place 6081 163) false; SNode 338 (Place 6082 163) (Place 6101 163) false; SNode 339 (Place 6236 172) (Place 6510 174) true; SNode 340 (Place 6241 172) (Place 6277 172) false; SNode 341 (Place 6236 172) (Place 6296 172) false; SNode 342 (Place 6277 172) (Place 6290 172) false; SNode 343 (Place 6278 172) (Place 6289 172) true; SNode 344 (Place 6278 172) (Place 6279 172) false; SNode 345 (Place 6281 172) (Place 6282 172) false; SNode 346 (Place 6283 172) (Place 6289 172) false; SNode 347 (Place 6291 172) (Place 6296 172) false; SNode 348 (Place 6291 172) (Place 6296 172) true; SNode 349 (Place 6291 172) (Place 6296 172) false; SNode 350 (Place 6297 172) (Place 6510 174) true; SNode 351 (Place 6431 173) (Place 6508 173) true; SNode 352 (Place 6438 173) (Place 6508 173) false; SNode 353 (Place 6438 173) (Place 6466 173) false; SNode 354 (Place 6438 173) (Place 6444 173) false; SNode 355 (Place 6445 173) (Place 6466 173) false; SNode 356 (Place 6467 173) (Place 6468 173) false; SNode 357 (Place 6470 173) (Place 6471 173) false; SNode 358 (Place 6473 173) (Place 6507 173) false; SNode 359 (Place 6473 173) (Place 6505 173) false; SNode 360 (Place 6473 173) (Place 6479 173) false; SNode 361 (Place 6480 173) (Place 6505 173) false; SNode 362 (Place 6512 176) (Place 6632 182) true; SNode 363 (Place 6517 176) (Place 6632 182) true; SNode 364 (Place 6517 176) (Place 6525 176) false; SNode 365 (Place 6526 176) (Place 6632 182) false; SNode 366 (Place 6536 176) (Place 6632 182) false; SNode 367 (Place 6539 177) (Place 6552 177) true; SNode 368 (Place 6539 177) (Place 6543 177) false; SNode 369 (Place 6543 177) (Place 6552 177) false; SNode 370 (Place 6543 177) (Place 6545 177) false; SNode 371 (Place 6546 177) (Place 6552 177) false; SNode 372 (Place 6546 177) (Place 6552 177) true; SNode 373 (Place 6546 177) (Place 6552 177) false; SNode 374 (Place 6554 178) (Place 6570 178) true; SNode 375 (Place 6554 178) (Place 6561 178) false; SNode 376 (Place 6561 178) (Place 6570 178) false; SNode 377 (Place 6561 178) (Place 6563 178) false; SNode 378 (Place 6564 178) (Place 6570 178) false; SNode 379 (Place 6564 178) (Place 6570 178) true; SNode 380 (Place 6564 178) (Place 6570 178) false; SNode 381 (Place 6572 179) (Place 6599 179) true; SNode 382 (Place 6572 179) (Place 6579 179) false; SNode 383 (Place 6579 179) (Place 6599 179) false; SNode 384 (Place 6579 179) (Place 6581 179) false; SNode 385 (Place 6582 179) (Place 6599 179) false; SNode 386 (Place 6582 179) (Place 6599 179) true; SNode 387 (Place 6582 179) (Place 6599 179) false; SNode 388 (Place 6586 179) (Place 6592 179) false; SNode 389 (Place 6593 179) (Place 6599 179) false; SNode 390 (Place 6601 180) (Place 6614 180) true; SNode 391 (Place 6601 180) (Place 6606 180) false; SNode 392 (Place 6606 180) (Place 6614 180) false; SNode 393 (Place 6606 180) (Place 6608 180) false; SNode 394 (Place 6609 180) (Place 6614 180) false; SNode 395 (Place 6609 180) (Place 6614 180) true; SNode 396 (Place 6609 180) (Place 6614 180) false; SNode 397 (Place 6616 181) (Place 6630 181) true; SNode 398 (Place 6616 181) (Place 6621 181) false; SNode 399 (Place 6621 181) (Place 6630 181) false; SNode 400 (Place 6621 181) (Place 6623 181) false; SNode 401 (Place 6624 181) (Place 6630 181) false; SNode 402 (Place 6624 181) (Place 6630 181) true; SNode 403 (Place 6624 181) (Place 6630 181) false; SNode 404 (Place 6669 187) (Place 6778 189) true; SNode 405 (Place 6674 187) (Place 6688 187) false; SNode 406 (Place 6669 187) (Place 6699 187) false; SNode 407 (Place 6688 187) (Place 6690 187) false; SNode 408 (Place 6691 187) (Place 6699 187) false; SNode 409 (Place 6691 187) (Place 6699 187) true; SNode 410 (Place 6691 187) (Place 6699 187) false; SNode 411 (Place 6700 187) (Place 6778 189) true; SNode 412 (Place 6750 188) (Place 6776 188) true; SNode 413 (Place 6757 188) (Place 6776 188) false; SNode 414 (Place 6758 188) (Place 6776 188) false; SNode 415 (Place 6758 188) (Place 6763 188) false; SNode 416 (Place 6764 188) (Place 6775 188) false; SNode 417 (Place 6852 195) (Place 7037 197) true; SNode 418 (Place 6857 195) (Place 6878 195) false; SNode 419 (Place 6852 195) (Place 6915 195) false; SNode 420 (Place 6878 195) (Place 6909 195) false; SNode 421 (Place 6879 195) (Place 6908 195) true; SNode 422 (Place 6879 195) (Place 6884 195) false; SNode 423 (Place 6885 195) (Place 6908 195) false; SNode 424 (Place 6910 195) (Place 6915 195) false; SNode 425 (Place 6910 195) (Place 6915 195) true; SNode 426 (Place 6910 195) (Place 6915 195) false; SNode 427 (Place 6916 195) (Place 7037 197) true; SNode 428 (Place 6999 196) (Place 7035 196) true; SNode 429 (Place 7006 196) (Place 7035 196) false; SNode 430 (Place 7006 196) (Place 7033 196) false; SNode 431 (Place 7006 196) (Place 7011 196) false; SNode 432 (Place 7012 196) (Place 7033 196) false; SNode 433 (Place 7039 199) (Place 7133 201) true; SNode 434 (Place 7044 199) (Place 7068 199) false; SNode 435 (Place 7039 199) (Place 7115 199) false; SNode 436 (Place 7068 199) (Place 7099 199) false; SNode 437 (Place 7069 199) (Place 7098 199) true; SNode 438 (Place 7069 199) (Place 7074 199) false; SNode 439 (Place 7075 199) (Place 7098 199) false; SNode 440 (Place 7100 199) (Place 7115 199) false; SNode 441 (Place 7100 199) (Place 7115 199) true; SNode 442 (Place 7100 199) (Place 7115 199) false; SNode 443 (Place 7116 199) (Place 7133 201) true; SNode 444 (Place 7119 200) (Place 7131 200) true; SNode 445 (Place 7126 200) (Place 7131 200) false; SNode 446 (Place 7135 203) (Place 7242 205) true; SNode 447 (Place 7140 203) (Place 7242 205) true; SNode 448 (Place 7140 203) (Place 7145 203) false; SNode 449 (Place 7146 203) (Place 7242 205) false; SNode 450 (Place 7153 203) (Place 7242 205) false; SNode 451 (Place 7226 204) (Place 7240 204) true; SNode 452 (Place 7226 204) (Place 7233 204) false; SNode 453 (Place 7234 204) (Place 7240 204) false; SNode 454 (Place 7244 207) (Place 7308 207) true; SNode 455 (Place 7249 207) (Place 7259 207) false; SNode 456 (Place 7250 207) (Place 7258 207) true; SNode 457 (Place 7250 207) (Place 7251 207) false; SNode 458 (Place 7252 207) (Place 7258 207) false; SNode 459 (Place 7253 207) (Place 7258 207) false; SNode 460 (Place 7260 207) (Place 7264 207) false; SNode 461 (Place 7244 207) (Place 7273 207) false; SNode 462 (Place 7264 207) (Place 7266 207) false; SNode 463 (Place 7267 207) (Place 7273 207) false; SNode 464 (Place 7267 207) (Place 7273 207) true; SNode 465 (Place 7267 207) (Place 7273 207) false; SNode 466 (Place 7288 207) (Place 7308 207) true; SNode 467 (Place 7290 207) (Place 7306 207) true; SNode 468 (Place 7297 207) (Place 7306 207) false; SNode 469 (Place 7297 207) (Place 7298 207) false; SNode 470 (Place 7299 207) (Place 7306 207) false; SNode 471 (Place 7309 208) (Place 7373 208) true; SNode 472 (Place 7314 208) (Place 7324 208) false; SNode 473 (Place 7315 208) (Place 7323 208) true; SNode 474 (Place 7315 208) (Place 7316 208) false; SNode 475 (Place 7317 208) (Place 7323 208) false; SNode 476 (Place 7318 208) (Place 7323 208) false; SNode 477 (Place 7325 208) (Place 7332 208) false; SNode 478 (Place 7309 208) (Place 7341 208) false; SNode 479 (Place 7332 208) (Place 7334 208) false; SNode 480 (Place 7335 208) (Place 7341 208) false; SNode 481 (Place 7335 208) (Place 7341 208) true; SNode 482 (Place 7335 208) (Place 7341 208) false; SNode 483 (Place 7353 208) (Place 7373 208) true; SNode 484 (Place 7355 208) (Place 7371 208) true; SNode 485 (Place 7362 208) (Place 7371 208) false; SNode 486 (Place 7362 208) (Place 7363 208) false; SNode 487 (Place 7364 208) (Place 7371 208) false; SNode 488 (Place 7374 209) (Place 7432 209) true; SNode 489 (Place 7379 209) (Place 7389 209) false; SNode 490 (Place 7380 209) (Place 7388 209) true; SNode 491 (Place 7380 209) (Place 7381 209) false; SNode 492 (Place 7382 209) (Place 7388 209) false; SNode 493 (Place 7383 209) (Place 7388 209) false; SNode 494 (Place 7390 209) (Place 7397 209) false; SNode 495 (Place 7374 209) (Place 7417 209) false; SNode 496 (Place 7397 209) (Place 7399 209) false; SNode 497 (Place 7400 209) (Place 7417 209) false; SNode 498 (Place 7400 209) (Place 7417 209) true; SNode 499 (Place 7400 209) (Place 7417 209) false; SNode 500 (Place 7404 209) (Place 7410 209) false; SNode 501 (Place 7411 209) (Place 7417 209) false; SNode 502 (Place 7418 209) (Place 7432 209) true; SNode 503 (Place 7420 209) (Place 7430 209) true; SNode 504 (Place 7427 209) (Place 7430 209) false; SNode 505 (Place 7433 210) (Place 7491 210) true; SNode 506 (Place 7438 210) (Place 7448 210) false; SNode 507 (Place 7439 210) (Place 7447 210) true; SNode 508 (Place 7439 210) (Place 7440 210) false; SNode 509 (Place 7441 210) (Place 7447 210) false; SNode 510 (Place 7442 210) (Place 7447 210) false; SNode 511 (Place 7449 210) (Place 7454 210) false; SNode 512 (Place 7433 210) (Place 7462 210) false; SNode 513 (Place 7454 210) (Place 7456 210) false; SNode 514 (Place 7457 210) (Place 7462 210) false; SNode 515 (Place 7457 210) (Place 7462 210) true; SNode 516 (Place 7457 210) (Place 7462 210) false; SNode 517 (Place 7477 210) (Place 7491 210) true; SNode 518 (Place 7479 210) (Place 7489 210) true; SNode 519 (Place 7486 210) (Place 7489 210) false; SNode 520 (Place 7492 211) (Place 7558 211) true; SNode 521 (Place 7497 211) (Place 7507 211) false; SNode 522 (Place 7498 211) (Place 7506 211) true; SNode 523 (Place 7498 211) (Place 7499 211) false; SNode 524 (Place 7500 211) (Place 7506 211) false; SNode 525 (Place 7501 211) (Place 7506 211) false; SNode 526 (Place 7508 211) (Place 7513 211) false; SNode 527 (Place 7492 211) (Place 7522 211) false; SNode 528 (Place 7513 211) (Place 7515 211) false; SNode 529 (Place 7516 211) (Place 7522 211) false; SNode 530 (Place 7516 211) (Place 7522 211) true; SNode 531 (Place 7516 211) (Place 7522 211) false; SNode 532 (Place 7536 211) (Place 7558 211) true; SNode 533 (Place 7538 211) (Place 7556 211) true; SNode 534 (Place 7545 211) (Place 7556 211) false; SNode 535 (Place 7545 211) (Place 7554 211) false; SNode 536 (Place 7545 211) (Place 7546 211) false; SNode 537 (Place 7547 211) (Place 7554 211) false].
Definition t_interfaces_cgroups0 : list cgroup := [CGroup (Place 107 8) (Place 170 8) [(str "// want SimpleInterface:""ErrorInterface: SimpleInterfaceMethod""")]; CGroup (Place 172 9) (Place 401 14) [(str "// SimpleInterfaceMethod is a method returning an error with error codes declared in doc."); (str "//"); (str "// Errors:"); (str "//"); (str "//    - interface-1-error -- could potentially be returned"); (str "//    - interface-2-error -- could potentially be returned")]; CGroup (Place 433 15) (Place 512 15) [(str "// want SimpleInterfaceMethod:""ErrorCodes: interface-1-error interface-2-error""")]; CGroup (Place 547 18) (Place 620 18) [(str "// want SomeInterface:""ErrorInterface: InterfaceMethod1 InterfaceMethod2""")]; CGroup (Place 622 19) (Place 816 24) [(str "// InterfaceMethod1 is a method returning an error with error codes declared in doc."); (str "//"); (str "// Errors:"); (str "//"); (str "//    - interface-1-error -- could potentially be returned"); (str "//    - interface-2-error --")]; CGroup (Place 843 25) (Place 917 25) [(str "// want InterfaceMethod1:""ErrorCodes: interface-1-error interface-2-error""")]; CGroup (Place 920 27) (Place 1024 30) [(str "// Errors:"); (str "//"); (str "//    - interface-3-error -- could potentially be returned"); (str "//    - interface-4-error --")]; CGroup (Place 1062 31) (Place 1136 31) [(str "// want InterfaceMethod2:""ErrorCodes: interface-3-error interface-4-error""")]; CGroup (Place 1139 33) (Place 1267 34) [(str "// MethodWithoutError is just some method that does not return an error,"); (str "// to test if it is correctly ignored in the analysis.")]; CGroup (Place 1381 39) (Place 1436 39) [(str "// want ""error should be returned as the last argument""")]; CGroup (Place 1484 43) (Place 1555 43) [(str "// want EmbeddedSimpleInterface:""ErrorInterface: SimpleInterfaceMethod""")]; CGroup (Place 1618 47) (Place 1704 47) [(str "// want EmbeddedMultipleInterfaces:""ErrorInterface: OtherMethod SimpleInterfaceMethod""")]; CGroup (Place 1742 49) (Place 1931 49) [(str "// want `embedded interface is not compatible: method ""SimpleInterfaceMethod"" has mismatches in declared error codes: missing codes: \[interface-1-error] unused codes: \[interface-3-error]`")]; CGroup (Place 1993 53) (Place 2061 53) [(str "// want EmbeddedOtherPackage:""ErrorInterface: SimpleInterfaceMethod""")]; CGroup (Place 2144 58) (Place 2213 58) [(str "// want EmbeddedOtherPackage2:""ErrorInterface: SimpleInterfaceMethod""")]; CGroup (Place 2269 60) (Place 2471 60) [(str "// want `embedded interface is not compatible: method ""SimpleInterfaceMethod"" has mismatches in declared error codes: missing codes: \[interface-1-error interface-2-error] unused codes: \[inner1-error]`")]; CGroup (Place 2511 63) (Place 2580 63) [(str "// want EmbeddedOtherPackage3:""ErrorInterface: SimpleInterfaceMethod""")]; CGroup (Place 2643 65) (Place 2845 65) [(str "// want `embedded interface is not compatible: method ""SimpleInterfaceMethod"" has mismatches in declared error codes: missing codes: \[interface-1-error interface-2-error] unused codes: \[inner1-error]`")]; CGroup (Place 2880 68) (Place 2944 68) [(str "// want SimpleInterface2:""ErrorInterface: SimpleInterfaceMethod""")]; CGroup (Place 2947 69) (Place 3084 72) [(str "// Errors:"); (str "//"); (str "//    - interface-2-error -- could potentially be returned"); (str "//    - interface-3-error -- could potentially be returned")]; CGroup (Place 3117 73) (Place 3196 73) [(str "// want SimpleInterfaceMethod:""ErrorCodes: interface-2-error interface-3-error""")]; CGroup (Place 3235 76) (Place 3293 76) [(str "// want OtherSimpleInterface:""ErrorInterface: OtherMethod""")]; CGroup (Place 3296 77) (Place 3342 79) [(str "// Errors:"); (str "//"); (str "//    - interface-5-error --")]; CGroup (Place 3365 80) (Place 3416 80) [(str "// want OtherMethod:""ErrorCodes: interface-5-error""")]; CGroup (Place 3459 83) (Place 3531 83) [(str "// want EmbeddedSimpleInterface2:""ErrorInterface: SimpleInterfaceMethod""")]; CGroup (Place 3550 84) (Place 3739 84) [(str "// want `embedded interface is not compatible: method ""SimpleInterfaceMethod"" has mismatches in declared error codes: missing codes: \[interface-3-error] unused codes: \[interface-2-error]`")]; CGroup (Place 3743 86) (Place 3880 89) [(str "// Errors:"); (str "//"); (str "//    - interface-1-error -- could potentially be returned"); (str "//    - interface-3-error -- could potentially be returned")]; CGroup (Place 3913 90) (Place 3992 90) [(str "// want SimpleInterfaceMethod:""ErrorCodes: interface-1-error interface-3-error""")]; CGroup (Place 3999 94) (Place 4128 99) [(str "// Errors:"); (str "//"); (str "//    - interface-1-error --"); (str "//    - interface-2-error --"); (str "//    - interface-3-error --"); (str "//    - interface-4-error --")]; CGroup (Place 4190 100) (Place 4298 100) [(str "// want InterfaceParam:""ErrorCodes: interface-1-error interface-2-error interface-3-error interface-4-error""")]; CGroup (Place 4386 107) (Place 4515 112) [(str "// Errors:"); (str "//"); (str "//    - interface-1-error --"); (str "//    - interface-2-error --"); (str "//    - interface-3-error --"); (str "//    - interface-4-error --")]; CGroup (Place 4556 113) (Place 4663 113) [(str "// want OuterFunction:""ErrorCodes: interface-1-error interface-2-error interface-3-error interface-4-error""")]; CGroup (Place 4911 126) (Place 4953 128) [(str "// Errors:"); (str "//"); (str "//    - interface-1-error --")]; CGroup (Place 5011 129) (Place 5064 129) [(str "// want Inner1Method1:""ErrorCodes: interface-1-error""")]; CGroup (Place 5104 133) (Place 5146 135) [(str "// Errors:"); (str "//"); (str "//    - interface-3-error --")]; CGroup (Place 5223 136) (Place 5276 136) [(str "// want Inner1Method2:""ErrorCodes: interface-3-error""")]; CGroup (Place 5416 144) (Place 5458 146) [(str "// Errors:"); (str "//"); (str "//    - interface-1-error --")]; CGroup (Place 5524 147) (Place 5585 147) [(str "// want Inner1CodeNotDeclared:""ErrorCodes: interface-1-error""")]; CGroup (Place 5682 151) (Place 5766 151) [(str "// want `function ""Inner1NoCodes"" is exported, but does not declare any error codes`")]; CGroup (Place 5782 155) (Place 5883 158) [(str "// Errors:"); (str "//"); (str "//    - interface-1-error -- could potentially be returned"); (str "//    - interface-2-error --")]; CGroup (Place 5942 159) (Place 6014 159) [(str "// want Inner1YesCodes:""ErrorCodes: interface-1-error interface-2-error""")]; CGroup (Place 6106 166) (Place 6235 171) [(str "// Errors:"); (str "//"); (str "//    - interface-1-error --"); (str "//    - interface-2-error --"); (str "//    - interface-3-error --"); (str "//    - interface-4-error --")]; CGroup (Place 6299 172) (Place 6429 172) [(str "// want UsingExternalImplAsExternalInterface:""ErrorCodes: interface-1-error interface-2-error interface-3-error interface-4-error""")]; CGroup (Place 6634 184) (Place 6668 186) [(str "// Errors:"); (str "//"); (str "//    - ree-error --")]; CGroup (Place 6702 187) (Place 6748 187) [(str "// want ReturnReeError:""ErrorCodes: ree-error""")]; CGroup (Place 6780 191) (Place 6851 194) [(str "// Errors:"); (str "//"); (str "//    - interface-1-error --"); (str "//    - interface-2-error --")]; CGroup (Place 6918 195) (Place 6997 195) [(str "// want CallEmbeddedInterface:""ErrorCodes: interface-1-error interface-2-error""")]; CGroup (Place 7155 203) (Place 7224 203) [(str "// want Error:`ErrorType{Field:{Name:""TheCode"", Position:0}, Codes:}`")]].
Definition t_interfaces_nodes1 : list snode := [SNode 538 (Place 0 1) (Place 1205 24) true; SNode 539 (Place 8 1) (Place 18 1) false; SNode 540 (Place 20 3) (Place 1205 24) true; SNode 541 (Place 80 5) (Place 460 9) true; SNode 542 (Place 80 5) (Place 107 5) false; SNode 543 (Place 108 5) (Place 460 9) false; SNode 544 (Place 118 5) (Place 460 9) false; SNode 545 (Place 210 6) (Place 225 6) true; SNode 546 (Place 210 6) (Place 225 6) false; SNode 547 (Place 228 7) (Place 244 7) true; SNode 548 (Place 228 7) (Place 244 7) false; SNode 549 (Place 437 8) (Place 457 8) true; SNode 550 (Place 437 8) (Place 457 8) false; SNode 551 (Place 463 11) (Place 609 13) true; SNode 552 (Place 463 11) (Place 495 11) false; SNode 553 (Place 496 11) (Place 609 13) false; SNode 554 (Place 506 11) (Place 609 13) false; SNode 555 (Place 591 12) (Place 606 12) true; SNode 556 (Place 591 12) (Place 606 12) false; SNode 557 (Place 612 15) (Place 1203 23) true; SNode 558 (Place 612 15) (Place 645 15) false; SNode 559 (Place 646 15) (Place 1203 23) false; SNode 560 (Place 656 15) (Place 1203 23) false; SNode 561 (Place 742 16) (Place 757 16) true; SNode 562 (Place 742 16) (Place 757 16) false; SNode 563 (Place 1091 22) (Place 1120 22) true; SNode 564 (Place 1091 22) (Place 1112 22) false; SNode 565 (Place 1112 22) (Place 1120 22) false; SNode 566 (Place 1112 22) (Place 1114 22) false; SNode 567 (Place 1115 22) (Place 1120 22) false; SNode 568 (Place 1115 22) (Place 1120 22) true; SNode 569 (Place 1115 22) (Place 1120 22) false].
Definition t_interfaces_cgroups1 : list cgroup := [CGroup (Place 28 4) (Place 78 4) [(str "// Test if the check works in a multifile scenario")]; CGroup (Place 120 5) (Place 207 5) [(str "// want EmbeddedMultipleInterfaces2:""ErrorInterface: OtherMethod SimpleInterfaceMethod""")]; CGroup (Place 245 7) (Place 434 7) [(str "// want `embedded interface is not compatible: method ""SimpleInterfaceMethod"" has mismatches in declared error codes: missing codes: \[interface-1-error] unused codes: \[interface-3-error]`")]; CGroup (Place 508 11) (Place 588 11) [(str "// want EmbeddedSimpleInterfaceOtherFile:""ErrorInterface: SimpleInterfaceMethod""")]; CGroup (Place 658 15) (Place 739 15) [(str "// want EmbeddedSimpleInterface2OtherFile:""ErrorInterface: SimpleInterfaceMethod""")]; CGroup (Place 758 16) (Place 947 16) [(str "// want `embedded interface is not compatible: method ""SimpleInterfaceMethod"" has mismatches in declared error codes: missing codes: \[interface-3-error] unused codes: \[interface-2-error]`")]; CGroup (Place 951 18) (Place 1088 21) [(str "// Errors:"); (str "//"); (str "//    - interface-1-error -- could potentially be returned"); (str "//    - interface-3-error -- could potentially be returned")]; CGroup (Place 1121 22) (Place 1200 22) [(str "// want SimpleInterfaceMethod:""ErrorCodes: interface-1-error interface-3-error""")]].
Definition t_interfaces_nodes2 : list snode := [SNode 570 (Place 0 1) (Place 39615 715) true; SNode 571 (Place 8 1) (Place 18 1) false; SNode 572 (Place 20 3) (Place 51 3) true; SNode 573 (Place 25 3) (Place 51 3) true; SNode 574 (Place 25 3) (Place 42 3) false; SNode 575 (Place 43 3) (Place 51 3) false; SNode 576 (Place 49 3) (Place 51 3) false; SNode 577 (Place 53 5) (Place 344 8) true; SNode 578 (Place 58 5) (Place 344 8) true; SNode 579 (Place 58 5) (Place 95 5) false; SNode 580 (Place 96 5) (Place 344 8) false; SNode 581 (Place 106 5) (Place 344 8) false; SNode 582 (Place 109 6) (Place 140 6) true; SNode 583 (Place 109 6) (Place 132 6) false; SNode 584 (Place 132 6) (Place 140 6) false; SNode 585 (Place 132 6) (Place 134 6) false; SNode 586 (Place 135 6) (Place 140 6) false; SNode 587 (Place 135 6) (Place 140 6) true; SNode 588 (Place 135 6) (Place 140 6) false; SNode 589 (Place 228 7) (Place 256 7) true; SNode 590 (Place 228 7) (Place 248 7) false; SNode 591 (Place 248 7) (Place 256 7) false; SNode 592 (Place 248 7) (Place 250 7) false; SNode 593 (Place 251 7) (Place 256 7) false; SNode 594 (Place 251 7) (Place 256 7) true; SNode 595 (Place 251 7) (Place 256 7) false; SNode 596 (Place 642 16) (Place 790 18) true; SNode 597 (Place 647 16) (Place 666 16) false; SNode 598 (Place 648 16) (Place 665 16) true; SNode 599 (Place 648 16) (Place 665 16) false; SNode 600 (Place 667 16) (Place 688 16) false; SNode 601 (Place 642 16) (Place 696 16) false; SNode 602 (Place 688 16) (Place 690 16) false; SNode 603 (Place 691 16) (Place 696 16) false; SNode 604 (Place 691 16) (Place 696 16) true; SNode 605 (Place 691 16) (Place 696 16) false; SNode 606 (Place 697 16) (Place 790 18) true; SNode 607 (Place 758 17) (Place 788 17) true; SNode 608 (Place 765 17) (Place 788 17) false; SNode 609 (Place 766 17) (Place 788 17) false; SNode 610 (Place 766 17) (Place 771 17) false; SNode 611 (Place 772 17) (Place 787 17) false; SNode 612 (Place 792 20) (Place 1041 22) true; SNode 613 (Place 797 20) (Place 810 20) false; SNode 614 (Place 792 20) (Place 828 20) false; SNode 615 (Place 810 20) (Place 812 20) false; SNode 616 (Place 813 20) (Place 828 20) false; SNode 617 (Place 813 20) (Place 828 20) true; SNode 618 (Place 813 20) (Place 828 20) false; SNode 619 (Place 829 20) (Place 1041 22) true; SNode 620 (Place 832 21) (Place 858 21) true; SNode 621 (Place 839 21) (Place 858 21) false; SNode 622 (Place 839 21) (Place 856 21) false; SNode 623 (Place 1043 24) (Place 1312 26) true; SNode 624 (Place 1048 24) (Place 1062 24) false; SNode 625 (Place 1043 24) (Place 1092 24) false; SNode 626 (Place 1062 24) (Place 1064 24) false; SNode 627 (Place 1065 24) (Place 1092 24) false; SNode 628 (Place 1066 24) (Place 1069 24) true; SNode 629 (Place 1066 24) (Place 1069 24) false; SNode 630 (Place 1071 24) (Place 1074 24) true; SNode 631 (Place 1071 24) (Place 1074 24) false; SNode 632 (Place 1076 24) (Place 1091 24) true; SNode 633 (Place 1076 24) (Place 1091 24) false; SNode 634 (Place 1093 24) (Place 1312 26) true; SNode 635 (Place 1096 25) (Place 1129 25) true; SNode 636 (Place 1103 25) (Place 1104 25) false; SNode 637 (Place 1106 25) (Place 1108 25) false; SNode 638 (Place 1110 25) (Place 1129 25) false; SNode 639 (Place 1110 25) (Place 1127 25) false; SNode 640 (Place 1314 28) (Place 1593 30) true; SNode 641 (Place 1319 28) (Place 1333 28) false; SNode 642 (Place 1314 28) (Place 1368 28) false; SNode 643 (Place 1333 28) (Place 1335 28) false; SNode 644 (Place 1336 28) (Place 1368 28) false; SNode 645 (Place 1337 28) (Place 1345 28) true; SNode 646 (Place 1337 28) (Place 1338 28) false; SNode 647 (Place 1340 28) (Place 1341 28) false; SNode 648 (Place 1342 28) (Place 1345 28) false; SNode 649 (Place 1347 28) (Place 1367 28) true; SNode 650 (Place 1347 28) (Place 1348 28) false; SNode 651 (Place 1350 28) (Place 1351 28) false; SNode 652 (Place 1352 28) (Place 1367 28) false; SNode 653 (Place 1369 28) (Place 1593 30) true; SNode 654 (Place 1372 29) (Place 1410 29) true; SNode 655 (Place 1379 29) (Place 1380 29) false; SNode 656 (Place 1382 29) (Place 1384 29) false; SNode 657 (Place 1386 29) (Place 1389 29) false; SNode 658 (Place 1391 29) (Place 1410 29) false; SNode 659 (Place 1391 29) (Place 1408 29) false; SNode 660 (Place 1595 32) (Place 1880 36) true; SNode 661 (Place 1600 32) (Place 1617 32) false; SNode 662 (Place 1595 32) (Place 1636 32) false; SNode 663 (Place 1617 32) (Place 1619 32) false; SNode 664 (Place 1620 32) (Place 1636 32) false; SNode 665 (Place 1620 32) (Place 1636 32) true; SNode 666 (Place 1620 32) (Place 1636 32) false; SNode 667 (Place 1621 32) (Place 1636 32) false; SNode 668 (Place 1637 32) (Place 1880 36) true; SNode 669 (Place 1640 33) (Place 1661 33) true; SNode 670 (Place 1640 33) (Place 1661 33) true; SNode 671 (Place 1644 33) (Place 1661 33) true; SNode 672 (Place 1644 33) (Place 1645 33) false; SNode 673 (Place 1646 33) (Place 1661 33) false; SNode 674 (Place 1663 34) (Place 1686 34) true; SNode 675 (Place 1663 34) (Place 1664 34) false; SNode 676 (Place 1667 34) (Place 1686 34) false; SNode 677 (Place 1667 34) (Place 1684 34) false; SNode 678 (Place 1869 35) (Place 1878 35) true; SNode 679 (Place 1876 35) (Place 1878 35) false; SNode 680 (Place 1877 35) (Place 1878 35) false; SNode 681 (Place 1882 38) (Place 2185 43) true; SNode 682 (Place 1887 38) (Place 1905 38) false; SNode 683 (Place 1882 38) (Place 1907 38) false; SNode 684 (Place 1905 38) (Place 1907 38) false; SNode 685 (Place 1908 38) (Place 2185 43) true; SNode 686 (Place 1911 39) (Place 1923 39) true; SNode 687 (Place 1911 39) (Place 1923 39) true; SNode 688 (Place 1915 39) (Place 1923 39) true; SNode 689 (Place 1915 39) (Place 1916 39) false; SNode 690 (Place 1918 39) (Place 1919 39) false; SNode 691 (Place 1920 39) (Place 1923 39) false; SNode 692 (Place 1925 40) (Place 1946 40) true; SNode 693 (Place 1925 40) (Place 1946 40) true; SNode 694 (Place 1929 40) (Place 1946 40) true; SNode 695 (Place 1929 40) (Place 1930 40) false; SNode 696 (Place 1931 40) (Place 1946 40) false; SNode 697 (Place 1948 41) (Place 1983 41) true; SNode 698 (Place 1948 41) (Place 1949 41) false; SNode 699 (Place 1951 41) (Place 1952 41) false; SNode 700 (Place 1954 41) (Place 1955 41) false; SNode 701 (Place 1958 41) (Place 1959 41) false; SNode 702 (Place 1961 41) (Place 1962 41) false; SNode 703 (Place 1964 41) (Place 1983 41) false; SNode 704 (Place 1964 41) (Place 1981 41) false; SNode 705 (Place 2166 42) (Place 2183 42) true; SNode 706 (Place 2166 42) (Place 2167 42) false; SNode 707 (Place 2169 42) (Place 2170 42) false; SNode 708 (Place 2172 42) (Place 2173 42) false; SNode 709 (Place 2176 42) (Place 2177 42) false; SNode 710 (Place 2179 42) (Place 2180 42) false; SNode 711 (Place 2182 42) (Place 2183 42) false; SNode 712 (Place 2187 45) (Place 2476 50) true; SNode 713 (Place 2192 45) (Place 2210 45) false; SNode 714 (Place 2187 45) (Place 2242 45) false; SNode 715 (Place 2210 45) (Place 2212 45) false; SNode 716 (Place 2213 45) (Place 2242 45) false; SNode 717 (Place 2214 45) (Place 2219 45) true; SNode 718 (Place 2214 45) (Place 2215 45) false; SNode 719 (Place 2216 45) (Place 2219 45) false; SNode 720 (Place 2221 45) (Place 2241 45) true; SNode 721 (Place 2221 45) (Place 2222 45) false; SNode 722 (Place 2224 45) (Place 2225 45) false; SNode 723 (Place 2226 45) (Place 2241 45) false; SNode 724 (Place 2243 45) (Place 2476 50) true; SNode 725 (Place 2246 46) (Place 2251 46) true; SNode 726 (Place 2246 46) (Place 2247 46) false; SNode 727 (Place 2250 46) (Place 2251 46) false; SNode 728 (Place 2253 47) (Place 2260 47) true; SNode 729 (Place 2253 47) (Place 2254 47) false; SNode 730 (Place 2257 47) (Place 2260 47) false; SNode 731 (Place 2262 48) (Place 2285 48) true; SNode 732 (Place 2262 48) (Place 2263 48) false; SNode 733 (Place 2266 48) (Place 2285 48) false; SNode 734 (Place 2266 48) (Place 2283 48) false; SNode 735 (Place 2468 49) (Place 2474 49) true; SNode 736 (Place 2478 52) (Place 2603 54) true; SNode 737 (Place 2483 52) (Place 2509 52) false; SNode 738 (Place 2478 52) (Place 2550 52) false; SNode 739 (Place 2509 52) (Place 2511 52) false; SNode 740 (Place 2512 52) (Place 2550 52) false; SNode 741 (Place 2513 52) (Place 2530 52) true; SNode 742 (Place 2513 52) (Place 2530 52) false; SNode 743 (Place 2532 52) (Place 2549 52) true; SNode 744 (Place 2532 52) (Place 2549 52) false; SNode 745 (Place 2551 52) (Place 2603 54) true; SNode 746 (Place 2554 53) (Place 2601 53) true; SNode 747 (Place 2561 53) (Place 2580 53) false; SNode 748 (Place 2561 53) (Place 2578 53) false; SNode 749 (Place 2582 53) (Place 2601 53) false; SNode 750 (Place 2582 53) (Place 2599 53) false; SNode 751 (Place 2605 56) (Place 3331 67) true; SNode 752 (Place 2610 56) (Place 2628 56) false; SNode 753 (Place 2605 56) (Place 2630 56) false; SNode 754 (Place 2628 56) (Place 2630 56) false; SNode 755 (Place 2631 56) (Place 3331 67) true; SNode 756 (Place 2634 57) (Place 2655 57) true; SNode 757 (Place 2634 57) (Place 2655 57) true; SNode 758 (Place 2638 57) (Place 2655 57) true; SNode 759 (Place 2638 57) (Place 2639 57) false; SNode 760 (Place 2640 57) (Place 2655 57) false; SNode 761 (Place 2657 58) (Place 2693 58) true; SNode 762 (Place 2657 58) (Place 2658 58) false; SNode 763 (Place 2660 58) (Place 2661 58) false; SNode 764 (Place 2665 58) (Place 2693 58) false; SNode 765 (Place 2665 58) (Place 2691 58) false; SNode 766 (Place 2876 59) (Place 2887 59) true; SNode 767 (Place 2876 59) (Place 2877 59) false; SNode 768 (Place 2879 59) (Place 2880 59) false; SNode 769 (Place 2883 59) (Place 2884 59) false; SNode 770 (Place 2886 59) (Place 2887 59) false; SNode 771 (Place 2890 61) (Place 2914 61) true; SNode 772 (Place 2890 61) (Place 2914 61) true; SNode 773 (Place 2894 61) (Place 2914 61) true; SNode 774 (Place 2894 61) (Place 2895 61) false; SNode 775 (Place 2897 61) (Place 2898 61) false; SNode 776 (Place 2899 61) (Place 2914 61) false; SNode 777 (Place 2916 62) (Place 2951 62) true; SNode 778 (Place 2916 62) (Place 2917 62) false; SNode 779 (Place 2919 62) (Place 2920 62) false; SNode 780 (Place 2923 62) (Place 2951 62) false; SNode 781 (Place 2923 62) (Place 2949 62) false; SNode 782 (Place 3318 66) (Place 3329 66) true; SNode 783 (Place 3318 66) (Place 3319 66) false; SNode 784 (Place 3321 66) (Place 3322 66) false; SNode 785 (Place 3325 66) (Place 3326 66) false; SNode 786 (Place 3328 66) (Place 3329 66) false; SNode 787 (Place 3333 69) (Place 4307 77) true; SNode 788 (Place 3338 69) (Place 3356 69) false; SNode 789 (Place 3333 69) (Place 3358 69) false; SNode 790 (Place 3356 69) (Place 3358 69) false; SNode 791 (Place 3359 69) (Place 4307 77) true; SNode 792 (Place 3362 70) (Place 3406 70) true; SNode 793 (Place 3362 70) (Place 3406 70) true; SNode 794 (Place 3366 70) (Place 3406 70) true; SNode 795 (Place 3366 70) (Place 3368 70) false; SNode 796 (Place 3369 70) (Place 3384 70) false; SNode 797 (Place 3387 70) (Place 3406 70) false; SNode 798 (Place 3387 70) (Place 3404 70) false; SNode 799 (Place 3606 71) (Place 3667 71) true; SNode 800 (Place 3606 71) (Place 3667 71) true; SNode 801 (Place 3610 71) (Place 3667 71) true; SNode 802 (Place 3610 71) (Place 3612 71) false; SNode 803 (Place 3614 71) (Place 3616 71) false; SNode 804 (Place 3618 71) (Place 3619 71) false; SNode 805 (Place 3620 71) (Place 3635 71) false; SNode 806 (Place 3638 71) (Place 3641 71) false; SNode 807 (Place 3643 71) (Place 3662 71) false; SNode 808 (Place 3643 71) (Place 3660 71) false; SNode 809 (Place 3664 71) (Place 3667 71) false; SNode 810 (Place 3850 72) (Place 3906 72) true; SNode 811 (Place 3850 72) (Place 3906 72) true; SNode 812 (Place 3854 72) (Place 3906 72) true; SNode 813 (Place 3854 72) (Place 3856 72) false; SNode 814 (Place 3858 72) (Place 3859 72) false; SNode 815 (Place 3860 72) (Place 3875 72) false; SNode 816 (Place 3878 72) (Place 3906 72) false; SNode 817 (Place 3878 72) (Place 3904 72) false; SNode 818 (Place 4278 76) (Place 4305 76) true; SNode 819 (Place 4278 76) (Place 4279 76) false; SNode 820 (Place 4281 76) (Place 4282 76) false; SNode 821 (Place 4284 76) (Place 4285 76) false; SNode 822 (Place 4287 76) (Place 4288 76) false; SNode 823 (Place 4291 76) (Place 4293 76) false; SNode 824 (Place 4295 76) (Place 4297 76) false; SNode 825 (Place 4299 76) (Place 4301 76) false; SNode 826 (Place 4303 76) (Place 4305 76) false; SNode 827 (Place 4309 79) (Place 5283 97) true; SNode 828 (Place 4314 79) (Place 4332 79) false; SNode 829 (Place 4309 79) (Place 4361 79) false; SNode 830 (Place 4332 79) (Place 4361 79) false; SNode 831 (Place 4333 79) (Place 4360 79) true; SNode 832 (Place 4333 79) (Place 4334 79) false; SNode 833 (Place 4335 79) (Place 4360 79) false; SNode 834 (Place 4339 79) (Place 4342 79) false; SNode 835 (Place 4343 79) (Place 4360 79) false; SNode 836 (Place 4362 79) (Place 5283 97) true; SNode 837 (Place 4365 80) (Place 4387 80) true; SNode 838 (Place 4365 80) (Place 4387 80) true; SNode 839 (Place 4369 80) (Place 4387 80) true; SNode 840 (Place 4369 80) (Place 4371 80) false; SNode 841 (Place 4372 80) (Place 4387 80) false; SNode 842 (Place 4389 81) (Place 4400 81) true; SNode 843 (Place 4389 81) (Place 4400 81) true; SNode 844 (Place 4393 81) (Place 4400 81) true; SNode 845 (Place 4393 81) (Place 4395 81) false; SNode 846 (Place 4396 81) (Place 4400 81) false; SNode 847 (Place 4402 82) (Place 4615 84) true; SNode 848 (Place 4405 82) (Place 4414 82) true; SNode 849 (Place 4405 82) (Place 4407 82) false; SNode 850 (Place 4410 82) (Place 4414 82) false; SNode 851 (Place 4410 82) (Place 4411 82) false; SNode 852 (Place 4412 82) (Place 4413 82) false; SNode 853 (Place 4416 82) (Place 4420 82) false; SNode 854 (Place 4421 82) (Place 4615 84) true; SNode 855 (Place 4606 83) (Place 4612 83) true; SNode 856 (Place 4606 83) (Place 4607 83) false; SNode 857 (Place 4610 83) (Place 4612 83) false; SNode 858 (Place 4617 85) (Place 4832 87) true; SNode 859 (Place 4620 85) (Place 4633 85) true; SNode 860 (Place 4620 85) (Place 4622 85) false; SNode 861 (Place 4624 85) (Place 4626 85) false; SNode 862 (Place 4629 85) (Place 4633 85) false; SNode 863 (Place 4629 85) (Place 4630 85) false; SNode 864 (Place 4631 85) (Place 4632 85) false; SNode 865 (Place 4635 85) (Place 4637 85) false; SNode 866 (Place 4638 85) (Place 4832 87) true; SNode 867 (Place 4823 86) (Place 4829 86) true; SNode 868 (Place 4823 86) (Place 4824 86) false; SNode 869 (Place 4827 86) (Place 4829 86) false; SNode 870 (Place 4835 89) (Place 5052 91) true; SNode 871 (Place 4839 89) (Place 4852 89) true; SNode 872 (Place 4839 89) (Place 4841 89) false; SNode 873 (Place 4843 89) (Place 4845 89) false; SNode 874 (Place 4848 89) (Place 4852 89) false; SNode 875 (Place 4848 89) (Place 4849 89) false; SNode 876 (Place 4850 89) (Place 4851 89) false; SNode 877 (Place 4854 89) (Place 4856 89) false; SNode 878 (Place 4858 89) (Place 5052 91) true; SNode 879 (Place 5043 90) (Place 5049 90) true; SNode 880 (Place 5043 90) (Place 5044 90) false; SNode 881 (Place 5047 90) (Place 5049 90) false; SNode 882 (Place 5055 93) (Place 5281 96) true; SNode 883 (Place 5062 93) (Place 5075 93) true; SNode 884 (Place 5062 93) (Place 5064 93) false; SNode 885 (Place 5066 93) (Place 5068 93) false; SNode 886 (Place 5071 93) (Place 5075 93) false; SNode 887 (Place 5071 93) (Place 5072 93) false; SNode 888 (Place 5073 93) (Place 5074 93) false; SNode 889 (Place 5077 93) (Place 5281 96) true; SNode 890 (Place 5261 94) (Place 5278 95) true; SNode 891 (Place 5266 94) (Place 5268 94) false; SNode 892 (Place 5272 95) (Place 5278 95) true; SNode 893 (Place 5272 95) (Place 5273 95) false; SNode 894 (Place 5276 95) (Place 5278 95) false; SNode 895 (Place 5285 99) (Place 5343 99) true; SNode 896 (Place 5290 99) (Place 5311 99) false; SNode 897 (Place 5285 99) (Place 5340 99) false; SNode 898 (Place 5311 99) (Place 5340 99) false; SNode 899 (Place 5312 99) (Place 5320 99) true; SNode 900 (Place 5312 99) (Place 5313 99) false; SNode 901 (Place 5315 99) (Place 5316 99) false; SNode 902 (Place 5317 99) (Place 5320 99) false; SNode 903 (Place 5322 99) (Place 5339 99) true; SNode 904 (Place 5322 99) (Place 5323 99) false; SNode 905 (Place 5324 99) (Place 5339 99) false; SNode 906 (Place 5341 99) (Place 5343 99) true; SNode 907 (Place 5345 101) (Place 5411 101) true; SNode 908 (Place 5350 101) (Place 5379 101) false; SNode 909 (Place 5345 101) (Place 5408 101) false; SNode 910 (Place 5379 101) (Place 5408 101) false; SNode 911 (Place 5380 101) (Place 5385 101) true; SNode 912 (Place 5380 101) (Place 5381 101) false; SNode 913 (Place 5382 101) (Place 5385 101) false; SNode 914 (Place 5387 101) (Place 5407 101) true; SNode 915 (Place 5387 101) (Place 5388 101) false; SNode 916 (Place 5389 101) (Place 5407 101) false; SNode 917 (Place 5392 101) (Place 5407 101) false; SNode 918 (Place 5409 101) (Place 5411 101) true; SNode 919 (Place 5413 103) (Place 5475 103) true; SNode 920 (Place 5418 103) (Place 5444 103) false; SNode 921 (Place 5413 103) (Place 5472 103) false; SNode 922 (Place 5444 103) (Place 5472 103) false; SNode 923 (Place 5445 103) (Place 5450 103) true; SNode 924 (Place 5445 103) (Place 5446 103) false; SNode 925 (Place 5447 103) (Place 5450 103) false; SNode 926 (Place 5452 103) (Place 5471 103) true; SNode 927 (Place 5452 103) (Place 5453 103) false; SNode 928 (Place 5454 103) (Place 5471 103) false; SNode 929 (Place 5456 103) (Place 5471 103) false; SNode 930 (Place 5473 103) (Place 5475 103) true; SNode 931 (Place 5477 105) (Place 7224 124) true; SNode 932 (Place 5482 105) (Place 5501 105) false; SNode 933 (Place 5477 105) (Place 5503 105) false; SNode 934 (Place 5501 105) (Place 5503 105) false; SNode 935 (Place 5504 105) (Place 7224 124) true; SNode 936 (Place 5507 106) (Place 5535 106) true; SNode 937 (Place 5507 106) (Place 5512 106) false; SNode 938 (Place 5516 106) (Place 5535 106) false; SNode 939 (Place 5516 106) (Place 5533 106) false; SNode 940 (Place 5537 107) (Place 5573 107) true; SNode 941 (Place 5537 107) (Place 5573 107) false; SNode 942 (Place 5537 107) (Place 5558 107) false; SNode 943 (Place 5559 107) (Place 5561 107) false; SNode 944 (Place 5563 107) (Place 5565 107) false; SNode 945 (Place 5567 107) (Place 5572 107) false; SNode 946 (Place 5756 108) (Place 5790 108) true; SNode 947 (Place 5756 108) (Place 5790 108) false; SNode 948 (Place 5756 108) (Place 5777 108) false; SNode 949 (Place 5778 108) (Place 5780 108) false; SNode 950 (Place 5782 108) (Place 5784 108) false; SNode 951 (Place 5786 108) (Place 5789 108) false; SNode 952 (Place 5792 109) (Place 5837 109) true; SNode 953 (Place 5792 109) (Place 5837 109) false; SNode 954 (Place 5792 109) (Place 5821 109) false; SNode 955 (Place 5822 109) (Place 5824 109) false; SNode 956 (Place 5823 109) (Place 5824 109) false; SNode 957 (Place 5826 109) (Place 5829 109) false; SNode 958 (Place 5831 109) (Place 5836 109) false; SNode 959 (Place 6025 110) (Place 6075 110) true; SNode 960 (Place 6025 110) (Place 6075 110) false; SNode 961 (Place 6025 110) (Place 6054 110) false; SNode 962 (Place 6055 110) (Place 6057 110) false; SNode 963 (Place 6056 110) (Place 6057 110) false; SNode 964 (Place 6059 110) (Place 6064 110) false; SNode 965 (Place 6066 110) (Place 6069 110) false; SNode 966 (Place 6071 110) (Place 6074 110) false; SNode 967 (Place 6258 111) (Place 6306 111) true; SNode 968 (Place 6258 111) (Place 6306 111) false; SNode 969 (Place 6258 111) (Place 6287 111) false; SNode 970 (Place 6288 111) (Place 6290 111) false; SNode 971 (Place 6289 111) (Place 6290 111) false; SNode 972 (Place 6292 111) (Place 6295 111) false; SNode 973 (Place 6297 111) (Place 6300 111) false; SNode 974 (Place 6302 111) (Place 6305 111) false; SNode 975 (Place 6374 114) (Place 6432 114) true; SNode 976 (Place 6374 114) (Place 6432 114) false; SNode 977 (Place 6374 114) (Place 6400 114) false; SNode 978 (Place 6401 114) (Place 6402 114) false; SNode 979 (Place 6404 114) (Place 6431 114) false; SNode 980 (Place 6404 114) (Place 6421 114) false; SNode 981 (Place 6406 114) (Place 6421 114) false; SNode 982 (Place 6422 114) (Place 6425 114) false; SNode 983 (Place 6427 114) (Place 6430 114) false; SNode 984 (Place 6434 115) (Place 6468 115) true; SNode 985 (Place 6434 115) (Place 6468 115) false; SNode 986 (Place 6434 115) (Place 6460 115) false; SNode 987 (Place 6461 115) (Place 6462 115) false; SNode 988 (Place 6464 115) (Place 6467 115) false; SNode 989 (Place 6471 117) (Place 6498 117) true; SNode 990 (Place 6471 117) (Place 6498 117) true; SNode 991 (Place 6475 117) (Place 6498 117) true; SNode 992 (Place 6475 117) (Place 6480 117) false; SNode 993 (Place 6481 117) (Place 6498 117) false; SNode 994 (Place 6483 117) (Place 6498 117) false; SNode 995 (Place 6500 118) (Place 6528 118) true; SNode 996 (Place 6500 118) (Place 6505 118) false; SNode 997 (Place 6508 118) (Place 6528 118) false; SNode 998 (Place 6508 118) (Place 6514 118) false; SNode 999 (Place 6515 118) (Place 6520 118) false; SNode 1000 (Place 6522 118) (Place 6527 118) false; SNode 1001 (Place 6721 119) (Place 6759 119) true; SNode 1002 (Place 6721 119) (Place 6726 119) false; SNode 1003 (Place 6729 119) (Place 6759 119) false; SNode 1004 (Place 6729 119) (Place 6735 119) false; SNode 1005 (Place 6736 119) (Place 6741 119) false; SNode 1006 (Place 6743 119) (Place 6746 119) false; SNode 1007 (Place 6748 119) (Place 6751 119) false; SNode 1008 (Place 6753 119) (Place 6758 119) false; SNode 1009 (Place 6942 120) (Place 6973 120) true; SNode 1010 (Place 6942 120) (Place 6947 120) false; SNode 1011 (Place 6950 120) (Place 6973 120) false; SNode 1012 (Place 6950 120) (Place 6956 120) false; SNode 1013 (Place 6957 120) (Place 6962 120) false; SNode 1014 (Place 6964 120) (Place 6967 120) false; SNode 1015 (Place 6969 120) (Place 6972 120) false; SNode 1016 (Place 6976 122) (Place 7012 122) true; SNode 1017 (Place 6976 122) (Place 6982 122) false; SNode 1018 (Place 6986 122) (Place 7012 122) false; SNode 1019 (Place 6986 122) (Place 7009 122) false; SNode 1020 (Place 6990 122) (Place 7009 122) false; SNode 1021 (Place 6991 122) (Place 7008 122) true; SNode 1022 (Place 6991 122) (Place 6992 122) false; SNode 1023 (Place 6993 122) (Place 7008 122) false; SNode 1024 (Place 7010 122) (Place 7012 122) true; SNode 1025 (Place 7014 123) (Place 7041 123) true; SNode 1026 (Place 7014 123) (Place 7041 123) false; SNode 1027 (Place 7014 123) (Place 7020 123) false; SNode 1028 (Place 7021 123) (Place 7040 123) false; SNode 1029 (Place 7021 123) (Place 7038 123) false; SNode 1030 (Place 7226 126) (Place 7278 126) true; SNode 1031 (Place 7231 126) (Place 7278 126) true; SNode 1032 (Place 7231 126) (Place 7249 126) false; SNode 1033 (Place 7250 126) (Place 7278 126) false; SNode 1034 (Place 7254 126) (Place 7269 126) false; SNode 1035 (Place 7270 126) (Place 7278 126) false; SNode 1036 (Place 7276 126) (Place 7278 126) false; SNode 1037 (Place 7280 128) (Place 7906 138) true; SNode 1038 (Place 7285 128) (Place 7300 128) false; SNode 1039 (Place 7280 128) (Place 7379 132) false; SNode 1040 (Place 7300 128) (Place 7379 132) false; SNode 1041 (Place 7303 129) (Place 7333 129) true; SNode 1042 (Place 7303 129) (Place 7304 129) false; SNode 1043 (Place 7305 129) (Place 7333 129) false; SNode 1044 (Place 7309 129) (Place 7324 129) false; SNode 1045 (Place 7325 129) (Place 7333 129) false; SNode 1046 (Place 7331 129) (Place 7333 129) false; SNode 1047 (Place 7336 130) (Place 7357 130) true; SNode 1048 (Place 7336 130) (Place 7338 130) false; SNode 1049 (Place 7339 130) (Place 7357 130) false; SNode 1050 (Place 7360 131) (Place 7376 131) true; SNode 1051 (Place 7360 131) (Place 7365 131) false; SNode 1052 (Place 7366 131) (Place 7376 131) false; SNode 1053 (Place 7368 131) (Place 7376 131) false; SNode 1054 (Place 7374 131) (Place 7376 131) false; SNode 1055 (Place 7380 132) (Place 7906 138) true; SNode 1056 (Place 7383 133) (Place 7409 133) true; SNode 1057 (Place 7383 133) (Place 7384 133) false; SNode 1058 (Place 7387 133) (Place 7409 133) false; SNode 1059 (Place 7387 133) (Place 7388 133) false; SNode 1060 (Place 7389 133) (Place 7408 133) false; SNode 1061 (Place 7389 133) (Place 7406 133) false; SNode 1062 (Place 7592 134) (Place 7602 134) true; SNode 1063 (Place 7592 134) (Place 7593 134) false; SNode 1064 (Place 7596 134) (Place 7602 134) false; SNode 1065 (Place 7596 134) (Place 7597 134) false; SNode 1066 (Place 7598 134) (Place 7601 134) false; SNode 1067 (Place 7604 135) (Place 7631 135) true; SNode 1068 (Place 7604 135) (Place 7605 135) false; SNode 1069 (Place 7608 135) (Place 7631 135) false; SNode 1070 (Place 7608 135) (Place 7610 135) false; SNode 1071 (Place 7611 135) (Place 7630 135) false; SNode 1072 (Place 7611 135) (Place 7628 135) false; SNode 1073 (Place 7814 136) (Place 7825 136) true; SNode 1074 (Place 7814 136) (Place 7815 136) false; SNode 1075 (Place 7818 136) (Place 7825 136) false; SNode 1076 (Place 7818 136) (Place 7820 136) false; SNode 1077 (Place 7821 136) (Place 7824 136) false; SNode 1078 (Place 7827 137) (Place 7839 137) true; SNode 1079 (Place 7827 137) (Place 7828 137) false; SNode 1080 (Place 7831 137) (Place 7839 137) false; SNode 1081 (Place 7831 137) (Place 7836 137) false; SNode 1082 (Place 7837 137) (Place 7838 137) false; SNode 1083 (Place 7908 140) (Place 8465 149) true; SNode 1084 (Place 7913 140) (Place 8465 149) true; SNode 1085 (Place 7913 140) (Place 7940 140) false; SNode 1086 (Place 7941 140) (Place 8465 149) false; SNode 1087 (Place 7951 140) (Place 8465 149) false; SNode 1088 (Place 8330 148) (Place 8359 148) true; SNode 1089 (Place 8330 148) (Place 8351 148) false; SNode 1090 (Place 8351 148) (Place 8359 148) false; SNode 1091 (Place 8351 148) (Place 8353 148) false; SNode 1092 (Place 8354 148) (Place 8359 148) false; SNode 1093 (Place 8354 148) (Place 8359 148) true; SNode 1094 (Place 8354 148) (Place 8359 148) false; SNode 1095 (Place 8467 151) (Place 8517 153) true; SNode 1096 (Place 8472 151) (Place 8517 153) true; SNode 1097 (Place 8472 151) (Place 8487 151) false; SNode 1098 (Place 8488 151) (Place 8517 153) false; SNode 1099 (Place 8498 151) (Place 8517 153) false; SNode 1100 (Place 8501 152) (Place 8515 152) true; SNode 1101 (Place 8501 152) (Place 8513 152) false; SNode 1102 (Place 8513 152) (Place 8515 152) false; SNode 1103 (Place 8513 152) (Place 8515 152) false; SNode 1104 (Place 8519 155) (Place 10072 174) true; SNode 1105 (Place 8524 155) (Place 8541 155) false; SNode 1106 (Place 8519 155) (Place 8603 155) false; SNode 1107 (Place 8541 155) (Place 8603 155) false; SNode 1108 (Place 8542 155) (Place 8582 155) true; SNode 1109 (Place 8542 155) (Place 8554 155) false; SNode 1110 (Place 8555 155) (Place 8582 155) false; SNode 1111 (Place 8584 155) (Place 8602 155) true; SNode 1112 (Place 8584 155) (Place 8586 155) false; SNode 1113 (Place 8587 155) (Place 8602 155) false; SNode 1114 (Place 8604 155) (Place 10072 174) true; SNode 1115 (Place 8607 156) (Place 8647 156) true; SNode 1116 (Place 8607 156) (Place 8608 156) false; SNode 1117 (Place 8611 156) (Place 8647 156) false; SNode 1118 (Place 8611 156) (Place 8626 156) false; SNode 1119 (Place 8627 156) (Place 8646 156) false; SNode 1120 (Place 8627 156) (Place 8644 156) false; SNode 1121 (Place 8830 157) (Place 8854 157) true; SNode 1122 (Place 8830 157) (Place 8831 157) false; SNode 1123 (Place 8834 157) (Place 8854 157) false; SNode 1124 (Place 8834 157) (Place 8849 157) false; SNode 1125 (Place 8850 157) (Place 8853 157) false; SNode 1126 (Place 8856 158) (Place 8889 158) true; SNode 1127 (Place 8856 158) (Place 8857 158) false; SNode 1128 (Place 8860 158) (Place 8889 158) false; SNode 1129 (Place 8860 158) (Place 8875 158) false; SNode 1130 (Place 8876 158) (Place 8888 158) false; SNode 1131 (Place 9106 159) (Place 9140 159) true; SNode 1132 (Place 9106 159) (Place 9107 159) false; SNode 1133 (Place 9110 159) (Place 9140 159) false; SNode 1134 (Place 9110 159) (Place 9122 159) false; SNode 1135 (Place 9124 159) (Place 9139 159) false; SNode 1136 (Place 9356 160) (Place 9395 160) true; SNode 1137 (Place 9356 160) (Place 9357 160) false; SNode 1138 (Place 9359 160) (Place 9361 160) false; SNode 1139 (Place 9365 160) (Place 9395 160) false; SNode 1140 (Place 9365 160) (Place 9377 160) false; SNode 1141 (Place 9379 160) (Place 9394 160) false; SNode 1142 (Place 9606 161) (Place 9618 161) true; SNode 1143 (Place 9606 161) (Place 9607 161) false; SNode 1144 (Place 9609 161) (Place 9610 161) false; SNode 1145 (Place 9613 161) (Place 9614 161) false; SNode 1146 (Place 9616 161) (Place 9618 161) false; SNode 1147 (Place 9620 162) (Place 9672 162) true; SNode 1148 (Place 9620 162) (Place 9621 162) false; SNode 1149 (Place 9624 162) (Place 9672 162) false; SNode 1150 (Place 9624 162) (Place 9654 162) false; SNode 1151 (Place 9624 162) (Place 9636 162) false; SNode 1152 (Place 9638 162) (Place 9653 162) false; SNode 1153 (Place 9656 162) (Place 9671 162) false; SNode 1154 (Place 9704 164) (Place 9726 164) true; SNode 1155 (Place 9704 164) (Place 9726 164) true; SNode 1156 (Place 9708 164) (Place 9726 164) true; SNode 1157 (Place 9708 164) (Place 9710 164) false; SNode 1158 (Place 9711 164) (Place 9726 164) false; SNode 1159 (Place 9728 165) (Place 10062 172) true; SNode 1160 (Place 9735 165) (Place 9761 165) true; SNode 1161 (Place 9735 165) (Place 9738 165) false; SNode 1162 (Place 9742 165) (Place 9761 165) false; SNode 1163 (Place 9742 165) (Place 9754 165) false; SNode 1164 (Place 9762 165) (Place 10062 172) true; SNode 1165 (Place 9765 166) (Place 9796 167) true; SNode 1166 (Place 9770 166) (Place 9785 166) false; SNode 1167 (Place 9789 167) (Place 9796 167) true; SNode 1168 (Place 9789 167) (Place 9790 167) false; SNode 1169 (Place 9793 167) (Place 9796 167) false; SNode 1170 (Place 9798 168) (Place 10039 169) true; SNode 1171 (Place 9803 168) (Place 9818 168) false; SNode 1172 (Place 10031 169) (Place 10039 169) true; SNode 1173 (Place 10031 169) (Place 10033 169) false; SNode 1174 (Place 10036 169) (Place 10039 169) false; SNode 1175 (Place 10041 170) (Place 10059 171) true; SNode 1176 (Place 10052 171) (Place 10059 171) true; SNode 1177 (Place 10052 171) (Place 10053 171) false; SNode 1178 (Place 10056 171) (Place 10059 171) false; SNode 1179 (Place 10064 173) (Place 10070 173) true; SNode 1180 (Place 10064 173) (Place 10065 173) false; SNode 1181 (Place 10068 173) (Place 10070 173) false; SNode 1182 (Place 10074 176) (Place 10128 178) true; SNode 1183 (Place 10079 176) (Place 10128 178) true; SNode 1184 (Place 10079 176) (Place 10097 176) false; SNode 1185 (Place 10098 176) (Place 10128 178) false; SNode 1186 (Place 10105 176) (Place 10128 178) false; SNode 1187 (Place 10108 177) (Place 10126 177) true; SNode 1188 (Place 10108 177) (Place 10110 177) false; SNode 1189 (Place 10111 177) (Place 10126 177) false; SNode 1190 (Place 10130 180) (Place 10219 184) true; SNode 1191 (Place 10135 180) (Place 10219 184) true; SNode 1192 (Place 10135 180) (Place 10154 180) false; SNode 1193 (Place 10155 180) (Place 10219 184) false; SNode 1194 (Place 10162 180) (Place 10219 184) false; SNode 1195 (Place 10165 181) (Place 10173 181) true; SNode 1196 (Place 10165 181) (Place 10166 181) false; SNode 1197 (Place 10168 181) (Place 10169 181) false; SNode 1198 (Place 10170 181) (Place 10173 181) false; SNode 1199 (Place 10175 182) (Place 10195 182) true; SNode 1200 (Place 10175 182) (Place 10176 182) false; SNode 1201 (Place 10180 182) (Place 10195 182) false; SNode 1202 (Place 10197 183) (Place 10217 183) true; SNode 1203 (Place 10197 183) (Place 10198 183) false; SNode 1204 (Place 10200 183) (Place 10201 183) false; SNode 1205 (Place 10202 183) (Place 10217 183) false; SNode 1206 (Place 10221 186) (Place 10288 189) true; SNode 1207 (Place 10226 186) (Place 10288 189) true; SNode 1208 (Place 10226 186) (Place 10245 186) false; SNode 1209 (Place 10246 186) (Place 10288 189) false; SNode 1210 (Place 10253 186) (Place 10288 189) false; SNode 1211 (Place 10256 187) (Place 10264 187) true; SNode 1212 (Place 10256 187) (Place 10257 187) false; SNode 1213 (Place 10259 187) (Place 10260 187) false; SNode 1214 (Place 10261 187) (Place 10264 187) false; SNode 1215 (Place 10266 188) (Place 10286 188) true; SNode 1216 (Place 10266 188) (Place 10267 188) false; SNode 1217 (Place 10269 188) (Place 10270 188) false; SNode 1218 (Place 10271 188) (Place 10286 188) false; SNode 1219 (Place 10290 191) (Place 15217 243) true; SNode 1220 (Place 10295 191) (Place 10316 191) false; SNode 1221 (Place 10290 191) (Place 10318 191) false; SNode 1222 (Place 10316 191) (Place 10318 191) false; SNode 1223 (Place 10319 191) (Place 15217 243) true; SNode 1224 (Place 10322 192) (Place 10365 192) true; SNode 1225 (Place 10322 192) (Place 10323 192) false; SNode 1226 (Place 10326 192) (Place 10365 192) false; SNode 1227 (Place 10326 192) (Place 10344 192) false; SNode 1228 (Place 10345 192) (Place 10364 192) false; SNode 1229 (Place 10345 192) (Place 10362 192) false; SNode 1230 (Place 10548 193) (Place 10575 193) true; SNode 1231 (Place 10548 193) (Place 10549 193) false; SNode 1232 (Place 10552 193) (Place 10575 193) false; SNode 1233 (Place 10552 193) (Place 10570 193) false; SNode 1234 (Place 10571 193) (Place 10574 193) false; SNode 1235 (Place 10577 194) (Place 10624 194) true; SNode 1236 (Place 10577 194) (Place 10578 194) false; SNode 1237 (Place 10581 194) (Place 10624 194) false; SNode 1238 (Place 10581 194) (Place 10599 194) false; SNode 1239 (Place 10600 194) (Place 10623 194) false; SNode 1240 (Place 10600 194) (Place 10602 194) false; SNode 1241 (Place 10604 194) (Place 10623 194) false; SNode 1242 (Place 10604 194) (Place 10621 194) false; SNode 1243 (Place 10807 195) (Place 10838 195) true; SNode 1244 (Place 10807 195) (Place 10808 195) false; SNode 1245 (Place 10811 195) (Place 10838 195) false; SNode 1246 (Place 10811 195) (Place 10829 195) false; SNode 1247 (Place 10830 195) (Place 10837 195) false; SNode 1248 (Place 10830 195) (Place 10832 195) false; SNode 1249 (Place 10834 195) (Place 10837 195) false; SNode 1250 (Place 10840 196) (Place 10864 196) true; SNode 1251 (Place 10840 196) (Place 10841 196) false; SNode 1252 (Place 10844 196) (Place 10864 196) false; SNode 1253 (Place 10844 196) (Place 10862 196) false; SNode 1254 (Place 10866 197) (Place 10910 197) true; SNode 1255 (Place 10866 197) (Place 10867 197) false; SNode 1256 (Place 10870 197) (Place 10910 197) false; SNode 1257 (Place 10871 197) (Place 10910 197) false; SNode 1258 (Place 10871 197) (Place 10889 197) false; SNode 1259 (Place 10890 197) (Place 10909 197) false; SNode 1260 (Place 10890 197) (Place 10907 197) false; SNode 1261 (Place 11094 199) (Place 11155 199) true; SNode 1262 (Place 11094 199) (Place 11095 199) false; SNode 1263 (Place 11098 199) (Place 11155 199) false; SNode 1264 (Place 11098 199) (Place 11117 199) false; SNode 1265 (Place 11118 199) (Place 11120 199) false; SNode 1266 (Place 11122 199) (Place 11123 199) false; SNode 1267 (Place 11125 199) (Place 11144 199) false; SNode 1268 (Place 11125 199) (Place 11142 199) false; SNode 1269 (Place 11146 199) (Place 11149 199) false; SNode 1270 (Place 11151 199) (Place 11154 199) false; SNode 1271 (Place 11370 200) (Place 11431 200) true; SNode 1272 (Place 11370 200) (Place 11371 200) false; SNode 1273 (Place 11374 200) (Place 11431 200) false; SNode 1274 (Place 11374 200) (Place 11393 200) false; SNode 1275 (Place 11394 200) (Place 11396 200) false; SNode 1276 (Place 11398 200) (Place 11399 200) false; SNode 1277 (Place 11401 200) (Place 11404 200) false; SNode 1278 (Place 11406 200) (Place 11409 200) false; SNode 1279 (Place 11411 200) (Place 11430 200) false; SNode 1280 (Place 11411 200) (Place 11428 200) false; SNode 1281 (Place 11646 201) (Place 11739 201) true; SNode 1282 (Place 11646 201) (Place 11647 201) false; SNode 1283 (Place 11650 201) (Place 11739 201) false; SNode 1284 (Place 11650 201) (Place 11669 201) false; SNode 1285 (Place 11670 201) (Place 11672 201) false; SNode 1286 (Place 11674 201) (Place 11675 201) false; SNode 1287 (Place 11677 201) (Place 11696 201) false; SNode 1288 (Place 11677 201) (Place 11694 201) false; SNode 1289 (Place 11698 201) (Place 11717 201) false; SNode 1290 (Place 11698 201) (Place 11715 201) false; SNode 1291 (Place 11719 201) (Place 11738 201) false; SNode 1292 (Place 11719 201) (Place 11736 201) false; SNode 1293 (Place 12282 206) (Place 12307 206) true; SNode 1294 (Place 12282 206) (Place 12283 206) false; SNode 1295 (Place 12286 206) (Place 12307 206) false; SNode 1296 (Place 12286 206) (Place 12305 206) false; SNode 1297 (Place 12310 208) (Place 12350 208) true; SNode 1298 (Place 12310 208) (Place 12311 208) false; SNode 1299 (Place 12314 208) (Place 12350 208) false; SNode 1300 (Place 12314 208) (Place 12333 208) false; SNode 1301 (Place 12334 208) (Place 12336 208) false; SNode 1302 (Place 12338 208) (Place 12339 208) false; SNode 1303 (Place 12341 208) (Place 12344 208) false; SNode 1304 (Place 12346 208) (Place 12349 208) false; SNode 1305 (Place 12352 209) (Place 12408 209) true; SNode 1306 (Place 12352 209) (Place 12353 209) false; SNode 1307 (Place 12356 209) (Place 12408 209) false; SNode 1308 (Place 12356 209) (Place 12375 209) false; SNode 1309 (Place 12376 209) (Place 12378 209) false; SNode 1310 (Place 12380 209) (Place 12381 209) false; SNode 1311 (Place 12383 209) (Place 12386 209) false; SNode 1312 (Place 12388 209) (Place 12407 209) false; SNode 1313 (Place 12388 209) (Place 12405 209) false; SNode 1314 (Place 12603 210) (Place 12671 210) true; SNode 1315 (Place 12603 210) (Place 12604 210) false; SNode 1316 (Place 12607 210) (Place 12671 210) false; SNode 1317 (Place 12607 210) (Place 12626 210) false; SNode 1318 (Place 12627 210) (Place 12632 210) false; SNode 1319 (Place 12627 210) (Place 12628 210) false; SNode 1320 (Place 12630 210) (Place 12632 210) false; SNode 1321 (Place 12634 210) (Place 12638 210) false; SNode 1322 (Place 12634 210) (Place 12635 210) false; SNode 1323 (Place 12637 210) (Place 12638 210) false; SNode 1324 (Place 12640 210) (Place 12646 210) false; SNode 1325 (Place 12640 210) (Place 12641 210) false; SNode 1326 (Place 12643 210) (Place 12646 210) false; SNode 1327 (Place 12648 210) (Place 12670 210) false; SNode 1328 (Place 12648 210) (Place 12649 210) false; SNode 1329 (Place 12651 210) (Place 12670 210) false; SNode 1330 (Place 12651 210) (Place 12668 210) false; SNode 1331 (Place 12854 211) (Place 12916 211) true; SNode 1332 (Place 12854 211) (Place 12855 211) false; SNode 1333 (Place 12858 211) (Place 12916 211) false; SNode 1334 (Place 12858 211) (Place 12877 211) false; SNode 1335 (Place 12878 211) (Place 12883 211) false; SNode 1336 (Place 12878 211) (Place 12879 211) false; SNode 1337 (Place 12881 211) (Place 12883 211) false; SNode 1338 (Place 12885 211) (Place 12891 211) false; SNode 1339 (Place 12885 211) (Place 12886 211) false; SNode 1340 (Place 12888 211) (Place 12891 211) false; SNode 1341 (Place 12893 211) (Place 12915 211) false; SNode 1342 (Place 12893 211) (Place 12894 211) false; SNode 1343 (Place 12896 211) (Place 12915 211) false; SNode 1344 (Place 12896 211) (Place 12913 211) false; SNode 1345 (Place 13105 212) (Place 13135 212) true; SNode 1346 (Place 13105 212) (Place 13106 212) false; SNode 1347 (Place 13109 212) (Place 13135 212) false; SNode 1348 (Place 13109 212) (Place 13128 212) false; SNode 1349 (Place 13129 212) (Place 13134 212) false; SNode 1350 (Place 13129 212) (Place 13130 212) false; SNode 1351 (Place 13132 212) (Place 13134 212) false; SNode 1352 (Place 13138 214) (Place 13614 220) true; SNode 1353 (Place 13138 214) (Place 13139 214) false; SNode 1354 (Place 13142 214) (Place 13614 220) false; SNode 1355 (Place 13142 214) (Place 13162 214) false; SNode 1356 (Place 13144 214) (Place 13162 214) false; SNode 1357 (Place 13166 215) (Place 13191 215) false; SNode 1358 (Place 13167 215) (Place 13190 215) false; SNode 1359 (Place 13167 215) (Place 13169 215) false; SNode 1360 (Place 13171 215) (Place 13190 215) false; SNode 1361 (Place 13171 215) (Place 13188 215) false; SNode 1362 (Place 13376 216) (Place 13397 216) false; SNode 1363 (Place 13377 216) (Place 13396 216) false; SNode 1364 (Place 13377 216) (Place 13394 216) false; SNode 1365 (Place 13586 217) (Place 13595 217) false; SNode 1366 (Place 13587 217) (Place 13594 217) false; SNode 1367 (Place 13587 217) (Place 13589 217) false; SNode 1368 (Place 13591 217) (Place 13594 217) false; SNode 1369 (Place 13599 218) (Place 13604 218) false; SNode 1370 (Place 13600 218) (Place 13603 218) false; SNode 1371 (Place 13608 219) (Place 13610 219) false; SNode 1372 (Place 13617 222) (Place 13674 222) true; SNode 1373 (Place 13617 222) (Place 13618 222) false; SNode 1374 (Place 13621 222) (Place 13674 222) false; SNode 1375 (Place 13621 222) (Place 13649 222) false; SNode 1376 (Place 13627 222) (Place 13649 222) false; SNode 1377 (Place 13629 222) (Place 13647 222) true; SNode 1378 (Place 13629 222) (Place 13631 222) false; SNode 1379 (Place 13632 222) (Place 13647 222) false; SNode 1380 (Place 13650 222) (Place 13673 222) false; SNode 1381 (Place 13650 222) (Place 13652 222) false; SNode 1382 (Place 13654 222) (Place 13673 222) false; SNode 1383 (Place 13654 222) (Place 13671 222) false; SNode 1384 (Place 13857 223) (Place 13910 223) true; SNode 1385 (Place 13857 223) (Place 13858 223) false; SNode 1386 (Place 13861 223) (Place 13910 223) false; SNode 1387 (Place 13861 223) (Place 13889 223) false; SNode 1388 (Place 13867 223) (Place 13889 223) false; SNode 1389 (Place 13869 223) (Place 13887 223) true; SNode 1390 (Place 13869 223) (Place 13871 223) false; SNode 1391 (Place 13872 223) (Place 13887 223) false; SNode 1392 (Place 13890 223) (Place 13909 223) false; SNode 1393 (Place 13890 223) (Place 13907 223) false; SNode 1394 (Place 14097 224) (Place 14138 224) true; SNode 1395 (Place 14097 224) (Place 14098 224) false; SNode 1396 (Place 14101 224) (Place 14138 224) false; SNode 1397 (Place 14101 224) (Place 14129 224) false; SNode 1398 (Place 14107 224) (Place 14129 224) false; SNode 1399 (Place 14109 224) (Place 14127 224) true; SNode 1400 (Place 14109 224) (Place 14111 224) false; SNode 1401 (Place 14112 224) (Place 14127 224) false; SNode 1402 (Place 14130 224) (Place 14137 224) false; SNode 1403 (Place 14130 224) (Place 14132 224) false; SNode 1404 (Place 14134 224) (Place 14137 224) false; SNode 1405 (Place 14140 225) (Place 14177 225) true; SNode 1406 (Place 14140 225) (Place 14141 225) false; SNode 1407 (Place 14144 225) (Place 14177 225) false; SNode 1408 (Place 14144 225) (Place 14172 225) false; SNode 1409 (Place 14150 225) (Place 14172 225) false; SNode 1410 (Place 14152 225) (Place 14170 225) true; SNode 1411 (Place 14152 225) (Place 14154 225) false; SNode 1412 (Place 14155 225) (Place 14170 225) false; SNode 1413 (Place 14173 225) (Place 14176 225) false; SNode 1414 (Place 14179 226) (Place 14213 226) true; SNode 1415 (Place 14179 226) (Place 14180 226) false; SNode 1416 (Place 14183 226) (Place 14213 226) false; SNode 1417 (Place 14183 226) (Place 14211 226) false; SNode 1418 (Place 14189 226) (Place 14211 226) false; SNode 1419 (Place 14191 226) (Place 14209 226) true; SNode 1420 (Place 14191 226) (Place 14193 226) false; SNode 1421 (Place 14194 226) (Place 14209 226) false; SNode 1422 (Place 14216 228) (Place 14702 234) true; SNode 1423 (Place 14216 228) (Place 14217 228) false; SNode 1424 (Place 14220 228) (Place 14702 234) false; SNode 1425 (Place 14220 228) (Place 14250 228) false; SNode 1426 (Place 14222 228) (Place 14250 228) false; SNode 1427 (Place 14228 228) (Place 14250 228) false; SNode 1428 (Place 14230 228) (Place 14248 228) true; SNode 1429 (Place 14230 228) (Place 14232 228) false; SNode 1430 (Place 14233 228) (Place 14248 228) false; SNode 1431 (Place 14254 229) (Place 14279 229) false; SNode 1432 (Place 14255 229) (Place 14278 229) false; SNode 1433 (Place 14255 229) (Place 14257 229) false; SNode 1434 (Place 14259 229) (Place 14278 229) false; SNode 1435 (Place 14259 229) (Place 14276 229) false; SNode 1436 (Place 14464 230) (Place 14485 230) false; SNode 1437 (Place 14465 230) (Place 14484 230) false; SNode 1438 (Place 14465 230) (Place 14482 230) false; SNode 1439 (Place 14674 231) (Place 14683 231) false; SNode 1440 (Place 14675 231) (Place 14682 231) false; SNode 1441 (Place 14675 231) (Place 14677 231) false; SNode 1442 (Place 14679 231) (Place 14682 231) false; SNode 1443 (Place 14687 232) (Place 14692 232) false; SNode 1444 (Place 14688 232) (Place 14691 232) false; SNode 1445 (Place 14696 233) (Place 14698 233) false; SNode 1446 (Place 14705 236) (Place 15215 242) true; SNode 1447 (Place 14705 236) (Place 14706 236) false; SNode 1448 (Place 14709 236) (Place 15215 242) false; SNode 1449 (Place 14709 236) (Place 14738 236) false; SNode 1450 (Place 14713 236) (Place 14719 236) false; SNode 1451 (Place 14720 236) (Place 14738 236) false; SNode 1452 (Place 14742 237) (Place 14772 237) false; SNode 1453 (Place 14742 237) (Place 14745 237) false; SNode 1454 (Place 14747 237) (Place 14772 237) false; SNode 1455 (Place 14748 237) (Place 14771 237) false; SNode 1456 (Place 14748 237) (Place 14750 237) false; SNode 1457 (Place 14752 237) (Place 14771 237) false; SNode 1458 (Place 14752 237) (Place 14769 237) false; SNode 1459 (Place 14957 238) (Place 14983 238) false; SNode 1460 (Place 14957 238) (Place 14960 238) false; SNode 1461 (Place 14962 238) (Place 14983 238) false; SNode 1462 (Place 14963 238) (Place 14982 238) false; SNode 1463 (Place 14963 238) (Place 14980 238) false; SNode 1464 (Place 15172 239) (Place 15186 239) false; SNode 1465 (Place 15172 239) (Place 15175 239) false; SNode 1466 (Place 15177 239) (Place 15186 239) false; SNode 1467 (Place 15178 239) (Place 15185 239) false; SNode 1468 (Place 15178 239) (Place 15180 239) false; SNode 1469 (Place 15182 239) (Place 15185 239) false; SNode 1470 (Place 15190 240) (Place 15200 240) false; SNode 1471 (Place 15190 240) (Place 15193 240) false; SNode 1472 (Place 15195 240) (Place 15200 240) false; SNode 1473 (Place 15196 240) (Place 15199 240) false; SNode 1474 (Place 15204 241) (Place 15211 241) false; SNode 1475 (Place 15204 241) (Place 15207 241) false; SNode 1476 (Place 15209 241) (Place 15211 241) false; SNode 1477 (Place 15219 245) (Place 15256 245) true; SNode 1478 (Place 15224 245) (Place 15256 245) true; SNode 1479 (Place 15224 245) (Place 15238 245) false; SNode 1480 (Place 15239 245) (Place 15256 245) false; SNode 1481 (Place 15241 245) (Place 15256 245) false; SNode 1482 (Place 15257 246) (Place 15292 246) true; SNode 1483 (Place 15262 246) (Place 15292 246) true; SNode 1484 (Place 15262 246) (Place 15277 246) false; SNode 1485 (Place 15278 246) (Place 15292 246) false; SNode 1486 (Place 15294 248) (Place 18822 293) true; SNode 1487 (Place 15299 248) (Place 15319 248) false; SNode 1488 (Place 15294 248) (Place 15321 248) false; SNode 1489 (Place 15319 248) (Place 15321 248) false; SNode 1490 (Place 15322 248) (Place 18822 293) true; SNode 1491 (Place 15325 249) (Place 15348 249) true; SNode 1492 (Place 15325 249) (Place 15326 249) false; SNode 1493 (Place 15329 249) (Place 15348 249) false; SNode 1494 (Place 15329 249) (Place 15346 249) false; SNode 1495 (Place 15331 249) (Place 15346 249) false; SNode 1496 (Place 15350 250) (Place 15386 250) true; SNode 1497 (Place 15350 250) (Place 15351 250) false; SNode 1498 (Place 15354 250) (Place 15386 250) false; SNode 1499 (Place 15354 250) (Place 15371 250) false; SNode 1500 (Place 15356 250) (Place 15371 250) false; SNode 1501 (Place 15372 250) (Place 15375 250) false; SNode 1502 (Place 15377 250) (Place 15380 250) false; SNode 1503 (Place 15382 250) (Place 15385 250) false; SNode 1504 (Place 15388 251) (Place 15440 251) true; SNode 1505 (Place 15388 251) (Place 15389 251) false; SNode 1506 (Place 15392 251) (Place 15440 251) false; SNode 1507 (Place 15392 251) (Place 15409 251) false; SNode 1508 (Place 15394 251) (Place 15409 251) false; SNode 1509 (Place 15410 251) (Place 15413 251) false; SNode 1510 (Place 15415 251) (Place 15434 251) false; SNode 1511 (Place 15415 251) (Place 15432 251) false; SNode 1512 (Place 15436 251) (Place 15439 251) false; SNode 1513 (Place 15623 252) (Place 16077 258) true; SNode 1514 (Place 15623 252) (Place 15624 252) false; SNode 1515 (Place 15627 252) (Place 16077 258) false; SNode 1516 (Place 15627 252) (Place 15644 252) false; SNode 1517 (Place 15629 252) (Place 15644 252) false; SNode 1518 (Place 15648 253) (Place 15651 253) false; SNode 1519 (Place 15655 254) (Place 15674 254) false; SNode 1520 (Place 15655 254) (Place 15672 254) false; SNode 1521 (Place 15859 255) (Place 15862 255) false; SNode 1522 (Place 15866 256) (Place 15869 256) false; SNode 1523 (Place 15873 257) (Place 15892 257) false; SNode 1524 (Place 15873 257) (Place 15890 257) false; SNode 1525 (Place 16080 260) (Place 16100 260) true; SNode 1526 (Place 16080 260) (Place 16100 260) true; SNode 1527 (Place 16086 260) (Place 16100 260) true; SNode 1528 (Place 16086 260) (Place 16091 260) false; SNode 1529 (Place 16094 260) (Place 16100 260) false; SNode 1530 (Place 16094 260) (Place 16096 260) false; SNode 1531 (Place 16099 260) (Place 16100 260) false; SNode 1532 (Place 16102 261) (Place 16802 268) true; SNode 1533 (Place 16102 261) (Place 16103 261) false; SNode 1534 (Place 16106 261) (Place 16802 268) false; SNode 1535 (Place 16106 261) (Place 16123 261) false; SNode 1536 (Place 16108 261) (Place 16123 261) false; SNode 1537 (Place 16127 262) (Place 16137 262) false; SNode 1538 (Place 16127 262) (Place 16128 262) false; SNode 1539 (Place 16134 262) (Place 16137 262) false; SNode 1540 (Place 16141 263) (Place 16167 263) false; SNode 1541 (Place 16141 263) (Place 16142 263) false; SNode 1542 (Place 16148 263) (Place 16167 263) false; SNode 1543 (Place 16148 263) (Place 16165 263) false; SNode 1544 (Place 16352 264) (Place 16362 264) false; SNode 1545 (Place 16352 264) (Place 16353 264) false; SNode 1546 (Place 16359 264) (Place 16362 264) false; SNode 1547 (Place 16366 265) (Place 16376 265) false; SNode 1548 (Place 16366 265) (Place 16367 265) false; SNode 1549 (Place 16373 265) (Place 16376 265) false; SNode 1550 (Place 16380 266) (Place 16406 266) false; SNode 1551 (Place 16380 266) (Place 16383 266) false; SNode 1552 (Place 16387 266) (Place 16406 266) false; SNode 1553 (Place 16387 266) (Place 16404 266) false; SNode 1554 (Place 16591 267) (Place 16617 267) false; SNode 1555 (Place 16591 267) (Place 16596 267) false; SNode 1556 (Place 16598 267) (Place 16617 267) false; SNode 1557 (Place 16598 267) (Place 16615 267) false; SNode 1558 (Place 16805 270) (Place 16825 270) true; SNode 1559 (Place 16805 270) (Place 16806 270) false; SNode 1560 (Place 16809 270) (Place 16825 270) false; SNode 1561 (Place 16809 270) (Place 16823 270) false; SNode 1562 (Place 16827 271) (Place 16850 271) true; SNode 1563 (Place 16827 271) (Place 16828 271) false; SNode 1564 (Place 16831 271) (Place 16850 271) false; SNode 1565 (Place 16831 271) (Place 16845 271) false; SNode 1566 (Place 16846 271) (Place 16849 271) false; SNode 1567 (Place 16852 272) (Place 16896 272) true; SNode 1568 (Place 16852 272) (Place 16853 272) false; SNode 1569 (Place 16856 272) (Place 16896 272) false; SNode 1570 (Place 16856 272) (Place 16870 272) false; SNode 1571 (Place 16871 272) (Place 16890 272) false; SNode 1572 (Place 16871 272) (Place 16888 272) false; SNode 1573 (Place 16892 272) (Place 16895 272) false; SNode 1574 (Place 17085 273) (Place 17135 273) true; SNode 1575 (Place 17085 273) (Place 17086 273) false; SNode 1576 (Place 17089 273) (Place 17135 273) false; SNode 1577 (Place 17089 273) (Place 17103 273) false; SNode 1578 (Place 17104 273) (Place 17126 273) false; SNode 1579 (Place 17104 273) (Place 17105 273) false; SNode 1580 (Place 17107 273) (Place 17126 273) false; SNode 1581 (Place 17107 273) (Place 17124 273) false; SNode 1582 (Place 17128 273) (Place 17134 273) false; SNode 1583 (Place 17128 273) (Place 17129 273) false; SNode 1584 (Place 17131 273) (Place 17134 273) false; SNode 1585 (Place 17319 275) (Place 17340 275) true; SNode 1586 (Place 17319 275) (Place 17320 275) false; SNode 1587 (Place 17323 275) (Place 17340 275) false; SNode 1588 (Place 17323 275) (Place 17338 275) false; SNode 1589 (Place 17342 276) (Place 17366 276) true; SNode 1590 (Place 17342 276) (Place 17343 276) false; SNode 1591 (Place 17346 276) (Place 17366 276) false; SNode 1592 (Place 17346 276) (Place 17361 276) false; SNode 1593 (Place 17362 276) (Place 17365 276) false; SNode 1594 (Place 17368 277) (Place 17413 277) true; SNode 1595 (Place 17368 277) (Place 17369 277) false; SNode 1596 (Place 17372 277) (Place 17413 277) false; SNode 1597 (Place 17372 277) (Place 17387 277) false; SNode 1598 (Place 17388 277) (Place 17407 277) false; SNode 1599 (Place 17388 277) (Place 17405 277) false; SNode 1600 (Place 17409 277) (Place 17412 277) false; SNode 1601 (Place 17602 278) (Place 17653 278) true; SNode 1602 (Place 17602 278) (Place 17603 278) false; SNode 1603 (Place 17606 278) (Place 17653 278) false; SNode 1604 (Place 17606 278) (Place 17621 278) false; SNode 1605 (Place 17622 278) (Place 17644 278) false; SNode 1606 (Place 17622 278) (Place 17623 278) false; SNode 1607 (Place 17625 278) (Place 17644 278) false; SNode 1608 (Place 17625 278) (Place 17642 278) false; SNode 1609 (Place 17646 278) (Place 17652 278) false; SNode 1610 (Place 17646 278) (Place 17647 278) false; SNode 1611 (Place 17649 278) (Place 17652 278) false; SNode 1612 (Place 17837 280) (Place 18583 291) true; SNode 1613 (Place 17837 280) (Place 17838 280) false; SNode 1614 (Place 17841 280) (Place 18583 291) false; SNode 1615 (Place 17841 280) (Place 17862 280) false; SNode 1616 (Place 17843 280) (Place 17862 280) false; SNode 1617 (Place 17845 280) (Place 17862 280) false; SNode 1618 (Place 17847 280) (Place 17862 280) false; SNode 1619 (Place 17866 281) (Place 18100 285) false; SNode 1620 (Place 17871 282) (Place 17897 282) false; SNode 1621 (Place 17872 282) (Place 17875 282) false; SNode 1622 (Place 17877 282) (Place 17896 282) false; SNode 1623 (Place 17877 282) (Place 17894 282) false; SNode 1624 (Place 18083 283) (Place 18085 283) false; SNode 1625 (Place 18090 284) (Place 18095 284) false; SNode 1626 (Place 18091 284) (Place 18094 284) false; SNode 1627 (Place 18104 286) (Place 18579 290) false; SNode 1628 (Place 18109 287) (Place 18134 287) false; SNode 1629 (Place 18109 287) (Place 18110 287) false; SNode 1630 (Place 18132 287) (Place 18134 287) false; SNode 1631 (Place 18139 288) (Place 18186 288) false; SNode 1632 (Place 18139 288) (Place 18140 288) false; SNode 1633 (Place 18162 288) (Place 18186 288) false; SNode 1634 (Place 18163 288) (Place 18185 288) false; SNode 1635 (Place 18163 288) (Place 18164 288) false; SNode 1636 (Place 18166 288) (Place 18185 288) false; SNode 1637 (Place 18166 288) (Place 18183 288) false; SNode 1638 (Place 18372 289) (Place 18393 289) false; SNode 1639 (Place 18373 289) (Place 18392 289) false; SNode 1640 (Place 18373 289) (Place 18390 289) false; SNode 1641 (Place 18585 292) (Place 18639 292) true; SNode 1642 (Place 18585 292) (Place 18586 292) false; SNode 1643 (Place 18589 292) (Place 18639 292) false; SNode 1644 (Place 18589 292) (Place 18606 292) false; SNode 1645 (Place 18591 292) (Place 18606 292) false; SNode 1646 (Place 18607 292) (Place 18638 292) false; SNode 1647 (Place 18608 292) (Place 18611 292) false; SNode 1648 (Place 18613 292) (Place 18616 292) false; SNode 1649 (Place 18618 292) (Place 18637 292) false; SNode 1650 (Place 18618 292) (Place 18635 292) false; SNode 1651 (Place 18824 295) (Place 18862 295) true; SNode 1652 (Place 18829 295) (Place 18862 295) true; SNode 1653 (Place 18829 295) (Place 18843 295) false; SNode 1654 (Place 18844 295) (Place 18862 295) false; SNode 1655 (Place 18845 295) (Place 18846 295) false; SNode 1656 (Place 18847 295) (Place 18862 295) false; SNode 1657 (Place 18863 296) (Place 18898 296) true; SNode 1658 (Place 18868 296) (Place 18898 296) true; SNode 1659 (Place 18868 296) (Place 18883 296) false; SNode 1660 (Place 18884 296) (Place 18898 296) false; SNode 1661 (Place 18900 298) (Place 22439 343) true; SNode 1662 (Place 18905 298) (Place 18925 298) false; SNode 1663 (Place 18900 298) (Place 18927 298) false; SNode 1664 (Place 18925 298) (Place 18927 298) false; SNode 1665 (Place 18928 298) (Place 22439 343) true; SNode 1666 (Place 18931 299) (Place 18955 299) true; SNode 1667 (Place 18931 299) (Place 18932 299) false; SNode 1668 (Place 18935 299) (Place 18955 299) false; SNode 1669 (Place 18935 299) (Place 18953 299) false; SNode 1670 (Place 18936 299) (Place 18937 299) false; SNode 1671 (Place 18938 299) (Place 18953 299) false; SNode 1672 (Place 18957 300) (Place 18994 300) true; SNode 1673 (Place 18957 300) (Place 18958 300) false; SNode 1674 (Place 18961 300) (Place 18994 300) false; SNode 1675 (Place 18961 300) (Place 18979 300) false; SNode 1676 (Place 18962 300) (Place 18963 300) false; SNode 1677 (Place 18964 300) (Place 18979 300) false; SNode 1678 (Place 18980 300) (Place 18983 300) false; SNode 1679 (Place 18985 300) (Place 18988 300) false; SNode 1680 (Place 18990 300) (Place 18993 300) false; SNode 1681 (Place 18996 301) (Place 19049 301) true; SNode 1682 (Place 18996 301) (Place 18997 301) false; SNode 1683 (Place 19000 301) (Place 19049 301) false; SNode 1684 (Place 19000 301) (Place 19018 301) false; SNode 1685 (Place 19001 301) (Place 19002 301) false; SNode 1686 (Place 19003 301) (Place 19018 301) false; SNode 1687 (Place 19019 301) (Place 19022 301) false; SNode 1688 (Place 19024 301) (Place 19043 301) false; SNode 1689 (Place 19024 301) (Place 19041 301) false; SNode 1690 (Place 19045 301) (Place 19048 301) false; SNode 1691 (Place 19232 302) (Place 19689 308) true; SNode 1692 (Place 19232 302) (Place 19233 302) false; SNode 1693 (Place 19236 302) (Place 19689 308) false; SNode 1694 (Place 19236 302) (Place 19256 302) false; SNode 1695 (Place 19237 302) (Place 19240 302) false; SNode 1696 (Place 19241 302) (Place 19256 302) false; SNode 1697 (Place 19260 303) (Place 19263 303) false; SNode 1698 (Place 19267 304) (Place 19286 304) false; SNode 1699 (Place 19267 304) (Place 19284 304) false; SNode 1700 (Place 19471 305) (Place 19474 305) false; SNode 1701 (Place 19478 306) (Place 19481 306) false; SNode 1702 (Place 19485 307) (Place 19504 307) false; SNode 1703 (Place 19485 307) (Place 19502 307) false; SNode 1704 (Place 19692 310) (Place 19712 310) true; SNode 1705 (Place 19692 310) (Place 19712 310) true; SNode 1706 (Place 19698 310) (Place 19712 310) true; SNode 1707 (Place 19698 310) (Place 19703 310) false; SNode 1708 (Place 19706 310) (Place 19712 310) false; SNode 1709 (Place 19706 310) (Place 19708 310) false; SNode 1710 (Place 19711 310) (Place 19712 310) false; SNode 1711 (Place 19714 311) (Place 20417 318) true; SNode 1712 (Place 19714 311) (Place 19715 311) false; SNode 1713 (Place 19718 311) (Place 20417 318) false; SNode 1714 (Place 19718 311) (Place 19738 311) false; SNode 1715 (Place 19719 311) (Place 19722 311) false; SNode 1716 (Place 19723 311) (Place 19738 311) false; SNode 1717 (Place 19742 312) (Place 19752 312) false; SNode 1718 (Place 19742 312) (Place 19743 312) false; SNode 1719 (Place 19749 312) (Place 19752 312) false; SNode 1720 (Place 19756 313) (Place 19782 313) false; SNode 1721 (Place 19756 313) (Place 19757 313) false; SNode 1722 (Place 19763 313) (Place 19782 313) false; SNode 1723 (Place 19763 313) (Place 19780 313) false; SNode 1724 (Place 19967 314) (Place 19977 314) false; SNode 1725 (Place 19967 314) (Place 19968 314) false; SNode 1726 (Place 19974 314) (Place 19977 314) false; SNode 1727 (Place 19981 315) (Place 19991 315) false; SNode 1728 (Place 19981 315) (Place 19982 315) false; SNode 1729 (Place 19988 315) (Place 19991 315) false; SNode 1730 (Place 19995 316) (Place 20021 316) false; SNode 1731 (Place 19995 316) (Place 19998 316) false; SNode 1732 (Place 20002 316) (Place 20021 316) false; SNode 1733 (Place 20002 316) (Place 20019 316) false; SNode 1734 (Place 20206 317) (Place 20232 317) false; SNode 1735 (Place 20206 317) (Place 20211 317) false; SNode 1736 (Place 20213 317) (Place 20232 317) false; SNode 1737 (Place 20213 317) (Place 20230 317) false; SNode 1738 (Place 20420 320) (Place 20440 320) true; SNode 1739 (Place 20420 320) (Place 20421 320) false; SNode 1740 (Place 20424 320) (Place 20440 320) false; SNode 1741 (Place 20424 320) (Place 20438 320) false; SNode 1742 (Place 20442 321) (Place 20465 321) true; SNode 1743 (Place 20442 321) (Place 20443 321) false; SNode 1744 (Place 20446 321) (Place 20465 321) false; SNode 1745 (Place 20446 321) (Place 20460 321) false; SNode 1746 (Place 20461 321) (Place 20464 321) false; SNode 1747 (Place 20467 322) (Place 20511 322) true; SNode 1748 (Place 20467 322) (Place 20468 322) false; SNode 1749 (Place 20471 322) (Place 20511 322) false; SNode 1750 (Place 20471 322) (Place 20485 322) false; SNode 1751 (Place 20486 322) (Place 20505 322) false; SNode 1752 (Place 20486 322) (Place 20503 322) false; SNode 1753 (Place 20507 322) (Place 20510 322) false; SNode 1754 (Place 20700 323) (Place 20750 323) true; SNode 1755 (Place 20700 323) (Place 20701 323) false; SNode 1756 (Place 20704 323) (Place 20750 323) false; SNode 1757 (Place 20704 323) (Place 20718 323) false; SNode 1758 (Place 20719 323) (Place 20741 323) false; SNode 1759 (Place 20719 323) (Place 20720 323) false; SNode 1760 (Place 20722 323) (Place 20741 323) false; SNode 1761 (Place 20722 323) (Place 20739 323) false; SNode 1762 (Place 20743 323) (Place 20749 323) false; SNode 1763 (Place 20743 323) (Place 20744 323) false; SNode 1764 (Place 20746 323) (Place 20749 323) false; SNode 1765 (Place 20934 325) (Place 20955 325) true; SNode 1766 (Place 20934 325) (Place 20935 325) false; SNode 1767 (Place 20938 325) (Place 20955 325) false; SNode 1768 (Place 20938 325) (Place 20953 325) false; SNode 1769 (Place 20957 326) (Place 20981 326) true; SNode 1770 (Place 20957 326) (Place 20958 326) false; SNode 1771 (Place 20961 326) (Place 20981 326) false; SNode 1772 (Place 20961 326) (Place 20976 326) false; SNode 1773 (Place 20977 326) (Place 20980 326) false; SNode 1774 (Place 20983 327) (Place 21028 327) true; SNode 1775 (Place 20983 327) (Place 20984 327) false; SNode 1776 (Place 20987 327) (Place 21028 327) false; SNode 1777 (Place 20987 327) (Place 21002 327) false; SNode 1778 (Place 21003 327) (Place 21022 327) false; SNode 1779 (Place 21003 327) (Place 21020 327) false; SNode 1780 (Place 21024 327) (Place 21027 327) false; SNode 1781 (Place 21217 328) (Place 21268 328) true; SNode 1782 (Place 21217 328) (Place 21218 328) false; SNode 1783 (Place 21221 328) (Place 21268 328) false; SNode 1784 (Place 21221 328) (Place 21236 328) false; SNode 1785 (Place 21237 328) (Place 21259 328) false; SNode 1786 (Place 21237 328) (Place 21238 328) false; SNode 1787 (Place 21240 328) (Place 21259 328) false; SNode 1788 (Place 21240 328) (Place 21257 328) false; SNode 1789 (Place 21261 328) (Place 21267 328) false; SNode 1790 (Place 21261 328) (Place 21262 328) false; SNode 1791 (Place 21264 328) (Place 21267 328) false; SNode 1792 (Place 21452 330) (Place 22205 341) true; SNode 1793 (Place 21452 330) (Place 21453 330) false; SNode 1794 (Place 21456 330) (Place 22205 341) false; SNode 1795 (Place 21456 330) (Place 21484 330) false; SNode 1796 (Place 21457 330) (Place 21460 330) false; SNode 1797 (Place 21461 330) (Place 21484 330) false; SNode 1798 (Place 21462 330) (Place 21464 330) false; SNode 1799 (Place 21465 330) (Place 21484 330) false; SNode 1800 (Place 21466 330) (Place 21468 330) false; SNode 1801 (Place 21469 330) (Place 21484 330) false; SNode 1802 (Place 21488 331) (Place 21722 335) false; SNode 1803 (Place 21493 332) (Place 21519 332) false; SNode 1804 (Place 21494 332) (Place 21497 332) false; SNode 1805 (Place 21499 332) (Place 21518 332) false; SNode 1806 (Place 21499 332) (Place 21516 332) false; SNode 1807 (Place 21705 333) (Place 21707 333) false; SNode 1808 (Place 21712 334) (Place 21717 334) false; SNode 1809 (Place 21713 334) (Place 21716 334) false; SNode 1810 (Place 21726 336) (Place 22201 340) false; SNode 1811 (Place 21731 337) (Place 21756 337) false; SNode 1812 (Place 21731 337) (Place 21732 337) false; SNode 1813 (Place 21754 337) (Place 21756 337) false; SNode 1814 (Place 21761 338) (Place 21808 338) false; SNode 1815 (Place 21761 338) (Place 21762 338) false; SNode 1816 (Place 21784 338) (Place 21808 338) false; SNode 1817 (Place 21785 338) (Place 21807 338) false; SNode 1818 (Place 21785 338) (Place 21786 338) false; SNode 1819 (Place 21788 338) (Place 21807 338) false; SNode 1820 (Place 21788 338) (Place 21805 338) false; SNode 1821 (Place 21994 339) (Place 22015 339) false; SNode 1822 (Place 21995 339) (Place 22014 339) false; SNode 1823 (Place 21995 339) (Place 22012 339) false; SNode 1824 (Place 22207 342) (Place 22256 342) true; SNode 1825 (Place 22207 342) (Place 22208 342) false; SNode 1826 (Place 22211 342) (Place 22256 342) false; SNode 1827 (Place 22211 342) (Place 22228 342) false; SNode 1828 (Place 22213 342) (Place 22228 342) false; SNode 1829 (Place 22229 342) (Place 22255 342) false; SNode 1830 (Place 22230 342) (Place 22233 342) false; SNode 1831 (Place 22235 342) (Place 22254 342) false; SNode 1832 (Place 22235 342) (Place 22252 342) false; SNode 1833 (Place 22441 345) (Place 22482 345) true; SNode 1834 (Place 22446 345) (Place 22482 345) true; SNode 1835 (Place 22446 345) (Place 22458 345) false; SNode 1836 (Place 22459 345) (Place 22482 345) false; SNode 1837 (Place 22463 345) (Place 22466 345) false; SNode 1838 (Place 22467 345) (Place 22482 345) false; SNode 1839 (Place 22483 346) (Place 22516 346) true; SNode 1840 (Place 22488 346) (Place 22516 346) true; SNode 1841 (Place 22488 346) (Place 22501 346) false; SNode 1842 (Place 22502 346) (Place 22516 346) false; SNode 1843 (Place 22518 348) (Place 26720 406) true; SNode 1844 (Place 22523 348) (Place 22541 348) false; SNode 1845 (Place 22518 348) (Place 22543 348) false; SNode 1846 (Place 22541 348) (Place 22543 348) false; SNode 1847 (Place 22544 348) (Place 26720 406) true; SNode 1848 (Place 22547 349) (Place 22579 349) true; SNode 1849 (Place 22547 349) (Place 22548 349) false; SNode 1850 (Place 22551 349) (Place 22579 349) false; SNode 1851 (Place 22551 349) (Place 22577 349) false; SNode 1852 (Place 22555 349) (Place 22561 349) false; SNode 1853 (Place 22562 349) (Place 22577 349) false; SNode 1854 (Place 22581 350) (Place 22631 350) true; SNode 1855 (Place 22581 350) (Place 22582 350) false; SNode 1856 (Place 22585 350) (Place 22631 350) false; SNode 1857 (Place 22585 350) (Place 22611 350) false; SNode 1858 (Place 22589 350) (Place 22595 350) false; SNode 1859 (Place 22596 350) (Place 22611 350) false; SNode 1860 (Place 22612 350) (Place 22620 350) false; SNode 1861 (Place 22612 350) (Place 22615 350) false; SNode 1862 (Place 22617 350) (Place 22620 350) false; SNode 1863 (Place 22622 350) (Place 22630 350) false; SNode 1864 (Place 22622 350) (Place 22625 350) false; SNode 1865 (Place 22627 350) (Place 22630 350) false; SNode 1866 (Place 22633 351) (Place 22709 351) true; SNode 1867 (Place 22633 351) (Place 22634 351) false; SNode 1868 (Place 22637 351) (Place 22709 351) false; SNode 1869 (Place 22637 351) (Place 22663 351) false; SNode 1870 (Place 22641 351) (Place 22647 351) false; SNode 1871 (Place 22648 351) (Place 22663 351) false; SNode 1872 (Place 22664 351) (Place 22672 351) false; SNode 1873 (Place 22664 351) (Place 22667 351) false; SNode 1874 (Place 22669 351) (Place 22672 351) false; SNode 1875 (Place 22674 351) (Place 22698 351) false; SNode 1876 (Place 22674 351) (Place 22677 351) false; SNode 1877 (Place 22679 351) (Place 22698 351) false; SNode 1878 (Place 22679 351) (Place 22696 351) false; SNode 1879 (Place 22700 351) (Place 22708 351) false; SNode 1880 (Place 22700 351) (Place 22703 351) false; SNode 1881 (Place 22705 351) (Place 22708 351) false; SNode 1882 (Place 22893 353) (Place 22913 353) true; SNode 1883 (Place 22893 353) (Place 22913 353) true; SNode 1884 (Place 22899 353) (Place 22913 353) true; SNode 1885 (Place 22899 353) (Place 22904 353) false; SNode 1886 (Place 22907 353) (Place 22913 353) false; SNode 1887 (Place 22907 353) (Place 22909 353) false; SNode 1888 (Place 22912 353) (Place 22913 353) false; SNode 1889 (Place 22915 354) (Place 23621 361) true; SNode 1890 (Place 22915 354) (Place 22916 354) false; SNode 1891 (Place 22919 354) (Place 23621 361) false; SNode 1892 (Place 22919 354) (Place 22942 354) false; SNode 1893 (Place 22923 354) (Place 22926 354) false; SNode 1894 (Place 22927 354) (Place 22942 354) false; SNode 1895 (Place 22946 355) (Place 22956 355) false; SNode 1896 (Place 22946 355) (Place 22947 355) false; SNode 1897 (Place 22953 355) (Place 22956 355) false; SNode 1898 (Place 22960 356) (Place 22986 356) false; SNode 1899 (Place 22960 356) (Place 22961 356) false; SNode 1900 (Place 22967 356) (Place 22986 356) false; SNode 1901 (Place 22967 356) (Place 22984 356) false; SNode 1902 (Place 23171 357) (Place 23181 357) false; SNode 1903 (Place 23171 357) (Place 23172 357) false; SNode 1904 (Place 23178 357) (Place 23181 357) false; SNode 1905 (Place 23185 358) (Place 23195 358) false; SNode 1906 (Place 23185 358) (Place 23186 358) false; SNode 1907 (Place 23192 358) (Place 23195 358) false; SNode 1908 (Place 23199 359) (Place 23225 359) false; SNode 1909 (Place 23199 359) (Place 23202 359) false; SNode 1910 (Place 23206 359) (Place 23225 359) false; SNode 1911 (Place 23206 359) (Place 23223 359) false; SNode 1912 (Place 23410 360) (Place 23436 360) false; SNode 1913 (Place 23410 360) (Place 23415 360) false; SNode 1914 (Place 23417 360) (Place 23436 360) false; SNode 1915 (Place 23417 360) (Place 23434 360) false; SNode 1916 (Place 23624 363) (Place 23642 363) true; SNode 1917 (Place 23624 363) (Place 23625 363) false; SNode 1918 (Place 23628 363) (Place 23642 363) false; SNode 1919 (Place 23628 363) (Place 23640 363) false; SNode 1920 (Place 23644 364) (Place 23668 364) true; SNode 1921 (Place 23644 364) (Place 23645 364) false; SNode 1922 (Place 23648 364) (Place 23668 364) false; SNode 1923 (Place 23648 364) (Place 23660 364) false; SNode 1924 (Place 23661 364) (Place 23667 364) false; SNode 1925 (Place 23661 364) (Place 23662 364) false; SNode 1926 (Place 23664 364) (Place 23667 364) false; SNode 1927 (Place 23670 365) (Place 23718 365) true; SNode 1928 (Place 23670 365) (Place 23671 365) false; SNode 1929 (Place 23674 365) (Place 23718 365) false; SNode 1930 (Place 23674 365) (Place 23686 365) false; SNode 1931 (Place 23687 365) (Place 23709 365) false; SNode 1932 (Place 23687 365) (Place 23688 365) false; SNode 1933 (Place 23690 365) (Place 23709 365) false; SNode 1934 (Place 23690 365) (Place 23707 365) false; SNode 1935 (Place 23711 365) (Place 23717 365) false; SNode 1936 (Place 23711 365) (Place 23712 365) false; SNode 1937 (Place 23714 365) (Place 23717 365) false; SNode 1938 (Place 23902 367) (Place 23921 367) true; SNode 1939 (Place 23902 367) (Place 23903 367) false; SNode 1940 (Place 23906 367) (Place 23921 367) false; SNode 1941 (Place 23906 367) (Place 23919 367) false; SNode 1942 (Place 23923 368) (Place 23948 368) true; SNode 1943 (Place 23923 368) (Place 23924 368) false; SNode 1944 (Place 23927 368) (Place 23948 368) false; SNode 1945 (Place 23927 368) (Place 23940 368) false; SNode 1946 (Place 23941 368) (Place 23947 368) false; SNode 1947 (Place 23941 368) (Place 23942 368) false; SNode 1948 (Place 23944 368) (Place 23947 368) false; SNode 1949 (Place 23950 369) (Place 23999 369) true; SNode 1950 (Place 23950 369) (Place 23951 369) false; SNode 1951 (Place 23954 369) (Place 23999 369) false; SNode 1952 (Place 23954 369) (Place 23967 369) false; SNode 1953 (Place 23968 369) (Place 23990 369) false; SNode 1954 (Place 23968 369) (Place 23969 369) false; SNode 1955 (Place 23971 369) (Place 23990 369) false; SNode 1956 (Place 23971 369) (Place 23988 369) false; SNode 1957 (Place 23992 369) (Place 23998 369) false; SNode 1958 (Place 23992 369) (Place 23993 369) false; SNode 1959 (Place 23995 369) (Place 23998 369) false; SNode 1960 (Place 24183 371) (Place 24732 381) true; SNode 1961 (Place 24183 371) (Place 24184 371) false; SNode 1962 (Place 24187 371) (Place 24732 381) false; SNode 1963 (Place 24187 371) (Place 24229 371) false; SNode 1964 (Place 24191 371) (Place 24197 371) false; SNode 1965 (Place 24198 371) (Place 24229 371) false; SNode 1966 (Place 24202 371) (Place 24205 371) false; SNode 1967 (Place 24206 371) (Place 24229 371) false; SNode 1968 (Place 24210 371) (Place 24213 371) false; SNode 1969 (Place 24214 371) (Place 24229 371) false; SNode 1970 (Place 24233 372) (Place 24491 376) false; SNode 1971 (Place 24233 372) (Place 24236 372) false; SNode 1972 (Place 24238 372) (Place 24491 376) false; SNode 1973 (Place 24243 373) (Place 24279 373) false; SNode 1974 (Place 24243 373) (Place 24244 373) false; SNode 1975 (Place 24246 373) (Place 24279 373) false; SNode 1976 (Place 24247 373) (Place 24253 373) false; SNode 1977 (Place 24247 373) (Place 24248 373) false; SNode 1978 (Place 24250 373) (Place 24253 373) false; SNode 1979 (Place 24255 373) (Place 24278 373) false; SNode 1980 (Place 24255 373) (Place 24257 373) false; SNode 1981 (Place 24259 373) (Place 24278 373) false; SNode 1982 (Place 24259 373) (Place 24276 373) false; SNode 1983 (Place 24465 374) (Place 24470 374) false; SNode 1984 (Place 24465 374) (Place 24466 374) false; SNode 1985 (Place 24468 374) (Place 24470 374) false; SNode 1986 (Place 24475 375) (Place 24486 375) false; SNode 1987 (Place 24475 375) (Place 24476 375) false; SNode 1988 (Place 24478 375) (Place 24486 375) false; SNode 1989 (Place 24479 375) (Place 24485 375) false; SNode 1990 (Place 24479 375) (Place 24480 375) false; SNode 1991 (Place 24482 375) (Place 24485 375) false; SNode 1992 (Place 24495 377) (Place 24728 380) false; SNode 1993 (Place 24495 377) (Place 24498 377) false; SNode 1994 (Place 24500 377) (Place 24728 380) false; SNode 1995 (Place 24505 378) (Place 24510 378) false; SNode 1996 (Place 24505 378) (Place 24506 378) false; SNode 1997 (Place 24508 378) (Place 24510 378) false; SNode 1998 (Place 24515 379) (Place 24542 379) false; SNode 1999 (Place 24515 379) (Place 24516 379) false; SNode 2000 (Place 24518 379) (Place 24542 379) false; SNode 2001 (Place 24519 379) (Place 24541 379) false; SNode 2002 (Place 24519 379) (Place 24520 379) false; SNode 2003 (Place 24522 379) (Place 24541 379) false; SNode 2004 (Place 24522 379) (Place 24539 379) false; SNode 2005 (Place 24734 382) (Place 24805 382) true; SNode 2006 (Place 24734 382) (Place 24735 382) false; SNode 2007 (Place 24738 382) (Place 24805 382) false; SNode 2008 (Place 24738 382) (Place 24762 382) false; SNode 2009 (Place 24742 382) (Place 24748 382) false; SNode 2010 (Place 24749 382) (Place 24762 382) false; SNode 2011 (Place 24763 382) (Place 24804 382) false; SNode 2012 (Place 24763 382) (Place 24770 382) false; SNode 2013 (Place 24772 382) (Place 24804 382) false; SNode 2014 (Place 24773 382) (Place 24779 382) false; SNode 2015 (Place 24773 382) (Place 24774 382) false; SNode 2016 (Place 24776 382) (Place 24779 382) false; SNode 2017 (Place 24781 382) (Place 24803 382) false; SNode 2018 (Place 24781 382) (Place 24782 382) false; SNode 2019 (Place 24784 382) (Place 24803 382) false; SNode 2020 (Place 24784 382) (Place 24801 382) false; SNode 2021 (Place 24989 384) (Place 25018 384) true; SNode 2022 (Place 24989 384) (Place 24990 384) false; SNode 2023 (Place 24993 384) (Place 25018 384) false; SNode 2024 (Place 24993 384) (Place 25016 384) false; SNode 2025 (Place 24997 384) (Place 25012 384) false; SNode 2026 (Place 25013 384) (Place 25016 384) false; SNode 2027 (Place 25020 385) (Place 25258 387) true; SNode 2028 (Place 25020 385) (Place 25021 385) false; SNode 2029 (Place 25024 385) (Place 25258 387) false; SNode 2030 (Place 25024 385) (Place 25047 385) false; SNode 2031 (Place 25028 385) (Place 25043 385) false; SNode 2032 (Place 25044 385) (Place 25047 385) false; SNode 2033 (Place 25051 386) (Place 25073 386) false; SNode 2034 (Place 25051 386) (Place 25070 386) false; SNode 2035 (Place 25051 386) (Place 25068 386) false; SNode 2036 (Place 25072 386) (Place 25073 386) false; SNode 2037 (Place 25260 388) (Place 25551 392) true; SNode 2038 (Place 25260 388) (Place 25261 388) false; SNode 2039 (Place 25264 388) (Place 25551 392) false; SNode 2040 (Place 25264 388) (Place 25287 388) false; SNode 2041 (Place 25268 388) (Place 25283 388) false; SNode 2042 (Place 25284 388) (Place 25287 388) false; SNode 2043 (Place 25291 389) (Place 25314 389) false; SNode 2044 (Place 25291 389) (Place 25294 389) false; SNode 2045 (Place 25312 389) (Place 25314 389) false; SNode 2046 (Place 25318 390) (Place 25340 390) false; SNode 2047 (Place 25318 390) (Place 25337 390) false; SNode 2048 (Place 25318 390) (Place 25335 390) false; SNode 2049 (Place 25339 390) (Place 25340 390) false; SNode 2050 (Place 25525 391) (Place 25547 391) false; SNode 2051 (Place 25525 391) (Place 25528 391) false; SNode 2052 (Place 25546 391) (Place 25547 391) false; SNode 2053 (Place 25554 394) (Place 26459 401) true; SNode 2054 (Place 25554 394) (Place 25555 394) false; SNode 2055 (Place 25558 394) (Place 26459 401) false; SNode 2056 (Place 25558 394) (Place 25593 394) false; SNode 2057 (Place 25562 394) (Place 25577 394) false; SNode 2058 (Place 25578 394) (Place 25593 394) false; SNode 2059 (Place 25597 395) (Place 25637 395) false; SNode 2060 (Place 25597 395) (Place 25600 395) false; SNode 2061 (Place 25618 395) (Place 25637 395) false; SNode 2062 (Place 25618 395) (Place 25635 395) false; SNode 2063 (Place 25822 396) (Place 25846 396) false; SNode 2064 (Place 25822 396) (Place 25841 396) false; SNode 2065 (Place 25822 396) (Place 25839 396) false; SNode 2066 (Place 25843 396) (Place 25846 396) false; SNode 2067 (Place 26047 397) (Place 26087 397) false; SNode 2068 (Place 26047 397) (Place 26066 397) false; SNode 2069 (Place 26047 397) (Place 26064 397) false; SNode 2070 (Place 26068 397) (Place 26087 397) false; SNode 2071 (Place 26068 397) (Place 26085 397) false; SNode 2072 (Place 26462 403) (Place 26718 405) true; SNode 2073 (Place 26462 403) (Place 26463 403) false; SNode 2074 (Place 26466 403) (Place 26718 405) false; SNode 2075 (Place 26466 403) (Place 26494 403) false; SNode 2076 (Place 26470 403) (Place 26476 403) false; SNode 2077 (Place 26477 403) (Place 26494 403) false; SNode 2078 (Place 26479 403) (Place 26494 403) false; SNode 2079 (Place 26498 404) (Place 26533 404) false; SNode 2080 (Place 26498 404) (Place 26505 404) false; SNode 2081 (Place 26507 404) (Place 26533 404) false; SNode 2082 (Place 26508 404) (Place 26527 404) false; SNode 2083 (Place 26508 404) (Place 26525 404) false; SNode 2084 (Place 26529 404) (Place 26532 404) false; SNode 2085 (Place 26722 408) (Place 29689 476) true; SNode 2086 (Place 26727 408) (Place 26742 408) false; SNode 2087 (Place 26722 408) (Place 26971 416) false; SNode 2088 (Place 26742 408) (Place 26971 416) false; SNode 2089 (Place 26745 409) (Place 26770 409) true; SNode 2090 (Place 26745 409) (Place 26750 409) false; SNode 2091 (Place 26751 409) (Place 26770 409) false; SNode 2092 (Place 26753 409) (Place 26770 409) false; SNode 2093 (Place 26773 410) (Place 26806 410) true; SNode 2094 (Place 26773 410) (Place 26775 410) false; SNode 2095 (Place 26776 410) (Place 26806 410) false; SNode 2096 (Place 26780 410) (Place 26797 410) false; SNode 2097 (Place 26798 410) (Place 26806 410) false; SNode 2098 (Place 26804 410) (Place 26806 410) false; SNode 2099 (Place 26809 411) (Place 26840 411) true; SNode 2100 (Place 26809 411) (Place 26811 411) false; SNode 2101 (Place 26812 411) (Place 26840 411) false; SNode 2102 (Place 26816 411) (Place 26822 411) false; SNode 2103 (Place 26823 411) (Place 26840 411) false; SNode 2104 (Place 26843 412) (Place 26885 412) true; SNode 2105 (Place 26843 412) (Place 26845 412) false; SNode 2106 (Place 26846 412) (Place 26885 412) false; SNode 2107 (Place 26850 412) (Place 26867 412) false; SNode 2108 (Place 26868 412) (Place 26885 412) false; SNode 2109 (Place 26888 413) (Place 26914 413) true; SNode 2110 (Place 26888 413) (Place 26893 413) false; SNode 2111 (Place 26894 413) (Place 26914 413) false; SNode 2112 (Place 26895 413) (Place 26896 413) false; SNode 2113 (Place 26897 413) (Place 26914 413) false; SNode 2114 (Place 26917 414) (Place 26941 414) true; SNode 2115 (Place 26917 414) (Place 26919 414) false; SNode 2116 (Place 26920 414) (Place 26941 414) false; SNode 2117 (Place 26921 414) (Place 26941 414) false; SNode 2118 (Place 26922 414) (Place 26923 414) false; SNode 2119 (Place 26924 414) (Place 26941 414) false; SNode 2120 (Place 26944 415) (Place 26968 415) true; SNode 2121 (Place 26944 415) (Place 26945 415) false; SNode 2122 (Place 26946 415) (Place 26968 415) false; SNode 2123 (Place 26951 415) (Place 26968 415) false; SNode 2124 (Place 26972 416) (Place 29689 476) true; SNode 2125 (Place 26975 417) (Place 26997 417) true; SNode 2126 (Place 26975 417) (Place 26997 417) true; SNode 2127 (Place 26979 417) (Place 26997 417) true; SNode 2128 (Place 26979 417) (Place 26981 417) false; SNode 2129 (Place 26982 417) (Place 26997 417) false; SNode 2130 (Place 26999 418) (Place 27217 420) true; SNode 2131 (Place 27003 418) (Place 27004 418) false; SNode 2132 (Place 27006 418) (Place 27008 418) false; SNode 2133 (Place 27017 418) (Place 27022 418) false; SNode 2134 (Place 27023 418) (Place 27217 420) true; SNode 2135 (Place 27208 419) (Place 27214 419) true; SNode 2136 (Place 27208 419) (Place 27209 419) false; SNode 2137 (Place 27212 419) (Place 27214 419) false; SNode 2138 (Place 27220 422) (Place 27253 424) true; SNode 2139 (Place 27224 422) (Place 27225 422) false; SNode 2140 (Place 27235 422) (Place 27240 422) false; SNode 2141 (Place 27241 422) (Place 27253 424) true; SNode 2142 (Place 27245 423) (Place 27250 423) true; SNode 2143 (Place 27245 423) (Place 27246 423) false; SNode 2144 (Place 27249 423) (Place 27250 423) false; SNode 2145 (Place 27256 426) (Place 27474 428) true; SNode 2146 (Place 27260 426) (Place 27261 426) false; SNode 2147 (Place 27263 426) (Place 27265 426) false; SNode 2148 (Place 27274 426) (Place 27279 426) false; SNode 2149 (Place 27280 426) (Place 27474 428) true; SNode 2150 (Place 27465 427) (Place 27471 427) true; SNode 2151 (Place 27465 427) (Place 27466 427) false; SNode 2152 (Place 27469 427) (Place 27471 427) false; SNode 2153 (Place 27477 430) (Place 27510 432) true; SNode 2154 (Place 27481 430) (Place 27482 430) false; SNode 2155 (Place 27492 430) (Place 27497 430) false; SNode 2156 (Place 27498 430) (Place 27510 432) true; SNode 2157 (Place 27502 431) (Place 27507 431) true; SNode 2158 (Place 27502 431) (Place 27503 431) false; SNode 2159 (Place 27506 431) (Place 27507 431) false; SNode 2160 (Place 27513 434) (Place 27728 436) true; SNode 2161 (Place 27517 434) (Place 27518 434) false; SNode 2162 (Place 27520 434) (Place 27522 434) false; SNode 2163 (Place 27531 434) (Place 27533 434) false; SNode 2164 (Place 27534 434) (Place 27728 436) true; SNode 2165 (Place 27719 435) (Place 27725 435) true; SNode 2166 (Place 27719 435) (Place 27720 435) false; SNode 2167 (Place 27723 435) (Place 27725 435) false; SNode 2168 (Place 27731 438) (Place 27761 440) true; SNode 2169 (Place 27735 438) (Place 27736 438) false; SNode 2170 (Place 27746 438) (Place 27748 438) false; SNode 2171 (Place 27749 438) (Place 27761 440) true; SNode 2172 (Place 27753 439) (Place 27758 439) true; SNode 2173 (Place 27753 439) (Place 27754 439) false; SNode 2174 (Place 27757 439) (Place 27758 439) false; SNode 2175 (Place 27764 442) (Place 27979 444) true; SNode 2176 (Place 27768 442) (Place 27770 442) false; SNode 2177 (Place 27772 442) (Place 27773 442) false; SNode 2178 (Place 27782 442) (Place 27784 442) false; SNode 2179 (Place 27785 442) (Place 27979 444) true; SNode 2180 (Place 27970 443) (Place 27976 443) true; SNode 2181 (Place 27970 443) (Place 27971 443) false; SNode 2182 (Place 27974 443) (Place 27976 443) false; SNode 2183 (Place 27982 446) (Place 28194 448) true; SNode 2184 (Place 27986 446) (Place 27988 446) false; SNode 2185 (Place 27997 446) (Place 27999 446) false; SNode 2186 (Place 28000 446) (Place 28194 448) true; SNode 2187 (Place 28185 447) (Place 28191 447) true; SNode 2188 (Place 28185 447) (Place 28186 447) false; SNode 2189 (Place 28189 447) (Place 28191 447) false; SNode 2190 (Place 28197 450) (Place 28412 452) true; SNode 2191 (Place 28201 450) (Place 28202 450) false; SNode 2192 (Place 28204 450) (Place 28206 450) false; SNode 2193 (Place 28215 450) (Place 28217 450) false; SNode 2194 (Place 28218 450) (Place 28412 452) true; SNode 2195 (Place 28403 451) (Place 28409 451) true; SNode 2196 (Place 28403 451) (Place 28404 451) false; SNode 2197 (Place 28407 451) (Place 28409 451) false; SNode 2198 (Place 28415 454) (Place 28438 454) true; SNode 2199 (Place 28415 454) (Place 28438 454) true; SNode 2200 (Place 28419 454) (Place 28438 454) true; SNode 2201 (Place 28419 454) (Place 28422 454) false; SNode 2202 (Place 28423 454) (Place 28438 454) false; SNode 2203 (Place 28440 455) (Place 28852 460) true; SNode 2204 (Place 28444 455) (Place 28446 455) false; SNode 2205 (Place 28448 455) (Place 28451 455) false; SNode 2206 (Place 28460 455) (Place 28462 455) false; SNode 2207 (Place 28463 455) (Place 28852 460) true; SNode 2208 (Place 28835 459) (Place 28849 459) true; SNode 2209 (Place 28835 459) (Place 28836 459) false; SNode 2210 (Place 28838 459) (Place 28839 459) false; SNode 2211 (Place 28842 459) (Place 28844 459) false; SNode 2212 (Place 28846 459) (Place 28849 459) false; SNode 2213 (Place 28855 462) (Place 29258 467) true; SNode 2214 (Place 28859 462) (Place 28861 462) false; SNode 2215 (Place 28863 462) (Place 28865 462) false; SNode 2216 (Place 28874 462) (Place 28876 462) false; SNode 2217 (Place 28877 462) (Place 29258 467) true; SNode 2218 (Place 29249 466) (Place 29255 466) true; SNode 2219 (Place 29249 466) (Place 29250 466) false; SNode 2220 (Place 29253 466) (Place 29255 466) false; SNode 2221 (Place 29261 469) (Place 29473 471) true; SNode 2222 (Place 29265 469) (Place 29267 469) false; SNode 2223 (Place 29276 469) (Place 29278 469) false; SNode 2224 (Place 29279 469) (Place 29473 471) true; SNode 2225 (Place 29464 470) (Place 29470 470) true; SNode 2226 (Place 29464 470) (Place 29465 470) false; SNode 2227 (Place 29468 470) (Place 29470 470) false; SNode 2228 (Place 29476 473) (Place 29687 475) true; SNode 2229 (Place 29480 473) (Place 29482 473) false; SNode 2230 (Place 29491 473) (Place 29492 473) false; SNode 2231 (Place 29493 473) (Place 29687 475) true; SNode 2232 (Place 29678 474) (Place 29684 474) true; SNode 2233 (Place 29678 474) (Place 29679 474) false; SNode 2234 (Place 29682 474) (Place 29684 474) false; SNode 2235 (Place 29691 478) (Place 30116 486) true; SNode 2236 (Place 29699 479) (Place 29750 479) true; SNode 2237 (Place 29699 479) (Place 29721 479) false; SNode 2238 (Place 29731 479) (Place 29750 479) false; SNode 2239 (Place 29733 479) (Place 29750 479) false; SNode 2240 (Place 29752 480) (Place 29814 480) true; SNode 2241 (Place 29752 480) (Place 29773 480) false; SNode 2242 (Place 29784 480) (Place 29814 480) false; SNode 2243 (Place 29788 480) (Place 29805 480) false; SNode 2244 (Place 29806 480) (Place 29814 480) false; SNode 2245 (Place 29812 480) (Place 29814 480) false; SNode 2246 (Place 29816 481) (Place 29876 481) true; SNode 2247 (Place 29816 481) (Place 29837 481) false; SNode 2248 (Place 29848 481) (Place 29876 481) false; SNode 2249 (Place 29852 481) (Place 29858 481) false; SNode 2250 (Place 29859 481) (Place 29876 481) false; SNode 2251 (Place 29878 482) (Place 29949 482) true; SNode 2252 (Place 29878 482) (Place 29899 482) false; SNode 2253 (Place 29910 482) (Place 29949 482) false; SNode 2254 (Place 29914 482) (Place 29931 482) false; SNode 2255 (Place 29932 482) (Place 29949 482) false; SNode 2256 (Place 29951 483) (Place 30003 483) true; SNode 2257 (Place 29951 483) (Place 29973 483) false; SNode 2258 (Place 29983 483) (Place 30003 483) false; SNode 2259 (Place 29984 483) (Place 29985 483) false; SNode 2260 (Place 29986 483) (Place 30003 483) false; SNode 2261 (Place 30005 484) (Place 30058 484) true; SNode 2262 (Place 30005 484) (Place 30036 484) false; SNode 2263 (Place 30037 484) (Place 30058 484) false; SNode 2264 (Place 30038 484) (Place 30058 484) false; SNode 2265 (Place 30039 484) (Place 30040 484) false; SNode 2266 (Place 30041 484) (Place 30058 484) false; SNode 2267 (Place 30060 485) (Place 30114 485) true; SNode 2268 (Place 30060 485) (Place 30081 485) false; SNode 2269 (Place 30092 485) (Place 30114 485) false; SNode 2270 (Place 30097 485) (Place 30114 485) false; SNode 2271 (Place 30118 488) (Place 33353 565) true; SNode 2272 (Place 30123 488) (Place 30143 488) false; SNode 2273 (Place 30118 488) (Place 30382 497) false; SNode 2274 (Place 30143 488) (Place 30382 497) false; SNode 2275 (Place 30146 489) (Place 30174 489) true; SNode 2276 (Place 30146 489) (Place 30151 489) false; SNode 2277 (Place 30152 489) (Place 30174 489) false; SNode 2278 (Place 30177 490) (Place 30201 490) true; SNode 2279 (Place 30177 490) (Place 30179 490) false; SNode 2280 (Place 30180 490) (Place 30201 490) false; SNode 2281 (Place 30204 491) (Place 30228 491) true; SNode 2282 (Place 30204 491) (Place 30206 491) false; SNode 2283 (Place 30207 491) (Place 30228 491) false; SNode 2284 (Place 30231 492) (Place 30255 492) true; SNode 2285 (Place 30231 492) (Place 30233 492) false; SNode 2286 (Place 30234 492) (Place 30255 492) false; SNode 2287 (Place 30258 493) (Place 30286 493) true; SNode 2288 (Place 30258 493) (Place 30263 493) false; SNode 2289 (Place 30264 493) (Place 30286 493) false; SNode 2290 (Place 30289 494) (Place 30323 494) true; SNode 2291 (Place 30289 494) (Place 30291 494) false; SNode 2292 (Place 30292 494) (Place 30323 494) false; SNode 2293 (Place 30326 495) (Place 30353 495) true; SNode 2294 (Place 30326 495) (Place 30329 495) false; SNode 2295 (Place 30330 495) (Place 30353 495) false; SNode 2296 (Place 30331 495) (Place 30353 495) false; SNode 2297 (Place 30356 496) (Place 30379 496) true; SNode 2298 (Place 30356 496) (Place 30357 496) false; SNode 2299 (Place 30358 496) (Place 30379 496) false; SNode 2300 (Place 30383 497) (Place 33353 565) true; SNode 2301 (Place 30386 498) (Place 30408 498) true; SNode 2302 (Place 30386 498) (Place 30408 498) true; SNode 2303 (Place 30390 498) (Place 30408 498) true; SNode 2304 (Place 30390 498) (Place 30392 498) false; SNode 2305 (Place 30393 498) (Place 30408 498) false; SNode 2306 (Place 30410 499) (Place 30628 501) true; SNode 2307 (Place 30414 499) (Place 30415 499) false; SNode 2308 (Place 30417 499) (Place 30419 499) false; SNode 2309 (Place 30428 499) (Place 30433 499) false; SNode 2310 (Place 30434 499) (Place 30628 501) true; SNode 2311 (Place 30619 500) (Place 30625 500) true; SNode 2312 (Place 30619 500) (Place 30620 500) false; SNode 2313 (Place 30623 500) (Place 30625 500) false; SNode 2314 (Place 30631 503) (Place 30664 505) true; SNode 2315 (Place 30635 503) (Place 30636 503) false; SNode 2316 (Place 30646 503) (Place 30651 503) false; SNode 2317 (Place 30652 503) (Place 30664 505) true; SNode 2318 (Place 30656 504) (Place 30661 504) true; SNode 2319 (Place 30656 504) (Place 30657 504) false; SNode 2320 (Place 30660 504) (Place 30661 504) false; SNode 2321 (Place 30667 507) (Place 30885 509) true; SNode 2322 (Place 30671 507) (Place 30672 507) false; SNode 2323 (Place 30674 507) (Place 30676 507) false; SNode 2324 (Place 30685 507) (Place 30690 507) false; SNode 2325 (Place 30691 507) (Place 30885 509) true; SNode 2326 (Place 30876 508) (Place 30882 508) true; SNode 2327 (Place 30876 508) (Place 30877 508) false; SNode 2328 (Place 30880 508) (Place 30882 508) false; SNode 2329 (Place 30888 511) (Place 30921 513) true; SNode 2330 (Place 30892 511) (Place 30893 511) false; SNode 2331 (Place 30903 511) (Place 30908 511) false; SNode 2332 (Place 30909 511) (Place 30921 513) true; SNode 2333 (Place 30913 512) (Place 30918 512) true; SNode 2334 (Place 30913 512) (Place 30914 512) false; SNode 2335 (Place 30917 512) (Place 30918 512) false; SNode 2336 (Place 30924 515) (Place 31139 517) true; SNode 2337 (Place 30928 515) (Place 30929 515) false; SNode 2338 (Place 30931 515) (Place 30933 515) false; SNode 2339 (Place 30942 515) (Place 30944 515) false; SNode 2340 (Place 30945 515) (Place 31139 517) true; SNode 2341 (Place 31130 516) (Place 31136 516) true; SNode 2342 (Place 31130 516) (Place 31131 516) false; SNode 2343 (Place 31134 516) (Place 31136 516) false; SNode 2344 (Place 31142 519) (Place 31172 521) true; SNode 2345 (Place 31146 519) (Place 31147 519) false; SNode 2346 (Place 31157 519) (Place 31159 519) false; SNode 2347 (Place 31160 519) (Place 31172 521) true; SNode 2348 (Place 31164 520) (Place 31169 520) true; SNode 2349 (Place 31164 520) (Place 31165 520) false; SNode 2350 (Place 31168 520) (Place 31169 520) false; SNode 2351 (Place 31175 523) (Place 31391 525) true; SNode 2352 (Place 31179 523) (Place 31180 523) false; SNode 2353 (Place 31182 523) (Place 31184 523) false; SNode 2354 (Place 31193 523) (Place 31196 523) false; SNode 2355 (Place 31197 523) (Place 31391 525) true; SNode 2356 (Place 31382 524) (Place 31388 524) true; SNode 2357 (Place 31382 524) (Place 31383 524) false; SNode 2358 (Place 31386 524) (Place 31388 524) false; SNode 2359 (Place 31394 527) (Place 31425 529) true; SNode 2360 (Place 31398 527) (Place 31399 527) false; SNode 2361 (Place 31409 527) (Place 31412 527) false; SNode 2362 (Place 31413 527) (Place 31425 529) true; SNode 2363 (Place 31417 528) (Place 31422 528) true; SNode 2364 (Place 31417 528) (Place 31418 528) false; SNode 2365 (Place 31421 528) (Place 31422 528) false; SNode 2366 (Place 31428 531) (Place 31643 533) true; SNode 2367 (Place 31432 531) (Place 31434 531) false; SNode 2368 (Place 31436 531) (Place 31437 531) false; SNode 2369 (Place 31446 531) (Place 31448 531) false; SNode 2370 (Place 31449 531) (Place 31643 533) true; SNode 2371 (Place 31634 532) (Place 31640 532) true; SNode 2372 (Place 31634 532) (Place 31635 532) false; SNode 2373 (Place 31638 532) (Place 31640 532) false; SNode 2374 (Place 31646 535) (Place 31858 537) true; SNode 2375 (Place 31650 535) (Place 31652 535) false; SNode 2376 (Place 31661 535) (Place 31663 535) false; SNode 2377 (Place 31664 535) (Place 31858 537) true; SNode 2378 (Place 31849 536) (Place 31855 536) true; SNode 2379 (Place 31849 536) (Place 31850 536) false; SNode 2380 (Place 31853 536) (Place 31855 536) false; SNode 2381 (Place 31861 539) (Place 32076 541) true; SNode 2382 (Place 31865 539) (Place 31866 539) false; SNode 2383 (Place 31868 539) (Place 31870 539) false; SNode 2384 (Place 31879 539) (Place 31881 539) false; SNode 2385 (Place 31882 539) (Place 32076 541) true; SNode 2386 (Place 32067 540) (Place 32073 540) true; SNode 2387 (Place 32067 540) (Place 32068 540) false; SNode 2388 (Place 32071 540) (Place 32073 540) false; SNode 2389 (Place 32079 543) (Place 32102 543) true; SNode 2390 (Place 32079 543) (Place 32102 543) true; SNode 2391 (Place 32083 543) (Place 32102 543) true; SNode 2392 (Place 32083 543) (Place 32086 543) false; SNode 2393 (Place 32087 543) (Place 32102 543) false; SNode 2394 (Place 32104 544) (Place 32516 549) true; SNode 2395 (Place 32108 544) (Place 32110 544) false; SNode 2396 (Place 32112 544) (Place 32115 544) false; SNode 2397 (Place 32124 544) (Place 32126 544) false; SNode 2398 (Place 32127 544) (Place 32516 549) true; SNode 2399 (Place 32499 548) (Place 32513 548) true; SNode 2400 (Place 32499 548) (Place 32500 548) false; SNode 2401 (Place 32502 548) (Place 32503 548) false; SNode 2402 (Place 32506 548) (Place 32508 548) false; SNode 2403 (Place 32510 548) (Place 32513 548) false; SNode 2404 (Place 32519 551) (Place 32922 556) true; SNode 2405 (Place 32523 551) (Place 32525 551) false; SNode 2406 (Place 32527 551) (Place 32529 551) false; SNode 2407 (Place 32538 551) (Place 32540 551) false; SNode 2408 (Place 32541 551) (Place 32922 556) true; SNode 2409 (Place 32913 555) (Place 32919 555) true; SNode 2410 (Place 32913 555) (Place 32914 555) false; SNode 2411 (Place 32917 555) (Place 32919 555) false; SNode 2412 (Place 32925 558) (Place 33137 560) true; SNode 2413 (Place 32929 558) (Place 32931 558) false; SNode 2414 (Place 32940 558) (Place 32942 558) false; SNode 2415 (Place 32943 558) (Place 33137 560) true; SNode 2416 (Place 33128 559) (Place 33134 559) true; SNode 2417 (Place 33128 559) (Place 33129 559) false; SNode 2418 (Place 33132 559) (Place 33134 559) false; SNode 2419 (Place 33140 562) (Place 33351 564) true; SNode 2420 (Place 33144 562) (Place 33146 562) false; SNode 2421 (Place 33155 562) (Place 33156 562) false; SNode 2422 (Place 33157 562) (Place 33351 564) true; SNode 2423 (Place 33342 563) (Place 33348 563) true; SNode 2424 (Place 33342 563) (Place 33343 563) false; SNode 2425 (Place 33346 563) (Place 33348 563) false; SNode 2426 (Place 33355 567) (Place 33400 567) true; SNode 2427 (Place 33360 567) (Place 33400 567) true; SNode 2428 (Place 33360 567) (Place 33379 567) false; SNode 2429 (Place 33380 567) (Place 33400 567) false; SNode 2430 (Place 33385 567) (Place 33400 567) false; SNode 2431 (Place 33402 569) (Place 36001 601) true; SNode 2432 (Place 33407 569) (Place 33430 569) false; SNode 2433 (Place 33402 569) (Place 33508 569) false; SNode 2434 (Place 33430 569) (Place 33508 569) false; SNode 2435 (Place 33431 569) (Place 33455 569) true; SNode 2436 (Place 33431 569) (Place 33432 569) false; SNode 2437 (Place 33433 569) (Place 33455 569) false; SNode 2438 (Place 33438 569) (Place 33455 569) false; SNode 2439 (Place 33457 569) (Place 33481 569) true; SNode 2440 (Place 33457 569) (Place 33460 569) false; SNode 2441 (Place 33461 569) (Place 33481 569) false; SNode 2442 (Place 33466 569) (Place 33481 569) false; SNode 2443 (Place 33483 569) (Place 33507 569) true; SNode 2444 (Place 33483 569) (Place 33487 569) false; SNode 2445 (Place 33488 569) (Place 33507 569) false; SNode 2446 (Place 33509 569) (Place 36001 601) true; SNode 2447 (Place 33512 570) (Place 33540 570) true; SNode 2448 (Place 33512 570) (Place 33540 570) true; SNode 2449 (Place 33516 570) (Place 33540 570) true; SNode 2450 (Place 33516 570) (Place 33518 570) false; SNode 2451 (Place 33519 570) (Place 33534 570) false; SNode 2452 (Place 33537 570) (Place 33540 570) false; SNode 2453 (Place 33539 570) (Place 33540 570) false; SNode 2454 (Place 33723 571) (Place 33737 571) true; SNode 2455 (Place 33723 571) (Place 33737 571) true; SNode 2456 (Place 33727 571) (Place 33737 571) true; SNode 2457 (Place 33727 571) (Place 33731 571) false; SNode 2458 (Place 33734 571) (Place 33737 571) false; SNode 2459 (Place 33736 571) (Place 33737 571) false; SNode 2460 (Place 33767 572) (Place 33791 572) true; SNode 2461 (Place 33767 572) (Place 33768 572) false; SNode 2462 (Place 33772 572) (Place 33791 572) false; SNode 2463 (Place 33772 572) (Place 33789 572) false; SNode 2464 (Place 33811 573) (Place 33820 573) true; SNode 2465 (Place 33811 573) (Place 33812 573) false; SNode 2466 (Place 33816 573) (Place 33820 573) false; SNode 2467 (Place 33855 574) (Place 33881 574) true; SNode 2468 (Place 33855 574) (Place 33858 574) false; SNode 2469 (Place 33862 574) (Place 33881 574) false; SNode 2470 (Place 33862 574) (Place 33879 574) false; SNode 2471 (Place 34066 575) (Place 34076 575) true; SNode 2472 (Place 34066 575) (Place 34069 575) false; SNode 2473 (Place 34073 575) (Place 34076 575) false; SNode 2474 (Place 34075 575) (Place 34076 575) false; SNode 2475 (Place 34277 576) (Place 34286 576) true; SNode 2476 (Place 34277 576) (Place 34280 576) false; SNode 2477 (Place 34284 576) (Place 34286 576) false; SNode 2478 (Place 34321 577) (Place 34348 577) true; SNode 2479 (Place 34321 577) (Place 34325 577) false; SNode 2480 (Place 34329 577) (Place 34348 577) false; SNode 2481 (Place 34329 577) (Place 34346 577) false; SNode 2482 (Place 34532 578) (Place 34543 578) true; SNode 2483 (Place 34532 578) (Place 34536 578) false; SNode 2484 (Place 34540 578) (Place 34543 578) false; SNode 2485 (Place 34542 578) (Place 34543 578) false; SNode 2486 (Place 34796 581) (Place 35999 600) true; SNode 2487 (Place 34803 581) (Place 35999 600) true; SNode 2488 (Place 34806 582) (Place 35010 583) true; SNode 2489 (Place 34811 582) (Place 34819 582) true; SNode 2490 (Place 34811 582) (Place 34813 582) false; SNode 2491 (Place 34816 582) (Place 34819 582) false; SNode 2492 (Place 34818 582) (Place 34819 582) false; SNode 2493 (Place 35004 583) (Place 35010 583) true; SNode 2494 (Place 35004 583) (Place 35005 583) false; SNode 2495 (Place 35008 583) (Place 35010 583) false; SNode 2496 (Place 35012 584) (Place 35037 585) true; SNode 2497 (Place 35017 584) (Place 35027 584) true; SNode 2498 (Place 35017 584) (Place 35021 584) false; SNode 2499 (Place 35024 584) (Place 35027 584) false; SNode 2500 (Place 35026 584) (Place 35027 584) false; SNode 2501 (Place 35031 585) (Place 35037 585) true; SNode 2502 (Place 35031 585) (Place 35032 585) false; SNode 2503 (Place 35035 585) (Place 35037 585) false; SNode 2504 (Place 35039 586) (Place 35078 587) true; SNode 2505 (Place 35044 586) (Place 35068 586) true; SNode 2506 (Place 35044 586) (Place 35045 586) false; SNode 2507 (Place 35049 586) (Place 35068 586) false; SNode 2508 (Place 35049 586) (Place 35066 586) false; SNode 2509 (Place 35072 587) (Place 35078 587) true; SNode 2510 (Place 35072 587) (Place 35073 587) false; SNode 2511 (Place 35076 587) (Place 35078 587) false; SNode 2512 (Place 35080 588) (Place 35104 589) true; SNode 2513 (Place 35085 588) (Place 35094 588) true; SNode 2514 (Place 35085 588) (Place 35086 588) false; SNode 2515 (Place 35090 588) (Place 35094 588) false; SNode 2516 (Place 35098 589) (Place 35104 589) true; SNode 2517 (Place 35098 589) (Place 35099 589) false; SNode 2518 (Place 35102 589) (Place 35104 589) false; SNode 2519 (Place 35106 590) (Place 35328 591) true; SNode 2520 (Place 35111 590) (Place 35137 590) true; SNode 2521 (Place 35111 590) (Place 35114 590) false; SNode 2522 (Place 35118 590) (Place 35137 590) false; SNode 2523 (Place 35118 590) (Place 35135 590) false; SNode 2524 (Place 35322 591) (Place 35328 591) true; SNode 2525 (Place 35322 591) (Place 35323 591) false; SNode 2526 (Place 35326 591) (Place 35328 591) false; SNode 2527 (Place 35330 592) (Place 35536 593) true; SNode 2528 (Place 35335 592) (Place 35345 592) true; SNode 2529 (Place 35335 592) (Place 35338 592) false; SNode 2530 (Place 35342 592) (Place 35345 592) false; SNode 2531 (Place 35344 592) (Place 35345 592) false; SNode 2532 (Place 35530 593) (Place 35536 593) true; SNode 2533 (Place 35530 593) (Place 35531 593) false; SNode 2534 (Place 35534 593) (Place 35536 593) false; SNode 2535 (Place 35538 594) (Place 35761 595) true; SNode 2536 (Place 35543 594) (Place 35570 594) true; SNode 2537 (Place 35543 594) (Place 35547 594) false; SNode 2538 (Place 35551 594) (Place 35570 594) false; SNode 2539 (Place 35551 594) (Place 35568 594) false; SNode 2540 (Place 35755 595) (Place 35761 595) true; SNode 2541 (Place 35755 595) (Place 35756 595) false; SNode 2542 (Place 35759 595) (Place 35761 595) false; SNode 2543 (Place 35763 596) (Place 35970 597) true; SNode 2544 (Place 35768 596) (Place 35779 596) true; SNode 2545 (Place 35768 596) (Place 35772 596) false; SNode 2546 (Place 35776 596) (Place 35779 596) false; SNode 2547 (Place 35778 596) (Place 35779 596) false; SNode 2548 (Place 35964 597) (Place 35970 597) true; SNode 2549 (Place 35964 597) (Place 35965 597) false; SNode 2550 (Place 35968 597) (Place 35970 597) false; SNode 2551 (Place 35972 598) (Place 35996 599) true; SNode 2552 (Place 35977 598) (Place 35986 598) true; SNode 2553 (Place 35977 598) (Place 35980 598) false; SNode 2554 (Place 35984 598) (Place 35986 598) false; SNode 2555 (Place 35990 599) (Place 35996 599) true; SNode 2556 (Place 35990 599) (Place 35991 599) false; SNode 2557 (Place 35994 599) (Place 35996 599) false; SNode 2558 (Place 36003 603) (Place 36526 621) true; SNode 2559 (Place 36011 604) (Place 36483 618) true; SNode 2560 (Place 36011 604) (Place 36029 604) false; SNode 2561 (Place 36030 604) (Place 36483 618) false; SNode 2562 (Place 36040 604) (Place 36483 618) false; SNode 2563 (Place 36175 609) (Place 36189 609) true; SNode 2564 (Place 36175 609) (Place 36181 609) false; SNode 2565 (Place 36181 609) (Place 36189 609) false; SNode 2566 (Place 36181 609) (Place 36183 609) false; SNode 2567 (Place 36184 609) (Place 36189 609) false; SNode 2568 (Place 36184 609) (Place 36189 609) true; SNode 2569 (Place 36184 609) (Place 36189 609) false; SNode 2570 (Place 36322 615) (Place 36336 615) true; SNode 2571 (Place 36322 615) (Place 36328 615) false; SNode 2572 (Place 36328 615) (Place 36336 615) false; SNode 2573 (Place 36328 615) (Place 36330 615) false; SNode 2574 (Place 36331 615) (Place 36336 615) false; SNode 2575 (Place 36331 615) (Place 36336 615) true; SNode 2576 (Place 36331 615) (Place 36336 615) false; SNode 2577 (Place 36397 617) (Place 36411 617) true; SNode 2578 (Place 36397 617) (Place 36403 617) false; SNode 2579 (Place 36403 617) (Place 36411 617) false; SNode 2580 (Place 36403 617) (Place 36405 617) false; SNode 2581 (Place 36406 617) (Place 36411 617) false; SNode 2582 (Place 36406 617) (Place 36411 617) true; SNode 2583 (Place 36406 617) (Place 36411 617) false; SNode 2584 (Place 36486 620) (Place 36524 620) true; SNode 2585 (Place 36486 620) (Place 36515 620) false; SNode 2586 (Place 36516 620) (Place 36524 620) false; SNode 2587 (Place 36522 620) (Place 36524 620) false; SNode 2588 (Place 36528 623) (Place 36615 625) true; SNode 2589 (Place 36533 623) (Place 36564 623) false; SNode 2590 (Place 36534 623) (Place 36563 623) true; SNode 2591 (Place 36534 623) (Place 36563 623) false; SNode 2592 (Place 36565 623) (Place 36571 623) false; SNode 2593 (Place 36528 623) (Place 36579 623) false; SNode 2594 (Place 36571 623) (Place 36573 623) false; SNode 2595 (Place 36574 623) (Place 36579 623) false; SNode 2596 (Place 36574 623) (Place 36579 623) true; SNode 2597 (Place 36574 623) (Place 36579 623) false; SNode 2598 (Place 36580 623) (Place 36615 625) true; SNode 2599 (Place 36583 624) (Place 36613 624) true; SNode 2600 (Place 36590 624) (Place 36613 624) false; SNode 2601 (Place 36591 624) (Place 36613 624) false; SNode 2602 (Place 36591 624) (Place 36596 624) false; SNode 2603 (Place 36597 624) (Place 36612 624) false; SNode 2604 (Place 36617 627) (Place 36823 635) true; SNode 2605 (Place 36622 627) (Place 36653 627) false; SNode 2606 (Place 36623 627) (Place 36652 627) true; SNode 2607 (Place 36623 627) (Place 36652 627) false; SNode 2608 (Place 36654 627) (Place 36660 627) false; SNode 2609 (Place 36617 627) (Place 36668 627) false; SNode 2610 (Place 36660 627) (Place 36662 627) false; SNode 2611 (Place 36663 627) (Place 36668 627) false; SNode 2612 (Place 36663 627) (Place 36668 627) true; SNode 2613 (Place 36663 627) (Place 36668 627) false; SNode 2614 (Place 36669 627) (Place 36823 635) true; SNode 2615 (Place 36672 628) (Place 36790 633) true; SNode 2616 (Place 36679 628) (Place 36790 633) true; SNode 2617 (Place 36682 629) (Place 36724 630) true; SNode 2618 (Place 36687 629) (Place 36691 629) false; SNode 2619 (Place 36695 630) (Place 36724 630) true; SNode 2620 (Place 36702 630) (Place 36724 630) false; SNode 2621 (Place 36703 630) (Place 36724 630) false; SNode 2622 (Place 36703 630) (Place 36708 630) false; SNode 2623 (Place 36709 630) (Place 36723 630) false; SNode 2624 (Place 36726 631) (Place 36769 632) true; SNode 2625 (Place 36731 631) (Place 36735 631) false; SNode 2626 (Place 36739 632) (Place 36769 632) true; SNode 2627 (Place 36746 632) (Place 36769 632) false; SNode 2628 (Place 36747 632) (Place 36769 632) false; SNode 2629 (Place 36747 632) (Place 36752 632) false; SNode 2630 (Place 36753 632) (Place 36768 632) false; SNode 2631 (Place 36792 634) (Place 36821 634) true; SNode 2632 (Place 36799 634) (Place 36821 634) false; SNode 2633 (Place 36800 634) (Place 36821 634) false; SNode 2634 (Place 36800 634) (Place 36805 634) false; SNode 2635 (Place 36806 634) (Place 36820 634) false; SNode 2636 (Place 36825 637) (Place 36912 639) true; SNode 2637 (Place 36830 637) (Place 36861 637) false; SNode 2638 (Place 36831 637) (Place 36860 637) true; SNode 2639 (Place 36831 637) (Place 36860 637) false; SNode 2640 (Place 36862 637) (Place 36868 637) false; SNode 2641 (Place 36825 637) (Place 36876 637) false; SNode 2642 (Place 36868 637) (Place 36870 637) false; SNode 2643 (Place 36871 637) (Place 36876 637) false; SNode 2644 (Place 36871 637) (Place 36876 637) true; SNode 2645 (Place 36871 637) (Place 36876 637) false; SNode 2646 (Place 36877 637) (Place 36912 639) true; SNode 2647 (Place 36880 638) (Place 36910 638) true; SNode 2648 (Place 36887 638) (Place 36910 638) false; SNode 2649 (Place 36888 638) (Place 36910 638) false; SNode 2650 (Place 36888 638) (Place 36893 638) false; SNode 2651 (Place 36894 638) (Place 36909 638) false; SNode 2652 (Place 36914 641) (Place 37379 647) true; SNode 2653 (Place 36919 641) (Place 36945 641) false; SNode 2654 (Place 36914 641) (Place 36947 641) false; SNode 2655 (Place 36945 641) (Place 36947 641) false; SNode 2656 (Place 36948 641) (Place 37379 647) true; SNode 2657 (Place 36951 642) (Place 37013 642) true; SNode 2658 (Place 36951 642) (Place 37013 642) true; SNode 2659 (Place 36955 642) (Place 37013 642) true; SNode 2660 (Place 36955 642) (Place 36960 642) false; SNode 2661 (Place 36961 642) (Place 36979 642) false; SNode 2662 (Place 36982 642) (Place 37013 642) false; SNode 2663 (Place 36982 642) (Place 37011 642) false; SNode 2664 (Place 37368 646) (Place 37377 646) true; SNode 2665 (Place 37368 646) (Place 37369 646) false; SNode 2666 (Place 37372 646) (Place 37377 646) false; SNode 2667 (Place 37381 649) (Place 37883 668) true; SNode 2668 (Place 37389 650) (Place 37510 653) true; SNode 2669 (Place 37389 650) (Place 37399 650) false; SNode 2670 (Place 37400 650) (Place 37510 653) false; SNode 2671 (Place 37410 650) (Place 37510 653) false; SNode 2672 (Place 37472 652) (Place 37482 652) true; SNode 2673 (Place 37472 652) (Place 37474 652) false; SNode 2674 (Place 37474 652) (Place 37482 652) false; SNode 2675 (Place 37474 652) (Place 37476 652) false; SNode 2676 (Place 37477 652) (Place 37482 652) false; SNode 2677 (Place 37477 652) (Place 37482 652) true; SNode 2678 (Place 37477 652) (Place 37482 652) false; SNode 2679 (Place 37512 654) (Place 37633 657) true; SNode 2680 (Place 37512 654) (Place 37522 654) false; SNode 2681 (Place 37523 654) (Place 37633 657) false; SNode 2682 (Place 37533 654) (Place 37633 657) false; SNode 2683 (Place 37595 656) (Place 37605 656) true; SNode 2684 (Place 37595 656) (Place 37597 656) false; SNode 2685 (Place 37597 656) (Place 37605 656) false; SNode 2686 (Place 37597 656) (Place 37599 656) false; SNode 2687 (Place 37600 656) (Place 37605 656) false; SNode 2688 (Place 37600 656) (Place 37605 656) true; SNode 2689 (Place 37600 656) (Place 37605 656) false; SNode 2690 (Place 37635 658) (Place 37756 661) true; SNode 2691 (Place 37635 658) (Place 37645 658) false; SNode 2692 (Place 37646 658) (Place 37756 661) false; SNode 2693 (Place 37656 658) (Place 37756 661) false; SNode 2694 (Place 37718 660) (Place 37728 660) true; SNode 2695 (Place 37718 660) (Place 37720 660) false; SNode 2696 (Place 37720 660) (Place 37728 660) false; SNode 2697 (Place 37720 660) (Place 37722 660) false; SNode 2698 (Place 37723 660) (Place 37728 660) false; SNode 2699 (Place 37723 660) (Place 37728 660) true; SNode 2700 (Place 37723 660) (Place 37728 660) false; SNode 2701 (Place 37758 662) (Place 37817 665) true; SNode 2702 (Place 37758 662) (Place 37779 662) false; SNode 2703 (Place 37780 662) (Place 37817 665) false; SNode 2704 (Place 37787 662) (Place 37817 665) false; SNode 2705 (Place 37791 663) (Place 37799 663) true; SNode 2706 (Place 37791 663) (Place 37792 663) false; SNode 2707 (Place 37793 663) (Place 37799 663) false; SNode 2708 (Place 37802 664) (Place 37814 664) true; SNode 2709 (Place 37802 664) (Place 37803 664) false; SNode 2710 (Place 37804 664) (Place 37814 664) false; SNode 2711 (Place 37819 666) (Place 37849 666) true; SNode 2712 (Place 37819 666) (Place 37840 666) false; SNode 2713 (Place 37841 666) (Place 37849 666) false; SNode 2714 (Place 37847 666) (Place 37849 666) false; SNode 2715 (Place 37851 667) (Place 37881 667) true; SNode 2716 (Place 37851 667) (Place 37872 667) false; SNode 2717 (Place 37873 667) (Place 37881 667) false; SNode 2718 (Place 37879 667) (Place 37881 667) false; SNode 2719 (Place 37924 673) (Place 38038 675) true; SNode 2720 (Place 37929 673) (Place 37952 673) false; SNode 2721 (Place 37930 673) (Place 37951 673) true; SNode 2722 (Place 37930 673) (Place 37951 673) false; SNode 2723 (Place 37953 673) (Place 37955 673) false; SNode 2724 (Place 37924 673) (Place 37963 673) false; SNode 2725 (Place 37955 673) (Place 37957 673) false; SNode 2726 (Place 37958 673) (Place 37963 673) false; SNode 2727 (Place 37958 673) (Place 37963 673) true; SNode 2728 (Place 37958 673) (Place 37963 673) false; SNode 2729 (Place 37964 673) (Place 38038 675) true; SNode 2730 (Place 38006 674) (Place 38036 674) true; SNode 2731 (Place 38013 674) (Place 38036 674) false; SNode 2732 (Place 38014 674) (Place 38036 674) false; SNode 2733 (Place 38014 674) (Place 38019 674) false; SNode 2734 (Place 38020 674) (Place 38035 674) false; SNode 2735 (Place 38079 680) (Place 38193 682) true; SNode 2736 (Place 38084 680) (Place 38107 680) false; SNode 2737 (Place 38085 680) (Place 38106 680) true; SNode 2738 (Place 38085 680) (Place 38106 680) false; SNode 2739 (Place 38108 680) (Place 38110 680) false; SNode 2740 (Place 38079 680) (Place 38118 680) false; SNode 2741 (Place 38110 680) (Place 38112 680) false; SNode 2742 (Place 38113 680) (Place 38118 680) false; SNode 2743 (Place 38113 680) (Place 38118 680) true; SNode 2744 (Place 38113 680) (Place 38118 680) false; SNode 2745 (Place 38119 680) (Place 38193 682) true; SNode 2746 (Place 38161 681) (Place 38191 681) true; SNode 2747 (Place 38168 681) (Place 38191 681) false; SNode 2748 (Place 38169 681) (Place 38191 681) false; SNode 2749 (Place 38169 681) (Place 38174 681) false; SNode 2750 (Place 38175 681) (Place 38190 681) false; SNode 2751 (Place 38290 689) (Place 38558 698) true; SNode 2752 (Place 38295 689) (Place 38318 689) false; SNode 2753 (Place 38296 689) (Place 38317 689) true; SNode 2754 (Place 38296 689) (Place 38317 689) false; SNode 2755 (Place 38319 689) (Place 38321 689) false; SNode 2756 (Place 38290 689) (Place 38329 689) false; SNode 2757 (Place 38321 689) (Place 38323 689) false; SNode 2758 (Place 38324 689) (Place 38329 689) false; SNode 2759 (Place 38324 689) (Place 38329 689) true; SNode 2760 (Place 38324 689) (Place 38329 689) false; SNode 2761 (Place 38330 689) (Place 38558 698) true; SNode 2762 (Place 38406 690) (Place 38556 697) true; SNode 2763 (Place 38413 690) (Place 38556 697) true; SNode 2764 (Place 38416 691) (Place 38461 692) true; SNode 2765 (Place 38421 691) (Place 38425 691) false; SNode 2766 (Place 38429 692) (Place 38461 692) true; SNode 2767 (Place 38436 692) (Place 38461 692) false; SNode 2768 (Place 38437 692) (Place 38461 692) false; SNode 2769 (Place 38437 692) (Place 38442 692) false; SNode 2770 (Place 38443 692) (Place 38460 692) false; SNode 2771 (Place 38463 693) (Place 38508 694) true; SNode 2772 (Place 38468 693) (Place 38472 693) false; SNode 2773 (Place 38476 694) (Place 38508 694) true; SNode 2774 (Place 38483 694) (Place 38508 694) false; SNode 2775 (Place 38484 694) (Place 38508 694) false; SNode 2776 (Place 38484 694) (Place 38489 694) false; SNode 2777 (Place 38490 694) (Place 38507 694) false; SNode 2778 (Place 38510 695) (Place 38553 696) true; SNode 2779 (Place 38521 696) (Place 38553 696) true; SNode 2780 (Place 38528 696) (Place 38553 696) false; SNode 2781 (Place 38529 696) (Place 38553 696) false; SNode 2782 (Place 38529 696) (Place 38534 696) false; SNode 2783 (Place 38535 696) (Place 38552 696) false; SNode 2784 (Place 38560 700) (Place 38671 702) true; SNode 2785 (Place 38565 700) (Place 38589 700) false; SNode 2786 (Place 38560 700) (Place 38635 700) false; SNode 2787 (Place 38589 700) (Place 38613 700) false; SNode 2788 (Place 38590 700) (Place 38598 700) true; SNode 2789 (Place 38590 700) (Place 38591 700) false; SNode 2790 (Place 38593 700) (Place 38594 700) false; SNode 2791 (Place 38595 700) (Place 38598 700) false; SNode 2792 (Place 38600 700) (Place 38612 700) true; SNode 2793 (Place 38600 700) (Place 38601 700) false; SNode 2794 (Place 38602 700) (Place 38612 700) false; SNode 2795 (Place 38614 700) (Place 38635 700) false; SNode 2796 (Place 38614 700) (Place 38635 700) true; SNode 2797 (Place 38614 700) (Place 38635 700) false; SNode 2798 (Place 38636 700) (Place 38671 702) true; SNode 2799 (Place 38639 701) (Place 38669 701) true; SNode 2800 (Place 38646 701) (Place 38669 701) false; SNode 2801 (Place 38646 701) (Place 38667 701) false; SNode 2802 (Place 38673 704) (Place 39337 711) true; SNode 2803 (Place 38678 704) (Place 38702 704) false; SNode 2804 (Place 38673 704) (Place 38728 704) false; SNode 2805 (Place 38702 704) (Place 38728 704) false; SNode 2806 (Place 38703 704) (Place 38727 704) true; SNode 2807 (Place 38703 704) (Place 38705 704) false; SNode 2808 (Place 38706 704) (Place 38727 704) false; SNode 2809 (Place 38729 704) (Place 39337 711) true; SNode 2810 (Place 38732 705) (Place 38824 705) true; SNode 2811 (Place 38732 705) (Place 38824 705) true; SNode 2812 (Place 38736 705) (Place 38824 705) true; SNode 2813 (Place 38736 705) (Place 38738 705) false; SNode 2814 (Place 38739 705) (Place 38749 705) false; SNode 2815 (Place 38752 705) (Place 38824 705) false; SNode 2816 (Place 38752 705) (Place 38773 705) false; SNode 2817 (Place 38774 705) (Place 38787 705) false; SNode 2818 (Place 38789 705) (Place 38823 705) false; SNode 2819 (Place 38789 705) (Place 38813 705) false; SNode 2820 (Place 38814 705) (Place 38815 705) false; SNode 2821 (Place 38817 705) (Place 38818 705) false; SNode 2822 (Place 38820 705) (Place 38822 705) false; SNode 2823 (Place 39329 710) (Place 39335 710) true; SNode 2824 (Place 39329 710) (Place 39330 710) false; SNode 2825 (Place 39333 710) (Place 39335 710) false; SNode 2826 (Place 39339 713) (Place 39615 715) true; SNode 2827 (Place 39344 713) (Place 39368 713) false; SNode 2828 (Place 39339 713) (Place 39394 713) false; SNode 2829 (Place 39368 713) (Place 39370 713) false; SNode 2830 (Place 39371 713) (Place 39394 713) false; SNode 2831 (Place 39371 713) (Place 39394 713) true; SNode 2832 (Place 39371 713) (Place 39394 713) false; SNode 2833 (Place 39395 713) (Place 39615 715) true; SNode 2834 (Place 39398 714) (Place 39424 714) true; SNode 2835 (Place 39405 714) (Place 39424 714) false; SNode 2836 (Place 39405 714) (Place 39422 714) false].
Definition t_interfaces_cgroups2 : list cgroup := [CGroup (Place 141 6) (Place 226 6) [(str "// want `interface method ""ExportedCodeNotDeclared"" does not declare any error codes`")]; CGroup (Place 260 7) (Place 342 7) [(str "// want `interface method ""localCodeNotDeclared"" does not declare any error codes`")]; CGroup (Place 346 10) (Place 641 15) [(str "// InterfaceMethod is a method used to implement SimpleInterface,"); (str "// but the declared (and actual) error codes are not a subset of the ones declared in the interface."); (str "//"); (str "// Errors:"); (str "//"); (str "//    - unknown-error -- is always returned making InvalidSimpleImpl an invalid implementation of the interface")]; CGroup (Place 699 16) (Place 756 16) [(str "// want SimpleInterfaceMethod:""ErrorCodes: unknown-error""")]; CGroup (Place 859 21) (Place 1039 21) [(str "// want `cannot use expression as ""SimpleInterface"" value: method ""SimpleInterfaceMethod"" declares the following error codes which were not part of the interface: \[unknown-error]`")]; CGroup (Place 1130 25) (Place 1310 25) [(str "// want `cannot use expression as ""SimpleInterface"" value: method ""SimpleInterfaceMethod"" declares the following error codes which were not part of the interface: \[unknown-error]`")]; CGroup (Place 1411 29) (Place 1591 29) [(str "// want `cannot use expression as ""SimpleInterface"" value: method ""SimpleInterfaceMethod"" declares the following error codes which were not part of the interface: \[unknown-error]`")]; CGroup (Place 1687 34) (Place 1867 34) [(str "// want `cannot use expression as ""SimpleInterface"" value: method ""SimpleInterfaceMethod"" declares the following error codes which were not part of the interface: \[unknown-error]`")]; CGroup (Place 1984 41) (Place 2164 41) [(str "// want `cannot use expression as ""SimpleInterface"" value: method ""SimpleInterfaceMethod"" declares the following error codes which were not part of the interface: \[unknown-error]`")]; CGroup (Place 2286 48) (Place 2466 48) [(str "// want `cannot use expression as ""SimpleInterface"" value: method ""SimpleInterfaceMethod"" declares the following error codes which were not part of the interface: \[unknown-error]`")]; CGroup (Place 2694 58) (Place 2874 58) [(str "// want `cannot use expression as ""SimpleInterface"" value: method ""SimpleInterfaceMethod"" declares the following error codes which were not part of the interface: \[unknown-error]`")]; CGroup (Place 2952 62) (Place 3316 65) [(str "/*
		want
			`cannot use expression as ""SimpleInterface"" value: method ""SimpleInterfaceMethod"" declares the following error codes which were not part of the interface: \[unknown-error]`
			`cannot use expression as ""SimpleInterface"" value: method ""SimpleInterfaceMethod"" declares the following error codes which were not part of the interface: \[unknown-error]` */")]; CGroup (Place 3424 70) (Place 3604 70) [(str "// want `cannot use expression as ""SimpleInterface"" value: method ""SimpleInterfaceMethod"" declares the following error codes which were not part of the interface: \[unknown-error]`")]; CGroup (Place 3668 71) (Place 3848 71) [(str "// want `cannot use expression as ""SimpleInterface"" value: method ""SimpleInterfaceMethod"" declares the following error codes which were not part of the interface: \[unknown-error]`")]; CGroup (Place 3912 72) (Place 4276 75) [(str "/*
		want
			`cannot use expression as ""SimpleInterface"" value: method ""SimpleInterfaceMethod"" declares the following error codes which were not part of the interface: \[unknown-error]`
			`cannot use expression as ""SimpleInterface"" value: method ""SimpleInterfaceMethod"" declares the following error codes which were not part of the interface: \[unknown-error]` */")]; CGroup (Place 4423 82) (Place 4603 82) [(str "// want `cannot use expression as ""SimpleInterface"" value: method ""SimpleInterfaceMethod"" declares the following error codes which were not part of the interface: \[unknown-error]`")]; CGroup (Place 4640 85) (Place 4820 85) [(str "// want `cannot use expression as ""SimpleInterface"" value: method ""SimpleInterfaceMethod"" declares the following error codes which were not part of the interface: \[unknown-error]`")]; CGroup (Place 4860 89) (Place 5040 89) [(str "// want `cannot use expression as ""SimpleInterface"" value: method ""SimpleInterfaceMethod"" declares the following error codes which were not part of the interface: \[unknown-error]`")]; CGroup (Place 5079 93) (Place 5259 93) [(str "// want `cannot use expression as ""SimpleInterface"" value: method ""SimpleInterfaceMethod"" declares the following error codes which were not part of the interface: \[unknown-error]`")]; CGroup (Place 5574 107) (Place 5754 107) [(str "// want `cannot use expression as ""SimpleInterface"" value: method ""SimpleInterfaceMethod"" declares the following error codes which were not part of the interface: \[unknown-error]`")]; CGroup (Place 5843 109) (Place 6023 109) [(str "// want `cannot use expression as ""SimpleInterface"" value: method ""SimpleInterfaceMethod"" declares the following error codes which were not part of the interface: \[unknown-error]`")]; CGroup (Place 6076 110) (Place 6256 110) [(str "// want `cannot use expression as ""SimpleInterface"" value: method ""SimpleInterfaceMethod"" declares the following error codes which were not part of the interface: \[unknown-error]`")]; CGroup (Place 6309 113) (Place 6372 113) [(str "// Make sure slice parameters don't get confused with variadic.")]; CGroup (Place 6539 118) (Place 6719 118) [(str "// want `cannot use expression as ""SimpleInterface"" value: method ""SimpleInterfaceMethod"" declares the following error codes which were not part of the interface: \[unknown-error]`")]; CGroup (Place 6760 119) (Place 6940 119) [(str "// want `cannot use expression as ""SimpleInterface"" value: method ""SimpleInterfaceMethod"" declares the following error codes which were not part of the interface: \[unknown-error]`")]; CGroup (Place 7042 123) (Place 7222 123) [(str "// want `cannot use expression as ""SimpleInterface"" value: method ""SimpleInterfaceMethod"" declares the following error codes which were not part of the interface: \[unknown-error]`")]; CGroup (Place 7410 133) (Place 7590 133) [(str "// want `cannot use expression as ""SimpleInterface"" value: method ""SimpleInterfaceMethod"" declares the following error codes which were not part of the interface: \[unknown-error]`")]; CGroup (Place 7632 135) (Place 7812 135) [(str "// want `cannot use expression as ""SimpleInterface"" value: method ""SimpleInterfaceMethod"" declares the following error codes which were not part of the interface: \[unknown-error]`")]; CGroup (Place 7840 137) (Place 7904 137) [(str "// making sure indexing something other than a map does not fail")]; CGroup (Place 7953 140) (Place 8028 140) [(str "// want SimpleInterfaceIncompatible:""ErrorInterface: SimpleInterfaceMethod""")]; CGroup (Place 8030 141) (Place 8328 147) [(str "// SimpleInterfaceMethod is a method returning an error with error codes declared in doc."); (str "//"); (str "// Errors:"); (str "//"); (str "//    - interface-1-error    -- could potentially be returned"); (str "//    - incompatible-1-error -- could potentially be returned"); (str "//    - incompatible-2-error -- could potentially be returned")]; CGroup (Place 8360 148) (Place 8463 148) [(str "// want SimpleInterfaceMethod:""ErrorCodes: incompatible-1-error incompatible-2-error interface-1-error""")]; CGroup (Place 8648 156) (Place 8828 156) [(str "// want `cannot use expression as ""SimpleInterface"" value: method ""SimpleInterfaceMethod"" declares the following error codes which were not part of the interface: \[unknown-error]`")]; CGroup (Place 8896 158) (Place 9104 158) [(str "// want `cannot use expression as ""SimpleInterface"" value: method ""SimpleInterfaceMethod"" declares the following error codes which were not part of the interface: \[incompatible-1-error incompatible-2-error]`")]; CGroup (Place 9146 159) (Place 9354 159) [(str "// want `cannot use expression as ""SimpleInterface"" value: method ""SimpleInterfaceMethod"" declares the following error codes which were not part of the interface: \[incompatible-1-error incompatible-2-error]`")]; CGroup (Place 9396 160) (Place 9604 160) [(str "// want `cannot use expression as ""SimpleInterface"" value: method ""SimpleInterfaceMethod"" declares the following error codes which were not part of the interface: \[incompatible-1-error incompatible-2-error]`")]; CGroup (Place 9673 162) (Place 9701 162) [(str "// known problem / loop-hole")]; CGroup (Place 9820 168) (Place 10028 168) [(str "// want `cannot use expression as ""SimpleInterface"" value: method ""SimpleInterfaceMethod"" declares the following error codes which were not part of the interface: \[incompatible-1-error incompatible-2-error]`")]; CGroup (Place 10366 192) (Place 10546 192) [(str "// want `cannot use expression as ""SimpleInterface"" value: method ""SimpleInterfaceMethod"" declares the following error codes which were not part of the interface: \[unknown-error]`")]; CGroup (Place 10625 194) (Place 10805 194) [(str "// want `cannot use expression as ""SimpleInterface"" value: method ""SimpleInterfaceMethod"" declares the following error codes which were not part of the interface: \[unknown-error]`")]; CGroup (Place 10911 197) (Place 11091 197) [(str "// want `cannot use expression as ""SimpleInterface"" value: method ""SimpleInterfaceMethod"" declares the following error codes which were not part of the interface: \[unknown-error]`")]; CGroup (Place 11188 199) (Place 11368 199) [(str "// want `cannot use expression as ""SimpleInterface"" value: method ""SimpleInterfaceMethod"" declares the following error codes which were not part of the interface: \[unknown-error]`")]; CGroup (Place 11464 200) (Place 11644 200) [(str "// want `cannot use expression as ""SimpleInterface"" value: method ""SimpleInterfaceMethod"" declares the following error codes which were not part of the interface: \[unknown-error]`")]; CGroup (Place 11740 201) (Place 12280 205) [(str "/*
		want
			`cannot use expression as ""SimpleInterface"" value: method ""SimpleInterfaceMethod"" declares the following error codes which were not part of the interface: \[unknown-error]`
			`cannot use expression as ""SimpleInterface"" value: method ""SimpleInterfaceMethod"" declares the following error codes which were not part of the interface: \[unknown-error]`
			`cannot use expression as ""SimpleInterface"" value: method ""SimpleInterfaceMethod"" declares the following error codes which were not part of the interface: \[unknown-error]` */")]; CGroup (Place 12421 209) (Place 12601 209) [(str "// want `cannot use expression as ""SimpleInterface"" value: method ""SimpleInterfaceMethod"" declares the following error codes which were not part of the interface: \[unknown-error]`")]; CGroup (Place 12672 210) (Place 12852 210) [(str "// want `cannot use expression as ""SimpleInterface"" value: method ""SimpleInterfaceMethod"" declares the following error codes which were not part of the interface: \[unknown-error]`")]; CGroup (Place 12923 211) (Place 13103 211) [(str "// want `cannot use expression as ""SimpleInterface"" value: method ""SimpleInterfaceMethod"" declares the following error codes which were not part of the interface: \[unknown-error]`")]; CGroup (Place 13193 215) (Place 13373 215) [(str "// want `cannot use expression as ""SimpleInterface"" value: method ""SimpleInterfaceMethod"" declares the following error codes which were not part of the interface: \[unknown-error]`")]; CGroup (Place 13403 216) (Place 13583 216) [(str "// want `cannot use expression as ""SimpleInterface"" value: method ""SimpleInterfaceMethod"" declares the following error codes which were not part of the interface: \[unknown-error]`")]; CGroup (Place 13675 222) (Place 13855 222) [(str "// want `cannot use expression as ""SimpleInterface"" value: method ""SimpleInterfaceMethod"" declares the following error codes which were not part of the interface: \[unknown-error]`")]; CGroup (Place 13915 223) (Place 14095 223) [(str "// want `cannot use expression as ""SimpleInterface"" value: method ""SimpleInterfaceMethod"" declares the following error codes which were not part of the interface: \[unknown-error]`")]; CGroup (Place 14281 229) (Place 14461 229) [(str "// want `cannot use expression as ""SimpleInterface"" value: method ""SimpleInterfaceMethod"" declares the following error codes which were not part of the interface: \[unknown-error]`")]; CGroup (Place 14491 230) (Place 14671 230) [(str "// want `cannot use expression as ""SimpleInterface"" value: method ""SimpleInterfaceMethod"" declares the following error codes which were not part of the interface: \[unknown-error]`")]; CGroup (Place 14774 237) (Place 14954 237) [(str "// want `cannot use expression as ""SimpleInterface"" value: method ""SimpleInterfaceMethod"" declares the following error codes which were not part of the interface: \[unknown-error]`")]; CGroup (Place 14989 238) (Place 15169 238) [(str "// want `cannot use expression as ""SimpleInterface"" value: method ""SimpleInterfaceMethod"" declares the following error codes which were not part of the interface: \[unknown-error]`")]; CGroup (Place 15441 251) (Place 15621 251) [(str "// want `cannot use expression as ""SimpleInterface"" value: method ""SimpleInterfaceMethod"" declares the following error codes which were not part of the interface: \[unknown-error]`")]; CGroup (Place 15676 254) (Place 15856 254) [(str "// want `cannot use expression as ""SimpleInterface"" value: method ""SimpleInterfaceMethod"" declares the following error codes which were not part of the interface: \[unknown-error]`")]; CGroup (Place 15894 257) (Place 16074 257) [(str "// want `cannot use expression as ""SimpleInterface"" value: method ""SimpleInterfaceMethod"" declares the following error codes which were not part of the interface: \[unknown-error]`")]; CGroup (Place 16169 263) (Place 16349 263) [(str "// want `cannot use expression as ""SimpleInterface"" value: method ""SimpleInterfaceMethod"" declares the following error codes which were not part of the interface: \[unknown-error]`")]; CGroup (Place 16408 266) (Place 16588 266) [(str "// want `cannot use expression as ""SimpleInterface"" value: method ""SimpleInterfaceMethod"" declares the following error codes which were not part of the interface: \[unknown-error]`")]; CGroup (Place 16619 267) (Place 16799 267) [(str "// want `cannot use expression as ""SimpleInterface"" value: method ""SimpleInterfaceMethod"" declares the following error codes which were not part of the interface: \[unknown-error]`")]; CGroup (Place 16903 272) (Place 17083 272) [(str "// want `cannot use expression as ""SimpleInterface"" value: method ""SimpleInterfaceMethod"" declares the following error codes which were not part of the interface: \[unknown-error]`")]; CGroup (Place 17136 273) (Place 17316 273) [(str "// want `cannot use expression as ""SimpleInterface"" value: method ""SimpleInterfaceMethod"" declares the following error codes which were not part of the interface: \[unknown-error]`")]; CGroup (Place 17420 277) (Place 17600 277) [(str "// want `cannot use expression as ""SimpleInterface"" value: method ""SimpleInterfaceMethod"" declares the following error codes which were not part of the interface: \[unknown-error]`")]; CGroup (Place 17654 278) (Place 17834 278) [(str "// want `cannot use expression as ""SimpleInterface"" value: method ""SimpleInterfaceMethod"" declares the following error codes which were not part of the interface: \[unknown-error]`")]; CGroup (Place 17899 282) (Place 18079 282) [(str "// want `cannot use expression as ""SimpleInterface"" value: method ""SimpleInterfaceMethod"" declares the following error codes which were not part of the interface: \[unknown-error]`")]; CGroup (Place 18188 288) (Place 18368 288) [(str "// want `cannot use expression as ""SimpleInterface"" value: method ""SimpleInterfaceMethod"" declares the following error codes which were not part of the interface: \[unknown-error]`")]; CGroup (Place 18395 289) (Place 18575 289) [(str "// want `cannot use expression as ""SimpleInterface"" value: method ""SimpleInterfaceMethod"" declares the following error codes which were not part of the interface: \[unknown-error]`")]; CGroup (Place 18640 292) (Place 18820 292) [(str "// want `cannot use expression as ""SimpleInterface"" value: method ""SimpleInterfaceMethod"" declares the following error codes which were not part of the interface: \[unknown-error]`")]; CGroup (Place 19050 301) (Place 19230 301) [(str "// want `cannot use expression as ""SimpleInterface"" value: method ""SimpleInterfaceMethod"" declares the following error codes which were not part of the interface: \[unknown-error]`")]; CGroup (Place 19288 304) (Place 19468 304) [(str "// want `cannot use expression as ""SimpleInterface"" value: method ""SimpleInterfaceMethod"" declares the following error codes which were not part of the interface: \[unknown-error]`")]; CGroup (Place 19506 307) (Place 19686 307) [(str "// want `cannot use expression as ""SimpleInterface"" value: method ""SimpleInterfaceMethod"" declares the following error codes which were not part of the interface: \[unknown-error]`")]; CGroup (Place 19784 313) (Place 19964 313) [(str "// want `cannot use expression as ""SimpleInterface"" value: method ""SimpleInterfaceMethod"" declares the following error codes which were not part of the interface: \[unknown-error]`")]; CGroup (Place 20023 316) (Place 20203 316) [(str "// want `cannot use expression as ""SimpleInterface"" value: method ""SimpleInterfaceMethod"" declares the following error codes which were not part of the interface: \[unknown-error]`")]; CGroup (Place 20234 317) (Place 20414 317) [(str "// want `cannot use expression as ""SimpleInterface"" value: method ""SimpleInterfaceMethod"" declares the following error codes which were not part of the interface: \[unknown-error]`")]; CGroup (Place 20518 322) (Place 20698 322) [(str "// want `cannot use expression as ""SimpleInterface"" value: method ""SimpleInterfaceMethod"" declares the following error codes which were not part of the interface: \[unknown-error]`")]; CGroup (Place 20751 323) (Place 20931 323) [(str "// want `cannot use expression as ""SimpleInterface"" value: method ""SimpleInterfaceMethod"" declares the following error codes which were not part of the interface: \[unknown-error]`")]; CGroup (Place 21035 327) (Place 21215 327) [(str "// want `cannot use expression as ""SimpleInterface"" value: method ""SimpleInterfaceMethod"" declares the following error codes which were not part of the interface: \[unknown-error]`")]; CGroup (Place 21269 328) (Place 21449 328) [(str "// want `cannot use expression as ""SimpleInterface"" value: method ""SimpleInterfaceMethod"" declares the following error codes which were not part of the interface: \[unknown-error]`")]; CGroup (Place 21521 332) (Place 21701 332) [(str "// want `cannot use expression as ""SimpleInterface"" value: method ""SimpleInterfaceMethod"" declares the following error codes which were not part of the interface: \[unknown-error]`")]; CGroup (Place 21810 338) (Place 21990 338) [(str "// want `cannot use expression as ""SimpleInterface"" value: method ""SimpleInterfaceMethod"" declares the following error codes which were not part of the interface: \[unknown-error]`")]; CGroup (Place 22017 339) (Place 22197 339) [(str "// want `cannot use expression as ""SimpleInterface"" value: method ""SimpleInterfaceMethod"" declares the following error codes which were not part of the interface: \[unknown-error]`")]; CGroup (Place 22257 342) (Place 22437 342) [(str "// want `cannot use expression as ""SimpleInterface"" value: method ""SimpleInterfaceMethod"" declares the following error codes which were not part of the interface: \[unknown-error]`")]; CGroup (Place 22710 351) (Place 22890 351) [(str "// want `cannot use expression as ""SimpleInterface"" value: method ""SimpleInterfaceMethod"" declares the following error codes which were not part of the interface: \[unknown-error]`")]; CGroup (Place 22988 356) (Place 23168 356) [(str "// want `cannot use expression as ""SimpleInterface"" value: method ""SimpleInterfaceMethod"" declares the following error codes which were not part of the interface: \[unknown-error]`")]; CGroup (Place 23227 359) (Place 23407 359) [(str "// want `cannot use expression as ""SimpleInterface"" value: method ""SimpleInterfaceMethod"" declares the following error codes which were not part of the interface: \[unknown-error]`")]; CGroup (Place 23438 360) (Place 23618 360) [(str "// want `cannot use expression as ""SimpleInterface"" value: method ""SimpleInterfaceMethod"" declares the following error codes which were not part of the interface: \[unknown-error]`")]; CGroup (Place 23719 365) (Place 23899 365) [(str "// want `cannot use expression as ""SimpleInterface"" value: method ""SimpleInterfaceMethod"" declares the following error codes which were not part of the interface: \[unknown-error]`")]; CGroup (Place 24000 369) (Place 24180 369) [(str "// want `cannot use expression as ""SimpleInterface"" value: method ""SimpleInterfaceMethod"" declares the following error codes which were not part of the interface: \[unknown-error]`")]; CGroup (Place 24281 373) (Place 24461 373) [(str "// want `cannot use expression as ""SimpleInterface"" value: method ""SimpleInterfaceMethod"" declares the following error codes which were not part of the interface: \[unknown-error]`")]; CGroup (Place 24544 379) (Place 24724 379) [(str "// want `cannot use expression as ""SimpleInterface"" value: method ""SimpleInterfaceMethod"" declares the following error codes which were not part of the interface: \[unknown-error]`")]; CGroup (Place 24806 382) (Place 24986 382) [(str "// want `cannot use expression as ""SimpleInterface"" value: method ""SimpleInterfaceMethod"" declares the following error codes which were not part of the interface: \[unknown-error]`")]; CGroup (Place 25075 386) (Place 25255 386) [(str "// want `cannot use expression as ""SimpleInterface"" value: method ""SimpleInterfaceMethod"" declares the following error codes which were not part of the interface: \[unknown-error]`")]; CGroup (Place 25342 390) (Place 25522 390) [(str "// want `cannot use expression as ""SimpleInterface"" value: method ""SimpleInterfaceMethod"" declares the following error codes which were not part of the interface: \[unknown-error]`")]; CGroup (Place 25639 395) (Place 25819 395) [(str "// want `cannot use expression as ""SimpleInterface"" value: method ""SimpleInterfaceMethod"" declares the following error codes which were not part of the interface: \[unknown-error]`")]; CGroup (Place 25864 396) (Place 26044 396) [(str "// want `cannot use expression as ""SimpleInterface"" value: method ""SimpleInterfaceMethod"" declares the following error codes which were not part of the interface: \[unknown-error]`")]; CGroup (Place 26089 397) (Place 26456 400) [(str "/*
			want
				`cannot use expression as ""SimpleInterface"" value: method ""SimpleInterfaceMethod"" declares the following error codes which were not part of the interface: \[unknown-error]`
				`cannot use expression as ""SimpleInterface"" value: method ""SimpleInterfaceMethod"" declares the following error codes which were not part of the interface: \[unknown-error]` */")]; CGroup (Place 26535 404) (Place 26715 404) [(str "// want `cannot use expression as ""SimpleInterface"" value: method ""SimpleInterfaceMethod"" declares the following error codes which were not part of the interface: \[unknown-error]`")]; CGroup (Place 27025 418) (Place 27205 418) [(str "// want `cannot use expression as ""SimpleInterface"" value: method ""SimpleInterfaceMethod"" declares the following error codes which were not part of the interface: \[unknown-error]`")]; CGroup (Place 27282 426) (Place 27462 426) [(str "// want `cannot use expression as ""SimpleInterface"" value: method ""SimpleInterfaceMethod"" declares the following error codes which were not part of the interface: \[unknown-error]`")]; CGroup (Place 27536 434) (Place 27716 434) [(str "// want `cannot use expression as ""SimpleInterface"" value: method ""SimpleInterfaceMethod"" declares the following error codes which were not part of the interface: \[unknown-error]`")]; CGroup (Place 27787 442) (Place 27967 442) [(str "// want `cannot use expression as ""SimpleInterface"" value: method ""SimpleInterfaceMethod"" declares the following error codes which were not part of the interface: \[unknown-error]`")]; CGroup (Place 28002 446) (Place 28182 446) [(str "// want `cannot use expression as ""SimpleInterface"" value: method ""SimpleInterfaceMethod"" declares the following error codes which were not part of the interface: \[unknown-error]`")]; CGroup (Place 28220 450) (Place 28400 450) [(str "// want `cannot use expression as ""SimpleInterface"" value: method ""SimpleInterfaceMethod"" declares the following error codes which were not part of the interface: \[unknown-error]`")]; CGroup (Place 28465 455) (Place 28832 458) [(str "/*
			want
				`cannot use expression as ""SimpleInterface"" value: method ""SimpleInterfaceMethod"" declares the following error codes which were not part of the interface: \[unknown-error]`
				`cannot use expression as ""SimpleInterface"" value: method ""SimpleInterfaceMethod"" declares the following error codes which were not part of the interface: \[unknown-error]` */")]; CGroup (Place 28879 462) (Place 29246 465) [(str "/*
			want
				`cannot use expression as ""SimpleInterface"" value: method ""SimpleInterfaceMethod"" declares the following error codes which were not part of the interface: \[unknown-error]`
				`cannot use expression as ""SimpleInterface"" value: method ""SimpleInterfaceMethod"" declares the following error codes which were not part of the interface: \[unknown-error]` */")]; CGroup (Place 29281 469) (Place 29461 469) [(str "// want `cannot use expression as ""SimpleInterface"" value: method ""SimpleInterfaceMethod"" declares the following error codes which were not part of the interface: \[unknown-error]`")]; CGroup (Place 29495 473) (Place 29675 473) [(str "// want `cannot use expression as ""SimpleInterface"" value: method ""SimpleInterfaceMethod"" declares the following error codes which were not part of the interface: \[unknown-error]`")]; CGroup (Place 30436 499) (Place 30616 499) [(str "// want `cannot use expression as ""SimpleInterface"" value: method ""SimpleInterfaceMethod"" declares the following error codes which were not part of the interface: \[unknown-error]`")]; CGroup (Place 30693 507) (Place 30873 507) [(str "// want `cannot use expression as ""SimpleInterface"" value: method ""SimpleInterfaceMethod"" declares the following error codes which were not part of the interface: \[unknown-error]`")]; CGroup (Place 30947 515) (Place 31127 515) [(str "// want `cannot use expression as ""SimpleInterface"" value: method ""SimpleInterfaceMethod"" declares the following error codes which were not part of the interface: \[unknown-error]`")]; CGroup (Place 31199 523) (Place 31379 523) [(str "// want `cannot use expression as ""SimpleInterface"" value: method ""SimpleInterfaceMethod"" declares the following error codes which were not part of the interface: \[unknown-error]`")]; CGroup (Place 31451 531) (Place 31631 531) [(str "// want `cannot use expression as ""SimpleInterface"" value: method ""SimpleInterfaceMethod"" declares the following error codes which were not part of the interface: \[unknown-error]`")]; CGroup (Place 31666 535) (Place 31846 535) [(str "// want `cannot use expression as ""SimpleInterface"" value: method ""SimpleInterfaceMethod"" declares the following error codes which were not part of the interface: \[unknown-error]`")]; CGroup (Place 31884 539) (Place 32064 539) [(str "// want `cannot use expression as ""SimpleInterface"" value: method ""SimpleInterfaceMethod"" declares the following error codes which were not part of the interface: \[unknown-error]`")]; CGroup (Place 32129 544) (Place 32496 547) [(str "/*
			want
				`cannot use expression as ""SimpleInterface"" value: method ""SimpleInterfaceMethod"" declares the following error codes which were not part of the interface: \[unknown-error]`
				`cannot use expression as ""SimpleInterface"" value: method ""SimpleInterfaceMethod"" declares the following error codes which were not part of the interface: \[unknown-error]` */")]; CGroup (Place 32543 551) (Place 32910 554) [(str "/*
			want
				`cannot use expression as ""SimpleInterface"" value: method ""SimpleInterfaceMethod"" declares the following error codes which were not part of the interface: \[unknown-error]`
				`cannot use expression as ""SimpleInterface"" value: method ""SimpleInterfaceMethod"" declares the following error codes which were not part of the interface: \[unknown-error]` */")]; CGroup (Place 32945 558) (Place 33125 558) [(str "// want `cannot use expression as ""SimpleInterface"" value: method ""SimpleInterfaceMethod"" declares the following error codes which were not part of the interface: \[unknown-error]`")]; CGroup (Place 33159 562) (Place 33339 562) [(str "// want `cannot use expression as ""SimpleInterface"" value: method ""SimpleInterfaceMethod"" declares the following error codes which were not part of the interface: \[unknown-error]`")]; CGroup (Place 33541 570) (Place 33721 570) [(str "// want `cannot use expression as ""SimpleInterface"" value: method ""SimpleInterfaceMethod"" declares the following error codes which were not part of the interface: \[unknown-error]`")]; CGroup (Place 33752 571) (Place 33765 571) [(str "// no problem")]; CGroup (Place 33796 572) (Place 33809 572) [(str "// no problem")]; CGroup (Place 33840 573) (Place 33853 573) [(str "// no problem")]; CGroup (Place 33884 574) (Place 34064 574) [(str "// want `cannot use expression as ""SimpleInterface"" value: method ""SimpleInterfaceMethod"" declares the following error codes which were not part of the interface: \[unknown-error]`")]; CGroup (Place 34095 575) (Place 34275 575) [(str "// want `cannot use expression as ""SimpleInterface"" value: method ""SimpleInterfaceMethod"" declares the following error codes which were not part of the interface: \[unknown-error]`")]; CGroup (Place 34306 576) (Place 34319 576) [(str "// no problem")]; CGroup (Place 34350 577) (Place 34530 577) [(str "// want `cannot use expression as ""SimpleInterface"" value: method ""SimpleInterfaceMethod"" declares the following error codes which were not part of the interface: \[unknown-error]`")]; CGroup (Place 34561 578) (Place 34741 578) [(str "// want `cannot use expression as ""SimpleInterface"" value: method ""SimpleInterfaceMethod"" declares the following error codes which were not part of the interface: \[unknown-error]`")]; CGroup (Place 34744 580) (Place 34794 580) [(str "// Same cases but this time in a select statement:")]; CGroup (Place 34821 582) (Place 35001 582) [(str "// want `cannot use expression as ""SimpleInterface"" value: method ""SimpleInterfaceMethod"" declares the following error codes which were not part of the interface: \[unknown-error]`")]; CGroup (Place 35139 590) (Place 35319 590) [(str "// want `cannot use expression as ""SimpleInterface"" value: method ""SimpleInterfaceMethod"" declares the following error codes which were not part of the interface: \[unknown-error]`")]; CGroup (Place 35347 592) (Place 35527 592) [(str "// want `cannot use expression as ""SimpleInterface"" value: method ""SimpleInterfaceMethod"" declares the following error codes which were not part of the interface: \[unknown-error]`")]; CGroup (Place 35572 594) (Place 35752 594) [(str "// want `cannot use expression as ""SimpleInterface"" value: method ""SimpleInterfaceMethod"" declares the following error codes which were not part of the interface: \[unknown-error]`")]; CGroup (Place 35781 596) (Place 35961 596) [(str "// want `cannot use expression as ""SimpleInterface"" value: method ""SimpleInterfaceMethod"" declares the following error codes which were not part of the interface: \[unknown-error]`")]; CGroup (Place 36042 604) (Place 36100 604) [(str "// want someLocalInterface:""ErrorInterface: local1 local2""")]; CGroup (Place 36103 605) (Place 36172 608) [(str "// Errors:"); (str "//"); (str "//    - local-1-error --"); (str "//    - local-2-error --")]; CGroup (Place 36190 609) (Place 36246 609) [(str "// want local1:""ErrorCodes: local-1-error local-2-error""")]; CGroup (Place 36250 611) (Place 36319 614) [(str "// Errors:"); (str "//"); (str "//    - local-3-error --"); (str "//    - local-4-error --")]; CGroup (Place 36337 615) (Place 36393 615) [(str "// want local2:""ErrorCodes: local-3-error local-4-error""")]; CGroup (Place 36412 617) (Place 36480 617) [(str "// want `interface method ""local3"" does not declare any error codes`")]; CGroup (Place 36770 632) (Place 36787 632) [(str "// this one is ok")]; CGroup (Place 37014 642) (Place 37366 645) [(str "/*
		want
			`cannot use expression as ""someLocalInterface"" value: method ""local1"" declares the following error codes which were not part of the interface: \[unknown-error]`
			`cannot use expression as ""someLocalInterface"" value: method ""local2"" declares the following error codes which were not part of the interface: \[some-1-error some-2-error]` */")]; CGroup (Place 37412 650) (Place 37451 650) [(str "// want Interface1:""ErrorInterface: I1""")]; CGroup (Place 37454 651) (Place 37469 651) [(str "// Errors: none")]; CGroup (Place 37483 652) (Place 37507 652) [(str "// want I1:""ErrorCodes:""")]; CGroup (Place 37535 654) (Place 37574 654) [(str "// want Interface2:""ErrorInterface: I2""")]; CGroup (Place 37577 655) (Place 37592 655) [(str "// Errors: none")]; CGroup (Place 37606 656) (Place 37630 656) [(str "// want I2:""ErrorCodes:""")]; CGroup (Place 37658 658) (Place 37697 658) [(str "// want Interface3:""ErrorInterface: I3""")]; CGroup (Place 37700 659) (Place 37715 659) [(str "// Errors: none")]; CGroup (Place 37729 660) (Place 37753 660) [(str "// want I3:""ErrorCodes:""")]; CGroup (Place 37885 670) (Place 37923 672) [(str "// Errors:"); (str "//"); (str "//    - unknown-error --")]; CGroup (Place 37966 673) (Place 38004 673) [(str "// want I1:""ErrorCodes: unknown-error""")]; CGroup (Place 38040 677) (Place 38078 679) [(str "// Errors:"); (str "//"); (str "//    - unknown-error --")]; CGroup (Place 38121 680) (Place 38159 680) [(str "// want I2:""ErrorCodes: unknown-error""")]; CGroup (Place 38195 684) (Place 38289 688) [(str "// Errors:"); (str "//"); (str "//    - unknown-1-error --"); (str "//    - unknown-2-error --"); (str "//    - unknown-3-error --")]; CGroup (Place 38332 689) (Place 38404 689) [(str "// want I3:""ErrorCodes: unknown-1-error unknown-2-error unknown-3-error""")]; CGroup (Place 38825 705) (Place 39327 709) [(str "/*
		want
			`cannot use expression as ""Interface1"" value: method ""I1"" declares the following error codes which were not part of the interface: \[unknown-error]`
			`cannot use expression as ""Interface2"" value: method ""I2"" declares the following error codes which were not part of the interface: \[unknown-error]`
			`cannot use expression as ""Interface3"" value: method ""I3"" declares the following error codes which were not part of the interface: \[unknown-1-error unknown-2-error unknown-3-error]` */")]; CGroup (Place 39425 714) (Place 39613 714) [(str "// want `cannot use expression as ""EmbeddedSimpleInterface"" value: method ""SimpleInterfaceMethod"" declares the following error codes which were not part of the interface: \[unknown-error]`")]].
Definition t_interfaces_files : list source_file := [SourceFile t_interfaces_nodes0 t_interfaces_cgroups0; SourceFile t_interfaces_nodes1 t_interfaces_cgroups1; SourceFile t_interfaces_nodes2 t_interfaces_cgroups2].
Definition t_interfaces_info : typeinfo := map_info (list_to_map t_interfaces_types) (list_to_map t_interfaces_values) (list_to_map t_interfaces_uses) (list_to_map t_interfaces_defs) (list_to_map t_interfaces_sels) (list_to_set [1; 4; 5; 6; 7; 8; 9; 10; 11; 12; 13; 14; 15; 16; 17; 18; 19; 20; 47; 48; 49; 50; 51; 56; 60; 64; 105; 109; 113; 117; 142; 143; 144; 145; 146; 147; 148; 149; 150; 151; 152; 155; 156; 157; 165; 169; 175; 176; 177; 178; 179; 195; 197; 198; 200; 201; 202; 204; 205; 207; 208; 210; 211; 214; 215; 216; 217; 218; 219; 220; 222; 224; 225; 230; 231; 232; 233; 234; 235]) (list_to_map t_interfaces_pkgnames) (list_to_map t_interfaces_objnames) (list_to_map t_interfaces_objtypes) (list_to_map t_interfaces_under) t_interfaces_methods t_interfaces_ierr t_interfaces_iree t_interfaces_icause t_interfaces_impl (list_to_map t_interfaces_named_methods).
Definition t_interfaces : package := Package (list_to_map [(1, t_interfaces_f1); (2, t_interfaces_f2); (3, t_interfaces_f3); (4, t_interfaces_f4); (5, t_interfaces_f5); (6, t_interfaces_f6); (7, t_interfaces_f7); (8, t_interfaces_f8); (9, t_interfaces_f9); (10, t_interfaces_f10); (11, t_interfaces_f11); (12, t_interfaces_f12); (13, t_interfaces_f13); (14, t_interfaces_f14); (15, t_interfaces_f15); (16, t_interfaces_f16); (17, t_interfaces_f17); (18, t_interfaces_f18); (19, t_interfaces_f19); (20, t_interfaces_f20); (21, t_interfaces_f21); (22, t_interfaces_f22); (23, t_interfaces_f23); (24, t_interfaces_f24); (25, t_interfaces_f25); (26, t_interfaces_f26); (27, t_interfaces_f27); (28, t_interfaces_f28); (29, t_interfaces_f29); (30, t_interfaces_f30); (31, t_interfaces_f31); (32, t_interfaces_f32); (33, t_interfaces_f33); (34, t_interfaces_f34); (35, t_interfaces_f35); (36, t_interfaces_f36); (37, t_interfaces_f37); (38, t_interfaces_f38); (39, t_interfaces_f39); (40, t_interfaces_f40); (41, t_interfaces_f41); (42, t_interfaces_f42); (43, t_interfaces_f43); (44, t_interfaces_f44); (45, t_interfaces_f45); (46, t_interfaces_f46); (47, t_interfaces_f47); (48, t_interfaces_f48); (49, t_interfaces_f49); (50, t_interfaces_f50); (51, t_interfaces_f51); (52, t_interfaces_f52)]) [1; 2; 3; 4; 5; 6; 7; 8; 9; 10; 11; 12; 13; 14; 15; 16; 17; 18; 19; 20; 21; 22; 23; 24; 25; 26; 27; 28; 29; 30; 31; 32; 34; 35; 36; 37; 38; 39; 40; 41; 42; 43; 44; 45; 46; 47; 48; 49; 50; 51; 52] t_interfaces_gendecls t_interfaces_top (list_to_map t_interfaces_objs) (fun id => default [] (createCommentMap t_interfaces_files id)) t_interfaces_info.
Definition t_interfaces_rank : gostring -> nat := fun n => default 0%nat ((list_to_map [((str "SimpleInterface"), 1%nat); ((str "SomeInterface"), 1%nat); ((str "WithInvalidMethods"), 1%nat); ((str "EmbeddedSimpleInterface"), 2%nat); ((str "EmbeddedMultipleInterfaces"), 2%nat); ((str "EmbeddedOtherPackage"), 2%nat); ((str "EmbeddedOtherPackage2"), 2%nat); ((str "EmbeddedOtherPackage3"), 1%nat); ((str "SimpleInterface2"), 1%nat); ((str "OtherSimpleInterface"), 1%nat); ((str "EmbeddedSimpleInterface2"), 2%nat); ((str "ReeError"), 1%nat); ((str "EmbeddedMultipleInterfaces2"), 2%nat); ((str "EmbeddedSimpleInterfaceOtherFile"), 2%nat); ((str "EmbeddedSimpleInterface2OtherFile"), 2%nat); ((str "InterFaceWithoutErrorCodeDeclarations"), 1%nat); ((str "SimpleInterfaceIncompatible"), 1%nat); ((str "RandomInterface"), 1%nat); ((str "someLocalInterface"), 1%nat); ((str "Interface1"), 1%nat); ((str "Interface2"), 1%nat); ((str "Interface3"), 1%nat)] : gmap gostring nat) !! n).

(** interfaces/inner1: 6 diagnostics and 18 facts, as its "want" comments demand. *)
Theorem t_interfaces_inner1_ascending :
  report (run_test t_interfaces_inner1 ascending (Facts ∅ ∅ ∅ ∅)) = Some [
    (67, (str "interface method ""Inner1CodeNotDeclared"" does not declare any error codes")) (* inner1.go:43 *);
    (79, (str "interface method ""Inner1NoCodes"" does not declare any error codes")) (* inner1.go:47 *);
    (171, (str "called function does not declare error codes")) (* inner1.go:86 *);
    (147, (str "called function does not declare error codes")) (* inner1.go:75 *);
    (202, (str "called function does not declare error codes")) (* inner1.go:100 *);
    (209, (str "called function does not declare error codes")) (* inner1.go:102 *)] /\
  fact_texts (facts_after_test (run_test t_interfaces_inner1 ascending (Facts ∅ ∅ ∅ ∅))) [47; 48; 49; 50; 51; 52; 53; 54; 55; 56; 57; 58; 59; 60; 61; 62; 63; 64; 65; 66; 67; 68; 69; 70; 71; 72; 73; 74; 75; 76; 77; 78; 79; 80; 81; 82; 83; 84; 85; 86; 87; 88; 89; 90; 91; 92; 93; 94; 95; 96; 97; 98; 99; 100; 101; 102] = [
    (47, (str "ErrorInterface: Inner1Method1 Inner1Method2")) (* inner1.go:3 Inner1Interface1 *);
    (48, (str "ErrorInterface: SimpleInterfaceMethod")) (* inner1.go:23 SimpleInterface *);
    (49, (str "ErrorInterface: SimpleInterfaceMethod")) (* inner1.go:33 SimpleInterfaceIncompatible *);
    (51, (str "ErrorInterface: Inner1YesCodes")) (* inner1.go:46 Inner1Interface3 *);
    (52, (str "ErrorCodes: interface-1-error interface-2-error interface-3-error interface-4-error")) (* inner1.go:62 FunctionForInterface1 *);
    (53, (str "ErrorCodes: some-error")) (* inner1.go:73 FunctionForInterface2 *);
    (54, (str "ErrorCodes: interface-1-error interface-2-error")) (* inner1.go:84 FunctionForInterface3 *);
    (55, (str "ErrorCodes: interface-1-error interface-2-error interface-3-error interface-4-error")) (* inner1.go:97 FunctionForAllInterfaces *);
    (57, (str "ErrorCodes: interface-1-error")) (* inner1.go:114 InterfaceMethod1 *);
    (58, (str "ErrorCodes: interface-3-error")) (* inner1.go:121 InterfaceMethod2 *);
    (61, (str "ErrorCodes: interface-2-error")) (* inner1.go:134 InterfaceMethod1 *);
    (62, (str "ErrorCodes: interface-4-error")) (* inner1.go:141 InterfaceMethod2 *);
    (64, (str "ErrorType{Field:{Name:""TheCode"", Position:0}, Codes:}")) (* inner1.go:149 Error *);
    (83, (str "ErrorCodes: interface-1-error interface-2-error")) (* inner1.go:10 Inner1Method1 *);
    (84, (str "ErrorCodes: interface-3-error interface-4-error")) (* inner1.go:16 Inner1Method2 *);
    (90, (str "ErrorCodes: interface-1-error interface-2-error")) (* inner1.go:30 SimpleInterfaceMethod *);
    (91, (str "ErrorCodes: inner1-error")) (* inner1.go:39 SimpleInterfaceMethod *);
    (94, (str "ErrorCodes: interface-1-error interface-2-error")) (* inner1.go:53 Inner1YesCodes *)].
Proof. vm_compute. split; reflexivity. Qed.

(** interfaces/inner1: 6 diagnostics and 18 facts, as its "want" comments demand. *)
Theorem t_interfaces_inner1_descending :
  report (run_test t_interfaces_inner1 descending (Facts ∅ ∅ ∅ ∅)) = Some [
    (67, (str "interface method ""Inner1CodeNotDeclared"" does not declare any error codes")) (* inner1.go:43 *);
    (79, (str "interface method ""Inner1NoCodes"" does not declare any error codes")) (* inner1.go:47 *);
    (202, (str "called function does not declare error codes")) (* inner1.go:100 *);
    (209, (str "called function does not declare error codes")) (* inner1.go:102 *);
    (147, (str "called function does not declare error codes")) (* inner1.go:75 *);
    (171, (str "called function does not declare error codes")) (* inner1.go:86 *)] /\
  fact_texts (facts_after_test (run_test t_interfaces_inner1 descending (Facts ∅ ∅ ∅ ∅))) [47; 48; 49; 50; 51; 52; 53; 54; 55; 56; 57; 58; 59; 60; 61; 62; 63; 64; 65; 66; 67; 68; 69; 70; 71; 72; 73; 74; 75; 76; 77; 78; 79; 80; 81; 82; 83; 84; 85; 86; 87; 88; 89; 90; 91; 92; 93; 94; 95; 96; 97; 98; 99; 100; 101; 102] = [
    (47, (str "ErrorInterface: Inner1Method1 Inner1Method2")) (* inner1.go:3 Inner1Interface1 *);
    (48, (str "ErrorInterface: SimpleInterfaceMethod")) (* inner1.go:23 SimpleInterface *);
    (49, (str "ErrorInterface: SimpleInterfaceMethod")) (* inner1.go:33 SimpleInterfaceIncompatible *);
    (51, (str "ErrorInterface: Inner1YesCodes")) (* inner1.go:46 Inner1Interface3 *);
    (52, (str "ErrorCodes: interface-1-error interface-2-error interface-3-error interface-4-error")) (* inner1.go:62 FunctionForInterface1 *);
    (53, (str "ErrorCodes: some-error")) (* inner1.go:73 FunctionForInterface2 *);
    (54, (str "ErrorCodes: interface-1-error interface-2-error")) (* inner1.go:84 FunctionForInterface3 *);
    (55, (str "ErrorCodes: interface-1-error interface-2-error interface-3-error interface-4-error")) (* inner1.go:97 FunctionForAllInterfaces *);
    (57, (str "ErrorCodes: interface-1-error")) (* inner1.go:114 InterfaceMethod1 *);
    (58, (str "ErrorCodes: interface-3-error")) (* inner1.go:121 InterfaceMethod2 *);
    (61, (str "ErrorCodes: interface-2-error")) (* inner1.go:134 InterfaceMethod1 *);
    (62, (str "ErrorCodes: interface-4-error")) (* inner1.go:141 InterfaceMethod2 *);
    (64, (str "ErrorType{Field:{Name:""TheCode"", Position:0}, Codes:}")) (* inner1.go:149 Error *);
    (83, (str "ErrorCodes: interface-1-error interface-2-error")) (* inner1.go:10 Inner1Method1 *);
    (84, (str "ErrorCodes: interface-3-error interface-4-error")) (* inner1.go:16 Inner1Method2 *);
    (90, (str "ErrorCodes: interface-1-error interface-2-error")) (* inner1.go:30 SimpleInterfaceMethod *);
    (91, (str "ErrorCodes: inner1-error")) (* inner1.go:39 SimpleInterfaceMethod *);
    (94, (str "ErrorCodes: interface-1-error interface-2-error")) (* inner1.go:53 Inner1YesCodes *)].
Proof. vm_compute. split; reflexivity. Qed.

(** The presuppositions of the general theorems that this package satisfies. *)
Theorem t_interfaces_inner1_presuppositions :
  (forall fa, usable_functions t_interfaces_inner1 fa) /\
  (forall fa, no_literal_recursion t_interfaces_inner1 (collectFunctions t_interfaces_inner1) fa) /\
  (forall fa, literals_apart t_interfaces_inner1 (collectFunctions t_interfaces_inner1) fa) /\
  types_usable t_interfaces_inner1 /\
  (forall w n, occurs t_interfaces_inner1 w n -> ~ ill_formed t_interfaces_inner1 w n) /\
  distinct_definitions t_interfaces_inner1 /\
  interfaces_ok t_interfaces_inner1 /\
  uses_resolved t_interfaces_inner1 (collectFunctions t_interfaces_inner1) /\
  (forall g fn, pk_funcs t_interfaces_inner1 !! g = Some fn -> disciplined t_interfaces_inner1 (facts_after_test (run_test t_interfaces_inner1 ascending (Facts ∅ ∅ ∅ ∅))) fn /\ resolved t_interfaces_inner1 (collectFunctions t_interfaces_inner1) (facts_after_test (run_test t_interfaces_inner1 ascending (Facts ∅ ∅ ∅ ∅))) fn) /\
  Forall layout t_interfaces_inner1_files.
Proof.
  split_and!.
  - intros fa; apply package_usable_spec; vm_compute; reflexivity.
  - intros fa; apply recursion_check_spec; vm_compute; reflexivity.
  - intros fa; apply apart_spec; vm_compute; reflexivity.
  - apply types_ok_spec; vm_compute; reflexivity.
  - apply package_formed_spec; vm_compute; reflexivity.
  - apply definitions_check_spec; vm_compute; reflexivity.
  - apply (interfaces_check_spec t_interfaces_inner1 t_interfaces_inner1_rank); vm_compute; reflexivity.
  - apply uses_check_spec; vm_compute; reflexivity.
  - intros g fn; apply sound_ok_spec; vm_compute; reflexivity.
  - apply layouts_spec; vm_compute; reflexivity.
Qed.

(** The presuppositions of the general theorems that this package satisfies. *)
Theorem t_interfaces_inner2_presuppositions :
  (forall fa, usable_functions t_interfaces_inner2 fa) /\
  (forall fa, no_literal_recursion t_interfaces_inner2 (collectFunctions t_interfaces_inner2) fa) /\
  (forall fa, literals_apart t_interfaces_inner2 (collectFunctions t_interfaces_inner2) fa) /\
  types_usable t_interfaces_inner2 /\
  (forall w n, occurs t_interfaces_inner2 w n -> ~ ill_formed t_interfaces_inner2 w n) /\
  distinct_definitions t_interfaces_inner2 /\
  interfaces_ok t_interfaces_inner2 /\
  uses_resolved t_interfaces_inner2 (collectFunctions t_interfaces_inner2) /\
  (forall g fn, pk_funcs t_interfaces_inner2 !! g = Some fn -> disciplined t_interfaces_inner2 (facts_after_test (run_test t_interfaces_inner2 ascending (facts_after_test (run_test t_interfaces_inner1 ascending (Facts ∅ ∅ ∅ ∅))))) fn /\ resolved t_interfaces_inner2 (collectFunctions t_interfaces_inner2) (facts_after_test (run_test t_interfaces_inner2 ascending (facts_after_test (run_test t_interfaces_inner1 ascending (Facts ∅ ∅ ∅ ∅))))) fn) /\
  Forall layout t_interfaces_inner2_files.
Proof.
  split_and!.
  - intros fa; apply package_usable_spec; vm_compute; reflexivity.
  - intros fa; apply recursion_check_spec; vm_compute; reflexivity.
  - intros fa; apply apart_spec; vm_compute; reflexivity.
  - apply types_ok_spec; vm_compute; reflexivity.
  - apply package_formed_spec; vm_compute; reflexivity.
  - apply definitions_check_spec; vm_compute; reflexivity.
  - apply (interfaces_check_spec t_interfaces_inner2 t_interfaces_inner2_rank); vm_compute; reflexivity.
  - apply uses_check_spec; vm_compute; reflexivity.
  - intros g fn; apply sound_ok_spec; vm_compute; reflexivity.
  - apply layouts_spec; vm_compute; reflexivity.
Qed.

(** interfaces: 145 diagnostics and 45 facts, as its "want" comments demand. *)
Theorem t_interfaces_ascending :
  report (run_test t_interfaces ascending (facts_after_test (run_test t_interfaces_inner2 ascending (facts_after_test (run_test t_interfaces_inner1 ascending (Facts ∅ ∅ ∅ ∅)))))) = Some [
    (64, (str "error should be returned as the last argument")) (* interfaces.go:39 *);
    (582, (str "interface method ""ExportedCodeNotDeclared"" does not declare any error codes")) (* invalid.go:6 *);
    (589, (str "interface method ""localCodeNotDeclared"" does not declare any error codes")) (* invalid.go:7 *);
    (2577, (str "interface method ""local3"" does not declare any error codes")) (* invalid.go:617 *);
    (562, (str "embedded interface is not compatible: method ""SimpleInterfaceMethod"" has mismatches in declared error codes: missing codes: [interface-3-error] unused codes: [interface-2-error]")) (* interfaces_multifile.go:16 *);
    (144, (str "embedded interface is not compatible: method ""SimpleInterfaceMethod"" has mismatches in declared error codes: missing codes: [interface-3-error] unused codes: [interface-2-error]")) (* interfaces.go:84 *);
    (102, (str "embedded interface is not compatible: method ""SimpleInterfaceMethod"" has mismatches in declared error codes: missing codes: [interface-1-error interface-2-error] unused codes: [inner1-error]")) (* interfaces.go:60 *);
    (548, (str "embedded interface is not compatible: method ""SimpleInterfaceMethod"" has mismatches in declared error codes: missing codes: [interface-1-error] unused codes: [interface-3-error]")) (* interfaces_multifile.go:7 *);
    (114, (str "embedded interface is not compatible: method ""SimpleInterfaceMethod"" has mismatches in declared error codes: missing codes: [interface-1-error interface-2-error] unused codes: [inner1-error]")) (* interfaces.go:65 *);
    (82, (str "embedded interface is not compatible: method ""SimpleInterfaceMethod"" has mismatches in declared error codes: missing codes: [interface-1-error] unused codes: [interface-3-error]")) (* interfaces.go:49 *);
    (302, (str "function ""Inner1NoCodes"" is exported, but does not declare any error codes")) (* interfaces.go:151 *);
    (621, (str "cannot use expression as ""SimpleInterface"" value: method ""SimpleInterfaceMethod"" declares the following error codes which were not part of the interface: [unknown-error]")) (* invalid.go:21 *);
    (638, (str "cannot use expression as ""SimpleInterface"" value: method ""SimpleInterfaceMethod"" declares the following error codes which were not part of the interface: [unknown-error]")) (* invalid.go:25 *);
    (658, (str "cannot use expression as ""SimpleInterface"" value: method ""SimpleInterfaceMethod"" declares the following error codes which were not part of the interface: [unknown-error]")) (* invalid.go:29 *);
    (676, (str "cannot use expression as ""SimpleInterface"" value: method ""SimpleInterfaceMethod"" declares the following error codes which were not part of the interface: [unknown-error]")) (* invalid.go:34 *);
    (703, (str "cannot use expression as ""SimpleInterface"" value: method ""SimpleInterfaceMethod"" declares the following error codes which were not part of the interface: [unknown-error]")) (* invalid.go:41 *);
    (733, (str "cannot use expression as ""SimpleInterface"" value: method ""SimpleInterfaceMethod"" declares the following error codes which were not part of the interface: [unknown-error]")) (* invalid.go:48 *);
    (764, (str "cannot use expression as ""SimpleInterface"" value: method ""SimpleInterfaceMethod"" declares the following error codes which were not part of the interface: [unknown-error]")) (* invalid.go:58 *);
    (780, (str "cannot use expression as ""SimpleInterface"" value: method ""SimpleInterfaceMethod"" declares the following error codes which were not part of the interface: [unknown-error]")) (* invalid.go:62 *);
    (780, (str "cannot use expression as ""SimpleInterface"" value: method ""SimpleInterfaceMethod"" declares the following error codes which were not part of the interface: [unknown-error]")) (* invalid.go:62 *);
    (797, (str "cannot use expression as ""SimpleInterface"" value: method ""SimpleInterfaceMethod"" declares the following error codes which were not part of the interface: [unknown-error]")) (* invalid.go:70 *);
    (807, (str "cannot use expression as ""SimpleInterface"" value: method ""SimpleInterfaceMethod"" declares the following error codes which were not part of the interface: [unknown-error]")) (* invalid.go:71 *);
    (816, (str "cannot use expression as ""SimpleInterface"" value: method ""SimpleInterfaceMethod"" declares the following error codes which were not part of the interface: [unknown-error]")) (* invalid.go:72 *);
    (816, (str "cannot use expression as ""SimpleInterface"" value: method ""SimpleInterfaceMethod"" declares the following error codes which were not part of the interface: [unknown-error]")) (* invalid.go:72 *);
    (850, (str "cannot use expression as ""SimpleInterface"" value: method ""SimpleInterfaceMethod"" declares the following error codes which were not part of the interface: [unknown-error]")) (* invalid.go:82 *);
    (862, (str "cannot use expression as ""SimpleInterface"" value: method ""SimpleInterfaceMethod"" declares the following error codes which were not part of the interface: [unknown-error]")) (* invalid.go:85 *);
    (874, (str "cannot use expression as ""SimpleInterface"" value: method ""SimpleInterfaceMethod"" declares the following error codes which were not part of the interface: [unknown-error]")) (* invalid.go:89 *);
    (886, (str "cannot use expression as ""SimpleInterface"" value: method ""SimpleInterfaceMethod"" declares the following error codes which were not part of the interface: [unknown-error]")) (* invalid.go:93 *);
    (945, (str "cannot use expression as ""SimpleInterface"" value: method ""SimpleInterfaceMethod"" declares the following error codes which were not part of the interface: [unknown-error]")) (* invalid.go:107 *);
    (958, (str "cannot use expression as ""SimpleInterface"" value: method ""SimpleInterfaceMethod"" declares the following error codes which were not part of the interface: [unknown-error]")) (* invalid.go:109 *);
    (964, (str "cannot use expression as ""SimpleInterface"" value: method ""SimpleInterfaceMethod"" declares the following error codes which were not part of the interface: [unknown-error]")) (* invalid.go:110 *);
    (1000, (str "cannot use expression as ""SimpleInterface"" value: method ""SimpleInterfaceMethod"" declares the following error codes which were not part of the interface: [unknown-error]")) (* invalid.go:118 *);
    (1008, (str "cannot use expression as ""SimpleInterface"" value: method ""SimpleInterfaceMethod"" declares the following error codes which were not part of the interface: [unknown-error]")) (* invalid.go:119 *);
    (1028, (str "cannot use expression as ""SimpleInterface"" value: method ""SimpleInterfaceMethod"" declares the following error codes which were not part of the interface: [unknown-error]")) (* invalid.go:123 *);
    (1060, (str "cannot use expression as ""SimpleInterface"" value: method ""SimpleInterfaceMethod"" declares the following error codes which were not part of the interface: [unknown-error]")) (* invalid.go:133 *);
    (1071, (str "cannot use expression as ""SimpleInterface"" value: method ""SimpleInterfaceMethod"" declares the following error codes which were not part of the interface: [unknown-error]")) (* invalid.go:135 *);
    (1119, (str "cannot use expression as ""SimpleInterface"" value: method ""SimpleInterfaceMethod"" declares the following error codes which were not part of the interface: [unknown-error]")) (* invalid.go:156 *);
    (1130, (str "cannot use expression as ""SimpleInterface"" value: method ""SimpleInterfaceMethod"" declares the following error codes which were not part of the interface: [incompatible-1-error incompatible-2-error]")) (* invalid.go:158 *);
    (1134, (str "cannot use expression as ""SimpleInterface"" value: method ""SimpleInterfaceMethod"" declares the following error codes which were not part of the interface: [incompatible-1-error incompatible-2-error]")) (* invalid.go:159 *);
    (1140, (str "cannot use expression as ""SimpleInterface"" value: method ""SimpleInterfaceMethod"" declares the following error codes which were not part of the interface: [incompatible-1-error incompatible-2-error]")) (* invalid.go:160 *);
    (1171, (str "cannot use expression as ""SimpleInterface"" value: method ""SimpleInterfaceMethod"" declares the following error codes which were not part of the interface: [incompatible-1-error incompatible-2-error]")) (* invalid.go:168 *);
    (1228, (str "cannot use expression as ""SimpleInterface"" value: method ""SimpleInterfaceMethod"" declares the following error codes which were not part of the interface: [unknown-error]")) (* invalid.go:192 *);
    (1241, (str "cannot use expression as ""SimpleInterface"" value: method ""SimpleInterfaceMethod"" declares the following error codes which were not part of the interface: [unknown-error]")) (* invalid.go:194 *);
    (1259, (str "cannot use expression as ""SimpleInterface"" value: method ""SimpleInterfaceMethod"" declares the following error codes which were not part of the interface: [unknown-error]")) (* invalid.go:197 *);
    (1267, (str "cannot use expression as ""SimpleInterface"" value: method ""SimpleInterfaceMethod"" declares the following error codes which were not part of the interface: [unknown-error]")) (* invalid.go:199 *);
    (1279, (str "cannot use expression as ""SimpleInterface"" value: method ""SimpleInterfaceMethod"" declares the following error codes which were not part of the interface: [unknown-error]")) (* invalid.go:200 *);
    (1287, (str "cannot use expression as ""SimpleInterface"" value: method ""SimpleInterfaceMethod"" declares the following error codes which were not part of the interface: [unknown-error]")) (* invalid.go:201 *);
    (1289, (str "cannot use expression as ""SimpleInterface"" value: method ""SimpleInterfaceMethod"" declares the following error codes which were not part of the interface: [unknown-error]")) (* invalid.go:201 *);
    (1291, (str "cannot use expression as ""SimpleInterface"" value: method ""SimpleInterfaceMethod"" declares the following error codes which were not part of the interface: [unknown-error]")) (* invalid.go:201 *);
    (1312, (str "cannot use expression as ""SimpleInterface"" value: method ""SimpleInterfaceMethod"" declares the following error codes which were not part of the interface: [unknown-error]")) (* invalid.go:209 *);
    (1329, (str "cannot use expression as ""SimpleInterface"" value: method ""SimpleInterfaceMethod"" declares the following error codes which were not part of the interface: [unknown-error]")) (* invalid.go:210 *);
    (1343, (str "cannot use expression as ""SimpleInterface"" value: method ""SimpleInterfaceMethod"" declares the following error codes which were not part of the interface: [unknown-error]")) (* invalid.go:211 *);
    (1360, (str "cannot use expression as ""SimpleInterface"" value: method ""SimpleInterfaceMethod"" declares the following error codes which were not part of the interface: [unknown-error]")) (* invalid.go:215 *);
    (1363, (str "cannot use expression as ""SimpleInterface"" value: method ""SimpleInterfaceMethod"" declares the following error codes which were not part of the interface: [unknown-error]")) (* invalid.go:216 *);
    (1382, (str "cannot use expression as ""SimpleInterface"" value: method ""SimpleInterfaceMethod"" declares the following error codes which were not part of the interface: [unknown-error]")) (* invalid.go:222 *);
    (1392, (str "cannot use expression as ""SimpleInterface"" value: method ""SimpleInterfaceMethod"" declares the following error codes which were not part of the interface: [unknown-error]")) (* invalid.go:223 *);
    (1434, (str "cannot use expression as ""SimpleInterface"" value: method ""SimpleInterfaceMethod"" declares the following error codes which were not part of the interface: [unknown-error]")) (* invalid.go:229 *);
    (1437, (str "cannot use expression as ""SimpleInterface"" value: method ""SimpleInterfaceMethod"" declares the following error codes which were not part of the interface: [unknown-error]")) (* invalid.go:230 *);
    (1457, (str "cannot use expression as ""SimpleInterface"" value: method ""SimpleInterfaceMethod"" declares the following error codes which were not part of the interface: [unknown-error]")) (* invalid.go:237 *);
    (1462, (str "cannot use expression as ""SimpleInterface"" value: method ""SimpleInterfaceMethod"" declares the following error codes which were not part of the interface: [unknown-error]")) (* invalid.go:238 *);
    (1510, (str "cannot use expression as ""SimpleInterface"" value: method ""SimpleInterfaceMethod"" declares the following error codes which were not part of the interface: [unknown-error]")) (* invalid.go:251 *);
    (1519, (str "cannot use expression as ""SimpleInterface"" value: method ""SimpleInterfaceMethod"" declares the following error codes which were not part of the interface: [unknown-error]")) (* invalid.go:254 *);
    (1523, (str "cannot use expression as ""SimpleInterface"" value: method ""SimpleInterfaceMethod"" declares the following error codes which were not part of the interface: [unknown-error]")) (* invalid.go:257 *);
    (1542, (str "cannot use expression as ""SimpleInterface"" value: method ""SimpleInterfaceMethod"" declares the following error codes which were not part of the interface: [unknown-error]")) (* invalid.go:263 *);
    (1552, (str "cannot use expression as ""SimpleInterface"" value: method ""SimpleInterfaceMethod"" declares the following error codes which were not part of the interface: [unknown-error]")) (* invalid.go:266 *);
    (1556, (str "cannot use expression as ""SimpleInterface"" value: method ""SimpleInterfaceMethod"" declares the following error codes which were not part of the interface: [unknown-error]")) (* invalid.go:267 *);
    (1571, (str "cannot use expression as ""SimpleInterface"" value: method ""SimpleInterfaceMethod"" declares the following error codes which were not part of the interface: [unknown-error]")) (* invalid.go:272 *);
    (1580, (str "cannot use expression as ""SimpleInterface"" value: method ""SimpleInterfaceMethod"" declares the following error codes which were not part of the interface: [unknown-error]")) (* invalid.go:273 *);
    (1598, (str "cannot use expression as ""SimpleInterface"" value: method ""SimpleInterfaceMethod"" declares the following error codes which were not part of the interface: [unknown-error]")) (* invalid.go:277 *);
    (1607, (str "cannot use expression as ""SimpleInterface"" value: method ""SimpleInterfaceMethod"" declares the following error codes which were not part of the interface: [unknown-error]")) (* invalid.go:278 *);
    (1622, (str "cannot use expression as ""SimpleInterface"" value: method ""SimpleInterfaceMethod"" declares the following error codes which were not part of the interface: [unknown-error]")) (* invalid.go:282 *);
    (1636, (str "cannot use expression as ""SimpleInterface"" value: method ""SimpleInterfaceMethod"" declares the following error codes which were not part of the interface: [unknown-error]")) (* invalid.go:288 *);
    (1639, (str "cannot use expression as ""SimpleInterface"" value: method ""SimpleInterfaceMethod"" declares the following error codes which were not part of the interface: [unknown-error]")) (* invalid.go:289 *);
    (1649, (str "cannot use expression as ""SimpleInterface"" value: method ""SimpleInterfaceMethod"" declares the following error codes which were not part of the interface: [unknown-error]")) (* invalid.go:292 *);
    (1688, (str "cannot use expression as ""SimpleInterface"" value: method ""SimpleInterfaceMethod"" declares the following error codes which were not part of the interface: [unknown-error]")) (* invalid.go:301 *);
    (1698, (str "cannot use expression as ""SimpleInterface"" value: method ""SimpleInterfaceMethod"" declares the following error codes which were not part of the interface: [unknown-error]")) (* invalid.go:304 *);
    (1702, (str "cannot use expression as ""SimpleInterface"" value: method ""SimpleInterfaceMethod"" declares the following error codes which were not part of the interface: [unknown-error]")) (* invalid.go:307 *);
    (1722, (str "cannot use expression as ""SimpleInterface"" value: method ""SimpleInterfaceMethod"" declares the following error codes which were not part of the interface: [unknown-error]")) (* invalid.go:313 *);
    (1732, (str "cannot use expression as ""SimpleInterface"" value: method ""SimpleInterfaceMethod"" declares the following error codes which were not part of the interface: [unknown-error]")) (* invalid.go:316 *);
    (1736, (str "cannot use expression as ""SimpleInterface"" value: method ""SimpleInterfaceMethod"" declares the following error codes which were not part of the interface: [unknown-error]")) (* invalid.go:317 *);
    (1751, (str "cannot use expression as ""SimpleInterface"" value: method ""SimpleInterfaceMethod"" declares the following error codes which were not part of the interface: [unknown-error]")) (* invalid.go:322 *);
    (1760, (str "cannot use expression as ""SimpleInterface"" value: method ""SimpleInterfaceMethod"" declares the following error codes which were not part of the interface: [unknown-error]")) (* invalid.go:323 *);
    (1778, (str "cannot use expression as ""SimpleInterface"" value: method ""SimpleInterfaceMethod"" declares the following error codes which were not part of the interface: [unknown-error]")) (* invalid.go:327 *);
    (1787, (str "cannot use expression as ""SimpleInterface"" value: method ""SimpleInterfaceMethod"" declares the following error codes which were not part of the interface: [unknown-error]")) (* invalid.go:328 *);
    (1805, (str "cannot use expression as ""SimpleInterface"" value: method ""SimpleInterfaceMethod"" declares the following error codes which were not part of the interface: [unknown-error]")) (* invalid.go:332 *);
    (1819, (str "cannot use expression as ""SimpleInterface"" value: method ""SimpleInterfaceMethod"" declares the following error codes which were not part of the interface: [unknown-error]")) (* invalid.go:338 *);
    (1822, (str "cannot use expression as ""SimpleInterface"" value: method ""SimpleInterfaceMethod"" declares the following error codes which were not part of the interface: [unknown-error]")) (* invalid.go:339 *);
    (1831, (str "cannot use expression as ""SimpleInterface"" value: method ""SimpleInterfaceMethod"" declares the following error codes which were not part of the interface: [unknown-error]")) (* invalid.go:342 *);
    (1877, (str "cannot use expression as ""SimpleInterface"" value: method ""SimpleInterfaceMethod"" declares the following error codes which were not part of the interface: [unknown-error]")) (* invalid.go:351 *);
    (1900, (str "cannot use expression as ""SimpleInterface"" value: method ""SimpleInterfaceMethod"" declares the following error codes which were not part of the interface: [unknown-error]")) (* invalid.go:356 *);
    (1910, (str "cannot use expression as ""SimpleInterface"" value: method ""SimpleInterfaceMethod"" declares the following error codes which were not part of the interface: [unknown-error]")) (* invalid.go:359 *);
    (1914, (str "cannot use expression as ""SimpleInterface"" value: method ""SimpleInterfaceMethod"" declares the following error codes which were not part of the interface: [unknown-error]")) (* invalid.go:360 *);
    (1933, (str "cannot use expression as ""SimpleInterface"" value: method ""SimpleInterfaceMethod"" declares the following error codes which were not part of the interface: [unknown-error]")) (* invalid.go:365 *);
    (1955, (str "cannot use expression as ""SimpleInterface"" value: method ""SimpleInterfaceMethod"" declares the following error codes which were not part of the interface: [unknown-error]")) (* invalid.go:369 *);
    (1981, (str "cannot use expression as ""SimpleInterface"" value: method ""SimpleInterfaceMethod"" declares the following error codes which were not part of the interface: [unknown-error]")) (* invalid.go:373 *);
    (2003, (str "cannot use expression as ""SimpleInterface"" value: method ""SimpleInterfaceMethod"" declares the following error codes which were not part of the interface: [unknown-error]")) (* invalid.go:379 *);
    (2019, (str "cannot use expression as ""SimpleInterface"" value: method ""SimpleInterfaceMethod"" declares the following error codes which were not part of the interface: [unknown-error]")) (* invalid.go:382 *);
    (2034, (str "cannot use expression as ""SimpleInterface"" value: method ""SimpleInterfaceMethod"" declares the following error codes which were not part of the interface: [unknown-error]")) (* invalid.go:386 *);
    (2047, (str "cannot use expression as ""SimpleInterface"" value: method ""SimpleInterfaceMethod"" declares the following error codes which were not part of the interface: [unknown-error]")) (* invalid.go:390 *);
    (2061, (str "cannot use expression as ""SimpleInterface"" value: method ""SimpleInterfaceMethod"" declares the following error codes which were not part of the interface: [unknown-error]")) (* invalid.go:395 *);
    (2070, (str "cannot use expression as ""SimpleInterface"" value: method ""SimpleInterfaceMethod"" declares the following error codes which were not part of the interface: [unknown-error]")) (* invalid.go:397 *);
    (2064, (str "cannot use expression as ""SimpleInterface"" value: method ""SimpleInterfaceMethod"" declares the following error codes which were not part of the interface: [unknown-error]")) (* invalid.go:396 *);
    (2068, (str "cannot use expression as ""SimpleInterface"" value: method ""SimpleInterfaceMethod"" declares the following error codes which were not part of the interface: [unknown-error]")) (* invalid.go:397 *);
    (2082, (str "cannot use expression as ""SimpleInterface"" value: method ""SimpleInterfaceMethod"" declares the following error codes which were not part of the interface: [unknown-error]")) (* invalid.go:404 *);
    (2133, (str "cannot use expression as ""SimpleInterface"" value: method ""SimpleInterfaceMethod"" declares the following error codes which were not part of the interface: [unknown-error]")) (* invalid.go:418 *);
    (2148, (str "cannot use expression as ""SimpleInterface"" value: method ""SimpleInterfaceMethod"" declares the following error codes which were not part of the interface: [unknown-error]")) (* invalid.go:426 *);
    (2163, (str "cannot use expression as ""SimpleInterface"" value: method ""SimpleInterfaceMethod"" declares the following error codes which were not part of the interface: [unknown-error]")) (* invalid.go:434 *);
    (2178, (str "cannot use expression as ""SimpleInterface"" value: method ""SimpleInterfaceMethod"" declares the following error codes which were not part of the interface: [unknown-error]")) (* invalid.go:442 *);
    (2185, (str "cannot use expression as ""SimpleInterface"" value: method ""SimpleInterfaceMethod"" declares the following error codes which were not part of the interface: [unknown-error]")) (* invalid.go:446 *);
    (2193, (str "cannot use expression as ""SimpleInterface"" value: method ""SimpleInterfaceMethod"" declares the following error codes which were not part of the interface: [unknown-error]")) (* invalid.go:450 *);
    (2206, (str "cannot use expression as ""SimpleInterface"" value: method ""SimpleInterfaceMethod"" declares the following error codes which were not part of the interface: [unknown-error]")) (* invalid.go:455 *);
    (2206, (str "cannot use expression as ""SimpleInterface"" value: method ""SimpleInterfaceMethod"" declares the following error codes which were not part of the interface: [unknown-error]")) (* invalid.go:455 *);
    (2216, (str "cannot use expression as ""SimpleInterface"" value: method ""SimpleInterfaceMethod"" declares the following error codes which were not part of the interface: [unknown-error]")) (* invalid.go:462 *);
    (2216, (str "cannot use expression as ""SimpleInterface"" value: method ""SimpleInterfaceMethod"" declares the following error codes which were not part of the interface: [unknown-error]")) (* invalid.go:462 *);
    (2223, (str "cannot use expression as ""SimpleInterface"" value: method ""SimpleInterfaceMethod"" declares the following error codes which were not part of the interface: [unknown-error]")) (* invalid.go:469 *);
    (2230, (str "cannot use expression as ""SimpleInterface"" value: method ""SimpleInterfaceMethod"" declares the following error codes which were not part of the interface: [unknown-error]")) (* invalid.go:473 *);
    (2309, (str "cannot use expression as ""SimpleInterface"" value: method ""SimpleInterfaceMethod"" declares the following error codes which were not part of the interface: [unknown-error]")) (* invalid.go:499 *);
    (2324, (str "cannot use expression as ""SimpleInterface"" value: method ""SimpleInterfaceMethod"" declares the following error codes which were not part of the interface: [unknown-error]")) (* invalid.go:507 *);
    (2339, (str "cannot use expression as ""SimpleInterface"" value: method ""SimpleInterfaceMethod"" declares the following error codes which were not part of the interface: [unknown-error]")) (* invalid.go:515 *);
    (2354, (str "cannot use expression as ""SimpleInterface"" value: method ""SimpleInterfaceMethod"" declares the following error codes which were not part of the interface: [unknown-error]")) (* invalid.go:523 *);
    (2369, (str "cannot use expression as ""SimpleInterface"" value: method ""SimpleInterfaceMethod"" declares the following error codes which were not part of the interface: [unknown-error]")) (* invalid.go:531 *);
    (2376, (str "cannot use expression as ""SimpleInterface"" value: method ""SimpleInterfaceMethod"" declares the following error codes which were not part of the interface: [unknown-error]")) (* invalid.go:535 *);
    (2384, (str "cannot use expression as ""SimpleInterface"" value: method ""SimpleInterfaceMethod"" declares the following error codes which were not part of the interface: [unknown-error]")) (* invalid.go:539 *);
    (2397, (str "cannot use expression as ""SimpleInterface"" value: method ""SimpleInterfaceMethod"" declares the following error codes which were not part of the interface: [unknown-error]")) (* invalid.go:544 *);
    (2397, (str "cannot use expression as ""SimpleInterface"" value: method ""SimpleInterfaceMethod"" declares the following error codes which were not part of the interface: [unknown-error]")) (* invalid.go:544 *);
    (2407, (str "cannot use expression as ""SimpleInterface"" value: method ""SimpleInterfaceMethod"" declares the following error codes which were not part of the interface: [unknown-error]")) (* invalid.go:551 *);
    (2407, (str "cannot use expression as ""SimpleInterface"" value: method ""SimpleInterfaceMethod"" declares the following error codes which were not part of the interface: [unknown-error]")) (* invalid.go:551 *);
    (2414, (str "cannot use expression as ""SimpleInterface"" value: method ""SimpleInterfaceMethod"" declares the following error codes which were not part of the interface: [unknown-error]")) (* invalid.go:558 *);
    (2421, (str "cannot use expression as ""SimpleInterface"" value: method ""SimpleInterfaceMethod"" declares the following error codes which were not part of the interface: [unknown-error]")) (* invalid.go:562 *);
    (2452, (str "cannot use expression as ""SimpleInterface"" value: method ""SimpleInterfaceMethod"" declares the following error codes which were not part of the interface: [unknown-error]")) (* invalid.go:570 *);
    (2469, (str "cannot use expression as ""SimpleInterface"" value: method ""SimpleInterfaceMethod"" declares the following error codes which were not part of the interface: [unknown-error]")) (* invalid.go:574 *);
    (2473, (str "cannot use expression as ""SimpleInterface"" value: method ""SimpleInterfaceMethod"" declares the following error codes which were not part of the interface: [unknown-error]")) (* invalid.go:575 *);
    (2480, (str "cannot use expression as ""SimpleInterface"" value: method ""SimpleInterfaceMethod"" declares the following error codes which were not part of the interface: [unknown-error]")) (* invalid.go:577 *);
    (2484, (str "cannot use expression as ""SimpleInterface"" value: method ""SimpleInterfaceMethod"" declares the following error codes which were not part of the interface: [unknown-error]")) (* invalid.go:578 *);
    (2491, (str "cannot use expression as ""SimpleInterface"" value: method ""SimpleInterfaceMethod"" declares the following error codes which were not part of the interface: [unknown-error]")) (* invalid.go:582 *);
    (2522, (str "cannot use expression as ""SimpleInterface"" value: method ""SimpleInterfaceMethod"" declares the following error codes which were not part of the interface: [unknown-error]")) (* invalid.go:590 *);
    (2530, (str "cannot use expression as ""SimpleInterface"" value: method ""SimpleInterfaceMethod"" declares the following error codes which were not part of the interface: [unknown-error]")) (* invalid.go:592 *);
    (2538, (str "cannot use expression as ""SimpleInterface"" value: method ""SimpleInterfaceMethod"" declares the following error codes which were not part of the interface: [unknown-error]")) (* invalid.go:594 *);
    (2546, (str "cannot use expression as ""SimpleInterface"" value: method ""SimpleInterfaceMethod"" declares the following error codes which were not part of the interface: [unknown-error]")) (* invalid.go:596 *);
    (2662, (str "cannot use expression as ""someLocalInterface"" value: method ""local1"" declares the following error codes which were not part of the interface: [unknown-error]")) (* invalid.go:642 *);
    (2662, (str "cannot use expression as ""someLocalInterface"" value: method ""local2"" declares the following error codes which were not part of the interface: [some-1-error some-2-error]")) (* invalid.go:642 *);
    (2815, (str "cannot use expression as ""Interface1"" value: method ""I1"" declares the following error codes which were not part of the interface: [unknown-error]")) (* invalid.go:705 *);
    (2818, (str "cannot use expression as ""Interface2"" value: method ""I2"" declares the following error codes which were not part of the interface: [unknown-error]")) (* invalid.go:705 *);
    (2822, (str "cannot use expression as ""Interface3"" value: method ""I3"" declares the following error codes which were not part of the interface: [unknown-1-error unknown-2-error unknown-3-error]")) (* invalid.go:705 *);
    (2835, (str "cannot use expression as ""EmbeddedSimpleInterface"" value: method ""SimpleInterfaceMethod"" declares the following error codes which were not part of the interface: [unknown-error]")) (* invalid.go:714 *)] /\
  fact_texts (facts_after_test (run_test t_interfaces ascending (facts_after_test (run_test t_interfaces_inner2 ascending (facts_after_test (run_test t_interfaces_inner1 ascending (Facts ∅ ∅ ∅ ∅))))))) [142; 143; 144; 145; 146; 147; 148; 149; 150; 151; 152; 153; 154; 155; 156; 157; 158; 159; 160; 161; 162; 163; 164; 165; 166; 167; 168; 169; 170; 171; 172; 173; 174; 175; 176; 177; 178; 179; 180; 181; 182; 183; 184; 185; 186; 187; 188; 189; 190; 191; 192; 193; 194; 195; 196; 197; 198; 199; 200; 201; 202; 203; 204; 205; 206; 207; 208; 209; 210; 211; 212; 213; 214; 215; 216; 217; 218; 219; 220; 221; 222; 223; 224; 225; 226; 227; 228; 229; 230; 231; 232; 233; 234; 235; 236; 237; 238; 239; 240; 241; 242; 243; 244; 245; 246; 247; 248; 249; 250; 251; 252; 253; 254; 255; 256; 257; 258; 259; 260; 261; 262; 263; 264; 265; 266; 267; 268; 269; 270; 271; 272; 273; 274; 275; 276; 277; 278; 279; 280; 281; 282; 283; 284; 285; 286; 287; 288; 289; 290; 291; 292; 293; 294; 295; 296; 297; 298; 299; 300; 301; 302; 303; 304; 305; 306; 307; 308; 309; 310; 311; 312; 313; 314; 315; 316; 317; 318; 319; 320; 321; 322; 323; 324; 325; 326; 327; 328; 329; 330; 331; 332; 333; 334; 335; 336; 337; 338; 339; 340; 341; 342; 343; 344; 345; 346; 347; 348; 349; 350; 351; 352; 361; 362; 363; 364; 365; 366; 367; 368; 369; 370; 371; 372; 373; 374; 375; 376; 377; 378] = [
    (142, (str "ErrorInterface: SimpleInterfaceMethod")) (* interfaces.go:8 SimpleInterface *);
    (143, (str "ErrorInterface: InterfaceMethod1 InterfaceMethod2")) (* interfaces.go:18 SomeInterface *);
    (145, (str "ErrorInterface: SimpleInterfaceMethod")) (* interfaces.go:43 EmbeddedSimpleInterface *);
    (146, (str "ErrorInterface: OtherMethod SimpleInterfaceMethod")) (* interfaces.go:47 EmbeddedMultipleInterfaces *);
    (147, (str "ErrorInterface: SimpleInterfaceMethod")) (* interfaces.go:53 EmbeddedOtherPackage *);
    (148, (str "ErrorInterface: SimpleInterfaceMethod")) (* interfaces.go:58 EmbeddedOtherPackage2 *);
    (149, (str "ErrorInterface: SimpleInterfaceMethod")) (* interfaces.go:63 EmbeddedOtherPackage3 *);
    (150, (str "ErrorInterface: SimpleInterfaceMethod")) (* interfaces.go:68 SimpleInterface2 *);
    (151, (str "ErrorInterface: OtherMethod")) (* interfaces.go:76 OtherSimpleInterface *);
    (152, (str "ErrorInterface: SimpleInterfaceMethod")) (* interfaces.go:83 EmbeddedSimpleInterface2 *);
    (153, (str "ErrorCodes: interface-1-error interface-2-error interface-3-error interface-4-error")) (* interfaces.go:100 InterfaceParam *);
    (154, (str "ErrorCodes: interface-1-error interface-2-error interface-3-error interface-4-error")) (* interfaces.go:113 OuterFunction *);
    (158, (str "ErrorCodes: interface-1-error")) (* interfaces.go:129 Inner1Method1 *);
    (159, (str "ErrorCodes: interface-3-error")) (* interfaces.go:136 Inner1Method2 *);
    (161, (str "ErrorCodes: interface-1-error")) (* interfaces.go:147 Inner1CodeNotDeclared *);
    (163, (str "ErrorCodes: interface-1-error interface-2-error")) (* interfaces.go:159 Inner1YesCodes *);
    (164, (str "ErrorCodes: interface-1-error interface-2-error interface-3-error interface-4-error")) (* interfaces.go:172 UsingExternalImplAsExternalInterface *);
    (166, (str "ErrorCodes: ree-error")) (* interfaces.go:187 ReturnReeError *);
    (167, (str "ErrorCodes: interface-1-error interface-2-error")) (* interfaces.go:195 CallEmbeddedInterface *);
    (169, (str "ErrorType{Field:{Name:""TheCode"", Position:0}, Codes:}")) (* interfaces.go:203 Error *);
    (175, (str "ErrorInterface: OtherMethod SimpleInterfaceMethod")) (* interfaces_multifile.go:5 EmbeddedMultipleInterfaces2 *);
    (176, (str "ErrorInterface: SimpleInterfaceMethod")) (* interfaces_multifile.go:11 EmbeddedSimpleInterfaceOtherFile *);
    (177, (str "ErrorInterface: SimpleInterfaceMethod")) (* interfaces_multifile.go:15 EmbeddedSimpleInterface2OtherFile *);
    (180, (str "ErrorCodes: unknown-error")) (* invalid.go:16 SimpleInterfaceMethod *);
    (197, (str "ErrorInterface: SimpleInterfaceMethod")) (* invalid.go:140 SimpleInterfaceIncompatible *);
    (224, (str "ErrorInterface: local1 local2")) (* invalid.go:604 someLocalInterface *);
    (230, (str "ErrorInterface: I1")) (* invalid.go:650 Interface1 *);
    (231, (str "ErrorInterface: I2")) (* invalid.go:654 Interface2 *);
    (232, (str "ErrorInterface: I3")) (* invalid.go:658 Interface3 *);
    (236, (str "ErrorCodes: unknown-error")) (* invalid.go:673 I1 *);
    (237, (str "ErrorCodes: unknown-error")) (* invalid.go:680 I2 *);
    (238, (str "ErrorCodes: unknown-1-error unknown-2-error unknown-3-error")) (* invalid.go:689 I3 *);
    (251, (str "ErrorCodes: interface-1-error interface-2-error")) (* interfaces.go:15 SimpleInterfaceMethod *);
    (252, (str "ErrorCodes: interface-1-error interface-2-error")) (* interfaces.go:25 InterfaceMethod1 *);
    (253, (str "ErrorCodes: interface-3-error interface-4-error")) (* interfaces.go:31 InterfaceMethod2 *);
    (260, (str "ErrorCodes: interface-2-error interface-3-error")) (* interfaces.go:73 SimpleInterfaceMethod *);
    (261, (str "ErrorCodes: interface-5-error")) (* interfaces.go:80 OtherMethod *);
    (262, (str "ErrorCodes: interface-1-error interface-3-error")) (* interfaces.go:90 SimpleInterfaceMethod *);
    (277, (str "ErrorCodes: interface-1-error interface-3-error")) (* interfaces_multifile.go:22 SimpleInterfaceMethod *);
    (298, (str "ErrorCodes: incompatible-1-error incompatible-2-error interface-1-error")) (* invalid.go:148 SimpleInterfaceMethod *);
    (320, (str "ErrorCodes: local-1-error local-2-error")) (* invalid.go:609 local1 *);
    (321, (str "ErrorCodes: local-3-error local-4-error")) (* invalid.go:615 local2 *);
    (323, (str "ErrorCodes: ")) (* invalid.go:652 I1 *);
    (324, (str "ErrorCodes: ")) (* invalid.go:656 I2 *);
    (325, (str "ErrorCodes: ")) (* invalid.go:660 I3 *)].
Proof. vm_compute. split; reflexivity. Qed.

(** interfaces: 145 diagnostics and 45 facts, as its "want" comments demand. *)
Theorem t_interfaces_descending :
  report (run_test t_interfaces descending (facts_after_test (run_test t_interfaces_inner2 descending (facts_after_test (run_test t_interfaces_inner1 descending (Facts ∅ ∅ ∅ ∅)))))) = Some [
    (64, (str "error should be returned as the last argument")) (* interfaces.go:39 *);
    (582, (str "interface method ""ExportedCodeNotDeclared"" does not declare any error codes")) (* invalid.go:6 *);
    (589, (str "interface method ""localCodeNotDeclared"" does not declare any error codes")) (* invalid.go:7 *);
    (2577, (str "interface method ""local3"" does not declare any error codes")) (* invalid.go:617 *);
    (82, (str "embedded interface is not compatible: method ""SimpleInterfaceMethod"" has mismatches in declared error codes: missing codes: [interface-1-error] unused codes: [interface-3-error]")) (* interfaces.go:49 *);
    (114, (str "embedded interface is not compatible: method ""SimpleInterfaceMethod"" has mismatches in declared error codes: missing codes: [interface-1-error interface-2-error] unused codes: [inner1-error]")) (* interfaces.go:65 *);
    (548, (str "embedded interface is not compatible: method ""SimpleInterfaceMethod"" has mismatches in declared error codes: missing codes: [interface-1-error] unused codes: [interface-3-error]")) (* interfaces_multifile.go:7 *);
    (102, (str "embedded interface is not compatible: method ""SimpleInterfaceMethod"" has mismatches in declared error codes: missing codes: [interface-1-error interface-2-error] unused codes: [inner1-error]")) (* interfaces.go:60 *);
    (144, (str "embedded interface is not compatible: method ""SimpleInterfaceMethod"" has mismatches in declared error codes: missing codes: [interface-3-error] unused codes: [interface-2-error]")) (* interfaces.go:84 *);
    (562, (str "embedded interface is not compatible: method ""SimpleInterfaceMethod"" has mismatches in declared error codes: missing codes: [interface-3-error] unused codes: [interface-2-error]")) (* interfaces_multifile.go:16 *);
    (302, (str "function ""Inner1NoCodes"" is exported, but does not declare any error codes")) (* interfaces.go:151 *);
    (621, (str "cannot use expression as ""SimpleInterface"" value: method ""SimpleInterfaceMethod"" declares the following error codes which were not part of the interface: [unknown-error]")) (* invalid.go:21 *);
    (638, (str "cannot use expression as ""SimpleInterface"" value: method ""SimpleInterfaceMethod"" declares the following error codes which were not part of the interface: [unknown-error]")) (* invalid.go:25 *);
    (658, (str "cannot use expression as ""SimpleInterface"" value: method ""SimpleInterfaceMethod"" declares the following error codes which were not part of the interface: [unknown-error]")) (* invalid.go:29 *);
    (676, (str "cannot use expression as ""SimpleInterface"" value: method ""SimpleInterfaceMethod"" declares the following error codes which were not part of the interface: [unknown-error]")) (* invalid.go:34 *);
    (703, (str "cannot use expression as ""SimpleInterface"" value: method ""SimpleInterfaceMethod"" declares the following error codes which were not part of the interface: [unknown-error]")) (* invalid.go:41 *);
    (733, (str "cannot use expression as ""SimpleInterface"" value: method ""SimpleInterfaceMethod"" declares the following error codes which were not part of the interface: [unknown-error]")) (* invalid.go:48 *);
    (764, (str "cannot use expression as ""SimpleInterface"" value: method ""SimpleInterfaceMethod"" declares the following error codes which were not part of the interface: [unknown-error]")) (* invalid.go:58 *);
    (780, (str "cannot use expression as ""SimpleInterface"" value: method ""SimpleInterfaceMethod"" declares the following error codes which were not part of the interface: [unknown-error]")) (* invalid.go:62 *);
    (780, (str "cannot use expression as ""SimpleInterface"" value: method ""SimpleInterfaceMethod"" declares the following error codes which were not part of the interface: [unknown-error]")) (* invalid.go:62 *);
    (797, (str "cannot use expression as ""SimpleInterface"" value: method ""SimpleInterfaceMethod"" declares the following error codes which were not part of the interface: [unknown-error]")) (* invalid.go:70 *);
    (807, (str "cannot use expression as ""SimpleInterface"" value: method ""SimpleInterfaceMethod"" declares the following error codes which were not part of the interface: [unknown-error]")) (* invalid.go:71 *);
    (816, (str "cannot use expression as ""SimpleInterface"" value: method ""SimpleInterfaceMethod"" declares the following error codes which were not part of the interface: [unknown-error]")) (* invalid.go:72 *);
    (816, (str "cannot use expression as ""SimpleInterface"" value: method ""SimpleInterfaceMethod"" declares the following error codes which were not part of the interface: [unknown-error]")) (* invalid.go:72 *);
    (850, (str "cannot use expression as ""SimpleInterface"" value: method ""SimpleInterfaceMethod"" declares the following error codes which were not part of the interface: [unknown-error]")) (* invalid.go:82 *);
    (862, (str "cannot use expression as ""SimpleInterface"" value: method ""SimpleInterfaceMethod"" declares the following error codes which were not part of the interface: [unknown-error]")) (* invalid.go:85 *);
    (874, (str "cannot use expression as ""SimpleInterface"" value: method ""SimpleInterfaceMethod"" declares the following error codes which were not part of the interface: [unknown-error]")) (* invalid.go:89 *);
    (886, (str "cannot use expression as ""SimpleInterface"" value: method ""SimpleInterfaceMethod"" declares the following error codes which were not part of the interface: [unknown-error]")) (* invalid.go:93 *);
    (945, (str "cannot use expression as ""SimpleInterface"" value: method ""SimpleInterfaceMethod"" declares the following error codes which were not part of the interface: [unknown-error]")) (* invalid.go:107 *);
    (958, (str "cannot use expression as ""SimpleInterface"" value: method ""SimpleInterfaceMethod"" declares the following error codes which were not part of the interface: [unknown-error]")) (* invalid.go:109 *);
    (964, (str "cannot use expression as ""SimpleInterface"" value: method ""SimpleInterfaceMethod"" declares the following error codes which were not part of the interface: [unknown-error]")) (* invalid.go:110 *);
    (1000, (str "cannot use expression as ""SimpleInterface"" value: method ""SimpleInterfaceMethod"" declares the following error codes which were not part of the interface: [unknown-error]")) (* invalid.go:118 *);
    (1008, (str "cannot use expression as ""SimpleInterface"" value: method ""SimpleInterfaceMethod"" declares the following error codes which were not part of the interface: [unknown-error]")) (* invalid.go:119 *);
    (1028, (str "cannot use expression as ""SimpleInterface"" value: method ""SimpleInterfaceMethod"" declares the following error codes which were not part of the interface: [unknown-error]")) (* invalid.go:123 *);
    (1060, (str "cannot use expression as ""SimpleInterface"" value: method ""SimpleInterfaceMethod"" declares the following error codes which were not part of the interface: [unknown-error]")) (* invalid.go:133 *);
    (1071, (str "cannot use expression as ""SimpleInterface"" value: method ""SimpleInterfaceMethod"" declares the following error codes which were not part of the interface: [unknown-error]")) (* invalid.go:135 *);
    (1119, (str "cannot use expression as ""SimpleInterface"" value: method ""SimpleInterfaceMethod"" declares the following error codes which were not part of the interface: [unknown-error]")) (* invalid.go:156 *);
    (1130, (str "cannot use expression as ""SimpleInterface"" value: method ""SimpleInterfaceMethod"" declares the following error codes which were not part of the interface: [incompatible-1-error incompatible-2-error]")) (* invalid.go:158 *);
    (1134, (str "cannot use expression as ""SimpleInterface"" value: method ""SimpleInterfaceMethod"" declares the following error codes which were not part of the interface: [incompatible-1-error incompatible-2-error]")) (* invalid.go:159 *);
    (1140, (str "cannot use expression as ""SimpleInterface"" value: method ""SimpleInterfaceMethod"" declares the following error codes which were not part of the interface: [incompatible-1-error incompatible-2-error]")) (* invalid.go:160 *);
    (1171, (str "cannot use expression as ""SimpleInterface"" value: method ""SimpleInterfaceMethod"" declares the following error codes which were not part of the interface: [incompatible-1-error incompatible-2-error]")) (* invalid.go:168 *);
    (1228, (str "cannot use expression as ""SimpleInterface"" value: method ""SimpleInterfaceMethod"" declares the following error codes which were not part of the interface: [unknown-error]")) (* invalid.go:192 *);
    (1241, (str "cannot use expression as ""SimpleInterface"" value: method ""SimpleInterfaceMethod"" declares the following error codes which were not part of the interface: [unknown-error]")) (* invalid.go:194 *);
    (1259, (str "cannot use expression as ""SimpleInterface"" value: method ""SimpleInterfaceMethod"" declares the following error codes which were not part of the interface: [unknown-error]")) (* invalid.go:197 *);
    (1267, (str "cannot use expression as ""SimpleInterface"" value: method ""SimpleInterfaceMethod"" declares the following error codes which were not part of the interface: [unknown-error]")) (* invalid.go:199 *);
    (1279, (str "cannot use expression as ""SimpleInterface"" value: method ""SimpleInterfaceMethod"" declares the following error codes which were not part of the interface: [unknown-error]")) (* invalid.go:200 *);
    (1287, (str "cannot use expression as ""SimpleInterface"" value: method ""SimpleInterfaceMethod"" declares the following error codes which were not part of the interface: [unknown-error]")) (* invalid.go:201 *);
    (1289, (str "cannot use expression as ""SimpleInterface"" value: method ""SimpleInterfaceMethod"" declares the following error codes which were not part of the interface: [unknown-error]")) (* invalid.go:201 *);
    (1291, (str "cannot use expression as ""SimpleInterface"" value: method ""SimpleInterfaceMethod"" declares the following error codes which were not part of the interface: [unknown-error]")) (* invalid.go:201 *);
    (1312, (str "cannot use expression as ""SimpleInterface"" value: method ""SimpleInterfaceMethod"" declares the following error codes which were not part of the interface: [unknown-error]")) (* invalid.go:209 *);
    (1329, (str "cannot use expression as ""SimpleInterface"" value: method ""SimpleInterfaceMethod"" declares the following error codes which were not part of the interface: [unknown-error]")) (* invalid.go:210 *);
    (1343, (str "cannot use expression as ""SimpleInterface"" value: method ""SimpleInterfaceMethod"" declares the following error codes which were not part of the interface: [unknown-error]")) (* invalid.go:211 *);
    (1360, (str "cannot use expression as ""SimpleInterface"" value: method ""SimpleInterfaceMethod"" declares the following error codes which were not part of the interface: [unknown-error]")) (* invalid.go:215 *);
    (1363, (str "cannot use expression as ""SimpleInterface"" value: method ""SimpleInterfaceMethod"" declares the following error codes which were not part of the interface: [unknown-error]")) (* invalid.go:216 *);
    (1382, (str "cannot use expression as ""SimpleInterface"" value: method ""SimpleInterfaceMethod"" declares the following error codes which were not part of the interface: [unknown-error]")) (* invalid.go:222 *);
    (1392, (str "cannot use expression as ""SimpleInterface"" value: method ""SimpleInterfaceMethod"" declares the following error codes which were not part of the interface: [unknown-error]")) (* invalid.go:223 *);
    (1434, (str "cannot use expression as ""SimpleInterface"" value: method ""SimpleInterfaceMethod"" declares the following error codes which were not part of the interface: [unknown-error]")) (* invalid.go:229 *);
    (1437, (str "cannot use expression as ""SimpleInterface"" value: method ""SimpleInterfaceMethod"" declares the following error codes which were not part of the interface: [unknown-error]")) (* invalid.go:230 *);
    (1457, (str "cannot use expression as ""SimpleInterface"" value: method ""SimpleInterfaceMethod"" declares the following error codes which were not part of the interface: [unknown-error]")) (* invalid.go:237 *);
    (1462, (str "cannot use expression as ""SimpleInterface"" value: method ""SimpleInterfaceMethod"" declares the following error codes which were not part of the interface: [unknown-error]")) (* invalid.go:238 *);
    (1510, (str "cannot use expression as ""SimpleInterface"" value: method ""SimpleInterfaceMethod"" declares the following error codes which were not part of the interface: [unknown-error]")) (* invalid.go:251 *);
    (1519, (str "cannot use expression as ""SimpleInterface"" value: method ""SimpleInterfaceMethod"" declares the following error codes which were not part of the interface: [unknown-error]")) (* invalid.go:254 *);
    (1523, (str "cannot use expression as ""SimpleInterface"" value: method ""SimpleInterfaceMethod"" declares the following error codes which were not part of the interface: [unknown-error]")) (* invalid.go:257 *);
    (1542, (str "cannot use expression as ""SimpleInterface"" value: method ""SimpleInterfaceMethod"" declares the following error codes which were not part of the interface: [unknown-error]")) (* invalid.go:263 *);
    (1552, (str "cannot use expression as ""SimpleInterface"" value: method ""SimpleInterfaceMethod"" declares the following error codes which were not part of the interface: [unknown-error]")) (* invalid.go:266 *);
    (1556, (str "cannot use expression as ""SimpleInterface"" value: method ""SimpleInterfaceMethod"" declares the following error codes which were not part of the interface: [unknown-error]")) (* invalid.go:267 *);
    (1571, (str "cannot use expression as ""SimpleInterface"" value: method ""SimpleInterfaceMethod"" declares the following error codes which were not part of the interface: [unknown-error]")) (* invalid.go:272 *);
    (1580, (str "cannot use expression as ""SimpleInterface"" value: method ""SimpleInterfaceMethod"" declares the following error codes which were not part of the interface: [unknown-error]")) (* invalid.go:273 *);
    (1598, (str "cannot use expression as ""SimpleInterface"" value: method ""SimpleInterfaceMethod"" declares the following error codes which were not part of the interface: [unknown-error]")) (* invalid.go:277 *);
    (1607, (str "cannot use expression as ""SimpleInterface"" value: method ""SimpleInterfaceMethod"" declares the following error codes which were not part of the interface: [unknown-error]")) (* invalid.go:278 *);
    (1622, (str "cannot use expression as ""SimpleInterface"" value: method ""SimpleInterfaceMethod"" declares the following error codes which were not part of the interface: [unknown-error]")) (* invalid.go:282 *);
    (1636, (str "cannot use expression as ""SimpleInterface"" value: method ""SimpleInterfaceMethod"" declares the following error codes which were not part of the interface: [unknown-error]")) (* invalid.go:288 *);
    (1639, (str "cannot use expression as ""SimpleInterface"" value: method ""SimpleInterfaceMethod"" declares the following error codes which were not part of the interface: [unknown-error]")) (* invalid.go:289 *);
    (1649, (str "cannot use expression as ""SimpleInterface"" value: method ""SimpleInterfaceMethod"" declares the following error codes which were not part of the interface: [unknown-error]")) (* invalid.go:292 *);
    (1688, (str "cannot use expression as ""SimpleInterface"" value: method ""SimpleInterfaceMethod"" declares the following error codes which were not part of the interface: [unknown-error]")) (* invalid.go:301 *);
    (1698, (str "cannot use expression as ""SimpleInterface"" value: method ""SimpleInterfaceMethod"" declares the following error codes which were not part of the interface: [unknown-error]")) (* invalid.go:304 *);
    (1702, (str "cannot use expression as ""SimpleInterface"" value: method ""SimpleInterfaceMethod"" declares the following error codes which were not part of the interface: [unknown-error]")) (* invalid.go:307 *);
    (1722, (str "cannot use expression as ""SimpleInterface"" value: method ""SimpleInterfaceMethod"" declares the following error codes which were not part of the interface: [unknown-error]")) (* invalid.go:313 *);
    (1732, (str "cannot use expression as ""SimpleInterface"" value: method ""SimpleInterfaceMethod"" declares the following error codes which were not part of the interface: [unknown-error]")) (* invalid.go:316 *);
    (1736, (str "cannot use expression as ""SimpleInterface"" value: method ""SimpleInterfaceMethod"" declares the following error codes which were not part of the interface: [unknown-error]")) (* invalid.go:317 *);
    (1751, (str "cannot use expression as ""SimpleInterface"" value: method ""SimpleInterfaceMethod"" declares the following error codes which were not part of the interface: [unknown-error]")) (* invalid.go:322 *);
    (1760, (str "cannot use expression as ""SimpleInterface"" value: method ""SimpleInterfaceMethod"" declares the following error codes which were not part of the interface: [unknown-error]")) (* invalid.go:323 *);
    (1778, (str "cannot use expression as ""SimpleInterface"" value: method ""SimpleInterfaceMethod"" declares the following error codes which were not part of the interface: [unknown-error]")) (* invalid.go:327 *);
    (1787, (str "cannot use expression as ""SimpleInterface"" value: method ""SimpleInterfaceMethod"" declares the following error codes which were not part of the interface: [unknown-error]")) (* invalid.go:328 *);
    (1805, (str "cannot use expression as ""SimpleInterface"" value: method ""SimpleInterfaceMethod"" declares the following error codes which were not part of the interface: [unknown-error]")) (* invalid.go:332 *);
    (1819, (str "cannot use expression as ""SimpleInterface"" value: method ""SimpleInterfaceMethod"" declares the following error codes which were not part of the interface: [unknown-error]")) (* invalid.go:338 *);
    (1822, (str "cannot use expression as ""SimpleInterface"" value: method ""SimpleInterfaceMethod"" declares the following error codes which were not part of the interface: [unknown-error]")) (* invalid.go:339 *);
    (1831, (str "cannot use expression as ""SimpleInterface"" value: method ""SimpleInterfaceMethod"" declares the following error codes which were not part of the interface: [unknown-error]")) (* invalid.go:342 *);
    (1877, (str "cannot use expression as ""SimpleInterface"" value: method ""SimpleInterfaceMethod"" declares the following error codes which were not part of the interface: [unknown-error]")) (* invalid.go:351 *);
    (1900, (str "cannot use expression as ""SimpleInterface"" value: method ""SimpleInterfaceMethod"" declares the following error codes which were not part of the interface: [unknown-error]")) (* invalid.go:356 *);
    (1910, (str "cannot use expression as ""SimpleInterface"" value: method ""SimpleInterfaceMethod"" declares the following error codes which were not part of the interface: [unknown-error]")) (* invalid.go:359 *);
    (1914, (str "cannot use expression as ""SimpleInterface"" value: method ""SimpleInterfaceMethod"" declares the following error codes which were not part of the interface: [unknown-error]")) (* invalid.go:360 *);
    (1933, (str "cannot use expression as ""SimpleInterface"" value: method ""SimpleInterfaceMethod"" declares the following error codes which were not part of the interface: [unknown-error]")) (* invalid.go:365 *);
    (1955, (str "cannot use expression as ""SimpleInterface"" value: method ""SimpleInterfaceMethod"" declares the following error codes which were not part of the interface: [unknown-error]")) (* invalid.go:369 *);
    (1981, (str "cannot use expression as ""SimpleInterface"" value: method ""SimpleInterfaceMethod"" declares the following error codes which were not part of the interface: [unknown-error]")) (* invalid.go:373 *);
    (2003, (str "cannot use expression as ""SimpleInterface"" value: method ""SimpleInterfaceMethod"" declares the following error codes which were not part of the interface: [unknown-error]")) (* invalid.go:379 *);
    (2019, (str "cannot use expression as ""SimpleInterface"" value: method ""SimpleInterfaceMethod"" declares the following error codes which were not part of the interface: [unknown-error]")) (* invalid.go:382 *);
    (2034, (str "cannot use expression as ""SimpleInterface"" value: method ""SimpleInterfaceMethod"" declares the following error codes which were not part of the interface: [unknown-error]")) (* invalid.go:386 *);
    (2047, (str "cannot use expression as ""SimpleInterface"" value: method ""SimpleInterfaceMethod"" declares the following error codes which were not part of the interface: [unknown-error]")) (* invalid.go:390 *);
    (2061, (str "cannot use expression as ""SimpleInterface"" value: method ""SimpleInterfaceMethod"" declares the following error codes which were not part of the interface: [unknown-error]")) (* invalid.go:395 *);
    (2070, (str "cannot use expression as ""SimpleInterface"" value: method ""SimpleInterfaceMethod"" declares the following error codes which were not part of the interface: [unknown-error]")) (* invalid.go:397 *);
    (2064, (str "cannot use expression as ""SimpleInterface"" value: method ""SimpleInterfaceMethod"" declares the following error codes which were not part of the interface: [unknown-error]")) (* invalid.go:396 *);
    (2068, (str "cannot use expression as ""SimpleInterface"" value: method ""SimpleInterfaceMethod"" declares the following error codes which were not part of the interface: [unknown-error]")) (* invalid.go:397 *);
    (2082, (str "cannot use expression as ""SimpleInterface"" value: method ""SimpleInterfaceMethod"" declares the following error codes which were not part of the interface: [unknown-error]")) (* invalid.go:404 *);
    (2133, (str "cannot use expression as ""SimpleInterface"" value: method ""SimpleInterfaceMethod"" declares the following error codes which were not part of the interface: [unknown-error]")) (* invalid.go:418 *);
    (2148, (str "cannot use expression as ""SimpleInterface"" value: method ""SimpleInterfaceMethod"" declares the following error codes which were not part of the interface: [unknown-error]")) (* invalid.go:426 *);
    (2163, (str "cannot use expression as ""SimpleInterface"" value: method ""SimpleInterfaceMethod"" declares the following error codes which were not part of the interface: [unknown-error]")) (* invalid.go:434 *);
    (2178, (str "cannot use expression as ""SimpleInterface"" value: method ""SimpleInterfaceMethod"" declares the following error codes which were not part of the interface: [unknown-error]")) (* invalid.go:442 *);
    (2185, (str "cannot use expression as ""SimpleInterface"" value: method ""SimpleInterfaceMethod"" declares the following error codes which were not part of the interface: [unknown-error]")) (* invalid.go:446 *);
    (2193, (str "cannot use expression as ""SimpleInterface"" value: method ""SimpleInterfaceMethod"" declares the following error codes which were not part of the interface: [unknown-error]")) (* invalid.go:450 *);
    (2206, (str "cannot use expression as ""SimpleInterface"" value: method ""SimpleInterfaceMethod"" declares the following error codes which were not part of the interface: [unknown-error]")) (* invalid.go:455 *);
    (2206, (str "cannot use expression as ""SimpleInterface"" value: method ""SimpleInterfaceMethod"" declares the following error codes which were not part of the interface: [unknown-error]")) (* invalid.go:455 *);
    (2216, (str "cannot use expression as ""SimpleInterface"" value: method ""SimpleInterfaceMethod"" declares the following error codes which were not part of the interface: [unknown-error]")) (* invalid.go:462 *);
    (2216, (str "cannot use expression as ""SimpleInterface"" value: method ""SimpleInterfaceMethod"" declares the following error codes which were not part of the interface: [unknown-error]")) (* invalid.go:462 *);
    (2223, (str "cannot use expression as ""SimpleInterface"" value: method ""SimpleInterfaceMethod"" declares the following error codes which were not part of the interface: [unknown-error]")) (* invalid.go:469 *);
    (2230, (str "cannot use expression as ""SimpleInterface"" value: method ""SimpleInterfaceMethod"" declares the following error codes which were not part of the interface: [unknown-error]")) (* invalid.go:473 *);
    (2309, (str "cannot use expression as ""SimpleInterface"" value: method ""SimpleInterfaceMethod"" declares the following error codes which were not part of the interface: [unknown-error]")) (* invalid.go:499 *);
    (2324, (str "cannot use expression as ""SimpleInterface"" value: method ""SimpleInterfaceMethod"" declares the following error codes which were not part of the interface: [unknown-error]")) (* invalid.go:507 *);
    (2339, (str "cannot use expression as ""SimpleInterface"" value: method ""SimpleInterfaceMethod"" declares the following error codes which were not part of the interface: [unknown-error]")) (* invalid.go:515 *);
    (2354, (str "cannot use expression as ""SimpleInterface"" value: method ""SimpleInterfaceMethod"" declares the following error codes which were not part of the interface: [unknown-error]")) (* invalid.go:523 *);
    (2369, (str "cannot use expression as ""SimpleInterface"" value: method ""SimpleInterfaceMethod"" declares the following error codes which were not part of the interface: [unknown-error]")) (* invalid.go:531 *);
    (2376, (str "cannot use expression as ""SimpleInterface"" value: method ""SimpleInterfaceMethod"" declares the following error codes which were not part of the interface: [unknown-error]")) (* invalid.go:535 *);
    (2384, (str "cannot use expression as ""SimpleInterface"" value: method ""SimpleInterfaceMethod"" declares the following error codes which were not part of the interface: [unknown-error]")) (* invalid.go:539 *);
    (2397, (str "cannot use expression as ""SimpleInterface"" value: method ""SimpleInterfaceMethod"" declares the following error codes which were not part of the interface: [unknown-error]")) (* invalid.go:544 *);
    (2397, (str "cannot use expression as ""SimpleInterface"" value: method ""SimpleInterfaceMethod"" declares the following error codes which were not part of the interface: [unknown-error]")) (* invalid.go:544 *);
    (2407, (str "cannot use expression as ""SimpleInterface"" value: method ""SimpleInterfaceMethod"" declares the following error codes which were not part of the interface: [unknown-error]")) (* invalid.go:551 *);
    (2407, (str "cannot use expression as ""SimpleInterface"" value: method ""SimpleInterfaceMethod"" declares the following error codes which were not part of the interface: [unknown-error]")) (* invalid.go:551 *);
    (2414, (str "cannot use expression as ""SimpleInterface"" value: method ""SimpleInterfaceMethod"" declares the following error codes which were not part of the interface: [unknown-error]")) (* invalid.go:558 *);
    (2421, (str "cannot use expression as ""SimpleInterface"" value: method ""SimpleInterfaceMethod"" declares the following error codes which were not part of the interface: [unknown-error]")) (* invalid.go:562 *);
    (2452, (str "cannot use expression as ""SimpleInterface"" value: method ""SimpleInterfaceMethod"" declares the following error codes which were not part of the interface: [unknown-error]")) (* invalid.go:570 *);
    (2469, (str "cannot use expression as ""SimpleInterface"" value: method ""SimpleInterfaceMethod"" declares the following error codes which were not part of the interface: [unknown-error]")) (* invalid.go:574 *);
    (2473, (str "cannot use expression as ""SimpleInterface"" value: method ""SimpleInterfaceMethod"" declares the following error codes which were not part of the interface: [unknown-error]")) (* invalid.go:575 *);
    (2480, (str "cannot use expression as ""SimpleInterface"" value: method ""SimpleInterfaceMethod"" declares the following error codes which were not part of the interface: [unknown-error]")) (* invalid.go:577 *);
    (2484, (str "cannot use expression as ""SimpleInterface"" value: method ""SimpleInterfaceMethod"" declares the following error codes which were not part of the interface: [unknown-error]")) (* invalid.go:578 *);
    (2491, (str "cannot use expression as ""SimpleInterface"" value: method ""SimpleInterfaceMethod"" declares the following error codes which were not part of the interface: [unknown-error]")) (* invalid.go:582 *);
    (2522, (str "cannot use expression as ""SimpleInterface"" value: method ""SimpleInterfaceMethod"" declares the following error codes which were not part of the interface: [unknown-error]")) (* invalid.go:590 *);
    (2530, (str "cannot use expression as ""SimpleInterface"" value: method ""SimpleInterfaceMethod"" declares the following error codes which were not part of the interface: [unknown-error]")) (* invalid.go:592 *);
    (2538, (str "cannot use expression as ""SimpleInterface"" value: method ""SimpleInterfaceMethod"" declares the following error codes which were not part of the interface: [unknown-error]")) (* invalid.go:594 *);
    (2546, (str "cannot use expression as ""SimpleInterface"" value: method ""SimpleInterfaceMethod"" declares the following error codes which were not part of the interface: [unknown-error]")) (* invalid.go:596 *);
    (2662, (str "cannot use expression as ""someLocalInterface"" value: method ""local2"" declares the following error codes which were not part of the interface: [some-1-error some-2-error]")) (* invalid.go:642 *);
    (2662, (str "cannot use expression as ""someLocalInterface"" value: method ""local1"" declares the following error codes which were not part of the interface: [unknown-error]")) (* invalid.go:642 *);
    (2815, (str "cannot use expression as ""Interface1"" value: method ""I1"" declares the following error codes which were not part of the interface: [unknown-error]")) (* invalid.go:705 *);
    (2818, (str "cannot use expression as ""Interface2"" value: method ""I2"" declares the following error codes which were not part of the interface: [unknown-error]")) (* invalid.go:705 *);
    (2822, (str "cannot use expression as ""Interface3"" value: method ""I3"" declares the following error codes which were not part of the interface: [unknown-1-error unknown-2-error unknown-3-error]")) (* invalid.go:705 *);
    (2835, (str "cannot use expression as ""EmbeddedSimpleInterface"" value: method ""SimpleInterfaceMethod"" declares the following error codes which were not part of the interface: [unknown-error]")) (* invalid.go:714 *)] /\
  fact_texts (facts_after_test (run_test t_interfaces descending (facts_after_test (run_test t_interfaces_inner2 descending (facts_after_test (run_test t_interfaces_inner1 descending (Facts ∅ ∅ ∅ ∅))))))) [142; 143; 144; 145; 146; 147; 148; 149; 150; 151; 152; 153; 154; 155; 156; 157; 158; 159; 160; 161; 162; 163; 164; 165; 166; 167; 168; 169; 170; 171; 172; 173; 174; 175; 176; 177; 178; 179; 180; 181; 182; 183; 184; 185; 186; 187; 188; 189; 190; 191; 192; 193; 194; 195; 196; 197; 198; 199; 200; 201; 202; 203; 204; 205; 206; 207; 208; 209; 210; 211; 212; 213; 214; 215; 216; 217; 218; 219; 220; 221; 222; 223; 224; 225; 226; 227; 228; 229; 230; 231; 232; 233; 234; 235; 236; 237; 238; 239; 240; 241; 242; 243; 244; 245; 246; 247; 248; 249; 250; 251; 252; 253; 254; 255; 256; 257; 258; 259; 260; 261; 262; 263; 264; 265; 266; 267; 268; 269; 270; 271; 272; 273; 274; 275; 276; 277; 278; 279; 280; 281; 282; 283; 284; 285; 286; 287; 288; 289; 290; 291; 292; 293; 294; 295; 296; 297; 298; 299; 300; 301; 302; 303; 304; 305; 306; 307; 308; 309; 310; 311; 312; 313; 314; 315; 316; 317; 318; 319; 320; 321; 322; 323; 324; 325; 326; 327; 328; 329; 330; 331; 332; 333; 334; 335; 336; 337; 338; 339; 340; 341; 342; 343; 344; 345; 346; 347; 348; 349; 350; 351; 352; 361; 362; 363; 364; 365; 366; 367; 368; 369; 370; 371; 372; 373; 374; 375; 376; 377; 378] = [
    (142, (str "ErrorInterface: SimpleInterfaceMethod")) (* interfaces.go:8 SimpleInterface *);
    (143, (str "ErrorInterface: InterfaceMethod1 InterfaceMethod2")) (* interfaces.go:18 SomeInterface *);
    (145, (str "ErrorInterface: SimpleInterfaceMethod")) (* interfaces.go:43 EmbeddedSimpleInterface *);
    (146, (str "ErrorInterface: OtherMethod SimpleInterfaceMethod")) (* interfaces.go:47 EmbeddedMultipleInterfaces *);
    (147, (str "ErrorInterface: SimpleInterfaceMethod")) (* interfaces.go:53 EmbeddedOtherPackage *);
    (148, (str "ErrorInterface: SimpleInterfaceMethod")) (* interfaces.go:58 EmbeddedOtherPackage2 *);
    (149, (str "ErrorInterface: SimpleInterfaceMethod")) (* interfaces.go:63 EmbeddedOtherPackage3 *);
    (150, (str "ErrorInterface: SimpleInterfaceMethod")) (* interfaces.go:68 SimpleInterface2 *);
    (151, (str "ErrorInterface: OtherMethod")) (* interfaces.go:76 OtherSimpleInterface *);
    (152, (str "ErrorInterface: SimpleInterfaceMethod")) (* interfaces.go:83 EmbeddedSimpleInterface2 *);
    (153, (str "ErrorCodes: interface-1-error interface-2-error interface-3-error interface-4-error")) (* interfaces.go:100 InterfaceParam *);
    (154, (str "ErrorCodes: interface-1-error interface-2-error interface-3-error interface-4-error")) (* interfaces.go:113 OuterFunction *);
    (158, (str "ErrorCodes: interface-1-error")) (* interfaces.go:129 Inner1Method1 *);
    (159, (str "ErrorCodes: interface-3-error")) (* interfaces.go:136 Inner1Method2 *);
    (161, (str "ErrorCodes: interface-1-error")) (* interfaces.go:147 Inner1CodeNotDeclared *);
    (163, (str "ErrorCodes: interface-1-error interface-2-error")) (* interfaces.go:159 Inner1YesCodes *);
    (164, (str "ErrorCodes: interface-1-error interface-2-error interface-3-error interface-4-error")) (* interfaces.go:172 UsingExternalImplAsExternalInterface *);
    (166, (str "ErrorCodes: ree-error")) (* interfaces.go:187 ReturnReeError *);
    (167, (str "ErrorCodes: interface-1-error interface-2-error")) (* interfaces.go:195 CallEmbeddedInterface *);
    (169, (str "ErrorType{Field:{Name:""TheCode"", Position:0}, Codes:}")) (* interfaces.go:203 Error *);
    (175, (str "ErrorInterface: OtherMethod SimpleInterfaceMethod")) (* interfaces_multifile.go:5 EmbeddedMultipleInterfaces2 *);
    (176, (str "ErrorInterface: SimpleInterfaceMethod")) (* interfaces_multifile.go:11 EmbeddedSimpleInterfaceOtherFile *);
    (177, (str "ErrorInterface: SimpleInterfaceMethod")) (* interfaces_multifile.go:15 EmbeddedSimpleInterface2OtherFile *);
    (180, (str "ErrorCodes: unknown-error")) (* invalid.go:16 SimpleInterfaceMethod *);
    (197, (str "ErrorInterface: SimpleInterfaceMethod")) (* invalid.go:140 SimpleInterfaceIncompatible *);
    (224, (str "ErrorInterface: local1 local2")) (* invalid.go:604 someLocalInterface *);
    (230, (str "ErrorInterface: I1")) (* invalid.go:650 Interface1 *);
    (231, (str "ErrorInterface: I2")) (* invalid.go:654 Interface2 *);
    (232, (str "ErrorInterface: I3")) (* invalid.go:658 Interface3 *);
    (236, (str "ErrorCodes: unknown-error")) (* invalid.go:673 I1 *);
    (237, (str "ErrorCodes: unknown-error")) (* invalid.go:680 I2 *);
    (238, (str "ErrorCodes: unknown-1-error unknown-2-error unknown-3-error")) (* invalid.go:689 I3 *);
    (251, (str "ErrorCodes: interface-1-error interface-2-error")) (* interfaces.go:15 SimpleInterfaceMethod *);
    (252, (str "ErrorCodes: interface-1-error interface-2-error")) (* interfaces.go:25 InterfaceMethod1 *);
    (253, (str "ErrorCodes: interface-3-error interface-4-error")) (* interfaces.go:31 InterfaceMethod2 *);
    (260, (str "ErrorCodes: interface-2-error interface-3-error")) (* interfaces.go:73 SimpleInterfaceMethod *);
    (261, (str "ErrorCodes: interface-5-error")) (* interfaces.go:80 OtherMethod *);
    (262, (str "ErrorCodes: interface-1-error interface-3-error")) (* interfaces.go:90 SimpleInterfaceMethod *);
    (277, (str "ErrorCodes: interface-1-error interface-3-error")) (* interfaces_multifile.go:22 SimpleInterfaceMethod *);
    (298, (str "ErrorCodes: incompatible-1-error incompatible-2-error interface-1-error")) (* invalid.go:148 SimpleInterfaceMethod *);
    (320, (str "ErrorCodes: local-1-error local-2-error")) (* invalid.go:609 local1 *);
    (321, (str "ErrorCodes: local-3-error local-4-error")) (* invalid.go:615 local2 *);
    (323, (str "ErrorCodes: ")) (* invalid.go:652 I1 *);
    (324, (str "ErrorCodes: ")) (* invalid.go:656 I2 *);
    (325, (str "ErrorCodes: ")) (* invalid.go:660 I3 *)].
Proof. vm_compute. split; reflexivity. Qed.

(** The presuppositions of the general theorems that this package satisfies (not: sound_ok). *)
Theorem t_interfaces_presuppositions :
  (forall fa, usable_functions t_interfaces fa) /\
  (forall fa, no_literal_recursion t_interfaces (collectFunctions t_interfaces) fa) /\
  (forall fa, literals_apart t_interfaces (collectFunctions t_interfaces) fa) /\
  types_usable t_interfaces /\
  (forall w n, occurs t_interfaces w n -> ~ ill_formed t_interfaces w n) /\
  distinct_definitions t_interfaces /\
  interfaces_ok t_interfaces /\
  uses_resolved t_interfaces (collectFunctions t_interfaces) /\
  Forall layout t_interfaces_files.
Proof.
  split_and!.
  - intros fa; apply package_usable_spec; vm_compute; reflexivity.
  - intros fa; apply recursion_check_spec; vm_compute; reflexivity.
  - intros fa; apply apart_spec; vm_compute; reflexivity.
  - apply types_ok_spec; vm_compute; reflexivity.
  - apply package_formed_spec; vm_compute; reflexivity.
  - apply definitions_check_spec; vm_compute; reflexivity.
  - apply (interfaces_check_spec t_interfaces t_interfaces_rank); vm_compute; reflexivity.
  - apply uses_check_spec; vm_compute; reflexivity.
  - apply layouts_spec; vm_compute; reflexivity.
Qed.
