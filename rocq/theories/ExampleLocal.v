(** * The presuppositions of PropLocal.v are satisfiable: a package one function of which cannot be tracked.  The data is generated from
    tools/sources/local/local.go by tools/local_example.py. *)
From Coq Require Import Ascii String.
From stdpp Require Import base list gmap.
From Verif Require Import GoString Scc Engine Constant CommentText CommentMap Phase FactText Conform GoAst.
Local Open Scope N_scope.
Definition t_local_f1 : func := Func 3 (Some (DeclInfo (Ident 4 (str "Retry") (Some 1)) None (Some (comment_text [(str "// run calls its argument; the errors that step returns are assigned to a variable of the function around the literal."); (str "//"); (str "// Errors: none")])))) (FuncType 5 [] (Some [(Field 8 [] 9)]) 167) (Some (Node 10 (KOther (str "*ast.BlockStmt")) [(Node 11 (KOther (str "*ast.DeclStmt")) [(Node 12 (KOther (str "*ast.GenDecl")) [(Node 13 (KValueSpec [(Ident 14 (str "err") (Some 2))] (Some 15)) [])])]); (Node 16 (KOther (str "*ast.ExprStmt")) [(Node 17 KCall [(Node 18 (KFuncLit 2) [(Node 28 (KOther (str "*ast.BlockStmt")) [(Node 29 (KAssign 1%nat) [(Node 30 (KIdent (str "err") (Some 2)) []); (Node 31 KCall [(Node 32 (KIdent (str "step") (Some 3)) [])])])])]); (Node 33 (KIdent (str "Open") (Some 4)) [])])]); (Node 34 KReturn [(Node 35 (KIdent (str "err") (Some 2)) [])])])) 173 254.
Definition t_local_f2 : func := Func 18 None (FuncType 19 [(Field 21 [(Ident 22 (str "step") (Some 3))] 23)] None 0) (Some (Node 28 (KOther (str "*ast.BlockStmt")) [(Node 29 (KAssign 1%nat) [(Node 30 (KIdent (str "err") (Some 2)) []); (Node 31 KCall [(Node 32 (KIdent (str "step") (Some 3)) [])])])])) 215 234.
Definition t_local_f3 : func := Func 36 (Some (DeclInfo (Ident 37 (str "Open") (Some 4)) None (Some (comment_text [(str "// Errors:"); (str "//"); (str "//    - local-open --")])))) (FuncType 38 [] (Some [(Field 41 [] 42)]) 304) (Some (Node 43 (KOther (str "*ast.BlockStmt")) [(Node 44 KReturn [(Node 45 (KUnary true) [(Node 46 KComposite [(Node 48 KBasicLit [])])])])])) 310 342.
Definition t_local_f4 : func := Func 49 (Some (DeclInfo (Ident 50 (str "Twice") (Some 5)) None (Some (comment_text [(str "// Errors:"); (str "//"); (str "//    - local-open --"); (str "//    - local-close --")])))) (FuncType 51 [] (Some [(Field 54 [] 55)]) 416) (Some (Node 56 (KOther (str "*ast.BlockStmt")) [(Node 57 (KAssign 1%nat) [(Node 58 (KIdent (str "step") (Some 6)) []); (Node 59 (KFuncLit 5) [(Node 65 (KOther (str "*ast.BlockStmt")) [(Node 66 KReturn [(Node 67 KCall [(Node 68 (KIdent (str "Open") (Some 4)) [])])])])])]); (Node 69 (KOther (str "*ast.IfStmt")) [(Node 70 (KAssign 1%nat) [(Node 71 (KIdent (str "err") (Some 7)) []); (Node 72 KCall [(Node 73 (KIdent (str "step") (Some 6)) [])])]); (Node 74 (KOther (str "*ast.BinaryExpr")) [(Node 75 (KIdent (str "err") (Some 7)) []); (Node 76 (KIdent (str "nil") None) [])]); (Node 77 (KOther (str "*ast.BlockStmt")) [(Node 78 KReturn [(Node 79 (KIdent (str "err") (Some 7)) [])])])]); (Node 80 KReturn [(Node 81 (KUnary true) [(Node 82 KComposite [(Node 84 KBasicLit [])])])])])) 422 546.
Definition t_local_f5 : func := Func 59 None (FuncType 60 [] (Some [(Field 63 [] 64)]) 440) (Some (Node 65 (KOther (str "*ast.BlockStmt")) [(Node 66 KReturn [(Node 67 KCall [(Node 68 (KIdent (str "Open") (Some 4)) [])])])])) 446 466.
Definition t_local_f6 : func := Func 85 (Some (DeclInfo (Ident 86 (str "Wrong") (Some 8)) None (Some (comment_text [(str "// Errors:"); (str "//"); (str "//    - local-open --"); (str "//    - local-never --")])))) (FuncType 87 [] (Some [(Field 90 [] 91)]) 620) (Some (Node 92 (KOther (str "*ast.BlockStmt")) [(Node 93 KReturn [(Node 94 KCall [(Node 95 (KIdent (str "Twice") (Some 5)) [])])])])) 626 645.
Definition t_local_f7 : func := Func 104 (Some (DeclInfo (Ident 110 (str "Code") None) (Some [(Field 106 [(Ident 107 (str "e") (Some 9))] 108)]) None)) (FuncType 111 [] (Some [(Field 114 [] 115)]) 709) (Some (Node 116 (KOther (str "*ast.BlockStmt")) [(Node 117 KReturn [(Node 118 KSelector [(Node 119 (KIdent (str "e") (Some 9)) []); (Node 120 (KIdent (str "TheCode") None) [])])])])) 730 750.
Definition t_local_f8 : func := Func 121 (Some (DeclInfo (Ident 127 (str "Message") None) (Some [(Field 123 [(Ident 124 (str "e") (Some 10))] 125)]) None)) (FuncType 128 [] (Some [(Field 131 [] 132)]) 777) (Some (Node 133 (KOther (str "*ast.BlockStmt")) [(Node 134 KReturn [(Node 135 KSelector [(Node 136 (KIdent (str "e") (Some 10)) []); (Node 137 (KIdent (str "TheCode") None) [])])])])) 795 815.
Definition t_local_f9 : func := Func 138 (Some (DeclInfo (Ident 144 (str "Details") None) (Some [(Field 140 [(Ident 141 (str "e") (Some 11))] 142)]) None)) (FuncType 145 [] (Some [(Field 148 [] 149)]) 842) (Some (Node 152 (KOther (str "*ast.BlockStmt")) [(Node 153 KReturn [(Node 154 (KIdent (str "nil") None) [])])])) 860 874.
Definition t_local_f10 : func := Func 155 (Some (DeclInfo (Ident 161 (str "Cause") None) (Some [(Field 157 [(Ident 158 (str "e") (Some 12))] 159)]) None)) (FuncType 162 [] (Some [(Field 165 [] 166)]) 899) (Some (Node 167 (KOther (str "*ast.BlockStmt")) [(Node 168 KReturn [(Node 169 (KIdent (str "nil") None) [])])])) 919 933.
Definition t_local_f11 : func := Func 170 (Some (DeclInfo (Ident 176 (str "Error") None) (Some [(Field 172 [(Ident 173 (str "e") (Some 13))] 174)]) None)) (FuncType 177 [] (Some [(Field 180 [] 181)]) 958) (Some (Node 182 (KOther (str "*ast.BlockStmt")) [(Node 183 KReturn [(Node 184 KCall [(Node 185 KSelector [(Node 186 (KIdent (str "e") (Some 13)) []); (Node 187 (KIdent (str "Message") None) [])])])])])) 978 1000.
Definition t_local_gendecls : list gendecl := [GenDecl 12 [None]; GenDecl 96 [(Some (TypeSpec (Ident 98 (str "Error") (Some 14)) (XStruct [[(Ident 102 (str "TheCode") None)]])))]].
Definition t_local_top : list topdecl := [TopFunc 1; TopFunc 3; TopFunc 4; TopFunc 6; TopNode (Node 96 (KOther (str "*ast.GenDecl")) [(Node 97 (KOther (str "*ast.TypeSpec")) [])]); TopFunc 7; TopFunc 8; TopFunc 9; TopFunc 10; TopFunc 11].
Definition t_local_objs : list (N * object) := [(1, Object false 159 (DFunc 1)); (2, Object true 180 (DValueSpec [(Ident 14 (str "err") (Some 2))] [])); (3, Object true 196 DOther); (4, Object false 297 (DFunc 3)); (5, Object false 408 (DFunc 4)); (6, Object true 425 DOther); (7, Object true 471 DOther); (8, Object false 612 (DFunc 6)); (9, Object true 692 DOther); (10, Object true 757 DOther); (11, Object true 822 DOther); (12, Object true 881 DOther); (13, Object true 940 DOther); (14, Object false 652 DType)].
Definition t_local_types : list (N * gotype) := [(5, (TSignature [] [(TNamed 1)] false)); (9, (TNamed 1)); (14, (TNamed 1)); (15, (TNamed 1)); (17, (TTuple [])); (18, (TSignature [(TSignature [] [(TNamed 1)] false)] [] false)); (19, (TSignature [(TSignature [] [(TNamed 1)] false)] [] false)); (22, (TSignature [] [(TNamed 1)] false)); (23, (TSignature [] [(TNamed 1)] false)); (27, (TNamed 1)); (30, (TNamed 1)); (31, (TNamed 1)); (32, (TSignature [] [(TNamed 1)] false)); (33, (TSignature [] [(TNamed 1)] false)); (35, (TNamed 1)); (38, (TSignature [] [(TNamed 1)] false)); (42, (TNamed 1)); (45, (TPointer (TNamed 51))); (46, (TNamed 51)); (47, (TNamed 51)); (48, (TBasic (str "string"))); (51, (TSignature [] [(TNamed 1)] false)); (55, (TNamed 1)); (58, (TSignature [] [(TNamed 1)] false)); (59, (TSignature [] [(TNamed 1)] false)); (60, (TSignature [] [(TNamed 1)] false)); (64, (TNamed 1)); (67, (TNamed 1)); (68, (TSignature [] [(TNamed 1)] false)); (71, (TNamed 1)); (72, (TNamed 1)); (73, (TSignature [] [(TNamed 1)] false)); (74, (TBasic (str "bool"))); (75, (TNamed 1)); (76, TUntypedNil); (79, (TNamed 1)); (81, (TPointer (TNamed 51))); (82, (TNamed 51)); (83, (TNamed 51)); (84, (TBasic (str "string"))); (87, (TSignature [] [(TNamed 1)] false)); (91, (TNamed 1)); (94, (TNamed 1)); (95, (TSignature [] [(TNamed 1)] false)); (98, (TNamed 51)); (99, (TStruct [((str "TheCode"), (TBasic (str "string")))])); (102, (TBasic (str "string"))); (103, (TBasic (str "string"))); (107, (TPointer (TNamed 51))); (108, (TPointer (TNamed 51))); (109, (TNamed 51)); (111, (TSignature [] [(TBasic (str "string"))] false)); (115, (TBasic (str "string"))); (118, (TBasic (str "string"))); (119, (TPointer (TNamed 51))); (120, (TBasic (str "string"))); (124, (TPointer (TNamed 51))); (125, (TPointer (TNamed 51))); (126, (TNamed 51)); (128, (TSignature [] [(TBasic (str "string"))] false)); (132, (TBasic (str "string"))); (135, (TBasic (str "string"))); (136, (TPointer (TNamed 51))); (137, (TBasic (str "string"))); (141, (TPointer (TNamed 51))); (142, (TPointer (TNamed 51))); (143, (TNamed 51)); (145, (TSignature [] [(TMap (TBasic (str "string")) (TBasic (str "string")))] false)); (149, (TMap (TBasic (str "string")) (TBasic (str "string")))); (150, (TBasic (str "string"))); (151, (TBasic (str "string"))); (154, TUntypedNil); (158, (TPointer (TNamed 51))); (159, (TPointer (TNamed 51))); (160, (TNamed 51)); (162, (TSignature [] [(TNamed 1)] false)); (166, (TNamed 1)); (169, TUntypedNil); (173, (TPointer (TNamed 51))); (174, (TPointer (TNamed 51))); (175, (TNamed 51)); (177, (TSignature [] [(TBasic (str "string"))] false)); (181, (TBasic (str "string"))); (184, (TBasic (str "string"))); (185, (TSignature [] [(TBasic (str "string"))] false)); (186, (TPointer (TNamed 51))); (187, (TSignature [] [(TBasic (str "string"))] false))].
Definition t_local_values : list (N * constval) := [(48, CString (str "local-open")); (84, CString (str "local-close"))].
Definition t_local_uses : list (N * tobj) := [(9, 1); (15, 1); (27, 1); (30, 63); (32, 64); (33, 48); (35, 63); (42, 1); (47, 51); (55, 1); (64, 1); (68, 48); (73, 65); (75, 66); (76, 24); (79, 66); (83, 51); (91, 1); (95, 49); (103, 5); (109, 51); (115, 5); (119, 57); (120, 62); (126, 51); (132, 5); (136, 58); (137, 62); (143, 51); (150, 5); (151, 5); (154, 24); (160, 51); (166, 1); (169, 24); (175, 51); (181, 5); (186, 61); (187, 53)].
Definition t_local_defs : list (N * tobj) := [(4, 47); (14, 63); (22, 64); (37, 48); (50, 49); (58, 65); (71, 66); (86, 50); (98, 51); (107, 57); (110, 52); (124, 58); (127, 53); (141, 59); (144, 54); (158, 60); (161, 55); (173, 61); (176, 56)].
Definition t_local_sels : list (N * (tobj * gotype)) := [(118, (62, (TPointer (TNamed 51)))); (135, (62, (TPointer (TNamed 51)))); (185, (53, (TPointer (TNamed 51))))].
Definition t_local_pkgnames : list (N * gostring) := [].
Definition t_local_objnames : list (N * gostring) := [(1, (str "error")); (2, (str "Error")); (3, (str "?")); (4, (str "bool")); (5, (str "string")); (6, (str "int")); (7, (str "int8")); (8, (str "int16")); (9, (str "int32")); (10, (str "int64")); (11, (str "uint")); (12, (str "uint8")); (13, (str "uint16")); (14, (str "uint32")); (15, (str "uint64")); (16, (str "uintptr")); (17, (str "float32")); (18, (str "float64")); (19, (str "complex64")); (20, (str "complex128")); (21, (str "true")); (22, (str "false")); (23, (str "iota")); (24, (str "nil")); (25, (str "append")); (26, (str "cap")); (27, (str "close")); (28, (str "complex")); (29, (str "copy")); (30, (str "delete")); (31, (str "imag")); (32, (str "len")); (33, (str "make")); (34, (str "new")); (35, (str "panic")); (36, (str "print")); (37, (str "println")); (38, (str "real")); (39, (str "recover")); (40, (str "Errorf")); (41, (str "Sprintf")); (42, (str "Println")); (43, (str "New")); (44, (str "HasPrefix")); (45, (str "Float32")); (46, (str "Float64")); (47, (str "Retry")); (48, (str "Open")); (49, (str "Twice")); (50, (str "Wrong")); (51, (str "Error")); (52, (str "Code")); (53, (str "Message")); (54, (str "Details")); (55, (str "Cause")); (56, (str "Error")); (57, (str "e")); (58, (str "e")); (59, (str "e")); (60, (str "e")); (61, (str "e")); (62, (str "TheCode")); (63, (str "err")); (64, (str "step")); (65, (str "step")); (66, (str "err"))].
Definition t_local_objtypes : list (N * gotype) := [(1, (TNamed 1)); (2, (TSignature [] [(TBasic (str "string"))] false)); (4, (TBasic (str "bool"))); (5, (TBasic (str "string"))); (6, (TBasic (str "int"))); (7, (TBasic (str "int8"))); (8, (TBasic (str "int16"))); (9, (TBasic (str "int32"))); (10, (TBasic (str "int64"))); (11, (TBasic (str "uint"))); (12, (TBasic (str "uint8"))); (13, (TBasic (str "uint16"))); (14, (TBasic (str "uint32"))); (15, (TBasic (str "uint64"))); (16, (TBasic (str "uintptr"))); (17, (TBasic (str "float32"))); (18, (TBasic (str "float64"))); (19, (TBasic (str "complex64"))); (20, (TBasic (str "complex128"))); (40, (TSignature [(TBasic (str "string")); (TSlice (TInterface 4))] [(TNamed 1)] true)); (41, (TSignature [(TBasic (str "string")); (TSlice (TInterface 4))] [(TBasic (str "string"))] true)); (42, (TSignature [(TSlice (TInterface 4))] [(TBasic (str "int")); (TNamed 1)] true)); (43, (TSignature [(TBasic (str "string"))] [(TNamed 1)] false)); (44, (TSignature [(TBasic (str "string")); (TBasic (str "string"))] [(TBasic (str "bool"))] false)); (45, (TSignature [] [(TBasic (str "float32"))] false)); (46, (TSignature [] [(TBasic (str "float64"))] false)); (47, (TSignature [] [(TNamed 1)] false)); (48, (TSignature [] [(TNamed 1)] false)); (49, (TSignature [] [(TNamed 1)] false)); (50, (TSignature [] [(TNamed 1)] false)); (51, (TNamed 51)); (52, (TSignature [] [(TBasic (str "string"))] false)); (53, (TSignature [] [(TBasic (str "string"))] false)); (54, (TSignature [] [(TMap (TBasic (str "string")) (TBasic (str "string")))] false)); (55, (TSignature [] [(TNamed 1)] false)); (56, (TSignature [] [(TBasic (str "string"))] false)); (57, (TPointer (TNamed 51))); (58, (TPointer (TNamed 51))); (59, (TPointer (TNamed 51))); (60, (TPointer (TNamed 51))); (61, (TPointer (TNamed 51))); (62, (TBasic (str "string"))); (63, (TNamed 1)); (64, (TSignature [] [(TNamed 1)] false)); (65, (TSignature [] [(TNamed 1)] false)); (66, (TNamed 1))].
Definition t_local_under : list (N * gotype) := [(1, (TInterface 1)); (51, (TStruct [((str "TheCode"), (TBasic (str "string")))]))].
Definition t_local_named_methods : list (N * (list gostring)) := [(51, [(str "Code"); (str "Message"); (str "Details"); (str "Cause"); (str "Error")])].
Definition t_local_methods : list (gotype * gostring * tobj) := [((TInterface 1), (str "Error"), 2); ((TNamed 1), (str "Error"), 2); ((TPointer (TNamed 51)), (str "Cause"), 55); ((TPointer (TNamed 51)), (str "Code"), 52); ((TPointer (TNamed 51)), (str "Details"), 54); ((TPointer (TNamed 51)), (str "Error"), 56); ((TPointer (TNamed 51)), (str "Message"), 53)].
Definition t_local_ierr : list gotype := [(TInterface 1); (TNamed 1); (TPointer (TNamed 51))].
Definition t_local_iree : list gotype := [(TPointer (TNamed 51))].
Definition t_local_icause : list gotype := [(TPointer (TNamed 51))].
Definition t_local_impl : list (gotype * gotype) := [((TInterface 1), (TInterface 1)); ((TNamed 1), (TInterface 1)); ((TPointer (TNamed 51)), (TInterface 1))].
Definition t_local_nodes0 : list snode := [SNode 1 (Place 0 1) (Place 999 51) true; SNode 2 (Place 8 1) (Place 13 1) false; SNode 3 (Place 153 6) (Place 253 12) true; SNode 4 (Place 158 6) (Place 163 6) false; SNode 5 (Place 153 6) (Place 171 6) false; SNode 6 (Place 163 6) (Place 165 6) false; SNode 7 (Place 166 6) (Place 171 6) false; SNode 8 (Place 166 6) (Place 171 6) true; SNode 9 (Place 166 6) (Place 171 6) false; SNode 10 (Place 172 6) (Place 253 12) true; SNode 11 (Place 175 7) (Place 188 7) true; SNode 12 (Place 175 7) (Place 188 7) true; SNode 13 (Place 179 7) (Place 188 7) true; SNode 14 (Place 179 7) (Place 182 7) false; SNode 15 (Place 183 7) (Place 188 7) false; SNode 16 (Place 190 8) (Place 239 10) true; SNode 17 (Place 190 8) (Place 239 10) false; SNode 18 (Place 190 8) (Place 233 10) false; SNode 19 (Place 190 8) (Place 213 8) false; SNode 20 (Place 194 8) (Place 213 8) false; SNode 21 (Place 195 8) (Place 212 8) true; SNode 22 (Place 195 8) (Place 199 8) false; SNode 23 (Place 200 8) (Place 212 8) false; SNode 24 (Place 204 8) (Place 206 8) false; SNode 25 (Place 207 8) (Place 212 8) false; SNode 26 (Place 207 8) (Place 212 8) true; SNode 27 (Place 207 8) (Place 212 8) false; SNode 28 (Place 214 8) (Place 233 10) true; SNode 29 (Place 218 9) (Place 230 9) true; SNode 30 (Place 218 9) (Place 221 9) false; SNode 31 (Place 224 9) (Place 230 9) false; SNode 32 (Place 224 9) (Place 228 9) false; SNode 33 (Place 234 10) (Place 238 10) false; SNode 34 (Place 241 11) (Place 251 11) true; SNode 35 (Place 248 11) (Place 251 11) false; SNode 36 (Place 291 17) (Place 341 19) true; SNode 37 (Place 296 17) (Place 300 17) false; SNode 38 (Place 291 17) (Place 308 17) false; SNode 39 (Place 300 17) (Place 302 17) false; SNode 40 (Place 303 17) (Place 308 17) false; SNode 41 (Place 303 17) (Place 308 17) true; SNode 42 (Place 303 17) (Place 308 17) false; SNode 43 (Place 309 17) (Place 341 19) true; SNode 44 (Place 312 18) (Place 339 18) true; SNode 45 (Place 319 18) (Place 339 18) false; SNode 46 (Place 320 18) (Place 339 18) false; SNode 47 (Place 320 18) (Place 325 18) false; SNode 48 (Place 326 18) (Place 338 18) false; SNode 49 (Place 402 25) (Place 545 33) true; SNode 50 (Place 407 25) (Place 412 25) false; SNode 51 (Place 402 25) (Place 420 25) false; SNode 52 (Place 412 25) (Place 414 25) false; SNode 53 (Place 415 25) (Place 420 25) false; SNode 54 (Place 415 25) (Place 420 25) true; SNode 55 (Place 415 25) (Place 420 25) false; SNode 56 (Place 421 25) (Place 545 33) true; SNode 57 (Place 424 26) (Place 465 28) true; SNode 58 (Place 424 26) (Place 428 26) false; SNode 59 (Place 432 26) (Place 465 28) false; SNode 60 (Place 432 26) (Place 444 26) false; SNode 61 (Place 436 26) (Place 438 26) false; SNode 62 (Place 439 26) (Place 444 26) false; SNode 63 (Place 439 26) (Place 444 26) true; SNode 64 (Place 439 26) (Place 444 26) false; SNode 65 (Place 445 26) (Place 465 28) true; SNode 66 (Place 449 27) (Place 462 27) true; SNode 67 (Place 456 27) (Place 462 27) false; SNode 68 (Place 456 27) (Place 460 27) false; SNode 69 (Place 467 29) (Place 513 31) true; SNode 70 (Place 470 29) (Place 483 29) true; SNode 71 (Place 470 29) (Place 473 29) false; SNode 72 (Place 477 29) (Place 483 29) false; SNode 73 (Place 477 29) (Place 481 29) false; SNode 74 (Place 485 29) (Place 495 29) false; SNode 75 (Place 485 29) (Place 488 29) false; SNode 76 (Place 492 29) (Place 495 29) false; SNode 77 (Place 496 29) (Place 513 31) true; SNode 78 (Place 500 30) (Place 510 30) true; SNode 79 (Place 507 30) (Place 510 30) false; SNode 80 (Place 515 32) (Place 543 32) true; SNode 81 (Place 522 32) (Place 543 32) false; SNode 82 (Place 523 32) (Place 543 32) false; SNode 83 (Place 523 32) (Place 528 32) false; SNode 84 (Place 529 32) (Place 542 32) false; SNode 85 (Place 606 39) (Place 644 41) true; SNode 86 (Place 611 39) (Place 616 39) false; SNode 87 (Place 606 39) (Place 624 39) false; SNode 88 (Place 616 39) (Place 618 39) false; SNode 89 (Place 619 39) (Place 624 39) false; SNode 90 (Place 619 39) (Place 624 39) true; SNode 91 (Place 619 39) (Place 624 39) false; SNode 92 (Place 625 39) (Place 644 41) true; SNode 93 (Place 628 40) (Place 642 40) true; SNode 94 (Place 635 40) (Place 642 40) false; SNode 95 (Place 635 40) (Place 640 40) false; SNode 96 (Place 646 43) (Place 683 45) true; SNode 97 (Place 651 43) (Place 683 45) true; SNode 98 (Place 651 43) (Place 656 43) false; SNode 99 (Place 657 43) (Place 683 45) false; SNode 100 (Place 664 43) (Place 683 45) false; SNode 101 (Place 667 44) (Place 681 44) true; SNode 102 (Place 667 44) (Place 674 44) false; SNode 103 (Place 675 44) (Place 681 44) false; SNode 104 (Place 685 47) (Place 749 47) true; SNode 105 (Place 690 47) (Place 700 47) false; SNode 106 (Place 691 47) (Place 699 47) true; SNode 107 (Place 691 47) (Place 692 47) false; SNode 108 (Place 693 47) (Place 699 47) false; SNode 109 (Place 694 47) (Place 699 47) false; SNode 110 (Place 701 47) (Place 705 47) false; SNode 111 (Place 685 47) (Place 714 47) false; SNode 112 (Place 705 47) (Place 707 47) false; SNode 113 (Place 708 47) (Place 714 47) false; SNode 114 (Place 708 47) (Place 714 47) true; SNode 115 (Place 708 47) (Place 714 47) false; SNode 116 (Place 729 47) (Place 749 47) true; SNode 117 (Place 731 47) (Place 747 47) true; SNode 118 (Place 738 47) (Place 747 47) false; SNode 119 (Place 738 47) (Place 739 47) false; SNode 120 (Place 740 47) (Place 747 47) false; SNode 121 (Place 750 48) (Place 814 48) true; SNode 122 (Place 755 48) (Place 765 48) false; SNode 123 (Place 756 48) (Place 764 48) true; SNode 124 (Place 756 48) (Place 757 48) false; SNode 125 (Place 758 48) (Place 764 48) false; SNode 126 (Place 759 48) (Place 764 48) false; SNode 127 (Place 766 48) (Place 773 48) false; SNode 128 (Place 750 48) (Place 782 48) false; SNode 129 (Place 773 48) (Place 775 48) false; SNode 130 (Place 776 48) (Place 782 48) false; SNode 131 (Place 776 48) (Place 782 48) true; SNode 132 (Place 776 48) (Place 782 48) false; SNode 133 (Place 794 48) (Place 814 48) true; SNode 134 (Place 796 48) (Place 812 48) true; SNode 135 (Place 803 48) (Place 812 48) false; SNode 136 (Place 803 48) (Place 804 48) false; SNode 137 (Place 805 48) (Place 812 48) false; SNode 138 (Place 815 49) (Place 873 49) true; SNode 139 (Place 820 49) (Place 830 49) false; SNode 140 (Place 821 49) (Place 829 49) true; SNode 141 (Place 821 49) (Place 822 49) false; SNode 142 (Place 823 49) (Place 829 49) false; SNode 143 (Place 824 49) (Place 829 49) false; SNode 144 (Place 831 49) (Place 838 49) false; SNode 145 (Place 815 49) (Place 858 49) false; SNode 146 (Place 838 49) (Place 840 49) false; SNode 147 (Place 841 49) (Place 858 49) false; SNode 148 (Place 841 49) (Place 858 49) true; SNode 149 (Place 841 49) (Place 858 49) false; SNode 150 (Place 845 49) (Place 851 49) false; SNode 151 (Place 852 49) (Place 858 49) false; SNode 152 (Place 859 49) (Place 873 49) true; SNode 153 (Place 861 49) (Place 871 49) true; SNode 154 (Place 868 49) (Place 871 49) false; SNode 155 (Place 874 50) (Place 932 50) true; SNode 156 (Place 879 50) (Place 889 50) false; SNode 157 (Place 880 50) (Place 888 50) true; SNode 158 (Place 880 50) (Place 881 50) false; SNode 159 (Place 882 50) (Place 888 50) false; SNode 160 (Place 883 50) (Place 888 50) false; SNode 161 (Place 890 50) (Place 895 50) false; SNode 162 (Place 874 50) (Place 903 50) false; SNode 163 (Place 895 50) (Place 897 50) false; SNode 164 (Place 898 50) (Place 903 50) false; SNode 165 (Place 898 50) (Place 903 50) true; SNode 166 (Place 898 50) (Place 903 50) false; SNode 167 (Place 918 50) (Place 932 50) true; SNode 168 (Place 920 50) (Place 930 50) true; SNode 169 (Place 927 50) (Place 930 50) false; SNode 170 (Place 933 51) (Place 999 51) true; SNode 171 (Place 938 51) (Place 948 51) false; SNode 172 (Place 939 51) (Place 947 51) true; SNode 173 (Place 939 51) (Place 940 51) false; SNode 174 (Place 941 51) (Place 947 51) false; SNode 175 (Place 942 51) (Place 947 51) false; SNode 176 (Place 949 51) (Place 954 51) false; SNode 177 (Place 933 51) (Place 963 51) false; SNode 178 (Place 954 51) (Place 956 51) false; SNode 179 (Place 957 51) (Place 963 51) false; SNode 180 (Place 957 51) (Place 963 51) true; SNode 181 (Place 957 51) (Place 963 51) false; SNode 182 (Place 977 51) (Place 999 51) true; SNode 183 (Place 979 51) (Place 997 51) true; SNode 184 (Place 986 51) (Place 997 51) false; SNode 185 (Place 986 51) (Place 995 51) false; SNode 186 (Place 986 51) (Place 987 51) false; SNode 187 (Place 988 51) (Place 995 51) false].
Definition t_local_cgroups0 : list cgroup := [CGroup (Place 15 3) (Place 152 5) [(str "// run calls its argument; the errors that step returns are assigned to a variable of the function around the literal."); (str "//"); (str "// Errors: none")]; CGroup (Place 255 14) (Place 290 16) [(str "// Errors:"); (str "//"); (str "//    - local-open --")]; CGroup (Place 343 21) (Place 401 24) [(str "// Errors:"); (str "//"); (str "//    - local-open --"); (str "//    - local-close --")]; CGroup (Place 547 35) (Place 605 38) [(str "// Errors:"); (str "//"); (str "//    - local-open --"); (str "//    - local-never --")]].
Definition t_local_files : list source_file := [SourceFile t_local_nodes0 t_local_cgroups0].
Definition t_local_info : typeinfo := map_info (list_to_map t_local_types) (list_to_map t_local_values) (list_to_map t_local_uses) (list_to_map t_local_defs) (list_to_map t_local_sels) (list_to_set [1; 4; 5; 6; 7; 8; 9; 10; 11; 12; 13; 14; 15; 16; 17; 18; 19; 20; 51]) (list_to_map t_local_pkgnames) (list_to_map t_local_objnames) (list_to_map t_local_objtypes) (list_to_map t_local_under) t_local_methods t_local_ierr t_local_iree t_local_icause t_local_impl (list_to_map t_local_named_methods).
Definition t_local : package := Package (list_to_map [(1, t_local_f1); (2, t_local_f2); (3, t_local_f3); (4, t_local_f4); (5, t_local_f5); (6, t_local_f6); (7, t_local_f7); (8, t_local_f8); (9, t_local_f9); (10, t_local_f10); (11, t_local_f11)]) [1; 3; 4; 6; 7; 8; 9; 10; 11] t_local_gendecls t_local_top (list_to_map t_local_objs) (fun id => default [] (createCommentMap t_local_files id)) t_local_info.
Definition t_local_rank : gostring -> nat := fun n => default 0%nat ((list_to_map [] : gmap gostring nat) !! n).

From Coq Require Import Ascii String.
From stdpp Require Import base list gmap relations.
From Verif Require Import GoString ErrorCode Scc Engine CodeSet Annotation Constant GoAst Taint Extract Analyse Phase ErrorTypes Claims Interfaces Conversions Verify
  SpecCodes SpecTaint TaintProofs SpecMay SpecProgram SpecLocal SpecClaims SpecRun SpecEnd ReturnProofs Checkers LocalChecker ExampleBase PropLocal.
Local Open Scope list_scope.
Local Open Scope N_scope.

Notation lk := (collectFunctions t_local).
Definition l_ord : orders := some_run_orders lk.
Definition l_run : run := run_of t_local true l_ord no_facts.
Lemma l_orders : orders_ok lk l_ord.
Proof. apply some_run_orders_ok. Qed.
Lemma l_completes : completes t_local true l_ord no_facts l_run.
Proof. apply run_of_ok. vm_compute. reflexivity. Qed.
Lemma l_cycle : no_literal_cycle t_local lk.
Proof. apply cycle_check_spec. vm_compute. reflexivity. Qed.
(** Open, Twice and Wrong, and the function literal in Twice. *)
Lemma l_usable f : f ∈ [3%N; 4%N; 5%N; 6%N] -> usable_from t_local lk (facts_during t_local l_ord l_run) f.
Proof.
  intros H. apply usable_from_spec. revert H. rewrite !elem_of_cons, elem_of_nil. intros [->|[->|[->|[->|[]]]]]; vm_compute; reflexivity.
Qed.
Lemma l_agree f c : f ∈ [3%N; 4%N; 5%N; 6%N] -> agree_from t_local lk (facts_during t_local l_ord l_run) f c.
Proof.
  intros H. apply agree_from_spec. revert H. rewrite !elem_of_cons, elem_of_nil. intros [->|[->|[->|[->|[]]]]]; vm_compute; reflexivity.
Qed.

(** Retry cannot be tracked: the error it returns is the result of a call of the parameter of a function literal. *)
Lemma l_local : local t_local t_local_f1 None (Ident 35 (str "err") (Some 2%N)) 2%N.
Proof.
  split; [reflexivity|]. split; [intros H; apply (bool_decide_eq_true_2 _) in H; vm_compute in H; discriminate|].
  intros [_ [(o&Ho&Hl)|(_&Hd)]].
  - cbn in Ho. injection Ho as <-. apply literal_param_spec in Hl. apply (bool_decide_eq_true_2 _) in Hl. vm_compute in Hl. discriminate.
  - apply (Hd 2%N); [reflexivity|]. split; vm_compute; reflexivity.
Qed.
Theorem l_untracked : ~ usable_functions t_local (facts_during t_local l_ord l_run).
Proof.
  intros H. destruct (H 1%N t_local_f1) as [Hu _]; [vm_compute; reflexivity|].
  set (call := Node 31 KCall [Node 32 (KIdent (str "step") (Some 3%N)) []]).
  set (i := Ident 32 (str "step") (Some 3%N)).
  refine (us_calls _ _ _ Hu call (Node 32 (KIdent (str "step") (Some 3%N)) []) [] i _ _ _ 3%N 3%N _ _ _).
  - right. exists 2%N. split.
    + exists (Node 34 KReturn [Node 35 (KIdent (str "err") (Some 2%N)) []]), (Node 35 (KIdent (str "err") (Some 2%N)) []). split_and!.
      * apply elem_of_list_In. vm_compute. by left.
      * intros (cs&Ha). apply annotation_is_model in Ha. vm_compute in Ha. discriminate.
      * constructor. reflexivity.
      * eapply ev_root; [by apply root_var|]. apply tracked_start; [exact l_local|apply not_elem_of_empty].
    + left. left. exists call. split_and!; [|reflexivity|discriminate].
      apply (assigned_stmt t_local t_local_f1 2%N (Node 29 (KAssign 1%nat) [Node 30 (KIdent (str "err") (Some 2%N)) []; call])
        [Node 30 (KIdent (str "err") (Some 2%N)) []] [call] 0%nat (Node 30 (KIdent (str "err") (Some 2%N)) []) call (Ident 30 (str "err") (Some 2%N))); try reflexivity.
      apply elem_of_list_In. unfold body_nodes, call. cbn. tauto.
  - reflexivity.
  - split; [reflexivity|]. exists 3%N. split_and!; [reflexivity|intros g; vm_compute; discriminate|vm_compute; discriminate].
  - reflexivity.
  - constructor.
  - exists (Node 18 (KFuncLit 2) [Node 28 (KOther (str "*ast.BlockStmt")) [Node 29 (KAssign 1%nat) [Node 30 (KIdent (str "err") (Some 2%N)) []; call]]]), 2%N, t_local_f2.
    split_and!; [|reflexivity|vm_compute; reflexivity|].
    + apply elem_of_list_In. unfold body_nodes, call. cbn. tauto.
    + exists (Field 21 [Ident 22 (str "step") (Some 3%N)] 23), (Ident 22 (str "step") (Some 3%N)). split_and!; [by left|by left|reflexivity].
Qed.

(** What is known nevertheless: the codes of Twice are exactly the ones it declares, although it calls a function literal through a variable;
    and the report about Wrong is right. *)
Theorem l_twice c : may_return t_local lk (facts_during t_local l_ord l_run) 4%N c <-> c = str "local-open" \/ c = str "local-close".
Proof.
  assert (4%N ∈ [3%N; 4%N; 5%N; 6%N]) as Hin by (right; left).
  assert (e_found (r_loop l_run) !! 4%N = Some {[str "local-open"; str "local-close"]}) as Hf.
  { apply (bool_decide_unpack _). vm_compute. exact Logic.I. }
  split.
  - intros H. apply (C47_complete t_local true l_ord no_facts l_run l_orders l_completes l_cycle 4%N _ c (l_usable _ Hin) (l_agree _ c Hin) Hf) in H. apply elem_of_union in H as [H|H]; apply elem_of_singleton in H; [left|right]; exact H.
  - intros H. apply (C47_sound t_local true l_ord no_facts l_run l_orders l_completes l_cycle 4%N _ c (l_usable _ Hin) Hf).
    destruct H as [H|H]; rewrite H; apply elem_of_union; [left|right]; apply elem_of_singleton; reflexivity.
Qed.
Theorem l_wrong : r_diags l_run = [Diag 85 (str "function ""Wrong"" has a mismatch of declared and actual error codes: missing codes: [local-close] unused codes: [local-never]")] /\
  (forall c, may_return t_local lk (facts_during t_local l_ord l_run) 6%N c <-> c = str "local-open" \/ c = str "local-close").
Proof.
  split; [vm_compute; reflexivity|]. intros c.
  assert (6%N ∈ [3%N; 4%N; 5%N; 6%N]) as Hin by (do 3 right; left).
  assert (e_found (r_loop l_run) !! 6%N = Some {[str "local-open"; str "local-close"]}) as Hf.
  { apply (bool_decide_unpack _). vm_compute. exact Logic.I. }
  split.
  - intros H. apply (C47_complete t_local true l_ord no_facts l_run l_orders l_completes l_cycle 6%N _ c (l_usable _ Hin) (l_agree _ c Hin) Hf) in H. apply elem_of_union in H as [H|H]; apply elem_of_singleton in H; [left|right]; exact H.
  - intros H. apply (C47_sound t_local true l_ord no_facts l_run l_orders l_completes l_cycle 6%N _ c (l_usable _ Hin) Hf).
    destruct H as [H|H]; rewrite H; apply elem_of_union; [left|right]; apply elem_of_singleton; reflexivity.
Qed.
