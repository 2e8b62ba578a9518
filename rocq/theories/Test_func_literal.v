(** * The test package func_literal of /repo/analysis/testdata/src, run on the model.  Generated by tools/conform.py; see Conform.v. *)
From Coq Require Import Ascii String.
From stdpp Require Import base list gmap.
From Verif Require Import GoString Scc Engine Constant CommentText CommentMap Phase FactText Conform Claims Analyse Verify SpecTaint SpecProgram SpecLiterals SpecCodeMethod SpecInterfaces SpecSites SpecCrash SpecSound SpecWhole SpecLayout Checkers RecursionChecker LiteralChecker CodeCheckers FormChecker InterfaceChecker SoundChecker ChainChecker ExampleLayout GoAst.
Local Open Scope N_scope.
Definition t_func_literal_inner_f1 : func := Func 3 (Some (DeclInfo (Ident 4 (str "NamedFunction") (Some 1)) None (Some (comment_text [(str "// Errors:"); (str "//"); (str "//    - function-2-error --")])))) (FuncType 5 [] (Some [(Field 8 [] 9)]) 79) (Some (Node 10 (KOther (str "*ast.BlockStmt")) [(Node 11 KReturn [(Node 12 (KUnary true) [(Node 13 KComposite [(Node 15 KBasicLit [])])])])])) 85 123.
Definition t_func_literal_inner_f2 : func := Func 24 (Some (DeclInfo (Ident 30 (str "Code") None) (Some [(Field 26 [(Ident 27 (str "e") (Some 2))] 28)]) None)) (FuncType 31 [] (Some [(Field 34 [] 35)]) 257) (Some (Node 36 (KOther (str "*ast.BlockStmt")) [(Node 37 KReturn [(Node 38 KSelector [(Node 39 (KIdent (str "e") (Some 2)) []); (Node 40 (KIdent (str "TheCode") None) [])])])])) 278 298.
Definition t_func_literal_inner_f3 : func := Func 41 (Some (DeclInfo (Ident 47 (str "Message") None) (Some [(Field 43 [(Ident 44 (str "e") (Some 3))] 45)]) None)) (FuncType 48 [] (Some [(Field 51 [] 52)]) 325) (Some (Node 53 (KOther (str "*ast.BlockStmt")) [(Node 54 KReturn [(Node 55 KSelector [(Node 56 (KIdent (str "e") (Some 3)) []); (Node 57 (KIdent (str "TheCode") None) [])])])])) 343 363.
Definition t_func_literal_inner_f4 : func := Func 58 (Some (DeclInfo (Ident 64 (str "Details") None) (Some [(Field 60 [(Ident 61 (str "e") (Some 4))] 62)]) None)) (FuncType 65 [] (Some [(Field 68 [] 69)]) 390) (Some (Node 72 (KOther (str "*ast.BlockStmt")) [(Node 73 KReturn [(Node 74 (KIdent (str "nil") None) [])])])) 408 422.
Definition t_func_literal_inner_f5 : func := Func 75 (Some (DeclInfo (Ident 81 (str "Cause") None) (Some [(Field 77 [(Ident 78 (str "e") (Some 5))] 79)]) None)) (FuncType 82 [] (Some [(Field 85 [] 86)]) 447) (Some (Node 87 (KOther (str "*ast.BlockStmt")) [(Node 88 KReturn [(Node 89 (KIdent (str "nil") None) [])])])) 467 481.
Definition t_func_literal_inner_f6 : func := Func 90 (Some (DeclInfo (Ident 96 (str "Error") None) (Some [(Field 92 [(Ident 93 (str "e") (Some 6))] 94)]) None)) (FuncType 97 [] (Some [(Field 100 [] 101)]) 506) (Some (Node 102 (KOther (str "*ast.BlockStmt")) [(Node 103 KReturn [(Node 104 KCall [(Node 105 KSelector [(Node 106 (KIdent (str "e") (Some 6)) []); (Node 107 (KIdent (str "Message") None) [])])])])])) 526 548.
Definition t_func_literal_inner_gendecls : list gendecl := [GenDecl 16 [(Some (TypeSpec (Ident 18 (str "Error") (Some 7)) (XStruct [[(Ident 22 (str "TheCode") None)]])))]].
Definition t_func_literal_inner_top : list topdecl := [TopFunc 1; TopNode (Node 16 (KOther (str "*ast.GenDecl")) [(Node 17 (KOther (str "*ast.TypeSpec")) [])]); TopFunc 2; TopFunc 3; TopFunc 4; TopFunc 5; TopFunc 6].
Definition t_func_literal_inner_objs : list (N * object) := [(1, Object false 63 (DFunc 1)); (2, Object true 240 DOther); (3, Object true 305 DOther); (4, Object true 370 DOther); (5, Object true 429 DOther); (6, Object true 488 DOther); (7, Object false 130 DType)].
Definition t_func_literal_inner_types : list (N * gotype) := [(5, (TSignature [] [(TNamed 1)] false)); (9, (TNamed 1)); (12, (TPointer (TNamed 48))); (13, (TNamed 48)); (14, (TNamed 48)); (15, (TBasic (str "string"))); (18, (TNamed 48)); (19, (TStruct [((str "TheCode"), (TBasic (str "string")))])); (22, (TBasic (str "string"))); (23, (TBasic (str "string"))); (27, (TPointer (TNamed 48))); (28, (TPointer (TNamed 48))); (29, (TNamed 48)); (31, (TSignature [] [(TBasic (str "string"))] false)); (35, (TBasic (str "string"))); (38, (TBasic (str "string"))); (39, (TPointer (TNamed 48))); (40, (TBasic (str "string"))); (44, (TPointer (TNamed 48))); (45, (TPointer (TNamed 48))); (46, (TNamed 48)); (48, (TSignature [] [(TBasic (str "string"))] false)); (52, (TBasic (str "string"))); (55, (TBasic (str "string"))); (56, (TPointer (TNamed 48))); (57, (TBasic (str "string"))); (61, (TPointer (TNamed 48))); (62, (TPointer (TNamed 48))); (63, (TNamed 48)); (65, (TSignature [] [(TMap (TBasic (str "string")) (TBasic (str "string")))] false)); (69, (TMap (TBasic (str "string")) (TBasic (str "string")))); (70, (TBasic (str "string"))); (71, (TBasic (str "string"))); (74, TUntypedNil); (78, (TPointer (TNamed 48))); (79, (TPointer (TNamed 48))); (80, (TNamed 48)); (82, (TSignature [] [(TNamed 1)] false)); (86, (TNamed 1)); (89, TUntypedNil); (93, (TPointer (TNamed 48))); (94, (TPointer (TNamed 48))); (95, (TNamed 48)); (97, (TSignature [] [(TBasic (str "string"))] false)); (101, (TBasic (str "string"))); (104, (TBasic (str "string"))); (105, (TSignature [] [(TBasic (str "string"))] false)); (106, (TPointer (TNamed 48))); (107, (TSignature [] [(TBasic (str "string"))] false))].
Definition t_func_literal_inner_values : list (N * constval) := [(15, CString (str "function-2-error"))].
Definition t_func_literal_inner_uses : list (N * tobj) := [(9, 1); (14, 48); (23, 5); (29, 48); (35, 5); (39, 54); (40, 59); (46, 48); (52, 5); (56, 55); (57, 59); (63, 48); (70, 5); (71, 5); (74, 24); (80, 48); (86, 1); (89, 24); (95, 48); (101, 5); (106, 58); (107, 50)].
Definition t_func_literal_inner_defs : list (N * tobj) := [(4, 47); (18, 48); (27, 54); (30, 49); (44, 55); (47, 50); (61, 56); (64, 51); (78, 57); (81, 52); (93, 58); (96, 53)].
Definition t_func_literal_inner_sels : list (N * (tobj * gotype)) := [(38, (59, (TPointer (TNamed 48)))); (55, (59, (TPointer (TNamed 48)))); (105, (50, (TPointer (TNamed 48))))].
Definition t_func_literal_inner_pkgnames : list (N * gostring) := [].
Definition t_func_literal_inner_objnames : list (N * gostring) := [(1, (str "error")); (2, (str "Error")); (3, (str "?")); (4, (str "bool")); (5, (str "string")); (6, (str "int")); (7, (str "int8")); (8, (str "int16")); (9, (str "int32")); (10, (str "int64")); (11, (str "uint")); (12, (str "uint8")); (13, (str "uint16")); (14, (str "uint32")); (15, (str "uint64")); (16, (str "uintptr")); (17, (str "float32")); (18, (str "float64")); (19, (str "complex64")); (20, (str "complex128")); (21, (str "true")); (22, (str "false")); (23, (str "iota")); (24, (str "nil")); (25, (str "append")); (26, (str "cap")); (27, (str "close")); (28, (str "complex")); (29, (str "copy")); (30, (str "delete")); (31, (str "imag")); (32, (str "len")); (33, (str "make")); (34, (str "new")); (35, (str "panic")); (36, (str "print")); (37, (str "println")); (38, (str "real")); (39, (str "recover")); (40, (str "Errorf")); (41, (str "Sprintf")); (42, (str "Println")); (43, (str "New")); (44, (str "HasPrefix")); (45, (str "Float32")); (46, (str "Float64")); (47, (str "NamedFunction")); (48, (str "Error")); (49, (str "Code")); (50, (str "Message")); (51, (str "Details")); (52, (str "Cause")); (53, (str "Error")); (54, (str "e")); (55, (str "e")); (56, (str "e")); (57, (str "e")); (58, (str "e")); (59, (str "TheCode")); (60, (str "fmt")); (61, (str "inner")); (62, (str "AssignmentInLambda")); (63, (str "namedFunction")); (64, (str "LambdasReturningErrors")); (65, (str "LambdasReturningErrorsWithParen")); (66, (str "returningLambda")); (67, (str "OutOfBounds")); (68, (str "TwinAssignLambda")); (69, (str "ReturnTwinLambda")); (70, (str "InvalidErrorFromLambdaParam")); (71, (str "InvalidErrorFromLambdaParam2")); (72, (str "Error")); (73, (str "Code")); (74, (str "Message")); (75, (str "Details")); (76, (str "Cause")); (77, (str "Error")); (78, (str "namedFunctionInOtherFile")); (79, (str "e")); (80, (str "e")); (81, (str "e")); (82, (str "e")); (83, (str "e")); (84, (str "err")); (85, (str "err")); (86, (str "getError")); (87, (str "getError2")); (88, (str "_")); (89, (str "getError3")); (90, (str "getError")); (91, (str "getError2")); (92, (str "_")); (93, (str "getError3")); (94, (str "lambda")); (95, (str "funcLit")); (96, (str "err")); (97, (str "f1")); (98, (str "f2")); (99, (str "f3")); (100, (str "_")); (101, (str "e")); (102, (str "err")); (103, (str "e"))].
Definition t_func_literal_inner_objtypes : list (N * gotype) := [(1, (TNamed 1)); (2, (TSignature [] [(TBasic (str "string"))] false)); (4, (TBasic (str "bool"))); (5, (TBasic (str "string"))); (6, (TBasic (str "int"))); (7, (TBasic (str "int8"))); (8, (TBasic (str "int16"))); (9, (TBasic (str "int32"))); (10, (TBasic (str "int64"))); (11, (TBasic (str "uint"))); (12, (TBasic (str "uint8"))); (13, (TBasic (str "uint16"))); (14, (TBasic (str "uint32"))); (15, (TBasic (str "uint64"))); (16, (TBasic (str "uintptr"))); (17, (TBasic (str "float32"))); (18, (TBasic (str "float64"))); (19, (TBasic (str "complex64"))); (20, (TBasic (str "complex128"))); (40, (TSignature [(TBasic (str "string")); (TSlice (TInterface 4))] [(TNamed 1)] true)); (41, (TSignature [(TBasic (str "string")); (TSlice (TInterface 4))] [(TBasic (str "string"))] true)); (42, (TSignature [(TSlice (TInterface 4))] [(TBasic (str "int")); (TNamed 1)] true)); (43, (TSignature [(TBasic (str "string"))] [(TNamed 1)] false)); (44, (TSignature [(TBasic (str "string")); (TBasic (str "string"))] [(TBasic (str "bool"))] false)); (45, (TSignature [] [(TBasic (str "float32"))] false)); (46, (TSignature [] [(TBasic (str "float64"))] false)); (47, (TSignature [] [(TNamed 1)] false)); (48, (TNamed 48)); (49, (TSignature [] [(TBasic (str "string"))] false)); (50, (TSignature [] [(TBasic (str "string"))] false)); (51, (TSignature [] [(TMap (TBasic (str "string")) (TBasic (str "string")))] false)); (52, (TSignature [] [(TNamed 1)] false)); (53, (TSignature [] [(TBasic (str "string"))] false)); (54, (TPointer (TNamed 48))); (55, (TPointer (TNamed 48))); (56, (TPointer (TNamed 48))); (57, (TPointer (TNamed 48))); (58, (TPointer (TNamed 48))); (59, (TBasic (str "string"))); (62, (TSignature [] [(TPointer (TNamed 72))] false)); (63, (TSignature [] [(TNamed 1)] false)); (64, (TSignature [] [(TNamed 1)] false)); (65, (TSignature [] [(TNamed 1)] false)); (66, (TSignature [] [(TSignature [] [(TPointer (TNamed 72))] false)] false)); (67, (TSignature [] [(TPointer (TNamed 72))] false)); (68, (TSignature [] [(TNamed 1)] false)); (69, (TSignature [] [(TSignature [] [(TNamed 1)] false); (TSignature [] [(TNamed 1)] false)] false)); (70, (TSignature [] [(TNamed 1)] false)); (71, (TSignature [] [(TNamed 1)] false)); (72, (TNamed 72)); (73, (TSignature [] [(TBasic (str "string"))] false)); (74, (TSignature [] [(TBasic (str "string"))] false)); (75, (TSignature [] [(TMap (TBasic (str "string")) (TBasic (str "string")))] false)); (76, (TSignature [] [(TNamed 1)] false)); (77, (TSignature [] [(TBasic (str "string"))] false)); (78, (TSignature [] [(TNamed 1)] false)); (79, (TPointer (TNamed 72))); (80, (TPointer (TNamed 72))); (81, (TPointer (TNamed 72))); (82, (TPointer (TNamed 72))); (83, (TPointer (TNamed 72))); (84, (TPointer (TNamed 72))); (85, (TPointer (TNamed 72))); (86, (TSignature [] [(TNamed 1)] false)); (87, (TSignature [] [(TNamed 1)] false)); (88, (TBasic (str "bool"))); (89, (TSignature [] [(TNamed 1)] false)); (90, (TSignature [] [(TNamed 1)] false)); (91, (TSignature [] [(TNamed 1)] false)); (92, (TBasic (str "bool"))); (93, (TSignature [] [(TNamed 1)] false)); (94, (TSignature [] [(TPointer (TNamed 72))] false)); (95, (TSignature [] [(TPointer (TNamed 72))] false)); (96, (TPointer (TNamed 72))); (97, (TSignature [] [(TNamed 1)] false)); (98, (TSignature [] [(TNamed 1)] false)); (99, (TSignature [] [(TNamed 1)] false)); (100, (TSignature [] [(TNamed 1)] false)); (101, (TNamed 1)); (102, (TNamed 1)); (103, (TNamed 1))].
Definition t_func_literal_inner_under : list (N * gotype) := [(1, (TInterface 1)); (48, (TStruct [((str "TheCode"), (TBasic (str "string")))])); (72, (TStruct [((str "TheCode"), (TBasic (str "string")))]))].
Definition t_func_literal_inner_named_methods : list (N * (list gostring)) := [(48, [(str "Code"); (str "Message"); (str "Details"); (str "Cause"); (str "Error")]); (72, [(str "Code"); (str "Message"); (str "Details"); (str "Cause"); (str "Error")])].
Definition t_func_literal_inner_methods : list (gotype * gostring * tobj) := [((TInterface 1), (str "Error"), 2); ((TNamed 1), (str "Error"), 2); ((TPointer (TNamed 48)), (str "Cause"), 52); ((TPointer (TNamed 48)), (str "Code"), 49); ((TPointer (TNamed 48)), (str "Details"), 51); ((TPointer (TNamed 48)), (str "Error"), 53); ((TPointer (TNamed 48)), (str "Message"), 50); ((TPointer (TNamed 72)), (str "Cause"), 76); ((TPointer (TNamed 72)), (str "Code"), 73); ((TPointer (TNamed 72)), (str "Details"), 75); ((TPointer (TNamed 72)), (str "Error"), 77); ((TPointer (TNamed 72)), (str "Message"), 74)].
Definition t_func_literal_inner_ierr : list gotype := [(TInterface 1); (TNamed 1); (TPointer (TNamed 48)); (TPointer (TNamed 72))].
Definition t_func_literal_inner_iree : list gotype := [(TPointer (TNamed 48)); (TPointer (TNamed 72))].
Definition t_func_literal_inner_icause : list gotype := [(TPointer (TNamed 48)); (TPointer (TNamed 72))].
Definition t_func_literal_inner_impl : list (gotype * gotype) := [((TInterface 1), (TInterface 1)); ((TNamed 1), (TInterface 1)); ((TPointer (TNamed 48)), (TInterface 1)); ((TPointer (TNamed 72)), (TInterface 1))].
Definition t_func_literal_inner_nodes0 : list snode := [SNode 1 (Place 0 1) (Place 547 18) true; SNode 2 (Place 8 1) (Place 13 1) false; SNode 3 (Place 57 6) (Place 122 8) true; SNode 4 (Place 62 6) (Place 75 6) false; SNode 5 (Place 57 6) (Place 83 6) false; SNode 6 (Place 75 6) (Place 77 6) false; SNode 7 (Place 78 6) (Place 83 6) false; SNode 8 (Place 78 6) (Place 83 6) true; SNode 9 (Place 78 6) (Place 83 6) false; SNode 10 (Place 84 6) (Place 122 8) true; SNode 11 (Place 87 7) (Place 120 7) true; SNode 12 (Place 94 7) (Place 120 7) false; SNode 13 (Place 95 7) (Place 120 7) false; SNode 14 (Place 95 7) (Place 100 7) false; SNode 15 (Place 101 7) (Place 119 7) false; SNode 16 (Place 124 10) (Place 231 12) true; SNode 17 (Place 129 10) (Place 231 12) true; SNode 18 (Place 129 10) (Place 134 10) false; SNode 19 (Place 135 10) (Place 231 12) false; SNode 20 (Place 142 10) (Place 231 12) false; SNode 21 (Place 215 11) (Place 229 11) true; SNode 22 (Place 215 11) (Place 222 11) false; SNode 23 (Place 223 11) (Place 229 11) false; SNode 24 (Place 233 14) (Place 297 14) true; SNode 25 (Place 238 14) (Place 248 14) false; SNode 26 (Place 239 14) (Place 247 14) true; SNode 27 (Place 239 14) (Place 240 14) false; SNode 28 (Place 241 14) (Place 247 14) false; SNode 29 (Place 242 14) (Place 247 14) false; SNode 30 (Place 249 14) (Place 253 14) false; SNode 31 (Place 233 14) (Place 262 14) false; SNode 32 (Place 253 14) (Place 255 14) false; SNode 33 (Place 256 14) (Place 262 14) false; SNode 34 (Place 256 14) (Place 262 14) true; SNode 35 (Place 256 14) (Place 262 14) false; SNode 36 (Place 277 14) (Place 297 14) true; SNode 37 (Place 279 14) (Place 295 14) true; SNode 38 (Place 286 14) (Place 295 14) false; SNode 39 (Place 286 14) (Place 287 14) false; SNode 40 (Place 288 14) (Place 295 14) false; SNode 41 (Place 298 15) (Place 362 15) true; SNode 42 (Place 303 15) (Place 313 15) false; SNode 43 (Place 304 15) (Place 312 15) true; SNode 44 (Place 304 15) (Place 305 15) false; SNode 45 (Place 306 15) (Place 312 15) false; SNode 46 (Place 307 15) (Place 312 15) false; SNode 47 (Place 314 15) (Place 321 15) false; SNode 48 (Place 298 15) (Place 330 15) false; SNode 49 (Place 321 15) (Place 323 15) false; SNode 50 (Place 324 15) (Place 330 15) false; SNode 51 (Place 324 15) (Place 330 15) true; SNode 52 (Place 324 15) (Place 330 15) false; SNode 53 (Place 342 15) (Place 362 15) true; SNode 54 (Place 344 15) (Place 360 15) true; SNode 55 (Place 351 15) (Place 360 15) false; SNode 56 (Place 351 15) (Place 352 15) false; SNode 57 (Place 353 15) (Place 360 15) false; SNode 58 (Place 363 16) (Place 421 16) true; SNode 59 (Place 368 16) (Place 378 16) false; SNode 60 (Place 369 16) (Place 377 16) true; SNode 61 (Place 369 16) (Place 370 16) false; SNode 62 (Place 371 16) (Place 377 16) false; SNode 63 (Place 372 16) (Place 377 16) false; SNode 64 (Place 379 16) (Place 386 16) false; SNode 65 (Place 363 16) (Place 406 16) false; SNode 66 (Place 386 16) (Place 388 16) false; SNode 67 (Place 389 16) (Place 406 16) false; SNode 68 (Place 389 16) (Place 406 16) true; SNode 69 (Place 389 16) (Place 406 16) false; SNode 70 (Place 393 16) (Place 399 16) false; SNode 71 (Place 400 16) (Place 406 16) false; SNode 72 (Place 407 16) (Place 421 16) true; SNode 73 (Place 409 16) (Place 419 16) true; SNode 74 (Place 416 16) (Place 419 16) false; SNode 75 (Place 422 17) (Place 480 17) true; SNode 76 (Place 427 17) (Place 437 17) false; SNode 77 (Place 428 17) (Place 436 17) true; SNode 78 (Place 428 17) (Place 429 17) false; SNode 79 (Place 430 17) (Place 436 17) false; SNode 80 (Place 431 17) (Place 436 17) false; SNode 81 (Place 438 17) (Place 443 17) false; SNode 82 (Place 422 17) (Place 451 17) false; SNode 83 (Place 443 17) (Place 445 17) false; SNode 84 (Place 446 17) (Place 451 17) false; SNode 85 (Place 446 17) (Place 451 17) true; SNode 86 (Place 446 17) (Place 451 17) false; SNode 87 (Place 466 17) (Place 480 17) true; SNode 88 (Place 468 17) (Place 478 17) true; SNode 89 (Place 475 17) (Place 478 17) false; SNode 90 (Place 481 18) (Place 547 18) true; SNode 91 (Place 486 18) (Place 496 18) false; SNode 92 (Place 487 18) (Place 495 18) true; SNode 93 (Place 487 18) (Place 488 18) false; SNode 94 (Place 489 18) (Place 495 18) false; SNode 95 (Place 490 18) (Place 495 18) false; SNode 96 (Place 497 18) (Place 502 18) false; SNode 97 (Place 481 18) (Place 511 18) false; SNode 98 (Place 502 18) (Place 504 18) false; SNode 99 (Place 505 18) (Place 511 18) false; SNode 100 (Place 505 18) (Place 511 18) true; SNode 101 (Place 505 18) (Place 511 18) false; SNode 102 (Place 525 18) (Place 547 18) true; SNode 103 (Place 527 18) (Place 545 18) true; SNode 104 (Place 534 18) (Place 545 18) false; SNode 105 (Place 534 18) (Place 543 18) false; SNode 106 (Place 534 18) (Place 535 18) false; SNode 107 (Place 536 18) (Place 543 18) false].
Definition t_func_literal_inner_cgroups0 : list cgroup := [CGroup (Place 15 3) (Place 56 5) [(str "// Errors:"); (str "//"); (str "//    - function-2-error --")]; CGroup (Place 144 10) (Place 213 10) [(str "// want Error:`ErrorType{Field:{Name:""TheCode"", Position:0}, Codes:}`")]].
Definition t_func_literal_inner_files : list source_file := [SourceFile t_func_literal_inner_nodes0 t_func_literal_inner_cgroups0].
Definition t_func_literal_inner_info : typeinfo := map_info (list_to_map t_func_literal_inner_types) (list_to_map t_func_literal_inner_values) (list_to_map t_func_literal_inner_uses) (list_to_map t_func_literal_inner_defs) (list_to_map t_func_literal_inner_sels) (list_to_set [1; 4; 5; 6; 7; 8; 9; 10; 11; 12; 13; 14; 15; 16; 17; 18; 19; 20; 48; 72]) (list_to_map t_func_literal_inner_pkgnames) (list_to_map t_func_literal_inner_objnames) (list_to_map t_func_literal_inner_objtypes) (list_to_map t_func_literal_inner_under) t_func_literal_inner_methods t_func_literal_inner_ierr t_func_literal_inner_iree t_func_literal_inner_icause t_func_literal_inner_impl (list_to_map t_func_literal_inner_named_methods).
Definition t_func_literal_inner : package := Package (list_to_map [(1, t_func_literal_inner_f1); (2, t_func_literal_inner_f2); (3, t_func_literal_inner_f3); (4, t_func_literal_inner_f4); (5, t_func_literal_inner_f5); (6, t_func_literal_inner_f6)]) [1; 2; 3; 4; 5; 6] t_func_literal_inner_gendecls t_func_literal_inner_top (list_to_map t_func_literal_inner_objs) (fun id => default [] (createCommentMap t_func_literal_inner_files id)) t_func_literal_inner_info.
Definition t_func_literal_inner_rank : gostring -> nat := fun n => default 0%nat ((list_to_map [] : gmap gostring nat) !! n).
Definition t_func_literal_f1 : func := Func 8 (Some (DeclInfo (Ident 9 (str "AssignmentInLambda") (Some 1)) None (Some (comment_text [(str "// Errors:"); (str "//"); (str "//    - some-error --")])))) (FuncType 10 [] (Some [(Field 13 [] 14)]) 125) (Some (Node 16 (KOther (str "*ast.BlockStmt")) [(Node 17 (KOther (str "*ast.DeclStmt")) [(Node 18 (KOther (str "*ast.GenDecl")) [(Node 19 (KValueSpec [(Ident 20 (str "err") (Some 2))] (Some 21)) [])])]); (Node 23 (KOther (str "*ast.ExprStmt")) [(Node 24 KCall [(Node 25 (KFuncLit 2) [(Node 28 (KOther (str "*ast.BlockStmt")) [(Node 29 (KAssign 1%nat) [(Node 30 (KIdent (str "err") (Some 2)) []); (Node 31 (KUnary true) [(Node 32 KComposite [(Node 34 KBasicLit [])])])])])])])]); (Node 35 (KOther (str "*ast.ExprStmt")) [(Node 36 KCall [(Node 37 (KFuncLit 3) [(Node 40 (KOther (str "*ast.BlockStmt")) [(Node 41 (KAssign 1%nat) [(Node 42 (KIdent (str "err") (Some 3)) []); (Node 43 (KUnary true) [(Node 44 KComposite [(Node 46 KBasicLit [])])])]); (Node 47 (KAssign 1%nat) [(Node 48 (KIdent (str "_") None) []); (Node 49 (KIdent (str "err") (Some 3)) [])])])])])]); (Node 50 KReturn [(Node 51 (KIdent (str "err") (Some 2)) [])])])) 132 325.
Definition t_func_literal_f2 : func := Func 25 None (FuncType 26 [] None 0) (Some (Node 28 (KOther (str "*ast.BlockStmt")) [(Node 29 (KAssign 1%nat) [(Node 30 (KIdent (str "err") (Some 2)) []); (Node 31 (KUnary true) [(Node 32 KComposite [(Node 34 KBasicLit [])])])])])) 210 243.
Definition t_func_literal_f3 : func := Func 37 None (FuncType 38 [] None 0) (Some (Node 40 (KOther (str "*ast.BlockStmt")) [(Node 41 (KAssign 1%nat) [(Node 42 (KIdent (str "err") (Some 3)) []); (Node 43 (KUnary true) [(Node 44 KComposite [(Node 46 KBasicLit [])])])]); (Node 47 (KAssign 1%nat) [(Node 48 (KIdent (str "_") None) []); (Node 49 (KIdent (str "err") (Some 3)) [])])])) 254 309.
Definition t_func_literal_f4 : func := Func 52 (Some (DeclInfo (Ident 53 (str "namedFunction") (Some 4)) None None)) (FuncType 54 [] (Some [(Field 57 [] 58)]) 348) (Some (Node 59 (KOther (str "*ast.BlockStmt")) [(Node 60 KReturn [(Node 61 (KUnary true) [(Node 62 KComposite [(Node 64 KBasicLit [])])])])])) 354 392.
Definition t_func_literal_f5 : func := Func 65 (Some (DeclInfo (Ident 66 (str "LambdasReturningErrors") (Some 5)) None (Some (comment_text [(str "// Errors:"); (str "//"); (str "//    - lambda-1-error --"); (str "//    - lambda-2-error --"); (str "//    - lambda-3-error --"); (str "//    - lambda-4-error --"); (str "//    - lambda-5-error --"); (str "//    - lambda-6-error --"); (str "//    - lambda-7-error --"); (str "//    - function-1-error --"); (str "//    - function-2-error --"); (str "//    - other-function-error --")])))) (FuncType 67 [] (Some [(Field 70 [] 71)]) 708) (Some (Node 72 (KOther (str "*ast.BlockStmt")) [(Node 73 (KOther (str "*ast.DeclStmt")) [(Node 74 (KOther (str "*ast.GenDecl")) [(Node 75 (KValueSpec [(Ident 76 (str "getError") (Some 6))] (Some 77)) [(Node 82 (KFuncLit 6) [(Node 88 (KOther (str "*ast.BlockStmt")) [(Node 89 KReturn [(Node 90 (KUnary true) [(Node 91 KComposite [(Node 93 KBasicLit [])])])])])])])])]); (Node 94 (KOther (str "*ast.SwitchStmt")) [(Node 95 (KOther (str "*ast.BlockStmt")) [(Node 96 (KCaseClause 1%nat) [(Node 97 (KIdent (str "true") None) []); (Node 98 (KAssign 1%nat) [(Node 99 (KIdent (str "getError") (Some 6)) []); (Node 100 (KFuncLit 7) [(Node 106 (KOther (str "*ast.BlockStmt")) [(Node 107 KReturn [(Node 108 (KUnary true) [(Node 109 KComposite [(Node 111 KBasicLit [])])])])])])])]); (Node 112 (KCaseClause 1%nat) [(Node 113 (KIdent (str "true") None) []); (Node 114 (KAssign 1%nat) [(Node 115 (KIdent (str "getError") (Some 6)) []); (Node 116 (KIdent (str "namedFunction") (Some 4)) [])])]); (Node 117 (KCaseClause 1%nat) [(Node 118 (KIdent (str "true") None) []); (Node 119 (KAssign 1%nat) [(Node 120 (KIdent (str "getError") (Some 6)) []); (Node 121 (KIdent (str "namedFunctionInOtherFile") None) [])])]); (Node 122 (KCaseClause 1%nat) [(Node 123 (KIdent (str "true") None) []); (Node 124 (KAssign 1%nat) [(Node 125 (KIdent (str "getError") (Some 6)) []); (Node 126 KSelector [(Node 127 (KIdent (str "inner") None) []); (Node 128 (KIdent (str "NamedFunction") None) [])])])])])]); (Node 129 (KAssign 1%nat) [(Node 130 (KIdent (str "getError2") (Some 7)) []); (Node 131 (KFuncLit 8) [(Node 137 (KOther (str "*ast.BlockStmt")) [(Node 138 KReturn [(Node 139 (KUnary true) [(Node 140 KComposite [(Node 142 KBasicLit [])])])])])])]); (Node 143 (KAssign 2%nat) [(Node 144 (KIdent (str "_") (Some 8)) []); (Node 145 (KIdent (str "getError3") (Some 9)) []); (Node 146 (KIdent (str "true") None) []); (Node 147 (KFuncLit 9) [(Node 153 (KOther (str "*ast.BlockStmt")) [(Node 154 KReturn [(Node 155 (KUnary true) [(Node 156 KComposite [(Node 158 KBasicLit [])])])])])])]); (Node 159 (KOther (str "*ast.IfStmt")) [(Node 160 (KIdent (str "false") None) []); (Node 161 (KOther (str "*ast.BlockStmt")) [(Node 162 (KAssign 1%nat) [(Node 163 (KIdent (str "getError3") (Some 9)) []); (Node 164 (KFuncLit 10) [(Node 170 (KOther (str "*ast.BlockStmt")) [(Node 171 KReturn [(Node 172 (KUnary true) [(Node 173 KComposite [(Node 175 KBasicLit [])])])])])])])]); (Node 176 (KOther (str "*ast.BlockStmt")) [(Node 177 (KAssign 1%nat) [(Node 178 (KIdent (str "getError3") (Some 9)) []); (Node 179 (KIdent (str "getError2") (Some 7)) [])])])]); (Node 180 (KOther (str "*ast.SwitchStmt")) [(Node 181 (KOther (str "*ast.BlockStmt")) [(Node 182 (KCaseClause 1%nat) [(Node 183 (KIdent (str "true") None) []); (Node 184 KReturn [(Node 185 KCall [(Node 186 (KIdent (str "getError") (Some 6)) [])])])]); (Node 187 (KCaseClause 1%nat) [(Node 188 (KIdent (str "true") None) []); (Node 189 KReturn [(Node 190 KCall [(Node 191 (KIdent (str "getError3") (Some 9)) [])])])]); (Node 192 (KCaseClause 1%nat) [(Node 193 (KIdent (str "true") None) []); (Node 194 KReturn [(Node 195 KCall [(Node 196 (KFuncLit 11) [(Node 202 (KOther (str "*ast.BlockStmt")) [(Node 203 KReturn [(Node 204 (KUnary true) [(Node 205 KComposite [(Node 207 KBasicLit [])])])])])])])])]); (Node 208 (KCaseClause 1%nat) [(Node 209 (KIdent (str "true") None) []); (Node 210 KReturn [(Node 211 KCall [(Node 212 (KFuncLit 12) [(Node 218 (KOther (str "*ast.BlockStmt")) [(Node 219 KReturn [(Node 220 KCall [(Node 221 (KFuncLit 13) [(Node 228 (KOther (str "*ast.BlockStmt")) [(Node 229 KReturn [(Node 230 (KUnary true) [(Node 231 KComposite [(Node 233 KBasicLit [])])])])])])])])])])])])])])]); (Node 234 KReturn [(Node 235 (KIdent (str "nil") None) [])])])) 714 1768.
Definition t_func_literal_f6 : func := Func 82 None (FuncType 83 [] (Some [(Field 86 [] 87)]) 957) (Some (Node 88 (KOther (str "*ast.BlockStmt")) [(Node 89 KReturn [(Node 90 (KUnary true) [(Node 91 KComposite [(Node 93 KBasicLit [])])])])])) 963 1001.
Definition t_func_literal_f7 : func := Func 100 None (FuncType 101 [] (Some [(Field 104 [] 105)]) 1045) (Some (Node 106 (KOther (str "*ast.BlockStmt")) [(Node 107 KReturn [(Node 108 (KUnary true) [(Node 109 KComposite [(Node 111 KBasicLit [])])])])])) 1051 1091.
Definition t_func_literal_f8 : func := Func 131 None (FuncType 132 [] (Some [(Field 135 [] 136)]) 1251) (Some (Node 137 (KOther (str "*ast.BlockStmt")) [(Node 138 KReturn [(Node 139 (KUnary true) [(Node 140 KComposite [(Node 142 KBasicLit [])])])])])) 1257 1295.
Definition t_func_literal_f9 : func := Func 147 None (FuncType 148 [] (Some [(Field 151 [] 152)]) 1326) (Some (Node 153 (KOther (str "*ast.BlockStmt")) [(Node 154 KReturn [(Node 155 (KUnary true) [(Node 156 KComposite [(Node 158 KBasicLit [])])])])])) 1332 1370.
Definition t_func_literal_f10 : func := Func 164 None (FuncType 165 [] (Some [(Field 168 [] 169)]) 1404) (Some (Node 170 (KOther (str "*ast.BlockStmt")) [(Node 171 KReturn [(Node 172 (KUnary true) [(Node 173 KComposite [(Node 175 KBasicLit [])])])])])) 1410 1450.
Definition t_func_literal_f11 : func := Func 196 None (FuncType 197 [] (Some [(Field 200 [] 201)]) 1592) (Some (Node 202 (KOther (str "*ast.BlockStmt")) [(Node 203 KReturn [(Node 204 (KUnary true) [(Node 205 KComposite [(Node 207 KBasicLit [])])])])])) 1598 1638.
Definition t_func_literal_f12 : func := Func 212 None (FuncType 213 [] (Some [(Field 216 [] 217)]) 1669) (Some (Node 218 (KOther (str "*ast.BlockStmt")) [(Node 219 KReturn [(Node 220 KCall [(Node 221 (KFuncLit 13) [(Node 228 (KOther (str "*ast.BlockStmt")) [(Node 229 KReturn [(Node 230 (KUnary true) [(Node 231 KComposite [(Node 233 KBasicLit [])])])])])])])])])) 1675 1749.
Definition t_func_literal_f13 : func := Func 221 None (FuncType 222 [] (Some [(Field 225 [] 226)]) 1694) (Some (Node 228 (KOther (str "*ast.BlockStmt")) [(Node 229 KReturn [(Node 230 (KUnary true) [(Node 231 KComposite [(Node 233 KBasicLit [])])])])])) 1701 1743.
Definition t_func_literal_f14 : func := Func 236 (Some (DeclInfo (Ident 237 (str "LambdasReturningErrorsWithParen") (Some 10)) None (Some (comment_text [(str "// Errors:"); (str "//"); (str "//    - lambda-1-error --"); (str "//    - lambda-2-error --"); (str "//    - lambda-3-error --"); (str "//    - lambda-4-error --"); (str "//    - lambda-5-error --"); (str "//    - lambda-6-error --"); (str "//    - lambda-7-error --"); (str "//    - function-1-error --"); (str "//    - function-2-error --"); (str "//    - other-function-error --")])))) (FuncType 238 [] (Some [(Field 241 [] 242)]) 2093) (Some (Node 243 (KOther (str "*ast.BlockStmt")) [(Node 244 (KOther (str "*ast.DeclStmt")) [(Node 245 (KOther (str "*ast.GenDecl")) [(Node 246 (KValueSpec [(Ident 247 (str "getError") (Some 11))] (Some 248)) [(Node 253 KParen [(Node 254 (KFuncLit 15) [(Node 260 (KOther (str "*ast.BlockStmt")) [(Node 261 KReturn [(Node 262 (KUnary true) [(Node 263 KComposite [(Node 265 KBasicLit [])])])])])])])])])]); (Node 266 (KOther (str "*ast.SwitchStmt")) [(Node 267 (KOther (str "*ast.BlockStmt")) [(Node 268 (KCaseClause 1%nat) [(Node 269 (KIdent (str "true") None) []); (Node 270 (KAssign 1%nat) [(Node 271 (KIdent (str "getError") (Some 11)) []); (Node 272 (KFuncLit 16) [(Node 278 (KOther (str "*ast.BlockStmt")) [(Node 279 (KOther (str "*ast.ForStmt")) [(Node 280 (KOther (str "*ast.BlockStmt")) [(Node 281 KReturn [(Node 282 KParen [(Node 283 (KUnary true) [(Node 284 KComposite [(Node 286 KBasicLit [])])])])])])])])])])]); (Node 287 (KCaseClause 1%nat) [(Node 288 (KIdent (str "true") None) []); (Node 289 (KAssign 1%nat) [(Node 290 (KIdent (str "getError") (Some 11)) []); (Node 291 KParen [(Node 292 (KIdent (str "namedFunction") (Some 4)) [])])])]); (Node 293 (KCaseClause 1%nat) [(Node 294 (KIdent (str "true") None) []); (Node 295 (KAssign 1%nat) [(Node 296 (KIdent (str "getError") (Some 11)) []); (Node 297 KParen [(Node 298 (KIdent (str "namedFunctionInOtherFile") None) [])])])]); (Node 299 (KCaseClause 1%nat) [(Node 300 (KIdent (str "true") None) []); (Node 301 (KAssign 1%nat) [(Node 302 (KIdent (str "getError") (Some 11)) []); (Node 303 KParen [(Node 304 KSelector [(Node 305 (KIdent (str "inner") None) []); (Node 306 (KIdent (str "NamedFunction") None) [])])])])])])]); (Node 307 (KAssign 1%nat) [(Node 308 (KIdent (str "getError2") (Some 12)) []); (Node 309 (KFuncLit 17) [(Node 315 (KOther (str "*ast.BlockStmt")) [(Node 316 KReturn [(Node 317 (KUnary true) [(Node 318 KParen [(Node 319 KComposite [(Node 321 KBasicLit [])])])])])])])]); (Node 322 (KAssign 2%nat) [(Node 323 (KIdent (str "_") (Some 13)) []); (Node 324 (KIdent (str "getError3") (Some 14)) []); (Node 325 (KIdent (str "true") None) []); (Node 326 KParen [(Node 327 (KFuncLit 18) [(Node 333 (KOther (str "*ast.BlockStmt")) [(Node 334 KReturn [(Node 335 (KUnary true) [(Node 336 KComposite [(Node 338 KParen [(Node 339 KBasicLit [])])])])])])])])]); (Node 340 (KOther (str "*ast.IfStmt")) [(Node 341 (KIdent (str "false") None) []); (Node 342 (KOther (str "*ast.BlockStmt")) [(Node 343 (KAssign 1%nat) [(Node 344 (KIdent (str "getError3") (Some 14)) []); (Node 345 (KFuncLit 19) [(Node 351 (KOther (str "*ast.BlockStmt")) [(Node 352 KReturn [(Node 353 KParen [(Node 354 (KUnary true) [(Node 355 KParen [(Node 356 KComposite [(Node 358 KBasicLit [])])])])])])])])])]); (Node 359 (KOther (str "*ast.BlockStmt")) [(Node 360 (KAssign 1%nat) [(Node 361 (KIdent (str "getError3") (Some 14)) []); (Node 362 KParen [(Node 363 (KIdent (str "getError2") (Some 12)) [])])])])]); (Node 364 (KOther (str "*ast.SwitchStmt")) [(Node 365 (KOther (str "*ast.BlockStmt")) [(Node 366 (KCaseClause 1%nat) [(Node 367 (KIdent (str "true") None) []); (Node 368 KReturn [(Node 369 KCall [(Node 370 KParen [(Node 371 (KIdent (str "getError") (Some 11)) [])])])])]); (Node 372 (KCaseClause 1%nat) [(Node 373 (KIdent (str "true") None) []); (Node 374 KReturn [(Node 375 KCall [(Node 376 KParen [(Node 377 (KIdent (str "getError3") (Some 14)) [])])])])]); (Node 378 (KCaseClause 1%nat) [(Node 379 (KIdent (str "true") None) []); (Node 380 KReturn [(Node 381 KCall [(Node 382 (KFuncLit 20) [(Node 388 (KOther (str "*ast.BlockStmt")) [(Node 389 KReturn [(Node 390 (KUnary true) [(Node 391 KComposite [(Node 393 KBasicLit [])])])])])])])])]); (Node 394 (KCaseClause 1%nat) [(Node 395 (KIdent (str "true") None) []); (Node 396 KReturn [(Node 397 KCall [(Node 398 (KFuncLit 21) [(Node 404 (KOther (str "*ast.BlockStmt")) [(Node 405 KReturn [(Node 406 KParen [(Node 407 KCall [(Node 408 KParen [(Node 409 (KFuncLit 22) [(Node 416 (KOther (str "*ast.BlockStmt")) [(Node 417 KReturn [(Node 418 (KUnary true) [(Node 419 KComposite [(Node 421 KBasicLit [])])])])])])])])])])])])])])])])]); (Node 422 KReturn [(Node 423 (KIdent (str "nil") None) [])])])) 2099 3207.
Definition t_func_literal_f15 : func := Func 254 None (FuncType 255 [] (Some [(Field 258 [] 259)]) 2352) (Some (Node 260 (KOther (str "*ast.BlockStmt")) [(Node 261 KReturn [(Node 262 (KUnary true) [(Node 263 KComposite [(Node 265 KBasicLit [])])])])])) 2358 2396.
Definition t_func_literal_f16 : func := Func 272 None (FuncType 273 [] (Some [(Field 276 [] 277)]) 2441) (Some (Node 278 (KOther (str "*ast.BlockStmt")) [(Node 279 (KOther (str "*ast.ForStmt")) [(Node 280 (KOther (str "*ast.BlockStmt")) [(Node 281 KReturn [(Node 282 KParen [(Node 283 (KUnary true) [(Node 284 KComposite [(Node 286 KBasicLit [])])])])])])])])) 2447 2504.
Definition t_func_literal_f17 : func := Func 309 None (FuncType 310 [] (Some [(Field 313 [] 314)]) 2670) (Some (Node 315 (KOther (str "*ast.BlockStmt")) [(Node 316 KReturn [(Node 317 (KUnary true) [(Node 318 KParen [(Node 319 KComposite [(Node 321 KBasicLit [])])])])])])) 2676 2716.
Definition t_func_literal_f18 : func := Func 327 None (FuncType 328 [] (Some [(Field 331 [] 332)]) 2748) (Some (Node 333 (KOther (str "*ast.BlockStmt")) [(Node 334 KReturn [(Node 335 (KUnary true) [(Node 336 KComposite [(Node 338 KParen [(Node 339 KBasicLit [])])])])])])) 2754 2794.
Definition t_func_literal_f19 : func := Func 345 None (FuncType 346 [] (Some [(Field 349 [] 350)]) 2829) (Some (Node 351 (KOther (str "*ast.BlockStmt")) [(Node 352 KReturn [(Node 353 KParen [(Node 354 (KUnary true) [(Node 355 KParen [(Node 356 KComposite [(Node 358 KBasicLit [])])])])])])])) 2835 2879.
Definition t_func_literal_f20 : func := Func 382 None (FuncType 383 [] (Some [(Field 386 [] 387)]) 3027) (Some (Node 388 (KOther (str "*ast.BlockStmt")) [(Node 389 KReturn [(Node 390 (KUnary true) [(Node 391 KComposite [(Node 393 KBasicLit [])])])])])) 3033 3073.
Definition t_func_literal_f21 : func := Func 398 None (FuncType 399 [] (Some [(Field 402 [] 403)]) 3104) (Some (Node 404 (KOther (str "*ast.BlockStmt")) [(Node 405 KReturn [(Node 406 KParen [(Node 407 KCall [(Node 408 KParen [(Node 409 (KFuncLit 22) [(Node 416 (KOther (str "*ast.BlockStmt")) [(Node 417 KReturn [(Node 418 (KUnary true) [(Node 419 KComposite [(Node 421 KBasicLit [])])])])])])])])])])])) 3110 3188.
Definition t_func_literal_f22 : func := Func 409 None (FuncType 410 [] (Some [(Field 413 [] 414)]) 3131) (Some (Node 416 (KOther (str "*ast.BlockStmt")) [(Node 417 KReturn [(Node 418 (KUnary true) [(Node 419 KComposite [(Node 421 KBasicLit [])])])])])) 3138 3180.
Definition t_func_literal_f23 : func := Func 424 (Some (DeclInfo (Ident 425 (str "returningLambda") (Some 15)) None None)) (FuncType 426 [] (Some [(Field 429 [] 430)]) 3232) (Some (Node 436 (KOther (str "*ast.BlockStmt")) [(Node 437 KReturn [(Node 438 (KFuncLit 24) [(Node 445 (KOther (str "*ast.BlockStmt")) [(Node 446 KReturn [(Node 447 (KUnary true) [(Node 448 KComposite [(Node 450 KBasicLit [])])])])])])])])) 3246 3308.
Definition t_func_literal_f24 : func := Func 438 None (FuncType 439 [] (Some [(Field 442 [] 443)]) 3263) (Some (Node 445 (KOther (str "*ast.BlockStmt")) [(Node 446 KReturn [(Node 447 (KUnary true) [(Node 448 KComposite [(Node 450 KBasicLit [])])])])])) 3270 3306.
Definition t_func_literal_f25 : func := Func 451 (Some (DeclInfo (Ident 452 (str "OutOfBounds") (Some 16)) None (Some (comment_text [(str "// Errors: none")])))) (FuncType 453 [] (Some [(Field 456 [] 457)]) 3345) (Some (Node 459 (KOther (str "*ast.BlockStmt")) [(Node 460 (KOther (str "*ast.SwitchStmt")) [(Node 461 (KOther (str "*ast.BlockStmt")) [(Node 462 (KCaseClause 1%nat) [(Node 463 (KIdent (str "true") None) []); (Node 464 KReturn [(Node 465 (KUnary true) [(Node 466 KComposite [(Node 468 KCall [(Node 469 (KFuncLit 26) [(Node 475 (KOther (str "*ast.BlockStmt")) [(Node 476 KReturn [(Node 477 KBasicLit [])])])])])])])])]); (Node 478 (KCaseClause 1%nat) [(Node 479 (KIdent (str "true") None) []); (Node 480 KReturn [(Node 481 KCall [(Node 482 KCall [(Node 483 (KFuncLit 27) [(Node 494 (KOther (str "*ast.BlockStmt")) [(Node 495 KReturn [(Node 496 (KFuncLit 28) [(Node 503 (KOther (str "*ast.BlockStmt")) [(Node 504 KReturn [(Node 505 (KUnary true) [(Node 506 KComposite [(Node 508 KBasicLit [])])])])])])])])])])])])]); (Node 509 (KCaseClause 1%nat) [(Node 510 (KIdent (str "true") None) []); (Node 511 KReturn [(Node 512 KCall [(Node 513 KCall [(Node 514 (KIdent (str "returningLambda") (Some 15)) [])])])])]); (Node 515 (KCaseClause 1%nat) [(Node 516 (KIdent (str "true") None) []); (Node 517 (KOther (str "*ast.DeclStmt")) [(Node 518 (KOther (str "*ast.GenDecl")) [(Node 519 (KValueSpec [(Ident 520 (str "lambda") (Some 17))] (Some 521)) [(Node 527 KCall [(Node 528 (KIdent (str "returningLambda") (Some 15)) [])])])])]); (Node 529 KReturn [(Node 530 KCall [(Node 531 (KIdent (str "lambda") (Some 17)) [])])])]); (Node 532 (KCaseClause 1%nat) [(Node 533 (KIdent (str "true") None) []); (Node 534 (KAssign 1%nat) [(Node 535 (KIdent (str "funcLit") (Some 18)) []); (Node 536 KCall [(Node 537 (KIdent (str "returningLambda") (Some 15)) [])])]); (Node 538 KReturn [(Node 539 KCall [(Node 540 (KIdent (str "funcLit") (Some 18)) [])])])]); (Node 541 (KCaseClause 1%nat) [(Node 542 (KIdent (str "true") None) []); (Node 543 (KAssign 1%nat) [(Node 544 (KIdent (str "err") (Some 19)) []); (Node 545 (KUnary true) [(Node 546 KComposite [(Node 548 KBasicLit [])])])]); (Node 549 KReturn [(Node 550 KCall [(Node 551 (KFuncLit 29) [(Node 558 (KOther (str "*ast.BlockStmt")) [(Node 559 KReturn [(Node 560 (KIdent (str "err") (Some 19)) [])])])])])])])])]); (Node 561 KReturn [(Node 562 (KIdent (str "nil") None) [])])])) 3352 4412.
Definition t_func_literal_f26 : func := Func 469 None (FuncType 470 [] (Some [(Field 473 [] 474)]) 3433) (Some (Node 475 (KOther (str "*ast.BlockStmt")) [(Node 476 KReturn [(Node 477 KBasicLit [])])])) 3440 3464.
Definition t_func_literal_f27 : func := Func 483 None (FuncType 484 [] (Some [(Field 487 [] 488)]) 3566) (Some (Node 494 (KOther (str "*ast.BlockStmt")) [(Node 495 KReturn [(Node 496 (KFuncLit 28) [(Node 503 (KOther (str "*ast.BlockStmt")) [(Node 504 KReturn [(Node 505 (KUnary true) [(Node 506 KComposite [(Node 508 KBasicLit [])])])])])])])])) 3580 3736.
Definition t_func_literal_f28 : func := Func 496 None (FuncType 497 [] (Some [(Field 500 [] 501)]) 3685) (Some (Node 503 (KOther (str "*ast.BlockStmt")) [(Node 504 KReturn [(Node 505 (KUnary true) [(Node 506 KComposite [(Node 508 KBasicLit [])])])])])) 3692 3732.
Definition t_func_literal_f29 : func := Func 551 None (FuncType 552 [] (Some [(Field 555 [] 556)]) 4245) (Some (Node 558 (KOther (str "*ast.BlockStmt")) [(Node 559 KReturn [(Node 560 (KIdent (str "err") (Some 19)) [])])])) 4252 4393.
Definition t_func_literal_f30 : func := Func 563 (Some (DeclInfo (Ident 564 (str "TwinAssignLambda") (Some 20)) None (Some (comment_text [(str "// Errors:"); (str "//"); (str "//    - f1-1-error --"); (str "//    - f1-2-error --"); (str "//    - f2-1-error --"); (str "//    - f2-2-error --")])))) (FuncType 565 [] (Some [(Field 568 [] 569)]) 4540) (Some (Node 570 (KOther (str "*ast.BlockStmt")) [(Node 571 (KOther (str "*ast.DeclStmt")) [(Node 572 (KOther (str "*ast.GenDecl")) [(Node 573 (KValueSpec [(Ident 574 (str "f1") (Some 21)); (Ident 575 (str "f2") (Some 22))] None) [(Node 576 (KFuncLit 31) [(Node 582 (KOther (str "*ast.BlockStmt")) [(Node 583 KReturn [(Node 584 (KUnary true) [(Node 585 KComposite [(Node 587 KBasicLit [])])])])])]); (Node 588 (KFuncLit 32) [(Node 594 (KOther (str "*ast.BlockStmt")) [(Node 595 KReturn [(Node 596 (KUnary true) [(Node 597 KComposite [(Node 599 KBasicLit [])])])])])])])])]); (Node 600 (KAssign 2%nat) [(Node 601 (KIdent (str "f1") (Some 21)) []); (Node 602 (KIdent (str "f2") (Some 22)) []); (Node 603 (KFuncLit 33) [(Node 609 (KOther (str "*ast.BlockStmt")) [(Node 610 KReturn [(Node 611 (KUnary true) [(Node 612 KComposite [(Node 614 KBasicLit [])])])])])]); (Node 615 (KFuncLit 34) [(Node 621 (KOther (str "*ast.BlockStmt")) [(Node 622 KReturn [(Node 623 (KUnary true) [(Node 624 KComposite [(Node 626 KBasicLit [])])])])])])]); (Node 627 (KOther (str "*ast.DeclStmt")) [(Node 628 (KOther (str "*ast.GenDecl")) [(Node 629 (KValueSpec [(Ident 630 (str "f3") (Some 23)); (Ident 631 (str "_") (Some 24))] None) [(Node 632 KCall [(Node 633 (KIdent (str "ReturnTwinLambda") (Some 25)) [])])])])]); (Node 634 (KAssign 2%nat) [(Node 635 (KIdent (str "_") None) []); (Node 636 (KIdent (str "f3") (Some 23)) []); (Node 637 KCall [(Node 638 (KIdent (str "ReturnTwinLambda") (Some 25)) [])])]); (Node 639 (KOther (str "*ast.SwitchStmt")) [(Node 640 (KOther (str "*ast.BlockStmt")) [(Node 641 (KCaseClause 1%nat) [(Node 642 (KIdent (str "true") None) []); (Node 643 KReturn [(Node 644 KCall [(Node 645 (KIdent (str "f1") (Some 21)) [])])])]); (Node 646 (KCaseClause 1%nat) [(Node 647 (KIdent (str "true") None) []); (Node 648 KReturn [(Node 649 KCall [(Node 650 (KIdent (str "f2") (Some 22)) [])])])]); (Node 651 (KCaseClause 1%nat) [(Node 652 (KIdent (str "true") None) []); (Node 653 KReturn [(Node 654 KCall [(Node 655 (KIdent (str "f3") (Some 23)) [])])])]); (Node 656 (KCaseClause 0%nat) [(Node 657 KReturn [(Node 658 (KIdent (str "nil") None) [])])])])])])) 4546 5194.
Definition t_func_literal_f31 : func := Func 576 None (FuncType 577 [] (Some [(Field 580 [] 581)]) 4652) (Some (Node 582 (KOther (str "*ast.BlockStmt")) [(Node 583 KReturn [(Node 584 (KUnary true) [(Node 585 KComposite [(Node 587 KBasicLit [])])])])])) 4658 4689.
Definition t_func_literal_f32 : func := Func 588 None (FuncType 589 [] (Some [(Field 592 [] 593)]) 4698) (Some (Node 594 (KOther (str "*ast.BlockStmt")) [(Node 595 KReturn [(Node 596 (KUnary true) [(Node 597 KComposite [(Node 599 KBasicLit [])])])])])) 4704 4735.
Definition t_func_literal_f33 : func := Func 603 None (FuncType 604 [] (Some [(Field 607 [] 608)]) 4753) (Some (Node 609 (KOther (str "*ast.BlockStmt")) [(Node 610 KReturn [(Node 611 (KUnary true) [(Node 612 KComposite [(Node 614 KBasicLit [])])])])])) 4759 4790.
Definition t_func_literal_f34 : func := Func 615 None (FuncType 616 [] (Some [(Field 619 [] 620)]) 4799) (Some (Node 621 (KOther (str "*ast.BlockStmt")) [(Node 622 KReturn [(Node 623 (KUnary true) [(Node 624 KComposite [(Node 626 KBasicLit [])])])])])) 4805 4836.
Definition t_func_literal_f35 : func := Func 659 (Some (DeclInfo (Ident 660 (str "ReturnTwinLambda") (Some 25)) None None)) (FuncType 661 [] (Some [(Field 664 [] 665); (Field 670 [] 671)]) 5220) (Some (Node 676 (KOther (str "*ast.BlockStmt")) [(Node 677 KReturn [(Node 678 (KIdent (str "nil") None) []); (Node 679 (KIdent (str "nil") None) [])])])) 5249 5269.
Definition t_func_literal_f36 : func := Func 680 (Some (DeclInfo (Ident 681 (str "InvalidErrorFromLambdaParam") (Some 26)) None (Some (comment_text [(str "// Errors: none")])))) (FuncType 682 [] (Some [(Field 685 [] 686)]) 5322) (Some (Node 687 (KOther (str "*ast.BlockStmt")) [(Node 688 KReturn [(Node 689 KCall [(Node 690 (KFuncLit 37) [(Node 699 (KOther (str "*ast.BlockStmt")) [(Node 700 KReturn [(Node 701 (KIdent (str "e") (Some 27)) [])])])]); (Node 702 KCall [(Node 703 KSelector [(Node 704 (KIdent (str "fmt") None) []); (Node 705 (KIdent (str "Errorf") None) [])]); (Node 706 KBasicLit [])])])])])) 5328 5580.
Definition t_func_literal_f37 : func := Func 690 None (FuncType 691 [(Field 693 [(Ident 694 (str "e") (Some 27))] 695)] (Some [(Field 697 [] 698)]) 5401) (Some (Node 699 (KOther (str "*ast.BlockStmt")) [(Node 700 KReturn [(Node 701 (KIdent (str "e") (Some 27)) [])])])) 5407 5544.
Definition t_func_literal_f38 : func := Func 707 (Some (DeclInfo (Ident 708 (str "InvalidErrorFromLambdaParam2") (Some 28)) None (Some (comment_text [(str "// Errors: none")])))) (FuncType 709 [] (Some [(Field 712 [] 713)]) 5634) (Some (Node 714 (KOther (str "*ast.BlockStmt")) [(Node 715 (KOther (str "*ast.DeclStmt")) [(Node 716 (KOther (str "*ast.GenDecl")) [(Node 717 (KValueSpec [(Ident 718 (str "err") (Some 29))] (Some 719)) [])])]); (Node 720 (KOther (str "*ast.ExprStmt")) [(Node 721 KCall [(Node 722 (KFuncLit 39) [(Node 728 (KOther (str "*ast.BlockStmt")) [(Node 729 (KAssign 1%nat) [(Node 730 (KIdent (str "err") (Some 29)) []); (Node 731 (KIdent (str "e") (Some 30)) [])])])]); (Node 732 KCall [(Node 733 KSelector [(Node 734 (KIdent (str "fmt") None) []); (Node 735 (KIdent (str "Errorf") None) [])]); (Node 736 KBasicLit [])])])]); (Node 737 KReturn [(Node 738 (KIdent (str "err") (Some 29)) [])])])) 5640 5861.
Definition t_func_literal_f39 : func := Func 722 None (FuncType 723 [(Field 725 [(Ident 726 (str "e") (Some 30))] 727)] None 0) (Some (Node 728 (KOther (str "*ast.BlockStmt")) [(Node 729 (KAssign 1%nat) [(Node 730 (KIdent (str "err") (Some 29)) []); (Node 731 (KIdent (str "e") (Some 30)) [])])])) 5722 5813.
Definition t_func_literal_f40 : func := Func 747 (Some (DeclInfo (Ident 753 (str "Code") None) (Some [(Field 749 [(Ident 750 (str "e") (Some 31))] 751)]) None)) (FuncType 754 [] (Some [(Field 757 [] 758)]) 5995) (Some (Node 759 (KOther (str "*ast.BlockStmt")) [(Node 760 KReturn [(Node 761 KSelector [(Node 762 (KIdent (str "e") (Some 31)) []); (Node 763 (KIdent (str "TheCode") None) [])])])])) 6016 6036.
Definition t_func_literal_f41 : func := Func 764 (Some (DeclInfo (Ident 770 (str "Message") None) (Some [(Field 766 [(Ident 767 (str "e") (Some 32))] 768)]) None)) (FuncType 771 [] (Some [(Field 774 [] 775)]) 6063) (Some (Node 776 (KOther (str "*ast.BlockStmt")) [(Node 777 KReturn [(Node 778 KSelector [(Node 779 (KIdent (str "e") (Some 32)) []); (Node 780 (KIdent (str "TheCode") None) [])])])])) 6081 6101.
Definition t_func_literal_f42 : func := Func 781 (Some (DeclInfo (Ident 787 (str "Details") None) (Some [(Field 783 [(Ident 784 (str "e") (Some 33))] 785)]) None)) (FuncType 788 [] (Some [(Field 791 [] 792)]) 6128) (Some (Node 795 (KOther (str "*ast.BlockStmt")) [(Node 796 KReturn [(Node 797 (KIdent (str "nil") None) [])])])) 6146 6160.
Definition t_func_literal_f43 : func := Func 798 (Some (DeclInfo (Ident 804 (str "Cause") None) (Some [(Field 800 [(Ident 801 (str "e") (Some 34))] 802)]) None)) (FuncType 805 [] (Some [(Field 808 [] 809)]) 6185) (Some (Node 810 (KOther (str "*ast.BlockStmt")) [(Node 811 KReturn [(Node 812 (KIdent (str "nil") None) [])])])) 6205 6219.
Definition t_func_literal_f44 : func := Func 813 (Some (DeclInfo (Ident 819 (str "Error") None) (Some [(Field 815 [(Ident 816 (str "e") (Some 35))] 817)]) None)) (FuncType 820 [] (Some [(Field 823 [] 824)]) 6244) (Some (Node 825 (KOther (str "*ast.BlockStmt")) [(Node 826 KReturn [(Node 827 KCall [(Node 828 KSelector [(Node 829 (KIdent (str "e") (Some 35)) []); (Node 830 (KIdent (str "Message") None) [])])])])])) 6264 6286.
Definition t_func_literal_f45 : func := Func 833 (Some (DeclInfo (Ident 834 (str "namedFunctionInOtherFile") (Some 36)) None None)) (FuncType 835 [] (Some [(Field 838 [] 839)]) 6341) (Some (Node 840 (KOther (str "*ast.BlockStmt")) [(Node 841 KReturn [(Node 842 (KUnary true) [(Node 843 KComposite [(Node 845 KBasicLit [])])])])])) 6347 6389.
Definition t_func_literal_gendecls : list gendecl := [GenDecl 3 [None; None]; GenDecl 18 [None]; GenDecl 74 [None]; GenDecl 245 [None]; GenDecl 518 [None]; GenDecl 572 [None]; GenDecl 628 [None]; GenDecl 716 [None]; GenDecl 739 [(Some (TypeSpec (Ident 741 (str "Error") (Some 37)) (XStruct [[(Ident 745 (str "TheCode") None)]])))]].
Definition t_func_literal_top : list topdecl := [TopNode (Node 3 (KOther (str "*ast.GenDecl")) [(Node 4 (KOther (str "*ast.ImportSpec")) []); (Node 6 (KOther (str "*ast.ImportSpec")) [])]); TopFunc 1; TopFunc 4; TopFunc 5; TopFunc 14; TopFunc 23; TopFunc 25; TopFunc 30; TopFunc 35; TopFunc 36; TopFunc 38; TopNode (Node 739 (KOther (str "*ast.GenDecl")) [(Node 740 (KOther (str "*ast.TypeSpec")) [])]); TopFunc 40; TopFunc 41; TopFunc 42; TopFunc 43; TopFunc 44; TopFunc 45].
Definition t_func_literal_objs : list (N * object) := [(1, Object false 104 (DFunc 1)); (2, Object true 191 (DValueSpec [(Ident 20 (str "err") (Some 2))] [])); (3, Object true 258 DOther); (4, Object false 332 (DFunc 4)); (5, Object false 683 (DFunc 5)); (6, Object true 926 (DValueSpec [(Ident 76 (str "getError") (Some 6))] [(Node 82 (KFuncLit 6) [(Node 88 (KOther (str "*ast.BlockStmt")) [(Node 89 KReturn [(Node 90 (KUnary true) [(Node 91 KComposite [(Node 93 KBasicLit [])])])])])])])); (7, Object true 1231 DOther); (8, Object true 1297 DOther); (9, Object true 1300 DOther); (10, Object false 2059 (DFunc 14)); (11, Object true 2320 (DValueSpec [(Ident 247 (str "getError") (Some 11))] [(Node 253 KParen [(Node 254 (KFuncLit 15) [(Node 260 (KOther (str "*ast.BlockStmt")) [(Node 261 KReturn [(Node 262 (KUnary true) [(Node 263 KComposite [(Node 265 KBasicLit [])])])])])])])])); (12, Object true 2650 DOther); (13, Object true 2718 DOther); (14, Object true 2721 DOther); (15, Object false 3214 (DFunc 23)); (16, Object false 3331 (DFunc 25)); (17, Object true 3886 (DValueSpec [(Ident 520 (str "lambda") (Some 17))] [(Node 527 KCall [(Node 528 (KIdent (str "returningLambda") (Some 15)) [])])])); (18, Object true 4047 DOther); (19, Object true 4198 DOther); (20, Object false 4521 (DFunc 30)); (21, Object true 4636 (DValueSpec [(Ident 574 (str "f1") (Some 21)); (Ident 575 (str "f2") (Some 22))] [(Node 576 (KFuncLit 31) [(Node 582 (KOther (str "*ast.BlockStmt")) [(Node 583 KReturn [(Node 584 (KUnary true) [(Node 585 KComposite [(Node 587 KBasicLit [])])])])])]); (Node 588 (KFuncLit 32) [(Node 594 (KOther (str "*ast.BlockStmt")) [(Node 595 KReturn [(Node 596 (KUnary true) [(Node 597 KComposite [(Node 599 KBasicLit [])])])])])])])); (22, Object true 4640 (DValueSpec [(Ident 574 (str "f1") (Some 21)); (Ident 575 (str "f2") (Some 22))] [(Node 576 (KFuncLit 31) [(Node 582 (KOther (str "*ast.BlockStmt")) [(Node 583 KReturn [(Node 584 (KUnary true) [(Node 585 KComposite [(Node 587 KBasicLit [])])])])])]); (Node 588 (KFuncLit 32) [(Node 594 (KOther (str "*ast.BlockStmt")) [(Node 595 KReturn [(Node 596 (KUnary true) [(Node 597 KComposite [(Node 599 KBasicLit [])])])])])])])); (23, Object true 4842 (DValueSpec [(Ident 630 (str "f3") (Some 23)); (Ident 631 (str "_") (Some 24))] [(Node 632 KCall [(Node 633 (KIdent (str "ReturnTwinLambda") (Some 25)) [])])])); (24, Object true 4846 (DValueSpec [(Ident 630 (str "f3") (Some 23)); (Ident 631 (str "_") (Some 24))] [(Node 632 KCall [(Node 633 (KIdent (str "ReturnTwinLambda") (Some 25)) [])])])); (25, Object false 5201 (DFunc 35)); (26, Object false 5292 (DFunc 36)); (27, Object true 5392 DOther); (28, Object false 5603 (DFunc 38)); (29, Object true 5697 (DValueSpec [(Ident 718 (str "err") (Some 29))] [])); (30, Object true 5713 DOther); (31, Object true 5978 DOther); (32, Object true 6043 DOther); (33, Object true 6108 DOther); (34, Object true 6167 DOther); (35, Object true 6226 DOther); (36, Object false 6314 (DFunc 45)); (37, Object false 5868 DType)].
Definition t_func_literal_types : list (N * gotype) := [(10, (TSignature [] [(TPointer (TNamed 72))] false)); (14, (TPointer (TNamed 72))); (15, (TNamed 72)); (20, (TPointer (TNamed 72))); (21, (TPointer (TNamed 72))); (22, (TNamed 72)); (24, (TTuple [])); (25, (TSignature [] [] false)); (26, (TSignature [] [] false)); (30, (TPointer (TNamed 72))); (31, (TPointer (TNamed 72))); (32, (TNamed 72)); (33, (TNamed 72)); (34, (TBasic (str "string"))); (36, (TTuple [])); (37, (TSignature [] [] false)); (38, (TSignature [] [] false)); (42, (TPointer (TNamed 72))); (43, (TPointer (TNamed 72))); (44, (TNamed 72)); (45, (TNamed 72)); (46, (TBasic (str "string"))); (49, (TPointer (TNamed 72))); (51, (TPointer (TNamed 72))); (54, (TSignature [] [(TNamed 1)] false)); (58, (TNamed 1)); (61, (TPointer (TNamed 72))); (62, (TNamed 72)); (63, (TNamed 72)); (64, (TBasic (str "string"))); (67, (TSignature [] [(TNamed 1)] false)); (71, (TNamed 1)); (76, (TSignature [] [(TNamed 1)] false)); (77, (TSignature [] [(TNamed 1)] false)); (81, (TNamed 1)); (82, (TSignature [] [(TNamed 1)] false)); (83, (TSignature [] [(TNamed 1)] false)); (87, (TNamed 1)); (90, (TPointer (TNamed 72))); (91, (TNamed 72)); (92, (TNamed 72)); (93, (TBasic (str "string"))); (97, (TBasic (str "bool"))); (99, (TSignature [] [(TNamed 1)] false)); (100, (TSignature [] [(TNamed 1)] false)); (101, (TSignature [] [(TNamed 1)] false)); (105, (TNamed 1)); (108, (TPointer (TNamed 72))); (109, (TNamed 72)); (110, (TNamed 72)); (111, (TBasic (str "string"))); (113, (TBasic (str "bool"))); (115, (TSignature [] [(TNamed 1)] false)); (116, (TSignature [] [(TNamed 1)] false)); (118, (TBasic (str "bool"))); (120, (TSignature [] [(TNamed 1)] false)); (121, (TSignature [] [(TNamed 1)] false)); (123, (TBasic (str "bool"))); (125, (TSignature [] [(TNamed 1)] false)); (126, (TSignature [] [(TNamed 1)] false)); (128, (TSignature [] [(TNamed 1)] false)); (130, (TSignature [] [(TNamed 1)] false)); (131, (TSignature [] [(TNamed 1)] false)); (132, (TSignature [] [(TNamed 1)] false)); (136, (TNamed 1)); (139, (TPointer (TNamed 72))); (140, (TNamed 72)); (141, (TNamed 72)); (142, (TBasic (str "string"))); (144, (TBasic (str "bool"))); (145, (TSignature [] [(TNamed 1)] false)); (146, (TBasic (str "bool"))); (147, (TSignature [] [(TNamed 1)] false)); (148, (TSignature [] [(TNamed 1)] false)); (152, (TNamed 1)); (155, (TPointer (TNamed 72))); (156, (TNamed 72)); (157, (TNamed 72)); (158, (TBasic (str "string"))); (160, (TBasic (str "bool"))); (163, (TSignature [] [(TNamed 1)] false)); (164, (TSignature [] [(TNamed 1)] false)); (165, (TSignature [] [(TNamed 1)] false)); (169, (TNamed 1)); (172, (TPointer (TNamed 72))); (173, (TNamed 72)); (174, (TNamed 72)); (175, (TBasic (str "string"))); (178, (TSignature [] [(TNamed 1)] false)); (179, (TSignature [] [(TNamed 1)] false)); (183, (TBasic (str "bool"))); (185, (TNamed 1)); (186, (TSignature [] [(TNamed 1)] false)); (188, (TBasic (str "bool"))); (190, (TNamed 1)); (191, (TSignature [] [(TNamed 1)] false)); (193, (TBasic (str "bool"))); (195, (TNamed 1)); (196, (TSignature [] [(TNamed 1)] false)); (197, (TSignature [] [(TNamed 1)] false)); (201, (TNamed 1)); (204, (TPointer (TNamed 72))); (205, (TNamed 72)); (206, (TNamed 72)); (207, (TBasic (str "string"))); (209, (TBasic (str "bool"))); (211, (TNamed 1)); (212, (TSignature [] [(TNamed 1)] false)); (213, (TSignature [] [(TNamed 1)] false)); (217, (TNamed 1)); (220, (TPointer (TNamed 72))); (221, (TSignature [] [(TPointer (TNamed 72))] false)); (222, (TSignature [] [(TPointer (TNamed 72))] false)); (226, (TPointer (TNamed 72))); (227, (TNamed 72)); (230, (TPointer (TNamed 72))); (231, (TNamed 72)); (232, (TNamed 72)); (233, (TBasic (str "string"))); (235, TUntypedNil); (238, (TSignature [] [(TNamed 1)] false)); (242, (TNamed 1)); (247, (TSignature [] [(TNamed 1)] false)); (248, (TSignature [] [(TNamed 1)] false)); (252, (TNamed 1)); (253, (TSignature [] [(TNamed 1)] false)); (254, (TSignature [] [(TNamed 1)] false)); (255, (TSignature [] [(TNamed 1)] false)); (259, (TNamed 1)); (262, (TPointer (TNamed 72))); (263, (TNamed 72)); (264, (TNamed 72)); (265, (TBasic (str "string"))); (269, (TBasic (str "bool"))); (271, (TSignature [] [(TNamed 1)] false)); (272, (TSignature [] [(TNamed 1)] false)); (273, (TSignature [] [(TNamed 1)] false)); (277, (TNamed 1)); (282, (TPointer (TNamed 72))); (283, (TPointer (TNamed 72))); (284, (TNamed 72)); (285, (TNamed 72)); (286, (TBasic (str "string"))); (288, (TBasic (str "bool"))); (290, (TSignature [] [(TNamed 1)] false)); (291, (TSignature [] [(TNamed 1)] false)); (292, (TSignature [] [(TNamed 1)] false)); (294, (TBasic (str "bool"))); (296, (TSignature [] [(TNamed 1)] false)); (297, (TSignature [] [(TNamed 1)] false)); (298, (TSignature [] [(TNamed 1)] false)); (300, (TBasic (str "bool"))); (302, (TSignature [] [(TNamed 1)] false)); (303, (TSignature [] [(TNamed 1)] false)); (304, (TSignature [] [(TNamed 1)] false)); (306, (TSignature [] [(TNamed 1)] false)); (308, (TSignature [] [(TNamed 1)] false)); (309, (TSignature [] [(TNamed 1)] false)); (310, (TSignature [] [(TNamed 1)] false)); (314, (TNamed 1)); (317, (TPointer (TNamed 72))); (318, (TNamed 72)); (319, (TNamed 72)); (320, (TNamed 72)); (321, (TBasic (str "string"))); (323, (TBasic (str "bool"))); (324, (TSignature [] [(TNamed 1)] false)); (325, (TBasic (str "bool"))); (326, (TSignature [] [(TNamed 1)] false)); (327, (TSignature [] [(TNamed 1)] false)); (328, (TSignature [] [(TNamed 1)] false)); (332, (TNamed 1)); (335, (TPointer (TNamed 72))); (336, (TNamed 72)); (337, (TNamed 72)); (338, (TBasic (str "string"))); (339, (TBasic (str "string"))); (341, (TBasic (str "bool"))); (344, (TSignature [] [(TNamed 1)] false)); (345, (TSignature [] [(TNamed 1)] false)); (346, (TSignature [] [(TNamed 1)] false)); (350, (TNamed 1)); (353, (TPointer (TNamed 72))); (354, (TPointer (TNamed 72))); (355, (TNamed 72)); (356, (TNamed 72)); (357, (TNamed 72)); (358, (TBasic (str "string"))); (361, (TSignature [] [(TNamed 1)] false)); (362, (TSignature [] [(TNamed 1)] false)); (363, (TSignature [] [(TNamed 1)] false)); (367, (TBasic (str "bool"))); (369, (TNamed 1)); (370, (TSignature [] [(TNamed 1)] false)); (371, (TSignature [] [(TNamed 1)] false)); (373, (TBasic (str "bool"))); (375, (TNamed 1)); (376, (TSignature [] [(TNamed 1)] false)); (377, (TSignature [] [(TNamed 1)] false)); (379, (TBasic (str "bool"))); (381, (TNamed 1)); (382, (TSignature [] [(TNamed 1)] false)); (383, (TSignature [] [(TNamed 1)] false)); (387, (TNamed 1)); (390, (TPointer (TNamed 72))); (391, (TNamed 72)); (392, (TNamed 72)); (393, (TBasic (str "string"))); (395, (TBasic (str "bool"))); (397, (TNamed 1)); (398, (TSignature [] [(TNamed 1)] false)); (399, (TSignature [] [(TNamed 1)] false)); (403, (TNamed 1)); (406, (TPointer (TNamed 72))); (407, (TPointer (TNamed 72))); (408, (TSignature [] [(TPointer (TNamed 72))] false)); (409, (TSignature [] [(TPointer (TNamed 72))] false)); (410, (TSignature [] [(TPointer (TNamed 72))] false)); (414, (TPointer (TNamed 72))); (415, (TNamed 72)); (418, (TPointer (TNamed 72))); (419, (TNamed 72)); (420, (TNamed 72)); (421, (TBasic (str "string"))); (423, TUntypedNil); (426, (TSignature [] [(TSignature [] [(TPointer (TNamed 72))] false)] false)); (430, (TSignature [] [(TPointer (TNamed 72))] false)); (434, (TPointer (TNamed 72))); (435, (TNamed 72)); (438, (TSignature [] [(TPointer (TNamed 72))] false)); (439, (TSignature [] [(TPointer (TNamed 72))] false)); (443, (TPointer (TNamed 72))); (444, (TNamed 72)); (447, (TPointer (TNamed 72))); (448, (TNamed 72)); (449, (TNamed 72)); (450, (TBasic (str "string"))); (453, (TSignature [] [(TPointer (TNamed 72))] false)); (457, (TPointer (TNamed 72))); (458, (TNamed 72)); (463, (TBasic (str "bool"))); (465, (TPointer (TNamed 72))); (466, (TNamed 72)); (467, (TNamed 72)); (468, (TBasic (str "string"))); (469, (TSignature [] [(TBasic (str "string"))] false)); (470, (TSignature [] [(TBasic (str "string"))] false)); (474, (TBasic (str "string"))); (477, (TBasic (str "string"))); (479, (TBasic (str "bool"))); (481, (TPointer (TNamed 72))); (482, (TSignature [] [(TPointer (TNamed 72))] false)); (483, (TSignature [] [(TSignature [] [(TPointer (TNamed 72))] false)] false)); (484, (TSignature [] [(TSignature [] [(TPointer (TNamed 72))] false)] false)); (488, (TSignature [] [(TPointer (TNamed 72))] false)); (492, (TPointer (TNamed 72))); (493, (TNamed 72)); (496, (TSignature [] [(TPointer (TNamed 72))] false)); (497, (TSignature [] [(TPointer (TNamed 72))] false)); (501, (TPointer (TNamed 72))); (502, (TNamed 72)); (505, (TPointer (TNamed 72))); (506, (TNamed 72)); (507, (TNamed 72)); (508, (TBasic (str "string"))); (510, (TBasic (str "bool"))); (512, (TPointer (TNamed 72))); (513, (TSignature [] [(TPointer (TNamed 72))] false)); (514, (TSignature [] [(TSignature [] [(TPointer (TNamed 72))] false)] false)); (516, (TBasic (str "bool"))); (520, (TSignature [] [(TPointer (TNamed 72))] false)); (521, (TSignature [] [(TPointer (TNamed 72))] false)); (525, (TPointer (TNamed 72))); (526, (TNamed 72)); (527, (TSignature [] [(TPointer (TNamed 72))] false)); (528, (TSignature [] [(TSignature [] [(TPointer (TNamed 72))] false)] false)); (530, (TPointer (TNamed 72))); (531, (TSignature [] [(TPointer (TNamed 72))] false)); (533, (TBasic (str "bool"))); (535, (TSignature [] [(TPointer (TNamed 72))] false)); (536, (TSignature [] [(TPointer (TNamed 72))] false)); (537, (TSignature [] [(TSignature [] [(TPointer (TNamed 72))] false)] false)); (539, (TPointer (TNamed 72))); (540, (TSignature [] [(TPointer (TNamed 72))] false)); (542, (TBasic (str "bool"))); (544, (TPointer (TNamed 72))); (545, (TPointer (TNamed 72))); (546, (TNamed 72)); (547, (TNamed 72)); (548, (TBasic (str "string"))); (550, (TPointer (TNamed 72))); (551, (TSignature [] [(TPointer (TNamed 72))] false)); (552, (TSignature [] [(TPointer (TNamed 72))] false)); (556, (TPointer (TNamed 72))); (557, (TNamed 72)); (560, (TPointer (TNamed 72))); (562, TUntypedNil); (565, (TSignature [] [(TNamed 1)] false)); (569, (TNamed 1)); (574, (TSignature [] [(TNamed 1)] false)); (575, (TSignature [] [(TNamed 1)] false)); (576, (TSignature [] [(TNamed 1)] false)); (577, (TSignature [] [(TNamed 1)] false)); (581, (TNamed 1)); (584, (TPointer (TNamed 72))); (585, (TNamed 72)); (586, (TNamed 72)); (587, (TBasic (str "string"))); (588, (TSignature [] [(TNamed 1)] false)); (589, (TSignature [] [(TNamed 1)] false)); (593, (TNamed 1)); (596, (TPointer (TNamed 72))); (597, (TNamed 72)); (598, (TNamed 72)); (599, (TBasic (str "string"))); (601, (TSignature [] [(TNamed 1)] false)); (602, (TSignature [] [(TNamed 1)] false)); (603, (TSignature [] [(TNamed 1)] false)); (604, (TSignature [] [(TNamed 1)] false)); (608, (TNamed 1)); (611, (TPointer (TNamed 72))); (612, (TNamed 72)); (613, (TNamed 72)); (614, (TBasic (str "string"))); (615, (TSignature [] [(TNamed 1)] false)); (616, (TSignature [] [(TNamed 1)] false)); (620, (TNamed 1)); (623, (TPointer (TNamed 72))); (624, (TNamed 72)); (625, (TNamed 72)); (626, (TBasic (str "string"))); (630, (TSignature [] [(TNamed 1)] false)); (631, (TSignature [] [(TNamed 1)] false)); (632, (TTuple [(TSignature [] [(TNamed 1)] false); (TSignature [] [(TNamed 1)] false)])); (633, (TSignature [] [(TSignature [] [(TNamed 1)] false); (TSignature [] [(TNamed 1)] false)] false)); (636, (TSignature [] [(TNamed 1)] false)); (637, (TTuple [(TSignature [] [(TNamed 1)] false); (TSignature [] [(TNamed 1)] false)])); (638, (TSignature [] [(TSignature [] [(TNamed 1)] false); (TSignature [] [(TNamed 1)] false)] false)); (642, (TBasic (str "bool"))); (644, (TNamed 1)); (645, (TSignature [] [(TNamed 1)] false)); (647, (TBasic (str "bool"))); (649, (TNamed 1)); (650, (TSignature [] [(TNamed 1)] false)); (652, (TBasic (str "bool"))); (654, (TNamed 1)); (655, (TSignature [] [(TNamed 1)] false)); (658, TUntypedNil); (661, (TSignature [] [(TSignature [] [(TNamed 1)] false); (TSignature [] [(TNamed 1)] false)] false)); (665, (TSignature [] [(TNamed 1)] false)); (669, (TNamed 1)); (671, (TSignature [] [(TNamed 1)] false)); (675, (TNamed 1)); (678, TUntypedNil); (679, TUntypedNil); (682, (TSignature [] [(TNamed 1)] false)); (686, (TNamed 1)); (689, (TNamed 1)); (690, (TSignature [(TNamed 1)] [(TNamed 1)] false)); (691, (TSignature [(TNamed 1)] [(TNamed 1)] false)); (694, (TNamed 1)); (695, (TNamed 1)); (698, (TNamed 1)); (701, (TNamed 1)); (702, (TNamed 1)); (703, (TSignature [(TBasic (str "string")); (TSlice (TInterface 4))] [(TNamed 1)] true)); (705, (TSignature [(TBasic (str "string")); (TSlice (TInterface 4))] [(TNamed 1)] true)); (706, (TBasic (str "string"))); (709, (TSignature [] [(TNamed 1)] false)); (713, (TNamed 1)); (718, (TNamed 1)); (719, (TNamed 1)); (721, (TTuple [])); (722, (TSignature [(TNamed 1)] [] false)); (723, (TSignature [(TNamed 1)] [] false)); (726, (TNamed 1)); (727, (TNamed 1)); (730, (TNamed 1)); (731, (TNamed 1)); (732, (TNamed 1)); (733, (TSignature [(TBasic (str "string")); (TSlice (TInterface 4))] [(TNamed 1)] true)); (735, (TSignature [(TBasic (str "string")); (TSlice (TInterface 4))] [(TNamed 1)] true)); (736, (TBasic (str "string"))); (738, (TNamed 1)); (741, (TNamed 72)); (742, (TStruct [((str "TheCode"), (TBasic (str "string")))])); (745, (TBasic (str "string"))); (746, (TBasic (str "string"))); (750, (TPointer (TNamed 72))); (751, (TPointer (TNamed 72))); (752, (TNamed 72)); (754, (TSignature [] [(TBasic (str "string"))] false)); (758, (TBasic (str "string"))); (761, (TBasic (str "string"))); (762, (TPointer (TNamed 72))); (763, (TBasic (str "string"))); (767, (TPointer (TNamed 72))); (768, (TPointer (TNamed 72))); (769, (TNamed 72)); (771, (TSignature [] [(TBasic (str "string"))] false)); (775, (TBasic (str "string"))); (778, (TBasic (str "string"))); (779, (TPointer (TNamed 72))); (780, (TBasic (str "string"))); (784, (TPointer (TNamed 72))); (785, (TPointer (TNamed 72))); (786, (TNamed 72)); (788, (TSignature [] [(TMap (TBasic (str "string")) (TBasic (str "string")))] false)); (792, (TMap (TBasic (str "string")) (TBasic (str "string")))); (793, (TBasic (str "string"))); (794, (TBasic (str "string"))); (797, TUntypedNil); (801, (TPointer (TNamed 72))); (802, (TPointer (TNamed 72))); (803, (TNamed 72)); (805, (TSignature [] [(TNamed 1)] false)); (809, (TNamed 1)); (812, TUntypedNil); (816, (TPointer (TNamed 72))); (817, (TPointer (TNamed 72))); (818, (TNamed 72)); (820, (TSignature [] [(TBasic (str "string"))] false)); (824, (TBasic (str "string"))); (827, (TBasic (str "string"))); (828, (TSignature [] [(TBasic (str "string"))] false)); (829, (TPointer (TNamed 72))); (830, (TSignature [] [(TBasic (str "string"))] false)); (835, (TSignature [] [(TNamed 1)] false)); (839, (TNamed 1)); (842, (TPointer (TNamed 72))); (843, (TNamed 72)); (844, (TNamed 72)); (845, (TBasic (str "string")))].
Definition t_func_literal_values : list (N * constval) := [(34, CString (str "some-error")); (46, CString (str "no-error")); (64, CString (str "function-1-error")); (93, CString (str "lambda-4-error")); (97, COther); (111, CString (str "lambda-2-error")); (113, COther); (118, COther); (123, COther); (142, CString (str "lambda-5-error")); (146, COther); (158, CString (str "lambda-6-error")); (160, COther); (175, CString (str "lambda-7-error")); (183, COther); (188, COther); (193, COther); (207, CString (str "lambda-1-error")); (209, COther); (233, CString (str "lambda-3-error")); (265, CString (str "lambda-4-error")); (269, COther); (286, CString (str "lambda-2-error")); (288, COther); (294, COther); (300, COther); (321, CString (str "lambda-5-error")); (325, COther); (338, CString (str "lambda-6-error")); (339, CString (str "lambda-6-error")); (341, COther); (358, CString (str "lambda-7-error")); (367, COther); (373, COther); (379, COther); (393, CString (str "lambda-1-error")); (395, COther); (421, CString (str "lambda-3-error")); (450, CString (str "lambda-error")); (463, COther); (477, CString (str "other-error")); (479, COther); (508, CString (str "lambda-error")); (510, COther); (516, COther); (533, COther); (542, COther); (548, CString (str "context-error")); (587, CString (str "f1-1-error")); (599, CString (str "f2-1-error")); (614, CString (str "f1-2-error")); (626, CString (str "f2-2-error")); (642, COther); (647, COther); (652, COther); (706, CString (str "error without code")); (736, CString (str "error without code")); (845, CString (str "other-function-error"))].
Definition t_func_literal_uses : list (N * tobj) := [(15, 72); (22, 72); (30, 84); (33, 72); (45, 72); (49, 85); (51, 84); (58, 1); (63, 72); (71, 1); (81, 1); (87, 1); (92, 72); (97, 21); (99, 86); (105, 1); (110, 72); (113, 21); (115, 86); (116, 63); (118, 21); (120, 86); (121, 78); (123, 21); (125, 86); (127, 61); (128, 47); (136, 1); (141, 72); (146, 21); (152, 1); (157, 72); (160, 22); (163, 89); (169, 1); (174, 72); (178, 89); (179, 87); (183, 21); (186, 86); (188, 21); (191, 89); (193, 21); (201, 1); (206, 72); (209, 21); (217, 1); (227, 72); (232, 72); (235, 24); (242, 1); (252, 1); (259, 1); (264, 72); (269, 21); (271, 90); (277, 1); (285, 72); (288, 21); (290, 90); (292, 63); (294, 21); (296, 90); (298, 78); (300, 21); (302, 90); (305, 61); (306, 47); (314, 1); (320, 72); (325, 21); (332, 1); (337, 72); (341, 22); (344, 93); (350, 1); (357, 72); (361, 93); (363, 91); (367, 21); (371, 90); (373, 21); (377, 93); (379, 21); (387, 1); (392, 72); (395, 21); (403, 1); (415, 72); (420, 72); (423, 24); (435, 72); (444, 72); (449, 72); (458, 72); (463, 21); (467, 72); (474, 5); (479, 21); (493, 72); (502, 72); (507, 72); (510, 21); (514, 66); (516, 21); (526, 72); (528, 66); (531, 94); (533, 21); (537, 66); (540, 95); (542, 21); (547, 72); (557, 72); (560, 96); (562, 24); (569, 1); (581, 1); (586, 72); (593, 1); (598, 72); (601, 97); (602, 98); (608, 1); (613, 72); (620, 1); (625, 72); (633, 69); (636, 99); (638, 69); (642, 21); (645, 97); (647, 21); (650, 98); (652, 21); (655, 99); (658, 24); (669, 1); (675, 1); (678, 24); (679, 24); (686, 1); (695, 1); (698, 1); (701, 101); (704, 60); (705, 40); (713, 1); (719, 1); (727, 1); (730, 102); (731, 103); (734, 60); (735, 40); (738, 102); (746, 5); (752, 72); (758, 5); (762, 79); (763, 59); (769, 72); (775, 5); (779, 80); (780, 59); (786, 72); (793, 5); (794, 5); (797, 24); (803, 72); (809, 1); (812, 24); (818, 72); (824, 5); (829, 83); (830, 74); (839, 1); (844, 72)].
Definition t_func_literal_defs : list (N * tobj) := [(9, 62); (20, 84); (42, 85); (53, 63); (66, 64); (76, 86); (130, 87); (144, 88); (145, 89); (237, 65); (247, 90); (308, 91); (323, 92); (324, 93); (425, 66); (452, 67); (520, 94); (535, 95); (544, 96); (564, 68); (574, 97); (575, 98); (630, 99); (631, 100); (660, 69); (681, 70); (694, 101); (708, 71); (718, 102); (726, 103); (741, 72); (750, 79); (753, 73); (767, 80); (770, 74); (784, 81); (787, 75); (801, 82); (804, 76); (816, 83); (819, 77); (834, 78)].
Definition t_func_literal_sels : list (N * (tobj * gotype)) := [(761, (59, (TPointer (TNamed 72)))); (778, (59, (TPointer (TNamed 72)))); (828, (74, (TPointer (TNamed 72))))].
Definition t_func_literal_pkgnames : list (N * gostring) := [(127, (str "inner")); (305, (str "inner")); (704, (str "fmt")); (734, (str "fmt"))].
Definition t_func_literal_objnames : list (N * gostring) := [(1, (str "error")); (2, (str "Error")); (3, (str "?")); (4, (str "bool")); (5, (str "string")); (6, (str "int")); (7, (str "int8")); (8, (str "int16")); (9, (str "int32")); (10, (str "int64")); (11, (str "uint")); (12, (str "uint8")); (13, (str "uint16")); (14, (str "uint32")); (15, (str "uint64")); (16, (str "uintptr")); (17, (str "float32")); (18, (str "float64")); (19, (str "complex64")); (20, (str "complex128")); (21, (str "true")); (22, (str "false")); (23, (str "iota")); (24, (str "nil")); (25, (str "append")); (26, (str "cap")); (27, (str "close")); (28, (str "complex")); (29, (str "copy")); (30, (str "delete")); (31, (str "imag")); (32, (str "len")); (33, (str "make")); (34, (str "new")); (35, (str "panic")); (36, (str "print")); (37, (str "println")); (38, (str "real")); (39, (str "recover")); (40, (str "Errorf")); (41, (str "Sprintf")); (42, (str "Println")); (43, (str "New")); (44, (str "HasPrefix")); (45, (str "Float32")); (46, (str "Float64")); (47, (str "NamedFunction")); (48, (str "Error")); (49, (str "Code")); (50, (str "Message")); (51, (str "Details")); (52, (str "Cause")); (53, (str "Error")); (54, (str "e")); (55, (str "e")); (56, (str "e")); (57, (str "e")); (58, (str "e")); (59, (str "TheCode")); (60, (str "fmt")); (61, (str "inner")); (62, (str "AssignmentInLambda")); (63, (str "namedFunction")); (64, (str "LambdasReturningErrors")); (65, (str "LambdasReturningErrorsWithParen")); (66, (str "returningLambda")); (67, (str "OutOfBounds")); (68, (str "TwinAssignLambda")); (69, (str "ReturnTwinLambda")); (70, (str "InvalidErrorFromLambdaParam")); (71, (str "InvalidErrorFromLambdaParam2")); (72, (str "Error")); (73, (str "Code")); (74, (str "Message")); (75, (str "Details")); (76, (str "Cause")); (77, (str "Error")); (78, (str "namedFunctionInOtherFile")); (79, (str "e")); (80, (str "e")); (81, (str "e")); (82, (str "e")); (83, (str "e")); (84, (str "err")); (85, (str "err")); (86, (str "getError")); (87, (str "getError2")); (88, (str "_")); (89, (str "getError3")); (90, (str "getError")); (91, (str "getError2")); (92, (str "_")); (93, (str "getError3")); (94, (str "lambda")); (95, (str "funcLit")); (96, (str "err")); (97, (str "f1")); (98, (str "f2")); (99, (str "f3")); (100, (str "_")); (101, (str "e")); (102, (str "err")); (103, (str "e"))].
Definition t_func_literal_objtypes : list (N * gotype) := [(1, (TNamed 1)); (2, (TSignature [] [(TBasic (str "string"))] false)); (4, (TBasic (str "bool"))); (5, (TBasic (str "string"))); (6, (TBasic (str "int"))); (7, (TBasic (str "int8"))); (8, (TBasic (str "int16"))); (9, (TBasic (str "int32"))); (10, (TBasic (str "int64"))); (11, (TBasic (str "uint"))); (12, (TBasic (str "uint8"))); (13, (TBasic (str "uint16"))); (14, (TBasic (str "uint32"))); (15, (TBasic (str "uint64"))); (16, (TBasic (str "uintptr"))); (17, (TBasic (str "float32"))); (18, (TBasic (str "float64"))); (19, (TBasic (str "complex64"))); (20, (TBasic (str "complex128"))); (40, (TSignature [(TBasic (str "string")); (TSlice (TInterface 4))] [(TNamed 1)] true)); (41, (TSignature [(TBasic (str "string")); (TSlice (TInterface 4))] [(TBasic (str "string"))] true)); (42, (TSignature [(TSlice (TInterface 4))] [(TBasic (str "int")); (TNamed 1)] true)); (43, (TSignature [(TBasic (str "string"))] [(TNamed 1)] false)); (44, (TSignature [(TBasic (str "string")); (TBasic (str "string"))] [(TBasic (str "bool"))] false)); (45, (TSignature [] [(TBasic (str "float32"))] false)); (46, (TSignature [] [(TBasic (str "float64"))] false)); (47, (TSignature [] [(TNamed 1)] false)); (48, (TNamed 48)); (49, (TSignature [] [(TBasic (str "string"))] false)); (50, (TSignature [] [(TBasic (str "string"))] false)); (51, (TSignature [] [(TMap (TBasic (str "string")) (TBasic (str "string")))] false)); (52, (TSignature [] [(TNamed 1)] false)); (53, (TSignature [] [(TBasic (str "string"))] false)); (54, (TPointer (TNamed 48))); (55, (TPointer (TNamed 48))); (56, (TPointer (TNamed 48))); (57, (TPointer (TNamed 48))); (58, (TPointer (TNamed 48))); (59, (TBasic (str "string"))); (62, (TSignature [] [(TPointer (TNamed 72))] false)); (63, (TSignature [] [(TNamed 1)] false)); (64, (TSignature [] [(TNamed 1)] false)); (65, (TSignature [] [(TNamed 1)] false)); (66, (TSignature [] [(TSignature [] [(TPointer (TNamed 72))] false)] false)); (67, (TSignature [] [(TPointer (TNamed 72))] false)); (68, (TSignature [] [(TNamed 1)] false)); (69, (TSignature [] [(TSignature [] [(TNamed 1)] false); (TSignature [] [(TNamed 1)] false)] false)); (70, (TSignature [] [(TNamed 1)] false)); (71, (TSignature [] [(TNamed 1)] false)); (72, (TNamed 72)); (73, (TSignature [] [(TBasic (str "string"))] false)); (74, (TSignature [] [(TBasic (str "string"))] false)); (75, (TSignature [] [(TMap (TBasic (str "string")) (TBasic (str "string")))] false)); (76, (TSignature [] [(TNamed 1)] false)); (77, (TSignature [] [(TBasic (str "string"))] false)); (78, (TSignature [] [(TNamed 1)] false)); (79, (TPointer (TNamed 72))); (80, (TPointer (TNamed 72))); (81, (TPointer (TNamed 72))); (82, (TPointer (TNamed 72))); (83, (TPointer (TNamed 72))); (84, (TPointer (TNamed 72))); (85, (TPointer (TNamed 72))); (86, (TSignature [] [(TNamed 1)] false)); (87, (TSignature [] [(TNamed 1)] false)); (88, (TBasic (str "bool"))); (89, (TSignature [] [(TNamed 1)] false)); (90, (TSignature [] [(TNamed 1)] false)); (91, (TSignature [] [(TNamed 1)] false)); (92, (TBasic (str "bool"))); (93, (TSignature [] [(TNamed 1)] false)); (94, (TSignature [] [(TPointer (TNamed 72))] false)); (95, (TSignature [] [(TPointer (TNamed 72))] false)); (96, (TPointer (TNamed 72))); (97, (TSignature [] [(TNamed 1)] false)); (98, (TSignature [] [(TNamed 1)] false)); (99, (TSignature [] [(TNamed 1)] false)); (100, (TSignature [] [(TNamed 1)] false)); (101, (TNamed 1)); (102, (TNamed 1)); (103, (TNamed 1))].
Definition t_func_literal_under : list (N * gotype) := [(1, (TInterface 1)); (48, (TStruct [((str "TheCode"), (TBasic (str "string")))])); (72, (TStruct [((str "TheCode"), (TBasic (str "string")))]))].
Definition t_func_literal_named_methods : list (N * (list gostring)) := [(48, [(str "Code"); (str "Message"); (str "Details"); (str "Cause"); (str "Error")]); (72, [(str "Code"); (str "Message"); (str "Details"); (str "Cause"); (str "Error")])].
Definition t_func_literal_methods : list (gotype * gostring * tobj) := [((TInterface 1), (str "Error"), 2); ((TNamed 1), (str "Error"), 2); ((TPointer (TNamed 48)), (str "Cause"), 52); ((TPointer (TNamed 48)), (str "Code"), 49); ((TPointer (TNamed 48)), (str "Details"), 51); ((TPointer (TNamed 48)), (str "Error"), 53); ((TPointer (TNamed 48)), (str "Message"), 50); ((TPointer (TNamed 72)), (str "Cause"), 76); ((TPointer (TNamed 72)), (str "Code"), 73); ((TPointer (TNamed 72)), (str "Details"), 75); ((TPointer (TNamed 72)), (str "Error"), 77); ((TPointer (TNamed 72)), (str "Message"), 74)].
Definition t_func_literal_ierr : list gotype := [(TInterface 1); (TNamed 1); (TPointer (TNamed 48)); (TPointer (TNamed 72))].
Definition t_func_literal_iree : list gotype := [(TPointer (TNamed 48)); (TPointer (TNamed 72))].
Definition t_func_literal_icause : list gotype := [(TPointer (TNamed 48)); (TPointer (TNamed 72))].
Definition t_func_literal_impl : list (gotype * gotype) := [((TInterface 1), (TInterface 1)); ((TNamed 1), (TInterface 1)); ((TPointer (TNamed 48)), (TInterface 1)); ((TPointer (TNamed 72)), (TInterface 1))].
Definition t_func_literal_nodes0 : list snode := [SNode 1 (Place 0 1) (Place 6285 240) true; SNode 2 (Place 8 1) (Place 19 1) false; SNode 3 (Place 21 3) (Place 60 6) true; SNode 4 (Place 31 4) (Place 36 4) true; SNode 5 (Place 31 4) (Place 36 4) false; SNode 6 (Place 38 5) (Place 58 5) true; SNode 7 (Place 38 5) (Place 58 5) false; SNode 8 (Place 98 11) (Place 324 21) true; SNode 9 (Place 103 11) (Place 121 11) false; SNode 10 (Place 98 11) (Place 130 11) false; SNode 11 (Place 121 11) (Place 123 11) false; SNode 12 (Place 124 11) (Place 130 11) false; SNode 13 (Place 124 11) (Place 130 11) true; SNode 14 (Place 124 11) (Place 130 11) false; SNode 15 (Place 125 11) (Place 130 11) false; SNode 16 (Place 131 11) (Place 324 21) true; SNode 17 (Place 186 12) (Place 200 12) true; SNode 18 (Place 186 12) (Place 200 12) true; SNode 19 (Place 190 12) (Place 200 12) true; SNode 20 (Place 190 12) (Place 193 12) false; SNode 21 (Place 194 12) (Place 200 12) false; SNode 22 (Place 195 12) (Place 200 12) false; SNode 23 (Place 202 13) (Place 244 15) true; SNode 24 (Place 202 13) (Place 244 15) false; SNode 25 (Place 202 13) (Place 242 15) false; SNode 26 (Place 202 13) (Place 208 13) false; SNode 27 (Place 206 13) (Place 208 13) false; SNode 28 (Place 209 13) (Place 242 15) true; SNode 29 (Place 213 14) (Place 239 14) true; SNode 30 (Place 213 14) (Place 216 14) false; SNode 31 (Place 219 14) (Place 239 14) false; SNode 32 (Place 220 14) (Place 239 14) false; SNode 33 (Place 220 14) (Place 225 14) false; SNode 34 (Place 226 14) (Place 238 14) false; SNode 35 (Place 246 16) (Place 310 19) true; SNode 36 (Place 246 16) (Place 310 19) false; SNode 37 (Place 246 16) (Place 308 19) false; SNode 38 (Place 246 16) (Place 252 16) false; SNode 39 (Place 250 16) (Place 252 16) false; SNode 40 (Place 253 16) (Place 308 19) true; SNode 41 (Place 257 17) (Place 282 17) true; SNode 42 (Place 257 17) (Place 260 17) false; SNode 43 (Place 264 17) (Place 282 17) false; SNode 44 (Place 265 17) (Place 282 17) false; SNode 45 (Place 265 17) (Place 270 17) false; SNode 46 (Place 271 17) (Place 281 17) false; SNode 47 (Place 298 18) (Place 305 18) true; SNode 48 (Place 298 18) (Place 299 18) false; SNode 49 (Place 302 18) (Place 305 18) false; SNode 50 (Place 312 20) (Place 322 20) true; SNode 51 (Place 319 20) (Place 322 20) false; SNode 52 (Place 326 23) (Place 391 25) true; SNode 53 (Place 331 23) (Place 344 23) false; SNode 54 (Place 326 23) (Place 352 23) false; SNode 55 (Place 344 23) (Place 346 23) false; SNode 56 (Place 347 23) (Place 352 23) false; SNode 57 (Place 347 23) (Place 352 23) true; SNode 58 (Place 347 23) (Place 352 23) false; SNode 59 (Place 353 23) (Place 391 25) true; SNode 60 (Place 356 24) (Place 389 24) true; SNode 61 (Place 363 24) (Place 389 24) false; SNode 62 (Place 364 24) (Place 389 24) false; SNode 63 (Place 364 24) (Place 369 24) false; SNode 64 (Place 370 24) (Place 388 24) false; SNode 65 (Place 677 39) (Place 1767 88) true; SNode 66 (Place 682 39) (Place 704 39) false; SNode 67 (Place 677 39) (Place 712 39) false; SNode 68 (Place 704 39) (Place 706 39) false; SNode 69 (Place 707 39) (Place 712 39) false; SNode 70 (Place 707 39) (Place 712 39) true; SNode 71 (Place 707 39) (Place 712 39) false; SNode 72 (Place 713 39) (Place 1767 88) true; SNode 73 (Place 921 40) (Place 1000 42) true; SNode 74 (Place 921 40) (Place 1000 42) true; SNode 75 (Place 925 40) (Place 1000 42) true; SNode 76 (Place 925 40) (Place 933 40) false; SNode 77 (Place 934 40) (Place 946 40) false; SNode 78 (Place 938 40) (Place 940 40) false; SNode 79 (Place 941 40) (Place 946 40) false; SNode 80 (Place 941 40) (Place 946 40) true; SNode 81 (Place 941 40) (Place 946 40) false; SNode 82 (Place 949 40) (Place 1000 42) false; SNode 83 (Place 949 40) (Place 961 40) false; SNode 84 (Place 953 40) (Place 955 40) false; SNode 85 (Place 956 40) (Place 961 40) false; SNode 86 (Place 956 40) (Place 961 40) true; SNode 87 (Place 956 40) (Place 961 40) false; SNode 88 (Place 962 40) (Place 1000 42) true; SNode 89 (Place 966 41) (Place 997 41) true; SNode 90 (Place 973 41) (Place 997 41) false; SNode 91 (Place 974 41) (Place 997 41) false; SNode 92 (Place 974 41) (Place 979 41) false; SNode 93 (Place 980 41) (Place 996 41) false; SNode 94 (Place 1003 44) (Place 1227 55) true; SNode 95 (Place 1010 44) (Place 1227 55) true; SNode 96 (Place 1013 45) (Place 1090 48) true; SNode 97 (Place 1018 45) (Place 1022 45) false; SNode 98 (Place 1026 46) (Place 1090 48) true; SNode 99 (Place 1026 46) (Place 1034 46) false; SNode 100 (Place 1037 46) (Place 1090 48) false; SNode 101 (Place 1037 46) (Place 1049 46) false; SNode 102 (Place 1041 46) (Place 1043 46) false; SNode 103 (Place 1044 46) (Place 1049 46) false; SNode 104 (Place 1044 46) (Place 1049 46) true; SNode 105 (Place 1044 46) (Place 1049 46) false; SNode 106 (Place 1050 46) (Place 1090 48) true; SNode 107 (Place 1055 47) (Place 1086 47) true; SNode 108 (Place 1062 47) (Place 1086 47) false; SNode 109 (Place 1063 47) (Place 1086 47) false; SNode 110 (Place 1063 47) (Place 1068 47) false; SNode 111 (Place 1069 47) (Place 1085 47) false; SNode 112 (Place 1092 49) (Place 1129 50) true; SNode 113 (Place 1097 49) (Place 1101 49) false; SNode 114 (Place 1105 50) (Place 1129 50) true; SNode 115 (Place 1105 50) (Place 1113 50) false; SNode 116 (Place 1116 50) (Place 1129 50) false; SNode 117 (Place 1131 51) (Place 1179 52) true; SNode 118 (Place 1136 51) (Place 1140 51) false; SNode 119 (Place 1144 52) (Place 1179 52) true; SNode 120 (Place 1144 52) (Place 1152 52) false; SNode 121 (Place 1155 52) (Place 1179 52) false; SNode 122 (Place 1181 53) (Place 1224 54) true; SNode 123 (Place 1186 53) (Place 1190 53) false; SNode 124 (Place 1194 54) (Place 1224 54) true; SNode 125 (Place 1194 54) (Place 1202 54) false; SNode 126 (Place 1205 54) (Place 1224 54) false; SNode 127 (Place 1205 54) (Place 1210 54) false; SNode 128 (Place 1211 54) (Place 1224 54) false; SNode 129 (Place 1230 57) (Place 1294 59) true; SNode 130 (Place 1230 57) (Place 1239 57) false; SNode 131 (Place 1243 57) (Place 1294 59) false; SNode 132 (Place 1243 57) (Place 1255 57) false; SNode 133 (Place 1247 57) (Place 1249 57) false; SNode 134 (Place 1250 57) (Place 1255 57) false; SNode 135 (Place 1250 57) (Place 1255 57) true; SNode 136 (Place 1250 57) (Place 1255 57) false; SNode 137 (Place 1256 57) (Place 1294 59) true; SNode 138 (Place 1260 58) (Place 1291 58) true; SNode 139 (Place 1267 58) (Place 1291 58) false; SNode 140 (Place 1268 58) (Place 1291 58) false; SNode 141 (Place 1268 58) (Place 1273 58) false; SNode 142 (Place 1274 58) (Place 1290 58) false; SNode 143 (Place 1296 60) (Place 1369 62) true; SNode 144 (Place 1296 60) (Place 1297 60) false; SNode 145 (Place 1299 60) (Place 1308 60) false; SNode 146 (Place 1312 60) (Place 1316 60) false; SNode 147 (Place 1318 60) (Place 1369 62) false; SNode 148 (Place 1318 60) (Place 1330 60) false; SNode 149 (Place 1322 60) (Place 1324 60) false; SNode 150 (Place 1325 60) (Place 1330 60) false; SNode 151 (Place 1325 60) (Place 1330 60) true; SNode 152 (Place 1325 60) (Place 1330 60) false; SNode 153 (Place 1331 60) (Place 1369 62) true; SNode 154 (Place 1335 61) (Place 1366 61) true; SNode 155 (Place 1342 61) (Place 1366 61) false; SNode 156 (Place 1343 61) (Place 1366 61) false; SNode 157 (Place 1343 61) (Place 1348 61) false; SNode 158 (Place 1349 61) (Place 1365 61) false; SNode 159 (Place 1371 63) (Place 1486 69) true; SNode 160 (Place 1374 63) (Place 1379 63) false; SNode 161 (Place 1380 63) (Place 1452 67) true; SNode 162 (Place 1384 64) (Place 1449 66) true; SNode 163 (Place 1384 64) (Place 1393 64) false; SNode 164 (Place 1396 64) (Place 1449 66) false; SNode 165 (Place 1396 64) (Place 1408 64) false; SNode 166 (Place 1400 64) (Place 1402 64) false; SNode 167 (Place 1403 64) (Place 1408 64) false; SNode 168 (Place 1403 64) (Place 1408 64) true; SNode 169 (Place 1403 64) (Place 1408 64) false; SNode 170 (Place 1409 64) (Place 1449 66) true; SNode 171 (Place 1414 65) (Place 1445 65) true; SNode 172 (Place 1421 65) (Place 1445 65) false; SNode 173 (Place 1422 65) (Place 1445 65) false; SNode 174 (Place 1422 65) (Place 1427 65) false; SNode 175 (Place 1428 65) (Place 1444 65) false; SNode 176 (Place 1458 67) (Place 1486 69) true; SNode 177 (Place 1462 68) (Place 1483 68) true; SNode 178 (Place 1462 68) (Place 1471 68) false; SNode 179 (Place 1474 68) (Place 1483 68) false; SNode 180 (Place 1489 71) (Place 1753 86) true; SNode 181 (Place 1496 71) (Place 1753 86) true; SNode 182 (Place 1499 72) (Place 1529 73) true; SNode 183 (Place 1504 72) (Place 1508 72) false; SNode 184 (Place 1512 73) (Place 1529 73) true; SNode 185 (Place 1519 73) (Place 1529 73) false; SNode 186 (Place 1519 73) (Place 1527 73) false; SNode 187 (Place 1531 74) (Place 1562 75) true; SNode 188 (Place 1536 74) (Place 1540 74) false; SNode 189 (Place 1544 75) (Place 1562 75) true; SNode 190 (Place 1551 75) (Place 1562 75) false; SNode 191 (Place 1551 75) (Place 1560 75) false; SNode 192 (Place 1564 76) (Place 1639 79) true; SNode 193 (Place 1569 76) (Place 1573 76) false; SNode 194 (Place 1577 77) (Place 1639 79) true; SNode 195 (Place 1584 77) (Place 1639 79) false; SNode 196 (Place 1584 77) (Place 1637 79) false; SNode 197 (Place 1584 77) (Place 1596 77) false; SNode 198 (Place 1588 77) (Place 1590 77) false; SNode 199 (Place 1591 77) (Place 1596 77) false; SNode 200 (Place 1591 77) (Place 1596 77) true; SNode 201 (Place 1591 77) (Place 1596 77) false; SNode 202 (Place 1597 77) (Place 1637 79) true; SNode 203 (Place 1602 78) (Place 1633 78) true; SNode 204 (Place 1609 78) (Place 1633 78) false; SNode 205 (Place 1610 78) (Place 1633 78) false; SNode 206 (Place 1610 78) (Place 1615 78) false; SNode 207 (Place 1616 78) (Place 1632 78) false; SNode 208 (Place 1641 80) (Place 1750 85) true; SNode 209 (Place 1646 80) (Place 1650 80) false; SNode 210 (Place 1654 81) (Place 1750 85) true; SNode 211 (Place 1661 81) (Place 1750 85) false; SNode 212 (Place 1661 81) (Place 1748 85) false; SNode 213 (Place 1661 81) (Place 1673 81) false; SNode 214 (Place 1665 81) (Place 1667 81) false; SNode 215 (Place 1668 81) (Place 1673 81) false; SNode 216 (Place 1668 81) (Place 1673 81) true; SNode 217 (Place 1668 81) (Place 1673 81) false; SNode 218 (Place 1674 81) (Place 1748 85) true; SNode 219 (Place 1679 82) (Place 1744 84) true; SNode 220 (Place 1686 82) (Place 1744 84) false; SNode 221 (Place 1686 82) (Place 1742 84) false; SNode 222 (Place 1686 82) (Place 1699 82) false; SNode 223 (Place 1690 82) (Place 1692 82) false; SNode 224 (Place 1693 82) (Place 1699 82) false; SNode 225 (Place 1693 82) (Place 1699 82) true; SNode 226 (Place 1693 82) (Place 1699 82) false; SNode 227 (Place 1694 82) (Place 1699 82) false; SNode 228 (Place 1700 82) (Place 1742 84) true; SNode 229 (Place 1706 83) (Place 1737 83) true; SNode 230 (Place 1713 83) (Place 1737 83) false; SNode 231 (Place 1714 83) (Place 1737 83) false; SNode 232 (Place 1714 83) (Place 1719 83) false; SNode 233 (Place 1720 83) (Place 1736 83) false; SNode 234 (Place 1755 87) (Place 1765 87) true; SNode 235 (Place 1762 87) (Place 1765 87) false; SNode 236 (Place 2053 102) (Place 3206 153) true; SNode 237 (Place 2058 102) (Place 2089 102) false; SNode 238 (Place 2053 102) (Place 2097 102) false; SNode 239 (Place 2089 102) (Place 2091 102) false; SNode 240 (Place 2092 102) (Place 2097 102) false; SNode 241 (Place 2092 102) (Place 2097 102) true; SNode 242 (Place 2092 102) (Place 2097 102) false; SNode 243 (Place 2098 102) (Place 3206 153) true; SNode 244 (Place 2315 103) (Place 2396 105) true; SNode 245 (Place 2315 103) (Place 2396 105) true; SNode 246 (Place 2319 103) (Place 2396 105) true; SNode 247 (Place 2319 103) (Place 2327 103) false; SNode 248 (Place 2328 103) (Place 2340 103) false; SNode 249 (Place 2332 103) (Place 2334 103) false; SNode 250 (Place 2335 103) (Place 2340 103) false; SNode 251 (Place 2335 103) (Place 2340 103) true; SNode 252 (Place 2335 103) (Place 2340 103) false; SNode 253 (Place 2343 103) (Place 2396 105) false; SNode 254 (Place 2344 103) (Place 2395 105) false; SNode 255 (Place 2344 103) (Place 2356 103) false; SNode 256 (Place 2348 103) (Place 2350 103) false; SNode 257 (Place 2351 103) (Place 2356 103) false; SNode 258 (Place 2351 103) (Place 2356 103) true; SNode 259 (Place 2351 103) (Place 2356 103) false; SNode 260 (Place 2357 103) (Place 2395 105) true; SNode 261 (Place 2361 104) (Place 2392 104) true; SNode 262 (Place 2368 104) (Place 2392 104) false; SNode 263 (Place 2369 104) (Place 2392 104) false; SNode 264 (Place 2369 104) (Place 2374 104) false; SNode 265 (Place 2375 104) (Place 2391 104) false; SNode 266 (Place 2399 107) (Place 2646 120) true; SNode 267 (Place 2406 107) (Place 2646 120) true; SNode 268 (Place 2409 108) (Place 2503 113) true; SNode 269 (Place 2414 108) (Place 2418 108) false; SNode 270 (Place 2422 109) (Place 2503 113) true; SNode 271 (Place 2422 109) (Place 2430 109) false; SNode 272 (Place 2433 109) (Place 2503 113) false; SNode 273 (Place 2433 109) (Place 2445 109) false; SNode 274 (Place 2437 109) (Place 2439 109) false; SNode 275 (Place 2440 109) (Place 2445 109) false; SNode 276 (Place 2440 109) (Place 2445 109) true; SNode 277 (Place 2440 109) (Place 2445 109) false; SNode 278 (Place 2446 109) (Place 2503 113) true; SNode 279 (Place 2451 110) (Place 2499 112) true; SNode 280 (Place 2455 110) (Place 2499 112) true; SNode 281 (Place 2461 111) (Place 2494 111) true; SNode 282 (Place 2468 111) (Place 2494 111) false; SNode 283 (Place 2469 111) (Place 2493 111) false; SNode 284 (Place 2470 111) (Place 2493 111) false; SNode 285 (Place 2470 111) (Place 2475 111) false; SNode 286 (Place 2476 111) (Place 2492 111) false; SNode 287 (Place 2505 114) (Place 2544 115) true; SNode 288 (Place 2510 114) (Place 2514 114) false; SNode 289 (Place 2518 115) (Place 2544 115) true; SNode 290 (Place 2518 115) (Place 2526 115) false; SNode 291 (Place 2529 115) (Place 2544 115) false; SNode 292 (Place 2530 115) (Place 2543 115) false; SNode 293 (Place 2546 116) (Place 2596 117) true; SNode 294 (Place 2551 116) (Place 2555 116) false; SNode 295 (Place 2559 117) (Place 2596 117) true; SNode 296 (Place 2559 117) (Place 2567 117) false; SNode 297 (Place 2570 117) (Place 2596 117) false; SNode 298 (Place 2571 117) (Place 2595 117) false; SNode 299 (Place 2598 118) (Place 2643 119) true; SNode 300 (Place 2603 118) (Place 2607 118) false; SNode 301 (Place 2611 119) (Place 2643 119) true; SNode 302 (Place 2611 119) (Place 2619 119) false; SNode 303 (Place 2622 119) (Place 2643 119) false; SNode 304 (Place 2623 119) (Place 2642 119) false; SNode 305 (Place 2623 119) (Place 2628 119) false; SNode 306 (Place 2629 119) (Place 2642 119) false; SNode 307 (Place 2649 122) (Place 2715 124) true; SNode 308 (Place 2649 122) (Place 2658 122) false; SNode 309 (Place 2662 122) (Place 2715 124) false; SNode 310 (Place 2662 122) (Place 2674 122) false; SNode 311 (Place 2666 122) (Place 2668 122) false; SNode 312 (Place 2669 122) (Place 2674 122) false; SNode 313 (Place 2669 122) (Place 2674 122) true; SNode 314 (Place 2669 122) (Place 2674 122) false; SNode 315 (Place 2675 122) (Place 2715 124) true; SNode 316 (Place 2679 123) (Place 2712 123) true; SNode 317 (Place 2686 123) (Place 2712 123) false; SNode 318 (Place 2687 123) (Place 2712 123) false; SNode 319 (Place 2688 123) (Place 2711 123) false; SNode 320 (Place 2688 123) (Place 2693 123) false; SNode 321 (Place 2694 123) (Place 2710 123) false; SNode 322 (Place 2717 125) (Place 2794 127) true; SNode 323 (Place 2717 125) (Place 2718 125) false; SNode 324 (Place 2720 125) (Place 2729 125) false; SNode 325 (Place 2733 125) (Place 2737 125) false; SNode 326 (Place 2739 125) (Place 2794 127) false; SNode 327 (Place 2740 125) (Place 2793 127) false; SNode 328 (Place 2740 125) (Place 2752 125) false; SNode 329 (Place 2744 125) (Place 2746 125) false; SNode 330 (Place 2747 125) (Place 2752 125) false; SNode 331 (Place 2747 125) (Place 2752 125) true; SNode 332 (Place 2747 125) (Place 2752 125) false; SNode 333 (Place 2753 125) (Place 2793 127) true; SNode 334 (Place 2757 126) (Place 2790 126) true; SNode 335 (Place 2764 126) (Place 2790 126) false; SNode 336 (Place 2765 126) (Place 2790 126) false; SNode 337 (Place 2765 126) (Place 2770 126) false; SNode 338 (Place 2771 126) (Place 2789 126) false; SNode 339 (Place 2772 126) (Place 2788 126) false; SNode 340 (Place 2796 128) (Place 2917 134) true; SNode 341 (Place 2799 128) (Place 2804 128) false; SNode 342 (Place 2805 128) (Place 2881 132) true; SNode 343 (Place 2809 129) (Place 2878 131) true; SNode 344 (Place 2809 129) (Place 2818 129) false; SNode 345 (Place 2821 129) (Place 2878 131) false; SNode 346 (Place 2821 129) (Place 2833 129) false; SNode 347 (Place 2825 129) (Place 2827 129) false; SNode 348 (Place 2828 129) (Place 2833 129) false; SNode 349 (Place 2828 129) (Place 2833 129) true; SNode 350 (Place 2828 129) (Place 2833 129) false; SNode 351 (Place 2834 129) (Place 2878 131) true; SNode 352 (Place 2839 130) (Place 2874 130) true; SNode 353 (Place 2846 130) (Place 2874 130) false; SNode 354 (Place 2847 130) (Place 2873 130) false; SNode 355 (Place 2848 130) (Place 2873 130) false; SNode 356 (Place 2849 130) (Place 2872 130) false; SNode 357 (Place 2849 130) (Place 2854 130) false; SNode 358 (Place 2855 130) (Place 2871 130) false; SNode 359 (Place 2887 132) (Place 2917 134) true; SNode 360 (Place 2891 133) (Place 2914 133) true; SNode 361 (Place 2891 133) (Place 2900 133) false; SNode 362 (Place 2903 133) (Place 2914 133) false; SNode 363 (Place 2904 133) (Place 2913 133) false; SNode 364 (Place 2920 136) (Place 3192 151) true; SNode 365 (Place 2927 136) (Place 3192 151) true; SNode 366 (Place 2930 137) (Place 2962 138) true; SNode 367 (Place 2935 137) (Place 2939 137) false; SNode 368 (Place 2943 138) (Place 2962 138) true; SNode 369 (Place 2950 138) (Place 2962 138) false; SNode 370 (Place 2950 138) (Place 2960 138) false; SNode 371 (Place 2951 138) (Place 2959 138) false; SNode 372 (Place 2964 139) (Place 2997 140) true; SNode 373 (Place 2969 139) (Place 2973 139) false; SNode 374 (Place 2977 140) (Place 2997 140) true; SNode 375 (Place 2984 140) (Place 2997 140) false; SNode 376 (Place 2984 140) (Place 2995 140) false; SNode 377 (Place 2985 140) (Place 2994 140) false; SNode 378 (Place 2999 141) (Place 3074 144) true; SNode 379 (Place 3004 141) (Place 3008 141) false; SNode 380 (Place 3012 142) (Place 3074 144) true; SNode 381 (Place 3019 142) (Place 3074 144) false; SNode 382 (Place 3019 142) (Place 3072 144) false; SNode 383 (Place 3019 142) (Place 3031 142) false; SNode 384 (Place 3023 142) (Place 3025 142) false; SNode 385 (Place 3026 142) (Place 3031 142) false; SNode 386 (Place 3026 142) (Place 3031 142) true; SNode 387 (Place 3026 142) (Place 3031 142) false; SNode 388 (Place 3032 142) (Place 3072 144) true; SNode 389 (Place 3037 143) (Place 3068 143) true; SNode 390 (Place 3044 143) (Place 3068 143) false; SNode 391 (Place 3045 143) (Place 3068 143) false; SNode 392 (Place 3045 143) (Place 3050 143) false; SNode 393 (Place 3051 143) (Place 3067 143) false; SNode 394 (Place 3076 145) (Place 3189 150) true; SNode 395 (Place 3081 145) (Place 3085 145) false; SNode 396 (Place 3089 146) (Place 3189 150) true; SNode 397 (Place 3096 146) (Place 3189 150) false; SNode 398 (Place 3096 146) (Place 3187 150) false; SNode 399 (Place 3096 146) (Place 3108 146) false; SNode 400 (Place 3100 146) (Place 3102 146) false; SNode 401 (Place 3103 146) (Place 3108 146) false; SNode 402 (Place 3103 146) (Place 3108 146) true; SNode 403 (Place 3103 146) (Place 3108 146) false; SNode 404 (Place 3109 146) (Place 3187 150) true; SNode 405 (Place 3114 147) (Place 3183 149) true; SNode 406 (Place 3121 147) (Place 3183 149) false; SNode 407 (Place 3122 147) (Place 3182 149) false; SNode 408 (Place 3122 147) (Place 3180 149) false; SNode 409 (Place 3123 147) (Place 3179 149) false; SNode 410 (Place 3123 147) (Place 3136 147) false; SNode 411 (Place 3127 147) (Place 3129 147) false; SNode 412 (Place 3130 147) (Place 3136 147) false; SNode 413 (Place 3130 147) (Place 3136 147) true; SNode 414 (Place 3130 147) (Place 3136 147) false; SNode 415 (Place 3131 147) (Place 3136 147) false; SNode 416 (Place 3137 147) (Place 3179 149) true; SNode 417 (Place 3143 148) (Place 3174 148) true; SNode 418 (Place 3150 148) (Place 3174 148) false; SNode 419 (Place 3151 148) (Place 3174 148) false; SNode 420 (Place 3151 148) (Place 3156 148) false; SNode 421 (Place 3157 148) (Place 3173 148) false; SNode 422 (Place 3194 152) (Place 3204 152) true; SNode 423 (Place 3201 152) (Place 3204 152) false; SNode 424 (Place 3208 155) (Place 3307 159) true; SNode 425 (Place 3213 155) (Place 3228 155) false; SNode 426 (Place 3208 155) (Place 3244 155) false; SNode 427 (Place 3228 155) (Place 3230 155) false; SNode 428 (Place 3231 155) (Place 3244 155) false; SNode 429 (Place 3231 155) (Place 3244 155) true; SNode 430 (Place 3231 155) (Place 3244 155) false; SNode 431 (Place 3235 155) (Place 3237 155) false; SNode 432 (Place 3238 155) (Place 3244 155) false; SNode 433 (Place 3238 155) (Place 3244 155) true; SNode 434 (Place 3238 155) (Place 3244 155) false; SNode 435 (Place 3239 155) (Place 3244 155) false; SNode 436 (Place 3245 155) (Place 3307 159) true; SNode 437 (Place 3248 156) (Place 3305 158) true; SNode 438 (Place 3255 156) (Place 3305 158) false; SNode 439 (Place 3255 156) (Place 3268 156) false; SNode 440 (Place 3259 156) (Place 3261 156) false; SNode 441 (Place 3262 156) (Place 3268 156) false; SNode 442 (Place 3262 156) (Place 3268 156) true; SNode 443 (Place 3262 156) (Place 3268 156) false; SNode 444 (Place 3263 156) (Place 3268 156) false; SNode 445 (Place 3269 156) (Place 3305 158) true; SNode 446 (Place 3273 157) (Place 3302 157) true; SNode 447 (Place 3280 157) (Place 3302 157) false; SNode 448 (Place 3281 157) (Place 3302 157) false; SNode 449 (Place 3281 157) (Place 3286 157) false; SNode 450 (Place 3287 157) (Place 3301 157) false; SNode 451 (Place 3325 162) (Place 4411 187) true; SNode 452 (Place 3330 162) (Place 3341 162) false; SNode 453 (Place 3325 162) (Place 3350 162) false; SNode 454 (Place 3341 162) (Place 3343 162) false; SNode 455 (Place 3344 162) (Place 3350 162) false; SNode 456 (Place 3344 162) (Place 3350 162) true; SNode 457 (Place 3344 162) (Place 3350 162) false; SNode 458 (Place 3345 162) (Place 3350 162) false; SNode 459 (Place 3351 162) (Place 4411 187) true; SNode 460 (Place 3388 163) (Place 4397 185) true; SNode 461 (Place 3395 163) (Place 4397 185) true; SNode 462 (Place 3398 164) (Place 3466 165) true; SNode 463 (Place 3403 164) (Place 3407 164) false; SNode 464 (Place 3411 165) (Place 3466 165) true; SNode 465 (Place 3418 165) (Place 3466 165) false; SNode 466 (Place 3419 165) (Place 3466 165) false; SNode 467 (Place 3419 165) (Place 3424 165) false; SNode 468 (Place 3425 165) (Place 3465 165) false; SNode 469 (Place 3425 165) (Place 3463 165) false; SNode 470 (Place 3425 165) (Place 3438 165) false; SNode 471 (Place 3429 165) (Place 3431 165) false; SNode 472 (Place 3432 165) (Place 3438 165) false; SNode 473 (Place 3432 165) (Place 3438 165) true; SNode 474 (Place 3432 165) (Place 3438 165) false; SNode 475 (Place 3439 165) (Place 3463 165) true; SNode 476 (Place 3441 165) (Place 3461 165) true; SNode 477 (Place 3448 165) (Place 3461 165) false; SNode 478 (Place 3538 166) (Place 3739 171) true; SNode 479 (Place 3543 166) (Place 3547 166) false; SNode 480 (Place 3551 167) (Place 3739 171) true; SNode 481 (Place 3558 167) (Place 3739 171) false; SNode 482 (Place 3558 167) (Place 3737 171) false; SNode 483 (Place 3558 167) (Place 3735 171) false; SNode 484 (Place 3558 167) (Place 3578 167) false; SNode 485 (Place 3562 167) (Place 3564 167) false; SNode 486 (Place 3565 167) (Place 3578 167) false; SNode 487 (Place 3565 167) (Place 3578 167) true; SNode 488 (Place 3565 167) (Place 3578 167) false; SNode 489 (Place 3569 167) (Place 3571 167) false; SNode 490 (Place 3572 167) (Place 3578 167) false; SNode 491 (Place 3572 167) (Place 3578 167) true; SNode 492 (Place 3572 167) (Place 3578 167) false; SNode 493 (Place 3573 167) (Place 3578 167) false; SNode 494 (Place 3579 167) (Place 3735 171) true; SNode 495 (Place 3670 168) (Place 3731 170) true; SNode 496 (Place 3677 168) (Place 3731 170) false; SNode 497 (Place 3677 168) (Place 3690 168) false; SNode 498 (Place 3681 168) (Place 3683 168) false; SNode 499 (Place 3684 168) (Place 3690 168) false; SNode 500 (Place 3684 168) (Place 3690 168) true; SNode 501 (Place 3684 168) (Place 3690 168) false; SNode 502 (Place 3685 168) (Place 3690 168) false; SNode 503 (Place 3691 168) (Place 3731 170) true; SNode 504 (Place 3697 169) (Place 3726 169) true; SNode 505 (Place 3704 169) (Place 3726 169) false; SNode 506 (Place 3705 169) (Place 3726 169) false; SNode 507 (Place 3705 169) (Place 3710 169) false; SNode 508 (Place 3711 169) (Place 3725 169) false; SNode 509 (Place 3741 172) (Place 3780 173) true; SNode 510 (Place 3746 172) (Place 3750 172) false; SNode 511 (Place 3754 173) (Place 3780 173) true; SNode 512 (Place 3761 173) (Place 3780 173) false; SNode 513 (Place 3761 173) (Place 3778 173) false; SNode 514 (Place 3761 173) (Place 3776 173) false; SNode 515 (Place 3868 174) (Place 4031 176) true; SNode 516 (Place 3873 174) (Place 3877 174) false; SNode 517 (Place 3881 175) (Place 3925 175) true; SNode 518 (Place 3881 175) (Place 3925 175) true; SNode 519 (Place 3885 175) (Place 3925 175) true; SNode 520 (Place 3885 175) (Place 3891 175) false; SNode 521 (Place 3892 175) (Place 3905 175) false; SNode 522 (Place 3896 175) (Place 3898 175) false; SNode 523 (Place 3899 175) (Place 3905 175) false; SNode 524 (Place 3899 175) (Place 3905 175) true; SNode 525 (Place 3899 175) (Place 3905 175) false; SNode 526 (Place 3900 175) (Place 3905 175) false; SNode 527 (Place 3908 175) (Place 3925 175) false; SNode 528 (Place 3908 175) (Place 3923 175) false; SNode 529 (Place 4016 176) (Place 4031 176) true; SNode 530 (Place 4023 176) (Place 4031 176) false; SNode 531 (Place 4023 176) (Place 4029 176) false; SNode 532 (Place 4033 177) (Place 4182 179) true; SNode 533 (Place 4038 177) (Place 4042 177) false; SNode 534 (Place 4046 178) (Place 4074 178) true; SNode 535 (Place 4046 178) (Place 4053 178) false; SNode 536 (Place 4057 178) (Place 4074 178) false; SNode 537 (Place 4057 178) (Place 4072 178) false; SNode 538 (Place 4166 179) (Place 4182 179) true; SNode 539 (Place 4173 179) (Place 4182 179) false; SNode 540 (Place 4173 179) (Place 4180 179) false; SNode 541 (Place 4184 180) (Place 4394 184) true; SNode 542 (Place 4189 180) (Place 4193 180) false; SNode 543 (Place 4197 181) (Place 4227 181) true; SNode 544 (Place 4197 181) (Place 4200 181) false; SNode 545 (Place 4204 181) (Place 4227 181) false; SNode 546 (Place 4205 181) (Place 4227 181) false; SNode 547 (Place 4205 181) (Place 4210 181) false; SNode 548 (Place 4211 181) (Place 4226 181) false; SNode 549 (Place 4230 182) (Place 4394 184) true; SNode 550 (Place 4237 182) (Place 4394 184) false; SNode 551 (Place 4237 182) (Place 4392 184) false; SNode 552 (Place 4237 182) (Place 4250 182) false; SNode 553 (Place 4241 182) (Place 4243 182) false; SNode 554 (Place 4244 182) (Place 4250 182) false; SNode 555 (Place 4244 182) (Place 4250 182) true; SNode 556 (Place 4244 182) (Place 4250 182) false; SNode 557 (Place 4245 182) (Place 4250 182) false; SNode 558 (Place 4251 182) (Place 4392 184) true; SNode 559 (Place 4256 183) (Place 4266 183) true; SNode 560 (Place 4263 183) (Place 4266 183) false; SNode 561 (Place 4399 186) (Place 4409 186) true; SNode 562 (Place 4406 186) (Place 4409 186) false; SNode 563 (Place 4515 195) (Place 5193 210) true; SNode 564 (Place 4520 195) (Place 4536 195) false; SNode 565 (Place 4515 195) (Place 4544 195) false; SNode 566 (Place 4536 195) (Place 4538 195) false; SNode 567 (Place 4539 195) (Place 4544 195) false; SNode 568 (Place 4539 195) (Place 4544 195) true; SNode 569 (Place 4539 195) (Place 4544 195) false; SNode 570 (Place 4545 195) (Place 5193 210) true; SNode 571 (Place 4631 196) (Place 4734 196) true; SNode 572 (Place 4631 196) (Place 4734 196) true; SNode 573 (Place 4635 196) (Place 4734 196) true; SNode 574 (Place 4635 196) (Place 4637 196) false; SNode 575 (Place 4639 196) (Place 4641 196) false; SNode 576 (Place 4644 196) (Place 4688 196) false; SNode 577 (Place 4644 196) (Place 4656 196) false; SNode 578 (Place 4648 196) (Place 4650 196) false; SNode 579 (Place 4651 196) (Place 4656 196) false; SNode 580 (Place 4651 196) (Place 4656 196) true; SNode 581 (Place 4651 196) (Place 4656 196) false; SNode 582 (Place 4657 196) (Place 4688 196) true; SNode 583 (Place 4659 196) (Place 4686 196) true; SNode 584 (Place 4666 196) (Place 4686 196) false; SNode 585 (Place 4667 196) (Place 4686 196) false; SNode 586 (Place 4667 196) (Place 4672 196) false; SNode 587 (Place 4673 196) (Place 4685 196) false; SNode 588 (Place 4690 196) (Place 4734 196) false; SNode 589 (Place 4690 196) (Place 4702 196) false; SNode 590 (Place 4694 196) (Place 4696 196) false; SNode 591 (Place 4697 196) (Place 4702 196) false; SNode 592 (Place 4697 196) (Place 4702 196) true; SNode 593 (Place 4697 196) (Place 4702 196) false; SNode 594 (Place 4703 196) (Place 4734 196) true; SNode 595 (Place 4705 196) (Place 4732 196) true; SNode 596 (Place 4712 196) (Place 4732 196) false; SNode 597 (Place 4713 196) (Place 4732 196) false; SNode 598 (Place 4713 196) (Place 4718 196) false; SNode 599 (Place 4719 196) (Place 4731 196) false; SNode 600 (Place 4736 197) (Place 4835 197) true; SNode 601 (Place 4736 197) (Place 4738 197) false; SNode 602 (Place 4740 197) (Place 4742 197) false; SNode 603 (Place 4745 197) (Place 4789 197) false; SNode 604 (Place 4745 197) (Place 4757 197) false; SNode 605 (Place 4749 197) (Place 4751 197) false; SNode 606 (Place 4752 197) (Place 4757 197) false; SNode 607 (Place 4752 197) (Place 4757 197) true; SNode 608 (Place 4752 197) (Place 4757 197) false; SNode 609 (Place 4758 197) (Place 4789 197) true; SNode 610 (Place 4760 197) (Place 4787 197) true; SNode 611 (Place 4767 197) (Place 4787 197) false; SNode 612 (Place 4768 197) (Place 4787 197) false; SNode 613 (Place 4768 197) (Place 4773 197) false; SNode 614 (Place 4774 197) (Place 4786 197) false; SNode 615 (Place 4791 197) (Place 4835 197) false; SNode 616 (Place 4791 197) (Place 4803 197) false; SNode 617 (Place 4795 197) (Place 4797 197) false; SNode 618 (Place 4798 197) (Place 4803 197) false; SNode 619 (Place 4798 197) (Place 4803 197) true; SNode 620 (Place 4798 197) (Place 4803 197) false; SNode 621 (Place 4804 197) (Place 4835 197) true; SNode 622 (Place 4806 197) (Place 4833 197) true; SNode 623 (Place 4813 197) (Place 4833 197) false; SNode 624 (Place 4814 197) (Place 4833 197) false; SNode 625 (Place 4814 197) (Place 4819 197) false; SNode 626 (Place 4820 197) (Place 4832 197) false; SNode 627 (Place 4837 198) (Place 4867 198) true; SNode 628 (Place 4837 198) (Place 4867 198) true; SNode 629 (Place 4841 198) (Place 4867 198) true; SNode 630 (Place 4841 198) (Place 4843 198) false; SNode 631 (Place 4845 198) (Place 4846 198) false; SNode 632 (Place 4849 198) (Place 4867 198) false; SNode 633 (Place 4849 198) (Place 4865 198) false; SNode 634 (Place 4958 199) (Place 4984 199) true; SNode 635 (Place 4958 199) (Place 4959 199) false; SNode 636 (Place 4961 199) (Place 4963 199) false; SNode 637 (Place 4966 199) (Place 4984 199) false; SNode 638 (Place 4966 199) (Place 4982 199) false; SNode 639 (Place 5079 200) (Place 5191 209) true; SNode 640 (Place 5086 200) (Place 5191 209) true; SNode 641 (Place 5089 201) (Place 5113 202) true; SNode 642 (Place 5094 201) (Place 5098 201) false; SNode 643 (Place 5102 202) (Place 5113 202) true; SNode 644 (Place 5109 202) (Place 5113 202) false; SNode 645 (Place 5109 202) (Place 5111 202) false; SNode 646 (Place 5115 203) (Place 5139 204) true; SNode 647 (Place 5120 203) (Place 5124 203) false; SNode 648 (Place 5128 204) (Place 5139 204) true; SNode 649 (Place 5135 204) (Place 5139 204) false; SNode 650 (Place 5135 204) (Place 5137 204) false; SNode 651 (Place 5141 205) (Place 5165 206) true; SNode 652 (Place 5146 205) (Place 5150 205) false; SNode 653 (Place 5154 206) (Place 5165 206) true; SNode 654 (Place 5161 206) (Place 5165 206) false; SNode 655 (Place 5161 206) (Place 5163 206) false; SNode 656 (Place 5167 207) (Place 5188 208) true; SNode 657 (Place 5178 208) (Place 5188 208) true; SNode 658 (Place 5185 208) (Place 5188 208) false; SNode 659 (Place 5195 212) (Place 5268 214) true; SNode 660 (Place 5200 212) (Place 5216 212) false; SNode 661 (Place 5195 212) (Place 5247 212) false; SNode 662 (Place 5216 212) (Place 5218 212) false; SNode 663 (Place 5219 212) (Place 5247 212) false; SNode 664 (Place 5220 212) (Place 5232 212) true; SNode 665 (Place 5220 212) (Place 5232 212) false; SNode 666 (Place 5224 212) (Place 5226 212) false; SNode 667 (Place 5227 212) (Place 5232 212) false; SNode 668 (Place 5227 212) (Place 5232 212) true; SNode 669 (Place 5227 212) (Place 5232 212) false; SNode 670 (Place 5234 212) (Place 5246 212) true; SNode 671 (Place 5234 212) (Place 5246 212) false; SNode 672 (Place 5238 212) (Place 5240 212) false; SNode 673 (Place 5241 212) (Place 5246 212) false; SNode 674 (Place 5241 212) (Place 5246 212) true; SNode 675 (Place 5241 212) (Place 5246 212) false; SNode 676 (Place 5248 212) (Place 5268 214) true; SNode 677 (Place 5251 213) (Place 5266 213) true; SNode 678 (Place 5258 213) (Place 5261 213) false; SNode 679 (Place 5263 213) (Place 5266 213) false; SNode 680 (Place 5286 217) (Place 5579 221) true; SNode 681 (Place 5291 217) (Place 5318 217) false; SNode 682 (Place 5286 217) (Place 5326 217) false; SNode 683 (Place 5318 217) (Place 5320 217) false; SNode 684 (Place 5321 217) (Place 5326 217) false; SNode 685 (Place 5321 217) (Place 5326 217) true; SNode 686 (Place 5321 217) (Place 5326 217) false; SNode 687 (Place 5327 217) (Place 5579 221) true; SNode 688 (Place 5379 218) (Place 5577 220) true; SNode 689 (Place 5386 218) (Place 5577 220) false; SNode 690 (Place 5386 218) (Place 5543 220) false; SNode 691 (Place 5386 218) (Place 5405 218) false; SNode 692 (Place 5390 218) (Place 5399 218) false; SNode 693 (Place 5391 218) (Place 5398 218) true; SNode 694 (Place 5391 218) (Place 5392 218) false; SNode 695 (Place 5393 218) (Place 5398 218) false; SNode 696 (Place 5400 218) (Place 5405 218) false; SNode 697 (Place 5400 218) (Place 5405 218) true; SNode 698 (Place 5400 218) (Place 5405 218) false; SNode 699 (Place 5406 218) (Place 5543 220) true; SNode 700 (Place 5410 219) (Place 5418 219) true; SNode 701 (Place 5417 219) (Place 5418 219) false; SNode 702 (Place 5544 220) (Place 5576 220) false; SNode 703 (Place 5544 220) (Place 5554 220) false; SNode 704 (Place 5544 220) (Place 5547 220) false; SNode 705 (Place 5548 220) (Place 5554 220) false; SNode 706 (Place 5555 220) (Place 5575 220) false; SNode 707 (Place 5597 224) (Place 5860 230) true; SNode 708 (Place 5602 224) (Place 5630 224) false; SNode 709 (Place 5597 224) (Place 5638 224) false; SNode 710 (Place 5630 224) (Place 5632 224) false; SNode 711 (Place 5633 224) (Place 5638 224) false; SNode 712 (Place 5633 224) (Place 5638 224) true; SNode 713 (Place 5633 224) (Place 5638 224) false; SNode 714 (Place 5639 224) (Place 5860 230) true; SNode 715 (Place 5692 225) (Place 5705 225) true; SNode 716 (Place 5692 225) (Place 5705 225) true; SNode 717 (Place 5696 225) (Place 5705 225) true; SNode 718 (Place 5696 225) (Place 5699 225) false; SNode 719 (Place 5700 225) (Place 5705 225) false; SNode 720 (Place 5707 226) (Place 5846 228) true; SNode 721 (Place 5707 226) (Place 5846 228) false; SNode 722 (Place 5707 226) (Place 5812 228) false; SNode 723 (Place 5707 226) (Place 5720 226) false; SNode 724 (Place 5711 226) (Place 5720 226) false; SNode 725 (Place 5712 226) (Place 5719 226) true; SNode 726 (Place 5712 226) (Place 5713 226) false; SNode 727 (Place 5714 226) (Place 5719 226) false; SNode 728 (Place 5721 226) (Place 5812 228) true; SNode 729 (Place 5725 227) (Place 5732 227) true; SNode 730 (Place 5725 227) (Place 5728 227) false; SNode 731 (Place 5731 227) (Place 5732 227) false; SNode 732 (Place 5813 228) (Place 5845 228) false; SNode 733 (Place 5813 228) (Place 5823 228) false; SNode 734 (Place 5813 228) (Place 5816 228) false; SNode 735 (Place 5817 228) (Place 5823 228) false; SNode 736 (Place 5824 228) (Place 5844 228) false; SNode 737 (Place 5848 229) (Place 5858 229) true; SNode 738 (Place 5855 229) (Place 5858 229) false; SNode 739 (Place 5862 232) (Place 5969 234) true; SNode 740 (Place 5867 232) (Place 5969 234) true; SNode 741 (Place 5867 232) (Place 5872 232) false; SNode 742 (Place 5873 232) (Place 5969 234) false; SNode 743 (Place 5880 232) (Place 5969 234) false; SNode 744 (Place 5953 233) (Place 5967 233) true; SNode 745 (Place 5953 233) (Place 5960 233) false; SNode 746 (Place 5961 233) (Place 5967 233) false; SNode 747 (Place 5971 236) (Place 6035 236) true; SNode 748 (Place 5976 236) (Place 5986 236) false; SNode 749 (Place 5977 236) (Place 5985 236) true; SNode 750 (Place 5977 236) (Place 5978 236) false; SNode 751 (Place 5979 236) (Place 5985 236) false; SNode 752 (Place 5980 236) (Place 5985 236) false; SNode 753 (Place 5987 236) (Place 5991 236) false; SNode 754 (Place 5971 236) (Place 6000 236) false; SNode 755 (Place 5991 236) (Place 5993 236) false; SNode 756 (Place 5994 236) (Place 6000 236) false; SNode 757 (Place 5994 236) (Place 6000 236) true; SNode 758 (Place 5994 236) (Place 6000 236) false; SNode 759 (Place 6015 236) (Place 6035 236) true; SNode 760 (Place 6017 236) (Place 6033 236) true; SNode 761 (Place 6024 236) (Place 6033 236) false; SNode 762 (Place 6024 236) (Place 6025 236) false; SNode 763 (Place 6026 236) (Place 6033 236) false; SNode 764 (Place 6036 237) (Place 6100 237) true; SNode 765 (Place 6041 237) (Place 6051 237) false; SNode 766 (Place 6042 237) (Place 6050 237) true; SNode 767 (Place 6042 237) (Place 6043 237) false; SNode 768 (Place 6044 237) (Place 6050 237) false; SNode 769 (Place 6045 237) (Place 6050 237) false; SNode 770 (Place 6052 237) (Place 6059 237) false; SNode 771 (Place 6036 237) (Place 6068 237) false; SNode 772 (Place 6059 237) (Place 6061 237) false; SNode 773 (Place 6062 237) (Place 6068 237) false; SNode 774 (Place 6062 237) (Place 6068 237) true; SNode 775 (Place 6062 237) (Place 6068 237) false; SNode 776 (Place 6080 237) (Place 6100 237) true; SNode 777 (Place 6082 237) (Place 6098 237) true; SNode 778 (Place 6089 237) (Place 6098 237) false; SNode 779 (Place 6089 237) (Place 6090 237) false; SNode 780 (Place 6091 237) (Place 6098 237) false; SNode 781 (Place 6101 238) (Place 6159 238) true; SNode 782 (Place 6106 238) (Place 6116 238) false; SNode 783 (Place 6107 238) (Place 6115 238) true; SNode 784 (Place 6107 238) (Place 6108 238) false; SNode 785 (Place 6109 238) (Place 6115 238) false; SNode 786 (Place 6110 238) (Place 6115 238) false; SNode 787 (Place 6117 238) (Place 6124 238) false; SNode 788 (Place 6101 238) (Place 6144 238) false; SNode 789 (Place 6124 238) (Place 6126 238) false; SNode 790 (Place 6127 238) (Place 6144 238) false; SNode 791 (Place 6127 238) (Place 6144 238) true; SNode 792 (Place 6127 238) (Place 6144 238) false; SNode 793 (Place 6131 238) (Place 6137 238) false; SNode 794 (Place 6138 238) (Place 6144 238) false; SNode 795 (Place 6145 238) (Place 6159 238) true; SNode 796 (Place 6147 238) (Place 6157 238) true; SNode 797 (Place 6154 238) (Place 6157 238) false; SNode 798 (Place 6160 239) (Place 6218 239) true; SNode 799 (Place 6165 239) (Place 6175 239) false; SNode 800 (Place 6166 239) (Place 6174 239) true; SNode 801 (Place 6166 239) (Place 6167 239) false; SNode 802 (Place 6168 239) (Place 6174 239) false; SNode 803 (Place 6169 239) (Place 6174 239) false; SNode 804 (Place 6176 239) (Place 6181 239) false; SNode 805 (Place 6160 239) (Place 6189 239) false; SNode 806 (Place 6181 239) (Place 6183 239) false; SNode 807 (Place 6184 239) (Place 6189 239) false; SNode 808 (Place 6184 239) (Place 6189 239) true; SNode 809 (Place 6184 239) (Place 6189 239) false; SNode 810 (Place 6204 239) (Place 6218 239) true; SNode 811 (Place 6206 239) (Place 6216 239) true; SNode 812 (Place 6213 239) (Place 6216 239) false; SNode 813 (Place 6219 240) (Place 6285 240) true; SNode 814 (Place 6224 240) (Place 6234 240) false; SNode 815 (Place 6225 240) (Place 6233 240) true; SNode 816 (Place 6225 240) (Place 6226 240) false; SNode 817 (Place 6227 240) (Place 6233 240) false; SNode 818 (Place 6228 240) (Place 6233 240) false; SNode 819 (Place 6235 240) (Place 6240 240) false; SNode 820 (Place 6219 240) (Place 6249 240) false; SNode 821 (Place 6240 240) (Place 6242 240) false; SNode 822 (Place 6243 240) (Place 6249 240) false; SNode 823 (Place 6243 240) (Place 6249 240) true; SNode 824 (Place 6243 240) (Place 6249 240) false; SNode 825 (Place 6263 240) (Place 6285 240) true; SNode 826 (Place 6265 240) (Place 6283 240) true; SNode 827 (Place 6272 240) (Place 6283 240) false; SNode 828 (Place 6272 240) (Place 6281 240) false; SNode 829 (Place 6272 240) (Place 6273 240) false; SNode 830 (Place 6274 240) (Place 6281 240) false].
Definition t_func_literal_cgroups0 : list cgroup := [CGroup (Place 62 8) (Place 97 10) [(str "// Errors:"); (str "//"); (str "//    - some-error --")]; CGroup (Place 133 11) (Place 184 11) [(str "// want AssignmentInLambda:""ErrorCodes: some-error""")]; CGroup (Place 283 17) (Place 295 17) [(str "// shadowed!")]; CGroup (Place 393 27) (Place 676 38) [(str "// Errors:"); (str "//"); (str "//    - lambda-1-error --"); (str "//    - lambda-2-error --"); (str "//    - lambda-3-error --"); (str "//    - lambda-4-error --"); (str "//    - lambda-5-error --"); (str "//    - lambda-6-error --"); (str "//    - lambda-7-error --"); (str "//    - function-1-error --"); (str "//    - function-2-error --"); (str "//    - other-function-error --")]; CGroup (Place 715 39) (Place 919 39) [(str "// want LambdasReturningErrors:""ErrorCodes: function-1-error function-2-error lambda-1-error lambda-2-error lambda-3-error lambda-4-error lambda-5-error lambda-6-error lambda-7-error other-function-error""")]; CGroup (Place 1769 90) (Place 2052 101) [(str "// Errors:"); (str "//"); (str "//    - lambda-1-error --"); (str "//    - lambda-2-error --"); (str "//    - lambda-3-error --"); (str "//    - lambda-4-error --"); (str "//    - lambda-5-error --"); (str "//    - lambda-6-error --"); (str "//    - lambda-7-error --"); (str "//    - function-1-error --"); (str "//    - function-2-error --"); (str "//    - other-function-error --")]; CGroup (Place 2100 102) (Place 2313 102) [(str "// want LambdasReturningErrorsWithParen:""ErrorCodes: function-1-error function-2-error lambda-1-error lambda-2-error lambda-3-error lambda-4-error lambda-5-error lambda-6-error lambda-7-error other-function-error""")]; CGroup (Place 3309 161) (Place 3324 161) [(str "// Errors: none")]; CGroup (Place 3353 162) (Place 3386 162) [(str "// want OutOfBounds:""ErrorCodes:""")]; CGroup (Place 3467 165) (Place 3536 165) [(str "// want ""error code has to be constant value or error code parameter""")]; CGroup (Place 3581 167) (Place 3666 167) [(str "// want ""invalid error source: definition of the unnamed function could not be found""")]; CGroup (Place 3781 173) (Place 3866 173) [(str "// want ""invalid error source: definition of the unnamed function could not be found""")]; CGroup (Place 3926 175) (Place 4013 175) [(str "// want `assignment to variable ""lambda"" can only be an identifier or function literal`")]; CGroup (Place 4075 178) (Place 4163 178) [(str "// want `assignment to variable ""funcLit"" can only be an identifier or function literal`")]; CGroup (Place 4267 183) (Place 4388 183) [(str "// want ""returned error may not be a parameter, global variable or other variables declared outside of the function body""")]; CGroup (Place 4413 189) (Place 4514 194) [(str "// Errors:"); (str "//"); (str "//    - f1-1-error --"); (str "//    - f1-2-error --"); (str "//    - f2-1-error --"); (str "//    - f2-2-error --")]; CGroup (Place 4547 195) (Place 4629 195) [(str "// want TwinAssignLambda:""ErrorCodes: f1-1-error f1-2-error f2-1-error f2-2-error""")]; CGroup (Place 4868 198) (Place 4956 198) [(str "// want `unsupported: assigning result of function call to variable ""f3"" is not allowed`")]; CGroup (Place 4989 199) (Place 5077 199) [(str "// want `unsupported: assigning result of function call to variable ""f3"" is not allowed`")]; CGroup (Place 5270 216) (Place 5285 216) [(str "// Errors: none")]; CGroup (Place 5329 217) (Place 5377 217) [(str "// want InvalidErrorFromLambdaParam:""ErrorCodes""")]; CGroup (Place 5419 219) (Place 5540 219) [(str "// want ""returned error may not be a parameter, global variable or other variables declared outside of the function body""")]; CGroup (Place 5581 223) (Place 5596 223) [(str "// Errors: none")]; CGroup (Place 5641 224) (Place 5690 224) [(str "// want InvalidErrorFromLambdaParam2:""ErrorCodes""")]; CGroup (Place 5733 227) (Place 5809 227) [(str "// want ""returned error may not be a parameter, receiver or global variable""")]; CGroup (Place 5882 232) (Place 5951 232) [(str "// want Error:`ErrorType{Field:{Name:""TheCode"", Position:0}, Codes:}`")]].
Definition t_func_literal_nodes1 : list snode := [SNode 831 (Place 0 1) (Place 101 5) true; SNode 832 (Place 8 1) (Place 19 1) false; SNode 833 (Place 21 3) (Place 101 5) true; SNode 834 (Place 26 3) (Place 50 3) false; SNode 835 (Place 21 3) (Place 58 3) false; SNode 836 (Place 50 3) (Place 52 3) false; SNode 837 (Place 53 3) (Place 58 3) false; SNode 838 (Place 53 3) (Place 58 3) true; SNode 839 (Place 53 3) (Place 58 3) false; SNode 840 (Place 59 3) (Place 101 5) true; SNode 841 (Place 62 4) (Place 99 4) true; SNode 842 (Place 69 4) (Place 99 4) false; SNode 843 (Place 70 4) (Place 99 4) false; SNode 844 (Place 70 4) (Place 75 4) false; SNode 845 (Place 76 4) (Place 98 4) false].
Definition t_func_literal_cgroups1 : list cgroup := [].
Definition t_func_literal_files : list source_file := [SourceFile t_func_literal_nodes0 t_func_literal_cgroups0; SourceFile t_func_literal_nodes1 t_func_literal_cgroups1].
Definition t_func_literal_info : typeinfo := map_info (list_to_map t_func_literal_types) (list_to_map t_func_literal_values) (list_to_map t_func_literal_uses) (list_to_map t_func_literal_defs) (list_to_map t_func_literal_sels) (list_to_set [1; 4; 5; 6; 7; 8; 9; 10; 11; 12; 13; 14; 15; 16; 17; 18; 19; 20; 48; 72]) (list_to_map t_func_literal_pkgnames) (list_to_map t_func_literal_objnames) (list_to_map t_func_literal_objtypes) (list_to_map t_func_literal_under) t_func_literal_methods t_func_literal_ierr t_func_literal_iree t_func_literal_icause t_func_literal_impl (list_to_map t_func_literal_named_methods).
Definition t_func_literal : package := Package (list_to_map [(1, t_func_literal_f1); (2, t_func_literal_f2); (3, t_func_literal_f3); (4, t_func_literal_f4); (5, t_func_literal_f5); (6, t_func_literal_f6); (7, t_func_literal_f7); (8, t_func_literal_f8); (9, t_func_literal_f9); (10, t_func_literal_f10); (11, t_func_literal_f11); (12, t_func_literal_f12); (13, t_func_literal_f13); (14, t_func_literal_f14); (15, t_func_literal_f15); (16, t_func_literal_f16); (17, t_func_literal_f17); (18, t_func_literal_f18); (19, t_func_literal_f19); (20, t_func_literal_f20); (21, t_func_literal_f21); (22, t_func_literal_f22); (23, t_func_literal_f23); (24, t_func_literal_f24); (25, t_func_literal_f25); (26, t_func_literal_f26); (27, t_func_literal_f27); (28, t_func_literal_f28); (29, t_func_literal_f29); (30, t_func_literal_f30); (31, t_func_literal_f31); (32, t_func_literal_f32); (33, t_func_literal_f33); (34, t_func_literal_f34); (35, t_func_literal_f35); (36, t_func_literal_f36); (37, t_func_literal_f37); (38, t_func_literal_f38); (39, t_func_literal_f39); (40, t_func_literal_f40); (41, t_func_literal_f41); (42, t_func_literal_f42); (43, t_func_literal_f43); (44, t_func_literal_f44); (45, t_func_literal_f45)]) [1; 4; 5; 14; 23; 25; 30; 35; 36; 38; 40; 41; 42; 43; 44; 45] t_func_literal_gendecls t_func_literal_top (list_to_map t_func_literal_objs) (fun id => default [] (createCommentMap t_func_literal_files id)) t_func_literal_info.
Definition t_func_literal_rank : gostring -> nat := fun n => default 0%nat ((list_to_map [] : gmap gostring nat) !! n).

(** The presuppositions of the general theorems that this package satisfies. *)
Theorem t_func_literal_inner_presuppositions :
  (forall fa, usable_functions t_func_literal_inner fa) /\
  (forall fa, no_literal_recursion t_func_literal_inner (collectFunctions t_func_literal_inner) fa) /\
  (forall fa, literals_apart t_func_literal_inner (collectFunctions t_func_literal_inner) fa) /\
  types_usable t_func_literal_inner /\
  (forall w n, occurs t_func_literal_inner w n -> ~ ill_formed t_func_literal_inner w n) /\
  distinct_definitions t_func_literal_inner /\
  interfaces_ok t_func_literal_inner /\
  uses_resolved t_func_literal_inner (collectFunctions t_func_literal_inner) /\
  (forall g fn, pk_funcs t_func_literal_inner !! g = Some fn -> disciplined t_func_literal_inner (facts_after_test (run_test t_func_literal_inner ascending (Facts ∅ ∅ ∅ ∅))) fn /\ resolved t_func_literal_inner (collectFunctions t_func_literal_inner) (facts_after_test (run_test t_func_literal_inner ascending (Facts ∅ ∅ ∅ ∅))) fn) /\
  Forall layout t_func_literal_inner_files.
Proof.
  split_and!.
  - intros fa; apply package_usable_spec; vm_compute; reflexivity.
  - intros fa; apply recursion_check_spec; vm_compute; reflexivity.
  - intros fa; apply apart_spec; vm_compute; reflexivity.
  - apply types_ok_spec; vm_compute; reflexivity.
  - apply package_formed_spec; vm_compute; reflexivity.
  - apply definitions_check_spec; vm_compute; reflexivity.
  - apply (interfaces_check_spec t_func_literal_inner t_func_literal_inner_rank); vm_compute; reflexivity.
  - apply uses_check_spec; vm_compute; reflexivity.
  - intros g fn; apply sound_ok_spec; vm_compute; reflexivity.
  - apply layouts_spec; vm_compute; reflexivity.
Qed.

(** func_literal: 10 diagnostics and 8 facts, as its "want" comments demand. *)
Theorem t_func_literal_ascending :
  report (run_test t_func_literal ascending (facts_after_test (run_test t_func_literal_inner ascending (Facts ∅ ∅ ∅ ∅)))) = Some [
    (468, (str "error code has to be constant value or error code parameter")) (* func_literal.go:165 *);
    (482, (str "invalid error source: definition of the unnamed function could not be found")) (* func_literal.go:167 *);
    (513, (str "invalid error source: definition of the unnamed function could not be found")) (* func_literal.go:173 *);
    (527, (str "unsupported: assignment to variable ""lambda"" can only be an identifier or function literal")) (* func_literal.go:175 *);
    (536, (str "unsupported: assignment to variable ""funcLit"" can only be an identifier or function literal")) (* func_literal.go:178 *);
    (560, (str "returned error may not be a parameter, global variable or other variables declared outside of the function body")) (* func_literal.go:183 *);
    (701, (str "returned error may not be a parameter, global variable or other variables declared outside of the function body")) (* func_literal.go:219 *);
    (731, (str "returned error may not be a parameter, receiver or global variable")) (* func_literal.go:227 *);
    (632, (str "unsupported: assigning result of function call to variable ""f3"" is not allowed")) (* func_literal.go:198 *);
    (637, (str "unsupported: assigning result of function call to variable ""f3"" is not allowed")) (* func_literal.go:199 *)] /\
  fact_texts (facts_after_test (run_test t_func_literal ascending (facts_after_test (run_test t_func_literal_inner ascending (Facts ∅ ∅ ∅ ∅))))) [62; 63; 64; 65; 66; 67; 68; 69; 70; 71; 72; 73; 74; 75; 76; 77; 78; 79; 80; 81; 82; 83; 84; 85; 86; 87; 88; 89; 90; 91; 92; 93; 94; 95; 96; 97; 98; 99; 100; 101; 102; 103] = [
    (62, (str "ErrorCodes: some-error")) (* func_literal.go:11 AssignmentInLambda *);
    (64, (str "ErrorCodes: function-1-error function-2-error lambda-1-error lambda-2-error lambda-3-error lambda-4-error lambda-5-error lambda-6-error lambda-7-error other-function-error")) (* func_literal.go:39 LambdasReturningErrors *);
    (65, (str "ErrorCodes: function-1-error function-2-error lambda-1-error lambda-2-error lambda-3-error lambda-4-error lambda-5-error lambda-6-error lambda-7-error other-function-error")) (* func_literal.go:102 LambdasReturningErrorsWithParen *);
    (67, (str "ErrorCodes: ")) (* func_literal.go:162 OutOfBounds *);
    (68, (str "ErrorCodes: f1-1-error f1-2-error f2-1-error f2-2-error")) (* func_literal.go:195 TwinAssignLambda *);
    (70, (str "ErrorCodes: ")) (* func_literal.go:217 InvalidErrorFromLambdaParam *);
    (71, (str "ErrorCodes: ")) (* func_literal.go:224 InvalidErrorFromLambdaParam2 *);
    (72, (str "ErrorType{Field:{Name:""TheCode"", Position:0}, Codes:}")) (* func_literal.go:232 Error *)].
Proof. vm_compute. split; reflexivity. Qed.

(** func_literal: 10 diagnostics and 8 facts, as its "want" comments demand. *)
Theorem t_func_literal_descending :
  report (run_test t_func_literal descending (facts_after_test (run_test t_func_literal_inner descending (Facts ∅ ∅ ∅ ∅)))) = Some [
    (632, (str "unsupported: assigning result of function call to variable ""f3"" is not allowed")) (* func_literal.go:198 *);
    (637, (str "unsupported: assigning result of function call to variable ""f3"" is not allowed")) (* func_literal.go:199 *);
    (731, (str "returned error may not be a parameter, receiver or global variable")) (* func_literal.go:227 *);
    (701, (str "returned error may not be a parameter, global variable or other variables declared outside of the function body")) (* func_literal.go:219 *);
    (468, (str "error code has to be constant value or error code parameter")) (* func_literal.go:165 *);
    (482, (str "invalid error source: definition of the unnamed function could not be found")) (* func_literal.go:167 *);
    (513, (str "invalid error source: definition of the unnamed function could not be found")) (* func_literal.go:173 *);
    (527, (str "unsupported: assignment to variable ""lambda"" can only be an identifier or function literal")) (* func_literal.go:175 *);
    (536, (str "unsupported: assignment to variable ""funcLit"" can only be an identifier or function literal")) (* func_literal.go:178 *);
    (560, (str "returned error may not be a parameter, global variable or other variables declared outside of the function body")) (* func_literal.go:183 *)] /\
  fact_texts (facts_after_test (run_test t_func_literal descending (facts_after_test (run_test t_func_literal_inner descending (Facts ∅ ∅ ∅ ∅))))) [62; 63; 64; 65; 66; 67; 68; 69; 70; 71; 72; 73; 74; 75; 76; 77; 78; 79; 80; 81; 82; 83; 84; 85; 86; 87; 88; 89; 90; 91; 92; 93; 94; 95; 96; 97; 98; 99; 100; 101; 102; 103] = [
    (62, (str "ErrorCodes: some-error")) (* func_literal.go:11 AssignmentInLambda *);
    (64, (str "ErrorCodes: function-1-error function-2-error lambda-1-error lambda-2-error lambda-3-error lambda-4-error lambda-5-error lambda-6-error lambda-7-error other-function-error")) (* func_literal.go:39 LambdasReturningErrors *);
    (65, (str "ErrorCodes: function-1-error function-2-error lambda-1-error lambda-2-error lambda-3-error lambda-4-error lambda-5-error lambda-6-error lambda-7-error other-function-error")) (* func_literal.go:102 LambdasReturningErrorsWithParen *);
    (67, (str "ErrorCodes: ")) (* func_literal.go:162 OutOfBounds *);
    (68, (str "ErrorCodes: f1-1-error f1-2-error f2-1-error f2-2-error")) (* func_literal.go:195 TwinAssignLambda *);
    (70, (str "ErrorCodes: ")) (* func_literal.go:217 InvalidErrorFromLambdaParam *);
    (71, (str "ErrorCodes: ")) (* func_literal.go:224 InvalidErrorFromLambdaParam2 *);
    (72, (str "ErrorType{Field:{Name:""TheCode"", Position:0}, Codes:}")) (* func_literal.go:232 Error *)].
Proof. vm_compute. split; reflexivity. Qed.

(** The presuppositions of the general theorems that this package satisfies (not: package_usable, recursion_check). *)
Theorem t_func_literal_presuppositions :
  (forall fa, literals_apart t_func_literal (collectFunctions t_func_literal) fa) /\
  types_usable t_func_literal /\
  (forall w n, occurs t_func_literal w n -> ~ ill_formed t_func_literal w n) /\
  distinct_definitions t_func_literal /\
  interfaces_ok t_func_literal /\
  uses_resolved t_func_literal (collectFunctions t_func_literal) /\
  (forall g fn, pk_funcs t_func_literal !! g = Some fn -> disciplined t_func_literal (facts_after_test (run_test t_func_literal ascending (facts_after_test (run_test t_func_literal_inner ascending (Facts ∅ ∅ ∅ ∅))))) fn /\ resolved t_func_literal (collectFunctions t_func_literal) (facts_after_test (run_test t_func_literal ascending (facts_after_test (run_test t_func_literal_inner ascending (Facts ∅ ∅ ∅ ∅))))) fn) /\
  Forall layout t_func_literal_files.
Proof.
  split_and!.
  - intros fa; apply apart_spec; vm_compute; reflexivity.
  - apply types_ok_spec; vm_compute; reflexivity.
  - apply package_formed_spec; vm_compute; reflexivity.
  - apply definitions_check_spec; vm_compute; reflexivity.
  - apply (interfaces_check_spec t_func_literal t_func_literal_rank); vm_compute; reflexivity.
  - apply uses_check_spec; vm_compute; reflexivity.
  - intros g fn; apply sound_ok_spec; vm_compute; reflexivity.
  - apply layouts_spec; vm_compute; reflexivity.
Qed.
