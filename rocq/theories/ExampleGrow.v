(** * The presuppositions of PropGrow.v are satisfiable: a package, and what its dependency declares.  The data is generated from
    tools/sources/growdep/growdep.go and tools/sources/grow/grow.go by tools/grow_example.py. *)
From Coq Require Import Ascii String.
From stdpp Require Import base list gmap.
From Verif Require Import GoString Scc Engine Constant CommentText CommentMap Phase FactText Conform GoAst.
Local Open Scope N_scope.
Definition t_growdep_f1 : func := Func 11 (Some (DeclInfo (Ident 17 (str "Code") None) (Some [(Field 13 [(Ident 14 (str "e") (Some 1))] 15)]) None)) (FuncType 18 [] (Some [(Field 21 [] 22)]) 80) (Some (Node 23 (KOther (str "*ast.BlockStmt")) [(Node 24 KReturn [(Node 25 KSelector [(Node 26 (KIdent (str "e") (Some 1)) []); (Node 27 (KIdent (str "TheCode") None) [])])])])) 101 121.
Definition t_growdep_f2 : func := Func 28 (Some (DeclInfo (Ident 34 (str "Message") None) (Some [(Field 30 [(Ident 31 (str "e") (Some 2))] 32)]) None)) (FuncType 35 [] (Some [(Field 38 [] 39)]) 148) (Some (Node 40 (KOther (str "*ast.BlockStmt")) [(Node 41 KReturn [(Node 42 KSelector [(Node 43 (KIdent (str "e") (Some 2)) []); (Node 44 (KIdent (str "TheCode") None) [])])])])) 166 186.
Definition t_growdep_f3 : func := Func 45 (Some (DeclInfo (Ident 51 (str "Details") None) (Some [(Field 47 [(Ident 48 (str "e") (Some 3))] 49)]) None)) (FuncType 52 [] (Some [(Field 55 [] 56)]) 213) (Some (Node 59 (KOther (str "*ast.BlockStmt")) [(Node 60 KReturn [(Node 61 (KIdent (str "nil") None) [])])])) 231 245.
Definition t_growdep_f4 : func := Func 62 (Some (DeclInfo (Ident 68 (str "Cause") None) (Some [(Field 64 [(Ident 65 (str "e") (Some 4))] 66)]) None)) (FuncType 69 [] (Some [(Field 72 [] 73)]) 270) (Some (Node 74 (KOther (str "*ast.BlockStmt")) [(Node 75 KReturn [(Node 76 (KIdent (str "nil") None) [])])])) 290 304.
Definition t_growdep_f5 : func := Func 77 (Some (DeclInfo (Ident 83 (str "Error") None) (Some [(Field 79 [(Ident 80 (str "e") (Some 5))] 81)]) None)) (FuncType 84 [] (Some [(Field 87 [] 88)]) 329) (Some (Node 89 (KOther (str "*ast.BlockStmt")) [(Node 90 KReturn [(Node 91 KCall [(Node 92 KSelector [(Node 93 (KIdent (str "e") (Some 5)) []); (Node 94 (KIdent (str "Message") None) [])])])])])) 349 371.
Definition t_growdep_f6 : func := Func 95 (Some (DeclInfo (Ident 96 (str "Read") (Some 6)) None (Some (comment_text [(str "// Errors:"); (str "//"); (str "//    - dep-missing --")])))) (FuncType 97 [] (Some [(Field 100 [] 101)]) 422) (Some (Node 102 (KOther (str "*ast.BlockStmt")) [(Node 103 KReturn [(Node 104 (KUnary true) [(Node 105 KComposite [(Node 107 KBasicLit [])])])])])) 428 461.
Definition t_growdep_f7 : func := Func 108 (Some (DeclInfo (Ident 109 (str "Write") (Some 7)) None (Some (comment_text [(str "// Errors:"); (str "//"); (str "//    - dep-closed --")])))) (FuncType 110 [] (Some [(Field 113 [] 114)]) 512) (Some (Node 115 (KOther (str "*ast.BlockStmt")) [(Node 116 KReturn [(Node 117 (KUnary true) [(Node 118 KComposite [(Node 120 KBasicLit [])])])])])) 518 550.
Definition t_growdep_f8 : func := Func 126 (Some (DeclInfo (Ident 132 (str "Code") None) (Some [(Field 128 [(Ident 129 (str "e") (Some 8))] 130)]) None)) (FuncType 133 [] (Some [(Field 136 [] 137)]) 594) (Some (Node 138 (KOther (str "*ast.BlockStmt")) [(Node 139 KReturn [(Node 140 KBasicLit [])])])) 615 636.
Definition t_growdep_f9 : func := Func 141 (Some (DeclInfo (Ident 147 (str "Message") None) (Some [(Field 143 [(Ident 144 (str "e") (Some 9))] 145)]) None)) (FuncType 148 [] (Some [(Field 151 [] 152)]) 662) (Some (Node 153 (KOther (str "*ast.BlockStmt")) [(Node 154 KReturn [(Node 155 KBasicLit [])])])) 680 697.
Definition t_growdep_f10 : func := Func 156 (Some (DeclInfo (Ident 162 (str "Details") None) (Some [(Field 158 [(Ident 159 (str "e") (Some 10))] 160)]) None)) (FuncType 163 [] (Some [(Field 166 [] 167)]) 723) (Some (Node 170 (KOther (str "*ast.BlockStmt")) [(Node 171 KReturn [(Node 172 (KIdent (str "nil") None) [])])])) 741 755.
Definition t_growdep_f11 : func := Func 173 (Some (DeclInfo (Ident 179 (str "Cause") None) (Some [(Field 175 [(Ident 176 (str "e") (Some 11))] 177)]) None)) (FuncType 180 [] (Some [(Field 183 [] 184)]) 779) (Some (Node 185 (KOther (str "*ast.BlockStmt")) [(Node 186 KReturn [(Node 187 (KIdent (str "nil") None) [])])])) 799 813.
Definition t_growdep_f12 : func := Func 188 (Some (DeclInfo (Ident 194 (str "Error") None) (Some [(Field 190 [(Ident 191 (str "e") (Some 12))] 192)]) None)) (FuncType 195 [] (Some [(Field 198 [] 199)]) 837) (Some (Node 200 (KOther (str "*ast.BlockStmt")) [(Node 201 KReturn [(Node 202 KCall [(Node 203 KSelector [(Node 204 (KIdent (str "e") (Some 12)) []); (Node 205 (KIdent (str "Message") None) [])])])])])) 857 879.
Definition t_growdep_gendecls : list gendecl := [GenDecl 3 [(Some (TypeSpec (Ident 5 (str "Error") (Some 13)) (XStruct [[(Ident 9 (str "TheCode") None)]])))]; GenDecl 121 [(Some (TypeSpec (Ident 123 (str "Full") (Some 14)) (XStruct [])))]; GenDecl 206 [(Some (TypeSpec (Ident 208 (str "Store") (Some 15)) (XInterface 209 [IMethod 211 (Ident 212 (str "Save") None) (Some (comment_text [(str "// Errors:"); (str "//"); (str "//    - dep-store --")])) (FuncType 213 [] (Some [(Field 216 [] 217)]) 950)])))]].
Definition t_growdep_top : list topdecl := [TopNode (Node 3 (KOther (str "*ast.GenDecl")) [(Node 4 (KOther (str "*ast.TypeSpec")) [])]); TopFunc 1; TopFunc 2; TopFunc 3; TopFunc 4; TopFunc 5; TopFunc 6; TopFunc 7; TopNode (Node 121 (KOther (str "*ast.GenDecl")) [(Node 122 (KOther (str "*ast.TypeSpec")) [])]); TopFunc 8; TopFunc 9; TopFunc 10; TopFunc 11; TopFunc 12; TopNode (Node 206 (KOther (str "*ast.GenDecl")) [(Node 207 (KOther (str "*ast.TypeSpec")) [])])].
Definition t_growdep_objs : list (N * object) := [(1, Object true 63 DOther); (2, Object true 128 DOther); (3, Object true 193 DOther); (4, Object true 252 DOther); (5, Object true 311 DOther); (6, Object false 415 (DFunc 6)); (7, Object false 504 (DFunc 7)); (8, Object true 578 DOther); (9, Object true 643 DOther); (10, Object true 704 DOther); (11, Object true 762 DOther); (12, Object true 820 DOther); (13, Object false 23 DType); (14, Object false 557 DType); (15, Object false 886 DType)].
Definition t_growdep_types : list (N * gotype) := [(5, (TNamed 47)); (6, (TStruct [((str "TheCode"), (TBasic (str "string")))])); (9, (TBasic (str "string"))); (10, (TBasic (str "string"))); (14, (TPointer (TNamed 47))); (15, (TPointer (TNamed 47))); (16, (TNamed 47)); (18, (TSignature [] [(TBasic (str "string"))] false)); (22, (TBasic (str "string"))); (25, (TBasic (str "string"))); (26, (TPointer (TNamed 47))); (27, (TBasic (str "string"))); (31, (TPointer (TNamed 47))); (32, (TPointer (TNamed 47))); (33, (TNamed 47)); (35, (TSignature [] [(TBasic (str "string"))] false)); (39, (TBasic (str "string"))); (42, (TBasic (str "string"))); (43, (TPointer (TNamed 47))); (44, (TBasic (str "string"))); (48, (TPointer (TNamed 47))); (49, (TPointer (TNamed 47))); (50, (TNamed 47)); (52, (TSignature [] [(TMap (TBasic (str "string")) (TBasic (str "string")))] false)); (56, (TMap (TBasic (str "string")) (TBasic (str "string")))); (57, (TBasic (str "string"))); (58, (TBasic (str "string"))); (61, TUntypedNil); (65, (TPointer (TNamed 47))); (66, (TPointer (TNamed 47))); (67, (TNamed 47)); (69, (TSignature [] [(TNamed 1)] false)); (73, (TNamed 1)); (76, TUntypedNil); (80, (TPointer (TNamed 47))); (81, (TPointer (TNamed 47))); (82, (TNamed 47)); (84, (TSignature [] [(TBasic (str "string"))] false)); (88, (TBasic (str "string"))); (91, (TBasic (str "string"))); (92, (TSignature [] [(TBasic (str "string"))] false)); (93, (TPointer (TNamed 47))); (94, (TSignature [] [(TBasic (str "string"))] false)); (97, (TSignature [] [(TNamed 1)] false)); (101, (TNamed 1)); (104, (TPointer (TNamed 47))); (105, (TNamed 47)); (106, (TNamed 47)); (107, (TBasic (str "string"))); (110, (TSignature [] [(TNamed 1)] false)); (114, (TNamed 1)); (117, (TPointer (TNamed 47))); (118, (TNamed 47)); (119, (TNamed 47)); (120, (TBasic (str "string"))); (123, (TNamed 55)); (124, (TStruct [])); (129, (TPointer (TNamed 55))); (130, (TPointer (TNamed 55))); (131, (TNamed 55)); (133, (TSignature [] [(TBasic (str "string"))] false)); (137, (TBasic (str "string"))); (140, (TBasic (str "string"))); (144, (TPointer (TNamed 55))); (145, (TPointer (TNamed 55))); (146, (TNamed 55)); (148, (TSignature [] [(TBasic (str "string"))] false)); (152, (TBasic (str "string"))); (155, (TBasic (str "string"))); (159, (TPointer (TNamed 55))); (160, (TPointer (TNamed 55))); (161, (TNamed 55)); (163, (TSignature [] [(TMap (TBasic (str "string")) (TBasic (str "string")))] false)); (167, (TMap (TBasic (str "string")) (TBasic (str "string")))); (168, (TBasic (str "string"))); (169, (TBasic (str "string"))); (172, TUntypedNil); (176, (TPointer (TNamed 55))); (177, (TPointer (TNamed 55))); (178, (TNamed 55)); (180, (TSignature [] [(TNamed 1)] false)); (184, (TNamed 1)); (187, TUntypedNil); (191, (TPointer (TNamed 55))); (192, (TPointer (TNamed 55))); (193, (TNamed 55)); (195, (TSignature [] [(TBasic (str "string"))] false)); (199, (TBasic (str "string"))); (202, (TBasic (str "string"))); (203, (TSignature [] [(TBasic (str "string"))] false)); (204, (TPointer (TNamed 55))); (205, (TSignature [] [(TBasic (str "string"))] false)); (208, (TNamed 61)); (209, (TInterface 5)); (212, (TSignature [] [(TNamed 1)] false)); (213, (TSignature [] [(TNamed 1)] false)); (217, (TNamed 1))].
Definition t_growdep_values : list (N * constval) := [(107, CString (str "dep-missing")); (120, CString (str "dep-closed")); (140, CString (str "dep-full")); (155, CString (str "full"))].
Definition t_growdep_uses : list (N * tobj) := [(10, 5); (16, 47); (22, 5); (26, 62); (27, 73); (33, 47); (39, 5); (43, 63); (44, 73); (50, 47); (57, 5); (58, 5); (61, 24); (67, 47); (73, 1); (76, 24); (82, 47); (88, 5); (93, 66); (94, 49); (101, 1); (106, 47); (114, 1); (119, 47); (131, 55); (137, 5); (146, 55); (152, 5); (161, 55); (168, 5); (169, 5); (172, 24); (178, 55); (184, 1); (187, 24); (193, 55); (199, 5); (204, 71); (205, 57); (217, 1)].
Definition t_growdep_defs : list (N * tobj) := [(5, 47); (14, 62); (17, 48); (31, 63); (34, 49); (48, 64); (51, 50); (65, 65); (68, 51); (80, 66); (83, 52); (96, 53); (109, 54); (123, 55); (129, 67); (132, 56); (144, 68); (147, 57); (159, 69); (162, 58); (176, 70); (179, 59); (191, 71); (194, 60); (208, 61); (212, 72)].
Definition t_growdep_sels : list (N * (tobj * gotype)) := [(25, (73, (TPointer (TNamed 47)))); (42, (73, (TPointer (TNamed 47)))); (92, (49, (TPointer (TNamed 47)))); (203, (57, (TPointer (TNamed 55))))].
Definition t_growdep_pkgnames : list (N * gostring) := [].
Definition t_growdep_objnames : list (N * gostring) := [(1, (str "error")); (2, (str "Error")); (3, (str "?")); (4, (str "bool")); (5, (str "string")); (6, (str "int")); (7, (str "int8")); (8, (str "int16")); (9, (str "int32")); (10, (str "int64")); (11, (str "uint")); (12, (str "uint8")); (13, (str "uint16")); (14, (str "uint32")); (15, (str "uint64")); (16, (str "uintptr")); (17, (str "float32")); (18, (str "float64")); (19, (str "complex64")); (20, (str "complex128")); (21, (str "true")); (22, (str "false")); (23, (str "iota")); (24, (str "nil")); (25, (str "append")); (26, (str "cap")); (27, (str "close")); (28, (str "complex")); (29, (str "copy")); (30, (str "delete")); (31, (str "imag")); (32, (str "len")); (33, (str "make")); (34, (str "new")); (35, (str "panic")); (36, (str "print")); (37, (str "println")); (38, (str "real")); (39, (str "recover")); (40, (str "Errorf")); (41, (str "Sprintf")); (42, (str "Println")); (43, (str "New")); (44, (str "HasPrefix")); (45, (str "Float32")); (46, (str "Float64")); (47, (str "Error")); (48, (str "Code")); (49, (str "Message")); (50, (str "Details")); (51, (str "Cause")); (52, (str "Error")); (53, (str "Read")); (54, (str "Write")); (55, (str "Full")); (56, (str "Code")); (57, (str "Message")); (58, (str "Details")); (59, (str "Cause")); (60, (str "Error")); (61, (str "Store")); (62, (str "e")); (63, (str "e")); (64, (str "e")); (65, (str "e")); (66, (str "e")); (67, (str "e")); (68, (str "e")); (69, (str "e")); (70, (str "e")); (71, (str "e")); (72, (str "Save")); (73, (str "TheCode")); (74, (str "growdep")); (75, (str "Copy")); (76, (str "Put")); (77, (str "put")); (78, (str "Fill")); (79, (str "Journal")); (80, (str "Keep")); (81, (str "s")); (82, (str "err")); (83, (str "err"))].
Definition t_growdep_objtypes : list (N * gotype) := [(1, (TNamed 1)); (2, (TSignature [] [(TBasic (str "string"))] false)); (4, (TBasic (str "bool"))); (5, (TBasic (str "string"))); (6, (TBasic (str "int"))); (7, (TBasic (str "int8"))); (8, (TBasic (str "int16"))); (9, (TBasic (str "int32"))); (10, (TBasic (str "int64"))); (11, (TBasic (str "uint"))); (12, (TBasic (str "uint8"))); (13, (TBasic (str "uint16"))); (14, (TBasic (str "uint32"))); (15, (TBasic (str "uint64"))); (16, (TBasic (str "uintptr"))); (17, (TBasic (str "float32"))); (18, (TBasic (str "float64"))); (19, (TBasic (str "complex64"))); (20, (TBasic (str "complex128"))); (40, (TSignature [(TBasic (str "string")); (TSlice (TInterface 4))] [(TNamed 1)] true)); (41, (TSignature [(TBasic (str "string")); (TSlice (TInterface 4))] [(TBasic (str "string"))] true)); (42, (TSignature [(TSlice (TInterface 4))] [(TBasic (str "int")); (TNamed 1)] true)); (43, (TSignature [(TBasic (str "string"))] [(TNamed 1)] false)); (44, (TSignature [(TBasic (str "string")); (TBasic (str "string"))] [(TBasic (str "bool"))] false)); (45, (TSignature [] [(TBasic (str "float32"))] false)); (46, (TSignature [] [(TBasic (str "float64"))] false)); (47, (TNamed 47)); (48, (TSignature [] [(TBasic (str "string"))] false)); (49, (TSignature [] [(TBasic (str "string"))] false)); (50, (TSignature [] [(TMap (TBasic (str "string")) (TBasic (str "string")))] false)); (51, (TSignature [] [(TNamed 1)] false)); (52, (TSignature [] [(TBasic (str "string"))] false)); (53, (TSignature [] [(TNamed 1)] false)); (54, (TSignature [] [(TNamed 1)] false)); (55, (TNamed 55)); (56, (TSignature [] [(TBasic (str "string"))] false)); (57, (TSignature [] [(TBasic (str "string"))] false)); (58, (TSignature [] [(TMap (TBasic (str "string")) (TBasic (str "string")))] false)); (59, (TSignature [] [(TNamed 1)] false)); (60, (TSignature [] [(TBasic (str "string"))] false)); (61, (TNamed 61)); (62, (TPointer (TNamed 47))); (63, (TPointer (TNamed 47))); (64, (TPointer (TNamed 47))); (65, (TPointer (TNamed 47))); (66, (TPointer (TNamed 47))); (67, (TPointer (TNamed 55))); (68, (TPointer (TNamed 55))); (69, (TPointer (TNamed 55))); (70, (TPointer (TNamed 55))); (71, (TPointer (TNamed 55))); (72, (TSignature [] [(TNamed 1)] false)); (73, (TBasic (str "string"))); (75, (TSignature [] [(TNamed 1)] false)); (76, (TSignature [] [(TNamed 1)] false)); (77, (TSignature [] [(TNamed 1)] false)); (78, (TSignature [] [(TNamed 1)] false)); (79, (TNamed 79)); (80, (TSignature [(TNamed 79)] [(TNamed 1)] false)); (81, (TNamed 79)); (82, (TNamed 1)); (83, (TNamed 1))].
Definition t_growdep_under : list (N * gotype) := [(1, (TInterface 1)); (47, (TStruct [((str "TheCode"), (TBasic (str "string")))])); (55, (TStruct [])); (61, (TInterface 5)); (79, (TInterface 5))].
Definition t_growdep_named_methods : list (N * (list gostring)) := [(47, [(str "Code"); (str "Message"); (str "Details"); (str "Cause"); (str "Error")]); (55, [(str "Code"); (str "Message"); (str "Details"); (str "Cause"); (str "Error")])].
Definition t_growdep_methods : list (gotype * gostring * tobj) := [((TInterface 1), (str "Error"), 2); ((TInterface 5), (str "Save"), 72); ((TNamed 1), (str "Error"), 2); ((TNamed 61), (str "Save"), 72); ((TNamed 79), (str "Save"), 72); ((TPointer (TNamed 47)), (str "Cause"), 51); ((TPointer (TNamed 47)), (str "Code"), 48); ((TPointer (TNamed 47)), (str "Details"), 50); ((TPointer (TNamed 47)), (str "Error"), 52); ((TPointer (TNamed 47)), (str "Message"), 49); ((TPointer (TNamed 55)), (str "Cause"), 59); ((TPointer (TNamed 55)), (str "Code"), 56); ((TPointer (TNamed 55)), (str "Details"), 58); ((TPointer (TNamed 55)), (str "Error"), 60); ((TPointer (TNamed 55)), (str "Message"), 57)].
Definition t_growdep_ierr : list gotype := [(TInterface 1); (TNamed 1); (TPointer (TNamed 47)); (TPointer (TNamed 55))].
Definition t_growdep_iree : list gotype := [(TPointer (TNamed 47)); (TPointer (TNamed 55))].
Definition t_growdep_icause : list gotype := [(TPointer (TNamed 47)); (TPointer (TNamed 55))].
Definition t_growdep_impl : list (gotype * gotype) := [((TInterface 1), (TInterface 1)); ((TInterface 5), (TInterface 5)); ((TNamed 1), (TInterface 1)); ((TNamed 61), (TInterface 5)); ((TNamed 79), (TInterface 5)); ((TPointer (TNamed 47)), (TInterface 1)); ((TPointer (TNamed 55)), (TInterface 1))].
Definition t_growdep_nodes0 : list snode := [SNode 1 (Place 0 1) (Place 956 40) true; SNode 2 (Place 8 1) (Place 15 1) false; SNode 3 (Place 17 3) (Place 54 5) true; SNode 4 (Place 22 3) (Place 54 5) true; SNode 5 (Place 22 3) (Place 27 3) false; SNode 6 (Place 28 3) (Place 54 5) false; SNode 7 (Place 35 3) (Place 54 5) false; SNode 8 (Place 38 4) (Place 52 4) true; SNode 9 (Place 38 4) (Place 45 4) false; SNode 10 (Place 46 4) (Place 52 4) false; SNode 11 (Place 56 7) (Place 120 7) true; SNode 12 (Place 61 7) (Place 71 7) false; SNode 13 (Place 62 7) (Place 70 7) true; SNode 14 (Place 62 7) (Place 63 7) false; SNode 15 (Place 64 7) (Place 70 7) false; SNode 16 (Place 65 7) (Place 70 7) false; SNode 17 (Place 72 7) (Place 76 7) false; SNode 18 (Place 56 7) (Place 85 7) false; SNode 19 (Place 76 7) (Place 78 7) false; SNode 20 (Place 79 7) (Place 85 7) false; SNode 21 (Place 79 7) (Place 85 7) true; SNode 22 (Place 79 7) (Place 85 7) false; SNode 23 (Place 100 7) (Place 120 7) true; SNode 24 (Place 102 7) (Place 118 7) true; SNode 25 (Place 109 7) (Place 118 7) false; SNode 26 (Place 109 7) (Place 110 7) false; SNode 27 (Place 111 7) (Place 118 7) false; SNode 28 (Place 121 8) (Place 185 8) true; SNode 29 (Place 126 8) (Place 136 8) false; SNode 30 (Place 127 8) (Place 135 8) true; SNode 31 (Place 127 8) (Place 128 8) false; SNode 32 (Place 129 8) (Place 135 8) false; SNode 33 (Place 130 8) (Place 135 8) false; SNode 34 (Place 137 8) (Place 144 8) false; SNode 35 (Place 121 8) (Place 153 8) false; SNode 36 (Place 144 8) (Place 146 8) false; SNode 37 (Place 147 8) (Place 153 8) false; SNode 38 (Place 147 8) (Place 153 8) true; SNode 39 (Place 147 8) (Place 153 8) false; SNode 40 (Place 165 8) (Place 185 8) true; SNode 41 (Place 167 8) (Place 183 8) true; SNode 42 (Place 174 8) (Place 183 8) false; SNode 43 (Place 174 8) (Place 175 8) false; SNode 44 (Place 176 8) (Place 183 8) false; SNode 45 (Place 186 9) (Place 244 9) true; SNode 46 (Place 191 9) (Place 201 9) false; SNode 47 (Place 192 9) (Place 200 9) true; SNode 48 (Place 192 9) (Place 193 9) false; SNode 49 (Place 194 9) (Place 200 9) false; SNode 50 (Place 195 9) (Place 200 9) false; SNode 51 (Place 202 9) (Place 209 9) false; SNode 52 (Place 186 9) (Place 229 9) false; SNode 53 (Place 209 9) (Place 211 9) false; SNode 54 (Place 212 9) (Place 229 9) false; SNode 55 (Place 212 9) (Place 229 9) true; SNode 56 (Place 212 9) (Place 229 9) false; SNode 57 (Place 216 9) (Place 222 9) false; SNode 58 (Place 223 9) (Place 229 9) false; SNode 59 (Place 230 9) (Place 244 9) true; SNode 60 (Place 232 9) (Place 242 9) true; SNode 61 (Place 239 9) (Place 242 9) false; SNode 62 (Place 245 10) (Place 303 10) true; SNode 63 (Place 250 10) (Place 260 10) false; SNode 64 (Place 251 10) (Place 259 10) true; SNode 65 (Place 251 10) (Place 252 10) false; SNode 66 (Place 253 10) (Place 259 10) false; SNode 67 (Place 254 10) (Place 259 10) false; SNode 68 (Place 261 10) (Place 266 10) false; SNode 69 (Place 245 10) (Place 274 10) false; SNode 70 (Place 266 10) (Place 268 10) false; SNode 71 (Place 269 10) (Place 274 10) false; SNode 72 (Place 269 10) (Place 274 10) true; SNode 73 (Place 269 10) (Place 274 10) false; SNode 74 (Place 289 10) (Place 303 10) true; SNode 75 (Place 291 10) (Place 301 10) true; SNode 76 (Place 298 10) (Place 301 10) false; SNode 77 (Place 304 11) (Place 370 11) true; SNode 78 (Place 309 11) (Place 319 11) false; SNode 79 (Place 310 11) (Place 318 11) true; SNode 80 (Place 310 11) (Place 311 11) false; SNode 81 (Place 312 11) (Place 318 11) false; SNode 82 (Place 313 11) (Place 318 11) false; SNode 83 (Place 320 11) (Place 325 11) false; SNode 84 (Place 304 11) (Place 334 11) false; SNode 85 (Place 325 11) (Place 327 11) false; SNode 86 (Place 328 11) (Place 334 11) false; SNode 87 (Place 328 11) (Place 334 11) true; SNode 88 (Place 328 11) (Place 334 11) false; SNode 89 (Place 348 11) (Place 370 11) true; SNode 90 (Place 350 11) (Place 368 11) true; SNode 91 (Place 357 11) (Place 368 11) false; SNode 92 (Place 357 11) (Place 366 11) false; SNode 93 (Place 357 11) (Place 358 11) false; SNode 94 (Place 359 11) (Place 366 11) false; SNode 95 (Place 409 16) (Place 460 18) true; SNode 96 (Place 414 16) (Place 418 16) false; SNode 97 (Place 409 16) (Place 426 16) false; SNode 98 (Place 418 16) (Place 420 16) false; SNode 99 (Place 421 16) (Place 426 16) false; SNode 100 (Place 421 16) (Place 426 16) true; SNode 101 (Place 421 16) (Place 426 16) false; SNode 102 (Place 427 16) (Place 460 18) true; SNode 103 (Place 430 17) (Place 458 17) true; SNode 104 (Place 437 17) (Place 458 17) false; SNode 105 (Place 438 17) (Place 458 17) false; SNode 106 (Place 438 17) (Place 443 17) false; SNode 107 (Place 444 17) (Place 457 17) false; SNode 108 (Place 498 23) (Place 549 25) true; SNode 109 (Place 503 23) (Place 508 23) false; SNode 110 (Place 498 23) (Place 516 23) false; SNode 111 (Place 508 23) (Place 510 23) false; SNode 112 (Place 511 23) (Place 516 23) false; SNode 113 (Place 511 23) (Place 516 23) true; SNode 114 (Place 511 23) (Place 516 23) false; SNode 115 (Place 517 23) (Place 549 25) true; SNode 116 (Place 520 24) (Place 547 24) true; SNode 117 (Place 527 24) (Place 547 24) false; SNode 118 (Place 528 24) (Place 547 24) false; SNode 119 (Place 528 24) (Place 533 24) false; SNode 120 (Place 534 24) (Place 546 24) false; SNode 121 (Place 551 27) (Place 569 27) true; SNode 122 (Place 556 27) (Place 569 27) true; SNode 123 (Place 556 27) (Place 560 27) false; SNode 124 (Place 561 27) (Place 569 27) false; SNode 125 (Place 567 27) (Place 569 27) false; SNode 126 (Place 571 29) (Place 635 29) true; SNode 127 (Place 576 29) (Place 585 29) false; SNode 128 (Place 577 29) (Place 584 29) true; SNode 129 (Place 577 29) (Place 578 29) false; SNode 130 (Place 579 29) (Place 584 29) false; SNode 131 (Place 580 29) (Place 584 29) false; SNode 132 (Place 586 29) (Place 590 29) false; SNode 133 (Place 571 29) (Place 599 29) false; SNode 134 (Place 590 29) (Place 592 29) false; SNode 135 (Place 593 29) (Place 599 29) false; SNode 136 (Place 593 29) (Place 599 29) true; SNode 137 (Place 593 29) (Place 599 29) false; SNode 138 (Place 614 29) (Place 635 29) true; SNode 139 (Place 616 29) (Place 633 29) true; SNode 140 (Place 623 29) (Place 633 29) false; SNode 141 (Place 636 30) (Place 696 30) true; SNode 142 (Place 641 30) (Place 650 30) false; SNode 143 (Place 642 30) (Place 649 30) true; SNode 144 (Place 642 30) (Place 643 30) false; SNode 145 (Place 644 30) (Place 649 30) false; SNode 146 (Place 645 30) (Place 649 30) false; SNode 147 (Place 651 30) (Place 658 30) false; SNode 148 (Place 636 30) (Place 667 30) false; SNode 149 (Place 658 30) (Place 660 30) false; SNode 150 (Place 661 30) (Place 667 30) false; SNode 151 (Place 661 30) (Place 667 30) true; SNode 152 (Place 661 30) (Place 667 30) false; SNode 153 (Place 679 30) (Place 696 30) true; SNode 154 (Place 681 30) (Place 694 30) true; SNode 155 (Place 688 30) (Place 694 30) false; SNode 156 (Place 697 31) (Place 754 31) true; SNode 157 (Place 702 31) (Place 711 31) false; SNode 158 (Place 703 31) (Place 710 31) true; SNode 159 (Place 703 31) (Place 704 31) false; SNode 160 (Place 705 31) (Place 710 31) false; SNode 161 (Place 706 31) (Place 710 31) false; SNode 162 (Place 712 31) (Place 719 31) false; SNode 163 (Place 697 31) (Place 739 31) false; SNode 164 (Place 719 31) (Place 721 31) false; SNode 165 (Place 722 31) (Place 739 31) false; SNode 166 (Place 722 31) (Place 739 31) true; SNode 167 (Place 722 31) (Place 739 31) false; SNode 168 (Place 726 31) (Place 732 31) false; SNode 169 (Place 733 31) (Place 739 31) false; SNode 170 (Place 740 31) (Place 754 31) true; SNode 171 (Place 742 31) (Place 752 31) true; SNode 172 (Place 749 31) (Place 752 31) false; SNode 173 (Place 755 32) (Place 812 32) true; SNode 174 (Place 760 32) (Place 769 32) false; SNode 175 (Place 761 32) (Place 768 32) true; SNode 176 (Place 761 32) (Place 762 32) false; SNode 177 (Place 763 32) (Place 768 32) false; SNode 178 (Place 764 32) (Place 768 32) false; SNode 179 (Place 770 32) (Place 775 32) false; SNode 180 (Place 755 32) (Place 783 32) false; SNode 181 (Place 775 32) (Place 777 32) false; SNode 182 (Place 778 32) (Place 783 32) false; SNode 183 (Place 778 32) (Place 783 32) true; SNode 184 (Place 778 32) (Place 783 32) false; SNode 185 (Place 798 32) (Place 812 32) true; SNode 186 (Place 800 32) (Place 810 32) true; SNode 187 (Place 807 32) (Place 810 32) false; SNode 188 (Place 813 33) (Place 878 33) true; SNode 189 (Place 818 33) (Place 827 33) false; SNode 190 (Place 819 33) (Place 826 33) true; SNode 191 (Place 819 33) (Place 820 33) false; SNode 192 (Place 821 33) (Place 826 33) false; SNode 193 (Place 822 33) (Place 826 33) false; SNode 194 (Place 828 33) (Place 833 33) false; SNode 195 (Place 813 33) (Place 842 33) false; SNode 196 (Place 833 33) (Place 835 33) false; SNode 197 (Place 836 33) (Place 842 33) false; SNode 198 (Place 836 33) (Place 842 33) true; SNode 199 (Place 836 33) (Place 842 33) false; SNode 200 (Place 856 33) (Place 878 33) true; SNode 201 (Place 858 33) (Place 876 33) true; SNode 202 (Place 865 33) (Place 876 33) false; SNode 203 (Place 865 33) (Place 874 33) false; SNode 204 (Place 865 33) (Place 866 33) false; SNode 205 (Place 867 33) (Place 874 33) false; SNode 206 (Place 880 35) (Place 956 40) true; SNode 207 (Place 885 35) (Place 956 40) true; SNode 208 (Place 885 35) (Place 890 35) false; SNode 209 (Place 891 35) (Place 956 40) false; SNode 210 (Place 901 35) (Place 956 40) false; SNode 211 (Place 942 39) (Place 954 39) true; SNode 212 (Place 942 39) (Place 946 39) false; SNode 213 (Place 946 39) (Place 954 39) false; SNode 214 (Place 946 39) (Place 948 39) false; SNode 215 (Place 949 39) (Place 954 39) false; SNode 216 (Place 949 39) (Place 954 39) true; SNode 217 (Place 949 39) (Place 954 39) false].
Definition t_growdep_cgroups0 : list cgroup := [CGroup (Place 372 13) (Place 408 15) [(str "// Errors:"); (str "//"); (str "//    - dep-missing --")]; CGroup (Place 462 20) (Place 497 22) [(str "// Errors:"); (str "//"); (str "//    - dep-closed --")]; CGroup (Place 904 36) (Place 940 38) [(str "// Errors:"); (str "//"); (str "//    - dep-store --")]].
Definition t_growdep_files : list source_file := [SourceFile t_growdep_nodes0 t_growdep_cgroups0].
Definition t_growdep_info : typeinfo := map_info (list_to_map t_growdep_types) (list_to_map t_growdep_values) (list_to_map t_growdep_uses) (list_to_map t_growdep_defs) (list_to_map t_growdep_sels) (list_to_set [1; 4; 5; 6; 7; 8; 9; 10; 11; 12; 13; 14; 15; 16; 17; 18; 19; 20; 47; 55; 61; 79]) (list_to_map t_growdep_pkgnames) (list_to_map t_growdep_objnames) (list_to_map t_growdep_objtypes) (list_to_map t_growdep_under) t_growdep_methods t_growdep_ierr t_growdep_iree t_growdep_icause t_growdep_impl (list_to_map t_growdep_named_methods).
Definition t_growdep : package := Package (list_to_map [(1, t_growdep_f1); (2, t_growdep_f2); (3, t_growdep_f3); (4, t_growdep_f4); (5, t_growdep_f5); (6, t_growdep_f6); (7, t_growdep_f7); (8, t_growdep_f8); (9, t_growdep_f9); (10, t_growdep_f10); (11, t_growdep_f11); (12, t_growdep_f12)]) [1; 2; 3; 4; 5; 6; 7; 8; 9; 10; 11; 12] t_growdep_gendecls t_growdep_top (list_to_map t_growdep_objs) (fun id => default [] (createCommentMap t_growdep_files id)) t_growdep_info.
Definition t_growdep_rank : gostring -> nat := fun n => default 0%nat ((list_to_map [((str "Store"), 1%nat)] : gmap gostring nat) !! n).

Definition t_grow_f1 : func := Func 6 (Some (DeclInfo (Ident 7 (str "Copy") (Some 1)) None (Some (comment_text [(str "// Errors:"); (str "//"); (str "//    - dep-missing --"); (str "//    - dep-closed  --")])))) (FuncType 8 [] (Some [(Field 11 [] 12)]) 105) (Some (Node 13 (KOther (str "*ast.BlockStmt")) [(Node 14 (KOther (str "*ast.IfStmt")) [(Node 15 (KAssign 1%nat) [(Node 16 (KIdent (str "err") (Some 2)) []); (Node 17 KCall [(Node 18 KSelector [(Node 19 (KIdent (str "growdep") None) []); (Node 20 (KIdent (str "Read") None) [])])])]); (Node 21 (KOther (str "*ast.BinaryExpr")) [(Node 22 (KIdent (str "err") (Some 2)) []); (Node 23 (KIdent (str "nil") None) [])]); (Node 24 (KOther (str "*ast.BlockStmt")) [(Node 25 KReturn [(Node 26 (KIdent (str "err") (Some 2)) [])])])]); (Node 27 KReturn [(Node 28 KCall [(Node 29 (KIdent (str "put") (Some 3)) [])])])])) 111 184.
Definition t_grow_f2 : func := Func 30 (Some (DeclInfo (Ident 31 (str "Put") (Some 4)) None (Some (comment_text [(str "// Errors:"); (str "//"); (str "//    - dep-closed --")])))) (FuncType 32 [] (Some [(Field 35 [] 36)]) 233) (Some (Node 37 (KOther (str "*ast.BlockStmt")) [(Node 38 KReturn [(Node 39 KCall [(Node 40 (KIdent (str "put") (Some 3)) [])])])])) 239 256.
Definition t_grow_f3 : func := Func 41 (Some (DeclInfo (Ident 42 (str "put") (Some 3)) None None)) (FuncType 43 [] (Some [(Field 46 [] 47)]) 269) (Some (Node 48 (KOther (str "*ast.BlockStmt")) [(Node 49 (KAssign 1%nat) [(Node 50 (KIdent (str "err") (Some 5)) []); (Node 51 KCall [(Node 52 KSelector [(Node 53 (KIdent (str "growdep") None) []); (Node 54 (KIdent (str "Write") None) [])])])]); (Node 55 KReturn [(Node 56 (KIdent (str "err") (Some 5)) [])])])) 275 314.
Definition t_grow_f4 : func := Func 57 (Some (DeclInfo (Ident 58 (str "Fill") (Some 6)) None (Some (comment_text [(str "// Errors:"); (str "//"); (str "//    - dep-full --")])))) (FuncType 59 [] (Some [(Field 62 [] 63)]) 362) (Some (Node 64 (KOther (str "*ast.BlockStmt")) [(Node 65 KReturn [(Node 66 (KUnary true) [(Node 67 KComposite [])])])])) 368 395.
Definition t_grow_f5 : func := Func 80 (Some (DeclInfo (Ident 81 (str "Keep") (Some 7)) None (Some (comment_text [(str "// Errors:"); (str "//"); (str "//    - dep-store --")])))) (FuncType 82 [(Field 84 [(Ident 85 (str "s") (Some 8))] 86)] (Some [(Field 88 [] 89)]) 496) (Some (Node 90 (KOther (str "*ast.BlockStmt")) [(Node 91 KReturn [(Node 92 KCall [(Node 93 KSelector [(Node 94 (KIdent (str "s") (Some 8)) []); (Node 95 (KIdent (str "Save") None) [])])])])])) 502 522.
Definition t_grow_gendecls : list gendecl := [GenDecl 3 [None]; GenDecl 71 [(Some (TypeSpec (Ident 73 (str "Journal") (Some 9)) (XInterface 74 [IEmbedSel 77])))]].
Definition t_grow_top : list topdecl := [TopNode (Node 3 (KOther (str "*ast.GenDecl")) [(Node 4 (KOther (str "*ast.ImportSpec")) [])]); TopFunc 1; TopFunc 2; TopFunc 3; TopFunc 4; TopNode (Node 71 (KOther (str "*ast.GenDecl")) [(Node 72 (KOther (str "*ast.TypeSpec")) [])]); TopFunc 5].
Definition t_grow_objs : list (N * object) := [(1, Object false 98 (DFunc 1)); (2, Object true 117 DOther); (3, Object false 263 (DFunc 3)); (4, Object false 227 (DFunc 2)); (5, Object true 278 DOther); (6, Object false 355 (DFunc 4)); (7, Object false 480 (DFunc 5)); (8, Object true 485 DOther); (9, Object false 402 DType)].
Definition t_grow_types : list (N * gotype) := [(8, (TSignature [] [(TNamed 1)] false)); (12, (TNamed 1)); (16, (TNamed 1)); (17, (TNamed 1)); (18, (TSignature [] [(TNamed 1)] false)); (20, (TSignature [] [(TNamed 1)] false)); (21, (TBasic (str "bool"))); (22, (TNamed 1)); (23, TUntypedNil); (26, (TNamed 1)); (28, (TNamed 1)); (29, (TSignature [] [(TNamed 1)] false)); (32, (TSignature [] [(TNamed 1)] false)); (36, (TNamed 1)); (39, (TNamed 1)); (40, (TSignature [] [(TNamed 1)] false)); (43, (TSignature [] [(TNamed 1)] false)); (47, (TNamed 1)); (50, (TNamed 1)); (51, (TNamed 1)); (52, (TSignature [] [(TNamed 1)] false)); (54, (TSignature [] [(TNamed 1)] false)); (56, (TNamed 1)); (59, (TSignature [] [(TNamed 1)] false)); (63, (TNamed 1)); (66, (TPointer (TNamed 55))); (67, (TNamed 55)); (68, (TNamed 55)); (70, (TNamed 55)); (73, (TNamed 79)); (74, (TInterface 5)); (77, (TNamed 61)); (79, (TNamed 61)); (82, (TSignature [(TNamed 79)] [(TNamed 1)] false)); (85, (TNamed 79)); (86, (TNamed 79)); (89, (TNamed 1)); (92, (TNamed 1)); (93, (TSignature [] [(TNamed 1)] false)); (94, (TNamed 79)); (95, (TSignature [] [(TNamed 1)] false))].
Definition t_grow_values : list (N * constval) := [].
Definition t_grow_uses : list (N * tobj) := [(12, 1); (19, 74); (20, 53); (22, 82); (23, 24); (26, 82); (29, 77); (36, 1); (40, 77); (47, 1); (53, 74); (54, 54); (56, 83); (63, 1); (69, 74); (70, 55); (78, 74); (79, 61); (86, 79); (89, 1); (94, 81); (95, 72)].
Definition t_grow_defs : list (N * tobj) := [(7, 75); (16, 82); (31, 76); (42, 77); (50, 83); (58, 78); (73, 79); (81, 80); (85, 81)].
Definition t_grow_sels : list (N * (tobj * gotype)) := [(93, (72, (TNamed 79)))].
Definition t_grow_pkgnames : list (N * gostring) := [(19, (str "growdep")); (53, (str "growdep")); (69, (str "growdep")); (78, (str "growdep"))].
Definition t_grow_objnames : list (N * gostring) := [(1, (str "error")); (2, (str "Error")); (3, (str "?")); (4, (str "bool")); (5, (str "string")); (6, (str "int")); (7, (str "int8")); (8, (str "int16")); (9, (str "int32")); (10, (str "int64")); (11, (str "uint")); (12, (str "uint8")); (13, (str "uint16")); (14, (str "uint32")); (15, (str "uint64")); (16, (str "uintptr")); (17, (str "float32")); (18, (str "float64")); (19, (str "complex64")); (20, (str "complex128")); (21, (str "true")); (22, (str "false")); (23, (str "iota")); (24, (str "nil")); (25, (str "append")); (26, (str "cap")); (27, (str "close")); (28, (str "complex")); (29, (str "copy")); (30, (str "delete")); (31, (str "imag")); (32, (str "len")); (33, (str "make")); (34, (str "new")); (35, (str "panic")); (36, (str "print")); (37, (str "println")); (38, (str "real")); (39, (str "recover")); (40, (str "Errorf")); (41, (str "Sprintf")); (42, (str "Println")); (43, (str "New")); (44, (str "HasPrefix")); (45, (str "Float32")); (46, (str "Float64")); (47, (str "Error")); (48, (str "Code")); (49, (str "Message")); (50, (str "Details")); (51, (str "Cause")); (52, (str "Error")); (53, (str "Read")); (54, (str "Write")); (55, (str "Full")); (56, (str "Code")); (57, (str "Message")); (58, (str "Details")); (59, (str "Cause")); (60, (str "Error")); (61, (str "Store")); (62, (str "e")); (63, (str "e")); (64, (str "e")); (65, (str "e")); (66, (str "e")); (67, (str "e")); (68, (str "e")); (69, (str "e")); (70, (str "e")); (71, (str "e")); (72, (str "Save")); (73, (str "TheCode")); (74, (str "growdep")); (75, (str "Copy")); (76, (str "Put")); (77, (str "put")); (78, (str "Fill")); (79, (str "Journal")); (80, (str "Keep")); (81, (str "s")); (82, (str "err")); (83, (str "err"))].
Definition t_grow_objtypes : list (N * gotype) := [(1, (TNamed 1)); (2, (TSignature [] [(TBasic (str "string"))] false)); (4, (TBasic (str "bool"))); (5, (TBasic (str "string"))); (6, (TBasic (str "int"))); (7, (TBasic (str "int8"))); (8, (TBasic (str "int16"))); (9, (TBasic (str "int32"))); (10, (TBasic (str "int64"))); (11, (TBasic (str "uint"))); (12, (TBasic (str "uint8"))); (13, (TBasic (str "uint16"))); (14, (TBasic (str "uint32"))); (15, (TBasic (str "uint64"))); (16, (TBasic (str "uintptr"))); (17, (TBasic (str "float32"))); (18, (TBasic (str "float64"))); (19, (TBasic (str "complex64"))); (20, (TBasic (str "complex128"))); (40, (TSignature [(TBasic (str "string")); (TSlice (TInterface 4))] [(TNamed 1)] true)); (41, (TSignature [(TBasic (str "string")); (TSlice (TInterface 4))] [(TBasic (str "string"))] true)); (42, (TSignature [(TSlice (TInterface 4))] [(TBasic (str "int")); (TNamed 1)] true)); (43, (TSignature [(TBasic (str "string"))] [(TNamed 1)] false)); (44, (TSignature [(TBasic (str "string")); (TBasic (str "string"))] [(TBasic (str "bool"))] false)); (45, (TSignature [] [(TBasic (str "float32"))] false)); (46, (TSignature [] [(TBasic (str "float64"))] false)); (47, (TNamed 47)); (48, (TSignature [] [(TBasic (str "string"))] false)); (49, (TSignature [] [(TBasic (str "string"))] false)); (50, (TSignature [] [(TMap (TBasic (str "string")) (TBasic (str "string")))] false)); (51, (TSignature [] [(TNamed 1)] false)); (52, (TSignature [] [(TBasic (str "string"))] false)); (53, (TSignature [] [(TNamed 1)] false)); (54, (TSignature [] [(TNamed 1)] false)); (55, (TNamed 55)); (56, (TSignature [] [(TBasic (str "string"))] false)); (57, (TSignature [] [(TBasic (str "string"))] false)); (58, (TSignature [] [(TMap (TBasic (str "string")) (TBasic (str "string")))] false)); (59, (TSignature [] [(TNamed 1)] false)); (60, (TSignature [] [(TBasic (str "string"))] false)); (61, (TNamed 61)); (62, (TPointer (TNamed 47))); (63, (TPointer (TNamed 47))); (64, (TPointer (TNamed 47))); (65, (TPointer (TNamed 47))); (66, (TPointer (TNamed 47))); (67, (TPointer (TNamed 55))); (68, (TPointer (TNamed 55))); (69, (TPointer (TNamed 55))); (70, (TPointer (TNamed 55))); (71, (TPointer (TNamed 55))); (72, (TSignature [] [(TNamed 1)] false)); (73, (TBasic (str "string"))); (75, (TSignature [] [(TNamed 1)] false)); (76, (TSignature [] [(TNamed 1)] false)); (77, (TSignature [] [(TNamed 1)] false)); (78, (TSignature [] [(TNamed 1)] false)); (79, (TNamed 79)); (80, (TSignature [(TNamed 79)] [(TNamed 1)] false)); (81, (TNamed 79)); (82, (TNamed 1)); (83, (TNamed 1))].
Definition t_grow_under : list (N * gotype) := [(1, (TInterface 1)); (47, (TStruct [((str "TheCode"), (TBasic (str "string")))])); (55, (TStruct [])); (61, (TInterface 5)); (79, (TInterface 5))].
Definition t_grow_named_methods : list (N * (list gostring)) := [(47, [(str "Code"); (str "Message"); (str "Details"); (str "Cause"); (str "Error")]); (55, [(str "Code"); (str "Message"); (str "Details"); (str "Cause"); (str "Error")])].
Definition t_grow_methods : list (gotype * gostring * tobj) := [((TInterface 1), (str "Error"), 2); ((TInterface 5), (str "Save"), 72); ((TNamed 1), (str "Error"), 2); ((TNamed 61), (str "Save"), 72); ((TNamed 79), (str "Save"), 72); ((TPointer (TNamed 47)), (str "Cause"), 51); ((TPointer (TNamed 47)), (str "Code"), 48); ((TPointer (TNamed 47)), (str "Details"), 50); ((TPointer (TNamed 47)), (str "Error"), 52); ((TPointer (TNamed 47)), (str "Message"), 49); ((TPointer (TNamed 55)), (str "Cause"), 59); ((TPointer (TNamed 55)), (str "Code"), 56); ((TPointer (TNamed 55)), (str "Details"), 58); ((TPointer (TNamed 55)), (str "Error"), 60); ((TPointer (TNamed 55)), (str "Message"), 57)].
Definition t_grow_ierr : list gotype := [(TInterface 1); (TNamed 1); (TPointer (TNamed 47)); (TPointer (TNamed 55))].
Definition t_grow_iree : list gotype := [(TPointer (TNamed 47)); (TPointer (TNamed 55))].
Definition t_grow_icause : list gotype := [(TPointer (TNamed 47)); (TPointer (TNamed 55))].
Definition t_grow_impl : list (gotype * gotype) := [((TInterface 1), (TInterface 1)); ((TInterface 5), (TInterface 5)); ((TNamed 1), (TInterface 1)); ((TNamed 61), (TInterface 5)); ((TNamed 79), (TInterface 5)); ((TPointer (TNamed 47)), (TInterface 1)); ((TPointer (TNamed 55)), (TInterface 1))].
Definition t_grow_nodes0 : list snode := [SNode 1 (Place 0 1) (Place 521 44) true; SNode 2 (Place 8 1) (Place 12 1) false; SNode 3 (Place 14 3) (Place 30 3) true; SNode 4 (Place 21 3) (Place 30 3) true; SNode 5 (Place 21 3) (Place 30 3) false; SNode 6 (Place 92 9) (Place 183 14) true; SNode 7 (Place 97 9) (Place 101 9) false; SNode 8 (Place 92 9) (Place 109 9) false; SNode 9 (Place 101 9) (Place 103 9) false; SNode 10 (Place 104 9) (Place 109 9) false; SNode 11 (Place 104 9) (Place 109 9) true; SNode 12 (Place 104 9) (Place 109 9) false; SNode 13 (Place 110 9) (Place 183 14) true; SNode 14 (Place 113 10) (Place 167 12) true; SNode 15 (Place 116 10) (Place 137 10) true; SNode 16 (Place 116 10) (Place 119 10) false; SNode 17 (Place 123 10) (Place 137 10) false; SNode 18 (Place 123 10) (Place 135 10) false; SNode 19 (Place 123 10) (Place 130 10) false; SNode 20 (Place 131 10) (Place 135 10) false; SNode 21 (Place 139 10) (Place 149 10) false; SNode 22 (Place 139 10) (Place 142 10) false; SNode 23 (Place 146 10) (Place 149 10) false; SNode 24 (Place 150 10) (Place 167 12) true; SNode 25 (Place 154 11) (Place 164 11) true; SNode 26 (Place 161 11) (Place 164 11) false; SNode 27 (Place 169 13) (Place 181 13) true; SNode 28 (Place 176 13) (Place 181 13) false; SNode 29 (Place 176 13) (Place 179 13) false; SNode 30 (Place 221 19) (Place 255 21) true; SNode 31 (Place 226 19) (Place 229 19) false; SNode 32 (Place 221 19) (Place 237 19) false; SNode 33 (Place 229 19) (Place 231 19) false; SNode 34 (Place 232 19) (Place 237 19) false; SNode 35 (Place 232 19) (Place 237 19) true; SNode 36 (Place 232 19) (Place 237 19) false; SNode 37 (Place 238 19) (Place 255 21) true; SNode 38 (Place 241 20) (Place 253 20) true; SNode 39 (Place 248 20) (Place 253 20) false; SNode 40 (Place 248 20) (Place 251 20) false; SNode 41 (Place 257 23) (Place 313 26) true; SNode 42 (Place 262 23) (Place 265 23) false; SNode 43 (Place 257 23) (Place 273 23) false; SNode 44 (Place 265 23) (Place 267 23) false; SNode 45 (Place 268 23) (Place 273 23) false; SNode 46 (Place 268 23) (Place 273 23) true; SNode 47 (Place 268 23) (Place 273 23) false; SNode 48 (Place 274 23) (Place 313 26) true; SNode 49 (Place 277 24) (Place 299 24) true; SNode 50 (Place 277 24) (Place 280 24) false; SNode 51 (Place 284 24) (Place 299 24) false; SNode 52 (Place 284 24) (Place 297 24) false; SNode 53 (Place 284 24) (Place 291 24) false; SNode 54 (Place 292 24) (Place 297 24) false; SNode 55 (Place 301 25) (Place 311 25) true; SNode 56 (Place 308 25) (Place 311 25) false; SNode 57 (Place 349 31) (Place 394 33) true; SNode 58 (Place 354 31) (Place 358 31) false; SNode 59 (Place 349 31) (Place 366 31) false; SNode 60 (Place 358 31) (Place 360 31) false; SNode 61 (Place 361 31) (Place 366 31) false; SNode 62 (Place 361 31) (Place 366 31) true; SNode 63 (Place 361 31) (Place 366 31) false; SNode 64 (Place 367 31) (Place 394 33) true; SNode 65 (Place 370 32) (Place 392 32) true; SNode 66 (Place 377 32) (Place 392 32) false; SNode 67 (Place 378 32) (Place 392 32) false; SNode 68 (Place 378 32) (Place 390 32) false; SNode 69 (Place 378 32) (Place 385 32) false; SNode 70 (Place 386 32) (Place 390 32) false; SNode 71 (Place 396 35) (Place 437 37) true; SNode 72 (Place 401 35) (Place 437 37) true; SNode 73 (Place 401 35) (Place 408 35) false; SNode 74 (Place 409 35) (Place 437 37) false; SNode 75 (Place 419 35) (Place 437 37) false; SNode 76 (Place 422 36) (Place 435 36) true; SNode 77 (Place 422 36) (Place 435 36) false; SNode 78 (Place 422 36) (Place 429 36) false; SNode 79 (Place 430 36) (Place 435 36) false; SNode 80 (Place 474 42) (Place 521 44) true; SNode 81 (Place 479 42) (Place 483 42) false; SNode 82 (Place 474 42) (Place 500 42) false; SNode 83 (Place 483 42) (Place 494 42) false; SNode 84 (Place 484 42) (Place 493 42) true; SNode 85 (Place 484 42) (Place 485 42) false; SNode 86 (Place 486 42) (Place 493 42) false; SNode 87 (Place 495 42) (Place 500 42) false; SNode 88 (Place 495 42) (Place 500 42) true; SNode 89 (Place 495 42) (Place 500 42) false; SNode 90 (Place 501 42) (Place 521 44) true; SNode 91 (Place 504 43) (Place 519 43) true; SNode 92 (Place 511 43) (Place 519 43) false; SNode 93 (Place 511 43) (Place 517 43) false; SNode 94 (Place 511 43) (Place 512 43) false; SNode 95 (Place 513 43) (Place 517 43) false].
Definition t_grow_cgroups0 : list cgroup := [CGroup (Place 32 5) (Place 91 8) [(str "// Errors:"); (str "//"); (str "//    - dep-missing --"); (str "//    - dep-closed  --")]; CGroup (Place 185 16) (Place 220 18) [(str "// Errors:"); (str "//"); (str "//    - dep-closed --")]; CGroup (Place 315 28) (Place 348 30) [(str "// Errors:"); (str "//"); (str "//    - dep-full --")]; CGroup (Place 439 39) (Place 473 41) [(str "// Errors:"); (str "//"); (str "//    - dep-store --")]].
Definition t_grow_files : list source_file := [SourceFile t_grow_nodes0 t_grow_cgroups0].
Definition t_grow_info : typeinfo := map_info (list_to_map t_grow_types) (list_to_map t_grow_values) (list_to_map t_grow_uses) (list_to_map t_grow_defs) (list_to_map t_grow_sels) (list_to_set [1; 4; 5; 6; 7; 8; 9; 10; 11; 12; 13; 14; 15; 16; 17; 18; 19; 20; 47; 55; 61; 79]) (list_to_map t_grow_pkgnames) (list_to_map t_grow_objnames) (list_to_map t_grow_objtypes) (list_to_map t_grow_under) t_grow_methods t_grow_ierr t_grow_iree t_grow_icause t_grow_impl (list_to_map t_grow_named_methods).
Definition t_grow : package := Package (list_to_map [(1, t_grow_f1); (2, t_grow_f2); (3, t_grow_f3); (4, t_grow_f4); (5, t_grow_f5)]) [1; 2; 3; 4; 5] t_grow_gendecls t_grow_top (list_to_map t_grow_objs) (fun id => default [] (createCommentMap t_grow_files id)) t_grow_info.
Definition t_grow_rank : gostring -> nat := fun n => default 0%nat ((list_to_map [((str "Journal"), 1%nat)] : gmap gostring nat) !! n).

From Coq Require Import Ascii String.
From stdpp Require Import base list gmap relations.
From Verif Require Import GoString ErrorCode Scc Engine CodeSet Annotation Constant GoAst Taint Extract Analyse Phase ErrorTypes Claims Interfaces Conversions Verify
  SpecCodes SpecTaint SpecMay SpecLocal SpecClaims SpecInterfaces SpecRun SpecEnd Checkers LocalChecker InterfaceChecker ExampleBase ExampleOrder PropOrder SpecGrow PropGrow GoAst.
Local Open Scope list_scope.
Local Open Scope N_scope.

(** What growdep exports, and what it exports after Write has been changed to return (and declare) one more code. *)
Definition g_dep_ord : orders := some_run_orders (collectFunctions t_growdep).
Definition g_dep_run : run := run_of t_growdep false g_dep_ord no_facts.
Definition g_facts : facts := facts_after t_growdep g_dep_ord g_dep_run.
(** ... Full, the code of which is a constant, can have another one, and the documentation of Save in the interface Store, too. *)
Definition g_more_codes : codeset := {[ str "dep-full"; str "dep-over" ]}.
Definition g_save : codeset := {[ str "dep-store"; str "dep-quota" ]}.
Definition g_store : gmap gostring codeset := {[ str "Save" := g_save ]}.
Definition g_facts' : facts := Facts (<[ 72 := g_save ]> (<[ 54 := {[ str "dep-closed"; str "dep-broken" ]} ]> (fa_codes g_facts))) (fa_ctor g_facts)
  (<[ 55 := ErrorType g_more_codes None ]> (fa_type g_facts)) (<[ 61 := g_store ]> (fa_iface g_facts)).
Definition g_ord : orders := some_run_orders (collectFunctions t_grow).
Definition g_run : run := run_of t_grow false g_ord g_facts.
Definition g_ord' : orders := other_run_orders (collectFunctions t_grow).
Definition g_run' : run := run_of t_grow false g_ord' g_facts'.
Definition g_closed : codeset := {[ str "dep-closed" ]}.
Definition g_full : codeset := {[ str "dep-closed"; str "dep-broken" ]}.
Lemma g_orders : orders_ok (collectFunctions t_grow) g_ord.
Proof. apply some_run_orders_ok. Qed.
Lemma g_completes : completes t_grow false g_ord g_facts g_run.
Proof. apply run_of_ok. vm_compute. reflexivity. Qed.
Lemma g_orders' : orders_ok (collectFunctions t_grow) g_ord'.
Proof. apply other_run_orders_ok. Qed.
Lemma g_completes' : completes t_grow false g_ord' g_facts' g_run'.
Proof. apply run_of_ok. vm_compute. reflexivity. Qed.
Lemma g_codes : fa_codes g_facts !! (54 : tobj) = Some g_closed.
Proof. apply (bool_decide_unpack _). vm_compute. exact Logic.I. Qed.
Lemma g_codes_save : fa_codes g_facts !! (72 : tobj) = Some {[ str "dep-store" ]}.
Proof. apply (bool_decide_unpack _). vm_compute. exact Logic.I. Qed.
Lemma g_iface : exists ms, fa_iface g_facts !! (61 : tobj) = Some ms /\ dom g_store = dom ms.
Proof.
  assert (option_map dom (fa_iface g_facts !! (61 : tobj)) = Some (dom g_store)) as H by (apply (bool_decide_unpack _); vm_compute; exact Logic.I).
  revert H. generalize (fa_iface g_facts !! (61 : tobj)). intros [ms|]; [|discriminate]. intros E. exists ms. split; [reflexivity|]. by apply (inj Some) in E.
Qed.
Lemma g_iface' : fa_iface g_facts' = <[ 61 := g_store ]> (fa_iface g_facts).
Proof. reflexivity. Qed.
Lemma g_type : fa_type g_facts !! (55 : tobj) = Some (ErrorType {[ str "dep-full" ]} None).
Proof.
  assert (option_map et_field (fa_type g_facts !! (55 : tobj)) = Some None) as H1 by (vm_compute; reflexivity).
  assert (option_map et_codes (fa_type g_facts !! (55 : tobj)) = Some {[ str "dep-full" ]}) as H2 by (apply (bool_decide_unpack _); vm_compute; exact Logic.I).
  revert H1 H2. generalize (fa_type g_facts !! (55 : tobj)). intros [[x y]|]; cbn; [|discriminate]. by intros [= ->] [= ->].
Qed.
Lemma g_codes' : fa_codes g_facts' = <[ 72 := g_save ]> (<[ 54 := g_full ]> (fa_codes g_facts)).
Proof. reflexivity. Qed.
Lemma g_type' : fa_type g_facts' = <[ 55 := ErrorType g_more_codes None ]> (fa_type g_facts).
Proof. reflexivity. Qed.
Lemma g_closed_full : g_closed ⊆ g_full.
Proof. intros c Hc. apply elem_of_singleton in Hc as ->. unfold g_full. apply elem_of_union_l, elem_of_singleton. reflexivity. Qed.
Lemma g_save_more : ({[ str "dep-store" ]} : codeset) ⊆ g_save.
Proof. intros c Hc. apply elem_of_singleton in Hc as ->. unfold g_save. apply elem_of_union_l, elem_of_singleton. reflexivity. Qed.
Lemma g_full_more : ({[ str "dep-full" ]} : codeset) ⊆ g_more_codes.
Proof. intros c Hc. apply elem_of_singleton in Hc as ->. unfold g_more_codes. apply elem_of_union_l, elem_of_singleton. reflexivity. Qed.
Lemma g_not_empty : g_more_codes = ∅ <-> ({[ str "dep-full" ]} : codeset) = ∅.
Proof. split; intros H; exfalso; apply (f_equal (fun s => bool_decide (s = ∅))) in H; vm_compute in H; discriminate. Qed.
Lemma g_more : declares_more g_facts g_facts'.
Proof.
  pose proof g_codes as H. pose proof g_codes_save as Hs. pose proof g_codes' as H'. pose proof g_type as T. pose proof g_type' as T'.
  pose proof g_iface as I. pose proof g_iface' as I'.
  assert (fa_ctor g_facts' = fa_ctor g_facts) as E1 by reflexivity. unfold declares_more, same_but_codes. rewrite E1, H', T', I'. clear E1 H' T' I'.
  pose proof g_closed_full as S1. pose proof g_full_more as S2. pose proof g_not_empty as S3. pose proof g_save_more as S4. revert H Hs T I S1 S2 S3 S4.
  generalize (fa_codes g_facts) (fa_type g_facts) (fa_iface g_facts) g_store g_save g_full g_closed g_more_codes ({[ str "dep-full" ]} : codeset) ({[ str "dep-store" ]} : codeset).
  intros m t i store save full closed more one old H Hs T [ms [I1 I2]] S1 S2 S3 S4.
  assert (forall o : tobj, (o = 72 /\ m !! o = Some old /\ (<[72:=save]> (<[54:=full]> m)) !! o = Some save) \/
    (o = 54 /\ m !! o = Some closed /\ (<[72:=save]> (<[54:=full]> m)) !! o = Some full) \/ (<[72:=save]> (<[54:=full]> m)) !! o = m !! o) as Hm.
  { intros o. destruct (decide (o = (72 : tobj))) as [->|H1]; [left; by rewrite lookup_insert|]. rewrite lookup_insert_ne by congruence.
    destruct (decide (o = (54 : tobj))) as [->|H2]; [right; left; by rewrite lookup_insert|]. rewrite lookup_insert_ne by congruence. by right; right. }
  split; [|split]; [split; [reflexivity|split; [|split]]| |]; intros o.
  - destruct (decide (o = (61 : tobj))) as [->|Ho]; [rewrite lookup_insert, I1; by constructor|]. rewrite lookup_insert_ne by congruence.
    destruct (i !! o); by constructor.
  - destruct (Hm o) as [(->&E1&E2)|[(->&E1&E2)| ->]]; [rewrite E1, E2; split; intros _; eauto..|done].
  - destruct (decide (o = (55 : tobj))) as [->|Ho]; [rewrite lookup_insert, T; constructor; split; done|]. rewrite lookup_insert_ne by congruence.
    destruct (t !! o) as [e|]; constructor. done.
  - intros s s'. destruct (Hm o) as [(->&E1&E2)|[(->&E1&E2)| ->]].
    + rewrite E1, E2. intros [= <-] [= <-]. exact S4.
    + rewrite E1, E2. intros [= <-] [= <-]. exact S1.
    + by intros -> [= <-].
  - intros s s'. destruct (decide (o = (55 : tobj))) as [->|Ho].
    + rewrite T, lookup_insert. intros [= <-] [= <-]. exact S2.
    + rewrite lookup_insert_ne by congruence. by intros -> [= <-].
Qed.
(** Fill (function 4) returns a value of type growdep.Full (object 55); Put (function 2) returns the errors of put (3), which returns those of growdep.Write (object 54). *)
Lemma g_usable : usable_from t_grow (collectFunctions t_grow) (facts_during t_grow g_ord g_run) 2.
Proof. apply usable_from_spec. vm_compute. reflexivity. Qed.
Lemma g_agree c : agree_from t_grow (collectFunctions t_grow) (facts_during t_grow g_ord g_run) 2 c.
Proof. apply agree_from_spec. vm_compute. reflexivity. Qed.
Lemma g_usable_fill : usable_from t_grow (collectFunctions t_grow) (facts_during t_grow g_ord g_run) 4.
Proof. apply usable_from_spec. vm_compute. reflexivity. Qed.
Lemma g_agree_fill c : agree_from t_grow (collectFunctions t_grow) (facts_during t_grow g_ord g_run) 4 c.
Proof. apply agree_from_spec. vm_compute. reflexivity. Qed.
Lemma g_found_fill : e_found (r_loop g_run) !! 4 = Some {[ str "dep-full" ]}.
Proof. apply (bool_decide_unpack _). vm_compute. exact Logic.I. Qed.
Lemma g_found_fill' : e_found (r_loop g_run') !! 4 = Some g_more_codes.
Proof. apply (bool_decide_unpack _). vm_compute. exact Logic.I. Qed.
Lemma g_new_fill : str "dep-over" ∉ ({[ str "dep-full" ]} : codeset).
Proof. intros H%elem_of_singleton. discriminate H. Qed.
Lemma g_new_fill' : str "dep-over" ∈ g_more_codes.
Proof. unfold g_more_codes. apply elem_of_union_r, elem_of_singleton. reflexivity. Qed.
Lemma g_cycle : no_literal_cycle t_grow (collectFunctions t_grow).
Proof. apply cycle_check_spec. vm_compute. reflexivity. Qed.
Lemma g_found : e_found (r_loop g_run) !! 2 = Some g_closed.
Proof. apply (bool_decide_unpack _). vm_compute. exact Logic.I. Qed.
Lemma g_found' : e_found (r_loop g_run') !! 2 = Some g_full.
Proof. apply (bool_decide_unpack _). vm_compute. exact Logic.I. Qed.
Lemma g_new : str "dep-broken" ∉ g_closed.
Proof. unfold g_closed. intros H%elem_of_singleton. discriminate H. Qed.
Lemma g_new' : str "dep-broken" ∈ g_full.
Proof. unfold g_full. apply elem_of_union_r, elem_of_singleton. reflexivity. Qed.
Theorem C49_example :
  r_diags g_dep_run = [] /\ r_diags g_run = [] /\ declares_more g_facts g_facts' /\ interfaces_ok t_grow /\ distinct_definitions t_grow /\
  g_closed ⊆ g_full /\
  newly_declared (str "dep-broken") g_facts g_facts' /\ newly_declared (str "dep-over") g_facts g_facts' /\
  (r_diags g_run') = [Diag 57 (str "function ""Fill"" has a mismatch of declared and actual error codes: missing codes: [dep-over]");
    Diag 30 (str "function ""Put"" has a mismatch of declared and actual error codes: missing codes: [dep-broken]");
    Diag 80 (str "function ""Keep"" has a mismatch of declared and actual error codes: missing codes: [dep-quota]");
    Diag 6 (str "function ""Copy"" has a mismatch of declared and actual error codes: missing codes: [dep-broken]")].
Proof.
  assert (interfaces_ok t_grow) as Hi by (apply (interfaces_check_spec t_grow t_grow_rank); vm_compute; reflexivity).
  assert (distinct_definitions t_grow) as Hd by (apply definitions_check_spec; vm_compute; reflexivity).
  split_and!.
  - vm_compute. reflexivity.
  - vm_compute. reflexivity.
  - exact g_more.
  - exact Hi.
  - exact Hd.
  - exact (C49_more t_grow false g_ord g_ord' g_facts g_facts' g_run g_run' g_orders g_orders' Hi Hd g_cycle g_completes g_completes' 2 _ _ g_more g_usable g_agree g_found g_found').
  - exact (C49_new t_grow false g_ord g_ord' g_facts g_facts' g_run g_run' 2 _ _ (str "dep-broken") g_orders g_orders' Hi Hd g_cycle g_completes g_completes' (proj1 g_more) g_usable (g_agree _) g_found g_found' g_new g_new').
  - exact (C49_new t_grow false g_ord g_ord' g_facts g_facts' g_run g_run' 4 _ _ (str "dep-over") g_orders g_orders' Hi Hd g_cycle g_completes g_completes' (proj1 g_more) g_usable_fill (g_agree_fill _) g_found_fill g_found_fill' g_new_fill g_new_fill').
  - vm_compute. reflexivity.
Qed.
(** C49_update applies to this pair of runs: what is said about Put is that its documentation lacks dep-broken. *)
Theorem C49_example_update : exists ds vs rest, NoDup ds /\ (forall f, f ∈ ds <-> declared_function t_grow f) /\
  Forall2 (fun f v => f = 2 -> updated_verdict t_grow g_ord' g_facts g_facts' g_run' f v) ds vs /\ r_diags g_run' ≡ₚ rest ++ concat vs.
Proof.
  destruct C49_example as (_&H&_&Hi&Hd&_).
  destruct (C49_update t_grow false g_ord g_ord' g_facts g_facts' g_run g_run' g_orders g_orders' Hi Hd g_cycle g_completes g_completes' H g_more) as (ds&vs&rest&H1&H2&H3&H4).
  exists ds, vs, rest. split; [exact H1|]. split; [exact H2|]. split; [|exact H4].
  eapply Forall2_impl; [exact H3|]. cbn beta. intros f v Hv ->. exact (Hv g_usable g_agree).
Qed.
