(** * What C48 does not say: an edit may change a report about a conversion elsewhere.  The data is generated from
    tools/sources/edit/edit.go by tools/edit_example.py. *)
From Coq Require Import Ascii String.
From stdpp Require Import base list gmap.
From Verif Require Import GoString Scc Engine Constant CommentText CommentMap Phase FactText Conform GoAst.
Local Open Scope N_scope.
Definition t_edit_f1 : func := Func 20 (Some (DeclInfo (Ident 25 (str "Get") None) (Some [(Field 22 [(Ident 23 (str "i") (Some 1))] 24)]) None)) (FuncType 26 [] (Some [(Field 29 [] 30)]) 130) (Some (Node 31 (KOther (str "*ast.BlockStmt")) [(Node 32 KReturn [(Node 33 KCall [(Node 34 (KIdent (str "load") (Some 2)) [])])])])) 136 154.
Definition t_edit_f2 : func := Func 35 (Some (DeclInfo (Ident 36 (str "load") (Some 2)) None (Some (comment_text [(str "// Errors:"); (str "//"); (str "//    - edit-a --")])))) (FuncType 37 [] (Some [(Field 40 [] 41)]) 200) (Some (Node 42 (KOther (str "*ast.BlockStmt")) [(Node 43 KReturn [(Node 44 (KUnary true) [(Node 45 KComposite [(Node 47 KBasicLit [])])])])])) 206 234.
Definition t_edit_f3 : func := Func 48 (Some (DeclInfo (Ident 49 (str "First") (Some 3)) None (Some (comment_text [(str "// Errors:"); (str "//"); (str "//    - edit-b --")])))) (FuncType 50 [] (Some [(Field 53 [] 54)]) 281) (Some (Node 55 (KOther (str "*ast.BlockStmt")) [(Node 56 (KAssign 1%nat) [(Node 57 (KIdent (str "i") (Some 4)) []); (Node 58 KComposite [])]); (Node 60 KReturn [(Node 61 KCall [(Node 62 KSelector [(Node 63 (KIdent (str "i") (Some 4)) []); (Node 64 (KIdent (str "Get") None) [])])])])])) 287 319.
Definition t_edit_f4 : func := Func 65 (Some (DeclInfo (Ident 66 (str "Second") (Some 5)) None (Some (comment_text [(str "// Errors:"); (str "//"); (str "//    - edit-b --")])))) (FuncType 67 [] (Some [(Field 70 [] 71)]) 367) (Some (Node 72 (KOther (str "*ast.BlockStmt")) [(Node 73 KReturn [(Node 74 (KUnary true) [(Node 75 KComposite [(Node 77 KBasicLit [])])])])])) 373 401.
Definition t_edit_f5 : func := Func 78 (Some (DeclInfo (Ident 79 (str "Convert") (Some 6)) None None)) (FuncType 80 [] None 0) (Some (Node 82 (KOther (str "*ast.BlockStmt")) [(Node 83 (KOther (str "*ast.DeclStmt")) [(Node 84 (KOther (str "*ast.GenDecl")) [(Node 85 (KValueSpec [(Ident 86 (str "g") (Some 7))] (Some 87)) [])])]); (Node 88 (KAssign 1%nat) [(Node 89 (KIdent (str "g") (Some 7)) []); (Node 90 KComposite [])]); (Node 92 (KAssign 1%nat) [(Node 93 (KIdent (str "_") None) []); (Node 94 (KIdent (str "g") (Some 7)) [])])])) 418 454.
Definition t_edit_f6 : func := Func 103 (Some (DeclInfo (Ident 109 (str "Code") None) (Some [(Field 105 [(Ident 106 (str "e") (Some 8))] 107)]) None)) (FuncType 110 [] (Some [(Field 113 [] 114)]) 518) (Some (Node 115 (KOther (str "*ast.BlockStmt")) [(Node 116 KReturn [(Node 117 KSelector [(Node 118 (KIdent (str "e") (Some 8)) []); (Node 119 (KIdent (str "TheCode") None) [])])])])) 539 559.
Definition t_edit_f7 : func := Func 120 (Some (DeclInfo (Ident 126 (str "Message") None) (Some [(Field 122 [(Ident 123 (str "e") (Some 9))] 124)]) None)) (FuncType 127 [] (Some [(Field 130 [] 131)]) 586) (Some (Node 132 (KOther (str "*ast.BlockStmt")) [(Node 133 KReturn [(Node 134 KSelector [(Node 135 (KIdent (str "e") (Some 9)) []); (Node 136 (KIdent (str "TheCode") None) [])])])])) 604 624.
Definition t_edit_f8 : func := Func 137 (Some (DeclInfo (Ident 143 (str "Details") None) (Some [(Field 139 [(Ident 140 (str "e") (Some 10))] 141)]) None)) (FuncType 144 [] (Some [(Field 147 [] 148)]) 651) (Some (Node 151 (KOther (str "*ast.BlockStmt")) [(Node 152 KReturn [(Node 153 (KIdent (str "nil") None) [])])])) 669 683.
Definition t_edit_f9 : func := Func 154 (Some (DeclInfo (Ident 160 (str "Cause") None) (Some [(Field 156 [(Ident 157 (str "e") (Some 11))] 158)]) None)) (FuncType 161 [] (Some [(Field 164 [] 165)]) 708) (Some (Node 166 (KOther (str "*ast.BlockStmt")) [(Node 167 KReturn [(Node 168 (KIdent (str "nil") None) [])])])) 728 742.
Definition t_edit_f10 : func := Func 169 (Some (DeclInfo (Ident 175 (str "Error") None) (Some [(Field 171 [(Ident 172 (str "e") (Some 12))] 173)]) None)) (FuncType 176 [] (Some [(Field 179 [] 180)]) 767) (Some (Node 181 (KOther (str "*ast.BlockStmt")) [(Node 182 KReturn [(Node 183 KCall [(Node 184 KSelector [(Node 185 (KIdent (str "e") (Some 12)) []); (Node 186 (KIdent (str "Message") None) [])])])])])) 787 809.
Definition t_edit_f11 : func := Func 192 (Some (DeclInfo (Ident 197 (str "Get") None) (Some [(Field 194 [(Ident 195 (str "s") (Some 13))] 196)]) (Some (comment_text [(str "// Errors:"); (str "//"); (str "//    - edit-b --")])))) (FuncType 198 [] (Some [(Field 201 [] 202)]) 883) (Some (Node 203 (KOther (str "*ast.BlockStmt")) [(Node 204 KReturn [(Node 205 (KUnary true) [(Node 206 KComposite [(Node 208 KBasicLit [])])])])])) 889 917.
Definition t_edit_f12 : func := Func 209 (Some (DeclInfo (Ident 210 (str "ConvertSaid") (Some 14)) None None)) (FuncType 211 [] None 0) (Some (Node 213 (KOther (str "*ast.BlockStmt")) [(Node 214 (KOther (str "*ast.DeclStmt")) [(Node 215 (KOther (str "*ast.GenDecl")) [(Node 216 (KValueSpec [(Ident 217 (str "g") (Some 15))] (Some 218)) [])])]); (Node 219 (KAssign 1%nat) [(Node 220 (KIdent (str "g") (Some 15)) []); (Node 221 KComposite [])]); (Node 223 (KAssign 1%nat) [(Node 224 (KIdent (str "_") None) []); (Node 225 (KIdent (str "g") (Some 15)) [])])])) 938 974.
Definition t_edit_gendecls : list gendecl := [GenDecl 3 [(Some (TypeSpec (Ident 5 (str "Getter") (Some 16)) (XInterface 6 [IMethod 8 (Ident 9 (str "Get") None) (Some (comment_text [(str "// Errors:"); (str "//"); (str "//    - edit-a --")])) (FuncType 10 [] (Some [(Field 13 [] 14)]) 81)])))]; GenDecl 15 [(Some (TypeSpec (Ident 17 (str "impl") (Some 17)) (XStruct [])))]; GenDecl 84 [None]; GenDecl 95 [(Some (TypeSpec (Ident 97 (str "Error") (Some 18)) (XStruct [[(Ident 101 (str "TheCode") None)]])))]; GenDecl 187 [(Some (TypeSpec (Ident 189 (str "said") (Some 19)) (XStruct [])))]; GenDecl 215 [None]].
Definition t_edit_top : list topdecl := [TopNode (Node 3 (KOther (str "*ast.GenDecl")) [(Node 4 (KOther (str "*ast.TypeSpec")) [])]); TopNode (Node 15 (KOther (str "*ast.GenDecl")) [(Node 16 (KOther (str "*ast.TypeSpec")) [])]); TopFunc 1; TopFunc 2; TopFunc 3; TopFunc 4; TopFunc 5; TopNode (Node 95 (KOther (str "*ast.GenDecl")) [(Node 96 (KOther (str "*ast.TypeSpec")) [])]); TopFunc 6; TopFunc 7; TopFunc 8; TopFunc 9; TopFunc 10; TopNode (Node 187 (KOther (str "*ast.GenDecl")) [(Node 188 (KOther (str "*ast.TypeSpec")) [])]); TopFunc 11; TopFunc 12].
Definition t_edit_objs : list (N * object) := [(1, Object true 116 DOther); (2, Object false 193 (DFunc 2)); (3, Object false 273 (DFunc 3)); (4, Object true 290 DOther); (5, Object false 358 (DFunc 4)); (6, Object false 408 (DFunc 5)); (7, Object true 425 (DValueSpec [(Ident 86 (str "g") (Some 7))] [])); (8, Object true 501 DOther); (9, Object true 566 DOther); (10, Object true 631 DOther); (11, Object true 690 DOther); (12, Object true 749 DOther); (13, Object true 869 DOther); (14, Object false 924 (DFunc 12)); (15, Object true 945 (DValueSpec [(Ident 217 (str "g") (Some 15))] [])); (16, Object false 20 DType); (17, Object false 95 DType); (18, Object false 461 DType); (19, Object false 816 DType)].
Definition t_edit_types : list (N * gotype) := [(5, (TNamed 47)); (6, (TInterface 5)); (9, (TSignature [] [(TNamed 1)] false)); (10, (TSignature [] [(TNamed 1)] false)); (14, (TNamed 1)); (17, (TNamed 48)); (18, (TStruct [])); (23, (TNamed 48)); (24, (TNamed 48)); (26, (TSignature [] [(TNamed 1)] false)); (30, (TNamed 1)); (33, (TNamed 1)); (34, (TSignature [] [(TNamed 1)] false)); (37, (TSignature [] [(TNamed 1)] false)); (41, (TNamed 1)); (44, (TPointer (TNamed 54))); (45, (TNamed 54)); (46, (TNamed 54)); (47, (TBasic (str "string"))); (50, (TSignature [] [(TNamed 1)] false)); (54, (TNamed 1)); (57, (TNamed 48)); (58, (TNamed 48)); (59, (TNamed 48)); (61, (TNamed 1)); (62, (TSignature [] [(TNamed 1)] false)); (63, (TNamed 48)); (64, (TSignature [] [(TNamed 1)] false)); (67, (TSignature [] [(TNamed 1)] false)); (71, (TNamed 1)); (74, (TPointer (TNamed 54))); (75, (TNamed 54)); (76, (TNamed 54)); (77, (TBasic (str "string"))); (80, (TSignature [] [] false)); (86, (TNamed 47)); (87, (TNamed 47)); (89, (TNamed 47)); (90, (TNamed 48)); (91, (TNamed 48)); (94, (TNamed 47)); (97, (TNamed 54)); (98, (TStruct [((str "TheCode"), (TBasic (str "string")))])); (101, (TBasic (str "string"))); (102, (TBasic (str "string"))); (106, (TPointer (TNamed 54))); (107, (TPointer (TNamed 54))); (108, (TNamed 54)); (110, (TSignature [] [(TBasic (str "string"))] false)); (114, (TBasic (str "string"))); (117, (TBasic (str "string"))); (118, (TPointer (TNamed 54))); (119, (TBasic (str "string"))); (123, (TPointer (TNamed 54))); (124, (TPointer (TNamed 54))); (125, (TNamed 54)); (127, (TSignature [] [(TBasic (str "string"))] false)); (131, (TBasic (str "string"))); (134, (TBasic (str "string"))); (135, (TPointer (TNamed 54))); (136, (TBasic (str "string"))); (140, (TPointer (TNamed 54))); (141, (TPointer (TNamed 54))); (142, (TNamed 54)); (144, (TSignature [] [(TMap (TBasic (str "string")) (TBasic (str "string")))] false)); (148, (TMap (TBasic (str "string")) (TBasic (str "string")))); (149, (TBasic (str "string"))); (150, (TBasic (str "string"))); (153, TUntypedNil); (157, (TPointer (TNamed 54))); (158, (TPointer (TNamed 54))); (159, (TNamed 54)); (161, (TSignature [] [(TNamed 1)] false)); (165, (TNamed 1)); (168, TUntypedNil); (172, (TPointer (TNamed 54))); (173, (TPointer (TNamed 54))); (174, (TNamed 54)); (176, (TSignature [] [(TBasic (str "string"))] false)); (180, (TBasic (str "string"))); (183, (TBasic (str "string"))); (184, (TSignature [] [(TBasic (str "string"))] false)); (185, (TPointer (TNamed 54))); (186, (TSignature [] [(TBasic (str "string"))] false)); (189, (TNamed 60)); (190, (TStruct [])); (195, (TNamed 60)); (196, (TNamed 60)); (198, (TSignature [] [(TNamed 1)] false)); (202, (TNamed 1)); (205, (TPointer (TNamed 54))); (206, (TNamed 54)); (207, (TNamed 54)); (208, (TBasic (str "string"))); (211, (TSignature [] [] false)); (217, (TNamed 47)); (218, (TNamed 47)); (220, (TNamed 47)); (221, (TNamed 60)); (222, (TNamed 60)); (225, (TNamed 47))].
Definition t_edit_values : list (N * constval) := [(47, CString (str "edit-b")); (77, CString (str "edit-b")); (208, CString (str "edit-b"))].
Definition t_edit_uses : list (N * tobj) := [(14, 1); (24, 48); (30, 1); (34, 50); (41, 1); (46, 54); (54, 1); (59, 48); (63, 72); (64, 49); (71, 1); (76, 54); (87, 47); (89, 73); (91, 48); (94, 73); (102, 5); (108, 54); (114, 5); (118, 64); (119, 71); (125, 54); (131, 5); (135, 65); (136, 71); (142, 54); (149, 5); (150, 5); (153, 24); (159, 54); (165, 1); (168, 24); (174, 54); (180, 5); (185, 68); (186, 56); (196, 60); (202, 1); (207, 54); (218, 47); (220, 74); (222, 60); (225, 74)].
Definition t_edit_defs : list (N * tobj) := [(5, 47); (9, 70); (17, 48); (23, 63); (25, 49); (36, 50); (49, 51); (57, 72); (66, 52); (79, 53); (86, 73); (97, 54); (106, 64); (109, 55); (123, 65); (126, 56); (140, 66); (143, 57); (157, 67); (160, 58); (172, 68); (175, 59); (189, 60); (195, 69); (197, 61); (210, 62); (217, 74)].
Definition t_edit_sels : list (N * (tobj * gotype)) := [(62, (49, (TNamed 48))); (117, (71, (TPointer (TNamed 54)))); (134, (71, (TPointer (TNamed 54)))); (184, (56, (TPointer (TNamed 54))))].
Definition t_edit_pkgnames : list (N * gostring) := [].
Definition t_edit_objnames : list (N * gostring) := [(1, (str "error")); (2, (str "Error")); (3, (str "?")); (4, (str "bool")); (5, (str "string")); (6, (str "int")); (7, (str "int8")); (8, (str "int16")); (9, (str "int32")); (10, (str "int64")); (11, (str "uint")); (12, (str "uint8")); (13, (str "uint16")); (14, (str "uint32")); (15, (str "uint64")); (16, (str "uintptr")); (17, (str "float32")); (18, (str "float64")); (19, (str "complex64")); (20, (str "complex128")); (21, (str "true")); (22, (str "false")); (23, (str "iota")); (24, (str "nil")); (25, (str "append")); (26, (str "cap")); (27, (str "close")); (28, (str "complex")); (29, (str "copy")); (30, (str "delete")); (31, (str "imag")); (32, (str "len")); (33, (str "make")); (34, (str "new")); (35, (str "panic")); (36, (str "print")); (37, (str "println")); (38, (str "real")); (39, (str "recover")); (40, (str "Errorf")); (41, (str "Sprintf")); (42, (str "Println")); (43, (str "New")); (44, (str "HasPrefix")); (45, (str "Float32")); (46, (str "Float64")); (47, (str "Getter")); (48, (str "impl")); (49, (str "Get")); (50, (str "load")); (51, (str "First")); (52, (str "Second")); (53, (str "Convert")); (54, (str "Error")); (55, (str "Code")); (56, (str "Message")); (57, (str "Details")); (58, (str "Cause")); (59, (str "Error")); (60, (str "said")); (61, (str "Get")); (62, (str "ConvertSaid")); (63, (str "i")); (64, (str "e")); (65, (str "e")); (66, (str "e")); (67, (str "e")); (68, (str "e")); (69, (str "s")); (70, (str "Get")); (71, (str "TheCode")); (72, (str "i")); (73, (str "g")); (74, (str "g"))].
Definition t_edit_objtypes : list (N * gotype) := [(1, (TNamed 1)); (2, (TSignature [] [(TBasic (str "string"))] false)); (4, (TBasic (str "bool"))); (5, (TBasic (str "string"))); (6, (TBasic (str "int"))); (7, (TBasic (str "int8"))); (8, (TBasic (str "int16"))); (9, (TBasic (str "int32"))); (10, (TBasic (str "int64"))); (11, (TBasic (str "uint"))); (12, (TBasic (str "uint8"))); (13, (TBasic (str "uint16"))); (14, (TBasic (str "uint32"))); (15, (TBasic (str "uint64"))); (16, (TBasic (str "uintptr"))); (17, (TBasic (str "float32"))); (18, (TBasic (str "float64"))); (19, (TBasic (str "complex64"))); (20, (TBasic (str "complex128"))); (40, (TSignature [(TBasic (str "string")); (TSlice (TInterface 4))] [(TNamed 1)] true)); (41, (TSignature [(TBasic (str "string")); (TSlice (TInterface 4))] [(TBasic (str "string"))] true)); (42, (TSignature [(TSlice (TInterface 4))] [(TBasic (str "int")); (TNamed 1)] true)); (43, (TSignature [(TBasic (str "string"))] [(TNamed 1)] false)); (44, (TSignature [(TBasic (str "string")); (TBasic (str "string"))] [(TBasic (str "bool"))] false)); (45, (TSignature [] [(TBasic (str "float32"))] false)); (46, (TSignature [] [(TBasic (str "float64"))] false)); (47, (TNamed 47)); (48, (TNamed 48)); (49, (TSignature [] [(TNamed 1)] false)); (50, (TSignature [] [(TNamed 1)] false)); (51, (TSignature [] [(TNamed 1)] false)); (52, (TSignature [] [(TNamed 1)] false)); (53, (TSignature [] [] false)); (54, (TNamed 54)); (55, (TSignature [] [(TBasic (str "string"))] false)); (56, (TSignature [] [(TBasic (str "string"))] false)); (57, (TSignature [] [(TMap (TBasic (str "string")) (TBasic (str "string")))] false)); (58, (TSignature [] [(TNamed 1)] false)); (59, (TSignature [] [(TBasic (str "string"))] false)); (60, (TNamed 60)); (61, (TSignature [] [(TNamed 1)] false)); (62, (TSignature [] [] false)); (63, (TNamed 48)); (64, (TPointer (TNamed 54))); (65, (TPointer (TNamed 54))); (66, (TPointer (TNamed 54))); (67, (TPointer (TNamed 54))); (68, (TPointer (TNamed 54))); (69, (TNamed 60)); (70, (TSignature [] [(TNamed 1)] false)); (71, (TBasic (str "string"))); (72, (TNamed 48)); (73, (TNamed 47)); (74, (TNamed 47))].
Definition t_edit_under : list (N * gotype) := [(1, (TInterface 1)); (47, (TInterface 5)); (48, (TStruct [])); (54, (TStruct [((str "TheCode"), (TBasic (str "string")))])); (60, (TStruct []))].
Definition t_edit_named_methods : list (N * (list gostring)) := [(48, [(str "Get")]); (54, [(str "Code"); (str "Message"); (str "Details"); (str "Cause"); (str "Error")]); (60, [(str "Get")])].
Definition t_edit_methods : list (gotype * gostring * tobj) := [((TInterface 1), (str "Error"), 2); ((TInterface 5), (str "Get"), 70); ((TNamed 1), (str "Error"), 2); ((TNamed 47), (str "Get"), 70); ((TNamed 48), (str "Get"), 49); ((TNamed 60), (str "Get"), 61); ((TPointer (TNamed 48)), (str "Get"), 49); ((TPointer (TNamed 54)), (str "Cause"), 58); ((TPointer (TNamed 54)), (str "Code"), 55); ((TPointer (TNamed 54)), (str "Details"), 57); ((TPointer (TNamed 54)), (str "Error"), 59); ((TPointer (TNamed 54)), (str "Message"), 56); ((TPointer (TNamed 60)), (str "Get"), 61)].
Definition t_edit_ierr : list gotype := [(TInterface 1); (TNamed 1); (TPointer (TNamed 54))].
Definition t_edit_iree : list gotype := [(TPointer (TNamed 54))].
Definition t_edit_icause : list gotype := [(TPointer (TNamed 54))].
Definition t_edit_impl : list (gotype * gotype) := [((TInterface 1), (TInterface 1)); ((TInterface 5), (TInterface 5)); ((TNamed 1), (TInterface 1)); ((TNamed 47), (TInterface 5)); ((TNamed 48), (TInterface 5)); ((TNamed 60), (TInterface 5)); ((TPointer (TNamed 48)), (TInterface 5)); ((TPointer (TNamed 54)), (TInterface 1)); ((TPointer (TNamed 60)), (TInterface 5))].
Definition t_edit_nodes0 : list snode := [SNode 1 (Place 0 1) (Place 973 67) true; SNode 2 (Place 8 1) (Place 12 1) false; SNode 3 (Place 14 3) (Place 87 8) true; SNode 4 (Place 19 3) (Place 87 8) true; SNode 5 (Place 19 3) (Place 25 3) false; SNode 6 (Place 26 3) (Place 87 8) false; SNode 7 (Place 36 3) (Place 87 8) false; SNode 8 (Place 74 7) (Place 85 7) true; SNode 9 (Place 74 7) (Place 77 7) false; SNode 10 (Place 77 7) (Place 85 7) false; SNode 11 (Place 77 7) (Place 79 7) false; SNode 12 (Place 80 7) (Place 85 7) false; SNode 13 (Place 80 7) (Place 85 7) true; SNode 14 (Place 80 7) (Place 85 7) false; SNode 15 (Place 89 10) (Place 107 10) true; SNode 16 (Place 94 10) (Place 107 10) true; SNode 17 (Place 94 10) (Place 98 10) false; SNode 18 (Place 99 10) (Place 107 10) false; SNode 19 (Place 105 10) (Place 107 10) false; SNode 20 (Place 109 12) (Place 153 14) true; SNode 21 (Place 114 12) (Place 122 12) false; SNode 22 (Place 115 12) (Place 121 12) true; SNode 23 (Place 115 12) (Place 116 12) false; SNode 24 (Place 117 12) (Place 121 12) false; SNode 25 (Place 123 12) (Place 126 12) false; SNode 26 (Place 109 12) (Place 134 12) false; SNode 27 (Place 126 12) (Place 128 12) false; SNode 28 (Place 129 12) (Place 134 12) false; SNode 29 (Place 129 12) (Place 134 12) true; SNode 30 (Place 129 12) (Place 134 12) false; SNode 31 (Place 135 12) (Place 153 14) true; SNode 32 (Place 138 13) (Place 151 13) true; SNode 33 (Place 145 13) (Place 151 13) false; SNode 34 (Place 145 13) (Place 149 13) false; SNode 35 (Place 187 19) (Place 233 21) true; SNode 36 (Place 192 19) (Place 196 19) false; SNode 37 (Place 187 19) (Place 204 19) false; SNode 38 (Place 196 19) (Place 198 19) false; SNode 39 (Place 199 19) (Place 204 19) false; SNode 40 (Place 199 19) (Place 204 19) true; SNode 41 (Place 199 19) (Place 204 19) false; SNode 42 (Place 205 19) (Place 233 21) true; SNode 43 (Place 208 20) (Place 231 20) true; SNode 44 (Place 215 20) (Place 231 20) false; SNode 45 (Place 216 20) (Place 231 20) false; SNode 46 (Place 216 20) (Place 221 20) false; SNode 47 (Place 222 20) (Place 230 20) false; SNode 48 (Place 267 26) (Place 318 29) true; SNode 49 (Place 272 26) (Place 277 26) false; SNode 50 (Place 267 26) (Place 285 26) false; SNode 51 (Place 277 26) (Place 279 26) false; SNode 52 (Place 280 26) (Place 285 26) false; SNode 53 (Place 280 26) (Place 285 26) true; SNode 54 (Place 280 26) (Place 285 26) false; SNode 55 (Place 286 26) (Place 318 29) true; SNode 56 (Place 289 27) (Place 300 27) true; SNode 57 (Place 289 27) (Place 290 27) false; SNode 58 (Place 294 27) (Place 300 27) false; SNode 59 (Place 294 27) (Place 298 27) false; SNode 60 (Place 302 28) (Place 316 28) true; SNode 61 (Place 309 28) (Place 316 28) false; SNode 62 (Place 309 28) (Place 314 28) false; SNode 63 (Place 309 28) (Place 310 28) false; SNode 64 (Place 311 28) (Place 314 28) false; SNode 65 (Place 352 34) (Place 400 36) true; SNode 66 (Place 357 34) (Place 363 34) false; SNode 67 (Place 352 34) (Place 371 34) false; SNode 68 (Place 363 34) (Place 365 34) false; SNode 69 (Place 366 34) (Place 371 34) false; SNode 70 (Place 366 34) (Place 371 34) true; SNode 71 (Place 366 34) (Place 371 34) false; SNode 72 (Place 372 34) (Place 400 36) true; SNode 73 (Place 375 35) (Place 398 35) true; SNode 74 (Place 382 35) (Place 398 35) false; SNode 75 (Place 383 35) (Place 398 35) false; SNode 76 (Place 383 35) (Place 388 35) false; SNode 77 (Place 389 35) (Place 397 35) false; SNode 78 (Place 402 38) (Place 453 42) true; SNode 79 (Place 407 38) (Place 414 38) false; SNode 80 (Place 402 38) (Place 416 38) false; SNode 81 (Place 414 38) (Place 416 38) false; SNode 82 (Place 417 38) (Place 453 42) true; SNode 83 (Place 420 39) (Place 432 39) true; SNode 84 (Place 420 39) (Place 432 39) true; SNode 85 (Place 424 39) (Place 432 39) true; SNode 86 (Place 424 39) (Place 425 39) false; SNode 87 (Place 426 39) (Place 432 39) false; SNode 88 (Place 434 40) (Place 444 40) true; SNode 89 (Place 434 40) (Place 435 40) false; SNode 90 (Place 438 40) (Place 444 40) false; SNode 91 (Place 438 40) (Place 442 40) false; SNode 92 (Place 446 41) (Place 451 41) true; SNode 93 (Place 446 41) (Place 447 41) false; SNode 94 (Place 450 41) (Place 451 41) false; SNode 95 (Place 455 44) (Place 492 46) true; SNode 96 (Place 460 44) (Place 492 46) true; SNode 97 (Place 460 44) (Place 465 44) false; SNode 98 (Place 466 44) (Place 492 46) false; SNode 99 (Place 473 44) (Place 492 46) false; SNode 100 (Place 476 45) (Place 490 45) true; SNode 101 (Place 476 45) (Place 483 45) false; SNode 102 (Place 484 45) (Place 490 45) false; SNode 103 (Place 494 48) (Place 558 48) true; SNode 104 (Place 499 48) (Place 509 48) false; SNode 105 (Place 500 48) (Place 508 48) true; SNode 106 (Place 500 48) (Place 501 48) false; SNode 107 (Place 502 48) (Place 508 48) false; SNode 108 (Place 503 48) (Place 508 48) false; SNode 109 (Place 510 48) (Place 514 48) false; SNode 110 (Place 494 48) (Place 523 48) false; SNode 111 (Place 514 48) (Place 516 48) false; SNode 112 (Place 517 48) (Place 523 48) false; SNode 113 (Place 517 48) (Place 523 48) true; SNode 114 (Place 517 48) (Place 523 48) false; SNode 115 (Place 538 48) (Place 558 48) true; SNode 116 (Place 540 48) (Place 556 48) true; SNode 117 (Place 547 48) (Place 556 48) false; SNode 118 (Place 547 48) (Place 548 48) false; SNode 119 (Place 549 48) (Place 556 48) false; SNode 120 (Place 559 49) (Place 623 49) true; SNode 121 (Place 564 49) (Place 574 49) false; SNode 122 (Place 565 49) (Place 573 49) true; SNode 123 (Place 565 49) (Place 566 49) false; SNode 124 (Place 567 49) (Place 573 49) false; SNode 125 (Place 568 49) (Place 573 49) false; SNode 126 (Place 575 49) (Place 582 49) false; SNode 127 (Place 559 49) (Place 591 49) false; SNode 128 (Place 582 49) (Place 584 49) false; SNode 129 (Place 585 49) (Place 591 49) false; SNode 130 (Place 585 49) (Place 591 49) true; SNode 131 (Place 585 49) (Place 591 49) false; SNode 132 (Place 603 49) (Place 623 49) true; SNode 133 (Place 605 49) (Place 621 49) true; SNode 134 (Place 612 49) (Place 621 49) false; SNode 135 (Place 612 49) (Place 613 49) false; SNode 136 (Place 614 49) (Place 621 49) false; SNode 137 (Place 624 50) (Place 682 50) true; SNode 138 (Place 629 50) (Place 639 50) false; SNode 139 (Place 630 50) (Place 638 50) true; SNode 140 (Place 630 50) (Place 631 50) false; SNode 141 (Place 632 50) (Place 638 50) false; SNode 142 (Place 633 50) (Place 638 50) false; SNode 143 (Place 640 50) (Place 647 50) false; SNode 144 (Place 624 50) (Place 667 50) false; SNode 145 (Place 647 50) (Place 649 50) false; SNode 146 (Place 650 50) (Place 667 50) false; SNode 147 (Place 650 50) (Place 667 50) true; SNode 148 (Place 650 50) (Place 667 50) false; SNode 149 (Place 654 50) (Place 660 50) false; SNode 150 (Place 661 50) (Place 667 50) false; SNode 151 (Place 668 50) (Place 682 50) true; SNode 152 (Place 670 50) (Place 680 50) true; SNode 153 (Place 677 50) (Place 680 50) false; SNode 154 (Place 683 51) (Place 741 51) true; SNode 155 (Place 688 51) (Place 698 51) false; SNode 156 (Place 689 51) (Place 697 51) true; SNode 157 (Place 689 51) (Place 690 51) false; SNode 158 (Place 691 51) (Place 697 51) false; SNode 159 (Place 692 51) (Place 697 51) false; SNode 160 (Place 699 51) (Place 704 51) false; SNode 161 (Place 683 51) (Place 712 51) false; SNode 162 (Place 704 51) (Place 706 51) false; SNode 163 (Place 707 51) (Place 712 51) false; SNode 164 (Place 707 51) (Place 712 51) true; SNode 165 (Place 707 51) (Place 712 51) false; SNode 166 (Place 727 51) (Place 741 51) true; SNode 167 (Place 729 51) (Place 739 51) true; SNode 168 (Place 736 51) (Place 739 51) false; SNode 169 (Place 742 52) (Place 808 52) true; SNode 170 (Place 747 52) (Place 757 52) false; SNode 171 (Place 748 52) (Place 756 52) true; SNode 172 (Place 748 52) (Place 749 52) false; SNode 173 (Place 750 52) (Place 756 52) false; SNode 174 (Place 751 52) (Place 756 52) false; SNode 175 (Place 758 52) (Place 763 52) false; SNode 176 (Place 742 52) (Place 772 52) false; SNode 177 (Place 763 52) (Place 765 52) false; SNode 178 (Place 766 52) (Place 772 52) false; SNode 179 (Place 766 52) (Place 772 52) true; SNode 180 (Place 766 52) (Place 772 52) false; SNode 181 (Place 786 52) (Place 808 52) true; SNode 182 (Place 788 52) (Place 806 52) true; SNode 183 (Place 795 52) (Place 806 52) false; SNode 184 (Place 795 52) (Place 804 52) false; SNode 185 (Place 795 52) (Place 796 52) false; SNode 186 (Place 797 52) (Place 804 52) false; SNode 187 (Place 810 54) (Place 828 54) true; SNode 188 (Place 815 54) (Place 828 54) true; SNode 189 (Place 815 54) (Place 819 54) false; SNode 190 (Place 820 54) (Place 828 54) false; SNode 191 (Place 826 54) (Place 828 54) false; SNode 192 (Place 862 59) (Place 916 61) true; SNode 193 (Place 867 59) (Place 875 59) false; SNode 194 (Place 868 59) (Place 874 59) true; SNode 195 (Place 868 59) (Place 869 59) false; SNode 196 (Place 870 59) (Place 874 59) false; SNode 197 (Place 876 59) (Place 879 59) false; SNode 198 (Place 862 59) (Place 887 59) false; SNode 199 (Place 879 59) (Place 881 59) false; SNode 200 (Place 882 59) (Place 887 59) false; SNode 201 (Place 882 59) (Place 887 59) true; SNode 202 (Place 882 59) (Place 887 59) false; SNode 203 (Place 888 59) (Place 916 61) true; SNode 204 (Place 891 60) (Place 914 60) true; SNode 205 (Place 898 60) (Place 914 60) false; SNode 206 (Place 899 60) (Place 914 60) false; SNode 207 (Place 899 60) (Place 904 60) false; SNode 208 (Place 905 60) (Place 913 60) false; SNode 209 (Place 918 63) (Place 973 67) true; SNode 210 (Place 923 63) (Place 934 63) false; SNode 211 (Place 918 63) (Place 936 63) false; SNode 212 (Place 934 63) (Place 936 63) false; SNode 213 (Place 937 63) (Place 973 67) true; SNode 214 (Place 940 64) (Place 952 64) true; SNode 215 (Place 940 64) (Place 952 64) true; SNode 216 (Place 944 64) (Place 952 64) true; SNode 217 (Place 944 64) (Place 945 64) false; SNode 218 (Place 946 64) (Place 952 64) false; SNode 219 (Place 954 65) (Place 964 65) true; SNode 220 (Place 954 65) (Place 955 65) false; SNode 221 (Place 958 65) (Place 964 65) false; SNode 222 (Place 958 65) (Place 962 65) false; SNode 223 (Place 966 66) (Place 971 66) true; SNode 224 (Place 966 66) (Place 967 66) false; SNode 225 (Place 970 66) (Place 971 66) false].
Definition t_edit_cgroups0 : list cgroup := [CGroup (Place 39 4) (Place 72 6) [(str "// Errors:"); (str "//"); (str "//    - edit-a --")]; CGroup (Place 155 16) (Place 186 18) [(str "// Errors:"); (str "//"); (str "//    - edit-a --")]; CGroup (Place 235 23) (Place 266 25) [(str "// Errors:"); (str "//"); (str "//    - edit-b --")]; CGroup (Place 320 31) (Place 351 33) [(str "// Errors:"); (str "//"); (str "//    - edit-b --")]; CGroup (Place 830 56) (Place 861 58) [(str "// Errors:"); (str "//"); (str "//    - edit-b --")]].
Definition t_edit_files : list source_file := [SourceFile t_edit_nodes0 t_edit_cgroups0].
Definition t_edit_info : typeinfo := map_info (list_to_map t_edit_types) (list_to_map t_edit_values) (list_to_map t_edit_uses) (list_to_map t_edit_defs) (list_to_map t_edit_sels) (list_to_set [1; 4; 5; 6; 7; 8; 9; 10; 11; 12; 13; 14; 15; 16; 17; 18; 19; 20; 47; 48; 54; 60]) (list_to_map t_edit_pkgnames) (list_to_map t_edit_objnames) (list_to_map t_edit_objtypes) (list_to_map t_edit_under) t_edit_methods t_edit_ierr t_edit_iree t_edit_icause t_edit_impl (list_to_map t_edit_named_methods).
Definition t_edit : package := Package (list_to_map [(1, t_edit_f1); (2, t_edit_f2); (3, t_edit_f3); (4, t_edit_f4); (5, t_edit_f5); (6, t_edit_f6); (7, t_edit_f7); (8, t_edit_f8); (9, t_edit_f9); (10, t_edit_f10); (11, t_edit_f11); (12, t_edit_f12)]) [1; 2; 3; 4; 5; 6; 7; 8; 9; 10; 11; 12] t_edit_gendecls t_edit_top (list_to_map t_edit_objs) (fun id => default [] (createCommentMap t_edit_files id)) t_edit_info.
Definition t_edit_rank : gostring -> nat := fun n => default 0%nat ((list_to_map [((str "Getter"), 1%nat)] : gmap gostring nat) !! n).

From Coq Require Import Ascii String.
From stdpp Require Import base list gmap relations.
From Verif Require Import GoString ErrorCode Scc Engine CodeSet Annotation Constant GoAst Taint Extract Analyse Phase ErrorTypes Claims Interfaces Conversions Verify
  SpecCodes SpecTaint SpecMay SpecLocal SpecClaims SpecInterfaces SpecCodeMethod SpecRun SpecEnd Checkers LocalChecker InterfaceChecker ExampleBase
  SpecLookup SpecReports SpecEdit PropEdit SpecSettled PropSettled ExampleEdit GoAst.
Local Open Scope list_scope.
Local Open Scope N_scope.

(** First gets the body of Second: it returns the same code, but does not call Get any more. *)
Definition new_first : func := Func (fn_pos t_edit_f3) (fn_decl t_edit_f3) (fn_type t_edit_f3) (fn_body t_edit_f4) (fn_body_pos t_edit_f3) (fn_body_end t_edit_f3).
Definition b_funcs : gmap fid func := <[ 3%N := new_first ]> (pk_funcs t_edit).
Definition b_edit : package := with_bodies b_funcs (pk_top t_edit) t_edit.
Definition b_run : run := run_of t_edit false (some_run_orders (collectFunctions t_edit)) no_facts.
Definition b_run' : run := run_of b_edit false (some_run_orders (collectFunctions b_edit)) no_facts.
Definition b_excess : diag := Diag 90 (str "cannot use expression as ""Getter"" value: method ""Get"" declares the following error codes which were not part of the interface: [edit-b]").
Lemma b_not_literal : not_literal t_edit 3%N = true.
Proof. vm_compute. reflexivity. Qed.

(** Only the body of First is edited; Get (function 1), load (2) and Convert (5), where a value is converted, do not mention First.  Nevertheless the
    report about the conversion disappears: Get declares no codes; as long as First mentions it, it is analysed together with First, and
    returns what load really returns; otherwise it is analysed at the conversion, when load counts with the codes it declares - wrongly,
    which is reported both times. *)
Theorem C48_refuted_conversions :
  same_headers t_edit b_funcs /\ (forall f, error_method t_edit f -> untouched t_edit b_funcs f) /\
  orders_ok (collectFunctions t_edit) (some_run_orders (collectFunctions t_edit)) /\ orders_ok (collectFunctions b_edit) (some_run_orders (collectFunctions b_edit)) /\
  completes t_edit false (some_run_orders (collectFunctions t_edit)) no_facts b_run /\
  completes b_edit false (some_run_orders (collectFunctions b_edit)) no_facts b_run' /\
  no_literal_cycle t_edit (collectFunctions t_edit) /\ no_literal_cycle b_edit (collectFunctions b_edit) /\
  interfaces_ok t_edit /\ distinct_definitions t_edit /\
  (forall f, f ∈ [1%N; 2%N; 5%N] -> unaffected t_edit b_funcs f) /\
  b_excess ∈ r_diags b_run /\ b_excess ∉ r_diags b_run'.
Proof.
  split_and!.
  - apply (headers_spec t_edit 3%N new_first t_edit_f3); [vm_compute; reflexivity|unfold same_header; split_and!; reflexivity|vm_compute; reflexivity].
  - eapply (methods_spec t_edit 3%N new_first t_edit_f3); [vm_compute; reflexivity|reflexivity|reflexivity|exact b_not_literal].
  - apply some_run_orders_ok.
  - apply some_run_orders_ok.
  - apply run_of_ok. vm_compute. reflexivity.
  - apply run_of_ok. vm_compute. reflexivity.
  - apply cycle_check_spec. vm_compute. reflexivity.
  - apply cycle_check_spec. vm_compute. reflexivity.
  - apply (interfaces_check_spec t_edit t_edit_rank). vm_compute. reflexivity.
  - apply definitions_check_spec. vm_compute. reflexivity.
  - intros f H. apply unaffected_spec; [exact b_not_literal|]. revert H. rewrite !elem_of_cons, elem_of_nil. intros [->|[->|[->|[]]]]; vm_compute; reflexivity.
  - assert (r_diags b_run !! 1%nat = Some b_excess) as H by (vm_compute; reflexivity). exact (elem_of_list_lookup_2 _ _ _ H).
  - assert (length (r_diags b_run') = 2%nat) as H1 by (vm_compute; reflexivity).
    assert (d_at <$> (r_diags b_run' !! 0%nat) = Some 35) as H2 by (vm_compute; reflexivity).
    assert (d_at <$> (r_diags b_run' !! 1%nat) = Some 221) as H3 by (vm_compute; reflexivity).
    intros H. apply elem_of_list_lookup in H as [[|[|i]] Hi].
    + rewrite Hi in H2. cbn in H2. discriminate H2.
    + rewrite Hi in H3. cbn in H3. discriminate H3.
    + apply lookup_lt_Some in Hi. rewrite H1 in Hi. exfalso. clear -Hi. lia.
Qed.

(** But the method of the other type declares its codes: the report about its conversion, in ConvertSaid (12), remains. *)
Definition b_known : diag := Diag 221 (str "cannot use expression as ""Getter"" value: method ""Get"" declares the following error codes which were not part of the interface: [edit-b]").
Definition b_facts : facts := facts_after t_edit (some_run_orders (collectFunctions t_edit)) b_run.
Definition parts (c : conv) : option (gmap gostring codeset * gotype * gotype * nid) :=
  match c with CSite s => Some (s_iface s, s_target s, s_value s, s_pos s) | CPanic => None end.
Definition b_site (value : gotype) (pos : nid) : site := Site {[ str "Get" := {[ str "edit-a" ]} ]} (TNamed 47) value pos.
Definition fn_body_of (funcs : gmap fid func) (f : fid) : option node := match funcs !! f with Some fn => fn_body fn | None => None end.
Theorem b_conversions :
  (exists said said' sites sites' rest rest',
    e_diags (r_end b_run) ≡ₚ e_diags (r_loop b_run) ++ (pk_top t_edit ≫= said) ++ rest /\
    e_diags (r_end b_run') ≡ₚ e_diags (r_loop b_run') ++ (pk_top b_edit ≫= said') ++ rest' /\
    said' (TopFunc 12) = said (TopFunc 12) /\ conversion_sites t_edit (some_run_orders (collectFunctions t_edit)) b_run sites /\
    conversion_sites b_edit (some_run_orders (collectFunctions b_edit)) b_run' sites') /\
  TopFunc 12 ∈ pk_top t_edit /\ untouched_decl t_edit b_funcs (TopFunc 12) /\ untouched_decl t_edit b_funcs (TopFunc 5) /\ ~ untouched_decl t_edit b_funcs (TopFunc 3) /\
  parts <$> top_conversions t_edit b_facts (TopFunc 12) = [parts (CSite (b_site (TNamed 60) 221))] /\
  compared (b_site (TNamed 60) 221) (str "Get") /\ settled t_edit b_facts (b_site (TNamed 60) 221) (str "Get") {[ str "edit-b" ]} /\
  parts <$> top_conversions t_edit b_facts (TopFunc 5) = [parts (CSite (b_site (TNamed 48) 90))] /\
  (forall codes, ~ settled t_edit b_facts (b_site (TNamed 48) 90) (str "Get") codes) /\
  b_known ∈ r_diags b_run /\ b_known ∈ r_diags b_run'.
Proof.
  destruct C48_refuted_conversions as (H1&H2&H3&H4&H5&H6&H7&H8&H9&H10&_).
  split_and!.
  - destruct (C48_conversions t_edit b_funcs (pk_top t_edit) false _ _ no_facts b_run b_run' H1 H2 H3 H4 H9 H10 H5 H6) as (said&said'&sites&sites'&rest&rest'&G1&G2&_&_&G5&G6&_&G8&_).
    exists said, said', sites, sites', rest, rest'. split_and!; [exact G1|exact G2| |exact G6|exact G8]. apply G5. apply not_literal_spec; [exact b_not_literal|discriminate].
  - apply elem_of_list_In. vm_compute. tauto.
  - apply not_literal_spec; [exact b_not_literal|discriminate].
  - apply not_literal_spec; [exact b_not_literal|discriminate].
  - intros [H _]. assert (fn_body_of b_funcs 3%N <> fn_body_of (pk_funcs t_edit) 3%N) as E2 by (vm_compute; discriminate). apply E2. unfold fn_body_of. rewrite H. reflexivity.
  - apply (bool_decide_unpack _). vm_compute. exact Logic.I.
  - unfold compared. split_and!; [discriminate|discriminate|]. exists {[ str "edit-a" ]}. apply (bool_decide_unpack _). vm_compute. exact Logic.I.
  - apply settled_spec. exists 61%N. split; [vm_compute; reflexivity|]. apply (bool_decide_unpack _). vm_compute. exact Logic.I.
  - apply (bool_decide_unpack _). vm_compute. exact Logic.I.
  - intros codes (o&Ho&Hc)%settled_spec. assert (searchMethodType t_edit (TNamed 48) (str "Get") = Some 49%N) as E by (vm_compute; reflexivity). cbn [b_site s_value] in Ho.
    rewrite E in Ho. injection Ho as <-. assert (fa_codes b_facts !! 49%N = None) as E2 by (apply (bool_decide_unpack _); vm_compute; exact Logic.I). pose proof (eq_trans (eq_sym Hc) E2) as X. discriminate X.
  - assert (r_diags b_run !! 2%nat = Some b_known) as H by (vm_compute; reflexivity). exact (elem_of_list_lookup_2 _ _ _ H).
  - assert (r_diags b_run' !! 1%nat = Some b_known) as H by (vm_compute; reflexivity). exact (elem_of_list_lookup_2 _ _ _ H).
Qed.
