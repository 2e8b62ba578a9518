(** * The test package annotation of /repo/analysis/testdata/src, run on the model.  Generated by tools/conform.py; see Conform.v. *)
From Coq Require Import Ascii String.
From stdpp Require Import base list gmap.
From Verif Require Import GoString Scc Engine Constant CommentText CommentMap Phase FactText Conform Claims Analyse Verify SpecTaint SpecProgram SpecLiterals SpecCodeMethod SpecInterfaces SpecSites SpecCrash SpecSound SpecWhole SpecLayout Checkers RecursionChecker LiteralChecker CodeCheckers FormChecker InterfaceChecker SoundChecker ChainChecker ExampleLayout GoAst.
Local Open Scope N_scope.
Definition t_annotation_f1 : func := Func 3 (Some (DeclInfo (Ident 4 (str "OverwriteReturn1") (Some 1)) None (Some (comment_text [(str "// Errors:"); (str "//"); (str "//    - overwritten-error -- error forced by annotation")])))) (FuncType 5 [] (Some [(Field 8 [] 9)]) 115) (Some (Node 10 (KOther (str "*ast.BlockStmt")) [(Node 11 KReturn [(Node 12 (KUnary true) [(Node 13 KComposite [(Node 15 KBasicLit [])])])])])) 121 246.
Definition t_annotation_f2 : func := Func 16 (Some (DeclInfo (Ident 17 (str "OverwriteReturn") (Some 2)) None (Some (comment_text [(str "// Errors:"); (str "//"); (str "//    - overwritten-1-error --"); (str "//    - overwritten-2-error --"); (str "//    - overwritten-3-error --"); (str "//    - overwritten-4-error --")])))) (FuncType 18 [] (Some [(Field 21 [] 22)]) 409) (Some (Node 23 (KOther (str "*ast.BlockStmt")) [(Node 24 (KOther (str "*ast.SwitchStmt")) [(Node 25 (KOther (str "*ast.BlockStmt")) [(Node 26 (KCaseClause 1%nat) [(Node 27 (KIdent (str "true") None) []); (Node 28 KReturn [(Node 29 (KUnary true) [(Node 30 KComposite [(Node 32 KBasicLit [])])])])]); (Node 33 (KCaseClause 1%nat) [(Node 34 (KIdent (str "true") None) []); (Node 35 (KAssign 1%nat) [(Node 36 (KIdent (str "err") (Some 3)) []); (Node 37 (KUnary true) [(Node 38 KComposite [])])]); (Node 40 (KAssign 1%nat) [(Node 41 KSelector [(Node 42 (KIdent (str "err") (Some 3)) []); (Node 43 (KIdent (str "TheCode") None) [])]); (Node 44 KBasicLit [])]); (Node 45 KReturn [(Node 46 (KIdent (str "err") (Some 3)) [])])]); (Node 47 (KCaseClause 1%nat) [(Node 48 (KIdent (str "true") None) []); (Node 49 KReturn [(Node 50 (KIdent (str "nil") None) [])])])])]); (Node 51 KReturn [(Node 52 (KIdent (str "nil") None) [])])])) 415 861.
Definition t_annotation_f3 : func := Func 53 (Some (DeclInfo (Ident 54 (str "OverwriteReturn3") (Some 4)) None (Some (comment_text [(str "// Errors: none")])))) (FuncType 55 [] (Some [(Field 58 [] 59)]) 903) (Some (Node 60 (KOther (str "*ast.BlockStmt")) [(Node 61 KReturn [(Node 62 (KUnary true) [(Node 63 KComposite [(Node 65 KBasicLit [])])])])])) 909 998.
Definition t_annotation_f4 : func := Func 66 (Some (DeclInfo (Ident 67 (str "AddReturn1") (Some 5)) None (Some (comment_text [(str "// Errors:"); (str "//"); (str "//    - some-error        -- found by analysis"); (str "//    - overwritten-error -- forced by annotation")])))) (FuncType 68 [] (Some [(Field 71 [] 72)]) 1129) (Some (Node 73 (KOther (str "*ast.BlockStmt")) [(Node 74 KReturn [(Node 75 (KUnary true) [(Node 76 KComposite [(Node 78 KBasicLit [])])])])])) 1135 1266.
Definition t_annotation_f5 : func := Func 79 (Some (DeclInfo (Ident 80 (str "AddReturn2") (Some 6)) None (Some (comment_text [(str "// Errors:"); (str "//"); (str "//    - some-1-error        --"); (str "//    - some-2-error        --"); (str "//    - overwritten-1-error --"); (str "//    - overwritten-2-error --"); (str "//    - overwritten-3-error --"); (str "//    - overwritten-4-error --")])))) (FuncType 81 [] (Some [(Field 84 [] 85)]) 1486) (Some (Node 86 (KOther (str "*ast.BlockStmt")) [(Node 87 (KOther (str "*ast.SwitchStmt")) [(Node 88 (KOther (str "*ast.BlockStmt")) [(Node 89 (KCaseClause 1%nat) [(Node 90 (KIdent (str "true") None) []); (Node 91 KReturn [(Node 92 (KUnary true) [(Node 93 KComposite [(Node 95 KBasicLit [])])])])]); (Node 96 (KCaseClause 1%nat) [(Node 97 (KIdent (str "true") None) []); (Node 98 (KAssign 1%nat) [(Node 99 (KIdent (str "err") (Some 7)) []); (Node 100 (KUnary true) [(Node 101 KComposite [])])]); (Node 103 (KAssign 1%nat) [(Node 104 KSelector [(Node 105 (KIdent (str "err") (Some 7)) []); (Node 106 (KIdent (str "TheCode") None) [])]); (Node 107 KBasicLit [])]); (Node 108 KReturn [(Node 109 (KIdent (str "err") (Some 7)) [])])]); (Node 110 (KCaseClause 1%nat) [(Node 111 (KIdent (str "true") None) []); (Node 112 KReturn [(Node 113 (KIdent (str "nil") None) [])])])])]); (Node 114 KReturn [(Node 115 (KIdent (str "nil") None) [])])])) 1492 1962.
Definition t_annotation_f6 : func := Func 116 (Some (DeclInfo (Ident 117 (str "SubReturn1") (Some 8)) None (Some (comment_text [(str "// Errors: none")])))) (FuncType 118 [] (Some [(Field 121 [] 122)]) 1998) (Some (Node 123 (KOther (str "*ast.BlockStmt")) [(Node 124 KReturn [(Node 125 (KUnary true) [(Node 126 KComposite [(Node 128 KBasicLit [])])])])])) 2004 2099.
Definition t_annotation_f7 : func := Func 129 (Some (DeclInfo (Ident 130 (str "SubReturn2") (Some 9)) None (Some (comment_text [(str "// Errors:"); (str "//"); (str "//    - assigned-error      --"); (str "//    - some-1-error        --"); (str "//    - overwritten-2-error --"); (str "//    - overwritten-3-error --"); (str "//    - overwritten-4-error --")])))) (FuncType 131 [] (Some [(Field 134 [] 135)]) 2288) (Some (Node 136 (KOther (str "*ast.BlockStmt")) [(Node 137 (KOther (str "*ast.SwitchStmt")) [(Node 138 (KOther (str "*ast.BlockStmt")) [(Node 139 (KCaseClause 1%nat) [(Node 140 (KIdent (str "true") None) []); (Node 141 KReturn [(Node 142 KCall [(Node 143 (KIdent (str "AddReturn2") (Some 6)) [])])])]); (Node 144 (KCaseClause 1%nat) [(Node 145 (KIdent (str "true") None) []); (Node 146 (KAssign 1%nat) [(Node 147 (KIdent (str "err") (Some 10)) []); (Node 148 (KUnary true) [(Node 149 KComposite [])])]); (Node 151 (KAssign 1%nat) [(Node 152 KSelector [(Node 153 (KIdent (str "err") (Some 10)) []); (Node 154 (KIdent (str "TheCode") None) [])]); (Node 155 KBasicLit [])]); (Node 156 KReturn [(Node 157 (KIdent (str "err") (Some 10)) [])])]); (Node 158 (KCaseClause 1%nat) [(Node 159 (KIdent (str "true") None) []); (Node 160 (KAssign 1%nat) [(Node 161 (KIdent (str "err") (Some 11)) []); (Node 162 (KUnary true) [(Node 163 KComposite [])])]); (Node 165 (KAssign 1%nat) [(Node 166 KSelector [(Node 167 (KIdent (str "err") (Some 11)) []); (Node 168 (KIdent (str "TheCode") None) [])]); (Node 169 KBasicLit [])]); (Node 170 KReturn [(Node 171 (KIdent (str "err") (Some 11)) [])])]); (Node 172 (KCaseClause 1%nat) [(Node 173 (KIdent (str "true") None) []); (Node 174 KReturn [(Node 175 (KIdent (str "nil") None) [])])])])]); (Node 176 KReturn [(Node 177 (KIdent (str "nil") None) [])])])) 2294 2981.
Definition t_annotation_f8 : func := Func 178 (Some (DeclInfo (Ident 179 (str "AddSubReturn1") (Some 12)) None (Some (comment_text [(str "// Errors:"); (str "//"); (str "//    - overwritten-error --")])))) (FuncType 180 [] (Some [(Field 183 [] 184)]) 3047) (Some (Node 185 (KOther (str "*ast.BlockStmt")) [(Node 186 KReturn [(Node 187 (KUnary true) [(Node 188 KComposite [(Node 190 KBasicLit [])])])])])) 3053 3186.
Definition t_annotation_f9 : func := Func 191 (Some (DeclInfo (Ident 192 (str "AddSubReturn2") (Some 13)) None (Some (comment_text [(str "// Errors:"); (str "//"); (str "//    - added-1-error       --"); (str "//    - added-2-error       --"); (str "//    - assigned-error      --"); (str "//    - some-1-error        --"); (str "//    - overwritten-2-error --"); (str "//    - overwritten-3-error --"); (str "//    - overwritten-4-error --")])))) (FuncType 193 [] (Some [(Field 196 [] 197)]) 3440) (Some (Node 198 (KOther (str "*ast.BlockStmt")) [(Node 199 (KOther (str "*ast.SwitchStmt")) [(Node 200 (KOther (str "*ast.BlockStmt")) [(Node 201 (KCaseClause 1%nat) [(Node 202 (KIdent (str "true") None) []); (Node 203 KReturn [(Node 204 KCall [(Node 205 (KIdent (str "AddReturn2") (Some 6)) [])])])]); (Node 206 (KCaseClause 1%nat) [(Node 207 (KIdent (str "true") None) []); (Node 208 (KAssign 1%nat) [(Node 209 (KIdent (str "err") (Some 14)) []); (Node 210 (KUnary true) [(Node 211 KComposite [])])]); (Node 213 (KAssign 1%nat) [(Node 214 KSelector [(Node 215 (KIdent (str "err") (Some 14)) []); (Node 216 (KIdent (str "TheCode") None) [])]); (Node 217 KBasicLit [])]); (Node 218 KReturn [(Node 219 (KIdent (str "err") (Some 14)) [])])]); (Node 220 (KCaseClause 1%nat) [(Node 221 (KIdent (str "true") None) []); (Node 222 KReturn [(Node 223 (KIdent (str "nil") None) [])])]); (Node 224 (KCaseClause 1%nat) [(Node 225 (KIdent (str "true") None) []); (Node 226 KReturn [(Node 227 (KIdent (str "nil") None) [])])])])]); (Node 228 KReturn [(Node 229 (KIdent (str "nil") None) [])])])) 3446 4147.
Definition t_annotation_f10 : func := Func 238 (Some (DeclInfo (Ident 244 (str "Code") None) (Some [(Field 240 [(Ident 241 (str "e") (Some 15))] 242)]) None)) (FuncType 245 [] (Some [(Field 248 [] 249)]) 4281) (Some (Node 250 (KOther (str "*ast.BlockStmt")) [(Node 251 KReturn [(Node 252 KSelector [(Node 253 (KIdent (str "e") (Some 15)) []); (Node 254 (KIdent (str "TheCode") None) [])])])])) 4302 4322.
Definition t_annotation_f11 : func := Func 255 (Some (DeclInfo (Ident 261 (str "Message") None) (Some [(Field 257 [(Ident 258 (str "e") (Some 16))] 259)]) None)) (FuncType 262 [] (Some [(Field 265 [] 266)]) 4349) (Some (Node 267 (KOther (str "*ast.BlockStmt")) [(Node 268 KReturn [(Node 269 KSelector [(Node 270 (KIdent (str "e") (Some 16)) []); (Node 271 (KIdent (str "TheCode") None) [])])])])) 4367 4387.
Definition t_annotation_f12 : func := Func 272 (Some (DeclInfo (Ident 278 (str "Details") None) (Some [(Field 274 [(Ident 275 (str "e") (Some 17))] 276)]) None)) (FuncType 279 [] (Some [(Field 282 [] 283)]) 4414) (Some (Node 286 (KOther (str "*ast.BlockStmt")) [(Node 287 KReturn [(Node 288 (KIdent (str "nil") None) [])])])) 4432 4446.
Definition t_annotation_f13 : func := Func 289 (Some (DeclInfo (Ident 295 (str "Cause") None) (Some [(Field 291 [(Ident 292 (str "e") (Some 18))] 293)]) None)) (FuncType 296 [] (Some [(Field 299 [] 300)]) 4471) (Some (Node 301 (KOther (str "*ast.BlockStmt")) [(Node 302 KReturn [(Node 303 (KIdent (str "nil") None) [])])])) 4491 4505.
Definition t_annotation_f14 : func := Func 304 (Some (DeclInfo (Ident 310 (str "Error") None) (Some [(Field 306 [(Ident 307 (str "e") (Some 19))] 308)]) None)) (FuncType 311 [] (Some [(Field 314 [] 315)]) 4530) (Some (Node 316 (KOther (str "*ast.BlockStmt")) [(Node 317 KReturn [(Node 318 KCall [(Node 319 KSelector [(Node 320 (KIdent (str "e") (Some 19)) []); (Node 321 (KIdent (str "Message") None) [])])])])])) 4550 4572.
Definition t_annotation_f15 : func := Func 324 (Some (DeclInfo (Ident 325 (str "InvalidOverwriteReturn1") (Some 20)) None (Some (comment_text [(str "// Errors:"); (str "//"); (str "//    - some-error -- error forced by annotation")])))) (FuncType 326 [] (Some [(Field 329 [] 330)]) 4688) (Some (Node 331 (KOther (str "*ast.BlockStmt")) [(Node 332 KReturn [(Node 333 (KUnary true) [(Node 334 KComposite [(Node 336 KBasicLit [])])])])])) 4694 4929.
Definition t_annotation_f16 : func := Func 337 (Some (DeclInfo (Ident 338 (str "InvalidOverwriteReturn2") (Some 21)) None (Some (comment_text [(str "// Errors: none")])))) (FuncType 339 [] (Some [(Field 342 [] 343)]) 4978) (Some (Node 344 (KOther (str "*ast.BlockStmt")) [(Node 345 (KOther (str "*ast.SwitchStmt")) [(Node 346 (KOther (str "*ast.BlockStmt")) [(Node 347 (KCaseClause 1%nat) [(Node 348 (KIdent (str "true") None) []); (Node 349 KReturn [(Node 350 (KIdent (str "nil") None) [])])]); (Node 351 (KCaseClause 1%nat) [(Node 352 (KIdent (str "true") None) []); (Node 353 KReturn [(Node 354 (KIdent (str "nil") None) [])])]); (Node 355 (KCaseClause 1%nat) [(Node 356 (KIdent (str "true") None) []); (Node 357 KReturn [(Node 358 (KIdent (str "nil") None) [])])]); (Node 359 (KCaseClause 1%nat) [(Node 360 (KIdent (str "true") None) []); (Node 361 KReturn [(Node 362 (KIdent (str "nil") None) [])])])])]); (Node 363 KReturn [(Node 364 (KIdent (str "nil") None) [])])])) 4984 5616.
Definition t_annotation_f17 : func := Func 365 (Some (DeclInfo (Ident 366 (str "InvalidAddReturn") (Some 22)) None (Some (comment_text [(str "// Errors: none")])))) (FuncType 367 [] (Some [(Field 370 [] 371)]) 5658) (Some (Node 372 (KOther (str "*ast.BlockStmt")) [(Node 373 (KOther (str "*ast.SwitchStmt")) [(Node 374 (KOther (str "*ast.BlockStmt")) [(Node 375 (KCaseClause 1%nat) [(Node 376 (KIdent (str "true") None) []); (Node 377 KReturn [(Node 378 (KIdent (str "nil") None) [])])]); (Node 379 (KCaseClause 1%nat) [(Node 380 (KIdent (str "true") None) []); (Node 381 KReturn [(Node 382 (KIdent (str "nil") None) [])])]); (Node 383 (KCaseClause 1%nat) [(Node 384 (KIdent (str "true") None) []); (Node 385 KReturn [(Node 386 (KIdent (str "nil") None) [])])])])]); (Node 387 KReturn [(Node 388 (KIdent (str "nil") None) [])])])) 5664 6121.
Definition t_annotation_f18 : func := Func 389 (Some (DeclInfo (Ident 390 (str "InvalidSubReturn") (Some 23)) None (Some (comment_text [(str "// Errors: none")])))) (FuncType 391 [] (Some [(Field 394 [] 395)]) 6163) (Some (Node 396 (KOther (str "*ast.BlockStmt")) [(Node 397 (KOther (str "*ast.SwitchStmt")) [(Node 398 (KOther (str "*ast.BlockStmt")) [(Node 399 (KCaseClause 1%nat) [(Node 400 (KIdent (str "true") None) []); (Node 401 KReturn [(Node 402 (KIdent (str "nil") None) [])])]); (Node 403 (KCaseClause 1%nat) [(Node 404 (KIdent (str "true") None) []); (Node 405 KReturn [(Node 406 (KIdent (str "nil") None) [])])]); (Node 407 (KCaseClause 1%nat) [(Node 408 (KIdent (str "true") None) []); (Node 409 KReturn [(Node 410 (KIdent (str "nil") None) [])])])])]); (Node 411 KReturn [(Node 412 (KIdent (str "nil") None) [])])])) 6169 6626.
Definition t_annotation_f19 : func := Func 413 (Some (DeclInfo (Ident 414 (str "InvalidAddSubReturn") (Some 24)) None (Some (comment_text [(str "// Errors: none")])))) (FuncType 415 [] (Some [(Field 418 [] 419)]) 6671) (Some (Node 420 (KOther (str "*ast.BlockStmt")) [(Node 421 (KOther (str "*ast.SwitchStmt")) [(Node 422 (KOther (str "*ast.BlockStmt")) [(Node 423 (KCaseClause 1%nat) [(Node 424 (KIdent (str "true") None) []); (Node 425 KReturn [(Node 426 (KIdent (str "nil") None) [])])]); (Node 427 (KCaseClause 1%nat) [(Node 428 (KIdent (str "true") None) []); (Node 429 KReturn [(Node 430 (KIdent (str "nil") None) [])])]); (Node 431 (KCaseClause 1%nat) [(Node 432 (KIdent (str "true") None) []); (Node 433 KReturn [(Node 434 (KIdent (str "nil") None) [])])])])]); (Node 435 KReturn [(Node 436 (KIdent (str "nil") None) [])])])) 6677 7162.
Definition t_annotation_gendecls : list gendecl := [GenDecl 230 [(Some (TypeSpec (Ident 232 (str "Error") (Some 25)) (XStruct [[(Ident 236 (str "TheCode") None)]])))]].
Definition t_annotation_top : list topdecl := [TopFunc 1; TopFunc 2; TopFunc 3; TopFunc 4; TopFunc 5; TopFunc 6; TopFunc 7; TopFunc 8; TopFunc 9; TopNode (Node 230 (KOther (str "*ast.GenDecl")) [(Node 231 (KOther (str "*ast.TypeSpec")) [])]); TopFunc 10; TopFunc 11; TopFunc 12; TopFunc 13; TopFunc 14; TopFunc 15; TopFunc 16; TopFunc 17; TopFunc 18; TopFunc 19].
Definition t_annotation_objs : list (N * object) := [(1, Object false 96 (DFunc 1)); (2, Object false 391 (DFunc 2)); (3, Object true 642 DOther); (4, Object false 884 (DFunc 3)); (5, Object false 1116 (DFunc 4)); (6, Object false 1473 (DFunc 5)); (7, Object true 1741 DOther); (8, Object false 1985 (DFunc 6)); (9, Object false 2275 (DFunc 7)); (10, Object true 2543 DOther); (11, Object true 2779 DOther); (12, Object false 3031 (DFunc 8)); (13, Object false 3424 (DFunc 9)); (14, Object true 3739 DOther); (15, Object true 4264 DOther); (16, Object true 4329 DOther); (17, Object true 4394 DOther); (18, Object true 4453 DOther); (19, Object true 4512 DOther); (20, Object false 4662 (DFunc 15)); (21, Object false 4952 (DFunc 16)); (22, Object false 5639 (DFunc 17)); (23, Object false 6144 (DFunc 18)); (24, Object false 6649 (DFunc 19)); (25, Object false 4154 DType)].
Definition t_annotation_types : list (N * gotype) := [(5, (TSignature [] [(TNamed 1)] false)); (9, (TNamed 1)); (12, (TPointer (TNamed 56))); (13, (TNamed 56)); (14, (TNamed 56)); (15, (TBasic (str "string"))); (18, (TSignature [] [(TNamed 1)] false)); (22, (TNamed 1)); (27, (TBasic (str "bool"))); (29, (TPointer (TNamed 56))); (30, (TNamed 56)); (31, (TNamed 56)); (32, (TBasic (str "string"))); (34, (TBasic (str "bool"))); (36, (TPointer (TNamed 56))); (37, (TPointer (TNamed 56))); (38, (TNamed 56)); (39, (TNamed 56)); (41, (TBasic (str "string"))); (42, (TPointer (TNamed 56))); (43, (TBasic (str "string"))); (44, (TBasic (str "string"))); (46, (TPointer (TNamed 56))); (48, (TBasic (str "bool"))); (50, TUntypedNil); (52, TUntypedNil); (55, (TSignature [] [(TNamed 1)] false)); (59, (TNamed 1)); (62, (TPointer (TNamed 56))); (63, (TNamed 56)); (64, (TNamed 56)); (65, (TBasic (str "string"))); (68, (TSignature [] [(TNamed 1)] false)); (72, (TNamed 1)); (75, (TPointer (TNamed 56))); (76, (TNamed 56)); (77, (TNamed 56)); (78, (TBasic (str "string"))); (81, (TSignature [] [(TNamed 1)] false)); (85, (TNamed 1)); (90, (TBasic (str "bool"))); (92, (TPointer (TNamed 56))); (93, (TNamed 56)); (94, (TNamed 56)); (95, (TBasic (str "string"))); (97, (TBasic (str "bool"))); (99, (TPointer (TNamed 56))); (100, (TPointer (TNamed 56))); (101, (TNamed 56)); (102, (TNamed 56)); (104, (TBasic (str "string"))); (105, (TPointer (TNamed 56))); (106, (TBasic (str "string"))); (107, (TBasic (str "string"))); (109, (TPointer (TNamed 56))); (111, (TBasic (str "bool"))); (113, TUntypedNil); (115, TUntypedNil); (118, (TSignature [] [(TNamed 1)] false)); (122, (TNamed 1)); (125, (TPointer (TNamed 56))); (126, (TNamed 56)); (127, (TNamed 56)); (128, (TBasic (str "string"))); (131, (TSignature [] [(TNamed 1)] false)); (135, (TNamed 1)); (140, (TBasic (str "bool"))); (142, (TNamed 1)); (143, (TSignature [] [(TNamed 1)] false)); (145, (TBasic (str "bool"))); (147, (TPointer (TNamed 56))); (148, (TPointer (TNamed 56))); (149, (TNamed 56)); (150, (TNamed 56)); (152, (TBasic (str "string"))); (153, (TPointer (TNamed 56))); (154, (TBasic (str "string"))); (155, (TBasic (str "string"))); (157, (TPointer (TNamed 56))); (159, (TBasic (str "bool"))); (161, (TPointer (TNamed 56))); (162, (TPointer (TNamed 56))); (163, (TNamed 56)); (164, (TNamed 56)); (166, (TBasic (str "string"))); (167, (TPointer (TNamed 56))); (168, (TBasic (str "string"))); (169, (TBasic (str "string"))); (171, (TPointer (TNamed 56))); (173, (TBasic (str "bool"))); (175, TUntypedNil); (177, TUntypedNil); (180, (TSignature [] [(TNamed 1)] false)); (184, (TNamed 1)); (187, (TPointer (TNamed 56))); (188, (TNamed 56)); (189, (TNamed 56)); (190, (TBasic (str "string"))); (193, (TSignature [] [(TNamed 1)] false)); (197, (TNamed 1)); (202, (TBasic (str "bool"))); (204, (TNamed 1)); (205, (TSignature [] [(TNamed 1)] false)); (207, (TBasic (str "bool"))); (209, (TPointer (TNamed 56))); (210, (TPointer (TNamed 56))); (211, (TNamed 56)); (212, (TNamed 56)); (214, (TBasic (str "string"))); (215, (TPointer (TNamed 56))); (216, (TBasic (str "string"))); (217, (TBasic (str "string"))); (219, (TPointer (TNamed 56))); (221, (TBasic (str "bool"))); (223, TUntypedNil); (225, (TBasic (str "bool"))); (227, TUntypedNil); (229, TUntypedNil); (232, (TNamed 56)); (233, (TStruct [((str "TheCode"), (TBasic (str "string")))])); (236, (TBasic (str "string"))); (237, (TBasic (str "string"))); (241, (TPointer (TNamed 56))); (242, (TPointer (TNamed 56))); (243, (TNamed 56)); (245, (TSignature [] [(TBasic (str "string"))] false)); (249, (TBasic (str "string"))); (252, (TBasic (str "string"))); (253, (TPointer (TNamed 56))); (254, (TBasic (str "string"))); (258, (TPointer (TNamed 56))); (259, (TPointer (TNamed 56))); (260, (TNamed 56)); (262, (TSignature [] [(TBasic (str "string"))] false)); (266, (TBasic (str "string"))); (269, (TBasic (str "string"))); (270, (TPointer (TNamed 56))); (271, (TBasic (str "string"))); (275, (TPointer (TNamed 56))); (276, (TPointer (TNamed 56))); (277, (TNamed 56)); (279, (TSignature [] [(TMap (TBasic (str "string")) (TBasic (str "string")))] false)); (283, (TMap (TBasic (str "string")) (TBasic (str "string")))); (284, (TBasic (str "string"))); (285, (TBasic (str "string"))); (288, TUntypedNil); (292, (TPointer (TNamed 56))); (293, (TPointer (TNamed 56))); (294, (TNamed 56)); (296, (TSignature [] [(TNamed 1)] false)); (300, (TNamed 1)); (303, TUntypedNil); (307, (TPointer (TNamed 56))); (308, (TPointer (TNamed 56))); (309, (TNamed 56)); (311, (TSignature [] [(TBasic (str "string"))] false)); (315, (TBasic (str "string"))); (318, (TBasic (str "string"))); (319, (TSignature [] [(TBasic (str "string"))] false)); (320, (TPointer (TNamed 56))); (321, (TSignature [] [(TBasic (str "string"))] false)); (326, (TSignature [] [(TNamed 1)] false)); (330, (TNamed 1)); (333, (TPointer (TNamed 56))); (334, (TNamed 56)); (335, (TNamed 56)); (336, (TBasic (str "string"))); (339, (TSignature [] [(TNamed 1)] false)); (343, (TNamed 1)); (348, (TBasic (str "bool"))); (350, TUntypedNil); (352, (TBasic (str "bool"))); (354, TUntypedNil); (356, (TBasic (str "bool"))); (358, TUntypedNil); (360, (TBasic (str "bool"))); (362, TUntypedNil); (364, TUntypedNil); (367, (TSignature [] [(TNamed 1)] false)); (371, (TNamed 1)); (376, (TBasic (str "bool"))); (378, TUntypedNil); (380, (TBasic (str "bool"))); (382, TUntypedNil); (384, (TBasic (str "bool"))); (386, TUntypedNil); (388, TUntypedNil); (391, (TSignature [] [(TNamed 1)] false)); (395, (TNamed 1)); (400, (TBasic (str "bool"))); (402, TUntypedNil); (404, (TBasic (str "bool"))); (406, TUntypedNil); (408, (TBasic (str "bool"))); (410, TUntypedNil); (412, TUntypedNil); (415, (TSignature [] [(TNamed 1)] false)); (419, (TNamed 1)); (424, (TBasic (str "bool"))); (426, TUntypedNil); (428, (TBasic (str "bool"))); (430, TUntypedNil); (432, (TBasic (str "bool"))); (434, TUntypedNil); (436, TUntypedNil)].
Definition t_annotation_values : list (N * constval) := [(15, CString (str "some-error")); (27, COther); (32, CString (str "some-1-error")); (34, COther); (44, CString (str "some-2-error")); (48, COther); (65, CString (str "some-error")); (78, CString (str "some-error")); (90, COther); (95, CString (str "some-1-error")); (97, COther); (107, CString (str "some-2-error")); (111, COther); (128, CString (str "some-error")); (140, COther); (145, COther); (155, CString (str "assigned-error")); (159, COther); (169, CString (str "unkown-error")); (173, COther); (190, CString (str "some-error")); (202, COther); (207, COther); (217, CString (str "assigned-error")); (221, COther); (225, COther); (336, CString (str "some-error")); (348, COther); (352, COther); (356, COther); (360, COther); (376, COther); (380, COther); (384, COther); (400, COther); (404, COther); (408, COther); (424, COther); (428, COther); (432, COther)].
Definition t_annotation_uses : list (N * tobj) := [(9, 1); (14, 56); (22, 1); (27, 21); (31, 56); (34, 21); (39, 56); (42, 73); (43, 72); (46, 73); (48, 21); (50, 24); (52, 24); (59, 1); (64, 56); (72, 1); (77, 56); (85, 1); (90, 21); (94, 56); (97, 21); (102, 56); (105, 74); (106, 72); (109, 74); (111, 21); (113, 24); (115, 24); (122, 1); (127, 56); (135, 1); (140, 21); (143, 51); (145, 21); (150, 56); (153, 75); (154, 72); (157, 75); (159, 21); (164, 56); (167, 76); (168, 72); (171, 76); (173, 21); (175, 24); (177, 24); (184, 1); (189, 56); (197, 1); (202, 21); (205, 51); (207, 21); (212, 56); (215, 77); (216, 72); (219, 77); (221, 21); (223, 24); (225, 21); (227, 24); (229, 24); (237, 5); (243, 56); (249, 5); (253, 67); (254, 72); (260, 56); (266, 5); (270, 68); (271, 72); (277, 56); (284, 5); (285, 5); (288, 24); (294, 56); (300, 1); (303, 24); (309, 56); (315, 5); (320, 71); (321, 58); (330, 1); (335, 56); (343, 1); (348, 21); (350, 24); (352, 21); (354, 24); (356, 21); (358, 24); (360, 21); (362, 24); (364, 24); (371, 1); (376, 21); (378, 24); (380, 21); (382, 24); (384, 21); (386, 24); (388, 24); (395, 1); (400, 21); (402, 24); (404, 21); (406, 24); (408, 21); (410, 24); (412, 24); (419, 1); (424, 21); (426, 24); (428, 21); (430, 24); (432, 21); (434, 24); (436, 24)].
Definition t_annotation_defs : list (N * tobj) := [(4, 47); (17, 48); (36, 73); (54, 49); (67, 50); (80, 51); (99, 74); (117, 52); (130, 53); (147, 75); (161, 76); (179, 54); (192, 55); (209, 77); (232, 56); (241, 67); (244, 57); (258, 68); (261, 58); (275, 69); (278, 59); (292, 70); (295, 60); (307, 71); (310, 61); (325, 62); (338, 63); (366, 64); (390, 65); (414, 66)].
Definition t_annotation_sels : list (N * (tobj * gotype)) := [(41, (72, (TPointer (TNamed 56)))); (104, (72, (TPointer (TNamed 56)))); (152, (72, (TPointer (TNamed 56)))); (166, (72, (TPointer (TNamed 56)))); (214, (72, (TPointer (TNamed 56)))); (252, (72, (TPointer (TNamed 56)))); (269, (72, (TPointer (TNamed 56)))); (319, (58, (TPointer (TNamed 56))))].
Definition t_annotation_pkgnames : list (N * gostring) := [].
Definition t_annotation_objnames : list (N * gostring) := [(1, (str "error")); (2, (str "Error")); (3, (str "?")); (4, (str "bool")); (5, (str "string")); (6, (str "int")); (7, (str "int8")); (8, (str "int16")); (9, (str "int32")); (10, (str "int64")); (11, (str "uint")); (12, (str "uint8")); (13, (str "uint16")); (14, (str "uint32")); (15, (str "uint64")); (16, (str "uintptr")); (17, (str "float32")); (18, (str "float64")); (19, (str "complex64")); (20, (str "complex128")); (21, (str "true")); (22, (str "false")); (23, (str "iota")); (24, (str "nil")); (25, (str "append")); (26, (str "cap")); (27, (str "close")); (28, (str "complex")); (29, (str "copy")); (30, (str "delete")); (31, (str "imag")); (32, (str "len")); (33, (str "make")); (34, (str "new")); (35, (str "panic")); (36, (str "print")); (37, (str "println")); (38, (str "real")); (39, (str "recover")); (40, (str "Errorf")); (41, (str "Sprintf")); (42, (str "Println")); (43, (str "New")); (44, (str "HasPrefix")); (45, (str "Float32")); (46, (str "Float64")); (47, (str "OverwriteReturn1")); (48, (str "OverwriteReturn")); (49, (str "OverwriteReturn3")); (50, (str "AddReturn1")); (51, (str "AddReturn2")); (52, (str "SubReturn1")); (53, (str "SubReturn2")); (54, (str "AddSubReturn1")); (55, (str "AddSubReturn2")); (56, (str "Error")); (57, (str "Code")); (58, (str "Message")); (59, (str "Details")); (60, (str "Cause")); (61, (str "Error")); (62, (str "InvalidOverwriteReturn1")); (63, (str "InvalidOverwriteReturn2")); (64, (str "InvalidAddReturn")); (65, (str "InvalidSubReturn")); (66, (str "InvalidAddSubReturn")); (67, (str "e")); (68, (str "e")); (69, (str "e")); (70, (str "e")); (71, (str "e")); (72, (str "TheCode")); (73, (str "err")); (74, (str "err")); (75, (str "err")); (76, (str "err")); (77, (str "err"))].
Definition t_annotation_objtypes : list (N * gotype) := [(1, (TNamed 1)); (2, (TSignature [] [(TBasic (str "string"))] false)); (4, (TBasic (str "bool"))); (5, (TBasic (str "string"))); (6, (TBasic (str "int"))); (7, (TBasic (str "int8"))); (8, (TBasic (str "int16"))); (9, (TBasic (str "int32"))); (10, (TBasic (str "int64"))); (11, (TBasic (str "uint"))); (12, (TBasic (str "uint8"))); (13, (TBasic (str "uint16"))); (14, (TBasic (str "uint32"))); (15, (TBasic (str "uint64"))); (16, (TBasic (str "uintptr"))); (17, (TBasic (str "float32"))); (18, (TBasic (str "float64"))); (19, (TBasic (str "complex64"))); (20, (TBasic (str "complex128"))); (40, (TSignature [(TBasic (str "string")); (TSlice (TInterface 4))] [(TNamed 1)] true)); (41, (TSignature [(TBasic (str "string")); (TSlice (TInterface 4))] [(TBasic (str "string"))] true)); (42, (TSignature [(TSlice (TInterface 4))] [(TBasic (str "int")); (TNamed 1)] true)); (43, (TSignature [(TBasic (str "string"))] [(TNamed 1)] false)); (44, (TSignature [(TBasic (str "string")); (TBasic (str "string"))] [(TBasic (str "bool"))] false)); (45, (TSignature [] [(TBasic (str "float32"))] false)); (46, (TSignature [] [(TBasic (str "float64"))] false)); (47, (TSignature [] [(TNamed 1)] false)); (48, (TSignature [] [(TNamed 1)] false)); (49, (TSignature [] [(TNamed 1)] false)); (50, (TSignature [] [(TNamed 1)] false)); (51, (TSignature [] [(TNamed 1)] false)); (52, (TSignature [] [(TNamed 1)] false)); (53, (TSignature [] [(TNamed 1)] false)); (54, (TSignature [] [(TNamed 1)] false)); (55, (TSignature [] [(TNamed 1)] false)); (56, (TNamed 56)); (57, (TSignature [] [(TBasic (str "string"))] false)); (58, (TSignature [] [(TBasic (str "string"))] false)); (59, (TSignature [] [(TMap (TBasic (str "string")) (TBasic (str "string")))] false)); (60, (TSignature [] [(TNamed 1)] false)); (61, (TSignature [] [(TBasic (str "string"))] false)); (62, (TSignature [] [(TNamed 1)] false)); (63, (TSignature [] [(TNamed 1)] false)); (64, (TSignature [] [(TNamed 1)] false)); (65, (TSignature [] [(TNamed 1)] false)); (66, (TSignature [] [(TNamed 1)] false)); (67, (TPointer (TNamed 56))); (68, (TPointer (TNamed 56))); (69, (TPointer (TNamed 56))); (70, (TPointer (TNamed 56))); (71, (TPointer (TNamed 56))); (72, (TBasic (str "string"))); (73, (TPointer (TNamed 56))); (74, (TPointer (TNamed 56))); (75, (TPointer (TNamed 56))); (76, (TPointer (TNamed 56))); (77, (TPointer (TNamed 56)))].
Definition t_annotation_under : list (N * gotype) := [(1, (TInterface 1)); (56, (TStruct [((str "TheCode"), (TBasic (str "string")))]))].
Definition t_annotation_named_methods : list (N * (list gostring)) := [(56, [(str "Code"); (str "Message"); (str "Details"); (str "Cause"); (str "Error")])].
Definition t_annotation_methods : list (gotype * gostring * tobj) := [((TInterface 1), (str "Error"), 2); ((TNamed 1), (str "Error"), 2); ((TPointer (TNamed 56)), (str "Cause"), 60); ((TPointer (TNamed 56)), (str "Code"), 57); ((TPointer (TNamed 56)), (str "Details"), 59); ((TPointer (TNamed 56)), (str "Error"), 61); ((TPointer (TNamed 56)), (str "Message"), 58)].
Definition t_annotation_ierr : list gotype := [(TInterface 1); (TNamed 1); (TPointer (TNamed 56))].
Definition t_annotation_iree : list gotype := [(TPointer (TNamed 56))].
Definition t_annotation_icause : list gotype := [(TPointer (TNamed 56))].
Definition t_annotation_impl : list (gotype * gotype) := [((TInterface 1), (TInterface 1)); ((TNamed 1), (TInterface 1)); ((TPointer (TNamed 56)), (TInterface 1))].
Definition t_annotation_nodes0 : list snode := [SNode 1 (Place 0 1) (Place 4571 154) true; SNode 2 (Place 8 1) (Place 18 1) false; SNode 3 (Place 90 6) (Place 245 9) true; SNode 4 (Place 95 6) (Place 111 6) false; SNode 5 (Place 90 6) (Place 119 6) false; SNode 6 (Place 111 6) (Place 113 6) false; SNode 7 (Place 114 6) (Place 119 6) false; SNode 8 (Place 114 6) (Place 119 6) true; SNode 9 (Place 114 6) (Place 119 6) false; SNode 10 (Place 120 6) (Place 245 9) true; SNode 11 (Place 216 8) (Place 243 8) true; SNode 12 (Place 223 8) (Place 243 8) false; SNode 13 (Place 224 8) (Place 243 8) false; SNode 14 (Place 224 8) (Place 229 8) false; SNode 15 (Place 230 8) (Place 242 8) false; SNode 16 (Place 385 17) (Place 860 32) true; SNode 17 (Place 390 17) (Place 405 17) false; SNode 18 (Place 385 17) (Place 413 17) false; SNode 19 (Place 405 17) (Place 407 17) false; SNode 20 (Place 408 17) (Place 413 17) false; SNode 21 (Place 408 17) (Place 413 17) true; SNode 22 (Place 408 17) (Place 413 17) false; SNode 23 (Place 414 17) (Place 860 32) true; SNode 24 (Place 535 18) (Place 846 30) true; SNode 25 (Place 542 18) (Place 846 30) true; SNode 26 (Place 545 19) (Place 626 21) true; SNode 27 (Place 550 19) (Place 554 19) false; SNode 28 (Place 597 21) (Place 626 21) true; SNode 29 (Place 604 21) (Place 626 21) false; SNode 30 (Place 605 21) (Place 626 21) false; SNode 31 (Place 605 21) (Place 610 21) false; SNode 32 (Place 611 21) (Place 625 21) false; SNode 33 (Place 628 22) (Place 737 26) true; SNode 34 (Place 633 22) (Place 637 22) false; SNode 35 (Place 641 23) (Place 656 23) true; SNode 36 (Place 641 23) (Place 644 23) false; SNode 37 (Place 648 23) (Place 656 23) false; SNode 38 (Place 649 23) (Place 656 23) false; SNode 39 (Place 649 23) (Place 654 23) false; SNode 40 (Place 659 24) (Place 687 24) true; SNode 41 (Place 659 24) (Place 670 24) false; SNode 42 (Place 659 24) (Place 662 24) false; SNode 43 (Place 663 24) (Place 670 24) false; SNode 44 (Place 673 24) (Place 687 24) false; SNode 45 (Place 727 26) (Place 737 26) true; SNode 46 (Place 734 26) (Place 737 26) false; SNode 47 (Place 739 27) (Place 843 29) true; SNode 48 (Place 744 27) (Place 748 27) false; SNode 49 (Place 833 29) (Place 843 29) true; SNode 50 (Place 840 29) (Place 843 29) false; SNode 51 (Place 848 31) (Place 858 31) true; SNode 52 (Place 855 31) (Place 858 31) false; SNode 53 (Place 878 35) (Place 997 38) true; SNode 54 (Place 883 35) (Place 899 35) false; SNode 55 (Place 878 35) (Place 907 35) false; SNode 56 (Place 899 35) (Place 901 35) false; SNode 57 (Place 902 35) (Place 907 35) false; SNode 58 (Place 902 35) (Place 907 35) true; SNode 59 (Place 902 35) (Place 907 35) false; SNode 60 (Place 908 35) (Place 997 38) true; SNode 61 (Place 968 37) (Place 995 37) true; SNode 62 (Place 975 37) (Place 995 37) false; SNode 63 (Place 976 37) (Place 995 37) false; SNode 64 (Place 976 37) (Place 981 37) false; SNode 65 (Place 982 37) (Place 994 37) false; SNode 66 (Place 1110 44) (Place 1265 47) true; SNode 67 (Place 1115 44) (Place 1125 44) false; SNode 68 (Place 1110 44) (Place 1133 44) false; SNode 69 (Place 1125 44) (Place 1127 44) false; SNode 70 (Place 1128 44) (Place 1133 44) false; SNode 71 (Place 1128 44) (Place 1133 44) true; SNode 72 (Place 1128 44) (Place 1133 44) false; SNode 73 (Place 1134 44) (Place 1265 47) true; SNode 74 (Place 1236 46) (Place 1263 46) true; SNode 75 (Place 1243 46) (Place 1263 46) false; SNode 76 (Place 1244 46) (Place 1263 46) false; SNode 77 (Place 1244 46) (Place 1249 46) false; SNode 78 (Place 1250 46) (Place 1262 46) false; SNode 79 (Place 1467 57) (Place 1961 72) true; SNode 80 (Place 1472 57) (Place 1482 57) false; SNode 81 (Place 1467 57) (Place 1490 57) false; SNode 82 (Place 1482 57) (Place 1484 57) false; SNode 83 (Place 1485 57) (Place 1490 57) false; SNode 84 (Place 1485 57) (Place 1490 57) true; SNode 85 (Place 1485 57) (Place 1490 57) false; SNode 86 (Place 1491 57) (Place 1961 72) true; SNode 87 (Place 1633 58) (Place 1947 70) true; SNode 88 (Place 1640 58) (Place 1947 70) true; SNode 89 (Place 1643 59) (Place 1725 61) true; SNode 90 (Place 1648 59) (Place 1652 59) false; SNode 91 (Place 1696 61) (Place 1725 61) true; SNode 92 (Place 1703 61) (Place 1725 61) false; SNode 93 (Place 1704 61) (Place 1725 61) false; SNode 94 (Place 1704 61) (Place 1709 61) false; SNode 95 (Place 1710 61) (Place 1724 61) false; SNode 96 (Place 1727 62) (Place 1837 66) true; SNode 97 (Place 1732 62) (Place 1736 62) false; SNode 98 (Place 1740 63) (Place 1755 63) true; SNode 99 (Place 1740 63) (Place 1743 63) false; SNode 100 (Place 1747 63) (Place 1755 63) false; SNode 101 (Place 1748 63) (Place 1755 63) false; SNode 102 (Place 1748 63) (Place 1753 63) false; SNode 103 (Place 1758 64) (Place 1786 64) true; SNode 104 (Place 1758 64) (Place 1769 64) false; SNode 105 (Place 1758 64) (Place 1761 64) false; SNode 106 (Place 1762 64) (Place 1769 64) false; SNode 107 (Place 1772 64) (Place 1786 64) false; SNode 108 (Place 1827 66) (Place 1837 66) true; SNode 109 (Place 1834 66) (Place 1837 66) false; SNode 110 (Place 1839 67) (Place 1944 69) true; SNode 111 (Place 1844 67) (Place 1848 67) false; SNode 112 (Place 1934 69) (Place 1944 69) true; SNode 113 (Place 1941 69) (Place 1944 69) false; SNode 114 (Place 1949 71) (Place 1959 71) true; SNode 115 (Place 1956 71) (Place 1959 71) false; SNode 116 (Place 1979 75) (Place 2098 78) true; SNode 117 (Place 1984 75) (Place 1994 75) false; SNode 118 (Place 1979 75) (Place 2002 75) false; SNode 119 (Place 1994 75) (Place 1996 75) false; SNode 120 (Place 1997 75) (Place 2002 75) false; SNode 121 (Place 1997 75) (Place 2002 75) true; SNode 122 (Place 1997 75) (Place 2002 75) false; SNode 123 (Place 2003 75) (Place 2098 78) true; SNode 124 (Place 2069 77) (Place 2096 77) true; SNode 125 (Place 2076 77) (Place 2096 77) false; SNode 126 (Place 2077 77) (Place 2096 77) false; SNode 127 (Place 2077 77) (Place 2082 77) false; SNode 128 (Place 2083 77) (Place 2095 77) false; SNode 129 (Place 2269 87) (Place 2980 107) true; SNode 130 (Place 2274 87) (Place 2284 87) false; SNode 131 (Place 2269 87) (Place 2292 87) false; SNode 132 (Place 2284 87) (Place 2286 87) false; SNode 133 (Place 2287 87) (Place 2292 87) false; SNode 134 (Place 2287 87) (Place 2292 87) true; SNode 135 (Place 2287 87) (Place 2292 87) false; SNode 136 (Place 2293 87) (Place 2980 107) true; SNode 137 (Place 2417 88) (Place 2966 105) true; SNode 138 (Place 2424 88) (Place 2966 105) true; SNode 139 (Place 2427 89) (Place 2527 91) true; SNode 140 (Place 2432 89) (Place 2436 89) false; SNode 141 (Place 2508 91) (Place 2527 91) true; SNode 142 (Place 2515 91) (Place 2527 91) false; SNode 143 (Place 2515 91) (Place 2525 91) false; SNode 144 (Place 2529 92) (Place 2636 96) true; SNode 145 (Place 2534 92) (Place 2538 92) false; SNode 146 (Place 2542 93) (Place 2557 93) true; SNode 147 (Place 2542 93) (Place 2545 93) false; SNode 148 (Place 2549 93) (Place 2557 93) false; SNode 149 (Place 2550 93) (Place 2557 93) false; SNode 150 (Place 2550 93) (Place 2555 93) false; SNode 151 (Place 2560 94) (Place 2590 94) true; SNode 152 (Place 2560 94) (Place 2571 94) false; SNode 153 (Place 2560 94) (Place 2563 94) false; SNode 154 (Place 2564 94) (Place 2571 94) false; SNode 155 (Place 2574 94) (Place 2590 94) false; SNode 156 (Place 2626 96) (Place 2636 96) true; SNode 157 (Place 2633 96) (Place 2636 96) false; SNode 158 (Place 2765 97) (Place 2856 101) true; SNode 159 (Place 2770 97) (Place 2774 97) false; SNode 160 (Place 2778 98) (Place 2793 98) true; SNode 161 (Place 2778 98) (Place 2781 98) false; SNode 162 (Place 2785 98) (Place 2793 98) false; SNode 163 (Place 2786 98) (Place 2793 98) false; SNode 164 (Place 2786 98) (Place 2791 98) false; SNode 165 (Place 2796 99) (Place 2824 99) true; SNode 166 (Place 2796 99) (Place 2807 99) false; SNode 167 (Place 2796 99) (Place 2799 99) false; SNode 168 (Place 2800 99) (Place 2807 99) false; SNode 169 (Place 2810 99) (Place 2824 99) false; SNode 170 (Place 2846 101) (Place 2856 101) true; SNode 171 (Place 2853 101) (Place 2856 101) false; SNode 172 (Place 2858 102) (Place 2963 104) true; SNode 173 (Place 2863 102) (Place 2867 102) false; SNode 174 (Place 2953 104) (Place 2963 104) true; SNode 175 (Place 2960 104) (Place 2963 104) false; SNode 176 (Place 2968 106) (Place 2978 106) true; SNode 177 (Place 2975 106) (Place 2978 106) false; SNode 178 (Place 3025 112) (Place 3185 115) true; SNode 179 (Place 3030 112) (Place 3043 112) false; SNode 180 (Place 3025 112) (Place 3051 112) false; SNode 181 (Place 3043 112) (Place 3045 112) false; SNode 182 (Place 3046 112) (Place 3051 112) false; SNode 183 (Place 3046 112) (Place 3051 112) true; SNode 184 (Place 3046 112) (Place 3051 112) false; SNode 185 (Place 3052 112) (Place 3185 115) true; SNode 186 (Place 3156 114) (Place 3183 114) true; SNode 187 (Place 3163 114) (Place 3183 114) false; SNode 188 (Place 3164 114) (Place 3183 114) false; SNode 189 (Place 3164 114) (Place 3169 114) false; SNode 190 (Place 3170 114) (Place 3182 114) false; SNode 191 (Place 3418 126) (Place 4146 144) true; SNode 192 (Place 3423 126) (Place 3436 126) false; SNode 193 (Place 3418 126) (Place 3444 126) false; SNode 194 (Place 3436 126) (Place 3438 126) false; SNode 195 (Place 3439 126) (Place 3444 126) false; SNode 196 (Place 3439 126) (Place 3444 126) true; SNode 197 (Place 3439 126) (Place 3444 126) false; SNode 198 (Place 3445 126) (Place 4146 144) true; SNode 199 (Place 3600 127) (Place 4132 142) true; SNode 200 (Place 3607 127) (Place 4132 142) true; SNode 201 (Place 3610 128) (Place 3723 130) true; SNode 202 (Place 3615 128) (Place 3619 128) false; SNode 203 (Place 3704 130) (Place 3723 130) true; SNode 204 (Place 3711 130) (Place 3723 130) false; SNode 205 (Place 3711 130) (Place 3721 130) false; SNode 206 (Place 3725 131) (Place 3832 135) true; SNode 207 (Place 3730 131) (Place 3734 131) false; SNode 208 (Place 3738 132) (Place 3753 132) true; SNode 209 (Place 3738 132) (Place 3741 132) false; SNode 210 (Place 3745 132) (Place 3753 132) false; SNode 211 (Place 3746 132) (Place 3753 132) false; SNode 212 (Place 3746 132) (Place 3751 132) false; SNode 213 (Place 3756 133) (Place 3786 133) true; SNode 214 (Place 3756 133) (Place 3767 133) false; SNode 215 (Place 3756 133) (Place 3759 133) false; SNode 216 (Place 3760 133) (Place 3767 133) false; SNode 217 (Place 3770 133) (Place 3786 133) false; SNode 218 (Place 3822 135) (Place 3832 135) true; SNode 219 (Place 3829 135) (Place 3832 135) false; SNode 220 (Place 3921 136) (Place 4024 138) true; SNode 221 (Place 3926 136) (Place 3930 136) false; SNode 222 (Place 4014 138) (Place 4024 138) true; SNode 223 (Place 4021 138) (Place 4024 138) false; SNode 224 (Place 4026 139) (Place 4129 141) true; SNode 225 (Place 4031 139) (Place 4035 139) false; SNode 226 (Place 4119 141) (Place 4129 141) true; SNode 227 (Place 4126 141) (Place 4129 141) false; SNode 228 (Place 4134 143) (Place 4144 143) true; SNode 229 (Place 4141 143) (Place 4144 143) false; SNode 230 (Place 4148 146) (Place 4255 148) true; SNode 231 (Place 4153 146) (Place 4255 148) true; SNode 232 (Place 4153 146) (Place 4158 146) false; SNode 233 (Place 4159 146) (Place 4255 148) false; SNode 234 (Place 4166 146) (Place 4255 148) false; SNode 235 (Place 4239 147) (Place 4253 147) true; SNode 236 (Place 4239 147) (Place 4246 147) false; SNode 237 (Place 4247 147) (Place 4253 147) false; SNode 238 (Place 4257 150) (Place 4321 150) true; SNode 239 (Place 4262 150) (Place 4272 150) false; SNode 240 (Place 4263 150) (Place 4271 150) true; SNode 241 (Place 4263 150) (Place 4264 150) false; SNode 242 (Place 4265 150) (Place 4271 150) false; SNode 243 (Place 4266 150) (Place 4271 150) false; SNode 244 (Place 4273 150) (Place 4277 150) false; SNode 245 (Place 4257 150) (Place 4286 150) false; SNode 246 (Place 4277 150) (Place 4279 150) false; SNode 247 (Place 4280 150) (Place 4286 150) false; SNode 248 (Place 4280 150) (Place 4286 150) true; SNode 249 (Place 4280 150) (Place 4286 150) false; SNode 250 (Place 4301 150) (Place 4321 150) true; SNode 251 (Place 4303 150) (Place 4319 150) true; SNode 252 (Place 4310 150) (Place 4319 150) false; SNode 253 (Place 4310 150) (Place 4311 150) false; SNode 254 (Place 4312 150) (Place 4319 150) false; SNode 255 (Place 4322 151) (Place 4386 151) true; SNode 256 (Place 4327 151) (Place 4337 151) false; SNode 257 (Place 4328 151) (Place 4336 151) true; SNode 258 (Place 4328 151) (Place 4329 151) false; SNode 259 (Place 4330 151) (Place 4336 151) false; SNode 260 (Place 4331 151) (Place 4336 151) false; SNode 261 (Place 4338 151) (Place 4345 151) false; SNode 262 (Place 4322 151) (Place 4354 151) false; SNode 263 (Place 4345 151) (Place 4347 151) false; SNode 264 (Place 4348 151) (Place 4354 151) false; SNode 265 (Place 4348 151) (Place 4354 151) true; SNode 266 (Place 4348 151) (Place 4354 151) false; SNode 267 (Place 4366 151) (Place 4386 151) true; SNode 268 (Place 4368 151) (Place 4384 151) true; SNode 269 (Place 4375 151) (Place 4384 151) false; SNode 270 (Place 4375 151) (Place 4376 151) false; SNode 271 (Place 4377 151) (Place 4384 151) false; SNode 272 (Place 4387 152) (Place 4445 152) true; SNode 273 (Place 4392 152) (Place 4402 152) false; SNode 274 (Place 4393 152) (Place 4401 152) true; SNode 275 (Place 4393 152) (Place 4394 152) false; SNode 276 (Place 4395 152) (Place 4401 152) false; SNode 277 (Place 4396 152) (Place 4401 152) false; SNode 278 (Place 4403 152) (Place 4410 152) false; SNode 279 (Place 4387 152) (Place 4430 152) false; SNode 280 (Place 4410 152) (Place 4412 152) false; SNode 281 (Place 4413 152) (Place 4430 152) false; SNode 282 (Place 4413 152) (Place 4430 152) true; SNode 283 (Place 4413 152) (Place 4430 152) false; SNode 284 (Place 4417 152) (Place 4423 152) false; SNode 285 (Place 4424 152) (Place 4430 152) false; SNode 286 (Place 4431 152) (Place 4445 152) true; SNode 287 (Place 4433 152) (Place 4443 152) true; SNode 288 (Place 4440 152) (Place 4443 152) false; SNode 289 (Place 4446 153) (Place 4504 153) true; SNode 290 (Place 4451 153) (Place 4461 153) false; SNode 291 (Place 4452 153) (Place 4460 153) true; SNode 292 (Place 4452 153) (Place 4453 153) false; SNode 293 (Place 4454 153) (Place 4460 153) false; SNode 294 (Place 4455 153) (Place 4460 153) false; SNode 295 (Place 4462 153) (Place 4467 153) false; SNode 296 (Place 4446 153) (Place 4475 153) false; SNode 297 (Place 4467 153) (Place 4469 153) false; SNode 298 (Place 4470 153) (Place 4475 153) false; SNode 299 (Place 4470 153) (Place 4475 153) true; SNode 300 (Place 4470 153) (Place 4475 153) false; SNode 301 (Place 4490 153) (Place 4504 153) true; SNode 302 (Place 4492 153) (Place 4502 153) true; SNode 303 (Place 4499 153) (Place 4502 153) false; SNode 304 (Place 4505 154) (Place 4571 154) true; SNode 305 (Place 4510 154) (Place 4520 154) false; SNode 306 (Place 4511 154) (Place 4519 154) true; SNode 307 (Place 4511 154) (Place 4512 154) false; SNode 308 (Place 4513 154) (Place 4519 154) false; SNode 309 (Place 4514 154) (Place 4519 154) false; SNode 310 (Place 4521 154) (Place 4526 154) false; SNode 311 (Place 4505 154) (Place 4535 154) false; SNode 312 (Place 4526 154) (Place 4528 154) false; SNode 313 (Place 4529 154) (Place 4535 154) false; SNode 314 (Place 4529 154) (Place 4535 154) true; SNode 315 (Place 4529 154) (Place 4535 154) false; SNode 316 (Place 4549 154) (Place 4571 154) true; SNode 317 (Place 4551 154) (Place 4569 154) true; SNode 318 (Place 4558 154) (Place 4569 154) false; SNode 319 (Place 4558 154) (Place 4567 154) false; SNode 320 (Place 4558 154) (Place 4559 154) false; SNode 321 (Place 4560 154) (Place 4567 154) false].
Definition t_annotation_cgroups0 : list cgroup := [CGroup (Place 20 3) (Place 89 5) [(str "// Errors:"); (str "//"); (str "//    - overwritten-error -- error forced by annotation")]; CGroup (Place 122 6) (Place 178 6) [(str "// want OverwriteReturn1:""ErrorCodes: overwritten-error""")]; CGroup (Place 180 7) (Place 214 7) [(str "// Error Codes = overwritten-error")]; CGroup (Place 247 11) (Place 384 16) [(str "// Errors:"); (str "//"); (str "//    - overwritten-1-error --"); (str "//    - overwritten-2-error --"); (str "//    - overwritten-3-error --"); (str "//    - overwritten-4-error --")]; CGroup (Place 416 17) (Place 533 17) [(str "// want OverwriteReturn:""ErrorCodes: overwritten-1-error overwritten-2-error overwritten-3-error overwritten-4-error""")]; CGroup (Place 558 20) (Place 594 20) [(str "// Error Codes = overwritten-1-error")]; CGroup (Place 690 25) (Place 724 25) [(str "// Error Codes=overwritten-2-error")]; CGroup (Place 752 28) (Place 830 28) [(str "// Error Codes = overwritten-3-error, overwritten-4-error, overwritten-3-error")]; CGroup (Place 862 34) (Place 877 34) [(str "// Errors: none")]; CGroup (Place 910 35) (Place 948 35) [(str "// want OverwriteReturn3:""ErrorCodes:""")]; CGroup (Place 950 36) (Place 966 36) [(str "// Error Codes =")]; CGroup (Place 999 40) (Place 1109 43) [(str "// Errors:"); (str "//"); (str "//    - some-error        -- found by analysis"); (str "//    - overwritten-error -- forced by annotation")]; CGroup (Place 1136 44) (Place 1197 44) [(str "// want AddReturn1:""ErrorCodes: overwritten-error some-error""")]; CGroup (Place 1199 45) (Place 1234 45) [(str "// Error Codes += overwritten-error")]; CGroup (Place 1267 49) (Place 1466 56) [(str "// Errors:"); (str "//"); (str "//    - some-1-error        --"); (str "//    - some-2-error        --"); (str "//    - overwritten-1-error --"); (str "//    - overwritten-2-error --"); (str "//    - overwritten-3-error --"); (str "//    - overwritten-4-error --")]; CGroup (Place 1493 57) (Place 1631 57) [(str "// want AddReturn2:""ErrorCodes: overwritten-1-error overwritten-2-error overwritten-3-error overwritten-4-error some-1-error some-2-error""")]; CGroup (Place 1656 60) (Place 1693 60) [(str "// Error Codes += overwritten-1-error")]; CGroup (Place 1789 65) (Place 1824 65) [(str "// Error Codes+=overwritten-2-error")]; CGroup (Place 1852 68) (Place 1931 68) [(str "// Error Codes += overwritten-3-error, overwritten-4-error, overwritten-3-error")]; CGroup (Place 1963 74) (Place 1978 74) [(str "// Errors: none")]; CGroup (Place 2005 75) (Place 2037 75) [(str "// want SubReturn1:""ErrorCodes:""")]; CGroup (Place 2039 76) (Place 2067 76) [(str "// Error Codes -= some-error")]; CGroup (Place 2100 80) (Place 2268 86) [(str "// Errors:"); (str "//"); (str "//    - assigned-error      --"); (str "//    - some-1-error        --"); (str "//    - overwritten-2-error --"); (str "//    - overwritten-3-error --"); (str "//    - overwritten-4-error --")]; CGroup (Place 2295 87) (Place 2415 87) [(str "// want SubReturn2:""ErrorCodes: assigned-error overwritten-2-error overwritten-3-error overwritten-4-error some-1-error""")]; CGroup (Place 2440 90) (Place 2505 90) [(str "// Error Codes -= overwritten-1-error, some-2-error, some-2-error")]; CGroup (Place 2593 95) (Place 2623 95) [(str "// Error Codes-=assigned-error")]; CGroup (Place 2637 96) (Place 2763 96) [(str "// With how it's currently implemented it would be difficult to remove assigned codes. Use overwrite in this case (see below).")]; CGroup (Place 2827 100) (Place 2843 100) [(str "// Error Codes =")]; CGroup (Place 2871 103) (Place 2950 103) [(str "// Error Codes -= overwritten-3-error, overwritten-4-error, overwritten-3-error")]; CGroup (Place 2982 109) (Place 3024 111) [(str "// Errors:"); (str "//"); (str "//    - overwritten-error --")]; CGroup (Place 3054 112) (Place 3107 112) [(str "// want AddSubReturn1:""ErrorCodes: overwritten-error""")]; CGroup (Place 3109 113) (Place 3154 113) [(str "// Error Codes -some-error +overwritten-error")]; CGroup (Place 3187 117) (Place 3417 125) [(str "// Errors:"); (str "//"); (str "//    - added-1-error       --"); (str "//    - added-2-error       --"); (str "//    - assigned-error      --"); (str "//    - some-1-error        --"); (str "//    - overwritten-2-error --"); (str "//    - overwritten-3-error --"); (str "//    - overwritten-4-error --")]; CGroup (Place 3447 126) (Place 3598 126) [(str "// want AddSubReturn2:""ErrorCodes: added-1-error added-2-error assigned-error overwritten-2-error overwritten-3-error overwritten-4-error some-1-error""")]; CGroup (Place 3623 129) (Place 3701 129) [(str "// Error Codes -overwritten-1-error -some-2-error +added-1-error -some-2-error")]; CGroup (Place 3789 134) (Place 3819 134) [(str "// Error Codes -assigned-error")]; CGroup (Place 3833 135) (Place 3919 135) [(str "// With how it's currently implemented it would be difficult to remove assigned codes.")]; CGroup (Place 3934 137) (Place 4011 137) [(str "// Error Codes -overwritten-3-error -overwritten-4-error -overwritten-3-error")]; CGroup (Place 4039 140) (Place 4116 140) [(str "// Error Codes -overwritten-3-error    +added-2-error    -overwritten-3-error")]; CGroup (Place 4168 146) (Place 4237 146) [(str "// want Error:`ErrorType{Field:{Name:""TheCode"", Position:0}, Codes:}`")]].
Definition t_annotation_nodes1 : list snode := [SNode 322 (Place 0 1) (Place 2588 76) true; SNode 323 (Place 8 1) (Place 18 1) false; SNode 324 (Place 83 6) (Place 355 9) true; SNode 325 (Place 88 6) (Place 111 6) false; SNode 326 (Place 83 6) (Place 119 6) false; SNode 327 (Place 111 6) (Place 113 6) false; SNode 328 (Place 114 6) (Place 119 6) false; SNode 329 (Place 114 6) (Place 119 6) true; SNode 330 (Place 114 6) (Place 119 6) false; SNode 331 (Place 120 6) (Place 355 9) true; SNode 332 (Place 215 8) (Place 242 8) true; SNode 333 (Place 222 8) (Place 242 8) false; SNode 334 (Place 223 8) (Place 242 8) false; SNode 335 (Place 223 8) (Place 228 8) false; SNode 336 (Place 229 8) (Place 241 8) false; SNode 337 (Place 373 12) (Place 1042 28) true; SNode 338 (Place 378 12) (Place 401 12) false; SNode 339 (Place 373 12) (Place 409 12) false; SNode 340 (Place 401 12) (Place 403 12) false; SNode 341 (Place 404 12) (Place 409 12) false; SNode 342 (Place 404 12) (Place 409 12) true; SNode 343 (Place 404 12) (Place 409 12) false; SNode 344 (Place 410 12) (Place 1042 28) true; SNode 345 (Place 459 13) (Place 1028 26) true; SNode 346 (Place 466 13) (Place 1028 26) true; SNode 347 (Place 469 14) (Place 530 16) true; SNode 348 (Place 474 14) (Place 478 14) false; SNode 349 (Place 520 16) (Place 530 16) true; SNode 350 (Place 527 16) (Place 530 16) false; SNode 351 (Place 594 17) (Place 652 19) true; SNode 352 (Place 599 17) (Place 603 17) false; SNode 353 (Place 642 19) (Place 652 19) true; SNode 354 (Place 649 19) (Place 652 19) false; SNode 355 (Place 765 20) (Place 838 22) true; SNode 356 (Place 770 20) (Place 774 20) false; SNode 357 (Place 828 22) (Place 838 22) true; SNode 358 (Place 835 22) (Place 838 22) false; SNode 359 (Place 902 23) (Place 963 25) true; SNode 360 (Place 907 23) (Place 911 23) false; SNode 361 (Place 953 25) (Place 963 25) true; SNode 362 (Place 960 25) (Place 963 25) false; SNode 363 (Place 1030 27) (Place 1040 27) true; SNode 364 (Place 1037 27) (Place 1040 27) false; SNode 365 (Place 1060 31) (Place 1547 44) true; SNode 366 (Place 1065 31) (Place 1081 31) false; SNode 367 (Place 1060 31) (Place 1089 31) false; SNode 368 (Place 1081 31) (Place 1083 31) false; SNode 369 (Place 1084 31) (Place 1089 31) false; SNode 370 (Place 1084 31) (Place 1089 31) true; SNode 371 (Place 1084 31) (Place 1089 31) false; SNode 372 (Place 1090 31) (Place 1547 44) true; SNode 373 (Place 1132 32) (Place 1533 42) true; SNode 374 (Place 1139 32) (Place 1533 42) true; SNode 375 (Place 1142 33) (Place 1204 35) true; SNode 376 (Place 1147 33) (Place 1151 33) false; SNode 377 (Place 1194 35) (Place 1204 35) true; SNode 378 (Place 1201 35) (Place 1204 35) false; SNode 379 (Place 1268 36) (Place 1342 38) true; SNode 380 (Place 1273 36) (Place 1277 36) false; SNode 381 (Place 1332 38) (Place 1342 38) true; SNode 382 (Place 1339 38) (Place 1342 38) false; SNode 383 (Place 1406 39) (Place 1468 41) true; SNode 384 (Place 1411 39) (Place 1415 39) false; SNode 385 (Place 1458 41) (Place 1468 41) true; SNode 386 (Place 1465 41) (Place 1468 41) false; SNode 387 (Place 1535 43) (Place 1545 43) true; SNode 388 (Place 1542 43) (Place 1545 43) false; SNode 389 (Place 1565 47) (Place 2052 60) true; SNode 390 (Place 1570 47) (Place 1586 47) false; SNode 391 (Place 1565 47) (Place 1594 47) false; SNode 392 (Place 1586 47) (Place 1588 47) false; SNode 393 (Place 1589 47) (Place 1594 47) false; SNode 394 (Place 1589 47) (Place 1594 47) true; SNode 395 (Place 1589 47) (Place 1594 47) false; SNode 396 (Place 1595 47) (Place 2052 60) true; SNode 397 (Place 1637 48) (Place 2038 58) true; SNode 398 (Place 1644 48) (Place 2038 58) true; SNode 399 (Place 1647 49) (Place 1709 51) true; SNode 400 (Place 1652 49) (Place 1656 49) false; SNode 401 (Place 1699 51) (Place 1709 51) true; SNode 402 (Place 1706 51) (Place 1709 51) false; SNode 403 (Place 1773 52) (Place 1847 54) true; SNode 404 (Place 1778 52) (Place 1782 52) false; SNode 405 (Place 1837 54) (Place 1847 54) true; SNode 406 (Place 1844 54) (Place 1847 54) false; SNode 407 (Place 1911 55) (Place 1973 57) true; SNode 408 (Place 1916 55) (Place 1920 55) false; SNode 409 (Place 1963 57) (Place 1973 57) true; SNode 410 (Place 1970 57) (Place 1973 57) false; SNode 411 (Place 2040 59) (Place 2050 59) true; SNode 412 (Place 2047 59) (Place 2050 59) false; SNode 413 (Place 2070 63) (Place 2588 76) true; SNode 414 (Place 2075 63) (Place 2094 63) false; SNode 415 (Place 2070 63) (Place 2102 63) false; SNode 416 (Place 2094 63) (Place 2096 63) false; SNode 417 (Place 2097 63) (Place 2102 63) false; SNode 418 (Place 2097 63) (Place 2102 63) true; SNode 419 (Place 2097 63) (Place 2102 63) false; SNode 420 (Place 2103 63) (Place 2588 76) true; SNode 421 (Place 2148 64) (Place 2574 74) true; SNode 422 (Place 2155 64) (Place 2574 74) true; SNode 423 (Place 2158 65) (Place 2218 67) true; SNode 424 (Place 2163 65) (Place 2167 65) false; SNode 425 (Place 2208 67) (Place 2218 67) true; SNode 426 (Place 2215 67) (Place 2218 67) false; SNode 427 (Place 2282 68) (Place 2356 70) true; SNode 428 (Place 2287 68) (Place 2291 68) false; SNode 429 (Place 2346 70) (Place 2356 70) true; SNode 430 (Place 2353 70) (Place 2356 70) false; SNode 431 (Place 2420 71) (Place 2491 73) true; SNode 432 (Place 2425 71) (Place 2429 71) false; SNode 433 (Place 2481 73) (Place 2491 73) true; SNode 434 (Place 2488 73) (Place 2491 73) false; SNode 435 (Place 2576 75) (Place 2586 75) true; SNode 436 (Place 2583 75) (Place 2586 75) false].
Definition t_annotation_cgroups1 : list cgroup := [CGroup (Place 20 3) (Place 82 5) [(str "// Errors:"); (str "//"); (str "//    - some-error -- error forced by annotation")]; CGroup (Place 122 6) (Place 178 6) [(str "// want InvalidOverwriteReturn1:""ErrorCodes: some-error""")]; CGroup (Place 180 7) (Place 213 7) [(str "// Error Codes: overwritten-error")]; CGroup (Place 243 8) (Place 353 8) [(str "// want ""error in annotation: expected '=', '\\+=', '-=', '\\+code', or '-code' after 'Error Codes' indicator""")]; CGroup (Place 357 11) (Place 372 11) [(str "// Errors: none")]; CGroup (Place 412 12) (Place 457 12) [(str "// want InvalidOverwriteReturn2:""ErrorCodes:""")]; CGroup (Place 482 15) (Place 517 15) [(str "// Error Codes = -overwritten-error")]; CGroup (Place 531 16) (Place 592 16) [(str "// want ""invalid error code in annotation: should match (.*)""")]; CGroup (Place 607 18) (Place 639 18) [(str "// Error Codes overwritten-error")]; CGroup (Place 653 19) (Place 763 19) [(str "// want ""error in annotation: expected '=', '\\+=', '-=', '\\+code', or '-code' after 'Error Codes' indicator""")]; CGroup (Place 778 21) (Place 825 21) [(str "// Error Codes = overwritten-error,,other-error")]; CGroup (Place 839 22) (Place 900 22) [(str "// want ""invalid error code in annotation: should match (.*)""")]; CGroup (Place 915 24) (Place 950 24) [(str "// Error Codes = overwritten-error,")]; CGroup (Place 964 25) (Place 1025 25) [(str "// want ""invalid error code in annotation: should match (.*)""")]; CGroup (Place 1044 30) (Place 1059 30) [(str "// Errors: none")]; CGroup (Place 1092 31) (Place 1130 31) [(str "// want InvalidAddReturn:""ErrorCodes:""")]; CGroup (Place 1155 34) (Place 1191 34) [(str "// Error Codes += +overwritten-error")]; CGroup (Place 1205 35) (Place 1266 35) [(str "// want ""invalid error code in annotation: should match (.*)""")]; CGroup (Place 1281 37) (Place 1329 37) [(str "// Error Codes += overwritten-error,,other-error")]; CGroup (Place 1343 38) (Place 1404 38) [(str "// want ""invalid error code in annotation: should match (.*)""")]; CGroup (Place 1419 40) (Place 1455 40) [(str "// Error Codes += overwritten-error,")]; CGroup (Place 1469 41) (Place 1530 41) [(str "// want ""invalid error code in annotation: should match (.*)""")]; CGroup (Place 1549 46) (Place 1564 46) [(str "// Errors: none")]; CGroup (Place 1597 47) (Place 1635 47) [(str "// want InvalidSubReturn:""ErrorCodes:""")]; CGroup (Place 1660 50) (Place 1696 50) [(str "// Error Codes -= +overwritten-error")]; CGroup (Place 1710 51) (Place 1771 51) [(str "// want ""invalid error code in annotation: should match (.*)""")]; CGroup (Place 1786 53) (Place 1834 53) [(str "// Error Codes -= overwritten-error,,other-error")]; CGroup (Place 1848 54) (Place 1909 54) [(str "// want ""invalid error code in annotation: should match (.*)""")]; CGroup (Place 1924 56) (Place 1960 56) [(str "// Error Codes -= overwritten-error,")]; CGroup (Place 1974 57) (Place 2035 57) [(str "// want ""invalid error code in annotation: should match (.*)""")]; CGroup (Place 2054 62) (Place 2069 62) [(str "// Errors: none")]; CGroup (Place 2105 63) (Place 2146 63) [(str "// want InvalidAddSubReturn:""ErrorCodes:""")]; CGroup (Place 2171 66) (Place 2205 66) [(str "// Error Codes ++overwritten-error")]; CGroup (Place 2219 67) (Place 2280 67) [(str "// want ""invalid error code in annotation: should match (.*)""")]; CGroup (Place 2295 69) (Place 2343 69) [(str "// Error Codes -overwritten-error - -other-error")]; CGroup (Place 2357 70) (Place 2418 70) [(str "// want ""invalid error code in annotation: should match (.*)""")]; CGroup (Place 2433 72) (Place 2478 72) [(str "// Error Codes -overwritten-error other-error")]; CGroup (Place 2492 73) (Place 2571 73) [(str "// want ""invalid error code in annotation: code has to start with '\\+' or '-'""")]].
Definition t_annotation_files : list source_file := [SourceFile t_annotation_nodes0 t_annotation_cgroups0; SourceFile t_annotation_nodes1 t_annotation_cgroups1].
Definition t_annotation_info : typeinfo := map_info (list_to_map t_annotation_types) (list_to_map t_annotation_values) (list_to_map t_annotation_uses) (list_to_map t_annotation_defs) (list_to_map t_annotation_sels) (list_to_set [1; 4; 5; 6; 7; 8; 9; 10; 11; 12; 13; 14; 15; 16; 17; 18; 19; 20; 56]) (list_to_map t_annotation_pkgnames) (list_to_map t_annotation_objnames) (list_to_map t_annotation_objtypes) (list_to_map t_annotation_under) t_annotation_methods t_annotation_ierr t_annotation_iree t_annotation_icause t_annotation_impl (list_to_map t_annotation_named_methods).
Definition t_annotation : package := Package (list_to_map [(1, t_annotation_f1); (2, t_annotation_f2); (3, t_annotation_f3); (4, t_annotation_f4); (5, t_annotation_f5); (6, t_annotation_f6); (7, t_annotation_f7); (8, t_annotation_f8); (9, t_annotation_f9); (10, t_annotation_f10); (11, t_annotation_f11); (12, t_annotation_f12); (13, t_annotation_f13); (14, t_annotation_f14); (15, t_annotation_f15); (16, t_annotation_f16); (17, t_annotation_f17); (18, t_annotation_f18); (19, t_annotation_f19)]) [1; 2; 3; 4; 5; 6; 7; 8; 9; 10; 11; 12; 13; 14; 15; 16; 17; 18; 19] t_annotation_gendecls t_annotation_top (list_to_map t_annotation_objs) (fun id => default [] (createCommentMap t_annotation_files id)) t_annotation_info.
Definition t_annotation_rank : gostring -> nat := fun n => default 0%nat ((list_to_map [] : gmap gostring nat) !! n).

(** annotation: 14 diagnostics and 15 facts, as its "want" comments demand. *)
Theorem t_annotation_ascending :
  report (run_test t_annotation ascending (Facts ∅ ∅ ∅ ∅)) = Some [
    (332, (str "error in annotation: expected '=', '+=', '-=', '+code', or '-code' after 'Error Codes' indicator")) (* invalid.go:8 *);
    (425, (str "invalid error code in annotation: should match [a-zA-Z][a-zA-Z0-9\-]*[a-zA-Z0-9]")) (* invalid.go:67 *);
    (429, (str "invalid error code in annotation: should match [a-zA-Z][a-zA-Z0-9\-]*[a-zA-Z0-9]")) (* invalid.go:70 *);
    (433, (str "invalid error code in annotation: code has to start with '+' or '-'")) (* invalid.go:73 *);
    (377, (str "invalid error code in annotation: should match [a-zA-Z][a-zA-Z0-9\-]*[a-zA-Z0-9]")) (* invalid.go:35 *);
    (381, (str "invalid error code in annotation: should match [a-zA-Z][a-zA-Z0-9\-]*[a-zA-Z0-9]")) (* invalid.go:38 *);
    (385, (str "invalid error code in annotation: should match [a-zA-Z][a-zA-Z0-9\-]*[a-zA-Z0-9]")) (* invalid.go:41 *);
    (349, (str "invalid error code in annotation: should match [a-zA-Z][a-zA-Z0-9\-]*[a-zA-Z0-9]")) (* invalid.go:16 *);
    (353, (str "error in annotation: expected '=', '+=', '-=', '+code', or '-code' after 'Error Codes' indicator")) (* invalid.go:19 *);
    (357, (str "invalid error code in annotation: should match [a-zA-Z][a-zA-Z0-9\-]*[a-zA-Z0-9]")) (* invalid.go:22 *);
    (361, (str "invalid error code in annotation: should match [a-zA-Z][a-zA-Z0-9\-]*[a-zA-Z0-9]")) (* invalid.go:25 *);
    (401, (str "invalid error code in annotation: should match [a-zA-Z][a-zA-Z0-9\-]*[a-zA-Z0-9]")) (* invalid.go:51 *);
    (405, (str "invalid error code in annotation: should match [a-zA-Z][a-zA-Z0-9\-]*[a-zA-Z0-9]")) (* invalid.go:54 *);
    (409, (str "invalid error code in annotation: should match [a-zA-Z][a-zA-Z0-9\-]*[a-zA-Z0-9]")) (* invalid.go:57 *)] /\
  fact_texts (facts_after_test (run_test t_annotation ascending (Facts ∅ ∅ ∅ ∅))) [47; 48; 49; 50; 51; 52; 53; 54; 55; 56; 57; 58; 59; 60; 61; 62; 63; 64; 65; 66; 67; 68; 69; 70; 71; 73; 74; 75; 76; 77] = [
    (47, (str "ErrorCodes: overwritten-error")) (* annotation.go:6 OverwriteReturn1 *);
    (48, (str "ErrorCodes: overwritten-1-error overwritten-2-error overwritten-3-error overwritten-4-error")) (* annotation.go:17 OverwriteReturn *);
    (49, (str "ErrorCodes: ")) (* annotation.go:35 OverwriteReturn3 *);
    (50, (str "ErrorCodes: overwritten-error some-error")) (* annotation.go:44 AddReturn1 *);
    (51, (str "ErrorCodes: overwritten-1-error overwritten-2-error overwritten-3-error overwritten-4-error some-1-error some-2-error")) (* annotation.go:57 AddReturn2 *);
    (52, (str "ErrorCodes: ")) (* annotation.go:75 SubReturn1 *);
    (53, (str "ErrorCodes: assigned-error overwritten-2-error overwritten-3-error overwritten-4-error some-1-error")) (* annotation.go:87 SubReturn2 *);
    (54, (str "ErrorCodes: overwritten-error")) (* annotation.go:112 AddSubReturn1 *);
    (55, (str "ErrorCodes: added-1-error added-2-error assigned-error overwritten-2-error overwritten-3-error overwritten-4-error some-1-error")) (* annotation.go:126 AddSubReturn2 *);
    (56, (str "ErrorType{Field:{Name:""TheCode"", Position:0}, Codes:}")) (* annotation.go:146 Error *);
    (62, (str "ErrorCodes: some-error")) (* invalid.go:6 InvalidOverwriteReturn1 *);
    (63, (str "ErrorCodes: ")) (* invalid.go:12 InvalidOverwriteReturn2 *);
    (64, (str "ErrorCodes: ")) (* invalid.go:31 InvalidAddReturn *);
    (65, (str "ErrorCodes: ")) (* invalid.go:47 InvalidSubReturn *);
    (66, (str "ErrorCodes: ")) (* invalid.go:63 InvalidAddSubReturn *)].
Proof. vm_compute. split; reflexivity. Qed.

(** annotation: 14 diagnostics and 15 facts, as its "want" comments demand. *)
Theorem t_annotation_descending :
  report (run_test t_annotation descending (Facts ∅ ∅ ∅ ∅)) = Some [
    (401, (str "invalid error code in annotation: should match [a-zA-Z][a-zA-Z0-9\-]*[a-zA-Z0-9]")) (* invalid.go:51 *);
    (405, (str "invalid error code in annotation: should match [a-zA-Z][a-zA-Z0-9\-]*[a-zA-Z0-9]")) (* invalid.go:54 *);
    (409, (str "invalid error code in annotation: should match [a-zA-Z][a-zA-Z0-9\-]*[a-zA-Z0-9]")) (* invalid.go:57 *);
    (349, (str "invalid error code in annotation: should match [a-zA-Z][a-zA-Z0-9\-]*[a-zA-Z0-9]")) (* invalid.go:16 *);
    (353, (str "error in annotation: expected '=', '+=', '-=', '+code', or '-code' after 'Error Codes' indicator")) (* invalid.go:19 *);
    (357, (str "invalid error code in annotation: should match [a-zA-Z][a-zA-Z0-9\-]*[a-zA-Z0-9]")) (* invalid.go:22 *);
    (361, (str "invalid error code in annotation: should match [a-zA-Z][a-zA-Z0-9\-]*[a-zA-Z0-9]")) (* invalid.go:25 *);
    (377, (str "invalid error code in annotation: should match [a-zA-Z][a-zA-Z0-9\-]*[a-zA-Z0-9]")) (* invalid.go:35 *);
    (381, (str "invalid error code in annotation: should match [a-zA-Z][a-zA-Z0-9\-]*[a-zA-Z0-9]")) (* invalid.go:38 *);
    (385, (str "invalid error code in annotation: should match [a-zA-Z][a-zA-Z0-9\-]*[a-zA-Z0-9]")) (* invalid.go:41 *);
    (425, (str "invalid error code in annotation: should match [a-zA-Z][a-zA-Z0-9\-]*[a-zA-Z0-9]")) (* invalid.go:67 *);
    (429, (str "invalid error code in annotation: should match [a-zA-Z][a-zA-Z0-9\-]*[a-zA-Z0-9]")) (* invalid.go:70 *);
    (433, (str "invalid error code in annotation: code has to start with '+' or '-'")) (* invalid.go:73 *);
    (332, (str "error in annotation: expected '=', '+=', '-=', '+code', or '-code' after 'Error Codes' indicator")) (* invalid.go:8 *)] /\
  fact_texts (facts_after_test (run_test t_annotation descending (Facts ∅ ∅ ∅ ∅))) [47; 48; 49; 50; 51; 52; 53; 54; 55; 56; 57; 58; 59; 60; 61; 62; 63; 64; 65; 66; 67; 68; 69; 70; 71; 73; 74; 75; 76; 77] = [
    (47, (str "ErrorCodes: overwritten-error")) (* annotation.go:6 OverwriteReturn1 *);
    (48, (str "ErrorCodes: overwritten-1-error overwritten-2-error overwritten-3-error overwritten-4-error")) (* annotation.go:17 OverwriteReturn *);
    (49, (str "ErrorCodes: ")) (* annotation.go:35 OverwriteReturn3 *);
    (50, (str "ErrorCodes: overwritten-error some-error")) (* annotation.go:44 AddReturn1 *);
    (51, (str "ErrorCodes: overwritten-1-error overwritten-2-error overwritten-3-error overwritten-4-error some-1-error some-2-error")) (* annotation.go:57 AddReturn2 *);
    (52, (str "ErrorCodes: ")) (* annotation.go:75 SubReturn1 *);
    (53, (str "ErrorCodes: assigned-error overwritten-2-error overwritten-3-error overwritten-4-error some-1-error")) (* annotation.go:87 SubReturn2 *);
    (54, (str "ErrorCodes: overwritten-error")) (* annotation.go:112 AddSubReturn1 *);
    (55, (str "ErrorCodes: added-1-error added-2-error assigned-error overwritten-2-error overwritten-3-error overwritten-4-error some-1-error")) (* annotation.go:126 AddSubReturn2 *);
    (56, (str "ErrorType{Field:{Name:""TheCode"", Position:0}, Codes:}")) (* annotation.go:146 Error *);
    (62, (str "ErrorCodes: some-error")) (* invalid.go:6 InvalidOverwriteReturn1 *);
    (63, (str "ErrorCodes: ")) (* invalid.go:12 InvalidOverwriteReturn2 *);
    (64, (str "ErrorCodes: ")) (* invalid.go:31 InvalidAddReturn *);
    (65, (str "ErrorCodes: ")) (* invalid.go:47 InvalidSubReturn *);
    (66, (str "ErrorCodes: ")) (* invalid.go:63 InvalidAddSubReturn *)].
Proof. vm_compute. split; reflexivity. Qed.

(** The presuppositions of the general theorems that this package satisfies. *)
Theorem t_annotation_presuppositions :
  (forall fa, usable_functions t_annotation fa) /\
  (forall fa, no_literal_recursion t_annotation (collectFunctions t_annotation) fa) /\
  (forall fa, literals_apart t_annotation (collectFunctions t_annotation) fa) /\
  types_usable t_annotation /\
  (forall w n, occurs t_annotation w n -> ~ ill_formed t_annotation w n) /\
  distinct_definitions t_annotation /\
  interfaces_ok t_annotation /\
  uses_resolved t_annotation (collectFunctions t_annotation) /\
  (forall g fn, pk_funcs t_annotation !! g = Some fn -> disciplined t_annotation (facts_after_test (run_test t_annotation ascending (Facts ∅ ∅ ∅ ∅))) fn /\ resolved t_annotation (collectFunctions t_annotation) (facts_after_test (run_test t_annotation ascending (Facts ∅ ∅ ∅ ∅))) fn) /\
  Forall layout t_annotation_files.
Proof.
  split_and!.
  - intros fa; apply package_usable_spec; vm_compute; reflexivity.
  - intros fa; apply recursion_check_spec; vm_compute; reflexivity.
  - intros fa; apply apart_spec; vm_compute; reflexivity.
  - apply types_ok_spec; vm_compute; reflexivity.
  - apply package_formed_spec; vm_compute; reflexivity.
  - apply definitions_check_spec; vm_compute; reflexivity.
  - apply (interfaces_check_spec t_annotation t_annotation_rank); vm_compute; reflexivity.
  - apply uses_check_spec; vm_compute; reflexivity.
  - intros g fn; apply sound_ok_spec; vm_compute; reflexivity.
  - apply layouts_spec; vm_compute; reflexivity.
Qed.
