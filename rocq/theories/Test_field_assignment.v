(** * The test package field_assignment of /repo/analysis/testdata/src, run on the model.  Generated by tools/conform.py; see Conform.v. *)
From Coq Require Import Ascii String.
From stdpp Require Import base list gmap.
From Verif Require Import GoString Scc Engine Constant CommentText CommentMap Phase FactText Conform Claims Analyse Verify SpecTaint SpecProgram SpecLiterals SpecCodeMethod SpecInterfaces SpecSites SpecCrash SpecSound SpecWhole SpecLayout Checkers RecursionChecker LiteralChecker CodeCheckers FormChecker InterfaceChecker SoundChecker ChainChecker ExampleLayout GoAst.
Local Open Scope N_scope.
Definition t_field_assignment_f1 : func := Func 3 (Some (DeclInfo (Ident 4 (str "EasyAssignment") (Some 1)) None (Some (comment_text [(str "// Errors:"); (str "//"); (str "//    - some-error  --"); (str "//    - other-error --")])))) (FuncType 5 [] (Some [(Field 8 [] 9)]) 108) (Some (Node 10 (KOther (str "*ast.BlockStmt")) [(Node 11 (KAssign 1%nat) [(Node 12 (KIdent (str "err") (Some 2)) []); (Node 13 (KUnary true) [(Node 14 KComposite [(Node 16 KBasicLit [])])])]); (Node 17 (KOther (str "*ast.IfStmt")) [(Node 18 (KIdent (str "true") None) []); (Node 19 (KOther (str "*ast.BlockStmt")) [(Node 20 (KAssign 1%nat) [(Node 21 KSelector [(Node 22 (KIdent (str "err") (Some 2)) []); (Node 23 (KIdent (str "TheCode") None) [])]); (Node 24 KBasicLit [])])])]); (Node 25 KReturn [(Node 26 (KIdent (str "err") (Some 2)) [])])])) 114 262.
Definition t_field_assignment_f2 : func := Func 31 (Some (DeclInfo (Ident 32 (str "ConstantExpressionAssignments") (Some 3)) None (Some (comment_text [(str "// Errors:"); (str "//"); (str "//    - some-error    --"); (str "//    - other-1-error --"); (str "//    - other-2-error --"); (str "//    - other-3-error --")])))) (FuncType 33 [] (Some [(Field 36 [] 37)]) 445) (Some (Node 38 (KOther (str "*ast.BlockStmt")) [(Node 39 (KAssign 1%nat) [(Node 40 (KIdent (str "err") (Some 4)) []); (Node 41 KComposite [(Node 43 KBasicLit [])])]); (Node 44 (KOther (str "*ast.SwitchStmt")) [(Node 45 (KOther (str "*ast.BlockStmt")) [(Node 46 (KCaseClause 1%nat) [(Node 47 (KIdent (str "true") None) []); (Node 48 (KAssign 1%nat) [(Node 49 KSelector [(Node 50 (KIdent (str "err") (Some 4)) []); (Node 51 (KIdent (str "TheCode") None) [])]); (Node 52 (KOther (str "*ast.BinaryExpr")) [(Node 53 KBasicLit []); (Node 54 (KIdent (str "errorSuffix") (Some 5)) [])])])]); (Node 55 (KCaseClause 1%nat) [(Node 56 (KIdent (str "true") None) []); (Node 57 (KOther (str "*ast.DeclStmt")) [(Node 58 (KOther (str "*ast.GenDecl")) [(Node 59 (KValueSpec [(Ident 60 (str "code") (Some 6))] None) [(Node 61 KBasicLit [])])])]); (Node 62 (KAssign 1%nat) [(Node 63 KSelector [(Node 64 (KIdent (str "err") (Some 4)) []); (Node 65 (KIdent (str "TheCode") None) [])]); (Node 66 (KIdent (str "code") (Some 6)) [])])]); (Node 67 (KCaseClause 1%nat) [(Node 68 (KIdent (str "true") None) []); (Node 69 (KOther (str "*ast.DeclStmt")) [(Node 70 (KOther (str "*ast.GenDecl")) [(Node 71 (KValueSpec [(Ident 72 (str "code1") (Some 7))] None) [(Node 73 KBasicLit [])])])]); (Node 74 (KOther (str "*ast.DeclStmt")) [(Node 75 (KOther (str "*ast.GenDecl")) [(Node 76 (KValueSpec [(Ident 77 (str "code2") (Some 8))] None) [(Node 78 KBasicLit [])])])]); (Node 79 (KAssign 1%nat) [(Node 80 KSelector [(Node 81 (KIdent (str "err") (Some 4)) []); (Node 82 (KIdent (str "TheCode") None) [])]); (Node 83 (KOther (str "*ast.BinaryExpr")) [(Node 84 (KOther (str "*ast.BinaryExpr")) [(Node 85 (KIdent (str "code1") (Some 7)) []); (Node 86 (KIdent (str "code2") (Some 8)) [])]); (Node 87 (KIdent (str "errorSuffix") (Some 5)) [])])])]); (Node 88 (KCaseClause 1%nat) [(Node 89 (KIdent (str "true") None) []); (Node 90 (KAssign 1%nat) [(Node 91 KSelector [(Node 92 (KIdent (str "err") (Some 4)) []); (Node 93 (KIdent (str "TheCode") None) [])]); (Node 94 KBasicLit [])])])])]); (Node 95 KReturn [(Node 96 (KUnary true) [(Node 97 (KIdent (str "err") (Some 4)) [])])])])) 451 923.
Definition t_field_assignment_f3 : func := Func 98 (Some (DeclInfo (Ident 99 (str "AssignInvalidCode") (Some 9)) None (Some (comment_text [(str "// Errors:"); (str "//"); (str "//    - some-error --")])))) (FuncType 100 [] (Some [(Field 103 [] 104)]) 986) (Some (Node 105 (KOther (str "*ast.BlockStmt")) [(Node 106 (KAssign 1%nat) [(Node 107 (KIdent (str "err") (Some 10)) []); (Node 108 (KUnary true) [(Node 109 KComposite [(Node 111 KBasicLit [])])])]); (Node 112 (KOther (str "*ast.IfStmt")) [(Node 113 (KIdent (str "true") None) []); (Node 114 (KOther (str "*ast.BlockStmt")) [(Node 115 (KAssign 1%nat) [(Node 116 KSelector [(Node 117 (KIdent (str "err") (Some 10)) []); (Node 118 (KIdent (str "TheCode") None) [])]); (Node 119 KBasicLit [])])])]); (Node 120 KReturn [(Node 121 (KIdent (str "err") (Some 10)) [])])])) 992 1186.
Definition t_field_assignment_f4 : func := Func 122 (Some (DeclInfo (Ident 123 (str "returnCode") (Some 11)) None None)) (FuncType 124 [] (Some [(Field 127 [] 128)]) 1206) (Some (Node 129 (KOther (str "*ast.BlockStmt")) [(Node 130 KReturn [(Node 131 KBasicLit [])])])) 1213 1237.
Definition t_field_assignment_f5 : func := Func 132 (Some (DeclInfo (Ident 133 (str "returnTwoCodes") (Some 12)) None None)) (FuncType 134 [] (Some [(Field 137 [] 138); (Field 139 [] 140)]) 1261) (Some (Node 141 (KOther (str "*ast.BlockStmt")) [(Node 142 KReturn [(Node 143 KBasicLit []); (Node 144 KBasicLit [])])])) 1278 1322.
Definition t_field_assignment_f6 : func := Func 145 (Some (DeclInfo (Ident 146 (str "AssignInvalidExpression") (Some 13)) None (Some (comment_text [(str "// Errors:"); (str "//"); (str "//    - some-error --")])))) (FuncType 147 [(Field 149 [(Ident 150 (str "input") (Some 14))] 151)] (Some [(Field 153 [] 154)]) 1403) (Some (Node 155 (KOther (str "*ast.BlockStmt")) [(Node 156 (KAssign 1%nat) [(Node 157 (KIdent (str "err") (Some 15)) []); (Node 158 (KUnary true) [(Node 159 KComposite [(Node 161 KBasicLit [])])])]); (Node 162 (KOther (str "*ast.SwitchStmt")) [(Node 163 (KOther (str "*ast.BlockStmt")) [(Node 164 (KCaseClause 1%nat) [(Node 165 (KIdent (str "true") None) []); (Node 166 (KAssign 1%nat) [(Node 167 KSelector [(Node 168 (KIdent (str "err") (Some 15)) []); (Node 169 (KIdent (str "TheCode") None) [])]); (Node 170 (KIdent (str "input") (Some 14)) [])])]); (Node 171 (KCaseClause 1%nat) [(Node 172 (KIdent (str "true") None) []); (Node 173 (KAssign 1%nat) [(Node 174 KSelector [(Node 175 (KIdent (str "err") (Some 15)) []); (Node 176 (KIdent (str "TheCode") None) [])]); (Node 177 KCall [(Node 178 (KIdent (str "returnCode") (Some 11)) [])])])]); (Node 179 (KCaseClause 1%nat) [(Node 180 (KIdent (str "true") None) []); (Node 181 (KAssign 2%nat) [(Node 182 (KIdent (str "_") None) []); (Node 183 KSelector [(Node 184 (KIdent (str "err") (Some 15)) []); (Node 185 (KIdent (str "TheCode") None) [])]); (Node 186 KCall [(Node 187 (KIdent (str "returnTwoCodes") (Some 12)) [])])])]); (Node 188 (KCaseClause 1%nat) [(Node 189 (KIdent (str "true") None) []); (Node 190 (KAssign 2%nat) [(Node 191 KSelector [(Node 192 (KIdent (str "err") (Some 15)) []); (Node 193 (KIdent (str "TheCode") None) [])]); (Node 194 KSelector [(Node 195 (KIdent (str "err") (Some 15)) []); (Node 196 (KIdent (str "TheCode") None) [])]); (Node 197 KCall [(Node 198 (KIdent (str "returnTwoCodes") (Some 12)) [])])])])])]); (Node 199 KReturn [(Node 200 (KIdent (str "err") (Some 15)) [])])])) 1409 2062.
Definition t_field_assignment_f7 : func := Func 210 (Some (DeclInfo (Ident 211 (str "AssignmentsToOtherStuff") (Some 16)) None (Some (comment_text [(str "// Errors:"); (str "//"); (str "//    - some-error --")])))) (FuncType 212 [] (Some [(Field 215 [] 216)]) 2182) (Some (Node 217 (KOther (str "*ast.BlockStmt")) [(Node 218 (KAssign 1%nat) [(Node 219 (KIdent (str "err") (Some 17)) []); (Node 220 (KUnary true) [(Node 221 KComposite [(Node 223 KBasicLit [])])])]); (Node 224 (KAssign 1%nat) [(Node 225 (KIdent (str "not_returned") (Some 18)) []); (Node 226 (KUnary true) [(Node 227 KComposite [(Node 229 KBasicLit [])])])]); (Node 230 (KAssign 1%nat) [(Node 231 KSelector [(Node 232 (KIdent (str "not_returned") (Some 18)) []); (Node 233 (KIdent (str "TheCode") None) [])]); (Node 234 KBasicLit [])]); (Node 235 (KAssign 1%nat) [(Node 236 (KIdent (str "other") (Some 19)) []); (Node 237 KComposite [(Node 239 KBasicLit []); (Node 240 KBasicLit [])])]); (Node 241 (KAssign 1%nat) [(Node 242 KSelector [(Node 243 (KIdent (str "not_returned") (Some 18)) []); (Node 244 (KIdent (str "TheCode") None) [])]); (Node 245 (KOther (str "*ast.BinaryExpr")) [(Node 246 KSelector [(Node 247 (KIdent (str "other") (Some 19)) []); (Node 248 (KIdent (str "Field1") None) [])]); (Node 249 KSelector [(Node 250 (KIdent (str "other") (Some 19)) []); (Node 251 (KIdent (str "Field2") None) [])])])]); (Node 252 (KAssign 1%nat) [(Node 253 KSelector [(Node 254 (KIdent (str "other") (Some 19)) []); (Node 255 (KIdent (str "Field2") None) [])]); (Node 256 (KOther (str "*ast.BinaryExpr")) [(Node 257 KSelector [(Node 258 (KIdent (str "not_returned") (Some 18)) []); (Node 259 (KIdent (str "TheCode") None) [])]); (Node 260 KBasicLit [])])]); (Node 261 KReturn [(Node 262 (KIdent (str "err") (Some 17)) [])])])) 2188 2511.
Definition t_field_assignment_f8 : func := Func 263 (Some (DeclInfo (Ident 264 (str "AssignmentToOtherField") (Some 20)) None (Some (comment_text [(str "// Errors:"); (str "//"); (str "//    - some-error  --"); (str "//    - other-error --")])))) (FuncType 265 [(Field 267 [(Ident 268 (str "input") (Some 21))] 269)] (Some [(Field 271 [] 272)]) 2615) (Some (Node 273 (KOther (str "*ast.BlockStmt")) [(Node 274 (KAssign 1%nat) [(Node 275 (KIdent (str "err") (Some 22)) []); (Node 276 (KUnary true) [(Node 277 KComposite [(Node 279 KBasicLit []); (Node 280 KBasicLit [])])])]); (Node 281 (KOther (str "*ast.SwitchStmt")) [(Node 282 (KOther (str "*ast.BlockStmt")) [(Node 283 (KCaseClause 1%nat) [(Node 284 (KIdent (str "true") None) []); (Node 285 (KAssign 1%nat) [(Node 286 KSelector [(Node 287 (KIdent (str "err") (Some 22)) []); (Node 288 (KIdent (str "Other") None) [])]); (Node 289 KBasicLit [])])]); (Node 290 (KCaseClause 1%nat) [(Node 291 (KIdent (str "true") None) []); (Node 292 (KAssign 1%nat) [(Node 293 KSelector [(Node 294 (KIdent (str "err") (Some 22)) []); (Node 295 (KIdent (str "Other") None) [])]); (Node 296 (KIdent (str "input") (Some 21)) [])])]); (Node 297 (KCaseClause 1%nat) [(Node 298 (KIdent (str "true") None) []); (Node 299 (KAssign 1%nat) [(Node 300 KSelector [(Node 301 (KIdent (str "err") (Some 22)) []); (Node 302 (KIdent (str "TheCode") None) [])]); (Node 303 KBasicLit [])])])])]); (Node 304 KReturn [(Node 305 (KIdent (str "err") (Some 22)) [])])])) 2621 2867.
Definition t_field_assignment_f9 : func := Func 306 (Some (DeclInfo (Ident 307 (str "ComplicatedAssignment") (Some 23)) None (Some (comment_text [(str "// Errors:"); (str "//"); (str "//    - some-error  --"); (str "//    - other-1-error --"); (str "//    - other-2-error --")])))) (FuncType 308 [] (Some [(Field 311 [] 312)]) 2985) (Some (Node 313 (KOther (str "*ast.BlockStmt")) [(Node 314 (KAssign 1%nat) [(Node 315 (KIdent (str "err1") (Some 24)) []); (Node 316 (KUnary true) [(Node 317 KComposite [(Node 319 KBasicLit []); (Node 320 KBasicLit [])])])]); (Node 321 (KAssign 1%nat) [(Node 322 (KIdent (str "err2") (Some 25)) []); (Node 323 (KIdent (str "err1") (Some 24)) [])]); (Node 324 (KAssign 2%nat) [(Node 325 KSelector [(Node 326 (KIdent (str "err2") (Some 25)) []); (Node 327 (KIdent (str "TheCode") None) [])]); (Node 328 KSelector [(Node 329 (KIdent (str "err2") (Some 25)) []); (Node 330 (KIdent (str "TheCode") None) [])]); (Node 331 KBasicLit []); (Node 332 KBasicLit [])]); (Node 333 (KAssign 1%nat) [(Node 334 KSelector [(Node 335 (KIdent (str "err2") (Some 25)) []); (Node 336 (KIdent (str "Other") None) [])]); (Node 337 KBasicLit [])]); (Node 338 (KOther (str "*ast.DeclStmt")) [(Node 339 (KOther (str "*ast.GenDecl")) [(Node 340 (KValueSpec [(Ident 341 (str "err3") (Some 26))] (Some 342)) [])])]); (Node 343 (KAssign 1%nat) [(Node 344 (KIdent (str "err3") (Some 26)) []); (Node 345 (KIdent (str "err2") (Some 25)) [])]); (Node 346 (KAssign 2%nat) [(Node 347 (KIdent (str "_") (Some 27)) []); (Node 348 (KIdent (str "err") (Some 28)) []); (Node 349 KBasicLit []); (Node 350 (KIdent (str "err3") (Some 26)) [])]); (Node 351 KReturn [(Node 352 (KIdent (str "err") (Some 28)) [])])])) 2991 3288.
Definition t_field_assignment_f10 : func := Func 361 (Some (DeclInfo (Ident 367 (str "Code") None) (Some [(Field 363 [(Ident 364 (str "e") (Some 29))] 365)]) None)) (FuncType 368 [] (Some [(Field 371 [] 372)]) 3422) (Some (Node 373 (KOther (str "*ast.BlockStmt")) [(Node 374 KReturn [(Node 375 KSelector [(Node 376 (KIdent (str "e") (Some 29)) []); (Node 377 (KIdent (str "TheCode") None) [])])])])) 3443 3463.
Definition t_field_assignment_f11 : func := Func 378 (Some (DeclInfo (Ident 384 (str "Message") None) (Some [(Field 380 [(Ident 381 (str "e") (Some 30))] 382)]) None)) (FuncType 385 [] (Some [(Field 388 [] 389)]) 3490) (Some (Node 390 (KOther (str "*ast.BlockStmt")) [(Node 391 KReturn [(Node 392 KSelector [(Node 393 (KIdent (str "e") (Some 30)) []); (Node 394 (KIdent (str "TheCode") None) [])])])])) 3508 3528.
Definition t_field_assignment_f12 : func := Func 395 (Some (DeclInfo (Ident 401 (str "Details") None) (Some [(Field 397 [(Ident 398 (str "e") (Some 31))] 399)]) None)) (FuncType 402 [] (Some [(Field 405 [] 406)]) 3555) (Some (Node 409 (KOther (str "*ast.BlockStmt")) [(Node 410 KReturn [(Node 411 (KIdent (str "nil") None) [])])])) 3573 3587.
Definition t_field_assignment_f13 : func := Func 412 (Some (DeclInfo (Ident 418 (str "Cause") None) (Some [(Field 414 [(Ident 415 (str "e") (Some 32))] 416)]) None)) (FuncType 419 [] (Some [(Field 422 [] 423)]) 3612) (Some (Node 424 (KOther (str "*ast.BlockStmt")) [(Node 425 KReturn [(Node 426 (KIdent (str "nil") None) [])])])) 3632 3646.
Definition t_field_assignment_f14 : func := Func 427 (Some (DeclInfo (Ident 433 (str "Error") None) (Some [(Field 429 [(Ident 430 (str "e") (Some 33))] 431)]) None)) (FuncType 434 [] (Some [(Field 437 [] 438)]) 3671) (Some (Node 439 (KOther (str "*ast.BlockStmt")) [(Node 440 KReturn [(Node 441 KCall [(Node 442 KSelector [(Node 443 (KIdent (str "e") (Some 33)) []); (Node 444 (KIdent (str "Message") None) [])])])])])) 3691 3713.
Definition t_field_assignment_f15 : func := Func 454 (Some (DeclInfo (Ident 460 (str "Code") None) (Some [(Field 456 [(Ident 457 (str "e") (Some 34))] 458)]) None)) (FuncType 461 [] (Some [(Field 464 [] 465)]) 3857) (Some (Node 466 (KOther (str "*ast.BlockStmt")) [(Node 467 KReturn [(Node 468 KSelector [(Node 469 (KIdent (str "e") (Some 34)) []); (Node 470 (KIdent (str "TheCode") None) [])])])])) 3878 3898.
Definition t_field_assignment_f16 : func := Func 471 (Some (DeclInfo (Ident 477 (str "Message") None) (Some [(Field 473 [(Ident 474 (str "e") (Some 35))] 475)]) None)) (FuncType 478 [] (Some [(Field 481 [] 482)]) 3926) (Some (Node 483 (KOther (str "*ast.BlockStmt")) [(Node 484 KReturn [(Node 485 KSelector [(Node 486 (KIdent (str "e") (Some 35)) []); (Node 487 (KIdent (str "TheCode") None) [])])])])) 3944 3964.
Definition t_field_assignment_f17 : func := Func 488 (Some (DeclInfo (Ident 494 (str "Details") None) (Some [(Field 490 [(Ident 491 (str "e") (Some 36))] 492)]) None)) (FuncType 495 [] (Some [(Field 498 [] 499)]) 3992) (Some (Node 502 (KOther (str "*ast.BlockStmt")) [(Node 503 KReturn [(Node 504 (KIdent (str "nil") None) [])])])) 4010 4024.
Definition t_field_assignment_f18 : func := Func 505 (Some (DeclInfo (Ident 511 (str "Cause") None) (Some [(Field 507 [(Ident 508 (str "e") (Some 37))] 509)]) None)) (FuncType 512 [] (Some [(Field 515 [] 516)]) 4050) (Some (Node 517 (KOther (str "*ast.BlockStmt")) [(Node 518 KReturn [(Node 519 (KIdent (str "nil") None) [])])])) 4070 4084.
Definition t_field_assignment_f19 : func := Func 520 (Some (DeclInfo (Ident 526 (str "Error") None) (Some [(Field 522 [(Ident 523 (str "e") (Some 38))] 524)]) None)) (FuncType 527 [] (Some [(Field 530 [] 531)]) 4110) (Some (Node 532 (KOther (str "*ast.BlockStmt")) [(Node 533 KReturn [(Node 534 KCall [(Node 535 KSelector [(Node 536 (KIdent (str "e") (Some 38)) []); (Node 537 (KIdent (str "Message") None) [])])])])])) 4130 4152.
Definition t_field_assignment_gendecls : list gendecl := [GenDecl 27 [None]; GenDecl 58 [None]; GenDecl 70 [None]; GenDecl 75 [None]; GenDecl 201 [(Some (TypeSpec (Ident 203 (str "OtherStuff") (Some 39)) (XStruct [[(Ident 207 (str "Field1") None); (Ident 208 (str "Field2") None)]])))]; GenDecl 339 [None]; GenDecl 353 [(Some (TypeSpec (Ident 355 (str "Error") (Some 40)) (XStruct [[(Ident 359 (str "TheCode") None)]])))]; GenDecl 445 [(Some (TypeSpec (Ident 447 (str "Error2") (Some 41)) (XStruct [[(Ident 451 (str "Other") None); (Ident 452 (str "TheCode") None)]])))]].
Definition t_field_assignment_top : list topdecl := [TopFunc 1; TopNode (Node 27 (KOther (str "*ast.GenDecl")) [(Node 28 (KValueSpec [(Ident 29 (str "errorSuffix") (Some 5))] None) [(Node 30 KBasicLit [])])]); TopFunc 2; TopFunc 3; TopFunc 4; TopFunc 5; TopFunc 6; TopNode (Node 201 (KOther (str "*ast.GenDecl")) [(Node 202 (KOther (str "*ast.TypeSpec")) [])]); TopFunc 7; TopFunc 8; TopFunc 9; TopNode (Node 353 (KOther (str "*ast.GenDecl")) [(Node 354 (KOther (str "*ast.TypeSpec")) [])]); TopFunc 10; TopFunc 11; TopFunc 12; TopFunc 13; TopFunc 14; TopNode (Node 445 (KOther (str "*ast.GenDecl")) [(Node 446 (KOther (str "*ast.TypeSpec")) [])]); TopFunc 15; TopFunc 16; TopFunc 17; TopFunc 18; TopFunc 19].
Definition t_field_assignment_objs : list (N * object) := [(1, Object false 91 (DFunc 1)); (2, Object true 177 DOther); (3, Object false 413 (DFunc 2)); (4, Object true 559 DOther); (5, Object false 270 (DValueSpec [(Ident 29 (str "errorSuffix") (Some 5))] [(Node 30 KBasicLit [])])); (6, Object false 668 (DValueSpec [(Ident 60 (str "code") (Some 6))] [(Node 61 KBasicLit [])])); (7, Object false 732 (DValueSpec [(Ident 72 (str "code1") (Some 7))] [(Node 73 KBasicLit [])])); (8, Object false 756 (DValueSpec [(Ident 77 (str "code2") (Some 8))] [(Node 78 KBasicLit [])])); (9, Object false 966 (DFunc 3)); (10, Object true 1046 DOther); (11, Object false 1193 (DFunc 4)); (12, Object false 1244 (DFunc 5)); (13, Object false 1365 (DFunc 6)); (14, Object true 1389 DOther); (15, Object true 1469 DOther); (16, Object false 2156 (DFunc 7)); (17, Object true 2248 DOther); (18, Object true 2277 DOther); (19, Object true 2362 DOther); (20, Object false 2578 (DFunc 8)); (21, Object true 2601 DOther); (22, Object true 2692 DOther); (23, Object false 2961 (DFunc 9)); (24, Object true 3077 DOther); (25, Object true 3117 DOther); (26, Object true 3225 (DValueSpec [(Ident 341 (str "err3") (Some 26))] [])); (27, Object true 3250 DOther); (28, Object true 3253 DOther); (29, Object true 3405 DOther); (30, Object true 3470 DOther); (31, Object true 3535 DOther); (32, Object true 3594 DOther); (33, Object true 3653 DOther); (34, Object true 3839 DOther); (35, Object true 3905 DOther); (36, Object true 3971 DOther); (37, Object true 4031 DOther); (38, Object true 4091 DOther); (39, Object false 2069 DType); (40, Object false 3295 DType); (41, Object false 3720 DType)].
Definition t_field_assignment_types : list (N * gotype) := [(5, (TSignature [] [(TNamed 1)] false)); (9, (TNamed 1)); (12, (TPointer (TNamed 58))); (13, (TPointer (TNamed 58))); (14, (TNamed 58)); (15, (TNamed 58)); (16, (TBasic (str "string"))); (18, (TBasic (str "bool"))); (21, (TBasic (str "string"))); (22, (TPointer (TNamed 58))); (23, (TBasic (str "string"))); (24, (TBasic (str "string"))); (26, (TPointer (TNamed 58))); (29, (TBasic (str "string"))); (30, (TBasic (str "string"))); (33, (TSignature [] [(TNamed 1)] false)); (37, (TNamed 1)); (40, (TNamed 58)); (41, (TNamed 58)); (42, (TNamed 58)); (43, (TBasic (str "string"))); (47, (TBasic (str "bool"))); (49, (TBasic (str "string"))); (50, (TNamed 58)); (51, (TBasic (str "string"))); (52, (TBasic (str "string"))); (53, (TBasic (str "string"))); (54, (TBasic (str "string"))); (56, (TBasic (str "bool"))); (60, (TBasic (str "string"))); (61, (TBasic (str "string"))); (63, (TBasic (str "string"))); (64, (TNamed 58)); (65, (TBasic (str "string"))); (66, (TBasic (str "string"))); (68, (TBasic (str "bool"))); (72, (TBasic (str "string"))); (73, (TBasic (str "string"))); (77, (TBasic (str "string"))); (78, (TBasic (str "string"))); (80, (TBasic (str "string"))); (81, (TNamed 58)); (82, (TBasic (str "string"))); (83, (TBasic (str "string"))); (84, (TBasic (str "string"))); (85, (TBasic (str "string"))); (86, (TBasic (str "string"))); (87, (TBasic (str "string"))); (89, (TBasic (str "bool"))); (91, (TBasic (str "string"))); (92, (TNamed 58)); (93, (TBasic (str "string"))); (94, (TBasic (str "string"))); (96, (TPointer (TNamed 58))); (97, (TNamed 58)); (100, (TSignature [] [(TNamed 1)] false)); (104, (TNamed 1)); (107, (TPointer (TNamed 58))); (108, (TPointer (TNamed 58))); (109, (TNamed 58)); (110, (TNamed 58)); (111, (TBasic (str "string"))); (113, (TBasic (str "bool"))); (116, (TBasic (str "string"))); (117, (TPointer (TNamed 58))); (118, (TBasic (str "string"))); (119, (TBasic (str "string"))); (121, (TPointer (TNamed 58))); (124, (TSignature [] [(TBasic (str "string"))] false)); (128, (TBasic (str "string"))); (131, (TBasic (str "string"))); (134, (TSignature [] [(TBasic (str "string")); (TBasic (str "string"))] false)); (138, (TBasic (str "string"))); (140, (TBasic (str "string"))); (143, (TBasic (str "string"))); (144, (TBasic (str "string"))); (147, (TSignature [(TBasic (str "string"))] [(TNamed 1)] false)); (150, (TBasic (str "string"))); (151, (TBasic (str "string"))); (154, (TNamed 1)); (157, (TPointer (TNamed 58))); (158, (TPointer (TNamed 58))); (159, (TNamed 58)); (160, (TNamed 58)); (161, (TBasic (str "string"))); (165, (TBasic (str "bool"))); (167, (TBasic (str "string"))); (168, (TPointer (TNamed 58))); (169, (TBasic (str "string"))); (170, (TBasic (str "string"))); (172, (TBasic (str "bool"))); (174, (TBasic (str "string"))); (175, (TPointer (TNamed 58))); (176, (TBasic (str "string"))); (177, (TBasic (str "string"))); (178, (TSignature [] [(TBasic (str "string"))] false)); (180, (TBasic (str "bool"))); (183, (TBasic (str "string"))); (184, (TPointer (TNamed 58))); (185, (TBasic (str "string"))); (186, (TTuple [(TBasic (str "string")); (TBasic (str "string"))])); (187, (TSignature [] [(TBasic (str "string")); (TBasic (str "string"))] false)); (189, (TBasic (str "bool"))); (191, (TBasic (str "string"))); (192, (TPointer (TNamed 58))); (193, (TBasic (str "string"))); (194, (TBasic (str "string"))); (195, (TPointer (TNamed 58))); (196, (TBasic (str "string"))); (197, (TTuple [(TBasic (str "string")); (TBasic (str "string"))])); (198, (TSignature [] [(TBasic (str "string")); (TBasic (str "string"))] false)); (200, (TPointer (TNamed 58))); (203, (TNamed 54)); (204, (TStruct [((str "Field1"), (TBasic (str "string"))); ((str "Field2"), (TBasic (str "string")))])); (207, (TBasic (str "string"))); (208, (TBasic (str "string"))); (209, (TBasic (str "string"))); (212, (TSignature [] [(TNamed 1)] false)); (216, (TNamed 1)); (219, (TPointer (TNamed 58))); (220, (TPointer (TNamed 58))); (221, (TNamed 58)); (222, (TNamed 58)); (223, (TBasic (str "string"))); (225, (TPointer (TNamed 58))); (226, (TPointer (TNamed 58))); (227, (TNamed 58)); (228, (TNamed 58)); (229, (TBasic (str "string"))); (231, (TBasic (str "string"))); (232, (TPointer (TNamed 58))); (233, (TBasic (str "string"))); (234, (TBasic (str "string"))); (236, (TNamed 54)); (237, (TNamed 54)); (238, (TNamed 54)); (239, (TBasic (str "string"))); (240, (TBasic (str "string"))); (242, (TBasic (str "string"))); (243, (TPointer (TNamed 58))); (244, (TBasic (str "string"))); (245, (TBasic (str "string"))); (246, (TBasic (str "string"))); (247, (TNamed 54)); (248, (TBasic (str "string"))); (249, (TBasic (str "string"))); (250, (TNamed 54)); (251, (TBasic (str "string"))); (253, (TBasic (str "string"))); (254, (TNamed 54)); (255, (TBasic (str "string"))); (256, (TBasic (str "string"))); (257, (TBasic (str "string"))); (258, (TPointer (TNamed 58))); (259, (TBasic (str "string"))); (260, (TBasic (str "string"))); (262, (TPointer (TNamed 58))); (265, (TSignature [(TBasic (str "string"))] [(TNamed 1)] false)); (268, (TBasic (str "string"))); (269, (TBasic (str "string"))); (272, (TNamed 1)); (275, (TPointer (TNamed 64))); (276, (TPointer (TNamed 64))); (277, (TNamed 64)); (278, (TNamed 64)); (279, (TBasic (str "string"))); (280, (TBasic (str "string"))); (284, (TBasic (str "bool"))); (286, (TBasic (str "string"))); (287, (TPointer (TNamed 64))); (288, (TBasic (str "string"))); (289, (TBasic (str "string"))); (291, (TBasic (str "bool"))); (293, (TBasic (str "string"))); (294, (TPointer (TNamed 64))); (295, (TBasic (str "string"))); (296, (TBasic (str "string"))); (298, (TBasic (str "bool"))); (300, (TBasic (str "string"))); (301, (TPointer (TNamed 64))); (302, (TBasic (str "string"))); (303, (TBasic (str "string"))); (305, (TPointer (TNamed 64))); (308, (TSignature [] [(TNamed 1)] false)); (312, (TNamed 1)); (315, (TPointer (TNamed 64))); (316, (TPointer (TNamed 64))); (317, (TNamed 64)); (318, (TNamed 64)); (319, (TBasic (str "string"))); (320, (TBasic (str "string"))); (322, (TPointer (TNamed 64))); (323, (TPointer (TNamed 64))); (325, (TBasic (str "string"))); (326, (TPointer (TNamed 64))); (327, (TBasic (str "string"))); (328, (TBasic (str "string"))); (329, (TPointer (TNamed 64))); (330, (TBasic (str "string"))); (331, (TBasic (str "string"))); (332, (TBasic (str "string"))); (334, (TBasic (str "string"))); (335, (TPointer (TNamed 64))); (336, (TBasic (str "string"))); (337, (TBasic (str "string"))); (341, (TNamed 1)); (342, (TNamed 1)); (344, (TNamed 1)); (345, (TPointer (TNamed 64))); (347, (TBasic (str "string"))); (348, (TNamed 1)); (349, (TBasic (str "string"))); (350, (TNamed 1)); (352, (TNamed 1)); (355, (TNamed 58)); (356, (TStruct [((str "TheCode"), (TBasic (str "string")))])); (359, (TBasic (str "string"))); (360, (TBasic (str "string"))); (364, (TPointer (TNamed 58))); (365, (TPointer (TNamed 58))); (366, (TNamed 58)); (368, (TSignature [] [(TBasic (str "string"))] false)); (372, (TBasic (str "string"))); (375, (TBasic (str "string"))); (376, (TPointer (TNamed 58))); (377, (TBasic (str "string"))); (381, (TPointer (TNamed 58))); (382, (TPointer (TNamed 58))); (383, (TNamed 58)); (385, (TSignature [] [(TBasic (str "string"))] false)); (389, (TBasic (str "string"))); (392, (TBasic (str "string"))); (393, (TPointer (TNamed 58))); (394, (TBasic (str "string"))); (398, (TPointer (TNamed 58))); (399, (TPointer (TNamed 58))); (400, (TNamed 58)); (402, (TSignature [] [(TMap (TBasic (str "string")) (TBasic (str "string")))] false)); (406, (TMap (TBasic (str "string")) (TBasic (str "string")))); (407, (TBasic (str "string"))); (408, (TBasic (str "string"))); (411, TUntypedNil); (415, (TPointer (TNamed 58))); (416, (TPointer (TNamed 58))); (417, (TNamed 58)); (419, (TSignature [] [(TNamed 1)] false)); (423, (TNamed 1)); (426, TUntypedNil); (430, (TPointer (TNamed 58))); (431, (TPointer (TNamed 58))); (432, (TNamed 58)); (434, (TSignature [] [(TBasic (str "string"))] false)); (438, (TBasic (str "string"))); (441, (TBasic (str "string"))); (442, (TSignature [] [(TBasic (str "string"))] false)); (443, (TPointer (TNamed 58))); (444, (TSignature [] [(TBasic (str "string"))] false)); (447, (TNamed 64)); (448, (TStruct [((str "Other"), (TBasic (str "string"))); ((str "TheCode"), (TBasic (str "string")))])); (451, (TBasic (str "string"))); (452, (TBasic (str "string"))); (453, (TBasic (str "string"))); (457, (TPointer (TNamed 64))); (458, (TPointer (TNamed 64))); (459, (TNamed 64)); (461, (TSignature [] [(TBasic (str "string"))] false)); (465, (TBasic (str "string"))); (468, (TBasic (str "string"))); (469, (TPointer (TNamed 64))); (470, (TBasic (str "string"))); (474, (TPointer (TNamed 64))); (475, (TPointer (TNamed 64))); (476, (TNamed 64)); (478, (TSignature [] [(TBasic (str "string"))] false)); (482, (TBasic (str "string"))); (485, (TBasic (str "string"))); (486, (TPointer (TNamed 64))); (487, (TBasic (str "string"))); (491, (TPointer (TNamed 64))); (492, (TPointer (TNamed 64))); (493, (TNamed 64)); (495, (TSignature [] [(TMap (TBasic (str "string")) (TBasic (str "string")))] false)); (499, (TMap (TBasic (str "string")) (TBasic (str "string")))); (500, (TBasic (str "string"))); (501, (TBasic (str "string"))); (504, TUntypedNil); (508, (TPointer (TNamed 64))); (509, (TPointer (TNamed 64))); (510, (TNamed 64)); (512, (TSignature [] [(TNamed 1)] false)); (516, (TNamed 1)); (519, TUntypedNil); (523, (TPointer (TNamed 64))); (524, (TPointer (TNamed 64))); (525, (TNamed 64)); (527, (TSignature [] [(TBasic (str "string"))] false)); (531, (TBasic (str "string"))); (534, (TBasic (str "string"))); (535, (TSignature [] [(TBasic (str "string"))] false)); (536, (TPointer (TNamed 64))); (537, (TSignature [] [(TBasic (str "string"))] false))].
Definition t_field_assignment_values : list (N * constval) := [(16, CString (str "some-error")); (18, COther); (24, CString (str "other-error")); (30, CString (str "-error")); (43, CString (str "some-error")); (47, COther); (52, CString (str "other-1-error")); (53, CString (str "other-1")); (54, CString (str "-error")); (56, COther); (61, CString (str "other-2-error")); (66, CString (str "other-2-error")); (68, COther); (73, CString (str "other")); (78, CString (str "-3")); (83, CString (str "other-3-error")); (84, CString (str "other-3")); (85, CString (str "other")); (86, CString (str "-3")); (87, CString (str "-error")); (89, COther); (94, CString (str "")); (111, CString (str "some-error")); (113, COther); (119, CString (str "-invalid-")); (131, CString (str "func-error")); (143, CString (str "func-error")); (144, CString (str "other-func-error")); (161, CString (str "some-error")); (165, COther); (172, COther); (180, COther); (189, COther); (223, CString (str "some-error")); (229, CString (str "unused-error")); (234, CString (str "other-unused-error")); (239, CString (str "a")); (240, CString (str "b")); (260, CString (str "some garbage")); (279, CString (str "stuff")); (280, CString (str "some-error")); (284, COther); (289, CString (str "constant")); (291, COther); (298, COther); (303, CString (str "other-error")); (319, CString (str "other")); (320, CString (str "some-error")); (331, CString (str "other-1-error")); (332, CString (str "other-2-error")); (337, CString (str "don't care")); (349, CString (str "unused"))].
Definition t_field_assignment_uses : list (N * tobj) := [(9, 1); (15, 58); (18, 21); (22, 84); (23, 82); (26, 84); (37, 1); (42, 58); (47, 21); (50, 85); (51, 82); (54, 48); (56, 21); (64, 85); (65, 82); (66, 86); (68, 21); (81, 85); (82, 82); (85, 87); (86, 88); (87, 48); (89, 21); (92, 85); (93, 82); (97, 85); (104, 1); (110, 58); (113, 21); (117, 89); (118, 82); (121, 89); (128, 5); (138, 5); (140, 5); (151, 5); (154, 1); (160, 58); (165, 21); (168, 90); (169, 82); (170, 80); (172, 21); (175, 90); (176, 82); (178, 51); (180, 21); (184, 90); (185, 82); (187, 52); (189, 21); (192, 90); (193, 82); (195, 90); (196, 82); (198, 52); (200, 90); (209, 5); (216, 1); (222, 58); (228, 58); (232, 92); (233, 82); (238, 54); (243, 92); (244, 82); (247, 93); (248, 94); (250, 93); (251, 95); (254, 93); (255, 95); (258, 92); (259, 82); (262, 91); (269, 5); (272, 1); (278, 64); (284, 21); (287, 96); (288, 97); (291, 21); (294, 96); (295, 97); (296, 81); (298, 21); (301, 96); (302, 83); (305, 96); (312, 1); (318, 64); (323, 98); (326, 99); (327, 83); (329, 99); (330, 83); (335, 99); (336, 97); (342, 1); (344, 100); (345, 99); (350, 100); (352, 102); (360, 5); (366, 58); (372, 5); (376, 70); (377, 82); (383, 58); (389, 5); (393, 71); (394, 82); (400, 58); (407, 5); (408, 5); (411, 24); (417, 58); (423, 1); (426, 24); (432, 58); (438, 5); (443, 74); (444, 60); (453, 5); (459, 64); (465, 5); (469, 75); (470, 83); (476, 64); (482, 5); (486, 76); (487, 83); (493, 64); (500, 5); (501, 5); (504, 24); (510, 64); (516, 1); (519, 24); (525, 64); (531, 5); (536, 79); (537, 66)].
Definition t_field_assignment_defs : list (N * tobj) := [(4, 47); (12, 84); (29, 48); (32, 49); (40, 85); (60, 86); (72, 87); (77, 88); (99, 50); (107, 89); (123, 51); (133, 52); (146, 53); (150, 80); (157, 90); (203, 54); (211, 55); (219, 91); (225, 92); (236, 93); (264, 56); (268, 81); (275, 96); (307, 57); (315, 98); (322, 99); (341, 100); (347, 101); (348, 102); (355, 58); (364, 70); (367, 59); (381, 71); (384, 60); (398, 72); (401, 61); (415, 73); (418, 62); (430, 74); (433, 63); (447, 64); (457, 75); (460, 65); (474, 76); (477, 66); (491, 77); (494, 67); (508, 78); (511, 68); (523, 79); (526, 69)].
Definition t_field_assignment_sels : list (N * (tobj * gotype)) := [(21, (82, (TPointer (TNamed 58)))); (49, (82, (TNamed 58))); (63, (82, (TNamed 58))); (80, (82, (TNamed 58))); (91, (82, (TNamed 58))); (116, (82, (TPointer (TNamed 58)))); (167, (82, (TPointer (TNamed 58)))); (174, (82, (TPointer (TNamed 58)))); (183, (82, (TPointer (TNamed 58)))); (191, (82, (TPointer (TNamed 58)))); (194, (82, (TPointer (TNamed 58)))); (231, (82, (TPointer (TNamed 58)))); (242, (82, (TPointer (TNamed 58)))); (246, (94, (TNamed 54))); (249, (95, (TNamed 54))); (253, (95, (TNamed 54))); (257, (82, (TPointer (TNamed 58)))); (286, (97, (TPointer (TNamed 64)))); (293, (97, (TPointer (TNamed 64)))); (300, (83, (TPointer (TNamed 64)))); (325, (83, (TPointer (TNamed 64)))); (328, (83, (TPointer (TNamed 64)))); (334, (97, (TPointer (TNamed 64)))); (375, (82, (TPointer (TNamed 58)))); (392, (82, (TPointer (TNamed 58)))); (442, (60, (TPointer (TNamed 58)))); (468, (83, (TPointer (TNamed 64)))); (485, (83, (TPointer (TNamed 64)))); (535, (66, (TPointer (TNamed 64))))].
Definition t_field_assignment_pkgnames : list (N * gostring) := [].
Definition t_field_assignment_objnames : list (N * gostring) := [(1, (str "error")); (2, (str "Error")); (3, (str "?")); (4, (str "bool")); (5, (str "string")); (6, (str "int")); (7, (str "int8")); (8, (str "int16")); (9, (str "int32")); (10, (str "int64")); (11, (str "uint")); (12, (str "uint8")); (13, (str "uint16")); (14, (str "uint32")); (15, (str "uint64")); (16, (str "uintptr")); (17, (str "float32")); (18, (str "float64")); (19, (str "complex64")); (20, (str "complex128")); (21, (str "true")); (22, (str "false")); (23, (str "iota")); (24, (str "nil")); (25, (str "append")); (26, (str "cap")); (27, (str "close")); (28, (str "complex")); (29, (str "copy")); (30, (str "delete")); (31, (str "imag")); (32, (str "len")); (33, (str "make")); (34, (str "new")); (35, (str "panic")); (36, (str "print")); (37, (str "println")); (38, (str "real")); (39, (str "recover")); (40, (str "Errorf")); (41, (str "Sprintf")); (42, (str "Println")); (43, (str "New")); (44, (str "HasPrefix")); (45, (str "Float32")); (46, (str "Float64")); (47, (str "EasyAssignment")); (48, (str "errorSuffix")); (49, (str "ConstantExpressionAssignments")); (50, (str "AssignInvalidCode")); (51, (str "returnCode")); (52, (str "returnTwoCodes")); (53, (str "AssignInvalidExpression")); (54, (str "OtherStuff")); (55, (str "AssignmentsToOtherStuff")); (56, (str "AssignmentToOtherField")); (57, (str "ComplicatedAssignment")); (58, (str "Error")); (59, (str "Code")); (60, (str "Message")); (61, (str "Details")); (62, (str "Cause")); (63, (str "Error")); (64, (str "Error2")); (65, (str "Code")); (66, (str "Message")); (67, (str "Details")); (68, (str "Cause")); (69, (str "Error")); (70, (str "e")); (71, (str "e")); (72, (str "e")); (73, (str "e")); (74, (str "e")); (75, (str "e")); (76, (str "e")); (77, (str "e")); (78, (str "e")); (79, (str "e")); (80, (str "input")); (81, (str "input")); (82, (str "TheCode")); (83, (str "TheCode")); (84, (str "err")); (85, (str "err")); (86, (str "code")); (87, (str "code1")); (88, (str "code2")); (89, (str "err")); (90, (str "err")); (91, (str "err")); (92, (str "not_returned")); (93, (str "other")); (94, (str "Field1")); (95, (str "Field2")); (96, (str "err")); (97, (str "Other")); (98, (str "err1")); (99, (str "err2")); (100, (str "err3")); (101, (str "_")); (102, (str "err"))].
Definition t_field_assignment_objtypes : list (N * gotype) := [(1, (TNamed 1)); (2, (TSignature [] [(TBasic (str "string"))] false)); (4, (TBasic (str "bool"))); (5, (TBasic (str "string"))); (6, (TBasic (str "int"))); (7, (TBasic (str "int8"))); (8, (TBasic (str "int16"))); (9, (TBasic (str "int32"))); (10, (TBasic (str "int64"))); (11, (TBasic (str "uint"))); (12, (TBasic (str "uint8"))); (13, (TBasic (str "uint16"))); (14, (TBasic (str "uint32"))); (15, (TBasic (str "uint64"))); (16, (TBasic (str "uintptr"))); (17, (TBasic (str "float32"))); (18, (TBasic (str "float64"))); (19, (TBasic (str "complex64"))); (20, (TBasic (str "complex128"))); (40, (TSignature [(TBasic (str "string")); (TSlice (TInterface 4))] [(TNamed 1)] true)); (41, (TSignature [(TBasic (str "string")); (TSlice (TInterface 4))] [(TBasic (str "string"))] true)); (42, (TSignature [(TSlice (TInterface 4))] [(TBasic (str "int")); (TNamed 1)] true)); (43, (TSignature [(TBasic (str "string"))] [(TNamed 1)] false)); (44, (TSignature [(TBasic (str "string")); (TBasic (str "string"))] [(TBasic (str "bool"))] false)); (45, (TSignature [] [(TBasic (str "float32"))] false)); (46, (TSignature [] [(TBasic (str "float64"))] false)); (47, (TSignature [] [(TNamed 1)] false)); (48, (TBasic (str "string"))); (49, (TSignature [] [(TNamed 1)] false)); (50, (TSignature [] [(TNamed 1)] false)); (51, (TSignature [] [(TBasic (str "string"))] false)); (52, (TSignature [] [(TBasic (str "string")); (TBasic (str "string"))] false)); (53, (TSignature [(TBasic (str "string"))] [(TNamed 1)] false)); (54, (TNamed 54)); (55, (TSignature [] [(TNamed 1)] false)); (56, (TSignature [(TBasic (str "string"))] [(TNamed 1)] false)); (57, (TSignature [] [(TNamed 1)] false)); (58, (TNamed 58)); (59, (TSignature [] [(TBasic (str "string"))] false)); (60, (TSignature [] [(TBasic (str "string"))] false)); (61, (TSignature [] [(TMap (TBasic (str "string")) (TBasic (str "string")))] false)); (62, (TSignature [] [(TNamed 1)] false)); (63, (TSignature [] [(TBasic (str "string"))] false)); (64, (TNamed 64)); (65, (TSignature [] [(TBasic (str "string"))] false)); (66, (TSignature [] [(TBasic (str "string"))] false)); (67, (TSignature [] [(TMap (TBasic (str "string")) (TBasic (str "string")))] false)); (68, (TSignature [] [(TNamed 1)] false)); (69, (TSignature [] [(TBasic (str "string"))] false)); (70, (TPointer (TNamed 58))); (71, (TPointer (TNamed 58))); (72, (TPointer (TNamed 58))); (73, (TPointer (TNamed 58))); (74, (TPointer (TNamed 58))); (75, (TPointer (TNamed 64))); (76, (TPointer (TNamed 64))); (77, (TPointer (TNamed 64))); (78, (TPointer (TNamed 64))); (79, (TPointer (TNamed 64))); (80, (TBasic (str "string"))); (81, (TBasic (str "string"))); (82, (TBasic (str "string"))); (83, (TBasic (str "string"))); (84, (TPointer (TNamed 58))); (85, (TNamed 58)); (86, (TBasic (str "string"))); (87, (TBasic (str "string"))); (88, (TBasic (str "string"))); (89, (TPointer (TNamed 58))); (90, (TPointer (TNamed 58))); (91, (TPointer (TNamed 58))); (92, (TPointer (TNamed 58))); (93, (TNamed 54)); (94, (TBasic (str "string"))); (95, (TBasic (str "string"))); (96, (TPointer (TNamed 64))); (97, (TBasic (str "string"))); (98, (TPointer (TNamed 64))); (99, (TPointer (TNamed 64))); (100, (TNamed 1)); (101, (TBasic (str "string"))); (102, (TNamed 1))].
Definition t_field_assignment_under : list (N * gotype) := [(1, (TInterface 1)); (54, (TStruct [((str "Field1"), (TBasic (str "string"))); ((str "Field2"), (TBasic (str "string")))])); (58, (TStruct [((str "TheCode"), (TBasic (str "string")))])); (64, (TStruct [((str "Other"), (TBasic (str "string"))); ((str "TheCode"), (TBasic (str "string")))]))].
Definition t_field_assignment_named_methods : list (N * (list gostring)) := [(58, [(str "Code"); (str "Message"); (str "Details"); (str "Cause"); (str "Error")]); (64, [(str "Code"); (str "Message"); (str "Details"); (str "Cause"); (str "Error")])].
Definition t_field_assignment_methods : list (gotype * gostring * tobj) := [((TInterface 1), (str "Error"), 2); ((TNamed 1), (str "Error"), 2); ((TPointer (TNamed 58)), (str "Cause"), 62); ((TPointer (TNamed 58)), (str "Code"), 59); ((TPointer (TNamed 58)), (str "Details"), 61); ((TPointer (TNamed 58)), (str "Error"), 63); ((TPointer (TNamed 58)), (str "Message"), 60); ((TPointer (TNamed 64)), (str "Cause"), 68); ((TPointer (TNamed 64)), (str "Code"), 65); ((TPointer (TNamed 64)), (str "Details"), 67); ((TPointer (TNamed 64)), (str "Error"), 69); ((TPointer (TNamed 64)), (str "Message"), 66)].
Definition t_field_assignment_ierr : list gotype := [(TInterface 1); (TNamed 1); (TPointer (TNamed 58)); (TPointer (TNamed 64))].
Definition t_field_assignment_iree : list gotype := [(TPointer (TNamed 58)); (TPointer (TNamed 64))].
Definition t_field_assignment_icause : list gotype := [(TPointer (TNamed 58)); (TPointer (TNamed 64))].
Definition t_field_assignment_impl : list (gotype * gotype) := [((TInterface 1), (TInterface 1)); ((TNamed 1), (TInterface 1)); ((TPointer (TNamed 58)), (TInterface 1)); ((TPointer (TNamed 64)), (TInterface 1))].
Definition t_field_assignment_nodes0 : list snode := [SNode 1 (Place 0 1) (Place 4151 146) true; SNode 2 (Place 8 1) (Place 23 1) false; SNode 3 (Place 85 7) (Place 261 13) true; SNode 4 (Place 90 7) (Place 104 7) false; SNode 5 (Place 85 7) (Place 112 7) false; SNode 6 (Place 104 7) (Place 106 7) false; SNode 7 (Place 107 7) (Place 112 7) false; SNode 8 (Place 107 7) (Place 112 7) true; SNode 9 (Place 107 7) (Place 112 7) false; SNode 10 (Place 113 7) (Place 261 13) true; SNode 11 (Place 176 8) (Place 203 8) true; SNode 12 (Place 176 8) (Place 179 8) false; SNode 13 (Place 183 8) (Place 203 8) false; SNode 14 (Place 184 8) (Place 203 8) false; SNode 15 (Place 184 8) (Place 189 8) false; SNode 16 (Place 190 8) (Place 202 8) false; SNode 17 (Place 205 9) (Place 247 11) true; SNode 18 (Place 208 9) (Place 212 9) false; SNode 19 (Place 213 9) (Place 247 11) true; SNode 20 (Place 217 10) (Place 244 10) true; SNode 21 (Place 217 10) (Place 228 10) false; SNode 22 (Place 217 10) (Place 220 10) false; SNode 23 (Place 221 10) (Place 228 10) false; SNode 24 (Place 231 10) (Place 244 10) false; SNode 25 (Place 249 12) (Place 259 12) true; SNode 26 (Place 256 12) (Place 259 12) false; SNode 27 (Place 263 15) (Place 291 15) true; SNode 28 (Place 269 15) (Place 291 15) true; SNode 29 (Place 269 15) (Place 280 15) false; SNode 30 (Place 283 15) (Place 291 15) false; SNode 31 (Place 407 23) (Place 922 39) true; SNode 32 (Place 412 23) (Place 441 23) false; SNode 33 (Place 407 23) (Place 449 23) false; SNode 34 (Place 441 23) (Place 443 23) false; SNode 35 (Place 444 23) (Place 449 23) false; SNode 36 (Place 444 23) (Place 449 23) true; SNode 37 (Place 444 23) (Place 449 23) false; SNode 38 (Place 450 23) (Place 922 39) true; SNode 39 (Place 558 24) (Place 584 24) true; SNode 40 (Place 558 24) (Place 561 24) false; SNode 41 (Place 565 24) (Place 584 24) false; SNode 42 (Place 565 24) (Place 570 24) false; SNode 43 (Place 571 24) (Place 583 24) false; SNode 44 (Place 586 25) (Place 907 37) true; SNode 45 (Place 593 25) (Place 907 37) true; SNode 46 (Place 596 26) (Place 646 27) true; SNode 47 (Place 601 26) (Place 605 26) false; SNode 48 (Place 609 27) (Place 646 27) true; SNode 49 (Place 609 27) (Place 620 27) false; SNode 50 (Place 609 27) (Place 612 27) false; SNode 51 (Place 613 27) (Place 620 27) false; SNode 52 (Place 623 27) (Place 646 27) false; SNode 53 (Place 623 27) (Place 632 27) false; SNode 54 (Place 635 27) (Place 646 27) false; SNode 55 (Place 648 28) (Place 710 30) true; SNode 56 (Place 653 28) (Place 657 28) false; SNode 57 (Place 661 29) (Place 689 29) true; SNode 58 (Place 661 29) (Place 689 29) true; SNode 59 (Place 667 29) (Place 689 29) true; SNode 60 (Place 667 29) (Place 671 29) false; SNode 61 (Place 674 29) (Place 689 29) false; SNode 62 (Place 692 30) (Place 710 30) true; SNode 63 (Place 692 30) (Place 703 30) false; SNode 64 (Place 692 30) (Place 695 30) false; SNode 65 (Place 696 30) (Place 703 30) false; SNode 66 (Place 706 30) (Place 710 30) false; SNode 67 (Place 712 31) (Place 811 34) true; SNode 68 (Place 717 31) (Place 721 31) false; SNode 69 (Place 725 32) (Place 746 32) true; SNode 70 (Place 725 32) (Place 746 32) true; SNode 71 (Place 731 32) (Place 746 32) true; SNode 72 (Place 731 32) (Place 736 32) false; SNode 73 (Place 739 32) (Place 746 32) false; SNode 74 (Place 749 33) (Place 767 33) true; SNode 75 (Place 749 33) (Place 767 33) true; SNode 76 (Place 755 33) (Place 767 33) true; SNode 77 (Place 755 33) (Place 760 33) false; SNode 78 (Place 763 33) (Place 767 33) false; SNode 79 (Place 770 34) (Place 811 34) true; SNode 80 (Place 770 34) (Place 781 34) false; SNode 81 (Place 770 34) (Place 773 34) false; SNode 82 (Place 774 34) (Place 781 34) false; SNode 83 (Place 784 34) (Place 811 34) false; SNode 84 (Place 784 34) (Place 797 34) false; SNode 85 (Place 784 34) (Place 789 34) false; SNode 86 (Place 792 34) (Place 797 34) false; SNode 87 (Place 800 34) (Place 811 34) false; SNode 88 (Place 813 35) (Place 842 36) true; SNode 89 (Place 818 35) (Place 822 35) false; SNode 90 (Place 826 36) (Place 842 36) true; SNode 91 (Place 826 36) (Place 837 36) false; SNode 92 (Place 826 36) (Place 829 36) false; SNode 93 (Place 830 36) (Place 837 36) false; SNode 94 (Place 840 36) (Place 842 36) false; SNode 95 (Place 909 38) (Place 920 38) true; SNode 96 (Place 916 38) (Place 920 38) false; SNode 97 (Place 917 38) (Place 920 38) false; SNode 98 (Place 960 44) (Place 1185 50) true; SNode 99 (Place 965 44) (Place 982 44) false; SNode 100 (Place 960 44) (Place 990 44) false; SNode 101 (Place 982 44) (Place 984 44) false; SNode 102 (Place 985 44) (Place 990 44) false; SNode 103 (Place 985 44) (Place 990 44) true; SNode 104 (Place 985 44) (Place 990 44) false; SNode 105 (Place 991 44) (Place 1185 50) true; SNode 106 (Place 1045 45) (Place 1072 45) true; SNode 107 (Place 1045 45) (Place 1048 45) false; SNode 108 (Place 1052 45) (Place 1072 45) false; SNode 109 (Place 1053 45) (Place 1072 45) false; SNode 110 (Place 1053 45) (Place 1058 45) false; SNode 111 (Place 1059 45) (Place 1071 45) false; SNode 112 (Place 1074 46) (Place 1171 48) true; SNode 113 (Place 1077 46) (Place 1081 46) false; SNode 114 (Place 1082 46) (Place 1171 48) true; SNode 115 (Place 1086 47) (Place 1111 47) true; SNode 116 (Place 1086 47) (Place 1097 47) false; SNode 117 (Place 1086 47) (Place 1089 47) false; SNode 118 (Place 1090 47) (Place 1097 47) false; SNode 119 (Place 1100 47) (Place 1111 47) false; SNode 120 (Place 1173 49) (Place 1183 49) true; SNode 121 (Place 1180 49) (Place 1183 49) false; SNode 122 (Place 1187 52) (Place 1236 54) true; SNode 123 (Place 1192 52) (Place 1202 52) false; SNode 124 (Place 1187 52) (Place 1211 52) false; SNode 125 (Place 1202 52) (Place 1204 52) false; SNode 126 (Place 1205 52) (Place 1211 52) false; SNode 127 (Place 1205 52) (Place 1211 52) true; SNode 128 (Place 1205 52) (Place 1211 52) false; SNode 129 (Place 1212 52) (Place 1236 54) true; SNode 130 (Place 1215 53) (Place 1234 53) true; SNode 131 (Place 1222 53) (Place 1234 53) false; SNode 132 (Place 1238 56) (Place 1321 58) true; SNode 133 (Place 1243 56) (Place 1257 56) false; SNode 134 (Place 1238 56) (Place 1276 56) false; SNode 135 (Place 1257 56) (Place 1259 56) false; SNode 136 (Place 1260 56) (Place 1276 56) false; SNode 137 (Place 1261 56) (Place 1267 56) true; SNode 138 (Place 1261 56) (Place 1267 56) false; SNode 139 (Place 1269 56) (Place 1275 56) true; SNode 140 (Place 1269 56) (Place 1275 56) false; SNode 141 (Place 1277 56) (Place 1321 58) true; SNode 142 (Place 1280 57) (Place 1319 57) true; SNode 143 (Place 1287 57) (Place 1299 57) false; SNode 144 (Place 1301 57) (Place 1319 57) false; SNode 145 (Place 1359 63) (Place 2061 76) true; SNode 146 (Place 1364 63) (Place 1387 63) false; SNode 147 (Place 1359 63) (Place 1407 63) false; SNode 148 (Place 1387 63) (Place 1401 63) false; SNode 149 (Place 1388 63) (Place 1400 63) true; SNode 150 (Place 1388 63) (Place 1393 63) false; SNode 151 (Place 1394 63) (Place 1400 63) false; SNode 152 (Place 1402 63) (Place 1407 63) false; SNode 153 (Place 1402 63) (Place 1407 63) true; SNode 154 (Place 1402 63) (Place 1407 63) false; SNode 155 (Place 1408 63) (Place 2061 76) true; SNode 156 (Place 1468 64) (Place 1495 64) true; SNode 157 (Place 1468 64) (Place 1471 64) false; SNode 158 (Place 1475 64) (Place 1495 64) false; SNode 159 (Place 1476 64) (Place 1495 64) false; SNode 160 (Place 1476 64) (Place 1481 64) false; SNode 161 (Place 1482 64) (Place 1494 64) false; SNode 162 (Place 1497 65) (Place 2047 74) true; SNode 163 (Place 1504 65) (Place 2047 74) true; SNode 164 (Place 1507 66) (Place 1539 67) true; SNode 165 (Place 1512 66) (Place 1516 66) false; SNode 166 (Place 1520 67) (Place 1539 67) true; SNode 167 (Place 1520 67) (Place 1531 67) false; SNode 168 (Place 1520 67) (Place 1523 67) false; SNode 169 (Place 1524 67) (Place 1531 67) false; SNode 170 (Place 1534 67) (Place 1539 67) false; SNode 171 (Place 1627 68) (Place 1666 69) true; SNode 172 (Place 1632 68) (Place 1636 68) false; SNode 173 (Place 1640 69) (Place 1666 69) true; SNode 174 (Place 1640 69) (Place 1651 69) false; SNode 175 (Place 1640 69) (Place 1643 69) false; SNode 176 (Place 1644 69) (Place 1651 69) false; SNode 177 (Place 1654 69) (Place 1666 69) false; SNode 178 (Place 1654 69) (Place 1664 69) false; SNode 179 (Place 1738 70) (Place 1784 71) true; SNode 180 (Place 1743 70) (Place 1747 70) false; SNode 181 (Place 1751 71) (Place 1784 71) true; SNode 182 (Place 1751 71) (Place 1752 71) false; SNode 183 (Place 1754 71) (Place 1765 71) false; SNode 184 (Place 1754 71) (Place 1757 71) false; SNode 185 (Place 1758 71) (Place 1765 71) false; SNode 186 (Place 1768 71) (Place 1784 71) false; SNode 187 (Place 1768 71) (Place 1782 71) false; SNode 188 (Place 1856 72) (Place 1912 73) true; SNode 189 (Place 1861 72) (Place 1865 72) false; SNode 190 (Place 1869 73) (Place 1912 73) true; SNode 191 (Place 1869 73) (Place 1880 73) false; SNode 192 (Place 1869 73) (Place 1872 73) false; SNode 193 (Place 1873 73) (Place 1880 73) false; SNode 194 (Place 1882 73) (Place 1893 73) false; SNode 195 (Place 1882 73) (Place 1885 73) false; SNode 196 (Place 1886 73) (Place 1893 73) false; SNode 197 (Place 1896 73) (Place 1912 73) false; SNode 198 (Place 1896 73) (Place 1910 73) false; SNode 199 (Place 2049 75) (Place 2059 75) true; SNode 200 (Place 2056 75) (Place 2059 75) false; SNode 201 (Place 2063 78) (Place 2112 80) true; SNode 202 (Place 2068 78) (Place 2112 80) true; SNode 203 (Place 2068 78) (Place 2078 78) false; SNode 204 (Place 2079 78) (Place 2112 80) false; SNode 205 (Place 2086 78) (Place 2112 80) false; SNode 206 (Place 2089 79) (Place 2110 79) true; SNode 207 (Place 2089 79) (Place 2095 79) false; SNode 208 (Place 2097 79) (Place 2103 79) false; SNode 209 (Place 2104 79) (Place 2110 79) false; SNode 210 (Place 2150 85) (Place 2510 93) true; SNode 211 (Place 2155 85) (Place 2178 85) false; SNode 212 (Place 2150 85) (Place 2186 85) false; SNode 213 (Place 2178 85) (Place 2180 85) false; SNode 214 (Place 2181 85) (Place 2186 85) false; SNode 215 (Place 2181 85) (Place 2186 85) true; SNode 216 (Place 2181 85) (Place 2186 85) false; SNode 217 (Place 2187 85) (Place 2510 93) true; SNode 218 (Place 2247 86) (Place 2274 86) true; SNode 219 (Place 2247 86) (Place 2250 86) false; SNode 220 (Place 2254 86) (Place 2274 86) false; SNode 221 (Place 2255 86) (Place 2274 86) false; SNode 222 (Place 2255 86) (Place 2260 86) false; SNode 223 (Place 2261 86) (Place 2273 86) false; SNode 224 (Place 2276 87) (Place 2314 87) true; SNode 225 (Place 2276 87) (Place 2288 87) false; SNode 226 (Place 2292 87) (Place 2314 87) false; SNode 227 (Place 2293 87) (Place 2314 87) false; SNode 228 (Place 2293 87) (Place 2298 87) false; SNode 229 (Place 2299 87) (Place 2313 87) false; SNode 230 (Place 2316 88) (Place 2359 88) true; SNode 231 (Place 2316 88) (Place 2336 88) false; SNode 232 (Place 2316 88) (Place 2328 88) false; SNode 233 (Place 2329 88) (Place 2336 88) false; SNode 234 (Place 2339 88) (Place 2359 88) false; SNode 235 (Place 2361 89) (Place 2390 89) true; SNode 236 (Place 2361 89) (Place 2366 89) false; SNode 237 (Place 2370 89) (Place 2390 89) false; SNode 238 (Place 2370 89) (Place 2380 89) false; SNode 239 (Place 2381 89) (Place 2384 89) false; SNode 240 (Place 2386 89) (Place 2389 89) false; SNode 241 (Place 2392 90) (Place 2442 90) true; SNode 242 (Place 2392 90) (Place 2412 90) false; SNode 243 (Place 2392 90) (Place 2404 90) false; SNode 244 (Place 2405 90) (Place 2412 90) false; SNode 245 (Place 2415 90) (Place 2442 90) false; SNode 246 (Place 2415 90) (Place 2427 90) false; SNode 247 (Place 2415 90) (Place 2420 90) false; SNode 248 (Place 2421 90) (Place 2427 90) false; SNode 249 (Place 2430 90) (Place 2442 90) false; SNode 250 (Place 2430 90) (Place 2435 90) false; SNode 251 (Place 2436 90) (Place 2442 90) false; SNode 252 (Place 2444 91) (Place 2496 91) true; SNode 253 (Place 2444 91) (Place 2456 91) false; SNode 254 (Place 2444 91) (Place 2449 91) false; SNode 255 (Place 2450 91) (Place 2456 91) false; SNode 256 (Place 2459 91) (Place 2496 91) false; SNode 257 (Place 2459 91) (Place 2479 91) false; SNode 258 (Place 2459 91) (Place 2471 91) false; SNode 259 (Place 2472 91) (Place 2479 91) false; SNode 260 (Place 2482 91) (Place 2496 91) false; SNode 261 (Place 2498 92) (Place 2508 92) true; SNode 262 (Place 2505 92) (Place 2508 92) false; SNode 263 (Place 2572 99) (Place 2866 110) true; SNode 264 (Place 2577 99) (Place 2599 99) false; SNode 265 (Place 2572 99) (Place 2619 99) false; SNode 266 (Place 2599 99) (Place 2613 99) false; SNode 267 (Place 2600 99) (Place 2612 99) true; SNode 268 (Place 2600 99) (Place 2605 99) false; SNode 269 (Place 2606 99) (Place 2612 99) false; SNode 270 (Place 2614 99) (Place 2619 99) false; SNode 271 (Place 2614 99) (Place 2619 99) true; SNode 272 (Place 2614 99) (Place 2619 99) false; SNode 273 (Place 2620 99) (Place 2866 110) true; SNode 274 (Place 2691 100) (Place 2728 100) true; SNode 275 (Place 2691 100) (Place 2694 100) false; SNode 276 (Place 2698 100) (Place 2728 100) false; SNode 277 (Place 2699 100) (Place 2728 100) false; SNode 278 (Place 2699 100) (Place 2705 100) false; SNode 279 (Place 2706 100) (Place 2713 100) false; SNode 280 (Place 2715 100) (Place 2727 100) false; SNode 281 (Place 2730 101) (Place 2852 108) true; SNode 282 (Place 2737 101) (Place 2852 108) true; SNode 283 (Place 2740 102) (Place 2775 103) true; SNode 284 (Place 2745 102) (Place 2749 102) false; SNode 285 (Place 2753 103) (Place 2775 103) true; SNode 286 (Place 2753 103) (Place 2762 103) false; SNode 287 (Place 2753 103) (Place 2756 103) false; SNode 288 (Place 2757 103) (Place 2762 103) false; SNode 289 (Place 2765 103) (Place 2775 103) false; SNode 290 (Place 2777 104) (Place 2807 105) true; SNode 291 (Place 2782 104) (Place 2786 104) false; SNode 292 (Place 2790 105) (Place 2807 105) true; SNode 293 (Place 2790 105) (Place 2799 105) false; SNode 294 (Place 2790 105) (Place 2793 105) false; SNode 295 (Place 2794 105) (Place 2799 105) false; SNode 296 (Place 2802 105) (Place 2807 105) false; SNode 297 (Place 2809 106) (Place 2849 107) true; SNode 298 (Place 2814 106) (Place 2818 106) false; SNode 299 (Place 2822 107) (Place 2849 107) true; SNode 300 (Place 2822 107) (Place 2833 107) false; SNode 301 (Place 2822 107) (Place 2825 107) false; SNode 302 (Place 2826 107) (Place 2833 107) false; SNode 303 (Place 2836 107) (Place 2849 107) false; SNode 304 (Place 2854 109) (Place 2864 109) true; SNode 305 (Place 2861 109) (Place 2864 109) false; SNode 306 (Place 2955 117) (Place 3287 126) true; SNode 307 (Place 2960 117) (Place 2981 117) false; SNode 308 (Place 2955 117) (Place 2989 117) false; SNode 309 (Place 2981 117) (Place 2983 117) false; SNode 310 (Place 2984 117) (Place 2989 117) false; SNode 311 (Place 2984 117) (Place 2989 117) true; SNode 312 (Place 2984 117) (Place 2989 117) false; SNode 313 (Place 2990 117) (Place 3287 126) true; SNode 314 (Place 3076 118) (Place 3114 118) true; SNode 315 (Place 3076 118) (Place 3080 118) false; SNode 316 (Place 3084 118) (Place 3114 118) false; SNode 317 (Place 3085 118) (Place 3114 118) false; SNode 318 (Place 3085 118) (Place 3091 118) false; SNode 319 (Place 3092 118) (Place 3099 118) false; SNode 320 (Place 3101 118) (Place 3113 118) false; SNode 321 (Place 3116 119) (Place 3128 119) true; SNode 322 (Place 3116 119) (Place 3120 119) false; SNode 323 (Place 3124 119) (Place 3128 119) false; SNode 324 (Place 3130 120) (Place 3191 120) true; SNode 325 (Place 3130 120) (Place 3142 120) false; SNode 326 (Place 3130 120) (Place 3134 120) false; SNode 327 (Place 3135 120) (Place 3142 120) false; SNode 328 (Place 3144 120) (Place 3156 120) false; SNode 329 (Place 3144 120) (Place 3148 120) false; SNode 330 (Place 3149 120) (Place 3156 120) false; SNode 331 (Place 3159 120) (Place 3174 120) false; SNode 332 (Place 3176 120) (Place 3191 120) false; SNode 333 (Place 3193 121) (Place 3218 121) true; SNode 334 (Place 3193 121) (Place 3203 121) false; SNode 335 (Place 3193 121) (Place 3197 121) false; SNode 336 (Place 3198 121) (Place 3203 121) false; SNode 337 (Place 3206 121) (Place 3218 121) false; SNode 338 (Place 3220 122) (Place 3234 122) true; SNode 339 (Place 3220 122) (Place 3234 122) true; SNode 340 (Place 3224 122) (Place 3234 122) true; SNode 341 (Place 3224 122) (Place 3228 122) false; SNode 342 (Place 3229 122) (Place 3234 122) false; SNode 343 (Place 3236 123) (Place 3247 123) true; SNode 344 (Place 3236 123) (Place 3240 123) false; SNode 345 (Place 3243 123) (Place 3247 123) false; SNode 346 (Place 3249 124) (Place 3273 124) true; SNode 347 (Place 3249 124) (Place 3250 124) false; SNode 348 (Place 3252 124) (Place 3255 124) false; SNode 349 (Place 3259 124) (Place 3267 124) false; SNode 350 (Place 3269 124) (Place 3273 124) false; SNode 351 (Place 3275 125) (Place 3285 125) true; SNode 352 (Place 3282 125) (Place 3285 125) false; SNode 353 (Place 3289 128) (Place 3396 130) true; SNode 354 (Place 3294 128) (Place 3396 130) true; SNode 355 (Place 3294 128) (Place 3299 128) false; SNode 356 (Place 3300 128) (Place 3396 130) false; SNode 357 (Place 3307 128) (Place 3396 130) false; SNode 358 (Place 3380 129) (Place 3394 129) true; SNode 359 (Place 3380 129) (Place 3387 129) false; SNode 360 (Place 3388 129) (Place 3394 129) false; SNode 361 (Place 3398 132) (Place 3462 132) true; SNode 362 (Place 3403 132) (Place 3413 132) false; SNode 363 (Place 3404 132) (Place 3412 132) true; SNode 364 (Place 3404 132) (Place 3405 132) false; SNode 365 (Place 3406 132) (Place 3412 132) false; SNode 366 (Place 3407 132) (Place 3412 132) false; SNode 367 (Place 3414 132) (Place 3418 132) false; SNode 368 (Place 3398 132) (Place 3427 132) false; SNode 369 (Place 3418 132) (Place 3420 132) false; SNode 370 (Place 3421 132) (Place 3427 132) false; SNode 371 (Place 3421 132) (Place 3427 132) true; SNode 372 (Place 3421 132) (Place 3427 132) false; SNode 373 (Place 3442 132) (Place 3462 132) true; SNode 374 (Place 3444 132) (Place 3460 132) true; SNode 375 (Place 3451 132) (Place 3460 132) false; SNode 376 (Place 3451 132) (Place 3452 132) false; SNode 377 (Place 3453 132) (Place 3460 132) false; SNode 378 (Place 3463 133) (Place 3527 133) true; SNode 379 (Place 3468 133) (Place 3478 133) false; SNode 380 (Place 3469 133) (Place 3477 133) true; SNode 381 (Place 3469 133) (Place 3470 133) false; SNode 382 (Place 3471 133) (Place 3477 133) false; SNode 383 (Place 3472 133) (Place 3477 133) false; SNode 384 (Place 3479 133) (Place 3486 133) false; SNode 385 (Place 3463 133) (Place 3495 133) false; SNode 386 (Place 3486 133) (Place 3488 133) false; SNode 387 (Place 3489 133) (Place 3495 133) false; SNode 388 (Place 3489 133) (Place 3495 133) true; SNode 389 (Place 3489 133) (Place 3495 133) false; SNode 390 (Place 3507 133) (Place 3527 133) true; SNode 391 (Place 3509 133) (Place 3525 133) true; SNode 392 (Place 3516 133) (Place 3525 133) false; SNode 393 (Place 3516 133) (Place 3517 133) false; SNode 394 (Place 3518 133) (Place 3525 133) false; SNode 395 (Place 3528 134) (Place 3586 134) true; SNode 396 (Place 3533 134) (Place 3543 134) false; SNode 397 (Place 3534 134) (Place 3542 134) true; SNode 398 (Place 3534 134) (Place 3535 134) false; SNode 399 (Place 3536 134) (Place 3542 134) false; SNode 400 (Place 3537 134) (Place 3542 134) false; SNode 401 (Place 3544 134) (Place 3551 134) false; SNode 402 (Place 3528 134) (Place 3571 134) false; SNode 403 (Place 3551 134) (Place 3553 134) false; SNode 404 (Place 3554 134) (Place 3571 134) false; SNode 405 (Place 3554 134) (Place 3571 134) true; SNode 406 (Place 3554 134) (Place 3571 134) false; SNode 407 (Place 3558 134) (Place 3564 134) false; SNode 408 (Place 3565 134) (Place 3571 134) false; SNode 409 (Place 3572 134) (Place 3586 134) true; SNode 410 (Place 3574 134) (Place 3584 134) true; SNode 411 (Place 3581 134) (Place 3584 134) false; SNode 412 (Place 3587 135) (Place 3645 135) true; SNode 413 (Place 3592 135) (Place 3602 135) false; SNode 414 (Place 3593 135) (Place 3601 135) true; SNode 415 (Place 3593 135) (Place 3594 135) false; SNode 416 (Place 3595 135) (Place 3601 135) false; SNode 417 (Place 3596 135) (Place 3601 135) false; SNode 418 (Place 3603 135) (Place 3608 135) false; SNode 419 (Place 3587 135) (Place 3616 135) false; SNode 420 (Place 3608 135) (Place 3610 135) false; SNode 421 (Place 3611 135) (Place 3616 135) false; SNode 422 (Place 3611 135) (Place 3616 135) true; SNode 423 (Place 3611 135) (Place 3616 135) false; SNode 424 (Place 3631 135) (Place 3645 135) true; SNode 425 (Place 3633 135) (Place 3643 135) true; SNode 426 (Place 3640 135) (Place 3643 135) false; SNode 427 (Place 3646 136) (Place 3712 136) true; SNode 428 (Place 3651 136) (Place 3661 136) false; SNode 429 (Place 3652 136) (Place 3660 136) true; SNode 430 (Place 3652 136) (Place 3653 136) false; SNode 431 (Place 3654 136) (Place 3660 136) false; SNode 432 (Place 3655 136) (Place 3660 136) false; SNode 433 (Place 3662 136) (Place 3667 136) false; SNode 434 (Place 3646 136) (Place 3676 136) false; SNode 435 (Place 3667 136) (Place 3669 136) false; SNode 436 (Place 3670 136) (Place 3676 136) false; SNode 437 (Place 3670 136) (Place 3676 136) true; SNode 438 (Place 3670 136) (Place 3676 136) false; SNode 439 (Place 3690 136) (Place 3712 136) true; SNode 440 (Place 3692 136) (Place 3710 136) true; SNode 441 (Place 3699 136) (Place 3710 136) false; SNode 442 (Place 3699 136) (Place 3708 136) false; SNode 443 (Place 3699 136) (Place 3700 136) false; SNode 444 (Place 3701 136) (Place 3708 136) false; SNode 445 (Place 3714 138) (Place 3830 140) true; SNode 446 (Place 3719 138) (Place 3830 140) true; SNode 447 (Place 3719 138) (Place 3725 138) false; SNode 448 (Place 3726 138) (Place 3830 140) false; SNode 449 (Place 3733 138) (Place 3830 140) false; SNode 450 (Place 3807 139) (Place 3828 139) true; SNode 451 (Place 3807 139) (Place 3812 139) false; SNode 452 (Place 3814 139) (Place 3821 139) false; SNode 453 (Place 3822 139) (Place 3828 139) false; SNode 454 (Place 3832 142) (Place 3897 142) true; SNode 455 (Place 3837 142) (Place 3848 142) false; SNode 456 (Place 3838 142) (Place 3847 142) true; SNode 457 (Place 3838 142) (Place 3839 142) false; SNode 458 (Place 3840 142) (Place 3847 142) false; SNode 459 (Place 3841 142) (Place 3847 142) false; SNode 460 (Place 3849 142) (Place 3853 142) false; SNode 461 (Place 3832 142) (Place 3862 142) false; SNode 462 (Place 3853 142) (Place 3855 142) false; SNode 463 (Place 3856 142) (Place 3862 142) false; SNode 464 (Place 3856 142) (Place 3862 142) true; SNode 465 (Place 3856 142) (Place 3862 142) false; SNode 466 (Place 3877 142) (Place 3897 142) true; SNode 467 (Place 3879 142) (Place 3895 142) true; SNode 468 (Place 3886 142) (Place 3895 142) false; SNode 469 (Place 3886 142) (Place 3887 142) false; SNode 470 (Place 3888 142) (Place 3895 142) false; SNode 471 (Place 3898 143) (Place 3963 143) true; SNode 472 (Place 3903 143) (Place 3914 143) false; SNode 473 (Place 3904 143) (Place 3913 143) true; SNode 474 (Place 3904 143) (Place 3905 143) false; SNode 475 (Place 3906 143) (Place 3913 143) false; SNode 476 (Place 3907 143) (Place 3913 143) false; SNode 477 (Place 3915 143) (Place 3922 143) false; SNode 478 (Place 3898 143) (Place 3931 143) false; SNode 479 (Place 3922 143) (Place 3924 143) false; SNode 480 (Place 3925 143) (Place 3931 143) false; SNode 481 (Place 3925 143) (Place 3931 143) true; SNode 482 (Place 3925 143) (Place 3931 143) false; SNode 483 (Place 3943 143) (Place 3963 143) true; SNode 484 (Place 3945 143) (Place 3961 143) true; SNode 485 (Place 3952 143) (Place 3961 143) false; SNode 486 (Place 3952 143) (Place 3953 143) false; SNode 487 (Place 3954 143) (Place 3961 143) false; SNode 488 (Place 3964 144) (Place 4023 144) true; SNode 489 (Place 3969 144) (Place 3980 144) false; SNode 490 (Place 3970 144) (Place 3979 144) true; SNode 491 (Place 3970 144) (Place 3971 144) false; SNode 492 (Place 3972 144) (Place 3979 144) false; SNode 493 (Place 3973 144) (Place 3979 144) false; SNode 494 (Place 3981 144) (Place 3988 144) false; SNode 495 (Place 3964 144) (Place 4008 144) false; SNode 496 (Place 3988 144) (Place 3990 144) false; SNode 497 (Place 3991 144) (Place 4008 144) false; SNode 498 (Place 3991 144) (Place 4008 144) true; SNode 499 (Place 3991 144) (Place 4008 144) false; SNode 500 (Place 3995 144) (Place 4001 144) false; SNode 501 (Place 4002 144) (Place 4008 144) false; SNode 502 (Place 4009 144) (Place 4023 144) true; SNode 503 (Place 4011 144) (Place 4021 144) true; SNode 504 (Place 4018 144) (Place 4021 144) false; SNode 505 (Place 4024 145) (Place 4083 145) true; SNode 506 (Place 4029 145) (Place 4040 145) false; SNode 507 (Place 4030 145) (Place 4039 145) true; SNode 508 (Place 4030 145) (Place 4031 145) false; SNode 509 (Place 4032 145) (Place 4039 145) false; SNode 510 (Place 4033 145) (Place 4039 145) false; SNode 511 (Place 4041 145) (Place 4046 145) false; SNode 512 (Place 4024 145) (Place 4054 145) false; SNode 513 (Place 4046 145) (Place 4048 145) false; SNode 514 (Place 4049 145) (Place 4054 145) false; SNode 515 (Place 4049 145) (Place 4054 145) true; SNode 516 (Place 4049 145) (Place 4054 145) false; SNode 517 (Place 4069 145) (Place 4083 145) true; SNode 518 (Place 4071 145) (Place 4081 145) true; SNode 519 (Place 4078 145) (Place 4081 145) false; SNode 520 (Place 4084 146) (Place 4151 146) true; SNode 521 (Place 4089 146) (Place 4100 146) false; SNode 522 (Place 4090 146) (Place 4099 146) true; SNode 523 (Place 4090 146) (Place 4091 146) false; SNode 524 (Place 4092 146) (Place 4099 146) false; SNode 525 (Place 4093 146) (Place 4099 146) false; SNode 526 (Place 4101 146) (Place 4106 146) false; SNode 527 (Place 4084 146) (Place 4115 146) false; SNode 528 (Place 4106 146) (Place 4108 146) false; SNode 529 (Place 4109 146) (Place 4115 146) false; SNode 530 (Place 4109 146) (Place 4115 146) true; SNode 531 (Place 4109 146) (Place 4115 146) false; SNode 532 (Place 4129 146) (Place 4151 146) true; SNode 533 (Place 4131 146) (Place 4149 146) true; SNode 534 (Place 4138 146) (Place 4149 146) false; SNode 535 (Place 4138 146) (Place 4147 146) false; SNode 536 (Place 4138 146) (Place 4139 146) false; SNode 537 (Place 4140 146) (Place 4147 146) false].
Definition t_field_assignment_cgroups0 : list cgroup := [CGroup (Place 25 3) (Place 84 6) [(str "// Errors:"); (str "//"); (str "//    - some-error  --"); (str "//    - other-error --")]; CGroup (Place 115 7) (Place 174 7) [(str "// want EasyAssignment:""ErrorCodes: other-error some-error""")]; CGroup (Place 293 17) (Place 406 22) [(str "// Errors:"); (str "//"); (str "//    - some-error    --"); (str "//    - other-1-error --"); (str "//    - other-2-error --"); (str "//    - other-3-error --")]; CGroup (Place 452 23) (Place 556 23) [(str "// want ConstantExpressionAssignments:""ErrorCodes: other-1-error other-2-error other-3-error some-error""")]; CGroup (Place 843 36) (Place 904 36) [(str "// Empty string is allowed, but does not count as error code.")]; CGroup (Place 924 41) (Place 959 43) [(str "// Errors:"); (str "//"); (str "//    - some-error --")]; CGroup (Place 993 44) (Place 1043 44) [(str "// want AssignInvalidCode:""ErrorCodes: some-error""")]; CGroup (Place 1112 47) (Place 1168 47) [(str "// want ""error code has invalid format: should match .*""")]; CGroup (Place 1323 60) (Place 1358 62) [(str "// Errors:"); (str "//"); (str "//    - some-error --")]; CGroup (Place 1410 63) (Place 1466 63) [(str "// want AssignInvalidExpression:""ErrorCodes: some-error""")]; CGroup (Place 1540 67) (Place 1625 67) [(str "// want `require an error code parameter declaration to use ""input"" as an error code`")]; CGroup (Place 1667 69) (Place 1736 69) [(str "// want ""error code has to be constant value or error code parameter""")]; CGroup (Place 1785 71) (Place 1854 71) [(str "// want ""error code has to be constant value or error code parameter""")]; CGroup (Place 1913 73) (Place 2044 73) [(str "// want ""error code has to be constant value or error code parameter"" ""error code has to be constant value or error code parameter""")]; CGroup (Place 2114 82) (Place 2149 84) [(str "// Errors:"); (str "//"); (str "//    - some-error --")]; CGroup (Place 2189 85) (Place 2245 85) [(str "// want AssignmentsToOtherStuff:""ErrorCodes: some-error""")]; CGroup (Place 2512 95) (Place 2571 98) [(str "// Errors:"); (str "//"); (str "//    - some-error  --"); (str "//    - other-error --")]; CGroup (Place 2622 99) (Place 2689 99) [(str "// want AssignmentToOtherField:""ErrorCodes: other-error some-error""")]; CGroup (Place 2868 112) (Place 2954 116) [(str "// Errors:"); (str "//"); (str "//    - some-error  --"); (str "//    - other-1-error --"); (str "//    - other-2-error --")]; CGroup (Place 2992 117) (Place 3074 117) [(str "// want ComplicatedAssignment:""ErrorCodes: other-1-error other-2-error some-error""")]; CGroup (Place 3309 128) (Place 3378 128) [(str "// want Error:`ErrorType{Field:{Name:""TheCode"", Position:0}, Codes:}`")]; CGroup (Place 3735 138) (Place 3805 138) [(str "// want Error2:`ErrorType{Field:{Name:""TheCode"", Position:1}, Codes:}`")]].
Definition t_field_assignment_files : list source_file := [SourceFile t_field_assignment_nodes0 t_field_assignment_cgroups0].
Definition t_field_assignment_info : typeinfo := map_info (list_to_map t_field_assignment_types) (list_to_map t_field_assignment_values) (list_to_map t_field_assignment_uses) (list_to_map t_field_assignment_defs) (list_to_map t_field_assignment_sels) (list_to_set [1; 4; 5; 6; 7; 8; 9; 10; 11; 12; 13; 14; 15; 16; 17; 18; 19; 20; 54; 58; 64]) (list_to_map t_field_assignment_pkgnames) (list_to_map t_field_assignment_objnames) (list_to_map t_field_assignment_objtypes) (list_to_map t_field_assignment_under) t_field_assignment_methods t_field_assignment_ierr t_field_assignment_iree t_field_assignment_icause t_field_assignment_impl (list_to_map t_field_assignment_named_methods).
Definition t_field_assignment : package := Package (list_to_map [(1, t_field_assignment_f1); (2, t_field_assignment_f2); (3, t_field_assignment_f3); (4, t_field_assignment_f4); (5, t_field_assignment_f5); (6, t_field_assignment_f6); (7, t_field_assignment_f7); (8, t_field_assignment_f8); (9, t_field_assignment_f9); (10, t_field_assignment_f10); (11, t_field_assignment_f11); (12, t_field_assignment_f12); (13, t_field_assignment_f13); (14, t_field_assignment_f14); (15, t_field_assignment_f15); (16, t_field_assignment_f16); (17, t_field_assignment_f17); (18, t_field_assignment_f18); (19, t_field_assignment_f19)]) [1; 2; 3; 4; 5; 6; 7; 8; 9; 10; 11; 12; 13; 14; 15; 16; 17; 18; 19] t_field_assignment_gendecls t_field_assignment_top (list_to_map t_field_assignment_objs) (fun id => default [] (createCommentMap t_field_assignment_files id)) t_field_assignment_info.
Definition t_field_assignment_rank : gostring -> nat := fun n => default 0%nat ((list_to_map [] : gmap gostring nat) !! n).

(** field_assignment: 6 diagnostics and 9 facts, as its "want" comments demand. *)
Theorem t_field_assignment_ascending :
  report (run_test t_field_assignment ascending (Facts ∅ ∅ ∅ ∅)) = Some [
    (119, (str "error code has invalid format: should match [a-zA-Z][a-zA-Z0-9\-]*[a-zA-Z0-9]")) (* field_assignment.go:47 *);
    (170, (str "require an error code parameter declaration to use ""input"" as an error code")) (* field_assignment.go:67 *);
    (177, (str "error code has to be constant value or error code parameter")) (* field_assignment.go:69 *);
    (186, (str "error code has to be constant value or error code parameter")) (* field_assignment.go:71 *);
    (197, (str "error code has to be constant value or error code parameter")) (* field_assignment.go:73 *);
    (197, (str "error code has to be constant value or error code parameter")) (* field_assignment.go:73 *)] /\
  fact_texts (facts_after_test (run_test t_field_assignment ascending (Facts ∅ ∅ ∅ ∅))) [47; 48; 49; 50; 51; 52; 53; 54; 55; 56; 57; 58; 59; 60; 61; 62; 63; 64; 65; 66; 67; 68; 69; 70; 71; 72; 73; 74; 75; 76; 77; 78; 79; 80; 81; 84; 85; 86; 87; 88; 89; 90; 91; 92; 93; 96; 98; 99; 100; 101; 102] = [
    (47, (str "ErrorCodes: other-error some-error")) (* field_assignment.go:7 EasyAssignment *);
    (49, (str "ErrorCodes: other-1-error other-2-error other-3-error some-error")) (* field_assignment.go:23 ConstantExpressionAssignments *);
    (50, (str "ErrorCodes: some-error")) (* field_assignment.go:44 AssignInvalidCode *);
    (53, (str "ErrorCodes: some-error")) (* field_assignment.go:63 AssignInvalidExpression *);
    (55, (str "ErrorCodes: some-error")) (* field_assignment.go:85 AssignmentsToOtherStuff *);
    (56, (str "ErrorCodes: other-error some-error")) (* field_assignment.go:99 AssignmentToOtherField *);
    (57, (str "ErrorCodes: other-1-error other-2-error some-error")) (* field_assignment.go:117 ComplicatedAssignment *);
    (58, (str "ErrorType{Field:{Name:""TheCode"", Position:0}, Codes:}")) (* field_assignment.go:128 Error *);
    (64, (str "ErrorType{Field:{Name:""TheCode"", Position:1}, Codes:}")) (* field_assignment.go:138 Error2 *)].
Proof. vm_compute. split; reflexivity. Qed.

(** field_assignment: 6 diagnostics and 9 facts, as its "want" comments demand. *)
Theorem t_field_assignment_descending :
  report (run_test t_field_assignment descending (Facts ∅ ∅ ∅ ∅)) = Some [
    (170, (str "require an error code parameter declaration to use ""input"" as an error code")) (* field_assignment.go:67 *);
    (177, (str "error code has to be constant value or error code parameter")) (* field_assignment.go:69 *);
    (186, (str "error code has to be constant value or error code parameter")) (* field_assignment.go:71 *);
    (197, (str "error code has to be constant value or error code parameter")) (* field_assignment.go:73 *);
    (197, (str "error code has to be constant value or error code parameter")) (* field_assignment.go:73 *);
    (119, (str "error code has invalid format: should match [a-zA-Z][a-zA-Z0-9\-]*[a-zA-Z0-9]")) (* field_assignment.go:47 *)] /\
  fact_texts (facts_after_test (run_test t_field_assignment descending (Facts ∅ ∅ ∅ ∅))) [47; 48; 49; 50; 51; 52; 53; 54; 55; 56; 57; 58; 59; 60; 61; 62; 63; 64; 65; 66; 67; 68; 69; 70; 71; 72; 73; 74; 75; 76; 77; 78; 79; 80; 81; 84; 85; 86; 87; 88; 89; 90; 91; 92; 93; 96; 98; 99; 100; 101; 102] = [
    (47, (str "ErrorCodes: other-error some-error")) (* field_assignment.go:7 EasyAssignment *);
    (49, (str "ErrorCodes: other-1-error other-2-error other-3-error some-error")) (* field_assignment.go:23 ConstantExpressionAssignments *);
    (50, (str "ErrorCodes: some-error")) (* field_assignment.go:44 AssignInvalidCode *);
    (53, (str "ErrorCodes: some-error")) (* field_assignment.go:63 AssignInvalidExpression *);
    (55, (str "ErrorCodes: some-error")) (* field_assignment.go:85 AssignmentsToOtherStuff *);
    (56, (str "ErrorCodes: other-error some-error")) (* field_assignment.go:99 AssignmentToOtherField *);
    (57, (str "ErrorCodes: other-1-error other-2-error some-error")) (* field_assignment.go:117 ComplicatedAssignment *);
    (58, (str "ErrorType{Field:{Name:""TheCode"", Position:0}, Codes:}")) (* field_assignment.go:128 Error *);
    (64, (str "ErrorType{Field:{Name:""TheCode"", Position:1}, Codes:}")) (* field_assignment.go:138 Error2 *)].
Proof. vm_compute. split; reflexivity. Qed.

(** The presuppositions of the general theorems that this package satisfies (not: sound_ok). *)
Theorem t_field_assignment_presuppositions :
  (forall fa, usable_functions t_field_assignment fa) /\
  (forall fa, no_literal_recursion t_field_assignment (collectFunctions t_field_assignment) fa) /\
  (forall fa, literals_apart t_field_assignment (collectFunctions t_field_assignment) fa) /\
  types_usable t_field_assignment /\
  (forall w n, occurs t_field_assignment w n -> ~ ill_formed t_field_assignment w n) /\
  distinct_definitions t_field_assignment /\
  interfaces_ok t_field_assignment /\
  uses_resolved t_field_assignment (collectFunctions t_field_assignment) /\
  Forall layout t_field_assignment_files.
Proof.
  split_and!.
  - intros fa; apply package_usable_spec; vm_compute; reflexivity.
  - intros fa; apply recursion_check_spec; vm_compute; reflexivity.
  - intros fa; apply apart_spec; vm_compute; reflexivity.
  - apply types_ok_spec; vm_compute; reflexivity.
  - apply package_formed_spec; vm_compute; reflexivity.
  - apply definitions_check_spec; vm_compute; reflexivity.
  - apply (interfaces_check_spec t_field_assignment t_field_assignment_rank); vm_compute; reflexivity.
  - apply uses_check_spec; vm_compute; reflexivity.
  - apply layouts_spec; vm_compute; reflexivity.
Qed.
