(** * The test package error_constructor of /repo/analysis/testdata/src, run on the model.  Generated by tools/conform.py; see Conform.v. *)
From Coq Require Import Ascii String.
From stdpp Require Import base list gmap.
From Verif Require Import GoString Scc Engine Constant CommentText CommentMap Phase FactText Conform Claims Analyse Verify SpecTaint SpecProgram SpecLiterals SpecCodeMethod SpecInterfaces SpecSites SpecCrash SpecSound SpecWhole SpecLayout Checkers RecursionChecker LiteralChecker CodeCheckers FormChecker InterfaceChecker SoundChecker ChainChecker ExampleLayout GoAst.
Local Open Scope N_scope.
Definition t_error_constructor_f1 : func := Func 3 (Some (DeclInfo (Ident 4 (str "NewError") (Some 1)) None (Some (comment_text [(str "// NewError is a constructor for Error using the code parameter."); (str "//"); (str "// Errors:"); (str "//"); (str "//    - param: code   -- is used if the provided flag is true"); (str "//    - unknown-error -- is used otherwise")])))) (FuncType 5 [(Field 7 [(Ident 8 (str "code") (Some 2))] 9); (Field 10 [(Ident 11 (str "flag") (Some 3))] 12)] (Some [(Field 14 [] 15)]) 252) (Some (Node 16 (KOther (str "*ast.BlockStmt")) [(Node 17 (KOther (str "*ast.IfStmt")) [(Node 18 (KIdent (str "flag") (Some 3)) []); (Node 19 (KOther (str "*ast.BlockStmt")) [(Node 20 KReturn [(Node 21 (KUnary true) [(Node 22 KComposite [(Node 24 (KIdent (str "code") (Some 2)) [])])])])])]); (Node 25 KReturn [(Node 26 (KUnary true) [(Node 27 KComposite [(Node 29 KBasicLit [])])])])])) 258 425.
Definition t_error_constructor_f2 : func := Func 30 (Some (DeclInfo (Ident 31 (str "NewError2") (Some 4)) None (Some (comment_text [(str "// NewError is a constructor for Error using the code parameter."); (str "//"); (str "// Errors:"); (str "//"); (str "//    - param: code --")])))) (FuncType 32 [(Field 34 [(Ident 35 (str "code") (Some 5))] 36)] (Some [(Field 38 [] 39)]) 560) (Some (Node 40 (KOther (str "*ast.BlockStmt")) [(Node 41 KReturn [(Node 42 (KUnary true) [(Node 43 KComposite [(Node 45 (KIdent (str "code") (Some 5)) [])])])])])) 566 674.
Definition t_error_constructor_f3 : func := Func 46 (Some (DeclInfo (Ident 47 (str "MissingParam") (Some 6)) None (Some (comment_text [(str "// MissingParam returns an error using the parameter ""code"" as the error code,"); (str "// but never declares an error code parameter"); (str "//"); (str "// Errors: none")])))) (FuncType 48 [(Field 50 [(Ident 51 (str "code") (Some 7))] 52)] (Some [(Field 54 [] 55)]) 851) (Some (Node 56 (KOther (str "*ast.BlockStmt")) [(Node 57 KReturn [(Node 58 (KUnary true) [(Node 59 KComposite [(Node 61 (KIdent (str "code") (Some 7)) [])])])])])) 857 1001.
Definition t_error_constructor_f4 : func := Func 62 (Some (DeclInfo (Ident 63 (str "WrongParam") (Some 8)) None (Some (comment_text [(str "// WrongParam declares the wrong parameter as error code parameter."); (str "//"); (str "// Errors:"); (str "//"); (str "//    - param: code2 -- unused param")])))) (FuncType 64 [(Field 66 [(Ident 67 (str "code1") (Some 9)); (Ident 68 (str "code2") (Some 10))] 69)] (Some [(Field 71 [] 72)]) 1162) (Some (Node 73 (KOther (str "*ast.BlockStmt")) [(Node 74 (KAssign 1%nat) [(Node 75 (KIdent (str "_") None) []); (Node 76 (KIdent (str "code2") (Some 10)) [])]); (Node 77 KReturn [(Node 78 (KUnary true) [(Node 79 KComposite [(Node 81 (KIdent (str "code1") (Some 9)) [])])])])])) 1168 1387.
Definition t_error_constructor_f5 : func := Func 82 (Some (DeclInfo (Ident 83 (str "MismatchedCodesAndParams") (Some 11)) None (Some (comment_text [(str "// MismatchedCodesAndParams has multiple error code and error code parameter mismatches."); (str "//"); (str "// Errors:"); (str "//"); (str "//    - hello-error       -- error that might be returned"); (str "//    - unused-error      -- never returned"); (str "//    - param: codeUnused -- never used")])))) (FuncType 84 [(Field 86 [(Ident 87 (str "codeUnused") (Some 12)); (Ident 88 (str "codeMissing") (Some 13))] 89)] (Some [(Field 91 [] 92)]) 1699) (Some (Node 93 (KOther (str "*ast.BlockStmt")) [(Node 94 (KOther (str "*ast.SwitchStmt")) [(Node 95 (KOther (str "*ast.BlockStmt")) [(Node 96 (KCaseClause 1%nat) [(Node 97 (KIdent (str "true") None) []); (Node 98 KReturn [(Node 99 (KUnary true) [(Node 100 KComposite [(Node 102 KBasicLit [])])])])]); (Node 103 (KCaseClause 1%nat) [(Node 104 (KIdent (str "true") None) []); (Node 105 KReturn [(Node 106 (KUnary true) [(Node 107 KComposite [(Node 109 KBasicLit [])])])])]); (Node 110 (KCaseClause 1%nat) [(Node 111 (KIdent (str "true") None) []); (Node 112 KReturn [(Node 113 (KUnary true) [(Node 114 KComposite [(Node 116 (KIdent (str "codeMissing") (Some 13)) [])])])])]); (Node 117 (KCaseClause 0%nat) [(Node 118 KReturn [(Node 119 (KUnary true) [(Node 120 KComposite [(Node 122 KBasicLit [])])])])])])])])) 1705 2311.
Definition t_error_constructor_f6 : func := Func 123 (Some (DeclInfo (Ident 124 (str "CorrectFieldAssign") (Some 14)) None (Some (comment_text [(str "// Errors:"); (str "//"); (str "//    - param: code --"); (str "//    - some-error  --")])))) (FuncType 125 [(Field 127 [(Ident 128 (str "code") (Some 15))] 129); (Field 130 [(Ident 131 (str "flag") (Some 16))] 132)] (Some [(Field 134 [] 135)]) 2421) (Some (Node 136 (KOther (str "*ast.BlockStmt")) [(Node 137 (KAssign 1%nat) [(Node 138 (KIdent (str "err") (Some 17)) []); (Node 139 (KUnary true) [(Node 140 KComposite [(Node 142 KBasicLit [])])])]); (Node 143 (KOther (str "*ast.IfStmt")) [(Node 144 (KIdent (str "flag") (Some 16)) []); (Node 145 (KOther (str "*ast.BlockStmt")) [(Node 146 (KAssign 1%nat) [(Node 147 KSelector [(Node 148 (KIdent (str "err") (Some 17)) []); (Node 149 (KIdent (str "TheCode") None) [])]); (Node 150 (KIdent (str "code") (Some 15)) [])])])]); (Node 151 KReturn [(Node 152 (KIdent (str "err") (Some 17)) [])])])) 2427 2619.
Definition t_error_constructor_f7 : func := Func 153 (Some (DeclInfo (Ident 154 (str "InvalidFieldAssign") (Some 18)) None (Some (comment_text [(str "// Errors:"); (str "//"); (str "//    - some-error  --")])))) (FuncType 155 [(Field 157 [(Ident 158 (str "code") (Some 19))] 159); (Field 160 [(Ident 161 (str "flag") (Some 20))] 162)] (Some [(Field 164 [] 165)]) 2706) (Some (Node 166 (KOther (str "*ast.BlockStmt")) [(Node 167 (KAssign 1%nat) [(Node 168 (KIdent (str "err") (Some 21)) []); (Node 169 (KUnary true) [(Node 170 KComposite [(Node 172 KBasicLit [])])])]); (Node 173 (KOther (str "*ast.IfStmt")) [(Node 174 (KIdent (str "flag") (Some 20)) []); (Node 175 (KOther (str "*ast.BlockStmt")) [(Node 176 (KAssign 1%nat) [(Node 177 KSelector [(Node 178 (KIdent (str "err") (Some 21)) []); (Node 179 (KIdent (str "TheCode") None) [])]); (Node 180 (KIdent (str "code") (Some 19)) [])])])]); (Node 181 KReturn [(Node 182 (KIdent (str "err") (Some 21)) [])])])) 2712 2928.
Definition t_error_constructor_f8 : func := Func 183 (Some (DeclInfo (Ident 184 (str "CallConstructor") (Some 22)) None (Some (comment_text [(str "// Errors:"); (str "//"); (str "//    - param-error   --"); (str "//    - unknown-error --")])))) (FuncType 185 [] (Some [(Field 188 [] 189)]) 3017) (Some (Node 190 (KOther (str "*ast.BlockStmt")) [(Node 191 KReturn [(Node 192 KCall [(Node 193 (KIdent (str "NewError") (Some 1)) []); (Node 194 KBasicLit []); (Node 195 (KIdent (str "false") None) [])])])])) 3023 3129.
Definition t_error_constructor_f9 : func := Func 196 (Some (DeclInfo (Ident 197 (str "CallConstructorFromConstructor") (Some 23)) None (Some (comment_text [(str "// Errors:"); (str "//"); (str "//    - param: code   --"); (str "//    - unknown-error --")])))) (FuncType 198 [(Field 200 [(Ident 201 (str "code") (Some 24))] 202)] (Some [(Field 204 [] 205)]) 3244) (Some (Node 206 (KOther (str "*ast.BlockStmt")) [(Node 207 KReturn [(Node 208 KCall [(Node 209 (KIdent (str "NewError") (Some 1)) []); (Node 210 (KIdent (str "code") (Some 24)) []); (Node 211 (KIdent (str "false") None) [])])])])) 3250 3423.
Definition t_error_constructor_f10 : func := Func 212 (Some (DeclInfo (Ident 213 (str "RecursiveConstructor") (Some 25)) None (Some (comment_text [(str "// Errors:"); (str "//"); (str "//    - param: code --"); (str "//    - param-error --")])))) (FuncType 214 [(Field 216 [(Ident 217 (str "code") (Some 26))] 218)] (Some [(Field 220 [] 221)]) 3524) (Some (Node 222 (KOther (str "*ast.BlockStmt")) [(Node 223 (KOther (str "*ast.IfStmt")) [(Node 224 (KIdent (str "false") None) []); (Node 225 (KOther (str "*ast.BlockStmt")) [(Node 226 KReturn [(Node 227 KCall [(Node 228 (KIdent (str "RecursiveConstructor") (Some 25)) []); (Node 229 (KIdent (str "code") (Some 26)) [])])])])]); (Node 230 KReturn [(Node 231 KCall [(Node 232 (KIdent (str "NewError2") (Some 4)) []); (Node 233 KBasicLit [])])])])) 3530 3735.
Definition t_error_constructor_f11 : func := Func 234 (Some (DeclInfo (Ident 235 (str "InvalidCallConstructor") (Some 27)) None (Some (comment_text [(str "// Errors: none")])))) (FuncType 236 [] (Some [(Field 239 [] 240)]) 3783) (Some (Node 241 (KOther (str "*ast.BlockStmt")) [(Node 242 (KOther (str "*ast.DeclStmt")) [(Node 243 (KOther (str "*ast.GenDecl")) [(Node 244 (KValueSpec [(Ident 245 (str "someCode") (Some 28))] (Some 246)) [(Node 247 KBasicLit [])])])]); (Node 248 KReturn [(Node 249 KCall [(Node 250 (KIdent (str "NewError2") (Some 4)) []); (Node 251 (KIdent (str "someCode") (Some 28)) [])])])])) 3789 3971.
Definition t_error_constructor_f12 : func := Func 252 (Some (DeclInfo (Ident 253 (str "InvalidCallConstructor2") (Some 29)) None (Some (comment_text [(str "// Errors: none")])))) (FuncType 254 [(Field 256 [(Ident 257 (str "someCode") (Some 30))] 258)] (Some [(Field 260 [] 261)]) 4035) (Some (Node 262 (KOther (str "*ast.BlockStmt")) [(Node 263 KReturn [(Node 264 KCall [(Node 265 (KIdent (str "NewError2") (Some 4)) []); (Node 266 (KIdent (str "someCode") (Some 30)) [])])])])) 4041 4207.
Definition t_error_constructor_f13 : func := Func 267 (Some (DeclInfo (Ident 268 (str "InvalidCallConstructor3") (Some 31)) None (Some (comment_text [(str "// Errors: none")])))) (FuncType 269 [] (Some [(Field 272 [] 273)]) 4256) (Some (Node 274 (KOther (str "*ast.BlockStmt")) [(Node 275 (KOther (str "*ast.DeclStmt")) [(Node 276 (KOther (str "*ast.GenDecl")) [(Node 277 (KValueSpec [(Ident 278 (str "postFix") (Some 32))] (Some 279)) [(Node 280 KBasicLit [])])])]); (Node 281 KReturn [(Node 282 KCall [(Node 283 (KIdent (str "NewError2") (Some 4)) []); (Node 284 (KOther (str "*ast.BinaryExpr")) [(Node 285 KBasicLit []); (Node 286 (KIdent (str "postFix") (Some 32)) [])])])])])) 4262 4452.
Definition t_error_constructor_f14 : func := Func 287 (Some (DeclInfo (Ident 288 (str "InvalidUseOfCodeParam") (Some 33)) None (Some (comment_text [(str "// Errors:"); (str "//"); (str "//    - param: code --")])))) (FuncType 289 [(Field 291 [(Ident 292 (str "code") (Some 34))] 293)] (Some [(Field 295 [] 296)]) 4531) (Some (Node 297 (KOther (str "*ast.BlockStmt")) [(Node 298 KReturn [(Node 299 KCall [(Node 300 (KFuncLit 15) [(Node 306 (KOther (str "*ast.BlockStmt")) [(Node 307 KReturn [(Node 308 (KUnary true) [(Node 309 KComposite [(Node 311 (KIdent (str "code") (Some 34)) [])])])])])])])])])) 4537 4768.
Definition t_error_constructor_f15 : func := Func 300 None (FuncType 301 [] (Some [(Field 304 [] 305)]) 4662) (Some (Node 306 (KOther (str "*ast.BlockStmt")) [(Node 307 KReturn [(Node 308 (KUnary true) [(Node 309 KComposite [(Node 311 (KIdent (str "code") (Some 34)) [])])])])])) 4668 4764.
Definition t_error_constructor_f16 : func := Func 312 (Some (DeclInfo (Ident 313 (str "InvalidUseOfCodeParam2") (Some 35)) None (Some (comment_text [(str "// Errors:"); (str "//"); (str "//    - param: code --")])))) (FuncType 314 [(Field 316 [(Ident 317 (str "code") (Some 36))] 318)] (Some [(Field 320 [] 321)]) 4848) (Some (Node 322 (KOther (str "*ast.BlockStmt")) [(Node 323 (KAssign 1%nat) [(Node 324 (KIdent (str "lambda") (Some 37)) []); (Node 325 (KIdent (str "NewError2") (Some 4)) [])]); (Node 326 KReturn [(Node 327 KCall [(Node 328 (KIdent (str "lambda") (Some 37)) []); (Node 329 (KIdent (str "code") (Some 36)) [])])])])) 4854 5068.
Definition t_error_constructor_f17 : func := Func 330 (Some (DeclInfo (Ident 331 (str "EmptyStringConstruct") (Some 38)) None (Some (comment_text [(str "// Errors: none")])))) (FuncType 332 [] (Some [(Field 335 [] 336)]) 5114) (Some (Node 337 (KOther (str "*ast.BlockStmt")) [(Node 338 KReturn [(Node 339 KCall [(Node 340 (KIdent (str "NewError2") (Some 4)) []); (Node 341 KBasicLit [])])])])) 5120 5188.
Definition t_error_constructor_f18 : func := Func 342 (Some (DeclInfo (Ident 343 (str "AssignToParam") (Some 39)) None (Some (comment_text [(str "// Errors:"); (str "//"); (str "//    - param: code -- error code parameter"); (str "//    - some-error  -- assigned to error code parameter"); (str "//    - other-error  -- indirectly assigned to error code parameter")])))) (FuncType 344 [(Field 346 [(Ident 347 (str "_") (Some 40))] 348); (Field 349 [(Ident 350 (str "other") (Some 41)); (Ident 351 (str "code") (Some 42))] 352)] (Some [(Field 354 [] 355)]) 5418) (Some (Node 356 (KOther (str "*ast.BlockStmt")) [(Node 357 (KOther (str "*ast.DeclStmt")) [(Node 358 (KOther (str "*ast.GenDecl")) [(Node 359 (KValueSpec [(Ident 360 (str "otherError") (Some 43))] (Some 361)) [])])]); (Node 362 (KOther (str "*ast.SwitchStmt")) [(Node 363 (KOther (str "*ast.BlockStmt")) [(Node 364 (KCaseClause 1%nat) [(Node 365 (KIdent (str "true") None) []); (Node 366 (KAssign 1%nat) [(Node 367 (KIdent (str "code") (Some 42)) []); (Node 368 KBasicLit [])])]); (Node 369 (KCaseClause 1%nat) [(Node 370 (KIdent (str "true") None) []); (Node 371 (KAssign 1%nat) [(Node 372 (KIdent (str "code") (Some 42)) []); (Node 373 KBasicLit [])])]); (Node 374 (KCaseClause 1%nat) [(Node 375 (KIdent (str "true") None) []); (Node 376 (KAssign 1%nat) [(Node 377 (KIdent (str "code") (Some 42)) []); (Node 378 (KIdent (str "other") (Some 41)) [])])]); (Node 379 (KCaseClause 1%nat) [(Node 380 (KIdent (str "true") None) []); (Node 381 (KAssign 1%nat) [(Node 382 (KIdent (str "code") (Some 42)) []); (Node 383 KBasicLit [])])]); (Node 384 (KCaseClause 1%nat) [(Node 385 (KIdent (str "true") None) []); (Node 386 (KOther (str "*ast.DeclStmt")) [(Node 387 (KOther (str "*ast.GenDecl")) [(Node 388 (KValueSpec [(Ident 389 (str "constant") (Some 44))] None) [(Node 390 KBasicLit [])])])]); (Node 391 (KAssign 1%nat) [(Node 392 (KIdent (str "otherError") (Some 43)) []); (Node 393 (KIdent (str "constant") (Some 44)) [])])]); (Node 394 (KCaseClause 1%nat) [(Node 395 (KIdent (str "true") None) []); (Node 396 (KAssign 1%nat) [(Node 397 (KIdent (str "code") (Some 42)) []); (Node 398 (KIdent (str "otherError") (Some 43)) [])])]); (Node 399 (KCaseClause 1%nat) [(Node 400 (KIdent (str "true") None) []); (Node 401 (KAssign 1%nat) [(Node 402 (KIdent (str "otherError") (Some 43)) []); (Node 403 KBasicLit [])])])])]); (Node 404 KReturn [(Node 405 KCall [(Node 406 (KIdent (str "NewError2") (Some 4)) []); (Node 407 (KIdent (str "code") (Some 42)) [])])])])) 5424 6096.
Definition t_error_constructor_f19 : func := Func 432 (Some (DeclInfo (Ident 438 (str "Code") None) (Some [(Field 434 [(Ident 435 (str "e") (Some 45))] 436)]) None)) (FuncType 439 [] (Some [(Field 442 [] 443)]) 6426) (Some (Node 444 (KOther (str "*ast.BlockStmt")) [(Node 445 KReturn [(Node 446 KSelector [(Node 447 (KIdent (str "e") (Some 45)) []); (Node 448 (KIdent (str "TheCode") None) [])])])])) 6447 6467.
Definition t_error_constructor_f20 : func := Func 449 (Some (DeclInfo (Ident 455 (str "Message") None) (Some [(Field 451 [(Ident 452 (str "e") (Some 46))] 453)]) None)) (FuncType 456 [] (Some [(Field 459 [] 460)]) 6494) (Some (Node 461 (KOther (str "*ast.BlockStmt")) [(Node 462 KReturn [(Node 463 KSelector [(Node 464 (KIdent (str "e") (Some 46)) []); (Node 465 (KIdent (str "TheCode") None) [])])])])) 6512 6532.
Definition t_error_constructor_f21 : func := Func 466 (Some (DeclInfo (Ident 472 (str "Details") None) (Some [(Field 468 [(Ident 469 (str "e") (Some 47))] 470)]) None)) (FuncType 473 [] (Some [(Field 476 [] 477)]) 6559) (Some (Node 480 (KOther (str "*ast.BlockStmt")) [(Node 481 KReturn [(Node 482 (KIdent (str "nil") None) [])])])) 6577 6591.
Definition t_error_constructor_f22 : func := Func 483 (Some (DeclInfo (Ident 489 (str "Cause") None) (Some [(Field 485 [(Ident 486 (str "e") (Some 48))] 487)]) None)) (FuncType 490 [] (Some [(Field 493 [] 494)]) 6616) (Some (Node 495 (KOther (str "*ast.BlockStmt")) [(Node 496 KReturn [(Node 497 (KIdent (str "nil") None) [])])])) 6636 6650.
Definition t_error_constructor_f23 : func := Func 498 (Some (DeclInfo (Ident 504 (str "Error") None) (Some [(Field 500 [(Ident 501 (str "e") (Some 49))] 502)]) None)) (FuncType 505 [] (Some [(Field 508 [] 509)]) 6675) (Some (Node 510 (KOther (str "*ast.BlockStmt")) [(Node 511 KReturn [(Node 512 KCall [(Node 513 KSelector [(Node 514 (KIdent (str "e") (Some 49)) []); (Node 515 (KIdent (str "Message") None) [])])])])])) 6695 6717.
Definition t_error_constructor_gendecls : list gendecl := [GenDecl 243 [None]; GenDecl 276 [None]; GenDecl 358 [None]; GenDecl 387 [None]; GenDecl 408 [(Some (TypeSpec (Ident 410 (str "ConstructorInterface") (Some 51)) (XInterface 411 [IMethod 413 (Ident 414 (str "NewError") None) (Some (comment_text [(str "// Errors:"); (str "//"); (str "//    - param: code --")])) (FuncType 415 [(Field 417 [(Ident 418 (str "code") (Some 50))] 419)] (Some [(Field 421 [] 422)]) 6199)])))]; GenDecl 424 [(Some (TypeSpec (Ident 426 (str "Error") (Some 52)) (XStruct [[(Ident 430 (str "TheCode") None)]])))]].
Definition t_error_constructor_top : list topdecl := [TopFunc 1; TopFunc 2; TopFunc 3; TopFunc 4; TopFunc 5; TopFunc 6; TopFunc 7; TopFunc 8; TopFunc 9; TopFunc 10; TopFunc 11; TopFunc 12; TopFunc 13; TopFunc 14; TopFunc 16; TopFunc 17; TopFunc 18; TopNode (Node 408 (KOther (str "*ast.GenDecl")) [(Node 409 (KOther (str "*ast.TypeSpec")) [])]); TopNode (Node 424 (KOther (str "*ast.GenDecl")) [(Node 425 (KOther (str "*ast.TypeSpec")) [])]); TopFunc 19; TopFunc 20; TopFunc 21; TopFunc 22; TopFunc 23].
Definition t_error_constructor_objs : list (N * object) := [(1, Object false 219 (DFunc 1)); (2, Object true 228 DOther); (3, Object true 241 DOther); (4, Object false 537 (DFunc 2)); (5, Object true 547 DOther); (6, Object false 825 (DFunc 3)); (7, Object true 838 DOther); (8, Object false 1130 (DFunc 4)); (9, Object true 1141 DOther); (10, Object true 1148 DOther); (11, Object false 1642 (DFunc 5)); (12, Object true 1667 DOther); (13, Object true 1679 DOther); (14, Object false 2378 (DFunc 6)); (15, Object true 2397 DOther); (16, Object true 2410 DOther); (17, Object true 2543 DOther); (18, Object false 2663 (DFunc 7)); (19, Object true 2682 DOther); (20, Object true 2695 DOther); (21, Object true 2767 DOther); (22, Object false 2999 (DFunc 8)); (23, Object false 3200 (DFunc 9)); (24, Object true 3231 DOther); (25, Object false 3490 (DFunc 10)); (26, Object true 3511 DOther); (27, Object false 3758 (DFunc 11)); (28, Object true 3841 (DValueSpec [(Ident 245 (str "someCode") (Some 28))] [(Node 247 KBasicLit [])])); (29, Object false 3994 (DFunc 12)); (30, Object true 4018 DOther); (31, Object false 4230 (DFunc 13)); (32, Object true 4315 (DValueSpec [(Ident 278 (str "postFix") (Some 32))] [(Node 280 KBasicLit [])])); (33, Object false 4496 (DFunc 14)); (34, Object true 4518 DOther); (35, Object false 4812 (DFunc 16)); (36, Object true 4835 DOther); (37, Object true 4967 DOther); (38, Object false 5091 (DFunc 17)); (39, Object false 5377 (DFunc 18)); (40, Object true 5391 DOther); (41, Object true 5398 DOther); (42, Object true 5405 DOther); (43, Object true 5546 (DValueSpec [(Ident 360 (str "otherError") (Some 43))] [])); (44, Object false 5890 (DValueSpec [(Ident 389 (str "constant") (Some 44))] [(Node 390 KBasicLit [])])); (45, Object true 6409 DOther); (46, Object true 6474 DOther); (47, Object true 6539 DOther); (48, Object true 6598 DOther); (49, Object true 6657 DOther); (50, Object true 6186 DOther); (51, Object false 6103 DType); (52, Object false 6299 DType)].
Definition t_error_constructor_types : list (N * gotype) := [(5, (TSignature [(TBasic (str "string")); (TBasic (str "bool"))] [(TNamed 1)] false)); (8, (TBasic (str "string"))); (9, (TBasic (str "string"))); (11, (TBasic (str "bool"))); (12, (TBasic (str "bool"))); (15, (TNamed 1)); (18, (TBasic (str "bool"))); (21, (TPointer (TNamed 65))); (22, (TNamed 65)); (23, (TNamed 65)); (24, (TBasic (str "string"))); (26, (TPointer (TNamed 65))); (27, (TNamed 65)); (28, (TNamed 65)); (29, (TBasic (str "string"))); (32, (TSignature [(TBasic (str "string"))] [(TNamed 1)] false)); (35, (TBasic (str "string"))); (36, (TBasic (str "string"))); (39, (TNamed 1)); (42, (TPointer (TNamed 65))); (43, (TNamed 65)); (44, (TNamed 65)); (45, (TBasic (str "string"))); (48, (TSignature [(TBasic (str "string"))] [(TNamed 1)] false)); (51, (TBasic (str "string"))); (52, (TBasic (str "string"))); (55, (TNamed 1)); (58, (TPointer (TNamed 65))); (59, (TNamed 65)); (60, (TNamed 65)); (61, (TBasic (str "string"))); (64, (TSignature [(TBasic (str "string")); (TBasic (str "string"))] [(TNamed 1)] false)); (67, (TBasic (str "string"))); (68, (TBasic (str "string"))); (69, (TBasic (str "string"))); (72, (TNamed 1)); (76, (TBasic (str "string"))); (78, (TPointer (TNamed 65))); (79, (TNamed 65)); (80, (TNamed 65)); (81, (TBasic (str "string"))); (84, (TSignature [(TBasic (str "string")); (TBasic (str "string"))] [(TNamed 1)] false)); (87, (TBasic (str "string"))); (88, (TBasic (str "string"))); (89, (TBasic (str "string"))); (92, (TNamed 1)); (97, (TBasic (str "bool"))); (99, (TPointer (TNamed 65))); (100, (TNamed 65)); (101, (TNamed 65)); (102, (TBasic (str "string"))); (104, (TBasic (str "bool"))); (106, (TPointer (TNamed 65))); (107, (TNamed 65)); (108, (TNamed 65)); (109, (TBasic (str "string"))); (111, (TBasic (str "bool"))); (113, (TPointer (TNamed 65))); (114, (TNamed 65)); (115, (TNamed 65)); (116, (TBasic (str "string"))); (119, (TPointer (TNamed 65))); (120, (TNamed 65)); (121, (TNamed 65)); (122, (TBasic (str "string"))); (125, (TSignature [(TBasic (str "string")); (TBasic (str "bool"))] [(TNamed 1)] false)); (128, (TBasic (str "string"))); (129, (TBasic (str "string"))); (131, (TBasic (str "bool"))); (132, (TBasic (str "bool"))); (135, (TNamed 1)); (138, (TPointer (TNamed 65))); (139, (TPointer (TNamed 65))); (140, (TNamed 65)); (141, (TNamed 65)); (142, (TBasic (str "string"))); (144, (TBasic (str "bool"))); (147, (TBasic (str "string"))); (148, (TPointer (TNamed 65))); (149, (TBasic (str "string"))); (150, (TBasic (str "string"))); (152, (TPointer (TNamed 65))); (155, (TSignature [(TBasic (str "string")); (TBasic (str "bool"))] [(TNamed 1)] false)); (158, (TBasic (str "string"))); (159, (TBasic (str "string"))); (161, (TBasic (str "bool"))); (162, (TBasic (str "bool"))); (165, (TNamed 1)); (168, (TPointer (TNamed 65))); (169, (TPointer (TNamed 65))); (170, (TNamed 65)); (171, (TNamed 65)); (172, (TBasic (str "string"))); (174, (TBasic (str "bool"))); (177, (TBasic (str "string"))); (178, (TPointer (TNamed 65))); (179, (TBasic (str "string"))); (180, (TBasic (str "string"))); (182, (TPointer (TNamed 65))); (185, (TSignature [] [(TNamed 1)] false)); (189, (TNamed 1)); (192, (TNamed 1)); (193, (TSignature [(TBasic (str "string")); (TBasic (str "bool"))] [(TNamed 1)] false)); (194, (TBasic (str "string"))); (195, (TBasic (str "bool"))); (198, (TSignature [(TBasic (str "string"))] [(TNamed 1)] false)); (201, (TBasic (str "string"))); (202, (TBasic (str "string"))); (205, (TNamed 1)); (208, (TNamed 1)); (209, (TSignature [(TBasic (str "string")); (TBasic (str "bool"))] [(TNamed 1)] false)); (210, (TBasic (str "string"))); (211, (TBasic (str "bool"))); (214, (TSignature [(TBasic (str "string"))] [(TNamed 1)] false)); (217, (TBasic (str "string"))); (218, (TBasic (str "string"))); (221, (TNamed 1)); (224, (TBasic (str "bool"))); (227, (TNamed 1)); (228, (TSignature [(TBasic (str "string"))] [(TNamed 1)] false)); (229, (TBasic (str "string"))); (231, (TNamed 1)); (232, (TSignature [(TBasic (str "string"))] [(TNamed 1)] false)); (233, (TBasic (str "string"))); (236, (TSignature [] [(TNamed 1)] false)); (240, (TNamed 1)); (245, (TBasic (str "string"))); (246, (TBasic (str "string"))); (247, (TBasic (str "string"))); (249, (TNamed 1)); (250, (TSignature [(TBasic (str "string"))] [(TNamed 1)] false)); (251, (TBasic (str "string"))); (254, (TSignature [(TBasic (str "string"))] [(TNamed 1)] false)); (257, (TBasic (str "string"))); (258, (TBasic (str "string"))); (261, (TNamed 1)); (264, (TNamed 1)); (265, (TSignature [(TBasic (str "string"))] [(TNamed 1)] false)); (266, (TBasic (str "string"))); (269, (TSignature [] [(TNamed 1)] false)); (273, (TNamed 1)); (278, (TBasic (str "string"))); (279, (TBasic (str "string"))); (280, (TBasic (str "string"))); (282, (TNamed 1)); (283, (TSignature [(TBasic (str "string"))] [(TNamed 1)] false)); (284, (TBasic (str "string"))); (285, (TBasic (str "string"))); (286, (TBasic (str "string"))); (289, (TSignature [(TBasic (str "string"))] [(TNamed 1)] false)); (292, (TBasic (str "string"))); (293, (TBasic (str "string"))); (296, (TNamed 1)); (299, (TNamed 1)); (300, (TSignature [] [(TNamed 1)] false)); (301, (TSignature [] [(TNamed 1)] false)); (305, (TNamed 1)); (308, (TPointer (TNamed 65))); (309, (TNamed 65)); (310, (TNamed 65)); (311, (TBasic (str "string"))); (314, (TSignature [(TBasic (str "string"))] [(TNamed 1)] false)); (317, (TBasic (str "string"))); (318, (TBasic (str "string"))); (321, (TNamed 1)); (324, (TSignature [(TBasic (str "string"))] [(TNamed 1)] false)); (325, (TSignature [(TBasic (str "string"))] [(TNamed 1)] false)); (327, (TNamed 1)); (328, (TSignature [(TBasic (str "string"))] [(TNamed 1)] false)); (329, (TBasic (str "string"))); (332, (TSignature [] [(TNamed 1)] false)); (336, (TNamed 1)); (339, (TNamed 1)); (340, (TSignature [(TBasic (str "string"))] [(TNamed 1)] false)); (341, (TBasic (str "string"))); (344, (TSignature [(TBasic (str "int")); (TBasic (str "string")); (TBasic (str "string"))] [(TNamed 1)] false)); (347, (TBasic (str "int"))); (348, (TBasic (str "int"))); (350, (TBasic (str "string"))); (351, (TBasic (str "string"))); (352, (TBasic (str "string"))); (355, (TNamed 1)); (360, (TBasic (str "string"))); (361, (TBasic (str "string"))); (365, (TBasic (str "bool"))); (367, (TBasic (str "string"))); (368, (TBasic (str "string"))); (370, (TBasic (str "bool"))); (372, (TBasic (str "string"))); (373, (TBasic (str "string"))); (375, (TBasic (str "bool"))); (377, (TBasic (str "string"))); (378, (TBasic (str "string"))); (380, (TBasic (str "bool"))); (382, (TBasic (str "string"))); (383, (TBasic (str "string"))); (385, (TBasic (str "bool"))); (389, (TBasic (str "string"))); (390, (TBasic (str "string"))); (392, (TBasic (str "string"))); (393, (TBasic (str "string"))); (395, (TBasic (str "bool"))); (397, (TBasic (str "string"))); (398, (TBasic (str "string"))); (400, (TBasic (str "bool"))); (402, (TBasic (str "string"))); (403, (TBasic (str "string"))); (405, (TNamed 1)); (406, (TSignature [(TBasic (str "string"))] [(TNamed 1)] false)); (407, (TBasic (str "string"))); (410, (TNamed 64)); (411, (TInterface 5)); (414, (TSignature [(TBasic (str "string"))] [(TPointer (TNamed 65))] false)); (415, (TSignature [(TBasic (str "string"))] [(TPointer (TNamed 65))] false)); (418, (TBasic (str "string"))); (419, (TBasic (str "string"))); (422, (TPointer (TNamed 65))); (423, (TNamed 65)); (426, (TNamed 65)); (427, (TStruct [((str "TheCode"), (TBasic (str "string")))])); (430, (TBasic (str "string"))); (431, (TBasic (str "string"))); (435, (TPointer (TNamed 65))); (436, (TPointer (TNamed 65))); (437, (TNamed 65)); (439, (TSignature [] [(TBasic (str "string"))] false)); (443, (TBasic (str "string"))); (446, (TBasic (str "string"))); (447, (TPointer (TNamed 65))); (448, (TBasic (str "string"))); (452, (TPointer (TNamed 65))); (453, (TPointer (TNamed 65))); (454, (TNamed 65)); (456, (TSignature [] [(TBasic (str "string"))] false)); (460, (TBasic (str "string"))); (463, (TBasic (str "string"))); (464, (TPointer (TNamed 65))); (465, (TBasic (str "string"))); (469, (TPointer (TNamed 65))); (470, (TPointer (TNamed 65))); (471, (TNamed 65)); (473, (TSignature [] [(TMap (TBasic (str "string")) (TBasic (str "string")))] false)); (477, (TMap (TBasic (str "string")) (TBasic (str "string")))); (478, (TBasic (str "string"))); (479, (TBasic (str "string"))); (482, TUntypedNil); (486, (TPointer (TNamed 65))); (487, (TPointer (TNamed 65))); (488, (TNamed 65)); (490, (TSignature [] [(TNamed 1)] false)); (494, (TNamed 1)); (497, TUntypedNil); (501, (TPointer (TNamed 65))); (502, (TPointer (TNamed 65))); (503, (TNamed 65)); (505, (TSignature [] [(TBasic (str "string"))] false)); (509, (TBasic (str "string"))); (512, (TBasic (str "string"))); (513, (TSignature [] [(TBasic (str "string"))] false)); (514, (TPointer (TNamed 65))); (515, (TSignature [] [(TBasic (str "string"))] false))].
Definition t_error_constructor_values : list (N * constval) := [(29, CString (str "unknown-error")); (97, COther); (102, CString (str "missing-1-error")); (104, COther); (109, CString (str "missing-2-error")); (111, COther); (122, CString (str "hello-error")); (142, CString (str "some-error")); (172, CString (str "some-error")); (194, CString (str "param-error")); (195, COther); (211, COther); (224, COther); (233, CString (str "param-error")); (247, CString (str "some-error")); (280, CString (str "-error")); (285, CString (str "another-")); (341, CString (str "")); (365, COther); (368, CString (str "")); (370, COther); (373, CString (str "some-error")); (375, COther); (380, COther); (383, CString (str "-invalid")); (385, COther); (390, CString (str "other-error")); (393, CString (str "other-error")); (395, COther); (400, COther); (403, CString (str "-invalid"))].
Definition t_error_constructor_uses : list (N * tobj) := [(9, 5); (12, 4); (15, 1); (18, 77); (23, 65); (24, 76); (28, 65); (36, 5); (39, 1); (44, 65); (45, 78); (52, 5); (55, 1); (60, 65); (61, 79); (69, 5); (72, 1); (76, 81); (80, 65); (81, 80); (89, 5); (92, 1); (97, 21); (101, 65); (104, 21); (108, 65); (111, 21); (115, 65); (116, 83); (121, 65); (129, 5); (132, 4); (135, 1); (141, 65); (144, 85); (148, 99); (149, 98); (150, 84); (152, 99); (159, 5); (162, 4); (165, 1); (171, 65); (174, 87); (178, 100); (179, 98); (180, 86); (182, 100); (189, 1); (193, 47); (195, 22); (202, 5); (205, 1); (209, 47); (210, 88); (211, 22); (218, 5); (221, 1); (224, 22); (228, 56); (229, 89); (232, 48); (240, 1); (246, 5); (250, 48); (251, 101); (258, 5); (261, 1); (265, 48); (266, 90); (273, 1); (279, 5); (283, 48); (286, 102); (293, 5); (296, 1); (305, 1); (310, 65); (311, 91); (318, 5); (321, 1); (325, 48); (328, 103); (329, 92); (336, 1); (340, 48); (348, 6); (352, 5); (355, 1); (361, 5); (365, 21); (367, 95); (370, 21); (372, 95); (375, 21); (377, 95); (378, 94); (380, 21); (382, 95); (385, 21); (392, 104); (393, 105); (395, 21); (397, 95); (398, 104); (400, 21); (402, 104); (406, 48); (407, 95); (419, 5); (423, 65); (431, 5); (437, 65); (443, 5); (447, 71); (448, 98); (454, 65); (460, 5); (464, 72); (465, 98); (471, 65); (478, 5); (479, 5); (482, 24); (488, 65); (494, 1); (497, 24); (503, 65); (509, 5); (514, 75); (515, 67)].
Definition t_error_constructor_defs : list (N * tobj) := [(4, 47); (8, 76); (11, 77); (31, 48); (35, 78); (47, 49); (51, 79); (63, 50); (67, 80); (68, 81); (83, 51); (87, 82); (88, 83); (124, 52); (128, 84); (131, 85); (138, 99); (154, 53); (158, 86); (161, 87); (168, 100); (184, 54); (197, 55); (201, 88); (213, 56); (217, 89); (235, 57); (245, 101); (253, 58); (257, 90); (268, 59); (278, 102); (288, 60); (292, 91); (313, 61); (317, 92); (324, 103); (331, 62); (343, 63); (347, 93); (350, 94); (351, 95); (360, 104); (389, 105); (410, 64); (414, 96); (418, 97); (426, 65); (435, 71); (438, 66); (452, 72); (455, 67); (469, 73); (472, 68); (486, 74); (489, 69); (501, 75); (504, 70)].
Definition t_error_constructor_sels : list (N * (tobj * gotype)) := [(147, (98, (TPointer (TNamed 65)))); (177, (98, (TPointer (TNamed 65)))); (446, (98, (TPointer (TNamed 65)))); (463, (98, (TPointer (TNamed 65)))); (513, (67, (TPointer (TNamed 65))))].
Definition t_error_constructor_pkgnames : list (N * gostring) := [].
Definition t_error_constructor_objnames : list (N * gostring) := [(1, (str "error")); (2, (str "Error")); (3, (str "?")); (4, (str "bool")); (5, (str "string")); (6, (str "int")); (7, (str "int8")); (8, (str "int16")); (9, (str "int32")); (10, (str "int64")); (11, (str "uint")); (12, (str "uint8")); (13, (str "uint16")); (14, (str "uint32")); (15, (str "uint64")); (16, (str "uintptr")); (17, (str "float32")); (18, (str "float64")); (19, (str "complex64")); (20, (str "complex128")); (21, (str "true")); (22, (str "false")); (23, (str "iota")); (24, (str "nil")); (25, (str "append")); (26, (str "cap")); (27, (str "close")); (28, (str "complex")); (29, (str "copy")); (30, (str "delete")); (31, (str "imag")); (32, (str "len")); (33, (str "make")); (34, (str "new")); (35, (str "panic")); (36, (str "print")); (37, (str "println")); (38, (str "real")); (39, (str "recover")); (40, (str "Errorf")); (41, (str "Sprintf")); (42, (str "Println")); (43, (str "New")); (44, (str "HasPrefix")); (45, (str "Float32")); (46, (str "Float64")); (47, (str "NewError")); (48, (str "NewError2")); (49, (str "MissingParam")); (50, (str "WrongParam")); (51, (str "MismatchedCodesAndParams")); (52, (str "CorrectFieldAssign")); (53, (str "InvalidFieldAssign")); (54, (str "CallConstructor")); (55, (str "CallConstructorFromConstructor")); (56, (str "RecursiveConstructor")); (57, (str "InvalidCallConstructor")); (58, (str "InvalidCallConstructor2")); (59, (str "InvalidCallConstructor3")); (60, (str "InvalidUseOfCodeParam")); (61, (str "InvalidUseOfCodeParam2")); (62, (str "EmptyStringConstruct")); (63, (str "AssignToParam")); (64, (str "ConstructorInterface")); (65, (str "Error")); (66, (str "Code")); (67, (str "Message")); (68, (str "Details")); (69, (str "Cause")); (70, (str "Error")); (71, (str "e")); (72, (str "e")); (73, (str "e")); (74, (str "e")); (75, (str "e")); (76, (str "code")); (77, (str "flag")); (78, (str "code")); (79, (str "code")); (80, (str "code1")); (81, (str "code2")); (82, (str "codeUnused")); (83, (str "codeMissing")); (84, (str "code")); (85, (str "flag")); (86, (str "code")); (87, (str "flag")); (88, (str "code")); (89, (str "code")); (90, (str "someCode")); (91, (str "code")); (92, (str "code")); (93, (str "_")); (94, (str "other")); (95, (str "code")); (96, (str "NewError")); (97, (str "code")); (98, (str "TheCode")); (99, (str "err")); (100, (str "err")); (101, (str "someCode")); (102, (str "postFix")); (103, (str "lambda")); (104, (str "otherError")); (105, (str "constant"))].
Definition t_error_constructor_objtypes : list (N * gotype) := [(1, (TNamed 1)); (2, (TSignature [] [(TBasic (str "string"))] false)); (4, (TBasic (str "bool"))); (5, (TBasic (str "string"))); (6, (TBasic (str "int"))); (7, (TBasic (str "int8"))); (8, (TBasic (str "int16"))); (9, (TBasic (str "int32"))); (10, (TBasic (str "int64"))); (11, (TBasic (str "uint"))); (12, (TBasic (str "uint8"))); (13, (TBasic (str "uint16"))); (14, (TBasic (str "uint32"))); (15, (TBasic (str "uint64"))); (16, (TBasic (str "uintptr"))); (17, (TBasic (str "float32"))); (18, (TBasic (str "float64"))); (19, (TBasic (str "complex64"))); (20, (TBasic (str "complex128"))); (40, (TSignature [(TBasic (str "string")); (TSlice (TInterface 4))] [(TNamed 1)] true)); (41, (TSignature [(TBasic (str "string")); (TSlice (TInterface 4))] [(TBasic (str "string"))] true)); (42, (TSignature [(TSlice (TInterface 4))] [(TBasic (str "int")); (TNamed 1)] true)); (43, (TSignature [(TBasic (str "string"))] [(TNamed 1)] false)); (44, (TSignature [(TBasic (str "string")); (TBasic (str "string"))] [(TBasic (str "bool"))] false)); (45, (TSignature [] [(TBasic (str "float32"))] false)); (46, (TSignature [] [(TBasic (str "float64"))] false)); (47, (TSignature [(TBasic (str "string")); (TBasic (str "bool"))] [(TNamed 1)] false)); (48, (TSignature [(TBasic (str "string"))] [(TNamed 1)] false)); (49, (TSignature [(TBasic (str "string"))] [(TNamed 1)] false)); (50, (TSignature [(TBasic (str "string")); (TBasic (str "string"))] [(TNamed 1)] false)); (51, (TSignature [(TBasic (str "string")); (TBasic (str "string"))] [(TNamed 1)] false)); (52, (TSignature [(TBasic (str "string")); (TBasic (str "bool"))] [(TNamed 1)] false)); (53, (TSignature [(TBasic (str "string")); (TBasic (str "bool"))] [(TNamed 1)] false)); (54, (TSignature [] [(TNamed 1)] false)); (55, (TSignature [(TBasic (str "string"))] [(TNamed 1)] false)); (56, (TSignature [(TBasic (str "string"))] [(TNamed 1)] false)); (57, (TSignature [] [(TNamed 1)] false)); (58, (TSignature [(TBasic (str "string"))] [(TNamed 1)] false)); (59, (TSignature [] [(TNamed 1)] false)); (60, (TSignature [(TBasic (str "string"))] [(TNamed 1)] false)); (61, (TSignature [(TBasic (str "string"))] [(TNamed 1)] false)); (62, (TSignature [] [(TNamed 1)] false)); (63, (TSignature [(TBasic (str "int")); (TBasic (str "string")); (TBasic (str "string"))] [(TNamed 1)] false)); (64, (TNamed 64)); (65, (TNamed 65)); (66, (TSignature [] [(TBasic (str "string"))] false)); (67, (TSignature [] [(TBasic (str "string"))] false)); (68, (TSignature [] [(TMap (TBasic (str "string")) (TBasic (str "string")))] false)); (69, (TSignature [] [(TNamed 1)] false)); (70, (TSignature [] [(TBasic (str "string"))] false)); (71, (TPointer (TNamed 65))); (72, (TPointer (TNamed 65))); (73, (TPointer (TNamed 65))); (74, (TPointer (TNamed 65))); (75, (TPointer (TNamed 65))); (76, (TBasic (str "string"))); (77, (TBasic (str "bool"))); (78, (TBasic (str "string"))); (79, (TBasic (str "string"))); (80, (TBasic (str "string"))); (81, (TBasic (str "string"))); (82, (TBasic (str "string"))); (83, (TBasic (str "string"))); (84, (TBasic (str "string"))); (85, (TBasic (str "bool"))); (86, (TBasic (str "string"))); (87, (TBasic (str "bool"))); (88, (TBasic (str "string"))); (89, (TBasic (str "string"))); (90, (TBasic (str "string"))); (91, (TBasic (str "string"))); (92, (TBasic (str "string"))); (93, (TBasic (str "int"))); (94, (TBasic (str "string"))); (95, (TBasic (str "string"))); (96, (TSignature [(TBasic (str "string"))] [(TPointer (TNamed 65))] false)); (97, (TBasic (str "string"))); (98, (TBasic (str "string"))); (99, (TPointer (TNamed 65))); (100, (TPointer (TNamed 65))); (101, (TBasic (str "string"))); (102, (TBasic (str "string"))); (103, (TSignature [(TBasic (str "string"))] [(TNamed 1)] false)); (104, (TBasic (str "string"))); (105, (TBasic (str "string")))].
Definition t_error_constructor_under : list (N * gotype) := [(1, (TInterface 1)); (64, (TInterface 5)); (65, (TStruct [((str "TheCode"), (TBasic (str "string")))]))].
Definition t_error_constructor_named_methods : list (N * (list gostring)) := [(65, [(str "Code"); (str "Message"); (str "Details"); (str "Cause"); (str "Error")])].
Definition t_error_constructor_methods : list (gotype * gostring * tobj) := [((TInterface 1), (str "Error"), 2); ((TInterface 5), (str "NewError"), 96); ((TNamed 1), (str "Error"), 2); ((TNamed 64), (str "NewError"), 96); ((TPointer (TNamed 65)), (str "Cause"), 69); ((TPointer (TNamed 65)), (str "Code"), 66); ((TPointer (TNamed 65)), (str "Details"), 68); ((TPointer (TNamed 65)), (str "Error"), 70); ((TPointer (TNamed 65)), (str "Message"), 67)].
Definition t_error_constructor_ierr : list gotype := [(TInterface 1); (TNamed 1); (TPointer (TNamed 65))].
Definition t_error_constructor_iree : list gotype := [(TPointer (TNamed 65))].
Definition t_error_constructor_icause : list gotype := [(TPointer (TNamed 65))].
Definition t_error_constructor_impl : list (gotype * gotype) := [((TInterface 1), (TInterface 1)); ((TInterface 5), (TInterface 5)); ((TNamed 1), (TInterface 1)); ((TNamed 64), (TInterface 5)); ((TPointer (TNamed 65)), (TInterface 1))].
Definition t_error_constructor_nodes0 : list snode := [SNode 1 (Place 0 1) (Place 6716 201) true; SNode 2 (Place 8 1) (Place 24 1) false; SNode 3 (Place 213 9) (Place 424 14) true; SNode 4 (Place 218 9) (Place 226 9) false; SNode 5 (Place 213 9) (Place 256 9) false; SNode 6 (Place 226 9) (Place 250 9) false; SNode 7 (Place 227 9) (Place 238 9) true; SNode 8 (Place 227 9) (Place 231 9) false; SNode 9 (Place 232 9) (Place 238 9) false; SNode 10 (Place 240 9) (Place 249 9) true; SNode 11 (Place 240 9) (Place 244 9) false; SNode 12 (Place 245 9) (Place 249 9) false; SNode 13 (Place 251 9) (Place 256 9) false; SNode 14 (Place 251 9) (Place 256 9) true; SNode 15 (Place 251 9) (Place 256 9) false; SNode 16 (Place 257 9) (Place 424 14) true; SNode 17 (Place 356 10) (Place 390 12) true; SNode 18 (Place 359 10) (Place 363 10) false; SNode 19 (Place 364 10) (Place 390 12) true; SNode 20 (Place 368 11) (Place 387 11) true; SNode 21 (Place 375 11) (Place 387 11) false; SNode 22 (Place 376 11) (Place 387 11) false; SNode 23 (Place 376 11) (Place 381 11) false; SNode 24 (Place 382 11) (Place 386 11) false; SNode 25 (Place 392 13) (Place 422 13) true; SNode 26 (Place 399 13) (Place 422 13) false; SNode 27 (Place 400 13) (Place 422 13) false; SNode 28 (Place 400 13) (Place 405 13) false; SNode 29 (Place 406 13) (Place 421 13) false; SNode 30 (Place 531 21) (Place 673 23) true; SNode 31 (Place 536 21) (Place 545 21) false; SNode 32 (Place 531 21) (Place 564 21) false; SNode 33 (Place 545 21) (Place 558 21) false; SNode 34 (Place 546 21) (Place 557 21) true; SNode 35 (Place 546 21) (Place 550 21) false; SNode 36 (Place 551 21) (Place 557 21) false; SNode 37 (Place 559 21) (Place 564 21) false; SNode 38 (Place 559 21) (Place 564 21) true; SNode 39 (Place 559 21) (Place 564 21) false; SNode 40 (Place 565 21) (Place 673 23) true; SNode 41 (Place 652 22) (Place 671 22) true; SNode 42 (Place 659 22) (Place 671 22) false; SNode 43 (Place 660 22) (Place 671 22) false; SNode 44 (Place 660 22) (Place 665 22) false; SNode 45 (Place 666 22) (Place 670 22) false; SNode 46 (Place 819 29) (Place 1000 31) true; SNode 47 (Place 824 29) (Place 836 29) false; SNode 48 (Place 819 29) (Place 855 29) false; SNode 49 (Place 836 29) (Place 849 29) false; SNode 50 (Place 837 29) (Place 848 29) true; SNode 51 (Place 837 29) (Place 841 29) false; SNode 52 (Place 842 29) (Place 848 29) false; SNode 53 (Place 850 29) (Place 855 29) false; SNode 54 (Place 850 29) (Place 855 29) true; SNode 55 (Place 850 29) (Place 855 29) false; SNode 56 (Place 856 29) (Place 1000 31) true; SNode 57 (Place 894 30) (Place 913 30) true; SNode 58 (Place 901 30) (Place 913 30) false; SNode 59 (Place 902 30) (Place 913 30) false; SNode 60 (Place 902 30) (Place 907 30) false; SNode 61 (Place 908 30) (Place 912 30) false; SNode 62 (Place 1124 38) (Place 1386 44) true; SNode 63 (Place 1129 38) (Place 1139 38) false; SNode 64 (Place 1124 38) (Place 1166 38) false; SNode 65 (Place 1139 38) (Place 1160 38) false; SNode 66 (Place 1140 38) (Place 1159 38) true; SNode 67 (Place 1140 38) (Place 1145 38) false; SNode 68 (Place 1147 38) (Place 1152 38) false; SNode 69 (Place 1153 38) (Place 1159 38) false; SNode 70 (Place 1161 38) (Place 1166 38) false; SNode 71 (Place 1161 38) (Place 1166 38) true; SNode 72 (Place 1161 38) (Place 1166 38) false; SNode 73 (Place 1167 38) (Place 1386 44) true; SNode 74 (Place 1267 42) (Place 1276 42) true; SNode 75 (Place 1267 42) (Place 1268 42) false; SNode 76 (Place 1271 42) (Place 1276 42) false; SNode 77 (Place 1278 43) (Place 1298 43) true; SNode 78 (Place 1285 43) (Place 1298 43) false; SNode 79 (Place 1286 43) (Place 1298 43) false; SNode 80 (Place 1286 43) (Place 1291 43) false; SNode 81 (Place 1292 43) (Place 1297 43) false; SNode 82 (Place 1636 53) (Place 2310 68) true; SNode 83 (Place 1641 53) (Place 1665 53) false; SNode 84 (Place 1636 53) (Place 1703 53) false; SNode 85 (Place 1665 53) (Place 1697 53) false; SNode 86 (Place 1666 53) (Place 1696 53) true; SNode 87 (Place 1666 53) (Place 1676 53) false; SNode 88 (Place 1678 53) (Place 1689 53) false; SNode 89 (Place 1690 53) (Place 1696 53) false; SNode 90 (Place 1698 53) (Place 1703 53) false; SNode 91 (Place 1698 53) (Place 1703 53) true; SNode 92 (Place 1698 53) (Place 1703 53) false; SNode 93 (Place 1704 53) (Place 2310 68) true; SNode 94 (Place 2029 58) (Place 2308 67) true; SNode 95 (Place 2036 58) (Place 2308 67) true; SNode 96 (Place 2039 59) (Place 2084 60) true; SNode 97 (Place 2044 59) (Place 2048 59) false; SNode 98 (Place 2052 60) (Place 2084 60) true; SNode 99 (Place 2059 60) (Place 2084 60) false; SNode 100 (Place 2060 60) (Place 2084 60) false; SNode 101 (Place 2060 60) (Place 2065 60) false; SNode 102 (Place 2066 60) (Place 2083 60) false; SNode 103 (Place 2086 61) (Place 2131 62) true; SNode 104 (Place 2091 61) (Place 2095 61) false; SNode 105 (Place 2099 62) (Place 2131 62) true; SNode 106 (Place 2106 62) (Place 2131 62) false; SNode 107 (Place 2107 62) (Place 2131 62) false; SNode 108 (Place 2107 62) (Place 2112 62) false; SNode 109 (Place 2113 62) (Place 2130 62) false; SNode 110 (Place 2133 63) (Place 2172 64) true; SNode 111 (Place 2138 63) (Place 2142 63) false; SNode 112 (Place 2146 64) (Place 2172 64) true; SNode 113 (Place 2153 64) (Place 2172 64) false; SNode 114 (Place 2154 64) (Place 2172 64) false; SNode 115 (Place 2154 64) (Place 2159 64) false; SNode 116 (Place 2160 64) (Place 2171 64) false; SNode 117 (Place 2266 65) (Place 2305 66) true; SNode 118 (Place 2277 66) (Place 2305 66) true; SNode 119 (Place 2284 66) (Place 2305 66) false; SNode 120 (Place 2285 66) (Place 2305 66) false; SNode 121 (Place 2285 66) (Place 2290 66) false; SNode 122 (Place 2291 66) (Place 2304 66) false; SNode 123 (Place 2372 74) (Place 2618 80) true; SNode 124 (Place 2377 74) (Place 2395 74) false; SNode 125 (Place 2372 74) (Place 2425 74) false; SNode 126 (Place 2395 74) (Place 2419 74) false; SNode 127 (Place 2396 74) (Place 2407 74) true; SNode 128 (Place 2396 74) (Place 2400 74) false; SNode 129 (Place 2401 74) (Place 2407 74) false; SNode 130 (Place 2409 74) (Place 2418 74) true; SNode 131 (Place 2409 74) (Place 2413 74) false; SNode 132 (Place 2414 74) (Place 2418 74) false; SNode 133 (Place 2420 74) (Place 2425 74) false; SNode 134 (Place 2420 74) (Place 2425 74) true; SNode 135 (Place 2420 74) (Place 2425 74) false; SNode 136 (Place 2426 74) (Place 2618 80) true; SNode 137 (Place 2542 75) (Place 2569 75) true; SNode 138 (Place 2542 75) (Place 2545 75) false; SNode 139 (Place 2549 75) (Place 2569 75) false; SNode 140 (Place 2550 75) (Place 2569 75) false; SNode 141 (Place 2550 75) (Place 2555 75) false; SNode 142 (Place 2556 75) (Place 2568 75) false; SNode 143 (Place 2571 76) (Place 2604 78) true; SNode 144 (Place 2574 76) (Place 2578 76) false; SNode 145 (Place 2579 76) (Place 2604 78) true; SNode 146 (Place 2583 77) (Place 2601 77) true; SNode 147 (Place 2583 77) (Place 2594 77) false; SNode 148 (Place 2583 77) (Place 2586 77) false; SNode 149 (Place 2587 77) (Place 2594 77) false; SNode 150 (Place 2597 77) (Place 2601 77) false; SNode 151 (Place 2606 79) (Place 2616 79) true; SNode 152 (Place 2613 79) (Place 2616 79) false; SNode 153 (Place 2657 85) (Place 2927 91) true; SNode 154 (Place 2662 85) (Place 2680 85) false; SNode 155 (Place 2657 85) (Place 2710 85) false; SNode 156 (Place 2680 85) (Place 2704 85) false; SNode 157 (Place 2681 85) (Place 2692 85) true; SNode 158 (Place 2681 85) (Place 2685 85) false; SNode 159 (Place 2686 85) (Place 2692 85) false; SNode 160 (Place 2694 85) (Place 2703 85) true; SNode 161 (Place 2694 85) (Place 2698 85) false; SNode 162 (Place 2699 85) (Place 2703 85) false; SNode 163 (Place 2705 85) (Place 2710 85) false; SNode 164 (Place 2705 85) (Place 2710 85) true; SNode 165 (Place 2705 85) (Place 2710 85) false; SNode 166 (Place 2711 85) (Place 2927 91) true; SNode 167 (Place 2766 86) (Place 2793 86) true; SNode 168 (Place 2766 86) (Place 2769 86) false; SNode 169 (Place 2773 86) (Place 2793 86) false; SNode 170 (Place 2774 86) (Place 2793 86) false; SNode 171 (Place 2774 86) (Place 2779 86) false; SNode 172 (Place 2780 86) (Place 2792 86) false; SNode 173 (Place 2795 87) (Place 2913 89) true; SNode 174 (Place 2798 87) (Place 2802 87) false; SNode 175 (Place 2803 87) (Place 2913 89) true; SNode 176 (Place 2807 88) (Place 2825 88) true; SNode 177 (Place 2807 88) (Place 2818 88) false; SNode 178 (Place 2807 88) (Place 2810 88) false; SNode 179 (Place 2811 88) (Place 2818 88) false; SNode 180 (Place 2821 88) (Place 2825 88) false; SNode 181 (Place 2915 90) (Place 2925 90) true; SNode 182 (Place 2922 90) (Place 2925 90) false; SNode 183 (Place 2993 97) (Place 3128 99) true; SNode 184 (Place 2998 97) (Place 3013 97) false; SNode 185 (Place 2993 97) (Place 3021 97) false; SNode 186 (Place 3013 97) (Place 3015 97) false; SNode 187 (Place 3016 97) (Place 3021 97) false; SNode 188 (Place 3016 97) (Place 3021 97) true; SNode 189 (Place 3016 97) (Place 3021 97) false; SNode 190 (Place 3022 97) (Place 3128 99) true; SNode 191 (Place 3089 98) (Place 3126 98) true; SNode 192 (Place 3096 98) (Place 3126 98) false; SNode 193 (Place 3096 98) (Place 3104 98) false; SNode 194 (Place 3105 98) (Place 3118 98) false; SNode 195 (Place 3120 98) (Place 3125 98) false; SNode 196 (Place 3194 105) (Place 3422 107) true; SNode 197 (Place 3199 105) (Place 3229 105) false; SNode 198 (Place 3194 105) (Place 3248 105) false; SNode 199 (Place 3229 105) (Place 3242 105) false; SNode 200 (Place 3230 105) (Place 3241 105) true; SNode 201 (Place 3230 105) (Place 3234 105) false; SNode 202 (Place 3235 105) (Place 3241 105) false; SNode 203 (Place 3243 105) (Place 3248 105) false; SNode 204 (Place 3243 105) (Place 3248 105) true; SNode 205 (Place 3243 105) (Place 3248 105) false; SNode 206 (Place 3249 105) (Place 3422 107) true; SNode 207 (Place 3392 106) (Place 3420 106) true; SNode 208 (Place 3399 106) (Place 3420 106) false; SNode 209 (Place 3399 106) (Place 3407 106) false; SNode 210 (Place 3408 106) (Place 3412 106) false; SNode 211 (Place 3414 106) (Place 3419 106) false; SNode 212 (Place 3484 113) (Place 3734 118) true; SNode 213 (Place 3489 113) (Place 3509 113) false; SNode 214 (Place 3484 113) (Place 3528 113) false; SNode 215 (Place 3509 113) (Place 3522 113) false; SNode 216 (Place 3510 113) (Place 3521 113) true; SNode 217 (Place 3510 113) (Place 3514 113) false; SNode 218 (Place 3515 113) (Place 3521 113) false; SNode 219 (Place 3523 113) (Place 3528 113) false; SNode 220 (Place 3523 113) (Place 3528 113) true; SNode 221 (Place 3523 113) (Place 3528 113) false; SNode 222 (Place 3529 113) (Place 3734 118) true; SNode 223 (Place 3650 114) (Place 3699 116) true; SNode 224 (Place 3653 114) (Place 3658 114) false; SNode 225 (Place 3659 114) (Place 3699 116) true; SNode 226 (Place 3663 115) (Place 3696 115) true; SNode 227 (Place 3670 115) (Place 3696 115) false; SNode 228 (Place 3670 115) (Place 3690 115) false; SNode 229 (Place 3691 115) (Place 3695 115) false; SNode 230 (Place 3701 117) (Place 3732 117) true; SNode 231 (Place 3708 117) (Place 3732 117) false; SNode 232 (Place 3708 117) (Place 3717 117) false; SNode 233 (Place 3718 117) (Place 3731 117) false; SNode 234 (Place 3752 121) (Place 3970 124) true; SNode 235 (Place 3757 121) (Place 3779 121) false; SNode 236 (Place 3752 121) (Place 3787 121) false; SNode 237 (Place 3779 121) (Place 3781 121) false; SNode 238 (Place 3782 121) (Place 3787 121) false; SNode 239 (Place 3782 121) (Place 3787 121) true; SNode 240 (Place 3782 121) (Place 3787 121) false; SNode 241 (Place 3788 121) (Place 3970 124) true; SNode 242 (Place 3836 122) (Place 3870 122) true; SNode 243 (Place 3836 122) (Place 3870 122) true; SNode 244 (Place 3840 122) (Place 3870 122) true; SNode 245 (Place 3840 122) (Place 3848 122) false; SNode 246 (Place 3849 122) (Place 3855 122) false; SNode 247 (Place 3858 122) (Place 3870 122) false; SNode 248 (Place 3872 123) (Place 3898 123) true; SNode 249 (Place 3879 123) (Place 3898 123) false; SNode 250 (Place 3879 123) (Place 3888 123) false; SNode 251 (Place 3889 123) (Place 3897 123) false; SNode 252 (Place 3988 127) (Place 4206 129) true; SNode 253 (Place 3993 127) (Place 4016 127) false; SNode 254 (Place 3988 127) (Place 4039 127) false; SNode 255 (Place 4016 127) (Place 4033 127) false; SNode 256 (Place 4017 127) (Place 4032 127) true; SNode 257 (Place 4017 127) (Place 4025 127) false; SNode 258 (Place 4026 127) (Place 4032 127) false; SNode 259 (Place 4034 127) (Place 4039 127) false; SNode 260 (Place 4034 127) (Place 4039 127) true; SNode 261 (Place 4034 127) (Place 4039 127) false; SNode 262 (Place 4040 127) (Place 4206 129) true; SNode 263 (Place 4089 128) (Place 4115 128) true; SNode 264 (Place 4096 128) (Place 4115 128) false; SNode 265 (Place 4096 128) (Place 4105 128) false; SNode 266 (Place 4106 128) (Place 4114 128) false; SNode 267 (Place 4224 132) (Place 4451 135) true; SNode 268 (Place 4229 132) (Place 4252 132) false; SNode 269 (Place 4224 132) (Place 4260 132) false; SNode 270 (Place 4252 132) (Place 4254 132) false; SNode 271 (Place 4255 132) (Place 4260 132) false; SNode 272 (Place 4255 132) (Place 4260 132) true; SNode 273 (Place 4255 132) (Place 4260 132) false; SNode 274 (Place 4261 132) (Place 4451 135) true; SNode 275 (Place 4310 133) (Place 4339 133) true; SNode 276 (Place 4310 133) (Place 4339 133) true; SNode 277 (Place 4314 133) (Place 4339 133) true; SNode 278 (Place 4314 133) (Place 4321 133) false; SNode 279 (Place 4322 133) (Place 4328 133) false; SNode 280 (Place 4331 133) (Place 4339 133) false; SNode 281 (Place 4341 134) (Place 4379 134) true; SNode 282 (Place 4348 134) (Place 4379 134) false; SNode 283 (Place 4348 134) (Place 4357 134) false; SNode 284 (Place 4358 134) (Place 4378 134) false; SNode 285 (Place 4358 134) (Place 4368 134) false; SNode 286 (Place 4371 134) (Place 4378 134) false; SNode 287 (Place 4490 140) (Place 4767 144) true; SNode 288 (Place 4495 140) (Place 4516 140) false; SNode 289 (Place 4490 140) (Place 4535 140) false; SNode 290 (Place 4516 140) (Place 4529 140) false; SNode 291 (Place 4517 140) (Place 4528 140) true; SNode 292 (Place 4517 140) (Place 4521 140) false; SNode 293 (Place 4522 140) (Place 4528 140) false; SNode 294 (Place 4530 140) (Place 4535 140) false; SNode 295 (Place 4530 140) (Place 4535 140) true; SNode 296 (Place 4530 140) (Place 4535 140) false; SNode 297 (Place 4536 140) (Place 4767 144) true; SNode 298 (Place 4647 141) (Place 4765 143) true; SNode 299 (Place 4654 141) (Place 4765 143) false; SNode 300 (Place 4654 141) (Place 4763 143) false; SNode 301 (Place 4654 141) (Place 4666 141) false; SNode 302 (Place 4658 141) (Place 4660 141) false; SNode 303 (Place 4661 141) (Place 4666 141) false; SNode 304 (Place 4661 141) (Place 4666 141) true; SNode 305 (Place 4661 141) (Place 4666 141) false; SNode 306 (Place 4667 141) (Place 4763 143) true; SNode 307 (Place 4671 142) (Place 4690 142) true; SNode 308 (Place 4678 142) (Place 4690 142) false; SNode 309 (Place 4679 142) (Place 4690 142) false; SNode 310 (Place 4679 142) (Place 4684 142) false; SNode 311 (Place 4685 142) (Place 4689 142) false; SNode 312 (Place 4806 149) (Place 5067 152) true; SNode 313 (Place 4811 149) (Place 4833 149) false; SNode 314 (Place 4806 149) (Place 4852 149) false; SNode 315 (Place 4833 149) (Place 4846 149) false; SNode 316 (Place 4834 149) (Place 4845 149) true; SNode 317 (Place 4834 149) (Place 4838 149) false; SNode 318 (Place 4839 149) (Place 4845 149) false; SNode 319 (Place 4847 149) (Place 4852 149) false; SNode 320 (Place 4847 149) (Place 4852 149) true; SNode 321 (Place 4847 149) (Place 4852 149) false; SNode 322 (Place 4853 149) (Place 5067 152) true; SNode 323 (Place 4966 150) (Place 4985 150) true; SNode 324 (Place 4966 150) (Place 4972 150) false; SNode 325 (Place 4976 150) (Place 4985 150) false; SNode 326 (Place 5046 151) (Place 5065 151) true; SNode 327 (Place 5053 151) (Place 5065 151) false; SNode 328 (Place 5053 151) (Place 5059 151) false; SNode 329 (Place 5060 151) (Place 5064 151) false; SNode 330 (Place 5085 155) (Place 5187 157) true; SNode 331 (Place 5090 155) (Place 5110 155) false; SNode 332 (Place 5085 155) (Place 5118 155) false; SNode 333 (Place 5110 155) (Place 5112 155) false; SNode 334 (Place 5113 155) (Place 5118 155) false; SNode 335 (Place 5113 155) (Place 5118 155) true; SNode 336 (Place 5113 155) (Place 5118 155) false; SNode 337 (Place 5119 155) (Place 5187 157) true; SNode 338 (Place 5165 156) (Place 5185 156) true; SNode 339 (Place 5172 156) (Place 5185 156) false; SNode 340 (Place 5172 156) (Place 5181 156) false; SNode 341 (Place 5182 156) (Place 5184 156) false; SNode 342 (Place 5371 164) (Place 6095 184) true; SNode 343 (Place 5376 164) (Place 5389 164) false; SNode 344 (Place 5371 164) (Place 5422 164) false; SNode 345 (Place 5389 164) (Place 5416 164) false; SNode 346 (Place 5390 164) (Place 5395 164) true; SNode 347 (Place 5390 164) (Place 5391 164) false; SNode 348 (Place 5392 164) (Place 5395 164) false; SNode 349 (Place 5397 164) (Place 5415 164) true; SNode 350 (Place 5397 164) (Place 5402 164) false; SNode 351 (Place 5404 164) (Place 5408 164) false; SNode 352 (Place 5409 164) (Place 5415 164) false; SNode 353 (Place 5417 164) (Place 5422 164) false; SNode 354 (Place 5417 164) (Place 5422 164) true; SNode 355 (Place 5417 164) (Place 5422 164) false; SNode 356 (Place 5423 164) (Place 6095 184) true; SNode 357 (Place 5541 165) (Place 5562 165) true; SNode 358 (Place 5541 165) (Place 5562 165) true; SNode 359 (Place 5545 165) (Place 5562 165) true; SNode 360 (Place 5545 165) (Place 5555 165) false; SNode 361 (Place 5556 165) (Place 5562 165) false; SNode 362 (Place 5564 166) (Place 6069 182) true; SNode 363 (Place 5571 166) (Place 6069 182) true; SNode 364 (Place 5574 167) (Place 5596 168) true; SNode 365 (Place 5579 167) (Place 5583 167) false; SNode 366 (Place 5587 168) (Place 5596 168) true; SNode 367 (Place 5587 168) (Place 5591 168) false; SNode 368 (Place 5594 168) (Place 5596 168) false; SNode 369 (Place 5609 169) (Place 5641 170) true; SNode 370 (Place 5614 169) (Place 5618 169) false; SNode 371 (Place 5622 170) (Place 5641 170) true; SNode 372 (Place 5622 170) (Place 5626 170) false; SNode 373 (Place 5629 170) (Place 5641 170) false; SNode 374 (Place 5653 171) (Place 5678 172) true; SNode 375 (Place 5658 171) (Place 5662 171) false; SNode 376 (Place 5666 172) (Place 5678 172) true; SNode 377 (Place 5666 172) (Place 5670 172) false; SNode 378 (Place 5673 172) (Place 5678 172) false; SNode 379 (Place 5779 173) (Place 5809 174) true; SNode 380 (Place 5784 173) (Place 5788 173) false; SNode 381 (Place 5792 174) (Place 5809 174) true; SNode 382 (Place 5792 174) (Place 5796 174) false; SNode 383 (Place 5799 174) (Place 5809 174) false; SNode 384 (Place 5870 175) (Place 5937 177) true; SNode 385 (Place 5875 175) (Place 5879 175) false; SNode 386 (Place 5883 176) (Place 5913 176) true; SNode 387 (Place 5883 176) (Place 5913 176) true; SNode 388 (Place 5889 176) (Place 5913 176) true; SNode 389 (Place 5889 176) (Place 5897 176) false; SNode 390 (Place 5900 176) (Place 5913 176) false; SNode 391 (Place 5916 177) (Place 5937 177) true; SNode 392 (Place 5916 177) (Place 5926 177) false; SNode 393 (Place 5929 177) (Place 5937 177) false; SNode 394 (Place 5939 178) (Place 5969 179) true; SNode 395 (Place 5944 178) (Place 5948 178) false; SNode 396 (Place 5952 179) (Place 5969 179) true; SNode 397 (Place 5952 179) (Place 5956 179) false; SNode 398 (Place 5959 179) (Place 5969 179) false; SNode 399 (Place 5971 180) (Place 6007 181) true; SNode 400 (Place 5976 180) (Place 5980 180) false; SNode 401 (Place 5984 181) (Place 6007 181) true; SNode 402 (Place 5984 181) (Place 5994 181) false; SNode 403 (Place 5997 181) (Place 6007 181) false; SNode 404 (Place 6071 183) (Place 6093 183) true; SNode 405 (Place 6078 183) (Place 6093 183) false; SNode 406 (Place 6078 183) (Place 6087 183) false; SNode 407 (Place 6088 183) (Place 6092 183) false; SNode 408 (Place 6097 186) (Place 6291 191) true; SNode 409 (Place 6102 186) (Place 6291 191) true; SNode 410 (Place 6102 186) (Place 6122 186) false; SNode 411 (Place 6123 186) (Place 6291 191) false; SNode 412 (Place 6133 186) (Place 6291 191) false; SNode 413 (Place 6176 190) (Place 6204 190) true; SNode 414 (Place 6176 190) (Place 6184 190) false; SNode 415 (Place 6184 190) (Place 6204 190) false; SNode 416 (Place 6184 190) (Place 6197 190) false; SNode 417 (Place 6185 190) (Place 6196 190) true; SNode 418 (Place 6185 190) (Place 6189 190) false; SNode 419 (Place 6190 190) (Place 6196 190) false; SNode 420 (Place 6198 190) (Place 6204 190) false; SNode 421 (Place 6198 190) (Place 6204 190) true; SNode 422 (Place 6198 190) (Place 6204 190) false; SNode 423 (Place 6199 190) (Place 6204 190) false; SNode 424 (Place 6293 193) (Place 6400 195) true; SNode 425 (Place 6298 193) (Place 6400 195) true; SNode 426 (Place 6298 193) (Place 6303 193) false; SNode 427 (Place 6304 193) (Place 6400 195) false; SNode 428 (Place 6311 193) (Place 6400 195) false; SNode 429 (Place 6384 194) (Place 6398 194) true; SNode 430 (Place 6384 194) (Place 6391 194) false; SNode 431 (Place 6392 194) (Place 6398 194) false; SNode 432 (Place 6402 197) (Place 6466 197) true; SNode 433 (Place 6407 197) (Place 6417 197) false; SNode 434 (Place 6408 197) (Place 6416 197) true; SNode 435 (Place 6408 197) (Place 6409 197) false; SNode 436 (Place 6410 197) (Place 6416 197) false; SNode 437 (Place 6411 197) (Place 6416 197) false; SNode 438 (Place 6418 197) (Place 6422 197) false; SNode 439 (Place 6402 197) (Place 6431 197) false; SNode 440 (Place 6422 197) (Place 6424 197) false; SNode 441 (Place 6425 197) (Place 6431 197) false; SNode 442 (Place 6425 197) (Place 6431 197) true; SNode 443 (Place 6425 197) (Place 6431 197) false; SNode 444 (Place 6446 197) (Place 6466 197) true; SNode 445 (Place 6448 197) (Place 6464 197) true; SNode 446 (Place 6455 197) (Place 6464 197) false; SNode 447 (Place 6455 197) (Place 6456 197) false; SNode 448 (Place 6457 197) (Place 6464 197) false; SNode 449 (Place 6467 198) (Place 6531 198) true; SNode 450 (Place 6472 198) (Place 6482 198) false; SNode 451 (Place 6473 198) (Place 6481 198) true; SNode 452 (Place 6473 198) (Place 6474 198) false; SNode 453 (Place 6475 198) (Place 6481 198) false; SNode 454 (Place 6476 198) (Place 6481 198) false; SNode 455 (Place 6483 198) (Place 6490 198) false; SNode 456 (Place 6467 198) (Place 6499 198) false; SNode 457 (Place 6490 198) (Place 6492 198) false; SNode 458 (Place 6493 198) (Place 6499 198) false; SNode 459 (Place 6493 198) (Place 6499 198) true; SNode 460 (Place 6493 198) (Place 6499 198) false; SNode 461 (Place 6511 198) (Place 6531 198) true; SNode 462 (Place 6513 198) (Place 6529 198) true; SNode 463 (Place 6520 198) (Place 6529 198) false; SNode 464 (Place 6520 198) (Place 6521 198) false; SNode 465 (Place 6522 198) (Place 6529 198) false; SNode 466 (Place 6532 199) (Place 6590 199) true; SNode 467 (Place 6537 199) (Place 6547 199) false; SNode 468 (Place 6538 199) (Place 6546 199) true; SNode 469 (Place 6538 199) (Place 6539 199) false; SNode 470 (Place 6540 199) (Place 6546 199) false; SNode 471 (Place 6541 199) (Place 6546 199) false; SNode 472 (Place 6548 199) (Place 6555 199) false; SNode 473 (Place 6532 199) (Place 6575 199) false; SNode 474 (Place 6555 199) (Place 6557 199) false; SNode 475 (Place 6558 199) (Place 6575 199) false; SNode 476 (Place 6558 199) (Place 6575 199) true; SNode 477 (Place 6558 199) (Place 6575 199) false; SNode 478 (Place 6562 199) (Place 6568 199) false; SNode 479 (Place 6569 199) (Place 6575 199) false; SNode 480 (Place 6576 199) (Place 6590 199) true; SNode 481 (Place 6578 199) (Place 6588 199) true; SNode 482 (Place 6585 199) (Place 6588 199) false; SNode 483 (Place 6591 200) (Place 6649 200) true; SNode 484 (Place 6596 200) (Place 6606 200) false; SNode 485 (Place 6597 200) (Place 6605 200) true; SNode 486 (Place 6597 200) (Place 6598 200) false; SNode 487 (Place 6599 200) (Place 6605 200) false; SNode 488 (Place 6600 200) (Place 6605 200) false; SNode 489 (Place 6607 200) (Place 6612 200) false; SNode 490 (Place 6591 200) (Place 6620 200) false; SNode 491 (Place 6612 200) (Place 6614 200) false; SNode 492 (Place 6615 200) (Place 6620 200) false; SNode 493 (Place 6615 200) (Place 6620 200) true; SNode 494 (Place 6615 200) (Place 6620 200) false; SNode 495 (Place 6635 200) (Place 6649 200) true; SNode 496 (Place 6637 200) (Place 6647 200) true; SNode 497 (Place 6644 200) (Place 6647 200) false; SNode 498 (Place 6650 201) (Place 6716 201) true; SNode 499 (Place 6655 201) (Place 6665 201) false; SNode 500 (Place 6656 201) (Place 6664 201) true; SNode 501 (Place 6656 201) (Place 6657 201) false; SNode 502 (Place 6658 201) (Place 6664 201) false; SNode 503 (Place 6659 201) (Place 6664 201) false; SNode 504 (Place 6666 201) (Place 6671 201) false; SNode 505 (Place 6650 201) (Place 6680 201) false; SNode 506 (Place 6671 201) (Place 6673 201) false; SNode 507 (Place 6674 201) (Place 6680 201) false; SNode 508 (Place 6674 201) (Place 6680 201) true; SNode 509 (Place 6674 201) (Place 6680 201) false; SNode 510 (Place 6694 201) (Place 6716 201) true; SNode 511 (Place 6696 201) (Place 6714 201) true; SNode 512 (Place 6703 201) (Place 6714 201) false; SNode 513 (Place 6703 201) (Place 6712 201) false; SNode 514 (Place 6703 201) (Place 6704 201) false; SNode 515 (Place 6705 201) (Place 6712 201) false].
Definition t_error_constructor_cgroups0 : list cgroup := [CGroup (Place 26 3) (Place 212 8) [(str "// NewError is a constructor for Error using the code parameter."); (str "//"); (str "// Errors:"); (str "//"); (str "//    - param: code   -- is used if the provided flag is true"); (str "//    - unknown-error -- is used otherwise")]; CGroup (Place 259 9) (Place 354 9) [(str "// want NewError:""ErrorConstructor: {CodeParamPosition:0}"" NewError:""ErrorCodes: unknown-error""")]; CGroup (Place 426 16) (Place 530 20) [(str "// NewError is a constructor for Error using the code parameter."); (str "//"); (str "// Errors:"); (str "//"); (str "//    - param: code --")]; CGroup (Place 567 21) (Place 650 21) [(str "// want NewError2:""ErrorConstructor: {CodeParamPosition:0}"" NewError2:""ErrorCodes:""")]; CGroup (Place 675 25) (Place 818 28) [(str "// MissingParam returns an error using the parameter ""code"" as the error code,"); (str "// but never declares an error code parameter"); (str "//"); (str "// Errors: none")]; CGroup (Place 858 29) (Place 892 29) [(str "// want MissingParam:""ErrorCodes:""")]; CGroup (Place 914 30) (Place 998 30) [(str "// want `require an error code parameter declaration to use ""code"" as an error code`")]; CGroup (Place 1002 33) (Place 1123 37) [(str "// WrongParam declares the wrong parameter as error code parameter."); (str "//"); (str "// Errors:"); (str "//"); (str "//    - param: code2 -- unused param")]; CGroup (Place 1169 38) (Place 1265 41) [(str "/*
		want
			WrongParam:""ErrorConstructor: {CodeParamPosition:1}""
			WrongParam:""ErrorCodes:"" */")]; CGroup (Place 1299 43) (Place 1384 43) [(str "// want `require an error code parameter declaration to use ""code1"" as an error code`")]; CGroup (Place 1388 46) (Place 1635 52) [(str "// MismatchedCodesAndParams has multiple error code and error code parameter mismatches."); (str "//"); (str "// Errors:"); (str "//"); (str "//    - hello-error       -- error that might be returned"); (str "//    - unused-error      -- never returned"); (str "//    - param: codeUnused -- never used")]; CGroup (Place 1706 53) (Place 2027 57) [(str "/*
		want
			MismatchedCodesAndParams:""ErrorConstructor: {CodeParamPosition:0}""
			MismatchedCodesAndParams:""ErrorCodes: hello-error unused-error""
			`function ""MismatchedCodesAndParams"" has a mismatch of declared and actual error codes: missing codes: \[missing-1-error missing-2-error] unused codes: \[unused-error]` */")]; CGroup (Place 2173 64) (Place 2264 64) [(str "// want `require an error code parameter declaration to use ""codeMissing"" as an error code`")]; CGroup (Place 2312 70) (Place 2371 73) [(str "// Errors:"); (str "//"); (str "//    - param: code --"); (str "//    - some-error  --")]; CGroup (Place 2428 74) (Place 2540 74) [(str "// want CorrectFieldAssign:""ErrorConstructor: {CodeParamPosition:0}"" CorrectFieldAssign:""ErrorCodes: some-error""")]; CGroup (Place 2620 82) (Place 2656 84) [(str "// Errors:"); (str "//"); (str "//    - some-error  --")]; CGroup (Place 2713 85) (Place 2764 85) [(str "// want InvalidFieldAssign:""ErrorCodes: some-error""")]; CGroup (Place 2826 88) (Place 2910 88) [(str "// want `require an error code parameter declaration to use ""code"" as an error code`")]; CGroup (Place 2929 93) (Place 2992 96) [(str "// Errors:"); (str "//"); (str "//    - param-error   --"); (str "//    - unknown-error --")]; CGroup (Place 3024 97) (Place 3087 97) [(str "// want CallConstructor:""ErrorCodes: param-error unknown-error""")]; CGroup (Place 3130 101) (Place 3193 104) [(str "// Errors:"); (str "//"); (str "//    - param: code   --"); (str "//    - unknown-error --")]; CGroup (Place 3251 105) (Place 3390 105) [(str "// want CallConstructorFromConstructor:""ErrorConstructor: {CodeParamPosition:0}"" CallConstructorFromConstructor:""ErrorCodes: unknown-error""")]; CGroup (Place 3424 109) (Place 3483 112) [(str "// Errors:"); (str "//"); (str "//    - param: code --"); (str "//    - param-error --")]; CGroup (Place 3531 113) (Place 3648 113) [(str "// want RecursiveConstructor:""ErrorConstructor: {CodeParamPosition:0}"" RecursiveConstructor:""ErrorCodes: param-error""")]; CGroup (Place 3736 120) (Place 3751 120) [(str "// Errors: none")]; CGroup (Place 3790 121) (Place 3834 121) [(str "// want InvalidCallConstructor:""ErrorCodes:""")]; CGroup (Place 3899 123) (Place 3968 123) [(str "// want `error code has to be constant value or error code parameter`")]; CGroup (Place 3972 126) (Place 3987 126) [(str "// Errors: none")]; CGroup (Place 4042 127) (Place 4087 127) [(str "// want InvalidCallConstructor2:""ErrorCodes:""")]; CGroup (Place 4116 128) (Place 4204 128) [(str "// want `require an error code parameter declaration to use ""someCode"" as an error code`")]; CGroup (Place 4208 131) (Place 4223 131) [(str "// Errors: none")]; CGroup (Place 4263 132) (Place 4308 132) [(str "// want InvalidCallConstructor3:""ErrorCodes:""")]; CGroup (Place 4380 134) (Place 4449 134) [(str "// want `error code has to be constant value or error code parameter`")]; CGroup (Place 4453 137) (Place 4489 139) [(str "// Errors:"); (str "//"); (str "//    - param: code --")]; CGroup (Place 4538 140) (Place 4645 140) [(str "// want InvalidUseOfCodeParam:""ErrorConstructor: {CodeParamPosition:0}"" InvalidUseOfCodeParam:""ErrorCodes:""")]; CGroup (Place 4691 142) (Place 4760 142) [(str "// want ""error code has to be constant value or error code parameter""")]; CGroup (Place 4769 146) (Place 4805 148) [(str "// Errors:"); (str "//"); (str "//    - param: code --")]; CGroup (Place 4855 149) (Place 4964 149) [(str "// want InvalidUseOfCodeParam2:""ErrorConstructor: {CodeParamPosition:0}"" InvalidUseOfCodeParam2:""ErrorCodes:""")]; CGroup (Place 4986 150) (Place 5044 150) [(str "// want `unsupported use of error constructor ""NewError2""`")]; CGroup (Place 5069 154) (Place 5084 154) [(str "// Errors: none")]; CGroup (Place 5121 155) (Place 5163 155) [(str "// want EmptyStringConstruct:""ErrorCodes:""")]; CGroup (Place 5189 159) (Place 5370 163) [(str "// Errors:"); (str "//"); (str "//    - param: code -- error code parameter"); (str "//    - some-error  -- assigned to error code parameter"); (str "//    - other-error  -- indirectly assigned to error code parameter")]; CGroup (Place 5425 164) (Place 5539 164) [(str "// want AssignToParam:""ErrorConstructor: {CodeParamPosition:2}"" AssignToParam:""ErrorCodes: other-error some-error""")]; CGroup (Place 5597 168) (Place 5607 168) [(str "// allowed")]; CGroup (Place 5642 170) (Place 5651 170) [(str "//allowed")]; CGroup (Place 5679 172) (Place 5777 172) [(str "// want ""error code parameter may not be assigned an other parameter, receiver or global variable""")]; CGroup (Place 5810 174) (Place 5868 174) [(str "// want ""error code has invalid format: should match (.*)""")]; CGroup (Place 6008 181) (Place 6066 181) [(str "// want ""error code has invalid format: should match (.*)""")]; CGroup (Place 6136 187) (Place 6174 189) [(str "// Errors:"); (str "//"); (str "//    - param: code --")]; CGroup (Place 6205 190) (Place 6289 190) [(str "// want ""declaration of error constructors in interfaces is currently not supported""")]; CGroup (Place 6313 193) (Place 6382 193) [(str "// want Error:`ErrorType{Field:{Name:""TheCode"", Position:0}, Codes:}`")]].
Definition t_error_constructor_files : list source_file := [SourceFile t_error_constructor_nodes0 t_error_constructor_cgroups0].
Definition t_error_constructor_info : typeinfo := map_info (list_to_map t_error_constructor_types) (list_to_map t_error_constructor_values) (list_to_map t_error_constructor_uses) (list_to_map t_error_constructor_defs) (list_to_map t_error_constructor_sels) (list_to_set [1; 4; 5; 6; 7; 8; 9; 10; 11; 12; 13; 14; 15; 16; 17; 18; 19; 20; 64; 65]) (list_to_map t_error_constructor_pkgnames) (list_to_map t_error_constructor_objnames) (list_to_map t_error_constructor_objtypes) (list_to_map t_error_constructor_under) t_error_constructor_methods t_error_constructor_ierr t_error_constructor_iree t_error_constructor_icause t_error_constructor_impl (list_to_map t_error_constructor_named_methods).
Definition t_error_constructor : package := Package (list_to_map [(1, t_error_constructor_f1); (2, t_error_constructor_f2); (3, t_error_constructor_f3); (4, t_error_constructor_f4); (5, t_error_constructor_f5); (6, t_error_constructor_f6); (7, t_error_constructor_f7); (8, t_error_constructor_f8); (9, t_error_constructor_f9); (10, t_error_constructor_f10); (11, t_error_constructor_f11); (12, t_error_constructor_f12); (13, t_error_constructor_f13); (14, t_error_constructor_f14); (15, t_error_constructor_f15); (16, t_error_constructor_f16); (17, t_error_constructor_f17); (18, t_error_constructor_f18); (19, t_error_constructor_f19); (20, t_error_constructor_f20); (21, t_error_constructor_f21); (22, t_error_constructor_f22); (23, t_error_constructor_f23)]) [1; 2; 3; 4; 5; 6; 7; 8; 9; 10; 11; 12; 13; 14; 16; 17; 18; 19; 20; 21; 22; 23] t_error_constructor_gendecls t_error_constructor_top (list_to_map t_error_constructor_objs) (fun id => default [] (createCommentMap t_error_constructor_files id)) t_error_constructor_info.
Definition t_error_constructor_rank : gostring -> nat := fun n => default 0%nat ((list_to_map [((str "ConstructorInterface"), 1%nat)] : gmap gostring nat) !! n).

(** error_constructor: 14 diagnostics and 28 facts, as its "want" comments demand. *)
Theorem t_error_constructor_ascending :
  report (run_test t_error_constructor ascending (Facts ∅ ∅ ∅ ∅)) = Some [
    (413, (str "declaration of error constructors in interfaces is currently not supported")) (* error_constructor.go:190 *);
    (61, (str "require an error code parameter declaration to use ""code"" as an error code")) (* error_constructor.go:30 *);
    (180, (str "require an error code parameter declaration to use ""code"" as an error code")) (* error_constructor.go:88 *);
    (251, (str "error code has to be constant value or error code parameter")) (* error_constructor.go:123 *);
    (116, (str "require an error code parameter declaration to use ""codeMissing"" as an error code")) (* error_constructor.go:64 *);
    (82, (str "function ""MismatchedCodesAndParams"" has a mismatch of declared and actual error codes: missing codes: [missing-1-error missing-2-error] unused codes: [unused-error]")) (* error_constructor.go:53 *);
    (284, (str "error code has to be constant value or error code parameter")) (* error_constructor.go:134 *);
    (81, (str "require an error code parameter declaration to use ""code1"" as an error code")) (* error_constructor.go:43 *);
    (325, (str "unsupported use of error constructor ""NewError2""")) (* error_constructor.go:150 *);
    (266, (str "require an error code parameter declaration to use ""someCode"" as an error code")) (* error_constructor.go:128 *);
    (378, (str "error code parameter may not be assigned an other parameter, receiver or global variable")) (* error_constructor.go:172 *);
    (383, (str "error code has invalid format: should match [a-zA-Z][a-zA-Z0-9\-]*[a-zA-Z0-9]")) (* error_constructor.go:174 *);
    (403, (str "error code has invalid format: should match [a-zA-Z][a-zA-Z0-9\-]*[a-zA-Z0-9]")) (* error_constructor.go:181 *);
    (311, (str "error code has to be constant value or error code parameter")) (* error_constructor.go:142 *)] /\
  fact_texts (facts_after_test (run_test t_error_constructor ascending (Facts ∅ ∅ ∅ ∅))) [47; 48; 49; 50; 51; 52; 53; 54; 55; 56; 57; 58; 59; 60; 61; 62; 63; 64; 65; 66; 67; 68; 69; 70; 71; 72; 73; 74; 75; 76; 77; 78; 79; 80; 81; 82; 83; 84; 85; 86; 87; 88; 89; 90; 91; 92; 93; 94; 95; 96; 97; 99; 100; 101; 102; 103; 104; 105] = [
    (47, (str "ErrorCodes: unknown-error")) (* error_constructor.go:9 NewError *);
    (47, (str "ErrorConstructor: {CodeParamPosition:0}")) (* error_constructor.go:9 NewError *);
    (48, (str "ErrorCodes: ")) (* error_constructor.go:21 NewError2 *);
    (48, (str "ErrorConstructor: {CodeParamPosition:0}")) (* error_constructor.go:21 NewError2 *);
    (49, (str "ErrorCodes: ")) (* error_constructor.go:29 MissingParam *);
    (50, (str "ErrorCodes: ")) (* error_constructor.go:38 WrongParam *);
    (50, (str "ErrorConstructor: {CodeParamPosition:1}")) (* error_constructor.go:38 WrongParam *);
    (51, (str "ErrorCodes: hello-error unused-error")) (* error_constructor.go:53 MismatchedCodesAndParams *);
    (51, (str "ErrorConstructor: {CodeParamPosition:0}")) (* error_constructor.go:53 MismatchedCodesAndParams *);
    (52, (str "ErrorCodes: some-error")) (* error_constructor.go:74 CorrectFieldAssign *);
    (52, (str "ErrorConstructor: {CodeParamPosition:0}")) (* error_constructor.go:74 CorrectFieldAssign *);
    (53, (str "ErrorCodes: some-error")) (* error_constructor.go:85 InvalidFieldAssign *);
    (54, (str "ErrorCodes: param-error unknown-error")) (* error_constructor.go:97 CallConstructor *);
    (55, (str "ErrorCodes: unknown-error")) (* error_constructor.go:105 CallConstructorFromConstructor *);
    (55, (str "ErrorConstructor: {CodeParamPosition:0}")) (* error_constructor.go:105 CallConstructorFromConstructor *);
    (56, (str "ErrorCodes: param-error")) (* error_constructor.go:113 RecursiveConstructor *);
    (56, (str "ErrorConstructor: {CodeParamPosition:0}")) (* error_constructor.go:113 RecursiveConstructor *);
    (57, (str "ErrorCodes: ")) (* error_constructor.go:121 InvalidCallConstructor *);
    (58, (str "ErrorCodes: ")) (* error_constructor.go:127 InvalidCallConstructor2 *);
    (59, (str "ErrorCodes: ")) (* error_constructor.go:132 InvalidCallConstructor3 *);
    (60, (str "ErrorCodes: ")) (* error_constructor.go:140 InvalidUseOfCodeParam *);
    (60, (str "ErrorConstructor: {CodeParamPosition:0}")) (* error_constructor.go:140 InvalidUseOfCodeParam *);
    (61, (str "ErrorCodes: ")) (* error_constructor.go:149 InvalidUseOfCodeParam2 *);
    (61, (str "ErrorConstructor: {CodeParamPosition:0}")) (* error_constructor.go:149 InvalidUseOfCodeParam2 *);
    (62, (str "ErrorCodes: ")) (* error_constructor.go:155 EmptyStringConstruct *);
    (63, (str "ErrorCodes: other-error some-error")) (* error_constructor.go:164 AssignToParam *);
    (63, (str "ErrorConstructor: {CodeParamPosition:2}")) (* error_constructor.go:164 AssignToParam *);
    (65, (str "ErrorType{Field:{Name:""TheCode"", Position:0}, Codes:}")) (* error_constructor.go:193 Error *)].
Proof. vm_compute. split; reflexivity. Qed.

(** error_constructor: 14 diagnostics and 28 facts, as its "want" comments demand. *)
Theorem t_error_constructor_descending :
  report (run_test t_error_constructor descending (Facts ∅ ∅ ∅ ∅)) = Some [
    (413, (str "declaration of error constructors in interfaces is currently not supported")) (* error_constructor.go:190 *);
    (311, (str "error code has to be constant value or error code parameter")) (* error_constructor.go:142 *);
    (378, (str "error code parameter may not be assigned an other parameter, receiver or global variable")) (* error_constructor.go:172 *);
    (383, (str "error code has invalid format: should match [a-zA-Z][a-zA-Z0-9\-]*[a-zA-Z0-9]")) (* error_constructor.go:174 *);
    (403, (str "error code has invalid format: should match [a-zA-Z][a-zA-Z0-9\-]*[a-zA-Z0-9]")) (* error_constructor.go:181 *);
    (266, (str "require an error code parameter declaration to use ""someCode"" as an error code")) (* error_constructor.go:128 *);
    (325, (str "unsupported use of error constructor ""NewError2""")) (* error_constructor.go:150 *);
    (81, (str "require an error code parameter declaration to use ""code1"" as an error code")) (* error_constructor.go:43 *);
    (284, (str "error code has to be constant value or error code parameter")) (* error_constructor.go:134 *);
    (116, (str "require an error code parameter declaration to use ""codeMissing"" as an error code")) (* error_constructor.go:64 *);
    (82, (str "function ""MismatchedCodesAndParams"" has a mismatch of declared and actual error codes: missing codes: [missing-1-error missing-2-error] unused codes: [unused-error]")) (* error_constructor.go:53 *);
    (251, (str "error code has to be constant value or error code parameter")) (* error_constructor.go:123 *);
    (180, (str "require an error code parameter declaration to use ""code"" as an error code")) (* error_constructor.go:88 *);
    (61, (str "require an error code parameter declaration to use ""code"" as an error code")) (* error_constructor.go:30 *)] /\
  fact_texts (facts_after_test (run_test t_error_constructor descending (Facts ∅ ∅ ∅ ∅))) [47; 48; 49; 50; 51; 52; 53; 54; 55; 56; 57; 58; 59; 60; 61; 62; 63; 64; 65; 66; 67; 68; 69; 70; 71; 72; 73; 74; 75; 76; 77; 78; 79; 80; 81; 82; 83; 84; 85; 86; 87; 88; 89; 90; 91; 92; 93; 94; 95; 96; 97; 99; 100; 101; 102; 103; 104; 105] = [
    (47, (str "ErrorCodes: unknown-error")) (* error_constructor.go:9 NewError *);
    (47, (str "ErrorConstructor: {CodeParamPosition:0}")) (* error_constructor.go:9 NewError *);
    (48, (str "ErrorCodes: ")) (* error_constructor.go:21 NewError2 *);
    (48, (str "ErrorConstructor: {CodeParamPosition:0}")) (* error_constructor.go:21 NewError2 *);
    (49, (str "ErrorCodes: ")) (* error_constructor.go:29 MissingParam *);
    (50, (str "ErrorCodes: ")) (* error_constructor.go:38 WrongParam *);
    (50, (str "ErrorConstructor: {CodeParamPosition:1}")) (* error_constructor.go:38 WrongParam *);
    (51, (str "ErrorCodes: hello-error unused-error")) (* error_constructor.go:53 MismatchedCodesAndParams *);
    (51, (str "ErrorConstructor: {CodeParamPosition:0}")) (* error_constructor.go:53 MismatchedCodesAndParams *);
    (52, (str "ErrorCodes: some-error")) (* error_constructor.go:74 CorrectFieldAssign *);
    (52, (str "ErrorConstructor: {CodeParamPosition:0}")) (* error_constructor.go:74 CorrectFieldAssign *);
    (53, (str "ErrorCodes: some-error")) (* error_constructor.go:85 InvalidFieldAssign *);
    (54, (str "ErrorCodes: param-error unknown-error")) (* error_constructor.go:97 CallConstructor *);
    (55, (str "ErrorCodes: unknown-error")) (* error_constructor.go:105 CallConstructorFromConstructor *);
    (55, (str "ErrorConstructor: {CodeParamPosition:0}")) (* error_constructor.go:105 CallConstructorFromConstructor *);
    (56, (str "ErrorCodes: param-error")) (* error_constructor.go:113 RecursiveConstructor *);
    (56, (str "ErrorConstructor: {CodeParamPosition:0}")) (* error_constructor.go:113 RecursiveConstructor *);
    (57, (str "ErrorCodes: ")) (* error_constructor.go:121 InvalidCallConstructor *);
    (58, (str "ErrorCodes: ")) (* error_constructor.go:127 InvalidCallConstructor2 *);
    (59, (str "ErrorCodes: ")) (* error_constructor.go:132 InvalidCallConstructor3 *);
    (60, (str "ErrorCodes: ")) (* error_constructor.go:140 InvalidUseOfCodeParam *);
    (60, (str "ErrorConstructor: {CodeParamPosition:0}")) (* error_constructor.go:140 InvalidUseOfCodeParam *);
    (61, (str "ErrorCodes: ")) (* error_constructor.go:149 InvalidUseOfCodeParam2 *);
    (61, (str "ErrorConstructor: {CodeParamPosition:0}")) (* error_constructor.go:149 InvalidUseOfCodeParam2 *);
    (62, (str "ErrorCodes: ")) (* error_constructor.go:155 EmptyStringConstruct *);
    (63, (str "ErrorCodes: other-error some-error")) (* error_constructor.go:164 AssignToParam *);
    (63, (str "ErrorConstructor: {CodeParamPosition:2}")) (* error_constructor.go:164 AssignToParam *);
    (65, (str "ErrorType{Field:{Name:""TheCode"", Position:0}, Codes:}")) (* error_constructor.go:193 Error *)].
Proof. vm_compute. split; reflexivity. Qed.

(** The presuppositions of the general theorems that this package satisfies. *)
Theorem t_error_constructor_presuppositions :
  (forall fa, usable_functions t_error_constructor fa) /\
  (forall fa, no_literal_recursion t_error_constructor (collectFunctions t_error_constructor) fa) /\
  (forall fa, literals_apart t_error_constructor (collectFunctions t_error_constructor) fa) /\
  types_usable t_error_constructor /\
  (forall w n, occurs t_error_constructor w n -> ~ ill_formed t_error_constructor w n) /\
  distinct_definitions t_error_constructor /\
  interfaces_ok t_error_constructor /\
  uses_resolved t_error_constructor (collectFunctions t_error_constructor) /\
  (forall g fn, pk_funcs t_error_constructor !! g = Some fn -> disciplined t_error_constructor (facts_after_test (run_test t_error_constructor ascending (Facts ∅ ∅ ∅ ∅))) fn /\ resolved t_error_constructor (collectFunctions t_error_constructor) (facts_after_test (run_test t_error_constructor ascending (Facts ∅ ∅ ∅ ∅))) fn) /\
  Forall layout t_error_constructor_files.
Proof.
  split_and!.
  - intros fa; apply package_usable_spec; vm_compute; reflexivity.
  - intros fa; apply recursion_check_spec; vm_compute; reflexivity.
  - intros fa; apply apart_spec; vm_compute; reflexivity.
  - apply types_ok_spec; vm_compute; reflexivity.
  - apply package_formed_spec; vm_compute; reflexivity.
  - apply definitions_check_spec; vm_compute; reflexivity.
  - apply (interfaces_check_spec t_error_constructor t_error_constructor_rank); vm_compute; reflexivity.
  - apply uses_check_spec; vm_compute; reflexivity.
  - intros g fn; apply sound_ok_spec; vm_compute; reflexivity.
  - apply layouts_spec; vm_compute; reflexivity.
Qed.
