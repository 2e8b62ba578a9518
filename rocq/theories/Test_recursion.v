(** * The test package recursion of /repo/analysis/testdata/src, run on the model.  Generated by tools/conform.py; see Conform.v. *)
From Coq Require Import Ascii String.
From stdpp Require Import base list gmap.
From Verif Require Import GoString Scc Engine Constant CommentText CommentMap Phase FactText Conform Claims Analyse Verify SpecTaint SpecProgram SpecLiterals SpecCodeMethod SpecInterfaces SpecSites SpecCrash SpecSound SpecWhole SpecLayout Checkers RecursionChecker LiteralChecker CodeCheckers FormChecker InterfaceChecker SoundChecker ChainChecker ExampleLayout GoAst.
Local Open Scope N_scope.
Definition t_recursion_f1 : func := Func 3 (Some (DeclInfo (Ident 4 (str "SimpleRecursion") (Some 1)) None (Some (comment_text [(str "// SimpleRecursion always returns an error,"); (str "// and looks to the compiler like it might do recursive calls on itself."); (str "//"); (str "// Errors:"); (str "//"); (str "//    - recursion-error -- is always returned")])))) (FuncType 5 [] (Some [(Field 8 [] 9)]) 223) (Some (Node 10 (KOther (str "*ast.BlockStmt")) [(Node 11 (KOther (str "*ast.IfStmt")) [(Node 12 (KIdent (str "false") None) []); (Node 13 (KOther (str "*ast.BlockStmt")) [(Node 14 KReturn [(Node 15 KCall [(Node 16 (KIdent (str "SimpleRecursion") (Some 1)) [])])])])]); (Node 17 KReturn [(Node 18 (KUnary true) [(Node 19 KComposite [(Node 21 KBasicLit [])])])])])) 229 362.
Definition t_recursion_f2 : func := Func 22 (Some (DeclInfo (Ident 23 (str "InnerRecursion") (Some 2)) None (Some (comment_text [(str "// InnerRecursion always returns an error,"); (str "// and calls a local function, that looks recursive to the compiler."); (str "//"); (str "// Errors:"); (str "//"); (str "//    - recursion-error -- is always returned")])))) (FuncType 24 [] (Some [(Field 27 [] 28)]) 561) (Some (Node 29 (KOther (str "*ast.BlockStmt")) [(Node 30 KReturn [(Node 31 KCall [(Node 32 (KIdent (str "innerRecursion") (Some 3)) [])])])])) 567 648.
Definition t_recursion_f3 : func := Func 33 (Some (DeclInfo (Ident 34 (str "innerRecursion") (Some 3)) None None)) (FuncType 35 [] (Some [(Field 38 [] 39)]) 672) (Some (Node 40 (KOther (str "*ast.BlockStmt")) [(Node 41 (KOther (str "*ast.IfStmt")) [(Node 42 (KIdent (str "false") None) []); (Node 43 (KOther (str "*ast.BlockStmt")) [(Node 44 KReturn [(Node 45 KCall [(Node 46 (KIdent (str "innerRecursion") (Some 3)) [])])])])]); (Node 47 KReturn [(Node 48 (KUnary true) [(Node 49 KComposite [(Node 51 KBasicLit [])])])])])) 678 756.
Definition t_recursion_f4 : func := Func 52 (Some (DeclInfo (Ident 53 (str "IndirectRecursion") (Some 4)) None (Some (comment_text [(str "// IndirectRecursion always returns an error,"); (str "// and looks to the compiler like it might do an indirect recursion involving three functions."); (str "//"); (str "// Errors:"); (str "//"); (str "//    - recursion-error       -- is always returned"); (str "//    - recursion-part1-error --"); (str "//    - recursion-part2-error --")])))) (FuncType 54 [] (Some [(Field 57 [] 58)]) 1059) (Some (Node 59 (KOther (str "*ast.BlockStmt")) [(Node 60 (KOther (str "*ast.IfStmt")) [(Node 61 (KIdent (str "false") None) []); (Node 62 (KOther (str "*ast.BlockStmt")) [(Node 63 KReturn [(Node 64 KCall [(Node 65 (KIdent (str "part1") (Some 5)) [])])])])]); (Node 66 KReturn [(Node 67 (KUnary true) [(Node 68 KComposite [(Node 70 KBasicLit [])])])])])) 1065 1234.
Definition t_recursion_f5 : func := Func 71 (Some (DeclInfo (Ident 72 (str "part1") (Some 5)) None None)) (FuncType 73 [] (Some [(Field 76 [] 77)]) 1249) (Some (Node 78 (KOther (str "*ast.BlockStmt")) [(Node 79 (KOther (str "*ast.IfStmt")) [(Node 80 (KIdent (str "false") None) []); (Node 81 (KOther (str "*ast.BlockStmt")) [(Node 82 KReturn [(Node 83 KCall [(Node 84 (KIdent (str "part2") (Some 6)) [])])])])]); (Node 85 KReturn [(Node 86 (KUnary true) [(Node 87 KComposite [(Node 89 KBasicLit [])])])])])) 1255 1330.
Definition t_recursion_f6 : func := Func 90 (Some (DeclInfo (Ident 91 (str "part2") (Some 6)) None None)) (FuncType 92 [] (Some [(Field 95 [] 96)]) 1345) (Some (Node 97 (KOther (str "*ast.BlockStmt")) [(Node 98 (KOther (str "*ast.IfStmt")) [(Node 99 (KIdent (str "false") None) []); (Node 100 (KOther (str "*ast.BlockStmt")) [(Node 101 KReturn [(Node 102 KCall [(Node 103 (KIdent (str "IndirectRecursion") (Some 4)) [])])])])]); (Node 104 KReturn [(Node 105 (KUnary true) [(Node 106 KComposite [(Node 108 KBasicLit [])])])])])) 1351 1438.
Definition t_recursion_f7 : func := Func 109 (Some (DeclInfo (Ident 110 (str "IndirectInnerRecursion") (Some 7)) None (Some (comment_text [(str "// IndirectInnerRecursion always returns an error,"); (str "// and calls a local function, that looks to the compiler"); (str "// like it does indirect recursive calls involving three functions."); (str "//"); (str "// Errors:"); (str "//"); (str "//    - recursion-inner1-error -- is always returned"); (str "//    - recursion-inner2-error --"); (str "//    - recursion-inner3-error --")])))) (FuncType 111 [] (Some [(Field 114 [] 115)]) 1785) (Some (Node 116 (KOther (str "*ast.BlockStmt")) [(Node 117 KReturn [(Node 118 KCall [(Node 119 (KIdent (str "inner1") (Some 8)) [])])])])) 1791 1925.
Definition t_recursion_f8 : func := Func 120 (Some (DeclInfo (Ident 121 (str "inner1") (Some 8)) None None)) (FuncType 122 [] (Some [(Field 125 [] 126)]) 1941) (Some (Node 127 (KOther (str "*ast.BlockStmt")) [(Node 128 (KOther (str "*ast.IfStmt")) [(Node 129 (KIdent (str "false") None) []); (Node 130 (KOther (str "*ast.BlockStmt")) [(Node 131 KReturn [(Node 132 KCall [(Node 133 (KIdent (str "inner2") (Some 9)) [])])])])]); (Node 134 KReturn [(Node 135 (KUnary true) [(Node 136 KComposite [(Node 138 KBasicLit [])])])])])) 1947 2024.
Definition t_recursion_f9 : func := Func 139 (Some (DeclInfo (Ident 140 (str "inner2") (Some 9)) None None)) (FuncType 141 [] (Some [(Field 144 [] 145)]) 2040) (Some (Node 146 (KOther (str "*ast.BlockStmt")) [(Node 147 (KOther (str "*ast.IfStmt")) [(Node 148 (KIdent (str "false") None) []); (Node 149 (KOther (str "*ast.BlockStmt")) [(Node 150 KReturn [(Node 151 KCall [(Node 152 (KIdent (str "inner3") (Some 10)) [])])])])]); (Node 153 KReturn [(Node 154 (KUnary true) [(Node 155 KComposite [(Node 157 KBasicLit [])])])])])) 2046 2123.
Definition t_recursion_f10 : func := Func 158 (Some (DeclInfo (Ident 159 (str "inner3") (Some 10)) None None)) (FuncType 160 [] (Some [(Field 163 [] 164)]) 2139) (Some (Node 165 (KOther (str "*ast.BlockStmt")) [(Node 166 (KOther (str "*ast.IfStmt")) [(Node 167 (KIdent (str "false") None) []); (Node 168 (KOther (str "*ast.BlockStmt")) [(Node 169 KReturn [(Node 170 KCall [(Node 171 (KIdent (str "inner1") (Some 8)) [])])])])]); (Node 172 KReturn [(Node 173 (KUnary true) [(Node 174 KComposite [(Node 176 KBasicLit [])])])])])) 2145 2222.
Definition t_recursion_f11 : func := Func 177 (Some (DeclInfo (Ident 178 (str "AdvancedRecursionA") (Some 11)) None (Some (comment_text [(str "// Errors:"); (str "//"); (str "//    - advanced-a-error -- is always returned"); (str "//    - advanced-c-error --"); (str "//    - advanced-d-error --"); (str "//    - advanced-e-error --"); (str "//    - advanced-f-error --"); (str "//    - advanced-g-error --")])))) (FuncType 179 [] (Some [(Field 182 [] 183)]) 2451) (Some (Node 184 (KOther (str "*ast.BlockStmt")) [(Node 185 (KOther (str "*ast.IfStmt")) [(Node 186 (KIdent (str "false") None) []); (Node 187 (KOther (str "*ast.BlockStmt")) [(Node 188 KReturn [(Node 189 KCall [(Node 190 (KIdent (str "advancedRecursionC") (Some 12)) [])])])])]); (Node 191 KReturn [(Node 192 (KUnary true) [(Node 193 KComposite [(Node 195 KBasicLit [])])])])])) 2457 2683.
Definition t_recursion_f12 : func := Func 196 (Some (DeclInfo (Ident 197 (str "AdvancedRecursionB") (Some 13)) None (Some (comment_text [(str "// Errors:"); (str "//"); (str "//    - advanced-b-error -- is always returned"); (str "//    - advanced-c-error --"); (str "//    - advanced-d-error --"); (str "//    - advanced-e-error --"); (str "//    - advanced-f-error --"); (str "//    - advanced-g-error --")])))) (FuncType 198 [] (Some [(Field 201 [] 202)]) 2912) (Some (Node 203 (KOther (str "*ast.BlockStmt")) [(Node 204 (KOther (str "*ast.IfStmt")) [(Node 205 (KIdent (str "false") None) []); (Node 206 (KOther (str "*ast.BlockStmt")) [(Node 207 KReturn [(Node 208 KCall [(Node 209 (KIdent (str "advancedRecursionD") (Some 14)) [])])])])]); (Node 210 KReturn [(Node 211 (KUnary true) [(Node 212 KComposite [(Node 214 KBasicLit [])])])])])) 2918 3144.
Definition t_recursion_f13 : func := Func 215 (Some (DeclInfo (Ident 216 (str "advancedRecursionC") (Some 12)) None None)) (FuncType 217 [] (Some [(Field 220 [] 221)]) 3172) (Some (Node 222 (KOther (str "*ast.BlockStmt")) [(Node 223 (KOther (str "*ast.SwitchStmt")) [(Node 224 (KOther (str "*ast.BlockStmt")) [(Node 225 (KCaseClause 1%nat) [(Node 226 (KIdent (str "true") None) []); (Node 227 KReturn [(Node 228 KCall [(Node 229 (KIdent (str "advancedRecursionC") (Some 12)) [])])])]); (Node 230 (KCaseClause 1%nat) [(Node 231 (KIdent (str "true") None) []); (Node 232 KReturn [(Node 233 KCall [(Node 234 (KIdent (str "advancedRecursionD") (Some 14)) [])])])]); (Node 235 (KCaseClause 1%nat) [(Node 236 (KIdent (str "true") None) []); (Node 237 KReturn [(Node 238 KCall [(Node 239 (KIdent (str "advancedRecursionE") (Some 15)) [])])])])])]); (Node 240 KReturn [(Node 241 (KUnary true) [(Node 242 KComposite [(Node 244 KBasicLit [])])])])])) 3178 3355.
Definition t_recursion_f14 : func := Func 245 (Some (DeclInfo (Ident 246 (str "advancedRecursionD") (Some 14)) None None)) (FuncType 247 [] (Some [(Field 250 [] 251)]) 3383) (Some (Node 252 (KOther (str "*ast.BlockStmt")) [(Node 253 (KOther (str "*ast.IfStmt")) [(Node 254 (KIdent (str "false") None) []); (Node 255 (KOther (str "*ast.BlockStmt")) [(Node 256 KReturn [(Node 257 KCall [(Node 258 (KIdent (str "advancedRecursionC") (Some 12)) [])])])])]); (Node 259 KReturn [(Node 260 (KUnary true) [(Node 261 KComposite [(Node 263 KBasicLit [])])])])])) 3389 3472.
Definition t_recursion_f15 : func := Func 264 (Some (DeclInfo (Ident 265 (str "advancedRecursionE") (Some 15)) None None)) (FuncType 266 [] (Some [(Field 269 [] 270)]) 3500) (Some (Node 271 (KOther (str "*ast.BlockStmt")) [(Node 272 (KOther (str "*ast.IfStmt")) [(Node 273 (KIdent (str "false") None) []); (Node 274 (KOther (str "*ast.BlockStmt")) [(Node 275 KReturn [(Node 276 KCall [(Node 277 (KIdent (str "advancedRecursionF") (Some 16)) [])])])])]); (Node 278 KReturn [(Node 279 (KUnary true) [(Node 280 KComposite [(Node 282 KBasicLit [])])])])])) 3506 3589.
Definition t_recursion_f16 : func := Func 283 (Some (DeclInfo (Ident 284 (str "advancedRecursionF") (Some 16)) None None)) (FuncType 285 [] (Some [(Field 288 [] 289)]) 3617) (Some (Node 290 (KOther (str "*ast.BlockStmt")) [(Node 291 (KOther (str "*ast.IfStmt")) [(Node 292 (KIdent (str "false") None) []); (Node 293 (KOther (str "*ast.BlockStmt")) [(Node 294 KReturn [(Node 295 KCall [(Node 296 (KIdent (str "advancedRecursionG") (Some 17)) [])])])])]); (Node 297 KReturn [(Node 298 (KUnary true) [(Node 299 KComposite [(Node 301 KBasicLit [])])])])])) 3623 3706.
Definition t_recursion_f17 : func := Func 302 (Some (DeclInfo (Ident 303 (str "advancedRecursionG") (Some 17)) None None)) (FuncType 304 [] (Some [(Field 307 [] 308)]) 3734) (Some (Node 309 (KOther (str "*ast.BlockStmt")) [(Node 310 (KOther (str "*ast.IfStmt")) [(Node 311 (KIdent (str "false") None) []); (Node 312 (KOther (str "*ast.BlockStmt")) [(Node 313 KReturn [(Node 314 KCall [(Node 315 (KIdent (str "advancedRecursionE") (Some 15)) [])])])])]); (Node 316 KReturn [(Node 317 (KUnary true) [(Node 318 KComposite [(Node 320 KBasicLit [])])])])])) 3740 3823.
Definition t_recursion_f18 : func := Func 321 (Some (DeclInfo (Ident 322 (str "AdvancedRecursionH") (Some 18)) None (Some (comment_text [(str "// Errors:"); (str "//"); (str "//    - advanced-h-error -- is always returned"); (str "//    - advanced-e-error --"); (str "//    - advanced-f-error --"); (str "//    - advanced-g-error --")])))) (FuncType 323 [] (Some [(Field 326 [] 327)]) 3996) (Some (Node 328 (KOther (str "*ast.BlockStmt")) [(Node 329 (KOther (str "*ast.IfStmt")) [(Node 330 (KIdent (str "false") None) []); (Node 331 (KOther (str "*ast.BlockStmt")) [(Node 332 KReturn [(Node 333 KCall [(Node 334 (KIdent (str "advancedRecursionG") (Some 17)) [])])])])]); (Node 335 KReturn [(Node 336 (KUnary true) [(Node 337 KComposite [(Node 339 KBasicLit [])])])])])) 4002 4194.
Definition t_recursion_f19 : func := Func 340 (Some (DeclInfo (Ident 341 (str "SplitMergeA") (Some 19)) None (Some (comment_text [(str "// Errors:"); (str "//"); (str "//    - splitmerge-a-error --"); (str "//    - splitmerge-b-error --"); (str "//    - splitmerge-c-error --"); (str "//    - splitmerge-d-error --"); (str "//    - splitmerge-e-error --")])))) (FuncType 342 [] (Some [(Field 345 [] 346)]) 4379) (Some (Node 347 (KOther (str "*ast.BlockStmt")) [(Node 348 (KOther (str "*ast.SwitchStmt")) [(Node 349 (KOther (str "*ast.BlockStmt")) [(Node 350 (KCaseClause 1%nat) [(Node 351 (KIdent (str "true") None) []); (Node 352 KReturn [(Node 353 KCall [(Node 354 (KIdent (str "splitMergeB") (Some 20)) [])])])]); (Node 355 (KCaseClause 1%nat) [(Node 356 (KIdent (str "true") None) []); (Node 357 KReturn [(Node 358 KCall [(Node 359 (KIdent (str "splitMergeC") (Some 21)) [])])])])])]); (Node 360 KReturn [(Node 361 (KUnary true) [(Node 362 KComposite [(Node 364 KBasicLit [])])])])])) 4385 4637.
Definition t_recursion_f20 : func := Func 365 (Some (DeclInfo (Ident 366 (str "splitMergeB") (Some 20)) None None)) (FuncType 367 [] (Some [(Field 370 [] 371)]) 4658) (Some (Node 372 (KOther (str "*ast.BlockStmt")) [(Node 373 (KOther (str "*ast.IfStmt")) [(Node 374 (KIdent (str "false") None) []); (Node 375 (KOther (str "*ast.BlockStmt")) [(Node 376 KReturn [(Node 377 KCall [(Node 378 (KIdent (str "splitMergeD") (Some 22)) [])])])])]); (Node 379 KReturn [(Node 380 (KUnary true) [(Node 381 KComposite [(Node 383 KBasicLit [])])])])])) 4664 4742.
Definition t_recursion_f21 : func := Func 384 (Some (DeclInfo (Ident 385 (str "splitMergeC") (Some 21)) None None)) (FuncType 386 [] (Some [(Field 389 [] 390)]) 4763) (Some (Node 391 (KOther (str "*ast.BlockStmt")) [(Node 392 (KOther (str "*ast.IfStmt")) [(Node 393 (KIdent (str "false") None) []); (Node 394 (KOther (str "*ast.BlockStmt")) [(Node 395 KReturn [(Node 396 KCall [(Node 397 (KIdent (str "splitMergeD") (Some 22)) [])])])])]); (Node 398 KReturn [(Node 399 (KUnary true) [(Node 400 KComposite [(Node 402 KBasicLit [])])])])])) 4769 4847.
Definition t_recursion_f22 : func := Func 403 (Some (DeclInfo (Ident 404 (str "splitMergeD") (Some 22)) None None)) (FuncType 405 [] (Some [(Field 408 [] 409)]) 4868) (Some (Node 410 (KOther (str "*ast.BlockStmt")) [(Node 411 (KOther (str "*ast.IfStmt")) [(Node 412 (KIdent (str "false") None) []); (Node 413 (KOther (str "*ast.BlockStmt")) [(Node 414 KReturn [(Node 415 KCall [(Node 416 (KIdent (str "splitMergeE") (Some 23)) [])])])])]); (Node 417 KReturn [(Node 418 (KUnary true) [(Node 419 KComposite [(Node 421 KBasicLit [])])])])])) 4874 4952.
Definition t_recursion_f23 : func := Func 422 (Some (DeclInfo (Ident 423 (str "splitMergeE") (Some 23)) None None)) (FuncType 424 [] (Some [(Field 427 [] 428)]) 4973) (Some (Node 429 (KOther (str "*ast.BlockStmt")) [(Node 430 (KOther (str "*ast.IfStmt")) [(Node 431 (KIdent (str "false") None) []); (Node 432 (KOther (str "*ast.BlockStmt")) [(Node 433 KReturn [(Node 434 KCall [(Node 435 (KIdent (str "splitMergeD") (Some 22)) [])])])])]); (Node 436 KReturn [(Node 437 (KUnary true) [(Node 438 KComposite [(Node 440 KBasicLit [])])])])])) 4979 5057.
Definition t_recursion_f24 : func := Func 449 (Some (DeclInfo (Ident 455 (str "Code") None) (Some [(Field 451 [(Ident 452 (str "e") (Some 24))] 453)]) None)) (FuncType 456 [] (Some [(Field 459 [] 460)]) 5191) (Some (Node 461 (KOther (str "*ast.BlockStmt")) [(Node 462 KReturn [(Node 463 KSelector [(Node 464 (KIdent (str "e") (Some 24)) []); (Node 465 (KIdent (str "TheCode") None) [])])])])) 5212 5232.
Definition t_recursion_f25 : func := Func 466 (Some (DeclInfo (Ident 472 (str "Message") None) (Some [(Field 468 [(Ident 469 (str "e") (Some 25))] 470)]) None)) (FuncType 473 [] (Some [(Field 476 [] 477)]) 5259) (Some (Node 478 (KOther (str "*ast.BlockStmt")) [(Node 479 KReturn [(Node 480 KSelector [(Node 481 (KIdent (str "e") (Some 25)) []); (Node 482 (KIdent (str "TheCode") None) [])])])])) 5277 5297.
Definition t_recursion_f26 : func := Func 483 (Some (DeclInfo (Ident 489 (str "Details") None) (Some [(Field 485 [(Ident 486 (str "e") (Some 26))] 487)]) None)) (FuncType 490 [] (Some [(Field 493 [] 494)]) 5324) (Some (Node 497 (KOther (str "*ast.BlockStmt")) [(Node 498 KReturn [(Node 499 (KIdent (str "nil") None) [])])])) 5342 5356.
Definition t_recursion_f27 : func := Func 500 (Some (DeclInfo (Ident 506 (str "Cause") None) (Some [(Field 502 [(Ident 503 (str "e") (Some 27))] 504)]) None)) (FuncType 507 [] (Some [(Field 510 [] 511)]) 5381) (Some (Node 512 (KOther (str "*ast.BlockStmt")) [(Node 513 KReturn [(Node 514 (KIdent (str "nil") None) [])])])) 5401 5415.
Definition t_recursion_f28 : func := Func 515 (Some (DeclInfo (Ident 521 (str "Error") None) (Some [(Field 517 [(Ident 518 (str "e") (Some 28))] 519)]) None)) (FuncType 522 [] (Some [(Field 525 [] 526)]) 5440) (Some (Node 527 (KOther (str "*ast.BlockStmt")) [(Node 528 KReturn [(Node 529 KCall [(Node 530 KSelector [(Node 531 (KIdent (str "e") (Some 28)) []); (Node 532 (KIdent (str "Message") None) [])])])])])) 5460 5482.
Definition t_recursion_gendecls : list gendecl := [GenDecl 441 [(Some (TypeSpec (Ident 443 (str "Error") (Some 29)) (XStruct [[(Ident 447 (str "TheCode") None)]])))]].
Definition t_recursion_top : list topdecl := [TopFunc 1; TopFunc 2; TopFunc 3; TopFunc 4; TopFunc 5; TopFunc 6; TopFunc 7; TopFunc 8; TopFunc 9; TopFunc 10; TopFunc 11; TopFunc 12; TopFunc 13; TopFunc 14; TopFunc 15; TopFunc 16; TopFunc 17; TopFunc 18; TopFunc 19; TopFunc 20; TopFunc 21; TopFunc 22; TopFunc 23; TopNode (Node 441 (KOther (str "*ast.GenDecl")) [(Node 442 (KOther (str "*ast.TypeSpec")) [])]); TopFunc 24; TopFunc 25; TopFunc 26; TopFunc 27; TopFunc 28].
Definition t_recursion_objs : list (N * object) := [(1, Object false 205 (DFunc 1)); (2, Object false 544 (DFunc 2)); (3, Object false 655 (DFunc 3)); (4, Object false 1039 (DFunc 4)); (5, Object false 1241 (DFunc 5)); (6, Object false 1337 (DFunc 6)); (7, Object false 1760 (DFunc 7)); (8, Object false 1932 (DFunc 8)); (9, Object false 2031 (DFunc 9)); (10, Object false 2130 (DFunc 10)); (11, Object false 2430 (DFunc 11)); (12, Object false 3151 (DFunc 13)); (13, Object false 2891 (DFunc 12)); (14, Object false 3362 (DFunc 14)); (15, Object false 3479 (DFunc 15)); (16, Object false 3596 (DFunc 16)); (17, Object false 3713 (DFunc 17)); (18, Object false 3975 (DFunc 18)); (19, Object false 4365 (DFunc 19)); (20, Object false 4644 (DFunc 20)); (21, Object false 4749 (DFunc 21)); (22, Object false 4854 (DFunc 22)); (23, Object false 4959 (DFunc 23)); (24, Object true 5174 DOther); (25, Object true 5239 DOther); (26, Object true 5304 DOther); (27, Object true 5363 DOther); (28, Object true 5422 DOther); (29, Object false 5064 DType)].
Definition t_recursion_types : list (N * gotype) := [(5, (TSignature [] [(TNamed 1)] false)); (9, (TNamed 1)); (12, (TBasic (str "bool"))); (15, (TNamed 1)); (16, (TSignature [] [(TNamed 1)] false)); (18, (TPointer (TNamed 70))); (19, (TNamed 70)); (20, (TNamed 70)); (21, (TBasic (str "string"))); (24, (TSignature [] [(TNamed 1)] false)); (28, (TNamed 1)); (31, (TNamed 1)); (32, (TSignature [] [(TNamed 1)] false)); (35, (TSignature [] [(TNamed 1)] false)); (39, (TNamed 1)); (42, (TBasic (str "bool"))); (45, (TNamed 1)); (46, (TSignature [] [(TNamed 1)] false)); (48, (TPointer (TNamed 70))); (49, (TNamed 70)); (50, (TNamed 70)); (51, (TBasic (str "string"))); (54, (TSignature [] [(TNamed 1)] false)); (58, (TNamed 1)); (61, (TBasic (str "bool"))); (64, (TNamed 1)); (65, (TSignature [] [(TNamed 1)] false)); (67, (TPointer (TNamed 70))); (68, (TNamed 70)); (69, (TNamed 70)); (70, (TBasic (str "string"))); (73, (TSignature [] [(TNamed 1)] false)); (77, (TNamed 1)); (80, (TBasic (str "bool"))); (83, (TNamed 1)); (84, (TSignature [] [(TNamed 1)] false)); (86, (TPointer (TNamed 70))); (87, (TNamed 70)); (88, (TNamed 70)); (89, (TBasic (str "string"))); (92, (TSignature [] [(TNamed 1)] false)); (96, (TNamed 1)); (99, (TBasic (str "bool"))); (102, (TNamed 1)); (103, (TSignature [] [(TNamed 1)] false)); (105, (TPointer (TNamed 70))); (106, (TNamed 70)); (107, (TNamed 70)); (108, (TBasic (str "string"))); (111, (TSignature [] [(TNamed 1)] false)); (115, (TNamed 1)); (118, (TNamed 1)); (119, (TSignature [] [(TNamed 1)] false)); (122, (TSignature [] [(TNamed 1)] false)); (126, (TNamed 1)); (129, (TBasic (str "bool"))); (132, (TNamed 1)); (133, (TSignature [] [(TNamed 1)] false)); (135, (TPointer (TNamed 70))); (136, (TNamed 70)); (137, (TNamed 70)); (138, (TBasic (str "string"))); (141, (TSignature [] [(TNamed 1)] false)); (145, (TNamed 1)); (148, (TBasic (str "bool"))); (151, (TNamed 1)); (152, (TSignature [] [(TNamed 1)] false)); (154, (TPointer (TNamed 70))); (155, (TNamed 70)); (156, (TNamed 70)); (157, (TBasic (str "string"))); (160, (TSignature [] [(TNamed 1)] false)); (164, (TNamed 1)); (167, (TBasic (str "bool"))); (170, (TNamed 1)); (171, (TSignature [] [(TNamed 1)] false)); (173, (TPointer (TNamed 70))); (174, (TNamed 70)); (175, (TNamed 70)); (176, (TBasic (str "string"))); (179, (TSignature [] [(TNamed 1)] false)); (183, (TNamed 1)); (186, (TBasic (str "bool"))); (189, (TNamed 1)); (190, (TSignature [] [(TNamed 1)] false)); (192, (TPointer (TNamed 70))); (193, (TNamed 70)); (194, (TNamed 70)); (195, (TBasic (str "string"))); (198, (TSignature [] [(TNamed 1)] false)); (202, (TNamed 1)); (205, (TBasic (str "bool"))); (208, (TNamed 1)); (209, (TSignature [] [(TNamed 1)] false)); (211, (TPointer (TNamed 70))); (212, (TNamed 70)); (213, (TNamed 70)); (214, (TBasic (str "string"))); (217, (TSignature [] [(TNamed 1)] false)); (221, (TNamed 1)); (226, (TBasic (str "bool"))); (228, (TNamed 1)); (229, (TSignature [] [(TNamed 1)] false)); (231, (TBasic (str "bool"))); (233, (TNamed 1)); (234, (TSignature [] [(TNamed 1)] false)); (236, (TBasic (str "bool"))); (238, (TNamed 1)); (239, (TSignature [] [(TNamed 1)] false)); (241, (TPointer (TNamed 70))); (242, (TNamed 70)); (243, (TNamed 70)); (244, (TBasic (str "string"))); (247, (TSignature [] [(TNamed 1)] false)); (251, (TNamed 1)); (254, (TBasic (str "bool"))); (257, (TNamed 1)); (258, (TSignature [] [(TNamed 1)] false)); (260, (TPointer (TNamed 70))); (261, (TNamed 70)); (262, (TNamed 70)); (263, (TBasic (str "string"))); (266, (TSignature [] [(TNamed 1)] false)); (270, (TNamed 1)); (273, (TBasic (str "bool"))); (276, (TNamed 1)); (277, (TSignature [] [(TNamed 1)] false)); (279, (TPointer (TNamed 70))); (280, (TNamed 70)); (281, (TNamed 70)); (282, (TBasic (str "string"))); (285, (TSignature [] [(TNamed 1)] false)); (289, (TNamed 1)); (292, (TBasic (str "bool"))); (295, (TNamed 1)); (296, (TSignature [] [(TNamed 1)] false)); (298, (TPointer (TNamed 70))); (299, (TNamed 70)); (300, (TNamed 70)); (301, (TBasic (str "string"))); (304, (TSignature [] [(TNamed 1)] false)); (308, (TNamed 1)); (311, (TBasic (str "bool"))); (314, (TNamed 1)); (315, (TSignature [] [(TNamed 1)] false)); (317, (TPointer (TNamed 70))); (318, (TNamed 70)); (319, (TNamed 70)); (320, (TBasic (str "string"))); (323, (TSignature [] [(TNamed 1)] false)); (327, (TNamed 1)); (330, (TBasic (str "bool"))); (333, (TNamed 1)); (334, (TSignature [] [(TNamed 1)] false)); (336, (TPointer (TNamed 70))); (337, (TNamed 70)); (338, (TNamed 70)); (339, (TBasic (str "string"))); (342, (TSignature [] [(TNamed 1)] false)); (346, (TNamed 1)); (351, (TBasic (str "bool"))); (353, (TNamed 1)); (354, (TSignature [] [(TNamed 1)] false)); (356, (TBasic (str "bool"))); (358, (TNamed 1)); (359, (TSignature [] [(TNamed 1)] false)); (361, (TPointer (TNamed 70))); (362, (TNamed 70)); (363, (TNamed 70)); (364, (TBasic (str "string"))); (367, (TSignature [] [(TNamed 1)] false)); (371, (TNamed 1)); (374, (TBasic (str "bool"))); (377, (TNamed 1)); (378, (TSignature [] [(TNamed 1)] false)); (380, (TPointer (TNamed 70))); (381, (TNamed 70)); (382, (TNamed 70)); (383, (TBasic (str "string"))); (386, (TSignature [] [(TNamed 1)] false)); (390, (TNamed 1)); (393, (TBasic (str "bool"))); (396, (TNamed 1)); (397, (TSignature [] [(TNamed 1)] false)); (399, (TPointer (TNamed 70))); (400, (TNamed 70)); (401, (TNamed 70)); (402, (TBasic (str "string"))); (405, (TSignature [] [(TNamed 1)] false)); (409, (TNamed 1)); (412, (TBasic (str "bool"))); (415, (TNamed 1)); (416, (TSignature [] [(TNamed 1)] false)); (418, (TPointer (TNamed 70))); (419, (TNamed 70)); (420, (TNamed 70)); (421, (TBasic (str "string"))); (424, (TSignature [] [(TNamed 1)] false)); (428, (TNamed 1)); (431, (TBasic (str "bool"))); (434, (TNamed 1)); (435, (TSignature [] [(TNamed 1)] false)); (437, (TPointer (TNamed 70))); (438, (TNamed 70)); (439, (TNamed 70)); (440, (TBasic (str "string"))); (443, (TNamed 70)); (444, (TStruct [((str "TheCode"), (TBasic (str "string")))])); (447, (TBasic (str "string"))); (448, (TBasic (str "string"))); (452, (TPointer (TNamed 70))); (453, (TPointer (TNamed 70))); (454, (TNamed 70)); (456, (TSignature [] [(TBasic (str "string"))] false)); (460, (TBasic (str "string"))); (463, (TBasic (str "string"))); (464, (TPointer (TNamed 70))); (465, (TBasic (str "string"))); (469, (TPointer (TNamed 70))); (470, (TPointer (TNamed 70))); (471, (TNamed 70)); (473, (TSignature [] [(TBasic (str "string"))] false)); (477, (TBasic (str "string"))); (480, (TBasic (str "string"))); (481, (TPointer (TNamed 70))); (482, (TBasic (str "string"))); (486, (TPointer (TNamed 70))); (487, (TPointer (TNamed 70))); (488, (TNamed 70)); (490, (TSignature [] [(TMap (TBasic (str "string")) (TBasic (str "string")))] false)); (494, (TMap (TBasic (str "string")) (TBasic (str "string")))); (495, (TBasic (str "string"))); (496, (TBasic (str "string"))); (499, TUntypedNil); (503, (TPointer (TNamed 70))); (504, (TPointer (TNamed 70))); (505, (TNamed 70)); (507, (TSignature [] [(TNamed 1)] false)); (511, (TNamed 1)); (514, TUntypedNil); (518, (TPointer (TNamed 70))); (519, (TPointer (TNamed 70))); (520, (TNamed 70)); (522, (TSignature [] [(TBasic (str "string"))] false)); (526, (TBasic (str "string"))); (529, (TBasic (str "string"))); (530, (TSignature [] [(TBasic (str "string"))] false)); (531, (TPointer (TNamed 70))); (532, (TSignature [] [(TBasic (str "string"))] false))].
Definition t_recursion_values : list (N * constval) := [(12, COther); (21, CString (str "recursion-error")); (42, COther); (51, CString (str "recursion-error")); (61, COther); (70, CString (str "recursion-error")); (80, COther); (89, CString (str "recursion-part1-error")); (99, COther); (108, CString (str "recursion-part2-error")); (129, COther); (138, CString (str "recursion-inner1-error")); (148, COther); (157, CString (str "recursion-inner2-error")); (167, COther); (176, CString (str "recursion-inner3-error")); (186, COther); (195, CString (str "advanced-a-error")); (205, COther); (214, CString (str "advanced-b-error")); (226, COther); (231, COther); (236, COther); (244, CString (str "advanced-c-error")); (254, COther); (263, CString (str "advanced-d-error")); (273, COther); (282, CString (str "advanced-e-error")); (292, COther); (301, CString (str "advanced-f-error")); (311, COther); (320, CString (str "advanced-g-error")); (330, COther); (339, CString (str "advanced-h-error")); (351, COther); (356, COther); (364, CString (str "splitmerge-a-error")); (374, COther); (383, CString (str "splitmerge-b-error")); (393, COther); (402, CString (str "splitmerge-c-error")); (412, COther); (421, CString (str "splitmerge-d-error")); (431, COther); (440, CString (str "splitmerge-e-error"))].
Definition t_recursion_uses : list (N * tobj) := [(9, 1); (12, 22); (16, 47); (20, 70); (28, 1); (32, 49); (39, 1); (42, 22); (46, 49); (50, 70); (58, 1); (61, 22); (65, 51); (69, 70); (77, 1); (80, 22); (84, 52); (88, 70); (96, 1); (99, 22); (103, 50); (107, 70); (115, 1); (119, 54); (126, 1); (129, 22); (133, 55); (137, 70); (145, 1); (148, 22); (152, 56); (156, 70); (164, 1); (167, 22); (171, 54); (175, 70); (183, 1); (186, 22); (190, 59); (194, 70); (202, 1); (205, 22); (209, 60); (213, 70); (221, 1); (226, 21); (229, 59); (231, 21); (234, 60); (236, 21); (239, 61); (243, 70); (251, 1); (254, 22); (258, 59); (262, 70); (270, 1); (273, 22); (277, 62); (281, 70); (289, 1); (292, 22); (296, 63); (300, 70); (308, 1); (311, 22); (315, 61); (319, 70); (327, 1); (330, 22); (334, 63); (338, 70); (346, 1); (351, 21); (354, 66); (356, 21); (359, 67); (363, 70); (371, 1); (374, 22); (378, 68); (382, 70); (390, 1); (393, 22); (397, 68); (401, 70); (409, 1); (412, 22); (416, 69); (420, 70); (428, 1); (431, 22); (435, 68); (439, 70); (448, 5); (454, 70); (460, 5); (464, 76); (465, 81); (471, 70); (477, 5); (481, 77); (482, 81); (488, 70); (495, 5); (496, 5); (499, 24); (505, 70); (511, 1); (514, 24); (520, 70); (526, 5); (531, 80); (532, 72)].
Definition t_recursion_defs : list (N * tobj) := [(4, 47); (23, 48); (34, 49); (53, 50); (72, 51); (91, 52); (110, 53); (121, 54); (140, 55); (159, 56); (178, 57); (197, 58); (216, 59); (246, 60); (265, 61); (284, 62); (303, 63); (322, 64); (341, 65); (366, 66); (385, 67); (404, 68); (423, 69); (443, 70); (452, 76); (455, 71); (469, 77); (472, 72); (486, 78); (489, 73); (503, 79); (506, 74); (518, 80); (521, 75)].
Definition t_recursion_sels : list (N * (tobj * gotype)) := [(463, (81, (TPointer (TNamed 70)))); (480, (81, (TPointer (TNamed 70)))); (530, (72, (TPointer (TNamed 70))))].
Definition t_recursion_pkgnames : list (N * gostring) := [].
Definition t_recursion_objnames : list (N * gostring) := [(1, (str "error")); (2, (str "Error")); (3, (str "?")); (4, (str "bool")); (5, (str "string")); (6, (str "int")); (7, (str "int8")); (8, (str "int16")); (9, (str "int32")); (10, (str "int64")); (11, (str "uint")); (12, (str "uint8")); (13, (str "uint16")); (14, (str "uint32")); (15, (str "uint64")); (16, (str "uintptr")); (17, (str "float32")); (18, (str "float64")); (19, (str "complex64")); (20, (str "complex128")); (21, (str "true")); (22, (str "false")); (23, (str "iota")); (24, (str "nil")); (25, (str "append")); (26, (str "cap")); (27, (str "close")); (28, (str "complex")); (29, (str "copy")); (30, (str "delete")); (31, (str "imag")); (32, (str "len")); (33, (str "make")); (34, (str "new")); (35, (str "panic")); (36, (str "print")); (37, (str "println")); (38, (str "real")); (39, (str "recover")); (40, (str "Errorf")); (41, (str "Sprintf")); (42, (str "Println")); (43, (str "New")); (44, (str "HasPrefix")); (45, (str "Float32")); (46, (str "Float64")); (47, (str "SimpleRecursion")); (48, (str "InnerRecursion")); (49, (str "innerRecursion")); (50, (str "IndirectRecursion")); (51, (str "part1")); (52, (str "part2")); (53, (str "IndirectInnerRecursion")); (54, (str "inner1")); (55, (str "inner2")); (56, (str "inner3")); (57, (str "AdvancedRecursionA")); (58, (str "AdvancedRecursionB")); (59, (str "advancedRecursionC")); (60, (str "advancedRecursionD")); (61, (str "advancedRecursionE")); (62, (str "advancedRecursionF")); (63, (str "advancedRecursionG")); (64, (str "AdvancedRecursionH")); (65, (str "SplitMergeA")); (66, (str "splitMergeB")); (67, (str "splitMergeC")); (68, (str "splitMergeD")); (69, (str "splitMergeE")); (70, (str "Error")); (71, (str "Code")); (72, (str "Message")); (73, (str "Details")); (74, (str "Cause")); (75, (str "Error")); (76, (str "e")); (77, (str "e")); (78, (str "e")); (79, (str "e")); (80, (str "e")); (81, (str "TheCode"))].
Definition t_recursion_objtypes : list (N * gotype) := [(1, (TNamed 1)); (2, (TSignature [] [(TBasic (str "string"))] false)); (4, (TBasic (str "bool"))); (5, (TBasic (str "string"))); (6, (TBasic (str "int"))); (7, (TBasic (str "int8"))); (8, (TBasic (str "int16"))); (9, (TBasic (str "int32"))); (10, (TBasic (str "int64"))); (11, (TBasic (str "uint"))); (12, (TBasic (str "uint8"))); (13, (TBasic (str "uint16"))); (14, (TBasic (str "uint32"))); (15, (TBasic (str "uint64"))); (16, (TBasic (str "uintptr"))); (17, (TBasic (str "float32"))); (18, (TBasic (str "float64"))); (19, (TBasic (str "complex64"))); (20, (TBasic (str "complex128"))); (40, (TSignature [(TBasic (str "string")); (TSlice (TInterface 4))] [(TNamed 1)] true)); (41, (TSignature [(TBasic (str "string")); (TSlice (TInterface 4))] [(TBasic (str "string"))] true)); (42, (TSignature [(TSlice (TInterface 4))] [(TBasic (str "int")); (TNamed 1)] true)); (43, (TSignature [(TBasic (str "string"))] [(TNamed 1)] false)); (44, (TSignature [(TBasic (str "string")); (TBasic (str "string"))] [(TBasic (str "bool"))] false)); (45, (TSignature [] [(TBasic (str "float32"))] false)); (46, (TSignature [] [(TBasic (str "float64"))] false)); (47, (TSignature [] [(TNamed 1)] false)); (48, (TSignature [] [(TNamed 1)] false)); (49, (TSignature [] [(TNamed 1)] false)); (50, (TSignature [] [(TNamed 1)] false)); (51, (TSignature [] [(TNamed 1)] false)); (52, (TSignature [] [(TNamed 1)] false)); (53, (TSignature [] [(TNamed 1)] false)); (54, (TSignature [] [(TNamed 1)] false)); (55, (TSignature [] [(TNamed 1)] false)); (56, (TSignature [] [(TNamed 1)] false)); (57, (TSignature [] [(TNamed 1)] false)); (58, (TSignature [] [(TNamed 1)] false)); (59, (TSignature [] [(TNamed 1)] false)); (60, (TSignature [] [(TNamed 1)] false)); (61, (TSignature [] [(TNamed 1)] false)); (62, (TSignature [] [(TNamed 1)] false)); (63, (TSignature [] [(TNamed 1)] false)); (64, (TSignature [] [(TNamed 1)] false)); (65, (TSignature [] [(TNamed 1)] false)); (66, (TSignature [] [(TNamed 1)] false)); (67, (TSignature [] [(TNamed 1)] false)); (68, (TSignature [] [(TNamed 1)] false)); (69, (TSignature [] [(TNamed 1)] false)); (70, (TNamed 70)); (71, (TSignature [] [(TBasic (str "string"))] false)); (72, (TSignature [] [(TBasic (str "string"))] false)); (73, (TSignature [] [(TMap (TBasic (str "string")) (TBasic (str "string")))] false)); (74, (TSignature [] [(TNamed 1)] false)); (75, (TSignature [] [(TBasic (str "string"))] false)); (76, (TPointer (TNamed 70))); (77, (TPointer (TNamed 70))); (78, (TPointer (TNamed 70))); (79, (TPointer (TNamed 70))); (80, (TPointer (TNamed 70))); (81, (TBasic (str "string")))].
Definition t_recursion_under : list (N * gotype) := [(1, (TInterface 1)); (70, (TStruct [((str "TheCode"), (TBasic (str "string")))]))].
Definition t_recursion_named_methods : list (N * (list gostring)) := [(70, [(str "Code"); (str "Message"); (str "Details"); (str "Cause"); (str "Error")])].
Definition t_recursion_methods : list (gotype * gostring * tobj) := [((TInterface 1), (str "Error"), 2); ((TNamed 1), (str "Error"), 2); ((TPointer (TNamed 70)), (str "Cause"), 74); ((TPointer (TNamed 70)), (str "Code"), 71); ((TPointer (TNamed 70)), (str "Details"), 73); ((TPointer (TNamed 70)), (str "Error"), 75); ((TPointer (TNamed 70)), (str "Message"), 72)].
Definition t_recursion_ierr : list gotype := [(TInterface 1); (TNamed 1); (TPointer (TNamed 70))].
Definition t_recursion_iree : list gotype := [(TPointer (TNamed 70))].
Definition t_recursion_icause : list gotype := [(TPointer (TNamed 70))].
Definition t_recursion_impl : list (gotype * gotype) := [((TInterface 1), (TInterface 1)); ((TNamed 1), (TInterface 1)); ((TPointer (TNamed 70)), (TInterface 1))].
Definition t_recursion_nodes0 : list snode := [SNode 1 (Place 0 1) (Place 5481 232) true; SNode 2 (Place 8 1) (Place 17 1) false; SNode 3 (Place 199 9) (Place 361 14) true; SNode 4 (Place 204 9) (Place 219 9) false; SNode 5 (Place 199 9) (Place 227 9) false; SNode 6 (Place 219 9) (Place 221 9) false; SNode 7 (Place 222 9) (Place 227 9) false; SNode 8 (Place 222 9) (Place 227 9) true; SNode 9 (Place 222 9) (Place 227 9) false; SNode 10 (Place 228 9) (Place 361 14) true; SNode 11 (Place 285 10) (Place 325 12) true; SNode 12 (Place 288 10) (Place 293 10) false; SNode 13 (Place 294 10) (Place 325 12) true; SNode 14 (Place 298 11) (Place 322 11) true; SNode 15 (Place 305 11) (Place 322 11) false; SNode 16 (Place 305 11) (Place 320 11) false; SNode 17 (Place 327 13) (Place 359 13) true; SNode 18 (Place 334 13) (Place 359 13) false; SNode 19 (Place 335 13) (Place 359 13) false; SNode 20 (Place 335 13) (Place 340 13) false; SNode 21 (Place 341 13) (Place 358 13) false; SNode 22 (Place 538 22) (Place 647 24) true; SNode 23 (Place 543 22) (Place 557 22) false; SNode 24 (Place 538 22) (Place 565 22) false; SNode 25 (Place 557 22) (Place 559 22) false; SNode 26 (Place 560 22) (Place 565 22) false; SNode 27 (Place 560 22) (Place 565 22) true; SNode 28 (Place 560 22) (Place 565 22) false; SNode 29 (Place 566 22) (Place 647 24) true; SNode 30 (Place 622 23) (Place 645 23) true; SNode 31 (Place 629 23) (Place 645 23) false; SNode 32 (Place 629 23) (Place 643 23) false; SNode 33 (Place 649 26) (Place 755 31) true; SNode 34 (Place 654 26) (Place 668 26) false; SNode 35 (Place 649 26) (Place 676 26) false; SNode 36 (Place 668 26) (Place 670 26) false; SNode 37 (Place 671 26) (Place 676 26) false; SNode 38 (Place 671 26) (Place 676 26) true; SNode 39 (Place 671 26) (Place 676 26) false; SNode 40 (Place 677 26) (Place 755 31) true; SNode 41 (Place 680 27) (Place 719 29) true; SNode 42 (Place 683 27) (Place 688 27) false; SNode 43 (Place 689 27) (Place 719 29) true; SNode 44 (Place 693 28) (Place 716 28) true; SNode 45 (Place 700 28) (Place 716 28) false; SNode 46 (Place 700 28) (Place 714 28) false; SNode 47 (Place 721 30) (Place 753 30) true; SNode 48 (Place 728 30) (Place 753 30) false; SNode 49 (Place 729 30) (Place 753 30) false; SNode 50 (Place 729 30) (Place 734 30) false; SNode 51 (Place 735 30) (Place 752 30) false; SNode 52 (Place 1033 41) (Place 1233 46) true; SNode 53 (Place 1038 41) (Place 1055 41) false; SNode 54 (Place 1033 41) (Place 1063 41) false; SNode 55 (Place 1055 41) (Place 1057 41) false; SNode 56 (Place 1058 41) (Place 1063 41) false; SNode 57 (Place 1058 41) (Place 1063 41) true; SNode 58 (Place 1058 41) (Place 1063 41) false; SNode 59 (Place 1064 41) (Place 1233 46) true; SNode 60 (Place 1167 42) (Place 1197 44) true; SNode 61 (Place 1170 42) (Place 1175 42) false; SNode 62 (Place 1176 42) (Place 1197 44) true; SNode 63 (Place 1180 43) (Place 1194 43) true; SNode 64 (Place 1187 43) (Place 1194 43) false; SNode 65 (Place 1187 43) (Place 1192 43) false; SNode 66 (Place 1199 45) (Place 1231 45) true; SNode 67 (Place 1206 45) (Place 1231 45) false; SNode 68 (Place 1207 45) (Place 1231 45) false; SNode 69 (Place 1207 45) (Place 1212 45) false; SNode 70 (Place 1213 45) (Place 1230 45) false; SNode 71 (Place 1235 48) (Place 1329 53) true; SNode 72 (Place 1240 48) (Place 1245 48) false; SNode 73 (Place 1235 48) (Place 1253 48) false; SNode 74 (Place 1245 48) (Place 1247 48) false; SNode 75 (Place 1248 48) (Place 1253 48) false; SNode 76 (Place 1248 48) (Place 1253 48) true; SNode 77 (Place 1248 48) (Place 1253 48) false; SNode 78 (Place 1254 48) (Place 1329 53) true; SNode 79 (Place 1257 49) (Place 1287 51) true; SNode 80 (Place 1260 49) (Place 1265 49) false; SNode 81 (Place 1266 49) (Place 1287 51) true; SNode 82 (Place 1270 50) (Place 1284 50) true; SNode 83 (Place 1277 50) (Place 1284 50) false; SNode 84 (Place 1277 50) (Place 1282 50) false; SNode 85 (Place 1289 52) (Place 1327 52) true; SNode 86 (Place 1296 52) (Place 1327 52) false; SNode 87 (Place 1297 52) (Place 1327 52) false; SNode 88 (Place 1297 52) (Place 1302 52) false; SNode 89 (Place 1303 52) (Place 1326 52) false; SNode 90 (Place 1331 55) (Place 1437 60) true; SNode 91 (Place 1336 55) (Place 1341 55) false; SNode 92 (Place 1331 55) (Place 1349 55) false; SNode 93 (Place 1341 55) (Place 1343 55) false; SNode 94 (Place 1344 55) (Place 1349 55) false; SNode 95 (Place 1344 55) (Place 1349 55) true; SNode 96 (Place 1344 55) (Place 1349 55) false; SNode 97 (Place 1350 55) (Place 1437 60) true; SNode 98 (Place 1353 56) (Place 1395 58) true; SNode 99 (Place 1356 56) (Place 1361 56) false; SNode 100 (Place 1362 56) (Place 1395 58) true; SNode 101 (Place 1366 57) (Place 1392 57) true; SNode 102 (Place 1373 57) (Place 1392 57) false; SNode 103 (Place 1373 57) (Place 1390 57) false; SNode 104 (Place 1397 59) (Place 1435 59) true; SNode 105 (Place 1404 59) (Place 1435 59) false; SNode 106 (Place 1405 59) (Place 1435 59) false; SNode 107 (Place 1405 59) (Place 1410 59) false; SNode 108 (Place 1411 59) (Place 1434 59) false; SNode 109 (Place 1754 71) (Place 1924 73) true; SNode 110 (Place 1759 71) (Place 1781 71) false; SNode 111 (Place 1754 71) (Place 1789 71) false; SNode 112 (Place 1781 71) (Place 1783 71) false; SNode 113 (Place 1784 71) (Place 1789 71) false; SNode 114 (Place 1784 71) (Place 1789 71) true; SNode 115 (Place 1784 71) (Place 1789 71) false; SNode 116 (Place 1790 71) (Place 1924 73) true; SNode 117 (Place 1907 72) (Place 1922 72) true; SNode 118 (Place 1914 72) (Place 1922 72) false; SNode 119 (Place 1914 72) (Place 1920 72) false; SNode 120 (Place 1926 75) (Place 2023 80) true; SNode 121 (Place 1931 75) (Place 1937 75) false; SNode 122 (Place 1926 75) (Place 1945 75) false; SNode 123 (Place 1937 75) (Place 1939 75) false; SNode 124 (Place 1940 75) (Place 1945 75) false; SNode 125 (Place 1940 75) (Place 1945 75) true; SNode 126 (Place 1940 75) (Place 1945 75) false; SNode 127 (Place 1946 75) (Place 2023 80) true; SNode 128 (Place 1949 76) (Place 1980 78) true; SNode 129 (Place 1952 76) (Place 1957 76) false; SNode 130 (Place 1958 76) (Place 1980 78) true; SNode 131 (Place 1962 77) (Place 1977 77) true; SNode 132 (Place 1969 77) (Place 1977 77) false; SNode 133 (Place 1969 77) (Place 1975 77) false; SNode 134 (Place 1982 79) (Place 2021 79) true; SNode 135 (Place 1989 79) (Place 2021 79) false; SNode 136 (Place 1990 79) (Place 2021 79) false; SNode 137 (Place 1990 79) (Place 1995 79) false; SNode 138 (Place 1996 79) (Place 2020 79) false; SNode 139 (Place 2025 82) (Place 2122 87) true; SNode 140 (Place 2030 82) (Place 2036 82) false; SNode 141 (Place 2025 82) (Place 2044 82) false; SNode 142 (Place 2036 82) (Place 2038 82) false; SNode 143 (Place 2039 82) (Place 2044 82) false; SNode 144 (Place 2039 82) (Place 2044 82) true; SNode 145 (Place 2039 82) (Place 2044 82) false; SNode 146 (Place 2045 82) (Place 2122 87) true; SNode 147 (Place 2048 83) (Place 2079 85) true; SNode 148 (Place 2051 83) (Place 2056 83) false; SNode 149 (Place 2057 83) (Place 2079 85) true; SNode 150 (Place 2061 84) (Place 2076 84) true; SNode 151 (Place 2068 84) (Place 2076 84) false; SNode 152 (Place 2068 84) (Place 2074 84) false; SNode 153 (Place 2081 86) (Place 2120 86) true; SNode 154 (Place 2088 86) (Place 2120 86) false; SNode 155 (Place 2089 86) (Place 2120 86) false; SNode 156 (Place 2089 86) (Place 2094 86) false; SNode 157 (Place 2095 86) (Place 2119 86) false; SNode 158 (Place 2124 89) (Place 2221 94) true; SNode 159 (Place 2129 89) (Place 2135 89) false; SNode 160 (Place 2124 89) (Place 2143 89) false; SNode 161 (Place 2135 89) (Place 2137 89) false; SNode 162 (Place 2138 89) (Place 2143 89) false; SNode 163 (Place 2138 89) (Place 2143 89) true; SNode 164 (Place 2138 89) (Place 2143 89) false; SNode 165 (Place 2144 89) (Place 2221 94) true; SNode 166 (Place 2147 90) (Place 2178 92) true; SNode 167 (Place 2150 90) (Place 2155 90) false; SNode 168 (Place 2156 90) (Place 2178 92) true; SNode 169 (Place 2160 91) (Place 2175 91) true; SNode 170 (Place 2167 91) (Place 2175 91) false; SNode 171 (Place 2167 91) (Place 2173 91) false; SNode 172 (Place 2180 93) (Place 2219 93) true; SNode 173 (Place 2187 93) (Place 2219 93) false; SNode 174 (Place 2188 93) (Place 2219 93) false; SNode 175 (Place 2188 93) (Place 2193 93) false; SNode 176 (Place 2194 93) (Place 2218 93) false; SNode 177 (Place 2424 104) (Place 2682 109) true; SNode 178 (Place 2429 104) (Place 2447 104) false; SNode 179 (Place 2424 104) (Place 2455 104) false; SNode 180 (Place 2447 104) (Place 2449 104) false; SNode 181 (Place 2450 104) (Place 2455 104) false; SNode 182 (Place 2450 104) (Place 2455 104) true; SNode 183 (Place 2450 104) (Place 2455 104) false; SNode 184 (Place 2456 104) (Place 2682 109) true; SNode 185 (Place 2602 105) (Place 2645 107) true; SNode 186 (Place 2605 105) (Place 2610 105) false; SNode 187 (Place 2611 105) (Place 2645 107) true; SNode 188 (Place 2615 106) (Place 2642 106) true; SNode 189 (Place 2622 106) (Place 2642 106) false; SNode 190 (Place 2622 106) (Place 2640 106) false; SNode 191 (Place 2647 108) (Place 2680 108) true; SNode 192 (Place 2654 108) (Place 2680 108) false; SNode 193 (Place 2655 108) (Place 2680 108) false; SNode 194 (Place 2655 108) (Place 2660 108) false; SNode 195 (Place 2661 108) (Place 2679 108) false; SNode 196 (Place 2885 119) (Place 3143 124) true; SNode 197 (Place 2890 119) (Place 2908 119) false; SNode 198 (Place 2885 119) (Place 2916 119) false; SNode 199 (Place 2908 119) (Place 2910 119) false; SNode 200 (Place 2911 119) (Place 2916 119) false; SNode 201 (Place 2911 119) (Place 2916 119) true; SNode 202 (Place 2911 119) (Place 2916 119) false; SNode 203 (Place 2917 119) (Place 3143 124) true; SNode 204 (Place 3063 120) (Place 3106 122) true; SNode 205 (Place 3066 120) (Place 3071 120) false; SNode 206 (Place 3072 120) (Place 3106 122) true; SNode 207 (Place 3076 121) (Place 3103 121) true; SNode 208 (Place 3083 121) (Place 3103 121) false; SNode 209 (Place 3083 121) (Place 3101 121) false; SNode 210 (Place 3108 123) (Place 3141 123) true; SNode 211 (Place 3115 123) (Place 3141 123) false; SNode 212 (Place 3116 123) (Place 3141 123) false; SNode 213 (Place 3116 123) (Place 3121 123) false; SNode 214 (Place 3122 123) (Place 3140 123) false; SNode 215 (Place 3145 126) (Place 3354 136) true; SNode 216 (Place 3150 126) (Place 3168 126) false; SNode 217 (Place 3145 126) (Place 3176 126) false; SNode 218 (Place 3168 126) (Place 3170 126) false; SNode 219 (Place 3171 126) (Place 3176 126) false; SNode 220 (Place 3171 126) (Place 3176 126) true; SNode 221 (Place 3171 126) (Place 3176 126) false; SNode 222 (Place 3177 126) (Place 3354 136) true; SNode 223 (Place 3180 127) (Place 3317 134) true; SNode 224 (Place 3187 127) (Place 3317 134) true; SNode 225 (Place 3190 128) (Place 3230 129) true; SNode 226 (Place 3195 128) (Place 3199 128) false; SNode 227 (Place 3203 129) (Place 3230 129) true; SNode 228 (Place 3210 129) (Place 3230 129) false; SNode 229 (Place 3210 129) (Place 3228 129) false; SNode 230 (Place 3232 130) (Place 3272 131) true; SNode 231 (Place 3237 130) (Place 3241 130) false; SNode 232 (Place 3245 131) (Place 3272 131) true; SNode 233 (Place 3252 131) (Place 3272 131) false; SNode 234 (Place 3252 131) (Place 3270 131) false; SNode 235 (Place 3274 132) (Place 3314 133) true; SNode 236 (Place 3279 132) (Place 3283 132) false; SNode 237 (Place 3287 133) (Place 3314 133) true; SNode 238 (Place 3294 133) (Place 3314 133) false; SNode 239 (Place 3294 133) (Place 3312 133) false; SNode 240 (Place 3319 135) (Place 3352 135) true; SNode 241 (Place 3326 135) (Place 3352 135) false; SNode 242 (Place 3327 135) (Place 3352 135) false; SNode 243 (Place 3327 135) (Place 3332 135) false; SNode 244 (Place 3333 135) (Place 3351 135) false; SNode 245 (Place 3356 138) (Place 3471 143) true; SNode 246 (Place 3361 138) (Place 3379 138) false; SNode 247 (Place 3356 138) (Place 3387 138) false; SNode 248 (Place 3379 138) (Place 3381 138) false; SNode 249 (Place 3382 138) (Place 3387 138) false; SNode 250 (Place 3382 138) (Place 3387 138) true; SNode 251 (Place 3382 138) (Place 3387 138) false; SNode 252 (Place 3388 138) (Place 3471 143) true; SNode 253 (Place 3391 139) (Place 3434 141) true; SNode 254 (Place 3394 139) (Place 3399 139) false; SNode 255 (Place 3400 139) (Place 3434 141) true; SNode 256 (Place 3404 140) (Place 3431 140) true; SNode 257 (Place 3411 140) (Place 3431 140) false; SNode 258 (Place 3411 140) (Place 3429 140) false; SNode 259 (Place 3436 142) (Place 3469 142) true; SNode 260 (Place 3443 142) (Place 3469 142) false; SNode 261 (Place 3444 142) (Place 3469 142) false; SNode 262 (Place 3444 142) (Place 3449 142) false; SNode 263 (Place 3450 142) (Place 3468 142) false; SNode 264 (Place 3473 145) (Place 3588 150) true; SNode 265 (Place 3478 145) (Place 3496 145) false; SNode 266 (Place 3473 145) (Place 3504 145) false; SNode 267 (Place 3496 145) (Place 3498 145) false; SNode 268 (Place 3499 145) (Place 3504 145) false; SNode 269 (Place 3499 145) (Place 3504 145) true; SNode 270 (Place 3499 145) (Place 3504 145) false; SNode 271 (Place 3505 145) (Place 3588 150) true; SNode 272 (Place 3508 146) (Place 3551 148) true; SNode 273 (Place 3511 146) (Place 3516 146) false; SNode 274 (Place 3517 146) (Place 3551 148) true; SNode 275 (Place 3521 147) (Place 3548 147) true; SNode 276 (Place 3528 147) (Place 3548 147) false; SNode 277 (Place 3528 147) (Place 3546 147) false; SNode 278 (Place 3553 149) (Place 3586 149) true; SNode 279 (Place 3560 149) (Place 3586 149) false; SNode 280 (Place 3561 149) (Place 3586 149) false; SNode 281 (Place 3561 149) (Place 3566 149) false; SNode 282 (Place 3567 149) (Place 3585 149) false; SNode 283 (Place 3590 152) (Place 3705 157) true; SNode 284 (Place 3595 152) (Place 3613 152) false; SNode 285 (Place 3590 152) (Place 3621 152) false; SNode 286 (Place 3613 152) (Place 3615 152) false; SNode 287 (Place 3616 152) (Place 3621 152) false; SNode 288 (Place 3616 152) (Place 3621 152) true; SNode 289 (Place 3616 152) (Place 3621 152) false; SNode 290 (Place 3622 152) (Place 3705 157) true; SNode 291 (Place 3625 153) (Place 3668 155) true; SNode 292 (Place 3628 153) (Place 3633 153) false; SNode 293 (Place 3634 153) (Place 3668 155) true; SNode 294 (Place 3638 154) (Place 3665 154) true; SNode 295 (Place 3645 154) (Place 3665 154) false; SNode 296 (Place 3645 154) (Place 3663 154) false; SNode 297 (Place 3670 156) (Place 3703 156) true; SNode 298 (Place 3677 156) (Place 3703 156) false; SNode 299 (Place 3678 156) (Place 3703 156) false; SNode 300 (Place 3678 156) (Place 3683 156) false; SNode 301 (Place 3684 156) (Place 3702 156) false; SNode 302 (Place 3707 159) (Place 3822 164) true; SNode 303 (Place 3712 159) (Place 3730 159) false; SNode 304 (Place 3707 159) (Place 3738 159) false; SNode 305 (Place 3730 159) (Place 3732 159) false; SNode 306 (Place 3733 159) (Place 3738 159) false; SNode 307 (Place 3733 159) (Place 3738 159) true; SNode 308 (Place 3733 159) (Place 3738 159) false; SNode 309 (Place 3739 159) (Place 3822 164) true; SNode 310 (Place 3742 160) (Place 3785 162) true; SNode 311 (Place 3745 160) (Place 3750 160) false; SNode 312 (Place 3751 160) (Place 3785 162) true; SNode 313 (Place 3755 161) (Place 3782 161) true; SNode 314 (Place 3762 161) (Place 3782 161) false; SNode 315 (Place 3762 161) (Place 3780 161) false; SNode 316 (Place 3787 163) (Place 3820 163) true; SNode 317 (Place 3794 163) (Place 3820 163) false; SNode 318 (Place 3795 163) (Place 3820 163) false; SNode 319 (Place 3795 163) (Place 3800 163) false; SNode 320 (Place 3801 163) (Place 3819 163) false; SNode 321 (Place 3969 172) (Place 4193 177) true; SNode 322 (Place 3974 172) (Place 3992 172) false; SNode 323 (Place 3969 172) (Place 4000 172) false; SNode 324 (Place 3992 172) (Place 3994 172) false; SNode 325 (Place 3995 172) (Place 4000 172) false; SNode 326 (Place 3995 172) (Place 4000 172) true; SNode 327 (Place 3995 172) (Place 4000 172) false; SNode 328 (Place 4001 172) (Place 4193 177) true; SNode 329 (Place 4113 173) (Place 4156 175) true; SNode 330 (Place 4116 173) (Place 4121 173) false; SNode 331 (Place 4122 173) (Place 4156 175) true; SNode 332 (Place 4126 174) (Place 4153 174) true; SNode 333 (Place 4133 174) (Place 4153 174) false; SNode 334 (Place 4133 174) (Place 4151 174) false; SNode 335 (Place 4158 176) (Place 4191 176) true; SNode 336 (Place 4165 176) (Place 4191 176) false; SNode 337 (Place 4166 176) (Place 4191 176) false; SNode 338 (Place 4166 176) (Place 4171 176) false; SNode 339 (Place 4172 176) (Place 4190 176) false; SNode 340 (Place 4359 186) (Place 4636 194) true; SNode 341 (Place 4364 186) (Place 4375 186) false; SNode 342 (Place 4359 186) (Place 4383 186) false; SNode 343 (Place 4375 186) (Place 4377 186) false; SNode 344 (Place 4378 186) (Place 4383 186) false; SNode 345 (Place 4378 186) (Place 4383 186) true; SNode 346 (Place 4378 186) (Place 4383 186) false; SNode 347 (Place 4384 186) (Place 4636 194) true; SNode 348 (Place 4516 187) (Place 4597 192) true; SNode 349 (Place 4523 187) (Place 4597 192) true; SNode 350 (Place 4526 188) (Place 4559 189) true; SNode 351 (Place 4531 188) (Place 4535 188) false; SNode 352 (Place 4539 189) (Place 4559 189) true; SNode 353 (Place 4546 189) (Place 4559 189) false; SNode 354 (Place 4546 189) (Place 4557 189) false; SNode 355 (Place 4561 190) (Place 4594 191) true; SNode 356 (Place 4566 190) (Place 4570 190) false; SNode 357 (Place 4574 191) (Place 4594 191) true; SNode 358 (Place 4581 191) (Place 4594 191) false; SNode 359 (Place 4581 191) (Place 4592 191) false; SNode 360 (Place 4599 193) (Place 4634 193) true; SNode 361 (Place 4606 193) (Place 4634 193) false; SNode 362 (Place 4607 193) (Place 4634 193) false; SNode 363 (Place 4607 193) (Place 4612 193) false; SNode 364 (Place 4613 193) (Place 4633 193) false; SNode 365 (Place 4638 196) (Place 4741 201) true; SNode 366 (Place 4643 196) (Place 4654 196) false; SNode 367 (Place 4638 196) (Place 4662 196) false; SNode 368 (Place 4654 196) (Place 4656 196) false; SNode 369 (Place 4657 196) (Place 4662 196) false; SNode 370 (Place 4657 196) (Place 4662 196) true; SNode 371 (Place 4657 196) (Place 4662 196) false; SNode 372 (Place 4663 196) (Place 4741 201) true; SNode 373 (Place 4666 197) (Place 4702 199) true; SNode 374 (Place 4669 197) (Place 4674 197) false; SNode 375 (Place 4675 197) (Place 4702 199) true; SNode 376 (Place 4679 198) (Place 4699 198) true; SNode 377 (Place 4686 198) (Place 4699 198) false; SNode 378 (Place 4686 198) (Place 4697 198) false; SNode 379 (Place 4704 200) (Place 4739 200) true; SNode 380 (Place 4711 200) (Place 4739 200) false; SNode 381 (Place 4712 200) (Place 4739 200) false; SNode 382 (Place 4712 200) (Place 4717 200) false; SNode 383 (Place 4718 200) (Place 4738 200) false; SNode 384 (Place 4743 203) (Place 4846 208) true; SNode 385 (Place 4748 203) (Place 4759 203) false; SNode 386 (Place 4743 203) (Place 4767 203) false; SNode 387 (Place 4759 203) (Place 4761 203) false; SNode 388 (Place 4762 203) (Place 4767 203) false; SNode 389 (Place 4762 203) (Place 4767 203) true; SNode 390 (Place 4762 203) (Place 4767 203) false; SNode 391 (Place 4768 203) (Place 4846 208) true; SNode 392 (Place 4771 204) (Place 4807 206) true; SNode 393 (Place 4774 204) (Place 4779 204) false; SNode 394 (Place 4780 204) (Place 4807 206) true; SNode 395 (Place 4784 205) (Place 4804 205) true; SNode 396 (Place 4791 205) (Place 4804 205) false; SNode 397 (Place 4791 205) (Place 4802 205) false; SNode 398 (Place 4809 207) (Place 4844 207) true; SNode 399 (Place 4816 207) (Place 4844 207) false; SNode 400 (Place 4817 207) (Place 4844 207) false; SNode 401 (Place 4817 207) (Place 4822 207) false; SNode 402 (Place 4823 207) (Place 4843 207) false; SNode 403 (Place 4848 210) (Place 4951 215) true; SNode 404 (Place 4853 210) (Place 4864 210) false; SNode 405 (Place 4848 210) (Place 4872 210) false; SNode 406 (Place 4864 210) (Place 4866 210) false; SNode 407 (Place 4867 210) (Place 4872 210) false; SNode 408 (Place 4867 210) (Place 4872 210) true; SNode 409 (Place 4867 210) (Place 4872 210) false; SNode 410 (Place 4873 210) (Place 4951 215) true; SNode 411 (Place 4876 211) (Place 4912 213) true; SNode 412 (Place 4879 211) (Place 4884 211) false; SNode 413 (Place 4885 211) (Place 4912 213) true; SNode 414 (Place 4889 212) (Place 4909 212) true; SNode 415 (Place 4896 212) (Place 4909 212) false; SNode 416 (Place 4896 212) (Place 4907 212) false; SNode 417 (Place 4914 214) (Place 4949 214) true; SNode 418 (Place 4921 214) (Place 4949 214) false; SNode 419 (Place 4922 214) (Place 4949 214) false; SNode 420 (Place 4922 214) (Place 4927 214) false; SNode 421 (Place 4928 214) (Place 4948 214) false; SNode 422 (Place 4953 217) (Place 5056 222) true; SNode 423 (Place 4958 217) (Place 4969 217) false; SNode 424 (Place 4953 217) (Place 4977 217) false; SNode 425 (Place 4969 217) (Place 4971 217) false; SNode 426 (Place 4972 217) (Place 4977 217) false; SNode 427 (Place 4972 217) (Place 4977 217) true; SNode 428 (Place 4972 217) (Place 4977 217) false; SNode 429 (Place 4978 217) (Place 5056 222) true; SNode 430 (Place 4981 218) (Place 5017 220) true; SNode 431 (Place 4984 218) (Place 4989 218) false; SNode 432 (Place 4990 218) (Place 5017 220) true; SNode 433 (Place 4994 219) (Place 5014 219) true; SNode 434 (Place 5001 219) (Place 5014 219) false; SNode 435 (Place 5001 219) (Place 5012 219) false; SNode 436 (Place 5019 221) (Place 5054 221) true; SNode 437 (Place 5026 221) (Place 5054 221) false; SNode 438 (Place 5027 221) (Place 5054 221) false; SNode 439 (Place 5027 221) (Place 5032 221) false; SNode 440 (Place 5033 221) (Place 5053 221) false; SNode 441 (Place 5058 224) (Place 5165 226) true; SNode 442 (Place 5063 224) (Place 5165 226) true; SNode 443 (Place 5063 224) (Place 5068 224) false; SNode 444 (Place 5069 224) (Place 5165 226) false; SNode 445 (Place 5076 224) (Place 5165 226) false; SNode 446 (Place 5149 225) (Place 5163 225) true; SNode 447 (Place 5149 225) (Place 5156 225) false; SNode 448 (Place 5157 225) (Place 5163 225) false; SNode 449 (Place 5167 228) (Place 5231 228) true; SNode 450 (Place 5172 228) (Place 5182 228) false; SNode 451 (Place 5173 228) (Place 5181 228) true; SNode 452 (Place 5173 228) (Place 5174 228) false; SNode 453 (Place 5175 228) (Place 5181 228) false; SNode 454 (Place 5176 228) (Place 5181 228) false; SNode 455 (Place 5183 228) (Place 5187 228) false; SNode 456 (Place 5167 228) (Place 5196 228) false; SNode 457 (Place 5187 228) (Place 5189 228) false; SNode 458 (Place 5190 228) (Place 5196 228) false; SNode 459 (Place 5190 228) (Place 5196 228) true; SNode 460 (Place 5190 228) (Place 5196 228) false; SNode 461 (Place 5211 228) (Place 5231 228) true; SNode 462 (Place 5213 228) (Place 5229 228) true; SNode 463 (Place 5220 228) (Place 5229 228) false; SNode 464 (Place 5220 228) (Place 5221 228) false; SNode 465 (Place 5222 228) (Place 5229 228) false; SNode 466 (Place 5232 229) (Place 5296 229) true; SNode 467 (Place 5237 229) (Place 5247 229) false; SNode 468 (Place 5238 229) (Place 5246 229) true; SNode 469 (Place 5238 229) (Place 5239 229) false; SNode 470 (Place 5240 229) (Place 5246 229) false; SNode 471 (Place 5241 229) (Place 5246 229) false; SNode 472 (Place 5248 229) (Place 5255 229) false; SNode 473 (Place 5232 229) (Place 5264 229) false; SNode 474 (Place 5255 229) (Place 5257 229) false; SNode 475 (Place 5258 229) (Place 5264 229) false; SNode 476 (Place 5258 229) (Place 5264 229) true; SNode 477 (Place 5258 229) (Place 5264 229) false; SNode 478 (Place 5276 229) (Place 5296 229) true; SNode 479 (Place 5278 229) (Place 5294 229) true; SNode 480 (Place 5285 229) (Place 5294 229) false; SNode 481 (Place 5285 229) (Place 5286 229) false; SNode 482 (Place 5287 229) (Place 5294 229) false; SNode 483 (Place 5297 230) (Place 5355 230) true; SNode 484 (Place 5302 230) (Place 5312 230) false; SNode 485 (Place 5303 230) (Place 5311 230) true; SNode 486 (Place 5303 230) (Place 5304 230) false; SNode 487 (Place 5305 230) (Place 5311 230) false; SNode 488 (Place 5306 230) (Place 5311 230) false; SNode 489 (Place 5313 230) (Place 5320 230) false; SNode 490 (Place 5297 230) (Place 5340 230) false; SNode 491 (Place 5320 230) (Place 5322 230) false; SNode 492 (Place 5323 230) (Place 5340 230) false; SNode 493 (Place 5323 230) (Place 5340 230) true; SNode 494 (Place 5323 230) (Place 5340 230) false; SNode 495 (Place 5327 230) (Place 5333 230) false; SNode 496 (Place 5334 230) (Place 5340 230) false; SNode 497 (Place 5341 230) (Place 5355 230) true; SNode 498 (Place 5343 230) (Place 5353 230) true; SNode 499 (Place 5350 230) (Place 5353 230) false; SNode 500 (Place 5356 231) (Place 5414 231) true; SNode 501 (Place 5361 231) (Place 5371 231) false; SNode 502 (Place 5362 231) (Place 5370 231) true; SNode 503 (Place 5362 231) (Place 5363 231) false; SNode 504 (Place 5364 231) (Place 5370 231) false; SNode 505 (Place 5365 231) (Place 5370 231) false; SNode 506 (Place 5372 231) (Place 5377 231) false; SNode 507 (Place 5356 231) (Place 5385 231) false; SNode 508 (Place 5377 231) (Place 5379 231) false; SNode 509 (Place 5380 231) (Place 5385 231) false; SNode 510 (Place 5380 231) (Place 5385 231) true; SNode 511 (Place 5380 231) (Place 5385 231) false; SNode 512 (Place 5400 231) (Place 5414 231) true; SNode 513 (Place 5402 231) (Place 5412 231) true; SNode 514 (Place 5409 231) (Place 5412 231) false; SNode 515 (Place 5415 232) (Place 5481 232) true; SNode 516 (Place 5420 232) (Place 5430 232) false; SNode 517 (Place 5421 232) (Place 5429 232) true; SNode 518 (Place 5421 232) (Place 5422 232) false; SNode 519 (Place 5423 232) (Place 5429 232) false; SNode 520 (Place 5424 232) (Place 5429 232) false; SNode 521 (Place 5431 232) (Place 5436 232) false; SNode 522 (Place 5415 232) (Place 5445 232) false; SNode 523 (Place 5436 232) (Place 5438 232) false; SNode 524 (Place 5439 232) (Place 5445 232) false; SNode 525 (Place 5439 232) (Place 5445 232) true; SNode 526 (Place 5439 232) (Place 5445 232) false; SNode 527 (Place 5459 232) (Place 5481 232) true; SNode 528 (Place 5461 232) (Place 5479 232) true; SNode 529 (Place 5468 232) (Place 5479 232) false; SNode 530 (Place 5468 232) (Place 5477 232) false; SNode 531 (Place 5468 232) (Place 5469 232) false; SNode 532 (Place 5470 232) (Place 5477 232) false].
Definition t_recursion_cgroups0 : list cgroup := [CGroup (Place 19 3) (Place 198 8) [(str "// SimpleRecursion always returns an error,"); (str "// and looks to the compiler like it might do recursive calls on itself."); (str "//"); (str "// Errors:"); (str "//"); (str "//    - recursion-error -- is always returned")]; CGroup (Place 230 9) (Place 283 9) [(str "// want SimpleRecursion:""ErrorCodes: recursion-error""")]; CGroup (Place 363 16) (Place 537 21) [(str "// InnerRecursion always returns an error,"); (str "// and calls a local function, that looks recursive to the compiler."); (str "//"); (str "// Errors:"); (str "//"); (str "//    - recursion-error -- is always returned")]; CGroup (Place 568 22) (Place 620 22) [(str "// want InnerRecursion:""ErrorCodes: recursion-error""")]; CGroup (Place 757 33) (Place 1032 40) [(str "// IndirectRecursion always returns an error,"); (str "// and looks to the compiler like it might do an indirect recursion involving three functions."); (str "//"); (str "// Errors:"); (str "//"); (str "//    - recursion-error       -- is always returned"); (str "//    - recursion-part1-error --"); (str "//    - recursion-part2-error --")]; CGroup (Place 1066 41) (Place 1165 41) [(str "// want IndirectRecursion:""ErrorCodes: recursion-error recursion-part1-error recursion-part2-error""")]; CGroup (Place 1439 62) (Place 1753 70) [(str "// IndirectInnerRecursion always returns an error,"); (str "// and calls a local function, that looks to the compiler"); (str "// like it does indirect recursive calls involving three functions."); (str "//"); (str "// Errors:"); (str "//"); (str "//    - recursion-inner1-error -- is always returned"); (str "//    - recursion-inner2-error --"); (str "//    - recursion-inner3-error --")]; CGroup (Place 1792 71) (Place 1905 71) [(str "// want IndirectInnerRecursion:""ErrorCodes: recursion-inner1-error recursion-inner2-error recursion-inner3-error""")]; CGroup (Place 2223 96) (Place 2423 103) [(str "// Errors:"); (str "//"); (str "//    - advanced-a-error -- is always returned"); (str "//    - advanced-c-error --"); (str "//    - advanced-d-error --"); (str "//    - advanced-e-error --"); (str "//    - advanced-f-error --"); (str "//    - advanced-g-error --")]; CGroup (Place 2458 104) (Place 2600 104) [(str "// want AdvancedRecursionA:""ErrorCodes: advanced-a-error advanced-c-error advanced-d-error advanced-e-error advanced-f-error advanced-g-error""")]; CGroup (Place 2684 111) (Place 2884 118) [(str "// Errors:"); (str "//"); (str "//    - advanced-b-error -- is always returned"); (str "//    - advanced-c-error --"); (str "//    - advanced-d-error --"); (str "//    - advanced-e-error --"); (str "//    - advanced-f-error --"); (str "//    - advanced-g-error --")]; CGroup (Place 2919 119) (Place 3061 119) [(str "// want AdvancedRecursionB:""ErrorCodes: advanced-b-error advanced-c-error advanced-d-error advanced-e-error advanced-f-error advanced-g-error""")]; CGroup (Place 3824 166) (Place 3968 171) [(str "// Errors:"); (str "//"); (str "//    - advanced-h-error -- is always returned"); (str "//    - advanced-e-error --"); (str "//    - advanced-f-error --"); (str "//    - advanced-g-error --")]; CGroup (Place 4003 172) (Place 4111 172) [(str "// want AdvancedRecursionH:""ErrorCodes: advanced-e-error advanced-f-error advanced-g-error advanced-h-error""")]; CGroup (Place 4195 179) (Place 4358 185) [(str "// Errors:"); (str "//"); (str "//    - splitmerge-a-error --"); (str "//    - splitmerge-b-error --"); (str "//    - splitmerge-c-error --"); (str "//    - splitmerge-d-error --"); (str "//    - splitmerge-e-error --")]; CGroup (Place 4386 186) (Place 4514 186) [(str "// want SplitMergeA:""ErrorCodes: splitmerge-a-error splitmerge-b-error splitmerge-c-error splitmerge-d-error splitmerge-e-error""")]; CGroup (Place 5078 224) (Place 5147 224) [(str "// want Error:`ErrorType{Field:{Name:""TheCode"", Position:0}, Codes:}`")]].
Definition t_recursion_files : list source_file := [SourceFile t_recursion_nodes0 t_recursion_cgroups0].
Definition t_recursion_info : typeinfo := map_info (list_to_map t_recursion_types) (list_to_map t_recursion_values) (list_to_map t_recursion_uses) (list_to_map t_recursion_defs) (list_to_map t_recursion_sels) (list_to_set [1; 4; 5; 6; 7; 8; 9; 10; 11; 12; 13; 14; 15; 16; 17; 18; 19; 20; 70]) (list_to_map t_recursion_pkgnames) (list_to_map t_recursion_objnames) (list_to_map t_recursion_objtypes) (list_to_map t_recursion_under) t_recursion_methods t_recursion_ierr t_recursion_iree t_recursion_icause t_recursion_impl (list_to_map t_recursion_named_methods).
Definition t_recursion : package := Package (list_to_map [(1, t_recursion_f1); (2, t_recursion_f2); (3, t_recursion_f3); (4, t_recursion_f4); (5, t_recursion_f5); (6, t_recursion_f6); (7, t_recursion_f7); (8, t_recursion_f8); (9, t_recursion_f9); (10, t_recursion_f10); (11, t_recursion_f11); (12, t_recursion_f12); (13, t_recursion_f13); (14, t_recursion_f14); (15, t_recursion_f15); (16, t_recursion_f16); (17, t_recursion_f17); (18, t_recursion_f18); (19, t_recursion_f19); (20, t_recursion_f20); (21, t_recursion_f21); (22, t_recursion_f22); (23, t_recursion_f23); (24, t_recursion_f24); (25, t_recursion_f25); (26, t_recursion_f26); (27, t_recursion_f27); (28, t_recursion_f28)]) [1; 2; 3; 4; 5; 6; 7; 8; 9; 10; 11; 12; 13; 14; 15; 16; 17; 18; 19; 20; 21; 22; 23; 24; 25; 26; 27; 28] t_recursion_gendecls t_recursion_top (list_to_map t_recursion_objs) (fun id => default [] (createCommentMap t_recursion_files id)) t_recursion_info.
Definition t_recursion_rank : gostring -> nat := fun n => default 0%nat ((list_to_map [] : gmap gostring nat) !! n).

(** recursion: 0 diagnostics and 9 facts, as its "want" comments demand. *)
Theorem t_recursion_ascending :
  report (run_test t_recursion ascending (Facts ∅ ∅ ∅ ∅)) = Some [
] /\
  fact_texts (facts_after_test (run_test t_recursion ascending (Facts ∅ ∅ ∅ ∅))) [47; 48; 49; 50; 51; 52; 53; 54; 55; 56; 57; 58; 59; 60; 61; 62; 63; 64; 65; 66; 67; 68; 69; 70; 71; 72; 73; 74; 75; 76; 77; 78; 79; 80] = [
    (47, (str "ErrorCodes: recursion-error")) (* recursion.go:9 SimpleRecursion *);
    (48, (str "ErrorCodes: recursion-error")) (* recursion.go:22 InnerRecursion *);
    (50, (str "ErrorCodes: recursion-error recursion-part1-error recursion-part2-error")) (* recursion.go:41 IndirectRecursion *);
    (53, (str "ErrorCodes: recursion-inner1-error recursion-inner2-error recursion-inner3-error")) (* recursion.go:71 IndirectInnerRecursion *);
    (57, (str "ErrorCodes: advanced-a-error advanced-c-error advanced-d-error advanced-e-error advanced-f-error advanced-g-error")) (* recursion.go:104 AdvancedRecursionA *);
    (58, (str "ErrorCodes: advanced-b-error advanced-c-error advanced-d-error advanced-e-error advanced-f-error advanced-g-error")) (* recursion.go:119 AdvancedRecursionB *);
    (64, (str "ErrorCodes: advanced-e-error advanced-f-error advanced-g-error advanced-h-error")) (* recursion.go:172 AdvancedRecursionH *);
    (65, (str "ErrorCodes: splitmerge-a-error splitmerge-b-error splitmerge-c-error splitmerge-d-error splitmerge-e-error")) (* recursion.go:186 SplitMergeA *);
    (70, (str "ErrorType{Field:{Name:""TheCode"", Position:0}, Codes:}")) (* recursion.go:224 Error *)].
Proof. vm_compute. split; reflexivity. Qed.

(** recursion: 0 diagnostics and 9 facts, as its "want" comments demand. *)
Theorem t_recursion_descending :
  report (run_test t_recursion descending (Facts ∅ ∅ ∅ ∅)) = Some [
] /\
  fact_texts (facts_after_test (run_test t_recursion descending (Facts ∅ ∅ ∅ ∅))) [47; 48; 49; 50; 51; 52; 53; 54; 55; 56; 57; 58; 59; 60; 61; 62; 63; 64; 65; 66; 67; 68; 69; 70; 71; 72; 73; 74; 75; 76; 77; 78; 79; 80] = [
    (47, (str "ErrorCodes: recursion-error")) (* recursion.go:9 SimpleRecursion *);
    (48, (str "ErrorCodes: recursion-error")) (* recursion.go:22 InnerRecursion *);
    (50, (str "ErrorCodes: recursion-error recursion-part1-error recursion-part2-error")) (* recursion.go:41 IndirectRecursion *);
    (53, (str "ErrorCodes: recursion-inner1-error recursion-inner2-error recursion-inner3-error")) (* recursion.go:71 IndirectInnerRecursion *);
    (57, (str "ErrorCodes: advanced-a-error advanced-c-error advanced-d-error advanced-e-error advanced-f-error advanced-g-error")) (* recursion.go:104 AdvancedRecursionA *);
    (58, (str "ErrorCodes: advanced-b-error advanced-c-error advanced-d-error advanced-e-error advanced-f-error advanced-g-error")) (* recursion.go:119 AdvancedRecursionB *);
    (64, (str "ErrorCodes: advanced-e-error advanced-f-error advanced-g-error advanced-h-error")) (* recursion.go:172 AdvancedRecursionH *);
    (65, (str "ErrorCodes: splitmerge-a-error splitmerge-b-error splitmerge-c-error splitmerge-d-error splitmerge-e-error")) (* recursion.go:186 SplitMergeA *);
    (70, (str "ErrorType{Field:{Name:""TheCode"", Position:0}, Codes:}")) (* recursion.go:224 Error *)].
Proof. vm_compute. split; reflexivity. Qed.

(** The presuppositions of the general theorems that this package satisfies. *)
Theorem t_recursion_presuppositions :
  (forall fa, usable_functions t_recursion fa) /\
  (forall fa, no_literal_recursion t_recursion (collectFunctions t_recursion) fa) /\
  (forall fa, literals_apart t_recursion (collectFunctions t_recursion) fa) /\
  types_usable t_recursion /\
  (forall w n, occurs t_recursion w n -> ~ ill_formed t_recursion w n) /\
  distinct_definitions t_recursion /\
  interfaces_ok t_recursion /\
  uses_resolved t_recursion (collectFunctions t_recursion) /\
  (forall g fn, pk_funcs t_recursion !! g = Some fn -> disciplined t_recursion (facts_after_test (run_test t_recursion ascending (Facts ∅ ∅ ∅ ∅))) fn /\ resolved t_recursion (collectFunctions t_recursion) (facts_after_test (run_test t_recursion ascending (Facts ∅ ∅ ∅ ∅))) fn) /\
  Forall layout t_recursion_files.
Proof.
  split_and!.
  - intros fa; apply package_usable_spec; vm_compute; reflexivity.
  - intros fa; apply recursion_check_spec; vm_compute; reflexivity.
  - intros fa; apply apart_spec; vm_compute; reflexivity.
  - apply types_ok_spec; vm_compute; reflexivity.
  - apply package_formed_spec; vm_compute; reflexivity.
  - apply definitions_check_spec; vm_compute; reflexivity.
  - apply (interfaces_check_spec t_recursion t_recursion_rank); vm_compute; reflexivity.
  - apply uses_check_spec; vm_compute; reflexivity.
  - intros g fn; apply sound_ok_spec; vm_compute; reflexivity.
  - apply layouts_spec; vm_compute; reflexivity.
Qed.
