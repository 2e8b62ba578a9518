(** * The test package examples of /repo/analysis/testdata/src, run on the model.  Generated by tools/conform.py; see Conform.v. *)
From Coq Require Import Ascii String.
From stdpp Require Import base list gmap.
From Verif Require Import GoString Scc Engine Constant CommentText CommentMap Phase FactText Conform Claims Analyse Verify SpecTaint SpecProgram SpecLiterals SpecCodeMethod SpecInterfaces SpecSites SpecCrash SpecSound SpecWhole SpecLayout Checkers RecursionChecker LiteralChecker CodeCheckers FormChecker InterfaceChecker SoundChecker ChainChecker ExampleLayout GoAst.
Local Open Scope N_scope.
Definition t_examples_f1 : func := Func 16 (Some (DeclInfo (Ident 22 (str "Error") None) (Some [(Field 18 [(Ident 19 (str "e") (Some 1))] 20)]) None)) (FuncType 23 [] (Some [(Field 26 [] 27)]) 182) (Some (Node 28 (KOther (str "*ast.BlockStmt")) [(Node 29 KReturn [(Node 30 KSelector [(Node 31 (KIdent (str "e") (Some 1)) []); (Node 32 (KIdent (str "TheCode") None) [])])])])) 189 209.
Definition t_examples_f2 : func := Func 33 (Some (DeclInfo (Ident 39 (str "Code") None) (Some [(Field 35 [(Ident 36 (str "e") (Some 2))] 37)]) None)) (FuncType 40 [] (Some [(Field 43 [] 44)]) 233) (Some (Node 45 (KOther (str "*ast.BlockStmt")) [(Node 46 KReturn [(Node 47 KSelector [(Node 48 (KIdent (str "e") (Some 2)) []); (Node 49 (KIdent (str "TheCode") None) [])])])])) 241 261.
Definition t_examples_f3 : func := Func 73 (Some (DeclInfo (Ident 78 (str "Error") None) (Some [(Field 75 [(Ident 76 (str "e") (Some 3))] 77)]) None)) (FuncType 79 [] (Some [(Field 82 [] 83)]) 602) (Some (Node 84 (KOther (str "*ast.BlockStmt")) [(Node 85 KReturn [(Node 86 KCall [(Node 87 KSelector [(Node 88 (KIdent (str "fmt") None) []); (Node 89 (KIdent (str "Sprintf") None) [])]); (Node 90 KBasicLit []); (Node 91 KCall [(Node 92 KSelector [(Node 93 (KIdent (str "e") (Some 3)) []); (Node 94 (KIdent (str "Code") None) [])])]); (Node 95 (KIdent (str "e") (Some 3)) [])])])])) 609 654.
Definition t_examples_f4 : func := Func 96 (Some (DeclInfo (Ident 101 (str "Code") None) (Some [(Field 98 [(Ident 99 (str "e") (Some 4))] 100)]) None)) (FuncType 102 [] (Some [(Field 105 [] 106)]) 678) (Some (Node 107 (KOther (str "*ast.BlockStmt")) [(Node 108 (KOther (str "*ast.SwitchStmt")) [(Node 109 (KOther (str "*ast.BlockStmt")) [(Node 110 (KCaseClause 1%nat) [(Node 111 (KOther (str "*ast.BinaryExpr")) [(Node 112 (KIdent (str "e") (Some 4)) []); (Node 113 KBasicLit [])]); (Node 114 KReturn [(Node 115 (KIdent (str "ErrorEmpty") (Some 5)) [])])]); (Node 116 (KCaseClause 1%nat) [(Node 117 KCall [(Node 118 KSelector [(Node 119 (KIdent (str "strings") None) []); (Node 120 (KIdent (str "HasPrefix") None) [])]); (Node 121 KCall [(Node 122 (KIdent (str "string") None) []); (Node 123 (KIdent (str "e") (Some 4)) [])]); (Node 124 KBasicLit [])]); (Node 125 KReturn [(Node 126 (KIdent (str "ErrorDisconnect") (Some 6)) [])])]); (Node 127 (KCaseClause 0%nat) [(Node 128 KReturn [(Node 129 (KIdent (str "ErrorUnknown") (Some 7)) [])])])])])])) 685 850.
Definition t_examples_f5 : func := Func 130 (Some (DeclInfo (Ident 131 (str "ReturnError2") (Some 8)) None (Some (comment_text [(str "// Errors:"); (str "//"); (str "//    - examples-error-empty      --"); (str "//    - examples-error-disconnect --"); (str "//    - examples-error-unknown    --")])))) (FuncType 132 [] (Some [(Field 135 [] 136)]) 997) (Some (Node 137 (KOther (str "*ast.BlockStmt")) [(Node 138 KReturn [(Node 139 KCall [(Node 140 (KIdent (str "Error2") (Some 9)) []); (Node 141 KBasicLit [])])])])) 1004 1144.
Definition t_examples_f6 : func := Func 153 (Some (DeclInfo (Ident 159 (str "Error") None) (Some [(Field 155 [(Ident 156 (str "e") (Some 10))] 157)]) None)) (FuncType 160 [] (Some [(Field 163 [] 164)]) 1332) (Some (Node 165 (KOther (str "*ast.BlockStmt")) [(Node 166 KReturn [(Node 167 KSelector [(Node 168 (KIdent (str "e") (Some 10)) []); (Node 169 (KIdent (str "code") None) [])])])])) 1339 1356.
Definition t_examples_f7 : func := Func 170 (Some (DeclInfo (Ident 176 (str "Code") None) (Some [(Field 172 [(Ident 173 (str "e") (Some 11))] 174)]) None)) (FuncType 177 [] (Some [(Field 180 [] 181)]) 1381) (Some (Node 182 (KOther (str "*ast.BlockStmt")) [(Node 183 (KOther (str "*ast.IfStmt")) [(Node 184 KSelector [(Node 185 (KIdent (str "e") (Some 11)) []); (Node 186 (KIdent (str "flag") None) [])]); (Node 187 (KOther (str "*ast.BlockStmt")) [(Node 188 (KAssign 1%nat) [(Node 189 KSelector [(Node 190 (KIdent (str "e") (Some 11)) []); (Node 191 (KIdent (str "code") None) [])]); (Node 192 KBasicLit [])])])]); (Node 193 (KOther (str "*ast.IfStmt")) [(Node 194 (KOther (str "*ast.BinaryExpr")) [(Node 195 KSelector [(Node 196 (KIdent (str "e") (Some 11)) []); (Node 197 (KIdent (str "code") None) [])]); (Node 198 KBasicLit [])]); (Node 199 (KOther (str "*ast.BlockStmt")) [(Node 200 KReturn [(Node 201 KBasicLit [])])])]); (Node 202 KReturn [(Node 203 KSelector [(Node 204 (KIdent (str "e") (Some 11)) []); (Node 205 (KIdent (str "code") None) [])])])])) 1388 1514.
Definition t_examples_f8 : func := Func 206 (Some (DeclInfo (Ident 207 (str "ReturnError3") (Some 12)) None (Some (comment_text [(str "// Errors:"); (str "//"); (str "//    - examples-error-flagged         --"); (str "//    - examples-error-unknown         --"); (str "//    - examples-error-not-implemented --")])))) (FuncType 208 [] (Some [(Field 211 [] 212)]) 1676) (Some (Node 214 (KOther (str "*ast.BlockStmt")) [(Node 215 KReturn [(Node 216 (KUnary true) [(Node 217 KComposite [(Node 219 (KIdent (str "false") None) []); (Node 220 KBasicLit [])])])])])) 1684 1856.
Definition t_examples_f9 : func := Func 236 (Some (DeclInfo (Ident 242 (str "Add") None) (Some [(Field 238 [(Ident 239 (str "c") (Some 13))] 240)]) (Some (comment_text [(str "// Add adds a non-nil value into the collection."); (str "//"); (str "// Errors:"); (str "//"); (str "//    - examples-error-invalid-arg        -- if the given argument is nil"); (str "//    - examples-error-invalid-collection -- if the given collection is nil or invalid"); (str "//    - examples-error-limit-reached      -- if the limit of values in the collection is reached")])))) (FuncType 243 [(Field 245 [(Ident 246 (str "item") (Some 14))] 247)] (Some [(Field 250 [] 251)]) 2305) (Some (Node 252 (KOther (str "*ast.BlockStmt")) [(Node 253 (KOther (str "*ast.IfStmt")) [(Node 254 (KOther (str "*ast.BinaryExpr")) [(Node 255 (KIdent (str "item") (Some 14)) []); (Node 256 (KIdent (str "nil") None) [])]); (Node 257 (KOther (str "*ast.BlockStmt")) [(Node 258 KReturn [(Node 259 (KUnary true) [(Node 260 KComposite [(Node 262 KBasicLit [])])])])])]); (Node 263 (KOther (str "*ast.IfStmt")) [(Node 264 (KOther (str "*ast.BinaryExpr")) [(Node 265 (KOther (str "*ast.BinaryExpr")) [(Node 266 (KIdent (str "c") (Some 13)) []); (Node 267 (KIdent (str "nil") None) [])]); (Node 268 (KOther (str "*ast.BinaryExpr")) [(Node 269 KSelector [(Node 270 (KIdent (str "c") (Some 13)) []); (Node 271 (KIdent (str "limit") None) [])]); (Node 272 KBasicLit [])])]); (Node 273 (KOther (str "*ast.BlockStmt")) [(Node 274 KReturn [(Node 275 (KUnary true) [(Node 276 KComposite [(Node 278 KBasicLit [])])])])])]); (Node 279 (KOther (str "*ast.IfStmt")) [(Node 280 (KOther (str "*ast.BinaryExpr")) [(Node 281 KCall [(Node 282 (KIdent (str "len") None) []); (Node 283 KSelector [(Node 284 (KIdent (str "c") (Some 13)) []); (Node 285 (KIdent (str "values") None) [])])]); (Node 286 KSelector [(Node 287 (KIdent (str "c") (Some 13)) []); (Node 288 (KIdent (str "limit") None) [])])]); (Node 289 (KOther (str "*ast.BlockStmt")) [(Node 290 KReturn [(Node 291 (KUnary true) [(Node 292 KComposite [(Node 294 KBasicLit [])])])])])]); (Node 295 (KAssign 1%nat) [(Node 296 KSelector [(Node 297 (KIdent (str "c") (Some 13)) []); (Node 298 (KIdent (str "values") None) [])]); (Node 299 KCall [(Node 300 (KIdent (str "append") None) []); (Node 301 KSelector [(Node 302 (KIdent (str "c") (Some 13)) []); (Node 303 (KIdent (str "values") None) [])]); (Node 304 (KIdent (str "item") (Some 14)) [])])]); (Node 305 KReturn [(Node 306 (KIdent (str "nil") None) [])])])) 2311 2715.
Definition t_examples_f10 : func := Func 307 (Some (DeclInfo (Ident 313 (str "AddUnused") None) (Some [(Field 309 [(Ident 310 (str "c") (Some 15))] 311)]) (Some (comment_text [(str "// Errors:"); (str "//"); (str "// None of the following errors are actually returned yet."); (str "//    - examples-error-invalid-arg        -- if the given argument is nil"); (str "//    - examples-error-invalid-collection -- if the given collection is nil or invalid"); (str "//    - examples-error-limit-reached      -- if the limit of values in the collection is reached")])))) (FuncType 314 [(Field 316 [(Ident 317 (str "item") (Some 16))] 318)] (Some [(Field 321 [] 322)]) 3097) (Some (Node 323 (KOther (str "*ast.BlockStmt")) [(Node 324 (KOther (str "*ast.ExprStmt")) [(Node 325 KCall [(Node 326 (KIdent (str "panic") None) []); (Node 327 KBasicLit [])])])])) 3103 3446.
Definition t_examples_f11 : func := Func 328 (Some (DeclInfo (Ident 334 (str "AddMissing") None) (Some [(Field 330 [(Ident 331 (str "c") (Some 17))] 332)]) (Some (comment_text [(str "// Errors: none -- not actually true, but we want to showcasse missing error codes.")])))) (FuncType 335 [(Field 337 [(Ident 338 (str "item") (Some 18))] 339)] (Some [(Field 342 [] 343)]) 3582) (Some (Node 344 (KOther (str "*ast.BlockStmt")) [(Node 345 (KOther (str "*ast.IfStmt")) [(Node 346 (KOther (str "*ast.BinaryExpr")) [(Node 347 (KIdent (str "item") (Some 18)) []); (Node 348 (KIdent (str "nil") None) [])]); (Node 349 (KOther (str "*ast.BlockStmt")) [(Node 350 KReturn [(Node 351 (KUnary true) [(Node 352 KComposite [(Node 354 KBasicLit [])])])])])]); (Node 355 (KOther (str "*ast.IfStmt")) [(Node 356 (KOther (str "*ast.BinaryExpr")) [(Node 357 (KOther (str "*ast.BinaryExpr")) [(Node 358 (KIdent (str "c") (Some 17)) []); (Node 359 (KIdent (str "nil") None) [])]); (Node 360 (KOther (str "*ast.BinaryExpr")) [(Node 361 KSelector [(Node 362 (KIdent (str "c") (Some 17)) []); (Node 363 (KIdent (str "limit") None) [])]); (Node 364 KBasicLit [])])]); (Node 365 (KOther (str "*ast.BlockStmt")) [(Node 366 KReturn [(Node 367 (KUnary true) [(Node 368 KComposite [(Node 370 KBasicLit [])])])])])]); (Node 371 (KOther (str "*ast.IfStmt")) [(Node 372 (KOther (str "*ast.BinaryExpr")) [(Node 373 KCall [(Node 374 (KIdent (str "len") None) []); (Node 375 KSelector [(Node 376 (KIdent (str "c") (Some 17)) []); (Node 377 (KIdent (str "values") None) [])])]); (Node 378 KSelector [(Node 379 (KIdent (str "c") (Some 17)) []); (Node 380 (KIdent (str "limit") None) [])])]); (Node 381 (KOther (str "*ast.BlockStmt")) [(Node 382 KReturn [(Node 383 (KUnary true) [(Node 384 KComposite [(Node 386 KBasicLit [])])])])])]); (Node 387 (KAssign 1%nat) [(Node 388 KSelector [(Node 389 (KIdent (str "c") (Some 17)) []); (Node 390 (KIdent (str "values") None) [])]); (Node 391 KCall [(Node 392 (KIdent (str "append") None) []); (Node 393 KSelector [(Node 394 (KIdent (str "c") (Some 17)) []); (Node 395 (KIdent (str "values") None) [])]); (Node 396 (KIdent (str "item") (Some 18)) [])])]); (Node 397 KReturn [(Node 398 (KIdent (str "nil") None) [])])])) 3588 4103.
Definition t_examples_f12 : func := Func 399 (Some (DeclInfo (Ident 405 (str "AddAlt") None) (Some [(Field 401 [(Ident 402 (str "c") (Some 19))] 403)]) (Some (comment_text [(str "// AddAlt adds a non-nil value into the collection."); (str "//"); (str "// Errors:"); (str "//"); (str "//    - examples-error-invalid-arg        -- if the given argument is nil"); (str "//    - examples-error-invalid-collection -- if the given collection is nil or invalid"); (str "//    - examples-error-limit-reached      -- if the limit of values in the collection is reached")])))) (FuncType 406 [(Field 408 [(Ident 409 (str "item") (Some 20))] 410)] (Some [(Field 413 [] 414)]) 4478) (Some (Node 415 (KOther (str "*ast.BlockStmt")) [(Node 416 (KOther (str "*ast.DeclStmt")) [(Node 417 (KOther (str "*ast.GenDecl")) [(Node 418 (KValueSpec [(Ident 419 (str "err") (Some 21))] (Some 420)) [])])]); (Node 421 (KOther (str "*ast.SwitchStmt")) [(Node 422 (KOther (str "*ast.BlockStmt")) [(Node 423 (KCaseClause 1%nat) [(Node 424 (KOther (str "*ast.BinaryExpr")) [(Node 425 (KIdent (str "item") (Some 20)) []); (Node 426 (KIdent (str "nil") None) [])]); (Node 427 (KAssign 1%nat) [(Node 428 (KIdent (str "err") (Some 21)) []); (Node 429 (KUnary true) [(Node 430 KComposite [(Node 432 KBasicLit [])])])])]); (Node 433 (KCaseClause 1%nat) [(Node 434 (KOther (str "*ast.BinaryExpr")) [(Node 435 (KOther (str "*ast.BinaryExpr")) [(Node 436 (KIdent (str "c") (Some 19)) []); (Node 437 (KIdent (str "nil") None) [])]); (Node 438 (KOther (str "*ast.BinaryExpr")) [(Node 439 KSelector [(Node 440 (KIdent (str "c") (Some 19)) []); (Node 441 (KIdent (str "limit") None) [])]); (Node 442 KBasicLit [])])]); (Node 443 (KAssign 1%nat) [(Node 444 (KIdent (str "err") (Some 21)) []); (Node 445 (KUnary true) [(Node 446 KComposite [(Node 448 KBasicLit [])])])])]); (Node 449 (KCaseClause 1%nat) [(Node 450 (KOther (str "*ast.BinaryExpr")) [(Node 451 KCall [(Node 452 (KIdent (str "len") None) []); (Node 453 KSelector [(Node 454 (KIdent (str "c") (Some 19)) []); (Node 455 (KIdent (str "values") None) [])])]); (Node 456 KSelector [(Node 457 (KIdent (str "c") (Some 19)) []); (Node 458 (KIdent (str "limit") None) [])])]); (Node 459 (KAssign 1%nat) [(Node 460 (KIdent (str "err") (Some 21)) []); (Node 461 (KUnary true) [(Node 462 KComposite [(Node 464 KBasicLit [])])])])]); (Node 465 (KCaseClause 0%nat) [(Node 466 (KAssign 1%nat) [(Node 467 KSelector [(Node 468 (KIdent (str "c") (Some 19)) []); (Node 469 (KIdent (str "values") None) [])]); (Node 470 KCall [(Node 471 (KIdent (str "append") None) []); (Node 472 KSelector [(Node 473 (KIdent (str "c") (Some 19)) []); (Node 474 (KIdent (str "values") None) [])]); (Node 475 (KIdent (str "item") (Some 20)) [])])])])])]); (Node 476 KReturn [(Node 477 (KIdent (str "err") (Some 21)) [])])])) 4484 4920.
Definition t_examples_f13 : func := Func 496 (Some (DeclInfo (Ident 500 (str "Read") None) (Some [(Field 498 [] 499)]) (Some (comment_text [(str "// Read for MockedIO always returns 0."); (str "// Errors: none -- this method only returns error to comply with the interface IO.")])))) (FuncType 501 [] (Some [(Field 504 [] 505); (Field 506 [] 507)]) 5393) (Some (Node 508 (KOther (str "*ast.BlockStmt")) [(Node 509 KReturn [(Node 510 KBasicLit []); (Node 511 (KIdent (str "nil") None) [])])])) 5407 5424.
Definition t_examples_f14 : func := Func 517 (Some (DeclInfo (Ident 518 (str "TypeConstruction") (Some 22)) None (Some (comment_text [(str "// TypeConstruction shows, how type constructions are handled,"); (str "// when collecting error codes in the analyser."); (str "//"); (str "// Errors:"); (str "//"); (str "// From Error type construction:"); (str "//    - examples-error-not-implemented --"); (str "// From Error3 type construction:"); (str "//    - examples-error-closed --"); (str "//    - examples-error-flagged --"); (str "//    - examples-error-unknown --")])))) (FuncType 519 [(Field 521 [(Ident 522 (str "flag1") (Some 23)); (Ident 523 (str "flag2") (Some 24))] 524)] (Some [(Field 526 [] 527)]) 5864) (Some (Node 528 (KOther (str "*ast.BlockStmt")) [(Node 529 (KOther (str "*ast.IfStmt")) [(Node 530 (KIdent (str "flag1") (Some 23)) []); (Node 531 (KOther (str "*ast.BlockStmt")) [(Node 532 KReturn [(Node 533 (KUnary true) [(Node 534 KComposite [(Node 536 KBasicLit [])])])])])]); (Node 537 (KAssign 1%nat) [(Node 538 (KIdent (str "err") (Some 25)) []); (Node 539 (KUnary true) [(Node 540 KComposite [(Node 542 (KIdent (str "false") None) []); (Node 543 KBasicLit [])])])]); (Node 544 (KOther (str "*ast.IfStmt")) [(Node 545 (KIdent (str "flag2") (Some 24)) []); (Node 546 (KOther (str "*ast.BlockStmt")) [(Node 547 KReturn [(Node 548 (KIdent (str "err") (Some 25)) [])])])]); (Node 549 KReturn [(Node 550 (KIdent (str "nil") None) [])])])) 5870 6165.
Definition t_examples_f15 : func := Func 551 (Some (DeclInfo (Ident 552 (str "AssignmentToErrorCodeField") (Some 26)) None (Some (comment_text [(str "// AssignmentToErrorCodeField demonstrates,"); (str "// how assignments to the error code field of a type are handled,"); (str "// when collecting error codes in the analyser."); (str "//"); (str "// Errors:"); (str "//"); (str "//    - examples-error-unkown --"); (str "//    - examples-error-zero   --"); (str "//    - examples-error-one    --")])))) (FuncType 553 [(Field 555 [(Ident 556 (str "typ") (Some 27))] 557)] (Some [(Field 559 [] 560)]) 6482) (Some (Node 561 (KOther (str "*ast.BlockStmt")) [(Node 562 (KAssign 1%nat) [(Node 563 (KIdent (str "err") (Some 28)) []); (Node 564 (KUnary true) [(Node 565 KComposite [(Node 567 KBasicLit [])])])]); (Node 568 (KOther (str "*ast.SwitchStmt")) [(Node 569 (KIdent (str "typ") (Some 27)) []); (Node 570 (KOther (str "*ast.BlockStmt")) [(Node 571 (KCaseClause 1%nat) [(Node 572 KBasicLit []); (Node 573 (KAssign 1%nat) [(Node 574 KSelector [(Node 575 (KIdent (str "err") (Some 28)) []); (Node 576 (KIdent (str "TheCode") None) [])]); (Node 577 KBasicLit [])])]); (Node 578 (KCaseClause 1%nat) [(Node 579 KBasicLit []); (Node 580 (KAssign 1%nat) [(Node 581 KSelector [(Node 582 (KIdent (str "err") (Some 28)) []); (Node 583 (KIdent (str "TheCode") None) [])]); (Node 584 KBasicLit [])])]); (Node 585 (KCaseClause 0%nat) [(Node 586 (KAssign 1%nat) [(Node 587 KSelector [(Node 588 (KIdent (str "err") (Some 28)) []); (Node 589 (KIdent (str "TheCode") None) [])]); (Node 590 KCall [(Node 591 KSelector [(Node 592 (KIdent (str "fmt") None) []); (Node 593 (KIdent (str "Sprintf") None) [])]); (Node 594 KBasicLit []); (Node 595 (KIdent (str "typ") (Some 27)) [])])])])])]); (Node 596 KReturn [(Node 597 (KIdent (str "err") (Some 28)) [])])])) 6488 6957.
Definition t_examples_f16 : func := Func 598 (Some (DeclInfo (Ident 599 (str "FunctionCall") (Some 29)) None (Some (comment_text [(str "// FunctionCall demonstrates, how function calls are handled,"); (str "// when collecting error codes in the analyser."); (str "//"); (str "// Errors:"); (str "//"); (str "//    - examples-error-failed       -- failed to open file"); (str "//    - examples-error-invalid-name -- invalid file name")])))) (FuncType 600 [] (Some [(Field 603 [] 604)]) 7222) (Some (Node 605 (KOther (str "*ast.BlockStmt")) [(Node 606 KReturn [(Node 607 KCall [(Node 608 (KIdent (str "TryOpen") (Some 30)) []); (Node 609 KBasicLit [])])])])) 7228 7347.
Definition t_examples_f17 : func := Func 610 (Some (DeclInfo (Ident 611 (str "TryOpen") (Some 30)) None (Some (comment_text [(str "// Errors:"); (str "//"); (str "//    - examples-error-failed       -- failed to open file"); (str "//    - examples-error-invalid-name -- invalid file name")])))) (FuncType 612 [(Field 614 [(Ident 615 (str "fileName") (Some 31))] 616)] (Some [(Field 618 [] 619)]) 7509) (Some (Node 620 (KOther (str "*ast.BlockStmt")) [(Node 621 (KOther (str "*ast.IfStmt")) [(Node 622 (KOther (str "*ast.BinaryExpr")) [(Node 623 (KIdent (str "fileName") (Some 31)) []); (Node 624 KBasicLit [])]); (Node 625 (KOther (str "*ast.BlockStmt")) [(Node 626 KReturn [(Node 627 (KUnary true) [(Node 628 KComposite [(Node 630 KBasicLit [])])])])])]); (Node 631 KReturn [(Node 632 (KUnary true) [(Node 633 KComposite [(Node 635 KBasicLit [])])])])])) 7515 7720.
Definition t_examples_f18 : func := Func 638 (Some (DeclInfo (Ident 639 (str "Overwrite") (Some 32)) None (Some (comment_text [(str "// Overwrite uses an annotation to overwrite the actual error code examples-error-unknown"); (str "// with examples-error-overwritten for the error code analysis."); (str "//"); (str "// Errors:"); (str "//"); (str "//    - examples-error-overwritten -- error forced by annotation")])))) (FuncType 640 [] (Some [(Field 643 [] 644)]) 7993) (Some (Node 645 (KOther (str "*ast.BlockStmt")) [(Node 646 KReturn [(Node 647 (KUnary true) [(Node 648 KComposite [(Node 650 KBasicLit [])])])])])) 7999 8147.
Definition t_examples_f19 : func := Func 651 (Some (DeclInfo (Ident 652 (str "OverwriteMultiple") (Some 33)) None (Some (comment_text [(str "// OverwriteMultiple demonstrates how commas can be used in the overwrite annotation"); (str "// to set multiple error codes."); (str "//"); (str "// Errors:"); (str "//"); (str "//    - examples-error-one -- error forced by annotation"); (str "//    - examples-error-two -- error forced by annotation")])))) (FuncType 653 [(Field 655 [(Ident 656 (str "index") (Some 34))] 657)] (Some [(Field 659 [] 660)]) 8431) (Some (Node 661 (KOther (str "*ast.BlockStmt")) [(Node 662 (KAssign 1%nat) [(Node 663 (KIdent (str "errors") (Some 35)) []); (Node 664 KComposite [(Node 667 (KIdent (str "nil") None) []); (Node 668 (KUnary true) [(Node 669 KComposite [(Node 671 KBasicLit [])])]); (Node 672 (KUnary true) [(Node 673 KComposite [(Node 675 KBasicLit [])])])])]); (Node 676 KReturn [(Node 677 KIndex [(Node 678 (KIdent (str "errors") (Some 35)) []); (Node 679 (KIdent (str "index") (Some 34)) [])])])])) 8437 8691.
Definition t_examples_f20 : func := Func 680 (Some (DeclInfo (Ident 681 (str "MultipleCodes") (Some 36)) None (Some (comment_text [(str "// Errors:"); (str "//"); (str "//    - examples-error-one   --"); (str "//    - examples-error-two   --"); (str "//    - examples-error-three --")])))) (FuncType 682 [] (Some [(Field 685 [] 686)]) 8824) (Some (Node 688 (KOther (str "*ast.BlockStmt")) [(Node 689 (KOther (str "*ast.SwitchStmt")) [(Node 690 (KOther (str "*ast.BlockStmt")) [(Node 691 (KCaseClause 1%nat) [(Node 692 (KIdent (str "true") None) []); (Node 693 KReturn [(Node 694 (KUnary true) [(Node 695 KComposite [(Node 697 KBasicLit [])])])])]); (Node 698 (KCaseClause 1%nat) [(Node 699 (KIdent (str "true") None) []); (Node 700 KReturn [(Node 701 (KUnary true) [(Node 702 KComposite [(Node 704 KBasicLit [])])])])]); (Node 705 (KCaseClause 1%nat) [(Node 706 (KIdent (str "true") None) []); (Node 707 KReturn [(Node 708 (KUnary true) [(Node 709 KComposite [(Node 711 KBasicLit [])])])])])])]); (Node 712 KReturn [(Node 713 (KIdent (str "nil") None) [])])])) 8831 9106.
Definition t_examples_f21 : func := Func 714 (Some (DeclInfo (Ident 715 (str "HandleErrorOne") (Some 37)) None None)) (FuncType 716 [(Field 718 [(Ident 719 (str "err") (Some 38))] 720)] None 0) (Some (Node 722 (KOther (str "*ast.BlockStmt")) [])) 9140 9153.
Definition t_examples_f22 : func := Func 723 (Some (DeclInfo (Ident 724 (str "SubtractCode") (Some 39)) None (Some (comment_text [(str "// SubtractCode handles the error code examples-error-one and therefore uses an"); (str "// annotation to get rid of it when returning the error."); (str "//"); (str "// Errors:"); (str "//"); (str "//    - examples-error-two   --"); (str "//    - examples-error-three --")])))) (FuncType 725 [] (Some [(Field 728 [] 729)]) 9393) (Some (Node 730 (KOther (str "*ast.BlockStmt")) [(Node 731 (KOther (str "*ast.SwitchStmt")) [(Node 732 (KAssign 1%nat) [(Node 733 (KIdent (str "err") (Some 40)) []); (Node 734 KCall [(Node 735 (KIdent (str "MultipleCodes") (Some 36)) [])])]); (Node 736 KCall [(Node 737 KSelector [(Node 738 (KIdent (str "err") (Some 40)) []); (Node 739 (KIdent (str "Code") None) [])])]); (Node 740 (KOther (str "*ast.BlockStmt")) [(Node 741 (KCaseClause 1%nat) [(Node 742 KBasicLit []); (Node 743 KReturn [(Node 744 (KIdent (str "nil") None) [])])]); (Node 745 (KCaseClause 1%nat) [(Node 746 KBasicLit []); (Node 747 (KOther (str "*ast.ExprStmt")) [(Node 748 KCall [(Node 749 (KIdent (str "HandleErrorOne") (Some 37)) []); (Node 750 (KIdent (str "err") (Some 40)) [])])]); (Node 751 KReturn [(Node 752 (KIdent (str "nil") None) [])])]); (Node 753 (KCaseClause 0%nat) [(Node 754 KReturn [(Node 755 (KIdent (str "err") (Some 40)) [])])])])])])) 9399 9718.
Definition t_examples_f23 : func := Func 756 (Some (DeclInfo (Ident 757 (str "AddSubCode") (Some 41)) None (Some (comment_text [(str "// Errors:"); (str "//"); (str "//    - examples-error-one   --"); (str "//    - examples-error-extra --")])))) (FuncType 758 [] (Some [(Field 761 [] 762)]) 9816) (Some (Node 763 (KOther (str "*ast.BlockStmt")) [(Node 764 (KAssign 1%nat) [(Node 765 (KIdent (str "err") (Some 42)) []); (Node 766 KCall [(Node 767 (KIdent (str "MultipleCodes") (Some 36)) [])])]); (Node 768 KReturn [(Node 769 (KIdent (str "err") (Some 42)) [])])])) 9822 10014.
Definition t_examples_f24 : func := Func 770 (Some (DeclInfo (Ident 771 (str "AssignmentProblem") (Some 43)) None (Some (comment_text [(str "// AssignmentProblem showcases error code field assignment not being"); (str "// removed when using the remove annotation."); (str "//"); (str "// Errors:"); (str "//"); (str "//    - assigned-error --")])))) (FuncType 772 [] (Some [(Field 775 [] 776)]) 10198) (Some (Node 777 (KOther (str "*ast.BlockStmt")) [(Node 778 (KAssign 1%nat) [(Node 779 (KIdent (str "err") (Some 44)) []); (Node 780 (KUnary true) [(Node 781 KComposite [])])]); (Node 783 (KAssign 1%nat) [(Node 784 KSelector [(Node 785 (KIdent (str "err") (Some 44)) []); (Node 786 (KIdent (str "TheCode") None) [])]); (Node 787 KBasicLit [])]); (Node 788 KReturn [(Node 789 (KIdent (str "err") (Some 44)) [])])])) 10204 10357.
Definition t_examples_f25 : func := Func 827 (Some (DeclInfo (Ident 833 (str "Put") None) (Some [(Field 829 [(Ident 830 (str "b") (Some 45))] 831)]) (Some (comment_text [(str "// Errors:"); (str "//"); (str "//    - examples-error-arg-nil -- if the given value is nil"); (str "//    - examples-error-invalid -- if the box already holds a value")])))) (FuncType 834 [(Field 836 [(Ident 837 (str "value") (Some 46))] 838)] (Some [(Field 841 [] 842)]) 11257) (Some (Node 843 (KOther (str "*ast.BlockStmt")) [(Node 844 (KOther (str "*ast.IfStmt")) [(Node 845 (KOther (str "*ast.BinaryExpr")) [(Node 846 (KIdent (str "value") (Some 46)) []); (Node 847 (KIdent (str "nil") None) [])]); (Node 848 (KOther (str "*ast.BlockStmt")) [(Node 849 KReturn [(Node 850 (KUnary true) [(Node 851 KComposite [(Node 853 KBasicLit [])])])])])]); (Node 854 (KOther (str "*ast.IfStmt")) [(Node 855 (KOther (str "*ast.BinaryExpr")) [(Node 856 (KOther (str "*ast.BinaryExpr")) [(Node 857 (KIdent (str "b") (Some 45)) []); (Node 858 (KIdent (str "nil") None) [])]); (Node 859 (KOther (str "*ast.BinaryExpr")) [(Node 860 KSelector [(Node 861 (KIdent (str "b") (Some 45)) []); (Node 862 (KIdent (str "value") None) [])]); (Node 863 (KIdent (str "nil") None) [])])]); (Node 864 (KOther (str "*ast.BlockStmt")) [(Node 865 KReturn [(Node 866 (KUnary true) [(Node 867 KComposite [(Node 869 KBasicLit [])])])])])]); (Node 870 (KAssign 1%nat) [(Node 871 KSelector [(Node 872 (KIdent (str "b") (Some 45)) []); (Node 873 (KIdent (str "value") None) [])]); (Node 874 (KIdent (str "value") (Some 46)) [])]); (Node 875 KReturn [(Node 876 (KIdent (str "nil") None) [])])])) 11263 11511.
Definition t_examples_f26 : func := Func 877 (Some (DeclInfo (Ident 883 (str "Pop") None) (Some [(Field 879 [(Ident 880 (str "b") (Some 47))] 881)]) (Some (comment_text [(str "// Errors:"); (str "//"); (str "//    - examples-error-invalid -- if the box was empty")])))) (FuncType 884 [] (Some [(Field 887 [] 888); (Field 890 [] 891)]) 11606) (Some (Node 892 (KOther (str "*ast.BlockStmt")) [(Node 893 (KOther (str "*ast.IfStmt")) [(Node 894 (KOther (str "*ast.BinaryExpr")) [(Node 895 (KOther (str "*ast.BinaryExpr")) [(Node 896 (KIdent (str "b") (Some 47)) []); (Node 897 (KIdent (str "nil") None) [])]); (Node 898 (KOther (str "*ast.BinaryExpr")) [(Node 899 KSelector [(Node 900 (KIdent (str "b") (Some 47)) []); (Node 901 (KIdent (str "value") None) [])]); (Node 902 (KIdent (str "nil") None) [])])]); (Node 903 (KOther (str "*ast.BlockStmt")) [(Node 904 KReturn [(Node 905 (KIdent (str "nil") None) []); (Node 906 (KUnary true) [(Node 907 KComposite [(Node 909 KBasicLit [])])])])])]); (Node 910 (KAssign 1%nat) [(Node 911 KSelector [(Node 912 (KIdent (str "b") (Some 47)) []); (Node 913 (KIdent (str "value") None) [])]); (Node 914 (KIdent (str "nil") None) [])]); (Node 915 KReturn [(Node 916 KSelector [(Node 917 (KIdent (str "b") (Some 47)) []); (Node 918 (KIdent (str "value") None) [])]); (Node 919 (KIdent (str "nil") None) [])])])) 11627 11799.
Definition t_examples_f27 : func := Func 920 (Some (DeclInfo (Ident 921 (str "UseBoxImplAsBox") (Some 48)) None (Some (comment_text [(str "// UseBoxImplAsBox converts BoxImpl to the interface Box,"); (str "// showing that it can be used that way.")])))) (FuncType 922 [] None 0) (Some (Node 924 (KOther (str "*ast.BlockStmt")) [(Node 925 (KOther (str "*ast.DeclStmt")) [(Node 926 (KOther (str "*ast.GenDecl")) [(Node 927 (KValueSpec [(Ident 928 (str "b") (Some 49))] (Some 929)) [(Node 930 (KUnary true) [(Node 931 KComposite [])])])])]); (Node 933 (KOther (str "*ast.ExprStmt")) [(Node 934 KCall [(Node 935 KSelector [(Node 936 (KIdent (str "b") (Some 49)) []); (Node 937 (KIdent (str "Put") None) [])]); (Node 938 (KIdent (str "b") (Some 49)) [])])])])) 11923 11960.
Definition t_examples_f28 : func := Func 944 (Some (DeclInfo (Ident 950 (str "Put") None) (Some [(Field 946 [(Ident 947 (str "b") (Some 50))] 948)]) (Some (comment_text [(str "// Errors:"); (str "//"); (str "//    - examples-error-not-implemented --")])))) (FuncType 951 [(Field 953 [(Ident 954 (str "value") (Some 51))] 955)] (Some [(Field 958 [] 959)]) 12096) (Some (Node 960 (KOther (str "*ast.BlockStmt")) [(Node 961 KReturn [(Node 962 (KUnary true) [(Node 963 KComposite [(Node 965 KBasicLit [])])])])])) 12102 12211.
Definition t_examples_f29 : func := Func 966 (Some (DeclInfo (Ident 972 (str "Pop") None) (Some [(Field 968 [(Ident 969 (str "b") (Some 52))] 970)]) (Some (comment_text [(str "// Errors:"); (str "//"); (str "//    - examples-error-not-implemented --")])))) (FuncType 973 [] (Some [(Field 976 [] 977); (Field 979 [] 980)]) 12300) (Some (Node 981 (KOther (str "*ast.BlockStmt")) [(Node 982 KReturn [(Node 983 (KIdent (str "nil") None) []); (Node 984 (KUnary true) [(Node 985 KComposite [(Node 987 KBasicLit [])])])])])) 12321 12435.
Definition t_examples_f30 : func := Func 988 (Some (DeclInfo (Ident 989 (str "UseBoxInvalidImplAsBox") (Some 53)) None (Some (comment_text [(str "// UseBoxInvalidImplAsBox converts BoxInvalidImpl to the interface Box,"); (str "// showing that the analyser flags this as a problem.")])))) (FuncType 990 [] None 0) (Some (Node 992 (KOther (str "*ast.BlockStmt")) [(Node 993 (KOther (str "*ast.DeclStmt")) [(Node 994 (KOther (str "*ast.GenDecl")) [(Node 995 (KValueSpec [(Ident 996 (str "b") (Some 54))] (Some 997)) [(Node 998 (KUnary true) [(Node 999 KComposite [])])])])]); (Node 1001 (KOther (str "*ast.ExprStmt")) [(Node 1002 KCall [(Node 1003 KSelector [(Node 1004 (KIdent (str "b") (Some 54)) []); (Node 1005 (KIdent (str "Put") None) [])]); (Node 1006 (KIdent (str "b") (Some 54)) [])])])])) 12593 12976.
Definition t_examples_f31 : func := Func 1044 (Some (DeclInfo (Ident 1045 (str "NewError") (Some 55)) None (Some (comment_text [(str "// NewError creates an Error with the given error code."); (str "//"); (str "// Errors:"); (str "//"); (str "//    - param: code -- error code parameter")])))) (FuncType 1046 [(Field 1048 [(Ident 1049 (str "code") (Some 56))] 1050)] (Some [(Field 1052 [] 1053)]) 13845) (Some (Node 1055 (KOther (str "*ast.BlockStmt")) [(Node 1056 KReturn [(Node 1057 (KUnary true) [(Node 1058 KComposite [(Node 1060 (KIdent (str "code") (Some 56)) [])])])])])) 13852 13958.
Definition t_examples_f32 : func := Func 1061 (Some (DeclInfo (Ident 1062 (str "NewError3") (Some 57)) None (Some (comment_text [(str "// NewError3 creates an Error3 with the given error code."); (str "//"); (str "// Errors:"); (str "//"); (str "//    - param: c               -- error code parameter, which is set if flag is true"); (str "//    - examples-error-unknown --"); (str "//    - examples-error-flagged --")])))) (FuncType 1063 [(Field 1065 [(Ident 1066 (str "flag") (Some 58))] 1067); (Field 1068 [(Ident 1069 (str "c") (Some 59))] 1070)] (Some [(Field 1072 [] 1073)]) 14224) (Some (Node 1075 (KOther (str "*ast.BlockStmt")) [(Node 1076 (KAssign 1%nat) [(Node 1077 (KIdent (str "err") (Some 60)) []); (Node 1078 (KUnary true) [(Node 1079 KComposite [(Node 1081 (KIdent (str "flag") (Some 58)) []); (Node 1082 KBasicLit [])])])]); (Node 1083 (KOther (str "*ast.IfStmt")) [(Node 1084 (KIdent (str "flag") (Some 58)) []); (Node 1085 (KOther (str "*ast.BlockStmt")) [(Node 1086 (KAssign 1%nat) [(Node 1087 KSelector [(Node 1088 (KIdent (str "err") (Some 60)) []); (Node 1089 (KIdent (str "code") None) [])]); (Node 1090 (KIdent (str "c") (Some 59)) [])])])]); (Node 1091 KReturn [(Node 1092 (KIdent (str "err") (Some 60)) [])])])) 14232 14454.
Definition t_examples_f33 : func := Func 1093 (Some (DeclInfo (Ident 1094 (str "CallConstructor") (Some 61)) None (Some (comment_text [(str "// Errors:"); (str "//"); (str "//    - examples-error-not-implemented --")])))) (FuncType 1095 [] (Some [(Field 1098 [] 1099)]) 14535) (Some (Node 1100 (KOther (str "*ast.BlockStmt")) [(Node 1101 KReturn [(Node 1102 KCall [(Node 1103 (KIdent (str "NewError") (Some 55)) []); (Node 1104 KBasicLit [])])])])) 14541 14664.
Definition t_examples_f34 : func := Func 1105 (Some (DeclInfo (Ident 1106 (str "NewGeneralError") (Some 62)) None (Some (comment_text [(str "// Errors:"); (str "//"); (str "//    - param: errorCode       --"); (str "//    - examples-error-unknown --"); (str "//    - examples-error-flagged --")])))) (FuncType 1107 [(Field 1109 [(Ident 1110 (str "flag") (Some 63))] 1111); (Field 1112 [(Ident 1113 (str "errorCode") (Some 64))] 1114)] (Some [(Field 1116 [] 1117)]) 14832) (Some (Node 1118 (KOther (str "*ast.BlockStmt")) [(Node 1119 (KOther (str "*ast.IfStmt")) [(Node 1120 (KIdent (str "flag") (Some 63)) []); (Node 1121 (KOther (str "*ast.BlockStmt")) [(Node 1122 KReturn [(Node 1123 KCall [(Node 1124 (KIdent (str "NewError3") (Some 57)) []); (Node 1125 (KIdent (str "flag") (Some 63)) []); (Node 1126 (KIdent (str "errorCode") (Some 64)) [])])])])]); (Node 1127 KReturn [(Node 1128 KCall [(Node 1129 (KIdent (str "NewError") (Some 55)) []); (Node 1130 (KIdent (str "errorCode") (Some 64)) [])])])])) 14838 15061.
Definition t_examples_f35 : func := Func 1133 (Some (DeclInfo (Ident 1134 (str "CallModifyError") (Some 65)) None (Some (comment_text [(str "// Errors:"); (str "//"); (str "//    - examples-error-invalid --")])))) (FuncType 1135 [] (Some [(Field 1138 [] 1139)]) 15152) (Some (Node 1140 (KOther (str "*ast.BlockStmt")) [(Node 1141 (KAssign 1%nat) [(Node 1142 (KIdent (str "err") (Some 66)) []); (Node 1143 (KUnary true) [(Node 1144 KComposite [(Node 1146 KBasicLit [])])])]); (Node 1147 (KOther (str "*ast.ExprStmt")) [(Node 1148 KCall [(Node 1149 (KIdent (str "ModifyError") (Some 67)) []); (Node 1150 (KIdent (str "err") (Some 66)) [])])]); (Node 1151 KReturn [(Node 1152 (KIdent (str "err") (Some 66)) [])])])) 15158 15293.
Definition t_examples_f36 : func := Func 1153 (Some (DeclInfo (Ident 1154 (str "ModifyError") (Some 67)) None None)) (FuncType 1155 [(Field 1157 [(Ident 1158 (str "err") (Some 68))] 1159)] None 0) (Some (Node 1161 (KOther (str "*ast.BlockStmt")) [(Node 1162 (KAssign 1%nat) [(Node 1163 KSelector [(Node 1164 (KIdent (str "err") (Some 68)) []); (Node 1165 (KIdent (str "TheCode") None) [])]); (Node 1166 KBasicLit [])])])) 15324 15363.
Definition t_examples_f37 : func := Func 1167 (Some (DeclInfo (Ident 1168 (str "DeadBranchError") (Some 69)) None (Some (comment_text [(str "// Errors:"); (str "//"); (str "//    - example-error-unreachable -- is never actually returned")])))) (FuncType 1169 [] (Some [(Field 1172 [] 1173)]) 15466) (Some (Node 1174 (KOther (str "*ast.BlockStmt")) [(Node 1175 (KOther (str "*ast.IfStmt")) [(Node 1176 (KIdent (str "false") None) []); (Node 1177 (KOther (str "*ast.BlockStmt")) [(Node 1178 KReturn [(Node 1179 (KUnary true) [(Node 1180 KComposite [(Node 1182 KBasicLit [])])])])])]); (Node 1183 KReturn [(Node 1184 (KIdent (str "nil") None) [])])])) 15472 15611.
Definition t_examples_f38 : func := Func 1185 (Some (DeclInfo (Ident 1186 (str "ErrorNotLast") (Some 70)) None None)) (FuncType 1187 [] (Some [(Field 1190 [] 1191); (Field 1192 [] 1193)]) 15633) (Some (Node 1194 (KOther (str "*ast.BlockStmt")) [(Node 1195 KReturn [(Node 1196 (KIdent (str "nil") None) []); (Node 1197 KBasicLit [])])])) 15649 15724.
Definition t_examples_gendecls : list gendecl := [GenDecl 3 [None; None]; GenDecl 8 [(Some (TypeSpec (Ident 10 (str "Error") (Some 71)) (XStruct [[(Ident 14 (str "TheCode") None)]])))]; GenDecl 50 [(Some (TypeSpec (Ident 52 (str "Error2") (Some 9)) XOther))]; GenDecl 54 [None; None; None; None]; GenDecl 142 [(Some (TypeSpec (Ident 144 (str "Error3") (Some 72)) (XStruct [[(Ident 148 (str "flag") None)]; [(Ident 151 (str "code") None)]])))]; GenDecl 223 [(Some (TypeSpec (Ident 225 (str "Collection") (Some 73)) (XStruct [[(Ident 229 (str "values") None)]; [(Ident 234 (str "limit") None)]])))]; GenDecl 417 [None]; GenDecl 478 [(Some (TypeSpec (Ident 480 (str "IO") (Some 74)) (XInterface 481 [IMethod 483 (Ident 484 (str "Read") None) (Some (comment_text [(str "// Errors:"); (str "//"); (str "//    - examples-error-io         -- if a general io error occurs"); (str "//    - examples-error-disconnect -- if the peer disconnected")])) (FuncType 485 [] (Some [(Field 488 [] 489); (Field 490 [] 491)]) 5138)]))); (Some (TypeSpec (Ident 493 (str "MockedIO") (Some 75)) (XStruct [])))]; GenDecl 514 [None]; GenDecl 792 [(Some (TypeSpec (Ident 794 (str "Box") (Some 77)) (XInterface 795 [IMethod 797 (Ident 798 (str "Put") None) (Some (comment_text [(str "// Put makes the box store the given value."); (str "//"); (str "// Errors:"); (str "//"); (str "//    - examples-error-arg-nil -- if the given value is nil"); (str "//    - examples-error-invalid -- if the box already holds a value"); (str "//    - examples-error-unknown -- if an unexpected error occurred")])) (FuncType 799 [(Field 801 [(Ident 802 (str "value") (Some 76))] 803)] (Some [(Field 806 [] 807)]) 10721); IMethod 808 (Ident 809 (str "Pop") None) (Some (comment_text [(str "// Pop retrieves the value stored in the box and removes it from the box."); (str "//"); (str "// Errors:"); (str "//"); (str "//    - examples-error-invalid -- if the box was empty")])) (FuncType 810 [] (Some [(Field 813 [] 814); (Field 816 [] 817)]) 10958)])))]; GenDecl 818 [(Some (TypeSpec (Ident 820 (str "BoxImpl") (Some 78)) (XStruct [[(Ident 824 (str "value") None)]])))]; GenDecl 926 [None]; GenDecl 939 [(Some (TypeSpec (Ident 941 (str "BoxInvalidImpl") (Some 79)) (XStruct [])))]; GenDecl 994 [None]; GenDecl 1007 [(Some (TypeSpec (Ident 1009 (str "Box2") (Some 81)) (XInterface 1010 [IMethod 1012 (Ident 1013 (str "Put") None) (Some (comment_text [(str "// Put makes the box store the given value."); (str "//"); (str "// Errors: none")])) (FuncType 1014 [(Field 1016 [(Ident 1017 (str "value") (Some 80))] 1018)] (Some [(Field 1021 [] 1022)]) 13129); IMethod 1023 (Ident 1024 (str "Pop") None) (Some (comment_text [(str "// Pop retrieves the value stored in the box and removes it from the box."); (str "//"); (str "// Errors:"); (str "//"); (str "//    - examples-error-invalid -- in case of an invalid operation")])) (FuncType 1025 [] (Some [(Field 1028 [] 1029); (Field 1031 [] 1032)]) 13331)])))]; GenDecl 1033 [(Some (TypeSpec (Ident 1035 (str "EmbeddingBox") (Some 82)) (XInterface 1036 [IEmbed 1039 (str "Box"); IEmbed 1041 (str "Box2")])))]].
Definition t_examples_top : list topdecl := [TopNode (Node 3 (KOther (str "*ast.GenDecl")) [(Node 4 (KOther (str "*ast.ImportSpec")) []); (Node 6 (KOther (str "*ast.ImportSpec")) [])]); TopNode (Node 8 (KOther (str "*ast.GenDecl")) [(Node 9 (KOther (str "*ast.TypeSpec")) [])]); TopFunc 1; TopFunc 2; TopNode (Node 50 (KOther (str "*ast.GenDecl")) [(Node 51 (KOther (str "*ast.TypeSpec")) [])]); TopNode (Node 54 (KOther (str "*ast.GenDecl")) [(Node 55 (KValueSpec [(Ident 56 (str "errorPrefix") (Some 83))] None) [(Node 57 KBasicLit [])]); (Node 58 (KValueSpec [(Ident 59 (str "ErrorEmpty") (Some 5))] None) [(Node 60 (KOther (str "*ast.BinaryExpr")) [(Node 61 (KIdent (str "errorPrefix") (Some 83)) []); (Node 62 KBasicLit [])])]); (Node 63 (KValueSpec [(Ident 64 (str "ErrorDisconnect") (Some 6))] None) [(Node 65 (KOther (str "*ast.BinaryExpr")) [(Node 66 (KIdent (str "errorPrefix") (Some 83)) []); (Node 67 KBasicLit [])])]); (Node 68 (KValueSpec [(Ident 69 (str "ErrorUnknown") (Some 7))] None) [(Node 70 (KOther (str "*ast.BinaryExpr")) [(Node 71 (KIdent (str "errorPrefix") (Some 83)) []); (Node 72 KBasicLit [])])])]); TopFunc 3; TopFunc 4; TopFunc 5; TopNode (Node 142 (KOther (str "*ast.GenDecl")) [(Node 143 (KOther (str "*ast.TypeSpec")) [])]); TopFunc 6; TopFunc 7; TopFunc 8; TopNode (Node 223 (KOther (str "*ast.GenDecl")) [(Node 224 (KOther (str "*ast.TypeSpec")) [])]); TopFunc 9; TopFunc 10; TopFunc 11; TopFunc 12; TopNode (Node 478 (KOther (str "*ast.GenDecl")) [(Node 479 (KOther (str "*ast.TypeSpec")) []); (Node 492 (KOther (str "*ast.TypeSpec")) [])]); TopFunc 13; TopNode (Node 514 (KOther (str "*ast.GenDecl")) [(Node 515 (KOther (str "*ast.ImportSpec")) [])]); TopFunc 14; TopFunc 15; TopFunc 16; TopFunc 17; TopFunc 18; TopFunc 19; TopFunc 20; TopFunc 21; TopFunc 22; TopFunc 23; TopFunc 24; TopNode (Node 792 (KOther (str "*ast.GenDecl")) [(Node 793 (KOther (str "*ast.TypeSpec")) [])]); TopNode (Node 818 (KOther (str "*ast.GenDecl")) [(Node 819 (KOther (str "*ast.TypeSpec")) [])]); TopFunc 25; TopFunc 26; TopFunc 27; TopNode (Node 939 (KOther (str "*ast.GenDecl")) [(Node 940 (KOther (str "*ast.TypeSpec")) [])]); TopFunc 28; TopFunc 29; TopFunc 30; TopNode (Node 1007 (KOther (str "*ast.GenDecl")) [(Node 1008 (KOther (str "*ast.TypeSpec")) [])]); TopNode (Node 1033 (KOther (str "*ast.GenDecl")) [(Node 1034 (KOther (str "*ast.TypeSpec")) [])]); TopFunc 31; TopFunc 32; TopFunc 33; TopFunc 34; TopFunc 35; TopFunc 36; TopFunc 37; TopFunc 38].
Definition t_examples_objs : list (N * object) := [(1, Object true 164 DOther); (2, Object true 216 DOther); (3, Object true 584 DOther); (4, Object true 661 DOther); (5, Object false 446 (DValueSpec [(Ident 59 (str "ErrorEmpty") (Some 5))] [(Node 60 (KOther (str "*ast.BinaryExpr")) [(Node 61 (KIdent (str "errorPrefix") (Some 83)) []); (Node 62 KBasicLit [])])])); (6, Object false 487 (DValueSpec [(Ident 64 (str "ErrorDisconnect") (Some 6))] [(Node 65 (KOther (str "*ast.BinaryExpr")) [(Node 66 (KIdent (str "errorPrefix") (Some 83)) []); (Node 67 KBasicLit [])])])); (7, Object false 533 (DValueSpec [(Ident 69 (str "ErrorUnknown") (Some 7))] [(Node 70 (KOther (str "*ast.BinaryExpr")) [(Node 71 (KIdent (str "errorPrefix") (Some 83)) []); (Node 72 KBasicLit [])])])); (8, Object false 982 (DFunc 5)); (9, Object false 268 DType); (10, Object true 1313 DOther); (11, Object true 1363 DOther); (12, Object false 1661 (DFunc 8)); (13, Object true 2268 DOther); (14, Object true 2287 DOther); (15, Object true 3054 DOther); (16, Object true 3079 DOther); (17, Object true 3538 DOther); (18, Object true 3564 DOther); (19, Object true 4438 DOther); (20, Object true 4460 DOther); (21, Object true 4610 (DValueSpec [(Ident 419 (str "err") (Some 21))] [])); (22, Object false 5828 (DFunc 14)); (23, Object true 5845 DOther); (24, Object true 5852 DOther); (25, Object true 6077 DOther); (26, Object false 6446 (DFunc 15)); (27, Object true 6473 DOther); (28, Object true 6601 DOther); (29, Object false 7207 (DFunc 16)); (30, Object false 7484 (DFunc 17)); (31, Object true 7492 DOther); (32, Object false 7981 (DFunc 18)); (33, Object false 8402 (DFunc 19)); (34, Object true 8420 DOther); (35, Object true 8518 DOther); (36, Object false 8808 (DFunc 20)); (37, Object false 9113 (DFunc 21)); (38, Object true 9128 DOther); (39, Object false 9378 (DFunc 22)); (40, Object true 9484 DOther); (41, Object false 9803 (DFunc 23)); (42, Object true 9898 DOther); (43, Object false 10178 (DFunc 24)); (44, Object true 10262 DOther); (45, Object true 11222 DOther); (46, Object true 11238 DOther); (47, Object true 11588 DOther); (48, Object false 11905 (DFunc 27)); (49, Object true 11930 (DValueSpec [(Ident 928 (str "b") (Some 49))] [(Node 930 (KUnary true) [(Node 931 KComposite [])])])); (50, Object true 12054 DOther); (51, Object true 12077 DOther); (52, Object true 12275 DOther); (53, Object false 12568 (DFunc 30)); (54, Object true 12600 (DValueSpec [(Ident 996 (str "b") (Some 54))] [(Node 998 (KUnary true) [(Node 999 KComposite [])])])); (55, Object false 13823 (DFunc 31)); (56, Object true 13832 DOther); (57, Object false 14193 (DFunc 32)); (58, Object true 14203 DOther); (59, Object true 14214 DOther); (60, Object true 14365 DOther); (61, Object false 14517 (DFunc 33)); (62, Object false 14787 (DFunc 34)); (63, Object true 14803 DOther); (64, Object true 14814 DOther); (65, Object false 15134 (DFunc 35)); (66, Object true 15222 DOther); (67, Object false 15300 (DFunc 36)); (68, Object true 15312 DOther); (69, Object false 15448 (DFunc 37)); (70, Object false 15618 (DFunc 38)); (71, Object false 54 DType); (72, Object false 1151 DType); (73, Object false 1881 DType); (74, Object false 4930 DType); (75, Object false 5227 DType); (76, Object true 10702 DOther); (77, Object false 10382 DType); (78, Object false 11036 DType); (79, Object false 11967 DType); (80, Object true 13110 DOther); (81, Object false 12983 DType); (82, Object false 13409 DType); (83, Object false 409 (DValueSpec [(Ident 56 (str "errorPrefix") (Some 83))] [(Node 57 KBasicLit [])]))].
Definition t_examples_types : list (N * gotype) := [(10, (TNamed 50)); (11, (TStruct [((str "TheCode"), (TBasic (str "string")))])); (14, (TBasic (str "string"))); (15, (TBasic (str "string"))); (19, (TPointer (TNamed 50))); (20, (TPointer (TNamed 50))); (21, (TNamed 50)); (23, (TSignature [] [(TBasic (str "string"))] false)); (27, (TBasic (str "string"))); (30, (TBasic (str "string"))); (31, (TPointer (TNamed 50))); (32, (TBasic (str "string"))); (36, (TPointer (TNamed 50))); (37, (TPointer (TNamed 50))); (38, (TNamed 50)); (40, (TSignature [] [(TBasic (str "string"))] false)); (44, (TBasic (str "string"))); (47, (TBasic (str "string"))); (48, (TPointer (TNamed 50))); (49, (TBasic (str "string"))); (52, (TNamed 53)); (53, (TBasic (str "string"))); (56, (TBasic (str "string"))); (57, (TBasic (str "string"))); (59, (TBasic (str "string"))); (60, (TBasic (str "string"))); (61, (TBasic (str "string"))); (62, (TBasic (str "string"))); (64, (TBasic (str "string"))); (65, (TBasic (str "string"))); (66, (TBasic (str "string"))); (67, (TBasic (str "string"))); (69, (TBasic (str "string"))); (70, (TBasic (str "string"))); (71, (TBasic (str "string"))); (72, (TBasic (str "string"))); (76, (TNamed 53)); (77, (TNamed 53)); (79, (TSignature [] [(TBasic (str "string"))] false)); (83, (TBasic (str "string"))); (86, (TBasic (str "string"))); (87, (TSignature [(TBasic (str "string")); (TSlice (TInterface 4))] [(TBasic (str "string"))] true)); (89, (TSignature [(TBasic (str "string")); (TSlice (TInterface 4))] [(TBasic (str "string"))] true)); (90, (TBasic (str "string"))); (91, (TBasic (str "string"))); (92, (TSignature [] [(TBasic (str "string"))] false)); (93, (TNamed 53)); (94, (TSignature [] [(TBasic (str "string"))] false)); (95, (TNamed 53)); (99, (TNamed 53)); (100, (TNamed 53)); (102, (TSignature [] [(TBasic (str "string"))] false)); (106, (TBasic (str "string"))); (111, (TBasic (str "bool"))); (112, (TNamed 53)); (113, (TNamed 53)); (115, (TBasic (str "string"))); (117, (TBasic (str "bool"))); (118, (TSignature [(TBasic (str "string")); (TBasic (str "string"))] [(TBasic (str "bool"))] false)); (120, (TSignature [(TBasic (str "string")); (TBasic (str "string"))] [(TBasic (str "bool"))] false)); (121, (TBasic (str "string"))); (122, (TBasic (str "string"))); (123, (TNamed 53)); (124, (TBasic (str "string"))); (126, (TBasic (str "string"))); (129, (TBasic (str "string"))); (132, (TSignature [] [(TNamed 53)] false)); (136, (TNamed 53)); (139, (TNamed 53)); (140, (TNamed 53)); (141, (TNamed 53)); (144, (TNamed 61)); (145, (TStruct [((str "flag"), (TBasic (str "bool"))); ((str "code"), (TBasic (str "string")))])); (148, (TBasic (str "bool"))); (149, (TBasic (str "bool"))); (151, (TBasic (str "string"))); (152, (TBasic (str "string"))); (156, (TPointer (TNamed 61))); (157, (TPointer (TNamed 61))); (158, (TNamed 61)); (160, (TSignature [] [(TBasic (str "string"))] false)); (164, (TBasic (str "string"))); (167, (TBasic (str "string"))); (168, (TPointer (TNamed 61))); (169, (TBasic (str "string"))); (173, (TPointer (TNamed 61))); (174, (TPointer (TNamed 61))); (175, (TNamed 61)); (177, (TSignature [] [(TBasic (str "string"))] false)); (181, (TBasic (str "string"))); (184, (TBasic (str "bool"))); (185, (TPointer (TNamed 61))); (186, (TBasic (str "bool"))); (189, (TBasic (str "string"))); (190, (TPointer (TNamed 61))); (191, (TBasic (str "string"))); (192, (TBasic (str "string"))); (194, (TBasic (str "bool"))); (195, (TBasic (str "string"))); (196, (TPointer (TNamed 61))); (197, (TBasic (str "string"))); (198, (TBasic (str "string"))); (201, (TBasic (str "string"))); (203, (TBasic (str "string"))); (204, (TPointer (TNamed 61))); (205, (TBasic (str "string"))); (208, (TSignature [] [(TPointer (TNamed 61))] false)); (212, (TPointer (TNamed 61))); (213, (TNamed 61)); (216, (TPointer (TNamed 61))); (217, (TNamed 61)); (218, (TNamed 61)); (219, (TBasic (str "bool"))); (220, (TBasic (str "string"))); (225, (TNamed 65)); (226, (TStruct [((str "values"), (TSlice (TInterface 4))); ((str "limit"), (TBasic (str "int")))])); (229, (TSlice (TInterface 4))); (230, (TSlice (TInterface 4))); (231, (TInterface 4)); (234, (TBasic (str "int"))); (235, (TBasic (str "int"))); (239, (TPointer (TNamed 65))); (240, (TPointer (TNamed 65))); (241, (TNamed 65)); (243, (TSignature [(TInterface 4)] [(TNamed 1)] false)); (246, (TInterface 4)); (247, (TInterface 4)); (251, (TNamed 1)); (254, (TBasic (str "bool"))); (255, (TInterface 4)); (256, TUntypedNil); (259, (TPointer (TNamed 50))); (260, (TNamed 50)); (261, (TNamed 50)); (262, (TBasic (str "string"))); (264, (TBasic (str "bool"))); (265, (TBasic (str "bool"))); (266, (TPointer (TNamed 65))); (267, TUntypedNil); (268, (TBasic (str "bool"))); (269, (TBasic (str "int"))); (270, (TPointer (TNamed 65))); (271, (TBasic (str "int"))); (272, (TBasic (str "int"))); (275, (TPointer (TNamed 50))); (276, (TNamed 50)); (277, (TNamed 50)); (278, (TBasic (str "string"))); (280, (TBasic (str "bool"))); (281, (TBasic (str "int"))); (282, (TSignature [(TSlice (TInterface 4))] [(TBasic (str "int"))] false)); (283, (TSlice (TInterface 4))); (284, (TPointer (TNamed 65))); (285, (TSlice (TInterface 4))); (286, (TBasic (str "int"))); (287, (TPointer (TNamed 65))); (288, (TBasic (str "int"))); (291, (TPointer (TNamed 50))); (292, (TNamed 50)); (293, (TNamed 50)); (294, (TBasic (str "string"))); (296, (TSlice (TInterface 4))); (297, (TPointer (TNamed 65))); (298, (TSlice (TInterface 4))); (299, (TSlice (TInterface 4))); (300, (TSignature [(TSlice (TInterface 4)); (TSlice (TInterface 4))] [(TSlice (TInterface 4))] true)); (301, (TSlice (TInterface 4))); (302, (TPointer (TNamed 65))); (303, (TSlice (TInterface 4))); (304, (TInterface 4)); (306, TUntypedNil); (310, (TPointer (TNamed 65))); (311, (TPointer (TNamed 65))); (312, (TNamed 65)); (314, (TSignature [(TInterface 4)] [(TNamed 1)] false)); (317, (TInterface 4)); (318, (TInterface 4)); (322, (TNamed 1)); (326, (TSignature [(TInterface 4)] [] false)); (327, (TBasic (str "string"))); (331, (TPointer (TNamed 65))); (332, (TPointer (TNamed 65))); (333, (TNamed 65)); (335, (TSignature [(TInterface 4)] [(TNamed 1)] false)); (338, (TInterface 4)); (339, (TInterface 4)); (343, (TNamed 1)); (346, (TBasic (str "bool"))); (347, (TInterface 4)); (348, TUntypedNil); (351, (TPointer (TNamed 50))); (352, (TNamed 50)); (353, (TNamed 50)); (354, (TBasic (str "string"))); (356, (TBasic (str "bool"))); (357, (TBasic (str "bool"))); (358, (TPointer (TNamed 65))); (359, TUntypedNil); (360, (TBasic (str "bool"))); (361, (TBasic (str "int"))); (362, (TPointer (TNamed 65))); (363, (TBasic (str "int"))); (364, (TBasic (str "int"))); (367, (TPointer (TNamed 50))); (368, (TNamed 50)); (369, (TNamed 50)); (370, (TBasic (str "string"))); (372, (TBasic (str "bool"))); (373, (TBasic (str "int"))); (374, (TSignature [(TSlice (TInterface 4))] [(TBasic (str "int"))] false)); (375, (TSlice (TInterface 4))); (376, (TPointer (TNamed 65))); (377, (TSlice (TInterface 4))); (378, (TBasic (str "int"))); (379, (TPointer (TNamed 65))); (380, (TBasic (str "int"))); (383, (TPointer (TNamed 50))); (384, (TNamed 50)); (385, (TNamed 50)); (386, (TBasic (str "string"))); (388, (TSlice (TInterface 4))); (389, (TPointer (TNamed 65))); (390, (TSlice (TInterface 4))); (391, (TSlice (TInterface 4))); (392, (TSignature [(TSlice (TInterface 4)); (TSlice (TInterface 4))] [(TSlice (TInterface 4))] true)); (393, (TSlice (TInterface 4))); (394, (TPointer (TNamed 65))); (395, (TSlice (TInterface 4))); (396, (TInterface 4)); (398, TUntypedNil); (402, (TPointer (TNamed 65))); (403, (TPointer (TNamed 65))); (404, (TNamed 65)); (406, (TSignature [(TInterface 4)] [(TNamed 1)] false)); (409, (TInterface 4)); (410, (TInterface 4)); (414, (TNamed 1)); (419, (TNamed 1)); (420, (TNamed 1)); (424, (TBasic (str "bool"))); (425, (TInterface 4)); (426, TUntypedNil); (428, (TNamed 1)); (429, (TPointer (TNamed 50))); (430, (TNamed 50)); (431, (TNamed 50)); (432, (TBasic (str "string"))); (434, (TBasic (str "bool"))); (435, (TBasic (str "bool"))); (436, (TPointer (TNamed 65))); (437, TUntypedNil); (438, (TBasic (str "bool"))); (439, (TBasic (str "int"))); (440, (TPointer (TNamed 65))); (441, (TBasic (str "int"))); (442, (TBasic (str "int"))); (444, (TNamed 1)); (445, (TPointer (TNamed 50))); (446, (TNamed 50)); (447, (TNamed 50)); (448, (TBasic (str "string"))); (450, (TBasic (str "bool"))); (451, (TBasic (str "int"))); (452, (TSignature [(TSlice (TInterface 4))] [(TBasic (str "int"))] false)); (453, (TSlice (TInterface 4))); (454, (TPointer (TNamed 65))); (455, (TSlice (TInterface 4))); (456, (TBasic (str "int"))); (457, (TPointer (TNamed 65))); (458, (TBasic (str "int"))); (460, (TNamed 1)); (461, (TPointer (TNamed 50))); (462, (TNamed 50)); (463, (TNamed 50)); (464, (TBasic (str "string"))); (467, (TSlice (TInterface 4))); (468, (TPointer (TNamed 65))); (469, (TSlice (TInterface 4))); (470, (TSlice (TInterface 4))); (471, (TSignature [(TSlice (TInterface 4)); (TSlice (TInterface 4))] [(TSlice (TInterface 4))] true)); (472, (TSlice (TInterface 4))); (473, (TPointer (TNamed 65))); (474, (TSlice (TInterface 4))); (475, (TInterface 4)); (477, (TNamed 1)); (480, (TNamed 70)); (481, (TInterface 5)); (484, (TSignature [] [(TBasic (str "uint8")); (TNamed 1)] false)); (485, (TSignature [] [(TBasic (str "uint8")); (TNamed 1)] false)); (489, (TBasic (str "uint8"))); (491, (TNamed 1)); (493, (TNamed 71)); (494, (TStruct [])); (499, (TNamed 71)); (501, (TSignature [] [(TBasic (str "uint8")); (TNamed 1)] false)); (505, (TBasic (str "uint8"))); (507, (TNamed 1)); (510, (TBasic (str "uint8"))); (511, TUntypedNil); (519, (TSignature [(TBasic (str "bool")); (TBasic (str "bool"))] [(TNamed 1)] false)); (522, (TBasic (str "bool"))); (523, (TBasic (str "bool"))); (524, (TBasic (str "bool"))); (527, (TNamed 1)); (530, (TBasic (str "bool"))); (533, (TPointer (TNamed 50))); (534, (TNamed 50)); (535, (TNamed 50)); (536, (TBasic (str "string"))); (538, (TPointer (TNamed 61))); (539, (TPointer (TNamed 61))); (540, (TNamed 61)); (541, (TNamed 61)); (542, (TBasic (str "bool"))); (543, (TBasic (str "string"))); (545, (TBasic (str "bool"))); (548, (TPointer (TNamed 61))); (550, TUntypedNil); (553, (TSignature [(TBasic (str "int"))] [(TNamed 1)] false)); (556, (TBasic (str "int"))); (557, (TBasic (str "int"))); (560, (TNamed 1)); (563, (TPointer (TNamed 50))); (564, (TPointer (TNamed 50))); (565, (TNamed 50)); (566, (TNamed 50)); (567, (TBasic (str "string"))); (569, (TBasic (str "int"))); (572, (TBasic (str "int"))); (574, (TBasic (str "string"))); (575, (TPointer (TNamed 50))); (576, (TBasic (str "string"))); (577, (TBasic (str "string"))); (579, (TBasic (str "int"))); (581, (TBasic (str "string"))); (582, (TPointer (TNamed 50))); (583, (TBasic (str "string"))); (584, (TBasic (str "string"))); (587, (TBasic (str "string"))); (588, (TPointer (TNamed 50))); (589, (TBasic (str "string"))); (590, (TBasic (str "string"))); (591, (TSignature [(TBasic (str "string")); (TSlice (TInterface 4))] [(TBasic (str "string"))] true)); (593, (TSignature [(TBasic (str "string")); (TSlice (TInterface 4))] [(TBasic (str "string"))] true)); (594, (TBasic (str "string"))); (595, (TBasic (str "int"))); (597, (TPointer (TNamed 50))); (600, (TSignature [] [(TNamed 1)] false)); (604, (TNamed 1)); (607, (TNamed 1)); (608, (TSignature [(TBasic (str "string"))] [(TNamed 1)] false)); (609, (TBasic (str "string"))); (612, (TSignature [(TBasic (str "string"))] [(TNamed 1)] false)); (615, (TBasic (str "string"))); (616, (TBasic (str "string"))); (619, (TNamed 1)); (622, (TBasic (str "bool"))); (623, (TBasic (str "string"))); (624, (TBasic (str "string"))); (627, (TPointer (TNamed 50))); (628, (TNamed 50)); (629, (TNamed 50)); (630, (TBasic (str "string"))); (632, (TPointer (TNamed 50))); (633, (TNamed 50)); (634, (TNamed 50)); (635, (TBasic (str "string"))); (640, (TSignature [] [(TNamed 1)] false)); (644, (TNamed 1)); (647, (TPointer (TNamed 50))); (648, (TNamed 50)); (649, (TNamed 50)); (650, (TBasic (str "string"))); (653, (TSignature [(TBasic (str "int"))] [(TNamed 1)] false)); (656, (TBasic (str "int"))); (657, (TBasic (str "int"))); (660, (TNamed 1)); (663, (TSlice (TNamed 1))); (664, (TSlice (TNamed 1))); (665, (TSlice (TNamed 1))); (666, (TNamed 1)); (667, TUntypedNil); (668, (TPointer (TNamed 50))); (669, (TNamed 50)); (670, (TNamed 50)); (671, (TBasic (str "string"))); (672, (TPointer (TNamed 50))); (673, (TNamed 50)); (674, (TNamed 50)); (675, (TBasic (str "string"))); (677, (TNamed 1)); (678, (TSlice (TNamed 1))); (679, (TBasic (str "int"))); (682, (TSignature [] [(TPointer (TNamed 50))] false)); (686, (TPointer (TNamed 50))); (687, (TNamed 50)); (692, (TBasic (str "bool"))); (694, (TPointer (TNamed 50))); (695, (TNamed 50)); (696, (TNamed 50)); (697, (TBasic (str "string"))); (699, (TBasic (str "bool"))); (701, (TPointer (TNamed 50))); (702, (TNamed 50)); (703, (TNamed 50)); (704, (TBasic (str "string"))); (706, (TBasic (str "bool"))); (708, (TPointer (TNamed 50))); (709, (TNamed 50)); (710, (TNamed 50)); (711, (TBasic (str "string"))); (713, TUntypedNil); (716, (TSignature [(TPointer (TNamed 50))] [] false)); (719, (TPointer (TNamed 50))); (720, (TPointer (TNamed 50))); (721, (TNamed 50)); (725, (TSignature [] [(TNamed 1)] false)); (729, (TNamed 1)); (733, (TPointer (TNamed 50))); (734, (TPointer (TNamed 50))); (735, (TSignature [] [(TPointer (TNamed 50))] false)); (736, (TBasic (str "string"))); (737, (TSignature [] [(TBasic (str "string"))] false)); (738, (TPointer (TNamed 50))); (739, (TSignature [] [(TBasic (str "string"))] false)); (742, (TBasic (str "string"))); (744, TUntypedNil); (746, (TBasic (str "string"))); (748, (TTuple [])); (749, (TSignature [(TPointer (TNamed 50))] [] false)); (750, (TPointer (TNamed 50))); (752, TUntypedNil); (755, (TPointer (TNamed 50))); (758, (TSignature [] [(TNamed 1)] false)); (762, (TNamed 1)); (765, (TPointer (TNamed 50))); (766, (TPointer (TNamed 50))); (767, (TSignature [] [(TPointer (TNamed 50))] false)); (769, (TPointer (TNamed 50))); (772, (TSignature [] [(TNamed 1)] false)); (776, (TNamed 1)); (779, (TPointer (TNamed 50))); (780, (TPointer (TNamed 50))); (781, (TNamed 50)); (782, (TNamed 50)); (784, (TBasic (str "string"))); (785, (TPointer (TNamed 50))); (786, (TBasic (str "string"))); (787, (TBasic (str "string"))); (789, (TPointer (TNamed 50))); (794, (TNamed 84)); (795, (TInterface 6)); (798, (TSignature [(TInterface 4)] [(TNamed 1)] false)); (799, (TSignature [(TInterface 4)] [(TNamed 1)] false)); (802, (TInterface 4)); (803, (TInterface 4)); (807, (TNamed 1)); (809, (TSignature [] [(TInterface 4); (TNamed 1)] false)); (810, (TSignature [] [(TInterface 4); (TNamed 1)] false)); (814, (TInterface 4)); (817, (TNamed 1)); (820, (TNamed 85)); (821, (TStruct [((str "value"), (TInterface 4))])); (824, (TInterface 4)); (825, (TInterface 4)); (830, (TPointer (TNamed 85))); (831, (TPointer (TNamed 85))); (832, (TNamed 85)); (834, (TSignature [(TInterface 4)] [(TNamed 1)] false)); (837, (TInterface 4)); (838, (TInterface 4)); (842, (TNamed 1)); (845, (TBasic (str "bool"))); (846, (TInterface 4)); (847, TUntypedNil); (850, (TPointer (TNamed 50))); (851, (TNamed 50)); (852, (TNamed 50)); (853, (TBasic (str "string"))); (855, (TBasic (str "bool"))); (856, (TBasic (str "bool"))); (857, (TPointer (TNamed 85))); (858, TUntypedNil); (859, (TBasic (str "bool"))); (860, (TInterface 4)); (861, (TPointer (TNamed 85))); (862, (TInterface 4)); (863, TUntypedNil); (866, (TPointer (TNamed 50))); (867, (TNamed 50)); (868, (TNamed 50)); (869, (TBasic (str "string"))); (871, (TInterface 4)); (872, (TPointer (TNamed 85))); (873, (TInterface 4)); (874, (TInterface 4)); (876, TUntypedNil); (880, (TPointer (TNamed 85))); (881, (TPointer (TNamed 85))); (882, (TNamed 85)); (884, (TSignature [] [(TInterface 4); (TNamed 1)] false)); (888, (TInterface 4)); (891, (TNamed 1)); (894, (TBasic (str "bool"))); (895, (TBasic (str "bool"))); (896, (TPointer (TNamed 85))); (897, TUntypedNil); (898, (TBasic (str "bool"))); (899, (TInterface 4)); (900, (TPointer (TNamed 85))); (901, (TInterface 4)); (902, TUntypedNil); (905, TUntypedNil); (906, (TPointer (TNamed 50))); (907, (TNamed 50)); (908, (TNamed 50)); (909, (TBasic (str "string"))); (911, (TInterface 4)); (912, (TPointer (TNamed 85))); (913, (TInterface 4)); (914, TUntypedNil); (916, (TInterface 4)); (917, (TPointer (TNamed 85))); (918, (TInterface 4)); (919, TUntypedNil); (922, (TSignature [] [] false)); (928, (TNamed 84)); (929, (TNamed 84)); (930, (TPointer (TNamed 85))); (931, (TNamed 85)); (932, (TNamed 85)); (934, (TNamed 1)); (935, (TSignature [(TInterface 4)] [(TNamed 1)] false)); (936, (TNamed 84)); (937, (TSignature [(TInterface 4)] [(TNamed 1)] false)); (938, (TNamed 84)); (941, (TNamed 89)); (942, (TStruct [])); (947, (TPointer (TNamed 89))); (948, (TPointer (TNamed 89))); (949, (TNamed 89)); (951, (TSignature [(TInterface 4)] [(TNamed 1)] false)); (954, (TInterface 4)); (955, (TInterface 4)); (959, (TNamed 1)); (962, (TPointer (TNamed 50))); (963, (TNamed 50)); (964, (TNamed 50)); (965, (TBasic (str "string"))); (969, (TPointer (TNamed 89))); (970, (TPointer (TNamed 89))); (971, (TNamed 89)); (973, (TSignature [] [(TInterface 4); (TNamed 1)] false)); (977, (TInterface 4)); (980, (TNamed 1)); (983, TUntypedNil); (984, (TPointer (TNamed 50))); (985, (TNamed 50)); (986, (TNamed 50)); (987, (TBasic (str "string"))); (990, (TSignature [] [] false)); (996, (TNamed 84)); (997, (TNamed 84)); (998, (TPointer (TNamed 89))); (999, (TNamed 89)); (1000, (TNamed 89)); (1002, (TNamed 1)); (1003, (TSignature [(TInterface 4)] [(TNamed 1)] false)); (1004, (TNamed 84)); (1005, (TSignature [(TInterface 4)] [(TNamed 1)] false)); (1006, (TNamed 84)); (1009, (TNamed 93)); (1010, (TInterface 6)); (1013, (TSignature [(TInterface 4)] [(TNamed 1)] false)); (1014, (TSignature [(TInterface 4)] [(TNamed 1)] false)); (1017, (TInterface 4)); (1018, (TInterface 4)); (1022, (TNamed 1)); (1024, (TSignature [] [(TInterface 4); (TNamed 1)] false)); (1025, (TSignature [] [(TInterface 4); (TNamed 1)] false)); (1029, (TInterface 4)); (1032, (TNamed 1)); (1035, (TNamed 94)); (1036, (TInterface 6)); (1039, (TNamed 84)); (1041, (TNamed 93)); (1046, (TSignature [(TBasic (str "string"))] [(TPointer (TNamed 50))] false)); (1049, (TBasic (str "string"))); (1050, (TBasic (str "string"))); (1053, (TPointer (TNamed 50))); (1054, (TNamed 50)); (1057, (TPointer (TNamed 50))); (1058, (TNamed 50)); (1059, (TNamed 50)); (1060, (TBasic (str "string"))); (1063, (TSignature [(TBasic (str "bool")); (TBasic (str "string"))] [(TPointer (TNamed 61))] false)); (1066, (TBasic (str "bool"))); (1067, (TBasic (str "bool"))); (1069, (TBasic (str "string"))); (1070, (TBasic (str "string"))); (1073, (TPointer (TNamed 61))); (1074, (TNamed 61)); (1077, (TPointer (TNamed 61))); (1078, (TPointer (TNamed 61))); (1079, (TNamed 61)); (1080, (TNamed 61)); (1081, (TBasic (str "bool"))); (1082, (TBasic (str "string"))); (1084, (TBasic (str "bool"))); (1087, (TBasic (str "string"))); (1088, (TPointer (TNamed 61))); (1089, (TBasic (str "string"))); (1090, (TBasic (str "string"))); (1092, (TPointer (TNamed 61))); (1095, (TSignature [] [(TNamed 1)] false)); (1099, (TNamed 1)); (1102, (TPointer (TNamed 50))); (1103, (TSignature [(TBasic (str "string"))] [(TPointer (TNamed 50))] false)); (1104, (TBasic (str "string"))); (1107, (TSignature [(TBasic (str "bool")); (TBasic (str "string"))] [(TNamed 1)] false)); (1110, (TBasic (str "bool"))); (1111, (TBasic (str "bool"))); (1113, (TBasic (str "string"))); (1114, (TBasic (str "string"))); (1117, (TNamed 1)); (1120, (TBasic (str "bool"))); (1123, (TPointer (TNamed 61))); (1124, (TSignature [(TBasic (str "bool")); (TBasic (str "string"))] [(TPointer (TNamed 61))] false)); (1125, (TBasic (str "bool"))); (1126, (TBasic (str "string"))); (1128, (TPointer (TNamed 50))); (1129, (TSignature [(TBasic (str "string"))] [(TPointer (TNamed 50))] false)); (1130, (TBasic (str "string"))); (1135, (TSignature [] [(TNamed 1)] false)); (1139, (TNamed 1)); (1142, (TPointer (TNamed 50))); (1143, (TPointer (TNamed 50))); (1144, (TNamed 50)); (1145, (TNamed 50)); (1146, (TBasic (str "string"))); (1148, (TTuple [])); (1149, (TSignature [(TPointer (TNamed 50))] [] false)); (1150, (TPointer (TNamed 50))); (1152, (TPointer (TNamed 50))); (1155, (TSignature [(TPointer (TNamed 50))] [] false)); (1158, (TPointer (TNamed 50))); (1159, (TPointer (TNamed 50))); (1160, (TNamed 50)); (1163, (TBasic (str "string"))); (1164, (TPointer (TNamed 50))); (1165, (TBasic (str "string"))); (1166, (TBasic (str "string"))); (1169, (TSignature [] [(TNamed 1)] false)); (1173, (TNamed 1)); (1176, (TBasic (str "bool"))); (1179, (TPointer (TNamed 50))); (1180, (TNamed 50)); (1181, (TNamed 50)); (1182, (TBasic (str "string"))); (1184, TUntypedNil); (1187, (TSignature [] [(TNamed 1); (TBasic (str "string"))] false)); (1191, (TNamed 1)); (1193, (TBasic (str "string"))); (1196, TUntypedNil); (1197, (TBasic (str "string")))].
Definition t_examples_values : list (N * constval) := [(57, CString (str "examples-error-")); (60, CString (str "examples-error-empty")); (61, CString (str "examples-error-")); (62, CString (str "empty")); (65, CString (str "examples-error-disconnect")); (66, CString (str "examples-error-")); (67, CString (str "disconnect")); (70, CString (str "examples-error-unknown")); (71, CString (str "examples-error-")); (72, CString (str "unknown")); (90, CString (str "%s: %s")); (113, CString (str "")); (115, CString (str "examples-error-empty")); (124, CString (str "peer disconnected")); (126, CString (str "examples-error-disconnect")); (129, CString (str "examples-error-unknown")); (139, CString (str "error message")); (141, CString (str "error message")); (192, CString (str "examples-error-flagged")); (198, CString (str "")); (201, CString (str "examples-error-unknown")); (219, COther); (220, CString (str "examples-error-not-implemented")); (262, CString (str "examples-error-invalid-arg")); (272, COther); (278, CString (str "examples-error-invalid-collection")); (294, CString (str "examples-error-limit-reached")); (327, CString (str "not implemented")); (354, CString (str "examples-error-invalid-arg")); (364, COther); (370, CString (str "examples-error-invalid-collection")); (386, CString (str "examples-error-limit-reached")); (432, CString (str "examples-error-invalid-arg")); (442, COther); (448, CString (str "examples-error-invalid-collection")); (464, CString (str "examples-error-limit-reached")); (510, COther); (536, CString (str "examples-error-not-implemented")); (542, COther); (543, CString (str "examples-error-closed")); (567, CString (str "examples-error-unkown")); (572, COther); (577, CString (str "examples-error-zero")); (579, COther); (584, CString (str "examples-error-one")); (594, CString (str "examples-error-%d")); (609, CString (str "example.txt")); (624, CString (str "exmaple.txt")); (630, CString (str "examples-error-invalid-name")); (635, CString (str "examples-error-failed")); (650, CString (str "examples-error-unknown")); (671, CString (str "examples-error-one")); (675, CString (str "examples-error-two")); (692, COther); (697, CString (str "examples-error-one")); (699, COther); (704, CString (str "examples-error-two")); (706, COther); (711, CString (str "examples-error-three")); (742, CString (str "")); (746, CString (str "examples-error-one")); (787, CString (str "assigned-error")); (853, CString (str "examples-error-arg-nil")); (869, CString (str "examples-error-invalid")); (909, CString (str "examples-error-invalid")); (965, CString (str "examples-error-not-implemented")); (987, CString (str "examples-error-not-implemented")); (1082, CString (str "examples-error-unknown")); (1104, CString (str "examples-error-not-implemented")); (1146, CString (str "examples-error-invalid")); (1166, CString (str "some invalid value")); (1176, COther); (1182, CString (str "example-error-unreachable")); (1197, CString (str ""))].
Definition t_examples_uses : list (N * tobj) := [(15, 5); (21, 50); (27, 5); (31, 103); (32, 142); (38, 50); (44, 5); (48, 104); (49, 142); (53, 5); (61, 54); (66, 54); (71, 54); (77, 53); (83, 5); (88, 47); (89, 41); (93, 105); (94, 59); (95, 105); (100, 53); (106, 5); (112, 106); (115, 55); (119, 48); (120, 44); (122, 5); (123, 106); (126, 56); (129, 57); (136, 53); (140, 53); (149, 4); (152, 5); (158, 61); (164, 5); (168, 107); (169, 143); (175, 61); (181, 5); (185, 108); (186, 144); (190, 108); (191, 143); (196, 108); (197, 143); (204, 108); (205, 143); (213, 61); (218, 61); (219, 22); (235, 6); (241, 65); (251, 1); (255, 110); (256, 24); (261, 50); (266, 109); (267, 24); (270, 109); (271, 145); (277, 50); (282, 32); (284, 109); (285, 146); (287, 109); (288, 145); (293, 50); (297, 109); (298, 146); (300, 25); (302, 109); (303, 146); (304, 110); (306, 24); (312, 65); (322, 1); (326, 35); (333, 65); (343, 1); (347, 114); (348, 24); (353, 50); (358, 113); (359, 24); (362, 113); (363, 145); (369, 50); (374, 32); (376, 113); (377, 146); (379, 113); (380, 145); (385, 50); (389, 113); (390, 146); (392, 25); (394, 113); (395, 146); (396, 114); (398, 24); (404, 65); (414, 1); (420, 1); (425, 116); (426, 24); (428, 147); (431, 50); (436, 115); (437, 24); (440, 115); (441, 145); (444, 147); (447, 50); (452, 32); (454, 115); (455, 146); (457, 115); (458, 145); (460, 147); (463, 50); (468, 115); (469, 146); (471, 25); (473, 115); (474, 146); (475, 116); (477, 147); (489, 12); (491, 1); (499, 71); (505, 12); (507, 1); (511, 24); (524, 4); (527, 1); (530, 124); (535, 50); (541, 61); (542, 22); (545, 125); (548, 149); (550, 24); (557, 6); (560, 1); (566, 50); (569, 126); (575, 150); (576, 142); (582, 150); (583, 142); (588, 150); (589, 142); (592, 49); (593, 41); (595, 126); (597, 150); (604, 1); (608, 76); (616, 5); (619, 1); (623, 127); (629, 50); (634, 50); (644, 1); (649, 50); (657, 6); (660, 1); (666, 1); (667, 24); (670, 50); (674, 50); (678, 151); (679, 128); (687, 50); (692, 21); (696, 50); (699, 21); (703, 50); (706, 21); (710, 50); (713, 24); (721, 50); (729, 1); (735, 79); (738, 152); (739, 52); (744, 24); (749, 80); (750, 152); (752, 24); (755, 152); (762, 1); (767, 79); (769, 153); (776, 1); (782, 50); (785, 154); (786, 142); (789, 154); (807, 1); (817, 1); (832, 85); (842, 1); (846, 118); (847, 24); (852, 50); (857, 117); (858, 24); (861, 117); (862, 148); (863, 24); (868, 50); (872, 117); (873, 148); (874, 118); (876, 24); (882, 85); (891, 1); (896, 119); (897, 24); (900, 119); (901, 148); (902, 24); (905, 24); (908, 50); (912, 119); (913, 148); (914, 24); (917, 119); (918, 148); (919, 24); (929, 84); (932, 85); (936, 155); (937, 130); (938, 155); (949, 89); (959, 1); (964, 50); (971, 89); (980, 1); (983, 24); (986, 50); (997, 84); (1000, 89); (1004, 156); (1005, 130); (1006, 156); (1022, 1); (1032, 1); (1039, 84); (1041, 93); (1050, 5); (1054, 50); (1059, 50); (1060, 136); (1067, 4); (1070, 5); (1074, 61); (1080, 61); (1081, 137); (1084, 137); (1088, 157); (1089, 143); (1090, 138); (1092, 157); (1099, 1); (1103, 95); (1111, 4); (1114, 5); (1117, 1); (1120, 139); (1124, 96); (1125, 139); (1126, 140); (1129, 95); (1130, 140); (1139, 1); (1145, 50); (1149, 100); (1150, 158); (1152, 158); (1160, 50); (1164, 141); (1165, 142); (1173, 1); (1176, 22); (1181, 50); (1184, 24); (1191, 1); (1193, 5); (1196, 24)].
Definition t_examples_defs : list (N * tobj) := [(10, 50); (19, 103); (22, 51); (36, 104); (39, 52); (52, 53); (56, 54); (59, 55); (64, 56); (69, 57); (76, 105); (78, 58); (99, 106); (101, 59); (131, 60); (144, 61); (156, 107); (159, 62); (173, 108); (176, 63); (207, 64); (225, 65); (239, 109); (242, 66); (246, 110); (310, 111); (313, 67); (317, 112); (331, 113); (334, 68); (338, 114); (402, 115); (405, 69); (409, 116); (419, 147); (480, 70); (484, 123); (493, 71); (500, 72); (518, 73); (522, 124); (523, 125); (538, 149); (552, 74); (556, 126); (563, 150); (599, 75); (611, 76); (615, 127); (639, 77); (652, 78); (656, 128); (663, 151); (681, 79); (715, 80); (719, 129); (724, 81); (733, 152); (757, 82); (765, 153); (771, 83); (779, 154); (794, 84); (798, 130); (802, 131); (809, 132); (820, 85); (830, 117); (833, 86); (837, 118); (880, 119); (883, 87); (921, 88); (928, 155); (941, 89); (947, 120); (950, 90); (954, 121); (969, 122); (972, 91); (989, 92); (996, 156); (1009, 93); (1013, 133); (1017, 134); (1024, 135); (1035, 94); (1045, 95); (1049, 136); (1062, 96); (1066, 137); (1069, 138); (1077, 157); (1094, 97); (1106, 98); (1110, 139); (1113, 140); (1134, 99); (1142, 158); (1154, 100); (1158, 141); (1168, 101); (1186, 102)].
Definition t_examples_sels : list (N * (tobj * gotype)) := [(30, (142, (TPointer (TNamed 50)))); (47, (142, (TPointer (TNamed 50)))); (92, (59, (TNamed 53))); (167, (143, (TPointer (TNamed 61)))); (184, (144, (TPointer (TNamed 61)))); (189, (143, (TPointer (TNamed 61)))); (195, (143, (TPointer (TNamed 61)))); (203, (143, (TPointer (TNamed 61)))); (269, (145, (TPointer (TNamed 65)))); (283, (146, (TPointer (TNamed 65)))); (286, (145, (TPointer (TNamed 65)))); (296, (146, (TPointer (TNamed 65)))); (301, (146, (TPointer (TNamed 65)))); (361, (145, (TPointer (TNamed 65)))); (375, (146, (TPointer (TNamed 65)))); (378, (145, (TPointer (TNamed 65)))); (388, (146, (TPointer (TNamed 65)))); (393, (146, (TPointer (TNamed 65)))); (439, (145, (TPointer (TNamed 65)))); (453, (146, (TPointer (TNamed 65)))); (456, (145, (TPointer (TNamed 65)))); (467, (146, (TPointer (TNamed 65)))); (472, (146, (TPointer (TNamed 65)))); (574, (142, (TPointer (TNamed 50)))); (581, (142, (TPointer (TNamed 50)))); (587, (142, (TPointer (TNamed 50)))); (737, (52, (TPointer (TNamed 50)))); (784, (142, (TPointer (TNamed 50)))); (860, (148, (TPointer (TNamed 85)))); (871, (148, (TPointer (TNamed 85)))); (899, (148, (TPointer (TNamed 85)))); (911, (148, (TPointer (TNamed 85)))); (916, (148, (TPointer (TNamed 85)))); (935, (130, (TNamed 84))); (1003, (130, (TNamed 84))); (1087, (143, (TPointer (TNamed 61)))); (1163, (142, (TPointer (TNamed 50))))].
Definition t_examples_pkgnames : list (N * gostring) := [(88, (str "fmt")); (119, (str "strings")); (592, (str "fmt"))].
Definition t_examples_objnames : list (N * gostring) := [(1, (str "error")); (2, (str "Error")); (3, (str "?")); (4, (str "bool")); (5, (str "string")); (6, (str "int")); (7, (str "int8")); (8, (str "int16")); (9, (str "int32")); (10, (str "int64")); (11, (str "uint")); (12, (str "uint8")); (13, (str "uint16")); (14, (str "uint32")); (15, (str "uint64")); (16, (str "uintptr")); (17, (str "float32")); (18, (str "float64")); (19, (str "complex64")); (20, (str "complex128")); (21, (str "true")); (22, (str "false")); (23, (str "iota")); (24, (str "nil")); (25, (str "append")); (26, (str "cap")); (27, (str "close")); (28, (str "complex")); (29, (str "copy")); (30, (str "delete")); (31, (str "imag")); (32, (str "len")); (33, (str "make")); (34, (str "new")); (35, (str "panic")); (36, (str "print")); (37, (str "println")); (38, (str "real")); (39, (str "recover")); (40, (str "Errorf")); (41, (str "Sprintf")); (42, (str "Println")); (43, (str "New")); (44, (str "HasPrefix")); (45, (str "Float32")); (46, (str "Float64")); (47, (str "fmt")); (48, (str "strings")); (49, (str "fmt")); (50, (str "Error")); (51, (str "Error")); (52, (str "Code")); (53, (str "Error2")); (54, (str "errorPrefix")); (55, (str "ErrorEmpty")); (56, (str "ErrorDisconnect")); (57, (str "ErrorUnknown")); (58, (str "Error")); (59, (str "Code")); (60, (str "ReturnError2")); (61, (str "Error3")); (62, (str "Error")); (63, (str "Code")); (64, (str "ReturnError3")); (65, (str "Collection")); (66, (str "Add")); (67, (str "AddUnused")); (68, (str "AddMissing")); (69, (str "AddAlt")); (70, (str "IO")); (71, (str "MockedIO")); (72, (str "Read")); (73, (str "TypeConstruction")); (74, (str "AssignmentToErrorCodeField")); (75, (str "FunctionCall")); (76, (str "TryOpen")); (77, (str "Overwrite")); (78, (str "OverwriteMultiple")); (79, (str "MultipleCodes")); (80, (str "HandleErrorOne")); (81, (str "SubtractCode")); (82, (str "AddSubCode")); (83, (str "AssignmentProblem")); (84, (str "Box")); (85, (str "BoxImpl")); (86, (str "Put")); (87, (str "Pop")); (88, (str "UseBoxImplAsBox")); (89, (str "BoxInvalidImpl")); (90, (str "Put")); (91, (str "Pop")); (92, (str "UseBoxInvalidImplAsBox")); (93, (str "Box2")); (94, (str "EmbeddingBox")); (95, (str "NewError")); (96, (str "NewError3")); (97, (str "CallConstructor")); (98, (str "NewGeneralError")); (99, (str "CallModifyError")); (100, (str "ModifyError")); (101, (str "DeadBranchError")); (102, (str "ErrorNotLast")); (103, (str "e")); (104, (str "e")); (105, (str "e")); (106, (str "e")); (107, (str "e")); (108, (str "e")); (109, (str "c")); (110, (str "item")); (111, (str "c")); (112, (str "item")); (113, (str "c")); (114, (str "item")); (115, (str "c")); (116, (str "item")); (117, (str "b")); (118, (str "value")); (119, (str "b")); (120, (str "b")); (121, (str "value")); (122, (str "b")); (123, (str "Read")); (124, (str "flag1")); (125, (str "flag2")); (126, (str "typ")); (127, (str "fileName")); (128, (str "index")); (129, (str "err")); (130, (str "Put")); (131, (str "value")); (132, (str "Pop")); (133, (str "Put")); (134, (str "value")); (135, (str "Pop")); (136, (str "code")); (137, (str "flag")); (138, (str "c")); (139, (str "flag")); (140, (str "errorCode")); (141, (str "err")); (142, (str "TheCode")); (143, (str "code")); (144, (str "flag")); (145, (str "limit")); (146, (str "values")); (147, (str "err")); (148, (str "value")); (149, (str "err")); (150, (str "err")); (151, (str "errors")); (152, (str "err")); (153, (str "err")); (154, (str "err")); (155, (str "b")); (156, (str "b")); (157, (str "err")); (158, (str "err"))].
Definition t_examples_objtypes : list (N * gotype) := [(1, (TNamed 1)); (2, (TSignature [] [(TBasic (str "string"))] false)); (4, (TBasic (str "bool"))); (5, (TBasic (str "string"))); (6, (TBasic (str "int"))); (7, (TBasic (str "int8"))); (8, (TBasic (str "int16"))); (9, (TBasic (str "int32"))); (10, (TBasic (str "int64"))); (11, (TBasic (str "uint"))); (12, (TBasic (str "uint8"))); (13, (TBasic (str "uint16"))); (14, (TBasic (str "uint32"))); (15, (TBasic (str "uint64"))); (16, (TBasic (str "uintptr"))); (17, (TBasic (str "float32"))); (18, (TBasic (str "float64"))); (19, (TBasic (str "complex64"))); (20, (TBasic (str "complex128"))); (40, (TSignature [(TBasic (str "string")); (TSlice (TInterface 4))] [(TNamed 1)] true)); (41, (TSignature [(TBasic (str "string")); (TSlice (TInterface 4))] [(TBasic (str "string"))] true)); (42, (TSignature [(TSlice (TInterface 4))] [(TBasic (str "int")); (TNamed 1)] true)); (43, (TSignature [(TBasic (str "string"))] [(TNamed 1)] false)); (44, (TSignature [(TBasic (str "string")); (TBasic (str "string"))] [(TBasic (str "bool"))] false)); (45, (TSignature [] [(TBasic (str "float32"))] false)); (46, (TSignature [] [(TBasic (str "float64"))] false)); (50, (TNamed 50)); (51, (TSignature [] [(TBasic (str "string"))] false)); (52, (TSignature [] [(TBasic (str "string"))] false)); (53, (TNamed 53)); (54, (TBasic (str "string"))); (55, (TBasic (str "string"))); (56, (TBasic (str "string"))); (57, (TBasic (str "string"))); (58, (TSignature [] [(TBasic (str "string"))] false)); (59, (TSignature [] [(TBasic (str "string"))] false)); (60, (TSignature [] [(TNamed 53)] false)); (61, (TNamed 61)); (62, (TSignature [] [(TBasic (str "string"))] false)); (63, (TSignature [] [(TBasic (str "string"))] false)); (64, (TSignature [] [(TPointer (TNamed 61))] false)); (65, (TNamed 65)); (66, (TSignature [(TInterface 4)] [(TNamed 1)] false)); (67, (TSignature [(TInterface 4)] [(TNamed 1)] false)); (68, (TSignature [(TInterface 4)] [(TNamed 1)] false)); (69, (TSignature [(TInterface 4)] [(TNamed 1)] false)); (70, (TNamed 70)); (71, (TNamed 71)); (72, (TSignature [] [(TBasic (str "uint8")); (TNamed 1)] false)); (73, (TSignature [(TBasic (str "bool")); (TBasic (str "bool"))] [(TNamed 1)] false)); (74, (TSignature [(TBasic (str "int"))] [(TNamed 1)] false)); (75, (TSignature [] [(TNamed 1)] false)); (76, (TSignature [(TBasic (str "string"))] [(TNamed 1)] false)); (77, (TSignature [] [(TNamed 1)] false)); (78, (TSignature [(TBasic (str "int"))] [(TNamed 1)] false)); (79, (TSignature [] [(TPointer (TNamed 50))] false)); (80, (TSignature [(TPointer (TNamed 50))] [] false)); (81, (TSignature [] [(TNamed 1)] false)); (82, (TSignature [] [(TNamed 1)] false)); (83, (TSignature [] [(TNamed 1)] false)); (84, (TNamed 84)); (85, (TNamed 85)); (86, (TSignature [(TInterface 4)] [(TNamed 1)] false)); (87, (TSignature [] [(TInterface 4); (TNamed 1)] false)); (88, (TSignature [] [] false)); (89, (TNamed 89)); (90, (TSignature [(TInterface 4)] [(TNamed 1)] false)); (91, (TSignature [] [(TInterface 4); (TNamed 1)] false)); (92, (TSignature [] [] false)); (93, (TNamed 93)); (94, (TNamed 94)); (95, (TSignature [(TBasic (str "string"))] [(TPointer (TNamed 50))] false)); (96, (TSignature [(TBasic (str "bool")); (TBasic (str "string"))] [(TPointer (TNamed 61))] false)); (97, (TSignature [] [(TNamed 1)] false)); (98, (TSignature [(TBasic (str "bool")); (TBasic (str "string"))] [(TNamed 1)] false)); (99, (TSignature [] [(TNamed 1)] false)); (100, (TSignature [(TPointer (TNamed 50))] [] false)); (101, (TSignature [] [(TNamed 1)] false)); (102, (TSignature [] [(TNamed 1); (TBasic (str "string"))] false)); (103, (TPointer (TNamed 50))); (104, (TPointer (TNamed 50))); (105, (TNamed 53)); (106, (TNamed 53)); (107, (TPointer (TNamed 61))); (108, (TPointer (TNamed 61))); (109, (TPointer (TNamed 65))); (110, (TInterface 4)); (111, (TPointer (TNamed 65))); (112, (TInterface 4)); (113, (TPointer (TNamed 65))); (114, (TInterface 4)); (115, (TPointer (TNamed 65))); (116, (TInterface 4)); (117, (TPointer (TNamed 85))); (118, (TInterface 4)); (119, (TPointer (TNamed 85))); (120, (TPointer (TNamed 89))); (121, (TInterface 4)); (122, (TPointer (TNamed 89))); (123, (TSignature [] [(TBasic (str "uint8")); (TNamed 1)] false)); (124, (TBasic (str "bool"))); (125, (TBasic (str "bool"))); (126, (TBasic (str "int"))); (127, (TBasic (str "string"))); (128, (TBasic (str "int"))); (129, (TPointer (TNamed 50))); (130, (TSignature [(TInterface 4)] [(TNamed 1)] false)); (131, (TInterface 4)); (132, (TSignature [] [(TInterface 4); (TNamed 1)] false)); (133, (TSignature [(TInterface 4)] [(TNamed 1)] false)); (134, (TInterface 4)); (135, (TSignature [] [(TInterface 4); (TNamed 1)] false)); (136, (TBasic (str "string"))); (137, (TBasic (str "bool"))); (138, (TBasic (str "string"))); (139, (TBasic (str "bool"))); (140, (TBasic (str "string"))); (141, (TPointer (TNamed 50))); (142, (TBasic (str "string"))); (143, (TBasic (str "string"))); (144, (TBasic (str "bool"))); (145, (TBasic (str "int"))); (146, (TSlice (TInterface 4))); (147, (TNamed 1)); (148, (TInterface 4)); (149, (TPointer (TNamed 61))); (150, (TPointer (TNamed 50))); (151, (TSlice (TNamed 1))); (152, (TPointer (TNamed 50))); (153, (TPointer (TNamed 50))); (154, (TPointer (TNamed 50))); (155, (TNamed 84)); (156, (TNamed 84)); (157, (TPointer (TNamed 61))); (158, (TPointer (TNamed 50)))].
Definition t_examples_under : list (N * gotype) := [(1, (TInterface 1)); (50, (TStruct [((str "TheCode"), (TBasic (str "string")))])); (53, (TBasic (str "string"))); (61, (TStruct [((str "flag"), (TBasic (str "bool"))); ((str "code"), (TBasic (str "string")))])); (65, (TStruct [((str "values"), (TSlice (TInterface 4))); ((str "limit"), (TBasic (str "int")))])); (70, (TInterface 5)); (71, (TStruct [])); (84, (TInterface 6)); (85, (TStruct [((str "value"), (TInterface 4))])); (89, (TStruct [])); (93, (TInterface 6)); (94, (TInterface 6))].
Definition t_examples_named_methods : list (N * (list gostring)) := [(50, [(str "Error"); (str "Code")]); (53, [(str "Error"); (str "Code")]); (61, [(str "Error"); (str "Code")]); (65, [(str "Add"); (str "AddUnused"); (str "AddMissing"); (str "AddAlt")]); (71, [(str "Read")]); (85, [(str "Put"); (str "Pop")]); (89, [(str "Put"); (str "Pop")])].
Definition t_examples_methods : list (gotype * gostring * tobj) := [((TInterface 1), (str "Error"), 2); ((TInterface 5), (str "Read"), 123); ((TInterface 6), (str "Pop"), 132); ((TInterface 6), (str "Put"), 130); ((TNamed 1), (str "Error"), 2); ((TNamed 53), (str "Code"), 59); ((TNamed 53), (str "Error"), 58); ((TNamed 70), (str "Read"), 123); ((TNamed 71), (str "Read"), 72); ((TNamed 84), (str "Pop"), 132); ((TNamed 84), (str "Put"), 130); ((TNamed 93), (str "Pop"), 135); ((TNamed 93), (str "Put"), 133); ((TNamed 94), (str "Pop"), 132); ((TNamed 94), (str "Put"), 130); ((TPointer (TNamed 50)), (str "Code"), 52); ((TPointer (TNamed 50)), (str "Error"), 51); ((TPointer (TNamed 53)), (str "Code"), 59); ((TPointer (TNamed 53)), (str "Error"), 58); ((TPointer (TNamed 61)), (str "Code"), 63); ((TPointer (TNamed 61)), (str "Error"), 62); ((TPointer (TNamed 65)), (str "Add"), 66); ((TPointer (TNamed 65)), (str "AddAlt"), 69); ((TPointer (TNamed 65)), (str "AddMissing"), 68); ((TPointer (TNamed 65)), (str "AddUnused"), 67); ((TPointer (TNamed 71)), (str "Read"), 72); ((TPointer (TNamed 85)), (str "Pop"), 87); ((TPointer (TNamed 85)), (str "Put"), 86); ((TPointer (TNamed 89)), (str "Pop"), 91); ((TPointer (TNamed 89)), (str "Put"), 90)].
Definition t_examples_ierr : list gotype := [(TInterface 1); (TNamed 1); (TNamed 53); (TPointer (TNamed 50)); (TPointer (TNamed 53)); (TPointer (TNamed 61))].
Definition t_examples_iree : list gotype := [(TNamed 53); (TPointer (TNamed 50)); (TPointer (TNamed 53)); (TPointer (TNamed 61))].
Definition t_examples_icause : list gotype := [].
Definition t_examples_impl : list (gotype * gotype) := [((TInterface 1), (TInterface 1)); ((TInterface 5), (TInterface 5)); ((TInterface 6), (TInterface 6)); ((TNamed 1), (TInterface 1)); ((TNamed 53), (TInterface 1)); ((TNamed 70), (TInterface 5)); ((TNamed 71), (TInterface 5)); ((TNamed 84), (TInterface 6)); ((TNamed 93), (TInterface 6)); ((TNamed 94), (TInterface 6)); ((TPointer (TNamed 50)), (TInterface 1)); ((TPointer (TNamed 53)), (TInterface 1)); ((TPointer (TNamed 61)), (TInterface 1)); ((TPointer (TNamed 71)), (TInterface 5)); ((TPointer (TNamed 85)), (TInterface 6)); ((TPointer (TNamed 89)), (TInterface 6))].
Definition t_examples_nodes0 : list snode := [SNode 1 (Place 0 1) (Place 1855 68) true; SNode 2 (Place 8 1) (Place 16 1) false; SNode 3 (Place 18 3) (Place 46 6) true; SNode 4 (Place 28 4) (Place 33 4) true; SNode 5 (Place 28 4) (Place 33 4) false; SNode 6 (Place 35 5) (Place 44 5) true; SNode 7 (Place 35 5) (Place 44 5) false; SNode 8 (Place 48 8) (Place 155 10) true; SNode 9 (Place 53 8) (Place 155 10) true; SNode 10 (Place 53 8) (Place 58 8) false; SNode 11 (Place 59 8) (Place 155 10) false; SNode 12 (Place 66 8) (Place 155 10) false; SNode 13 (Place 139 9) (Place 153 9) true; SNode 14 (Place 139 9) (Place 146 9) false; SNode 15 (Place 147 9) (Place 153 9) false; SNode 16 (Place 157 12) (Place 208 12) true; SNode 17 (Place 162 12) (Place 172 12) false; SNode 18 (Place 163 12) (Place 171 12) true; SNode 19 (Place 163 12) (Place 164 12) false; SNode 20 (Place 165 12) (Place 171 12) false; SNode 21 (Place 166 12) (Place 171 12) false; SNode 22 (Place 173 12) (Place 178 12) false; SNode 23 (Place 157 12) (Place 187 12) false; SNode 24 (Place 178 12) (Place 180 12) false; SNode 25 (Place 181 12) (Place 187 12) false; SNode 26 (Place 181 12) (Place 187 12) true; SNode 27 (Place 181 12) (Place 187 12) false; SNode 28 (Place 188 12) (Place 208 12) true; SNode 29 (Place 190 12) (Place 206 12) true; SNode 30 (Place 197 12) (Place 206 12) false; SNode 31 (Place 197 12) (Place 198 12) false; SNode 32 (Place 199 12) (Place 206 12) false; SNode 33 (Place 209 13) (Place 260 13) true; SNode 34 (Place 214 13) (Place 224 13) false; SNode 35 (Place 215 13) (Place 223 13) true; SNode 36 (Place 215 13) (Place 216 13) false; SNode 37 (Place 217 13) (Place 223 13) false; SNode 38 (Place 218 13) (Place 223 13) false; SNode 39 (Place 225 13) (Place 229 13) false; SNode 40 (Place 209 13) (Place 238 13) false; SNode 41 (Place 229 13) (Place 231 13) false; SNode 42 (Place 232 13) (Place 238 13) false; SNode 43 (Place 232 13) (Place 238 13) true; SNode 44 (Place 232 13) (Place 238 13) false; SNode 45 (Place 240 13) (Place 260 13) true; SNode 46 (Place 242 13) (Place 258 13) true; SNode 47 (Place 249 13) (Place 258 13) false; SNode 48 (Place 249 13) (Place 250 13) false; SNode 49 (Place 251 13) (Place 258 13) false; SNode 50 (Place 262 15) (Place 280 15) true; SNode 51 (Place 267 15) (Place 280 15) true; SNode 52 (Place 267 15) (Place 273 15) false; SNode 53 (Place 274 15) (Place 280 15) false; SNode 54 (Place 399 17) (Place 575 22) true; SNode 55 (Place 408 18) (Place 443 18) true; SNode 56 (Place 408 18) (Place 419 18) false; SNode 57 (Place 426 18) (Place 443 18) false; SNode 58 (Place 445 19) (Place 484 19) true; SNode 59 (Place 445 19) (Place 455 19) false; SNode 60 (Place 463 19) (Place 484 19) false; SNode 61 (Place 463 19) (Place 474 19) false; SNode 62 (Place 477 19) (Place 484 19) false; SNode 63 (Place 486 20) (Place 530 20) true; SNode 64 (Place 486 20) (Place 501 20) false; SNode 65 (Place 504 20) (Place 530 20) false; SNode 66 (Place 504 20) (Place 515 20) false; SNode 67 (Place 518 20) (Place 530 20) false; SNode 68 (Place 532 21) (Place 573 21) true; SNode 69 (Place 532 21) (Place 544 21) false; SNode 70 (Place 550 21) (Place 573 21) false; SNode 71 (Place 550 21) (Place 561 21) false; SNode 72 (Place 564 21) (Place 573 21) false; SNode 73 (Place 577 24) (Place 653 24) true; SNode 74 (Place 582 24) (Place 592 24) false; SNode 75 (Place 583 24) (Place 591 24) true; SNode 76 (Place 583 24) (Place 584 24) false; SNode 77 (Place 585 24) (Place 591 24) false; SNode 78 (Place 593 24) (Place 598 24) false; SNode 79 (Place 577 24) (Place 607 24) false; SNode 80 (Place 598 24) (Place 600 24) false; SNode 81 (Place 601 24) (Place 607 24) false; SNode 82 (Place 601 24) (Place 607 24) true; SNode 83 (Place 601 24) (Place 607 24) false; SNode 84 (Place 608 24) (Place 653 24) true; SNode 85 (Place 610 24) (Place 651 24) true; SNode 86 (Place 617 24) (Place 651 24) false; SNode 87 (Place 617 24) (Place 628 24) false; SNode 88 (Place 617 24) (Place 620 24) false; SNode 89 (Place 621 24) (Place 628 24) false; SNode 90 (Place 629 24) (Place 637 24) false; SNode 91 (Place 639 24) (Place 647 24) false; SNode 92 (Place 639 24) (Place 645 24) false; SNode 93 (Place 639 24) (Place 640 24) false; SNode 94 (Place 641 24) (Place 645 24) false; SNode 95 (Place 649 24) (Place 650 24) false; SNode 96 (Place 654 25) (Place 849 34) true; SNode 97 (Place 659 25) (Place 669 25) false; SNode 98 (Place 660 25) (Place 668 25) true; SNode 99 (Place 660 25) (Place 661 25) false; SNode 100 (Place 662 25) (Place 668 25) false; SNode 101 (Place 670 25) (Place 674 25) false; SNode 102 (Place 654 25) (Place 683 25) false; SNode 103 (Place 674 25) (Place 676 25) false; SNode 104 (Place 677 25) (Place 683 25) false; SNode 105 (Place 677 25) (Place 683 25) true; SNode 106 (Place 677 25) (Place 683 25) false; SNode 107 (Place 684 25) (Place 849 34) true; SNode 108 (Place 687 26) (Place 847 33) true; SNode 109 (Place 694 26) (Place 847 33) true; SNode 110 (Place 697 27) (Place 730 28) true; SNode 111 (Place 702 27) (Place 709 27) false; SNode 112 (Place 702 27) (Place 703 27) false; SNode 113 (Place 707 27) (Place 709 27) false; SNode 114 (Place 713 28) (Place 730 28) true; SNode 115 (Place 720 28) (Place 730 28) false; SNode 116 (Place 732 29) (Place 812 30) true; SNode 117 (Place 737 29) (Place 786 29) false; SNode 118 (Place 737 29) (Place 754 29) false; SNode 119 (Place 737 29) (Place 744 29) false; SNode 120 (Place 745 29) (Place 754 29) false; SNode 121 (Place 755 29) (Place 764 29) false; SNode 122 (Place 755 29) (Place 761 29) false; SNode 123 (Place 762 29) (Place 763 29) false; SNode 124 (Place 766 29) (Place 785 29) false; SNode 125 (Place 790 30) (Place 812 30) true; SNode 126 (Place 797 30) (Place 812 30) false; SNode 127 (Place 814 31) (Place 844 32) true; SNode 128 (Place 825 32) (Place 844 32) true; SNode 129 (Place 832 32) (Place 844 32) false; SNode 130 (Place 976 41) (Place 1143 43) true; SNode 131 (Place 981 41) (Place 993 41) false; SNode 132 (Place 976 41) (Place 1002 41) false; SNode 133 (Place 993 41) (Place 995 41) false; SNode 134 (Place 996 41) (Place 1002 41) false; SNode 135 (Place 996 41) (Place 1002 41) true; SNode 136 (Place 996 41) (Place 1002 41) false; SNode 137 (Place 1003 41) (Place 1143 43) true; SNode 138 (Place 1111 42) (Place 1141 42) true; SNode 139 (Place 1118 42) (Place 1141 42) false; SNode 140 (Place 1118 42) (Place 1124 42) false; SNode 141 (Place 1125 42) (Place 1140 42) false; SNode 142 (Place 1145 45) (Place 1304 48) true; SNode 143 (Place 1150 45) (Place 1304 48) true; SNode 144 (Place 1150 45) (Place 1156 45) false; SNode 145 (Place 1157 45) (Place 1304 48) false; SNode 146 (Place 1164 45) (Place 1304 48) false; SNode 147 (Place 1280 46) (Place 1289 46) true; SNode 148 (Place 1280 46) (Place 1284 46) false; SNode 149 (Place 1285 46) (Place 1289 46) false; SNode 150 (Place 1291 47) (Place 1302 47) true; SNode 151 (Place 1291 47) (Place 1295 47) false; SNode 152 (Place 1296 47) (Place 1302 47) false; SNode 153 (Place 1306 50) (Place 1355 50) true; SNode 154 (Place 1311 50) (Place 1322 50) false; SNode 155 (Place 1312 50) (Place 1321 50) true; SNode 156 (Place 1312 50) (Place 1313 50) false; SNode 157 (Place 1314 50) (Place 1321 50) false; SNode 158 (Place 1315 50) (Place 1321 50) false; SNode 159 (Place 1323 50) (Place 1328 50) false; SNode 160 (Place 1306 50) (Place 1337 50) false; SNode 161 (Place 1328 50) (Place 1330 50) false; SNode 162 (Place 1331 50) (Place 1337 50) false; SNode 163 (Place 1331 50) (Place 1337 50) true; SNode 164 (Place 1331 50) (Place 1337 50) false; SNode 165 (Place 1338 50) (Place 1355 50) true; SNode 166 (Place 1340 50) (Place 1353 50) true; SNode 167 (Place 1347 50) (Place 1353 50) false; SNode 168 (Place 1347 50) (Place 1348 50) false; SNode 169 (Place 1349 50) (Place 1353 50) false; SNode 170 (Place 1356 51) (Place 1513 59) true; SNode 171 (Place 1361 51) (Place 1372 51) false; SNode 172 (Place 1362 51) (Place 1371 51) true; SNode 173 (Place 1362 51) (Place 1363 51) false; SNode 174 (Place 1364 51) (Place 1371 51) false; SNode 175 (Place 1365 51) (Place 1371 51) false; SNode 176 (Place 1373 51) (Place 1377 51) false; SNode 177 (Place 1356 51) (Place 1386 51) false; SNode 178 (Place 1377 51) (Place 1379 51) false; SNode 179 (Place 1380 51) (Place 1386 51) false; SNode 180 (Place 1380 51) (Place 1386 51) true; SNode 181 (Place 1380 51) (Place 1386 51) false; SNode 182 (Place 1387 51) (Place 1513 59) true; SNode 183 (Place 1390 52) (Place 1440 54) true; SNode 184 (Place 1393 52) (Place 1399 52) false; SNode 185 (Place 1393 52) (Place 1394 52) false; SNode 186 (Place 1395 52) (Place 1399 52) false; SNode 187 (Place 1400 52) (Place 1440 54) true; SNode 188 (Place 1404 53) (Place 1437 53) true; SNode 189 (Place 1404 53) (Place 1410 53) false; SNode 190 (Place 1404 53) (Place 1405 53) false; SNode 191 (Place 1406 53) (Place 1410 53) false; SNode 192 (Place 1413 53) (Place 1437 53) false; SNode 193 (Place 1442 55) (Place 1496 57) true; SNode 194 (Place 1445 55) (Place 1457 55) false; SNode 195 (Place 1445 55) (Place 1451 55) false; SNode 196 (Place 1445 55) (Place 1446 55) false; SNode 197 (Place 1447 55) (Place 1451 55) false; SNode 198 (Place 1455 55) (Place 1457 55) false; SNode 199 (Place 1458 55) (Place 1496 57) true; SNode 200 (Place 1462 56) (Place 1493 56) true; SNode 201 (Place 1469 56) (Place 1493 56) false; SNode 202 (Place 1498 58) (Place 1511 58) true; SNode 203 (Place 1505 58) (Place 1511 58) false; SNode 204 (Place 1505 58) (Place 1506 58) false; SNode 205 (Place 1507 58) (Place 1511 58) false; SNode 206 (Place 1655 66) (Place 1855 68) true; SNode 207 (Place 1660 66) (Place 1672 66) false; SNode 208 (Place 1655 66) (Place 1682 66) false; SNode 209 (Place 1672 66) (Place 1674 66) false; SNode 210 (Place 1675 66) (Place 1682 66) false; SNode 211 (Place 1675 66) (Place 1682 66) true; SNode 212 (Place 1675 66) (Place 1682 66) false; SNode 213 (Place 1676 66) (Place 1682 66) false; SNode 214 (Place 1683 66) (Place 1855 68) true; SNode 215 (Place 1798 67) (Place 1853 67) true; SNode 216 (Place 1805 67) (Place 1853 67) false; SNode 217 (Place 1806 67) (Place 1853 67) false; SNode 218 (Place 1806 67) (Place 1812 67) false; SNode 219 (Place 1813 67) (Place 1818 67) false; SNode 220 (Place 1820 67) (Place 1852 67) false].
Definition t_examples_cgroups0 : list cgroup := [CGroup (Place 68 8) (Place 137 8) [(str "// want Error:`ErrorType{Field:{Name:""TheCode"", Position:0}, Codes:}`")]; CGroup (Place 281 15) (Place 397 15) [(str "// want Error2:`ErrorType{Field:<nil>, Codes:examples-error-disconnect examples-error-empty examples-error-unknown}`")]; CGroup (Place 851 36) (Place 975 40) [(str "// Errors:"); (str "//"); (str "//    - examples-error-empty      --"); (str "//    - examples-error-disconnect --"); (str "//    - examples-error-unknown    --")]; CGroup (Place 1005 41) (Place 1109 41) [(str "// want ReturnError2:""ErrorCodes: examples-error-disconnect examples-error-empty examples-error-unknown""")]; CGroup (Place 1166 45) (Place 1278 45) [(str "// want Error3:`ErrorType{Field:{Name:""code"", Position:1}, Codes:examples-error-flagged examples-error-unknown}`")]; CGroup (Place 1515 61) (Place 1654 65) [(str "// Errors:"); (str "//"); (str "//    - examples-error-flagged         --"); (str "//    - examples-error-unknown         --"); (str "//    - examples-error-not-implemented --")]; CGroup (Place 1685 66) (Place 1796 66) [(str "// want ReturnError3:""ErrorCodes: examples-error-flagged examples-error-not-implemented examples-error-unknown""")]].
Definition t_examples_nodes1 : list snode := [SNode 221 (Place 0 1) (Place 3566 103) true; SNode 222 (Place 8 1) (Place 16 1) false; SNode 223 (Place 18 3) (Place 78 6) true; SNode 224 (Place 23 3) (Place 78 6) true; SNode 225 (Place 23 3) (Place 33 3) false; SNode 226 (Place 34 3) (Place 78 6) false; SNode 227 (Place 41 3) (Place 78 6) false; SNode 228 (Place 44 4) (Place 64 4) true; SNode 229 (Place 44 4) (Place 50 4) false; SNode 230 (Place 51 4) (Place 64 4) false; SNode 231 (Place 53 4) (Place 64 4) false; SNode 232 (Place 62 4) (Place 64 4) false; SNode 233 (Place 66 5) (Place 76 5) true; SNode 234 (Place 66 5) (Place 71 5) false; SNode 235 (Place 73 5) (Place 76 5) false; SNode 236 (Place 404 15) (Place 857 30) true; SNode 237 (Place 409 15) (Place 424 15) false; SNode 238 (Place 410 15) (Place 423 15) true; SNode 239 (Place 410 15) (Place 411 15) false; SNode 240 (Place 412 15) (Place 423 15) false; SNode 241 (Place 413 15) (Place 423 15) false; SNode 242 (Place 425 15) (Place 428 15) false; SNode 243 (Place 404 15) (Place 452 15) false; SNode 244 (Place 428 15) (Place 446 15) false; SNode 245 (Place 429 15) (Place 445 15) true; SNode 246 (Place 429 15) (Place 433 15) false; SNode 247 (Place 434 15) (Place 445 15) false; SNode 248 (Place 443 15) (Place 445 15) false; SNode 249 (Place 447 15) (Place 452 15) false; SNode 250 (Place 447 15) (Place 452 15) true; SNode 251 (Place 447 15) (Place 452 15) false; SNode 252 (Place 453 15) (Place 857 30) true; SNode 253 (Place 572 16) (Place 637 18) true; SNode 254 (Place 575 16) (Place 586 16) false; SNode 255 (Place 575 16) (Place 579 16) false; SNode 256 (Place 583 16) (Place 586 16) false; SNode 257 (Place 587 16) (Place 637 18) true; SNode 258 (Place 591 17) (Place 634 17) true; SNode 259 (Place 598 17) (Place 634 17) false; SNode 260 (Place 599 17) (Place 634 17) false; SNode 261 (Place 599 17) (Place 604 17) false; SNode 262 (Place 605 17) (Place 633 17) false; SNode 263 (Place 640 20) (Place 724 22) true; SNode 264 (Place 643 20) (Place 666 20) false; SNode 265 (Place 643 20) (Place 651 20) false; SNode 266 (Place 643 20) (Place 644 20) false; SNode 267 (Place 648 20) (Place 651 20) false; SNode 268 (Place 655 20) (Place 666 20) false; SNode 269 (Place 655 20) (Place 662 20) false; SNode 270 (Place 655 20) (Place 656 20) false; SNode 271 (Place 657 20) (Place 662 20) false; SNode 272 (Place 665 20) (Place 666 20) false; SNode 273 (Place 667 20) (Place 724 22) true; SNode 274 (Place 671 21) (Place 721 21) true; SNode 275 (Place 678 21) (Place 721 21) false; SNode 276 (Place 679 21) (Place 721 21) false; SNode 277 (Place 679 21) (Place 684 21) false; SNode 278 (Place 685 21) (Place 720 21) false; SNode 279 (Place 727 24) (Place 807 26) true; SNode 280 (Place 730 24) (Place 754 24) false; SNode 281 (Place 730 24) (Place 743 24) false; SNode 282 (Place 730 24) (Place 733 24) false; SNode 283 (Place 734 24) (Place 742 24) false; SNode 284 (Place 734 24) (Place 735 24) false; SNode 285 (Place 736 24) (Place 742 24) false; SNode 286 (Place 747 24) (Place 754 24) false; SNode 287 (Place 747 24) (Place 748 24) false; SNode 288 (Place 749 24) (Place 754 24) false; SNode 289 (Place 755 24) (Place 807 26) true; SNode 290 (Place 759 25) (Place 804 25) true; SNode 291 (Place 766 25) (Place 804 25) false; SNode 292 (Place 767 25) (Place 804 25) false; SNode 293 (Place 767 25) (Place 772 25) false; SNode 294 (Place 773 25) (Place 803 25) false; SNode 295 (Place 810 28) (Place 843 28) true; SNode 296 (Place 810 28) (Place 818 28) false; SNode 297 (Place 810 28) (Place 811 28) false; SNode 298 (Place 812 28) (Place 818 28) false; SNode 299 (Place 821 28) (Place 843 28) false; SNode 300 (Place 821 28) (Place 827 28) false; SNode 301 (Place 828 28) (Place 836 28) false; SNode 302 (Place 828 28) (Place 829 28) false; SNode 303 (Place 830 28) (Place 836 28) false; SNode 304 (Place 838 28) (Place 842 28) false; SNode 305 (Place 845 29) (Place 855 29) true; SNode 306 (Place 852 29) (Place 855 29) false; SNode 307 (Place 1190 38) (Place 1588 43) true; SNode 308 (Place 1195 38) (Place 1210 38) false; SNode 309 (Place 1196 38) (Place 1209 38) true; SNode 310 (Place 1196 38) (Place 1197 38) false; SNode 311 (Place 1198 38) (Place 1209 38) false; SNode 312 (Place 1199 38) (Place 1209 38) false; SNode 313 (Place 1211 38) (Place 1220 38) false; SNode 314 (Place 1190 38) (Place 1244 38) false; SNode 315 (Place 1220 38) (Place 1238 38) false; SNode 316 (Place 1221 38) (Place 1237 38) true; SNode 317 (Place 1221 38) (Place 1225 38) false; SNode 318 (Place 1226 38) (Place 1237 38) false; SNode 319 (Place 1235 38) (Place 1237 38) false; SNode 320 (Place 1239 38) (Place 1244 38) false; SNode 321 (Place 1239 38) (Place 1244 38) true; SNode 322 (Place 1239 38) (Place 1244 38) false; SNode 323 (Place 1245 38) (Place 1588 43) true; SNode 324 (Place 1562 42) (Place 1586 42) true; SNode 325 (Place 1562 42) (Place 1586 42) false; SNode 326 (Place 1562 42) (Place 1567 42) false; SNode 327 (Place 1568 42) (Place 1585 42) false; SNode 328 (Place 1674 46) (Place 2245 64) true; SNode 329 (Place 1679 46) (Place 1694 46) false; SNode 330 (Place 1680 46) (Place 1693 46) true; SNode 331 (Place 1680 46) (Place 1681 46) false; SNode 332 (Place 1682 46) (Place 1693 46) false; SNode 333 (Place 1683 46) (Place 1693 46) false; SNode 334 (Place 1695 46) (Place 1705 46) false; SNode 335 (Place 1674 46) (Place 1729 46) false; SNode 336 (Place 1705 46) (Place 1723 46) false; SNode 337 (Place 1706 46) (Place 1722 46) true; SNode 338 (Place 1706 46) (Place 1710 46) false; SNode 339 (Place 1711 46) (Place 1722 46) false; SNode 340 (Place 1720 46) (Place 1722 46) false; SNode 341 (Place 1724 46) (Place 1729 46) false; SNode 342 (Place 1724 46) (Place 1729 46) true; SNode 343 (Place 1724 46) (Place 1729 46) false; SNode 344 (Place 1730 46) (Place 2245 64) true; SNode 345 (Place 1960 50) (Place 2025 52) true; SNode 346 (Place 1963 50) (Place 1974 50) false; SNode 347 (Place 1963 50) (Place 1967 50) false; SNode 348 (Place 1971 50) (Place 1974 50) false; SNode 349 (Place 1975 50) (Place 2025 52) true; SNode 350 (Place 1979 51) (Place 2022 51) true; SNode 351 (Place 1986 51) (Place 2022 51) false; SNode 352 (Place 1987 51) (Place 2022 51) false; SNode 353 (Place 1987 51) (Place 1992 51) false; SNode 354 (Place 1993 51) (Place 2021 51) false; SNode 355 (Place 2028 54) (Place 2112 56) true; SNode 356 (Place 2031 54) (Place 2054 54) false; SNode 357 (Place 2031 54) (Place 2039 54) false; SNode 358 (Place 2031 54) (Place 2032 54) false; SNode 359 (Place 2036 54) (Place 2039 54) false; SNode 360 (Place 2043 54) (Place 2054 54) false; SNode 361 (Place 2043 54) (Place 2050 54) false; SNode 362 (Place 2043 54) (Place 2044 54) false; SNode 363 (Place 2045 54) (Place 2050 54) false; SNode 364 (Place 2053 54) (Place 2054 54) false; SNode 365 (Place 2055 54) (Place 2112 56) true; SNode 366 (Place 2059 55) (Place 2109 55) true; SNode 367 (Place 2066 55) (Place 2109 55) false; SNode 368 (Place 2067 55) (Place 2109 55) false; SNode 369 (Place 2067 55) (Place 2072 55) false; SNode 370 (Place 2073 55) (Place 2108 55) false; SNode 371 (Place 2115 58) (Place 2195 60) true; SNode 372 (Place 2118 58) (Place 2142 58) false; SNode 373 (Place 2118 58) (Place 2131 58) false; SNode 374 (Place 2118 58) (Place 2121 58) false; SNode 375 (Place 2122 58) (Place 2130 58) false; SNode 376 (Place 2122 58) (Place 2123 58) false; SNode 377 (Place 2124 58) (Place 2130 58) false; SNode 378 (Place 2135 58) (Place 2142 58) false; SNode 379 (Place 2135 58) (Place 2136 58) false; SNode 380 (Place 2137 58) (Place 2142 58) false; SNode 381 (Place 2143 58) (Place 2195 60) true; SNode 382 (Place 2147 59) (Place 2192 59) true; SNode 383 (Place 2154 59) (Place 2192 59) false; SNode 384 (Place 2155 59) (Place 2192 59) false; SNode 385 (Place 2155 59) (Place 2160 59) false; SNode 386 (Place 2161 59) (Place 2191 59) false; SNode 387 (Place 2198 62) (Place 2231 62) true; SNode 388 (Place 2198 62) (Place 2206 62) false; SNode 389 (Place 2198 62) (Place 2199 62) false; SNode 390 (Place 2200 62) (Place 2206 62) false; SNode 391 (Place 2209 62) (Place 2231 62) false; SNode 392 (Place 2209 62) (Place 2215 62) false; SNode 393 (Place 2216 62) (Place 2224 62) false; SNode 394 (Place 2216 62) (Place 2217 62) false; SNode 395 (Place 2218 62) (Place 2224 62) false; SNode 396 (Place 2226 62) (Place 2230 62) false; SNode 397 (Place 2233 63) (Place 2243 63) true; SNode 398 (Place 2240 63) (Place 2243 63) false; SNode 399 (Place 2574 73) (Place 3062 88) true; SNode 400 (Place 2579 73) (Place 2594 73) false; SNode 401 (Place 2580 73) (Place 2593 73) true; SNode 402 (Place 2580 73) (Place 2581 73) false; SNode 403 (Place 2582 73) (Place 2593 73) false; SNode 404 (Place 2583 73) (Place 2593 73) false; SNode 405 (Place 2595 73) (Place 2601 73) false; SNode 406 (Place 2574 73) (Place 2625 73) false; SNode 407 (Place 2601 73) (Place 2619 73) false; SNode 408 (Place 2602 73) (Place 2618 73) true; SNode 409 (Place 2602 73) (Place 2606 73) false; SNode 410 (Place 2607 73) (Place 2618 73) false; SNode 411 (Place 2616 73) (Place 2618 73) false; SNode 412 (Place 2620 73) (Place 2625 73) false; SNode 413 (Place 2620 73) (Place 2625 73) true; SNode 414 (Place 2620 73) (Place 2625 73) false; SNode 415 (Place 2626 73) (Place 3062 88) true; SNode 416 (Place 2748 74) (Place 2761 74) true; SNode 417 (Place 2748 74) (Place 2761 74) true; SNode 418 (Place 2752 74) (Place 2761 74) true; SNode 419 (Place 2752 74) (Place 2755 74) false; SNode 420 (Place 2756 74) (Place 2761 74) false; SNode 421 (Place 2764 76) (Place 3047 85) true; SNode 422 (Place 2771 76) (Place 3047 85) true; SNode 423 (Place 2774 77) (Place 2836 78) true; SNode 424 (Place 2779 77) (Place 2790 77) false; SNode 425 (Place 2779 77) (Place 2783 77) false; SNode 426 (Place 2787 77) (Place 2790 77) false; SNode 427 (Place 2794 78) (Place 2836 78) true; SNode 428 (Place 2794 78) (Place 2797 78) false; SNode 429 (Place 2800 78) (Place 2836 78) false; SNode 430 (Place 2801 78) (Place 2836 78) false; SNode 431 (Place 2801 78) (Place 2806 78) false; SNode 432 (Place 2807 78) (Place 2835 78) false; SNode 433 (Place 2838 79) (Place 2919 80) true; SNode 434 (Place 2843 79) (Place 2866 79) false; SNode 435 (Place 2843 79) (Place 2851 79) false; SNode 436 (Place 2843 79) (Place 2844 79) false; SNode 437 (Place 2848 79) (Place 2851 79) false; SNode 438 (Place 2855 79) (Place 2866 79) false; SNode 439 (Place 2855 79) (Place 2862 79) false; SNode 440 (Place 2855 79) (Place 2856 79) false; SNode 441 (Place 2857 79) (Place 2862 79) false; SNode 442 (Place 2865 79) (Place 2866 79) false; SNode 443 (Place 2870 80) (Place 2919 80) true; SNode 444 (Place 2870 80) (Place 2873 80) false; SNode 445 (Place 2876 80) (Place 2919 80) false; SNode 446 (Place 2877 80) (Place 2919 80) false; SNode 447 (Place 2877 80) (Place 2882 80) false; SNode 448 (Place 2883 80) (Place 2918 80) false; SNode 449 (Place 2921 81) (Place 2998 82) true; SNode 450 (Place 2926 81) (Place 2950 81) false; SNode 451 (Place 2926 81) (Place 2939 81) false; SNode 452 (Place 2926 81) (Place 2929 81) false; SNode 453 (Place 2930 81) (Place 2938 81) false; SNode 454 (Place 2930 81) (Place 2931 81) false; SNode 455 (Place 2932 81) (Place 2938 81) false; SNode 456 (Place 2943 81) (Place 2950 81) false; SNode 457 (Place 2943 81) (Place 2944 81) false; SNode 458 (Place 2945 81) (Place 2950 81) false; SNode 459 (Place 2954 82) (Place 2998 82) true; SNode 460 (Place 2954 82) (Place 2957 82) false; SNode 461 (Place 2960 82) (Place 2998 82) false; SNode 462 (Place 2961 82) (Place 2998 82) false; SNode 463 (Place 2961 82) (Place 2966 82) false; SNode 464 (Place 2967 82) (Place 2997 82) false; SNode 465 (Place 3000 83) (Place 3044 84) true; SNode 466 (Place 3011 84) (Place 3044 84) true; SNode 467 (Place 3011 84) (Place 3019 84) false; SNode 468 (Place 3011 84) (Place 3012 84) false; SNode 469 (Place 3013 84) (Place 3019 84) false; SNode 470 (Place 3022 84) (Place 3044 84) false; SNode 471 (Place 3022 84) (Place 3028 84) false; SNode 472 (Place 3029 84) (Place 3037 84) false; SNode 473 (Place 3029 84) (Place 3030 84) false; SNode 474 (Place 3031 84) (Place 3037 84) false; SNode 475 (Place 3039 84) (Place 3043 84) false; SNode 476 (Place 3050 87) (Place 3060 87) true; SNode 477 (Place 3057 87) (Place 3060 87) false; SNode 478 (Place 3064 90) (Place 3388 99) true; SNode 479 (Place 3072 91) (Place 3367 97) true; SNode 480 (Place 3072 91) (Place 3074 91) false; SNode 481 (Place 3075 91) (Place 3367 97) false; SNode 482 (Place 3085 91) (Place 3367 97) false; SNode 483 (Place 3273 96) (Place 3293 96) true; SNode 484 (Place 3273 96) (Place 3277 96) false; SNode 485 (Place 3277 96) (Place 3293 96) false; SNode 486 (Place 3277 96) (Place 3279 96) false; SNode 487 (Place 3280 96) (Place 3293 96) false; SNode 488 (Place 3281 96) (Place 3285 96) true; SNode 489 (Place 3281 96) (Place 3285 96) false; SNode 490 (Place 3287 96) (Place 3292 96) true; SNode 491 (Place 3287 96) (Place 3292 96) false; SNode 492 (Place 3369 98) (Place 3386 98) true; SNode 493 (Place 3369 98) (Place 3377 98) false; SNode 494 (Place 3378 98) (Place 3386 98) false; SNode 495 (Place 3384 98) (Place 3386 98) false; SNode 496 (Place 3512 103) (Place 3566 103) true; SNode 497 (Place 3517 103) (Place 3527 103) false; SNode 498 (Place 3518 103) (Place 3526 103) true; SNode 499 (Place 3518 103) (Place 3526 103) false; SNode 500 (Place 3528 103) (Place 3532 103) false; SNode 501 (Place 3512 103) (Place 3548 103) false; SNode 502 (Place 3532 103) (Place 3534 103) false; SNode 503 (Place 3535 103) (Place 3548 103) false; SNode 504 (Place 3536 103) (Place 3540 103) true; SNode 505 (Place 3536 103) (Place 3540 103) false; SNode 506 (Place 3542 103) (Place 3547 103) true; SNode 507 (Place 3542 103) (Place 3547 103) false; SNode 508 (Place 3549 103) (Place 3566 103) true; SNode 509 (Place 3551 103) (Place 3564 103) true; SNode 510 (Place 3558 103) (Place 3559 103) false; SNode 511 (Place 3561 103) (Place 3564 103) false].
Definition t_examples_cgroups1 : list cgroup := [CGroup (Place 80 8) (Place 403 14) [(str "// Add adds a non-nil value into the collection."); (str "//"); (str "// Errors:"); (str "//"); (str "//    - examples-error-invalid-arg        -- if the given argument is nil"); (str "//    - examples-error-invalid-collection -- if the given collection is nil or invalid"); (str "//    - examples-error-limit-reached      -- if the limit of values in the collection is reached")]; CGroup (Place 455 15) (Place 570 15) [(str "// want Add:""ErrorCodes: examples-error-invalid-arg examples-error-invalid-collection examples-error-limit-reached""")]; CGroup (Place 859 32) (Place 1189 37) [(str "// Errors:"); (str "//"); (str "// None of the following errors are actually returned yet."); (str "//    - examples-error-invalid-arg        -- if the given argument is nil"); (str "//    - examples-error-invalid-collection -- if the given collection is nil or invalid"); (str "//    - examples-error-limit-reached      -- if the limit of values in the collection is reached")]; CGroup (Place 1247 38) (Place 1560 41) [(str "/*
		want
			AddUnused:""ErrorCodes: examples-error-invalid-arg examples-error-invalid-collection examples-error-limit-reached""
			`function ""AddUnused"" has a mismatch of declared and actual error codes: unused codes: \[examples-error-invalid-arg examples-error-invalid-collection examples-error-limit-reached]` */")]; CGroup (Place 1590 45) (Place 1673 45) [(str "// Errors: none -- not actually true, but we want to showcasse missing error codes.")]; CGroup (Place 1732 46) (Place 1958 49) [(str "/*
		want
			AddMissing:""ErrorCodes:""
			`function ""AddMissing"" has a mismatch of declared and actual error codes: missing codes: \[examples-error-invalid-arg examples-error-invalid-collection examples-error-limit-reached]` */")]; CGroup (Place 2247 66) (Place 2573 72) [(str "// AddAlt adds a non-nil value into the collection."); (str "//"); (str "// Errors:"); (str "//"); (str "//    - examples-error-invalid-arg        -- if the given argument is nil"); (str "//    - examples-error-invalid-collection -- if the given collection is nil or invalid"); (str "//    - examples-error-limit-reached      -- if the limit of values in the collection is reached")]; CGroup (Place 2628 73) (Place 2746 73) [(str "// want AddAlt:""ErrorCodes: examples-error-invalid-arg examples-error-invalid-collection examples-error-limit-reached""")]; CGroup (Place 3087 91) (Place 3120 91) [(str "// want IO:""ErrorInterface: Read""")]; CGroup (Place 3123 92) (Place 3270 95) [(str "// Errors:"); (str "//"); (str "//    - examples-error-io         -- if a general io error occurs"); (str "//    - examples-error-disconnect -- if the peer disconnected")]; CGroup (Place 3294 96) (Place 3364 96) [(str "// want Read:""ErrorCodes: examples-error-disconnect examples-error-io""")]; CGroup (Place 3390 101) (Place 3511 102) [(str "// Read for MockedIO always returns 0."); (str "// Errors: none -- this method only returns error to comply with the interface IO.")]; CGroup (Place 3567 103) (Place 3593 103) [(str "// want Read:""ErrorCodes:""")]].
Definition t_examples_nodes2 : list snode := [SNode 512 (Place 0 1) (Place 2267 71) true; SNode 513 (Place 8 1) (Place 16 1) false; SNode 514 (Place 18 3) (Place 30 3) true; SNode 515 (Place 25 3) (Place 30 3) true; SNode 516 (Place 25 3) (Place 30 3) false; SNode 517 (Place 370 16) (Place 712 26) true; SNode 518 (Place 375 16) (Place 391 16) false; SNode 519 (Place 370 16) (Place 416 16) false; SNode 520 (Place 391 16) (Place 410 16) false; SNode 521 (Place 392 16) (Place 409 16) true; SNode 522 (Place 392 16) (Place 397 16) false; SNode 523 (Place 399 16) (Place 404 16) false; SNode 524 (Place 405 16) (Place 409 16) false; SNode 525 (Place 411 16) (Place 416 16) false; SNode 526 (Place 411 16) (Place 416 16) true; SNode 527 (Place 411 16) (Place 416 16) false; SNode 528 (Place 417 16) (Place 712 26) true; SNode 529 (Place 558 17) (Place 621 19) true; SNode 530 (Place 561 17) (Place 566 17) false; SNode 531 (Place 567 17) (Place 621 19) true; SNode 532 (Place 571 18) (Place 618 18) true; SNode 533 (Place 578 18) (Place 618 18) false; SNode 534 (Place 579 18) (Place 618 18) false; SNode 535 (Place 579 18) (Place 584 18) false; SNode 536 (Place 585 18) (Place 617 18) false; SNode 537 (Place 624 21) (Place 670 21) true; SNode 538 (Place 624 21) (Place 627 21) false; SNode 539 (Place 631 21) (Place 670 21) false; SNode 540 (Place 632 21) (Place 670 21) false; SNode 541 (Place 632 21) (Place 638 21) false; SNode 542 (Place 639 21) (Place 644 21) false; SNode 543 (Place 646 21) (Place 669 21) false; SNode 544 (Place 672 22) (Place 698 24) true; SNode 545 (Place 675 22) (Place 680 22) false; SNode 546 (Place 681 22) (Place 698 24) true; SNode 547 (Place 685 23) (Place 695 23) true; SNode 548 (Place 692 23) (Place 695 23) false; SNode 549 (Place 700 25) (Place 710 25) true; SNode 550 (Place 707 25) (Place 710 25) false; SNode 551 (Place 988 37) (Place 1504 49) true; SNode 552 (Place 993 37) (Place 1019 37) false; SNode 553 (Place 988 37) (Place 1034 37) false; SNode 554 (Place 1019 37) (Place 1028 37) false; SNode 555 (Place 1020 37) (Place 1027 37) true; SNode 556 (Place 1020 37) (Place 1023 37) false; SNode 557 (Place 1024 37) (Place 1027 37) false; SNode 558 (Place 1029 37) (Place 1034 37) false; SNode 559 (Place 1029 37) (Place 1034 37) true; SNode 560 (Place 1029 37) (Place 1034 37) false; SNode 561 (Place 1035 37) (Place 1504 49) true; SNode 562 (Place 1148 38) (Place 1186 38) true; SNode 563 (Place 1148 38) (Place 1151 38) false; SNode 564 (Place 1155 38) (Place 1186 38) false; SNode 565 (Place 1156 38) (Place 1186 38) false; SNode 566 (Place 1156 38) (Place 1161 38) false; SNode 567 (Place 1162 38) (Place 1185 38) false; SNode 568 (Place 1188 39) (Place 1490 47) true; SNode 569 (Place 1195 39) (Place 1198 39) false; SNode 570 (Place 1199 39) (Place 1490 47) true; SNode 571 (Place 1202 40) (Place 1247 41) true; SNode 572 (Place 1207 40) (Place 1208 40) false; SNode 573 (Place 1212 41) (Place 1247 41) true; SNode 574 (Place 1212 41) (Place 1223 41) false; SNode 575 (Place 1212 41) (Place 1215 41) false; SNode 576 (Place 1216 41) (Place 1223 41) false; SNode 577 (Place 1226 41) (Place 1247 41) false; SNode 578 (Place 1249 42) (Place 1293 43) true; SNode 579 (Place 1254 42) (Place 1255 42) false; SNode 580 (Place 1259 43) (Place 1293 43) true; SNode 581 (Place 1259 43) (Place 1270 43) false; SNode 582 (Place 1259 43) (Place 1262 43) false; SNode 583 (Place 1263 43) (Place 1270 43) false; SNode 584 (Place 1273 43) (Place 1293 43) false; SNode 585 (Place 1295 44) (Place 1417 46) true; SNode 586 (Place 1366 46) (Place 1417 46) true; SNode 587 (Place 1366 46) (Place 1377 46) false; SNode 588 (Place 1366 46) (Place 1369 46) false; SNode 589 (Place 1370 46) (Place 1377 46) false; SNode 590 (Place 1380 46) (Place 1417 46) false; SNode 591 (Place 1380 46) (Place 1391 46) false; SNode 592 (Place 1380 46) (Place 1383 46) false; SNode 593 (Place 1384 46) (Place 1391 46) false; SNode 594 (Place 1392 46) (Place 1411 46) false; SNode 595 (Place 1413 46) (Place 1416 46) false; SNode 596 (Place 1492 48) (Place 1502 48) true; SNode 597 (Place 1499 48) (Place 1502 48) false; SNode 598 (Place 1749 58) (Place 1894 60) true; SNode 599 (Place 1754 58) (Place 1766 58) false; SNode 600 (Place 1749 58) (Place 1774 58) false; SNode 601 (Place 1766 58) (Place 1768 58) false; SNode 602 (Place 1769 58) (Place 1774 58) false; SNode 603 (Place 1769 58) (Place 1774 58) true; SNode 604 (Place 1769 58) (Place 1774 58) false; SNode 605 (Place 1775 58) (Place 1894 60) true; SNode 606 (Place 1863 59) (Place 1892 59) true; SNode 607 (Place 1870 59) (Place 1892 59) false; SNode 608 (Place 1870 59) (Place 1877 59) false; SNode 609 (Place 1878 59) (Place 1891 59) false; SNode 610 (Place 2026 66) (Place 2267 71) true; SNode 611 (Place 2031 66) (Place 2038 66) false; SNode 612 (Place 2026 66) (Place 2061 66) false; SNode 613 (Place 2038 66) (Place 2055 66) false; SNode 614 (Place 2039 66) (Place 2054 66) true; SNode 615 (Place 2039 66) (Place 2047 66) false; SNode 616 (Place 2048 66) (Place 2054 66) false; SNode 617 (Place 2056 66) (Place 2061 66) false; SNode 618 (Place 2056 66) (Place 2061 66) true; SNode 619 (Place 2056 66) (Place 2061 66) false; SNode 620 (Place 2062 66) (Place 2267 71) true; SNode 621 (Place 2145 67) (Place 2225 69) true; SNode 622 (Place 2148 67) (Place 2173 67) false; SNode 623 (Place 2148 67) (Place 2156 67) false; SNode 624 (Place 2160 67) (Place 2173 67) false; SNode 625 (Place 2174 67) (Place 2225 69) true; SNode 626 (Place 2178 68) (Place 2222 68) true; SNode 627 (Place 2185 68) (Place 2222 68) false; SNode 628 (Place 2186 68) (Place 2222 68) false; SNode 629 (Place 2186 68) (Place 2191 68) false; SNode 630 (Place 2192 68) (Place 2221 68) false; SNode 631 (Place 2227 70) (Place 2265 70) true; SNode 632 (Place 2234 70) (Place 2265 70) false; SNode 633 (Place 2235 70) (Place 2265 70) false; SNode 634 (Place 2235 70) (Place 2240 70) false; SNode 635 (Place 2241 70) (Place 2264 70) false].
Definition t_examples_cgroups2 : list cgroup := [CGroup (Place 32 5) (Place 369 15) [(str "// TypeConstruction shows, how type constructions are handled,"); (str "// when collecting error codes in the analyser."); (str "//"); (str "// Errors:"); (str "//"); (str "// From Error type construction:"); (str "//    - examples-error-not-implemented --"); (str "// From Error3 type construction:"); (str "//    - examples-error-closed --"); (str "//    - examples-error-flagged --"); (str "//    - examples-error-unknown --")]; CGroup (Place 419 16) (Place 556 16) [(str "// want TypeConstruction:""ErrorCodes: examples-error-closed examples-error-flagged examples-error-not-implemented examples-error-unknown""")]; CGroup (Place 714 28) (Place 987 36) [(str "// AssignmentToErrorCodeField demonstrates,"); (str "// how assignments to the error code field of a type are handled,"); (str "// when collecting error codes in the analyser."); (str "//"); (str "// Errors:"); (str "//"); (str "//    - examples-error-unkown --"); (str "//    - examples-error-zero   --"); (str "//    - examples-error-one    --")]; CGroup (Place 1037 37) (Place 1146 37) [(str "// want AssignmentToErrorCodeField:""ErrorCodes: examples-error-one examples-error-unkown examples-error-zero""")]; CGroup (Place 1306 45) (Place 1363 45) [(str "// Not allowed, because it cannot be statically analysed:")]; CGroup (Place 1418 46) (Place 1487 46) [(str "// want ""error code has to be constant value or error code parameter""")]; CGroup (Place 1506 51) (Place 1748 57) [(str "// FunctionCall demonstrates, how function calls are handled,"); (str "// when collecting error codes in the analyser."); (str "//"); (str "// Errors:"); (str "//"); (str "//    - examples-error-failed       -- failed to open file"); (str "//    - examples-error-invalid-name -- invalid file name")]; CGroup (Place 1777 58) (Place 1861 58) [(str "// want FunctionCall:""ErrorCodes: examples-error-failed examples-error-invalid-name""")]; CGroup (Place 1896 62) (Place 2025 65) [(str "// Errors:"); (str "//"); (str "//    - examples-error-failed       -- failed to open file"); (str "//    - examples-error-invalid-name -- invalid file name")]; CGroup (Place 2064 66) (Place 2143 66) [(str "// want TryOpen:""ErrorCodes: examples-error-failed examples-error-invalid-name""")]].
Definition t_examples_nodes3 : list snode := [SNode 636 (Place 0 1) (Place 2635 91) true; SNode 637 (Place 8 1) (Place 16 1) false; SNode 638 (Place 254 9) (Place 425 12) true; SNode 639 (Place 259 9) (Place 268 9) false; SNode 640 (Place 254 9) (Place 276 9) false; SNode 641 (Place 268 9) (Place 270 9) false; SNode 642 (Place 271 9) (Place 276 9) false; SNode 643 (Place 271 9) (Place 276 9) true; SNode 644 (Place 271 9) (Place 276 9) false; SNode 645 (Place 277 9) (Place 425 12) true; SNode 646 (Place 384 11) (Place 423 11) true; SNode 647 (Place 391 11) (Place 423 11) false; SNode 648 (Place 392 11) (Place 423 11) false; SNode 649 (Place 392 11) (Place 397 11) false; SNode 650 (Place 398 11) (Place 422 11) false; SNode 651 (Place 675 21) (Place 969 29) true; SNode 652 (Place 680 21) (Place 697 21) false; SNode 653 (Place 675 21) (Place 714 21) false; SNode 654 (Place 697 21) (Place 708 21) false; SNode 655 (Place 698 21) (Place 707 21) true; SNode 656 (Place 698 21) (Place 703 21) false; SNode 657 (Place 704 21) (Place 707 21) false; SNode 658 (Place 709 21) (Place 714 21) false; SNode 659 (Place 709 21) (Place 714 21) true; SNode 660 (Place 709 21) (Place 714 21) false; SNode 661 (Place 715 21) (Place 969 29) true; SNode 662 (Place 796 22) (Place 888 26) true; SNode 663 (Place 796 22) (Place 802 22) false; SNode 664 (Place 806 22) (Place 888 26) false; SNode 665 (Place 806 22) (Place 813 22) false; SNode 666 (Place 808 22) (Place 813 22) false; SNode 667 (Place 817 23) (Place 820 23) false; SNode 668 (Place 824 24) (Place 852 24) false; SNode 669 (Place 825 24) (Place 852 24) false; SNode 670 (Place 825 24) (Place 830 24) false; SNode 671 (Place 831 24) (Place 851 24) false; SNode 672 (Place 856 25) (Place 884 25) false; SNode 673 (Place 857 25) (Place 884 25) false; SNode 674 (Place 857 25) (Place 862 25) false; SNode 675 (Place 863 25) (Place 883 25) false; SNode 676 (Place 947 28) (Place 967 28) true; SNode 677 (Place 954 28) (Place 967 28) false; SNode 678 (Place 954 28) (Place 960 28) false; SNode 679 (Place 961 28) (Place 966 28) false; SNode 680 (Place 1081 36) (Place 1384 46) true; SNode 681 (Place 1086 36) (Place 1099 36) false; SNode 682 (Place 1081 36) (Place 1108 36) false; SNode 683 (Place 1099 36) (Place 1101 36) false; SNode 684 (Place 1102 36) (Place 1108 36) false; SNode 685 (Place 1102 36) (Place 1108 36) true; SNode 686 (Place 1102 36) (Place 1108 36) false; SNode 687 (Place 1103 36) (Place 1108 36) false; SNode 688 (Place 1109 36) (Place 1384 46) true; SNode 689 (Place 1207 37) (Place 1370 44) true; SNode 690 (Place 1214 37) (Place 1370 44) true; SNode 691 (Place 1217 38) (Place 1265 39) true; SNode 692 (Place 1222 38) (Place 1226 38) false; SNode 693 (Place 1230 39) (Place 1265 39) true; SNode 694 (Place 1237 39) (Place 1265 39) false; SNode 695 (Place 1238 39) (Place 1265 39) false; SNode 696 (Place 1238 39) (Place 1243 39) false; SNode 697 (Place 1244 39) (Place 1264 39) false; SNode 698 (Place 1267 40) (Place 1315 41) true; SNode 699 (Place 1272 40) (Place 1276 40) false; SNode 700 (Place 1280 41) (Place 1315 41) true; SNode 701 (Place 1287 41) (Place 1315 41) false; SNode 702 (Place 1288 41) (Place 1315 41) false; SNode 703 (Place 1288 41) (Place 1293 41) false; SNode 704 (Place 1294 41) (Place 1314 41) false; SNode 705 (Place 1317 42) (Place 1367 43) true; SNode 706 (Place 1322 42) (Place 1326 42) false; SNode 707 (Place 1330 43) (Place 1367 43) true; SNode 708 (Place 1337 43) (Place 1367 43) false; SNode 709 (Place 1338 43) (Place 1367 43) false; SNode 710 (Place 1338 43) (Place 1343 43) false; SNode 711 (Place 1344 43) (Place 1366 43) false; SNode 712 (Place 1372 45) (Place 1382 45) true; SNode 713 (Place 1379 45) (Place 1382 45) false; SNode 714 (Place 1386 48) (Place 1431 48) true; SNode 715 (Place 1391 48) (Place 1405 48) false; SNode 716 (Place 1386 48) (Place 1417 48) false; SNode 717 (Place 1405 48) (Place 1417 48) false; SNode 718 (Place 1406 48) (Place 1416 48) true; SNode 719 (Place 1406 48) (Place 1409 48) false; SNode 720 (Place 1410 48) (Place 1416 48) false; SNode 721 (Place 1411 48) (Place 1416 48) false; SNode 722 (Place 1418 48) (Place 1431 48) true; SNode 723 (Place 1651 57) (Place 1996 68) true; SNode 724 (Place 1656 57) (Place 1668 57) false; SNode 725 (Place 1651 57) (Place 1676 57) false; SNode 726 (Place 1668 57) (Place 1670 57) false; SNode 727 (Place 1671 57) (Place 1676 57) false; SNode 728 (Place 1671 57) (Place 1676 57) true; SNode 729 (Place 1671 57) (Place 1676 57) false; SNode 730 (Place 1677 57) (Place 1996 68) true; SNode 731 (Place 1755 58) (Place 1994 67) true; SNode 732 (Place 1762 58) (Place 1784 58) true; SNode 733 (Place 1762 58) (Place 1765 58) false; SNode 734 (Place 1769 58) (Place 1784 58) false; SNode 735 (Place 1769 58) (Place 1782 58) false; SNode 736 (Place 1786 58) (Place 1796 58) false; SNode 737 (Place 1786 58) (Place 1794 58) false; SNode 738 (Place 1786 58) (Place 1789 58) false; SNode 739 (Place 1790 58) (Place 1794 58) false; SNode 740 (Place 1797 58) (Place 1994 67) true; SNode 741 (Place 1800 59) (Place 1866 60) true; SNode 742 (Place 1805 59) (Place 1807 59) false; SNode 743 (Place 1856 60) (Place 1866 60) true; SNode 744 (Place 1863 60) (Place 1866 60) false; SNode 745 (Place 1868 61) (Place 1929 63) true; SNode 746 (Place 1873 61) (Place 1893 61) false; SNode 747 (Place 1897 62) (Place 1916 62) true; SNode 748 (Place 1897 62) (Place 1916 62) false; SNode 749 (Place 1897 62) (Place 1911 62) false; SNode 750 (Place 1912 62) (Place 1915 62) false; SNode 751 (Place 1919 63) (Place 1929 63) true; SNode 752 (Place 1926 63) (Place 1929 63) false; SNode 753 (Place 1931 64) (Place 1991 66) true; SNode 754 (Place 1981 66) (Place 1991 66) true; SNode 755 (Place 1988 66) (Place 1991 66) false; SNode 756 (Place 2076 74) (Place 2292 78) true; SNode 757 (Place 2081 74) (Place 2091 74) false; SNode 758 (Place 2076 74) (Place 2099 74) false; SNode 759 (Place 2091 74) (Place 2093 74) false; SNode 760 (Place 2094 74) (Place 2099 74) false; SNode 761 (Place 2094 74) (Place 2099 74) true; SNode 762 (Place 2094 74) (Place 2099 74) false; SNode 763 (Place 2100 74) (Place 2292 78) true; SNode 764 (Place 2176 75) (Place 2198 75) true; SNode 765 (Place 2176 75) (Place 2179 75) false; SNode 766 (Place 2183 75) (Place 2198 75) false; SNode 767 (Place 2183 75) (Place 2196 75) false; SNode 768 (Place 2280 77) (Place 2290 77) true; SNode 769 (Place 2287 77) (Place 2290 77) false; SNode 770 (Place 2451 86) (Place 2635 91) true; SNode 771 (Place 2456 86) (Place 2473 86) false; SNode 772 (Place 2451 86) (Place 2481 86) false; SNode 773 (Place 2473 86) (Place 2475 86) false; SNode 774 (Place 2476 86) (Place 2481 86) false; SNode 775 (Place 2476 86) (Place 2481 86) true; SNode 776 (Place 2476 86) (Place 2481 86) false; SNode 777 (Place 2482 86) (Place 2635 91) true; SNode 778 (Place 2540 87) (Place 2555 87) true; SNode 779 (Place 2540 87) (Place 2543 87) false; SNode 780 (Place 2547 87) (Place 2555 87) false; SNode 781 (Place 2548 87) (Place 2555 87) false; SNode 782 (Place 2548 87) (Place 2553 87) false; SNode 783 (Place 2557 88) (Place 2587 88) true; SNode 784 (Place 2557 88) (Place 2568 88) false; SNode 785 (Place 2557 88) (Place 2560 88) false; SNode 786 (Place 2561 88) (Place 2568 88) false; SNode 787 (Place 2571 88) (Place 2587 88) false; SNode 788 (Place 2623 90) (Place 2633 90) true; SNode 789 (Place 2630 90) (Place 2633 90) false].
Definition t_examples_cgroups3 : list cgroup := [CGroup (Place 18 3) (Place 253 8) [(str "// Overwrite uses an annotation to overwrite the actual error code examples-error-unknown"); (str "// with examples-error-overwritten for the error code analysis."); (str "//"); (str "// Errors:"); (str "//"); (str "//    - examples-error-overwritten -- error forced by annotation")]; CGroup (Place 279 9) (Place 337 9) [(str "// want Overwrite:""ErrorCodes: examples-error-overwritten""")]; CGroup (Place 339 10) (Place 382 10) [(str "// Error Codes = examples-error-overwritten")]; CGroup (Place 427 14) (Place 674 20) [(str "// OverwriteMultiple demonstrates how commas can be used in the overwrite annotation"); (str "// to set multiple error codes."); (str "//"); (str "// Errors:"); (str "//"); (str "//    - examples-error-one -- error forced by annotation"); (str "//    - examples-error-two -- error forced by annotation")]; CGroup (Place 717 21) (Place 794 21) [(str "// want OverwriteMultiple:""ErrorCodes: examples-error-one examples-error-two""")]; CGroup (Place 890 27) (Place 945 27) [(str "// Error Codes = examples-error-one, examples-error-two")]; CGroup (Place 971 31) (Place 1080 35) [(str "// Errors:"); (str "//"); (str "//    - examples-error-one   --"); (str "//    - examples-error-two   --"); (str "//    - examples-error-three --")]; CGroup (Place 1111 36) (Place 1205 36) [(str "// want MultipleCodes:""ErrorCodes: examples-error-one examples-error-three examples-error-two""")]; CGroup (Place 1420 48) (Place 1429 48) [(str "/* ... */")]; CGroup (Place 1433 50) (Place 1650 56) [(str "// SubtractCode handles the error code examples-error-one and therefore uses an"); (str "// annotation to get rid of it when returning the error."); (str "//"); (str "// Errors:"); (str "//"); (str "//    - examples-error-two   --"); (str "//    - examples-error-three --")]; CGroup (Place 1679 57) (Place 1753 57) [(str "// want SubtractCode:""ErrorCodes: examples-error-three examples-error-two""")]; CGroup (Place 1809 59) (Place 1853 59) [(str "// Code could always return an empty string.")]; CGroup (Place 1942 65) (Place 1978 65) [(str "// Error Codes -= examples-error-one")]; CGroup (Place 1998 70) (Place 2075 73) [(str "// Errors:"); (str "//"); (str "//    - examples-error-one   --"); (str "//    - examples-error-extra --")]; CGroup (Place 2102 74) (Place 2174 74) [(str "// want AddSubCode:""ErrorCodes: examples-error-extra examples-error-one""")]; CGroup (Place 2200 76) (Place 2278 76) [(str "// Error Codes -examples-error-two -examples-error-three +examples-error-extra")]; CGroup (Place 2294 80) (Place 2450 85) [(str "// AssignmentProblem showcases error code field assignment not being"); (str "// removed when using the remove annotation."); (str "//"); (str "// Errors:"); (str "//"); (str "//    - assigned-error --")]; CGroup (Place 2484 86) (Place 2538 86) [(str "// want AssignmentProblem:""ErrorCodes: assigned-error""")]; CGroup (Place 2589 89) (Place 2621 89) [(str "// Error Codes -= assigned-error")]].
Definition t_examples_nodes4 : list snode := [SNode 790 (Place 0 1) (Place 3322 104) true; SNode 791 (Place 8 1) (Place 16 1) false; SNode 792 (Place 18 3) (Place 670 19) true; SNode 793 (Place 23 3) (Place 670 19) true; SNode 794 (Place 23 3) (Place 26 3) false; SNode 795 (Place 27 3) (Place 670 19) false; SNode 796 (Place 37 3) (Place 670 19) false; SNode 797 (Place 339 11) (Place 367 11) true; SNode 798 (Place 339 11) (Place 342 11) false; SNode 799 (Place 342 11) (Place 367 11) false; SNode 800 (Place 342 11) (Place 361 11) false; SNode 801 (Place 343 11) (Place 360 11) true; SNode 802 (Place 343 11) (Place 348 11) false; SNode 803 (Place 349 11) (Place 360 11) false; SNode 804 (Place 358 11) (Place 360 11) false; SNode 805 (Place 362 11) (Place 367 11) false; SNode 806 (Place 362 11) (Place 367 11) true; SNode 807 (Place 362 11) (Place 367 11) false; SNode 808 (Place 593 18) (Place 619 18) true; SNode 809 (Place 593 18) (Place 596 18) false; SNode 810 (Place 596 18) (Place 619 18) false; SNode 811 (Place 596 18) (Place 598 18) false; SNode 812 (Place 599 18) (Place 619 18) false; SNode 813 (Place 600 18) (Place 611 18) true; SNode 814 (Place 600 18) (Place 611 18) false; SNode 815 (Place 609 18) (Place 611 18) false; SNode 816 (Place 613 18) (Place 618 18) true; SNode 817 (Place 613 18) (Place 618 18) false; SNode 818 (Place 672 21) (Place 714 23) true; SNode 819 (Place 677 21) (Place 714 23) true; SNode 820 (Place 677 21) (Place 684 21) false; SNode 821 (Place 685 21) (Place 714 23) false; SNode 822 (Place 692 21) (Place 714 23) false; SNode 823 (Place 695 22) (Place 712 22) true; SNode 824 (Place 695 22) (Place 700 22) false; SNode 825 (Place 701 22) (Place 712 22) false; SNode 826 (Place 710 22) (Place 712 22) false; SNode 827 (Place 857 29) (Place 1152 40) true; SNode 828 (Place 862 29) (Place 874 29) false; SNode 829 (Place 863 29) (Place 873 29) true; SNode 830 (Place 863 29) (Place 864 29) false; SNode 831 (Place 865 29) (Place 873 29) false; SNode 832 (Place 866 29) (Place 873 29) false; SNode 833 (Place 875 29) (Place 878 29) false; SNode 834 (Place 857 29) (Place 903 29) false; SNode 835 (Place 878 29) (Place 897 29) false; SNode 836 (Place 879 29) (Place 896 29) true; SNode 837 (Place 879 29) (Place 884 29) false; SNode 838 (Place 885 29) (Place 896 29) false; SNode 839 (Place 894 29) (Place 896 29) false; SNode 840 (Place 898 29) (Place 903 29) false; SNode 841 (Place 898 29) (Place 903 29) true; SNode 842 (Place 898 29) (Place 903 29) false; SNode 843 (Place 904 29) (Place 1152 40) true; SNode 844 (Place 979 30) (Place 1041 32) true; SNode 845 (Place 982 30) (Place 994 30) false; SNode 846 (Place 982 30) (Place 987 30) false; SNode 847 (Place 991 30) (Place 994 30) false; SNode 848 (Place 995 30) (Place 1041 32) true; SNode 849 (Place 999 31) (Place 1038 31) true; SNode 850 (Place 1006 31) (Place 1038 31) false; SNode 851 (Place 1007 31) (Place 1038 31) false; SNode 852 (Place 1007 31) (Place 1012 31) false; SNode 853 (Place 1013 31) (Place 1037 31) false; SNode 854 (Place 1044 34) (Place 1120 36) true; SNode 855 (Place 1047 34) (Place 1073 34) false; SNode 856 (Place 1047 34) (Place 1055 34) false; SNode 857 (Place 1047 34) (Place 1048 34) false; SNode 858 (Place 1052 34) (Place 1055 34) false; SNode 859 (Place 1059 34) (Place 1073 34) false; SNode 860 (Place 1059 34) (Place 1066 34) false; SNode 861 (Place 1059 34) (Place 1060 34) false; SNode 862 (Place 1061 34) (Place 1066 34) false; SNode 863 (Place 1070 34) (Place 1073 34) false; SNode 864 (Place 1074 34) (Place 1120 36) true; SNode 865 (Place 1078 35) (Place 1117 35) true; SNode 866 (Place 1085 35) (Place 1117 35) false; SNode 867 (Place 1086 35) (Place 1117 35) false; SNode 868 (Place 1086 35) (Place 1091 35) false; SNode 869 (Place 1092 35) (Place 1116 35) false; SNode 870 (Place 1123 38) (Place 1138 38) true; SNode 871 (Place 1123 38) (Place 1130 38) false; SNode 872 (Place 1123 38) (Place 1124 38) false; SNode 873 (Place 1125 38) (Place 1130 38) false; SNode 874 (Place 1133 38) (Place 1138 38) false; SNode 875 (Place 1140 39) (Place 1150 39) true; SNode 876 (Place 1147 39) (Place 1150 39) false; SNode 877 (Place 1223 45) (Place 1440 52) true; SNode 878 (Place 1228 45) (Place 1240 45) false; SNode 879 (Place 1229 45) (Place 1239 45) true; SNode 880 (Place 1229 45) (Place 1230 45) false; SNode 881 (Place 1231 45) (Place 1239 45) false; SNode 882 (Place 1232 45) (Place 1239 45) false; SNode 883 (Place 1241 45) (Place 1244 45) false; SNode 884 (Place 1223 45) (Place 1267 45) false; SNode 885 (Place 1244 45) (Place 1246 45) false; SNode 886 (Place 1247 45) (Place 1267 45) false; SNode 887 (Place 1248 45) (Place 1259 45) true; SNode 888 (Place 1248 45) (Place 1259 45) false; SNode 889 (Place 1257 45) (Place 1259 45) false; SNode 890 (Place 1261 45) (Place 1266 45) true; SNode 891 (Place 1261 45) (Place 1266 45) false; SNode 892 (Place 1268 45) (Place 1440 52) true; SNode 893 (Place 1320 46) (Place 1401 48) true; SNode 894 (Place 1323 46) (Place 1349 46) false; SNode 895 (Place 1323 46) (Place 1331 46) false; SNode 896 (Place 1323 46) (Place 1324 46) false; SNode 897 (Place 1328 46) (Place 1331 46) false; SNode 898 (Place 1335 46) (Place 1349 46) false; SNode 899 (Place 1335 46) (Place 1342 46) false; SNode 900 (Place 1335 46) (Place 1336 46) false; SNode 901 (Place 1337 46) (Place 1342 46) false; SNode 902 (Place 1346 46) (Place 1349 46) false; SNode 903 (Place 1350 46) (Place 1401 48) true; SNode 904 (Place 1354 47) (Place 1398 47) true; SNode 905 (Place 1361 47) (Place 1364 47) false; SNode 906 (Place 1366 47) (Place 1398 47) false; SNode 907 (Place 1367 47) (Place 1398 47) false; SNode 908 (Place 1367 47) (Place 1372 47) false; SNode 909 (Place 1373 47) (Place 1397 47) false; SNode 910 (Place 1404 50) (Place 1417 50) true; SNode 911 (Place 1404 50) (Place 1411 50) false; SNode 912 (Place 1404 50) (Place 1405 50) false; SNode 913 (Place 1406 50) (Place 1411 50) false; SNode 914 (Place 1414 50) (Place 1417 50) false; SNode 915 (Place 1419 51) (Place 1438 51) true; SNode 916 (Place 1426 51) (Place 1433 51) false; SNode 917 (Place 1426 51) (Place 1427 51) false; SNode 918 (Place 1428 51) (Place 1433 51) false; SNode 919 (Place 1435 51) (Place 1438 51) false; SNode 920 (Place 1541 56) (Place 1601 59) true; SNode 921 (Place 1546 56) (Place 1561 56) false; SNode 922 (Place 1541 56) (Place 1563 56) false; SNode 923 (Place 1561 56) (Place 1563 56) false; SNode 924 (Place 1564 56) (Place 1601 59) true; SNode 925 (Place 1567 57) (Place 1589 57) true; SNode 926 (Place 1567 57) (Place 1589 57) true; SNode 927 (Place 1571 57) (Place 1589 57) true; SNode 928 (Place 1571 57) (Place 1572 57) false; SNode 929 (Place 1573 57) (Place 1576 57) false; SNode 930 (Place 1579 57) (Place 1589 57) false; SNode 931 (Place 1580 57) (Place 1589 57) false; SNode 932 (Place 1580 57) (Place 1587 57) false; SNode 933 (Place 1591 58) (Place 1599 58) true; SNode 934 (Place 1591 58) (Place 1599 58) false; SNode 935 (Place 1591 58) (Place 1596 58) false; SNode 936 (Place 1591 58) (Place 1592 58) false; SNode 937 (Place 1593 58) (Place 1596 58) false; SNode 938 (Place 1597 58) (Place 1598 58) false; SNode 939 (Place 1603 61) (Place 1631 61) true; SNode 940 (Place 1608 61) (Place 1631 61) true; SNode 941 (Place 1608 61) (Place 1622 61) false; SNode 942 (Place 1623 61) (Place 1631 61) false; SNode 943 (Place 1629 61) (Place 1631 61) false; SNode 944 (Place 1689 66) (Place 1852 68) true; SNode 945 (Place 1694 66) (Place 1713 66) false; SNode 946 (Place 1695 66) (Place 1712 66) true; SNode 947 (Place 1695 66) (Place 1696 66) false; SNode 948 (Place 1697 66) (Place 1712 66) false; SNode 949 (Place 1698 66) (Place 1712 66) false; SNode 950 (Place 1714 66) (Place 1717 66) false; SNode 951 (Place 1689 66) (Place 1742 66) false; SNode 952 (Place 1717 66) (Place 1736 66) false; SNode 953 (Place 1718 66) (Place 1735 66) true; SNode 954 (Place 1718 66) (Place 1723 66) false; SNode 955 (Place 1724 66) (Place 1735 66) false; SNode 956 (Place 1733 66) (Place 1735 66) false; SNode 957 (Place 1737 66) (Place 1742 66) false; SNode 958 (Place 1737 66) (Place 1742 66) true; SNode 959 (Place 1737 66) (Place 1742 66) false; SNode 960 (Place 1743 66) (Place 1852 68) true; SNode 961 (Place 1803 67) (Place 1850 67) true; SNode 962 (Place 1810 67) (Place 1850 67) false; SNode 963 (Place 1811 67) (Place 1850 67) false; SNode 964 (Place 1811 67) (Place 1816 67) false; SNode 965 (Place 1817 67) (Place 1849 67) false; SNode 966 (Place 1910 73) (Place 2076 75) true; SNode 967 (Place 1915 73) (Place 1934 73) false; SNode 968 (Place 1916 73) (Place 1933 73) true; SNode 969 (Place 1916 73) (Place 1917 73) false; SNode 970 (Place 1918 73) (Place 1933 73) false; SNode 971 (Place 1919 73) (Place 1933 73) false; SNode 972 (Place 1935 73) (Place 1938 73) false; SNode 973 (Place 1910 73) (Place 1961 73) false; SNode 974 (Place 1938 73) (Place 1940 73) false; SNode 975 (Place 1941 73) (Place 1961 73) false; SNode 976 (Place 1942 73) (Place 1953 73) true; SNode 977 (Place 1942 73) (Place 1953 73) false; SNode 978 (Place 1951 73) (Place 1953 73) false; SNode 979 (Place 1955 73) (Place 1960 73) true; SNode 980 (Place 1955 73) (Place 1960 73) false; SNode 981 (Place 1962 73) (Place 2076 75) true; SNode 982 (Place 2022 74) (Place 2074 74) true; SNode 983 (Place 2029 74) (Place 2032 74) false; SNode 984 (Place 2034 74) (Place 2074 74) false; SNode 985 (Place 2035 74) (Place 2074 74) false; SNode 986 (Place 2035 74) (Place 2040 74) false; SNode 987 (Place 2041 74) (Place 2073 74) false; SNode 988 (Place 2204 79) (Place 2617 85) true; SNode 989 (Place 2209 79) (Place 2231 79) false; SNode 990 (Place 2204 79) (Place 2233 79) false; SNode 991 (Place 2231 79) (Place 2233 79) false; SNode 992 (Place 2234 79) (Place 2617 85) true; SNode 993 (Place 2237 80) (Place 2266 80) true; SNode 994 (Place 2237 80) (Place 2266 80) true; SNode 995 (Place 2241 80) (Place 2266 80) true; SNode 996 (Place 2241 80) (Place 2242 80) false; SNode 997 (Place 2243 80) (Place 2246 80) false; SNode 998 (Place 2249 80) (Place 2266 80) false; SNode 999 (Place 2250 80) (Place 2266 80) false; SNode 1000 (Place 2250 80) (Place 2264 80) false; SNode 1001 (Place 2607 84) (Place 2615 84) true; SNode 1002 (Place 2607 84) (Place 2615 84) false; SNode 1003 (Place 2607 84) (Place 2612 84) false; SNode 1004 (Place 2607 84) (Place 2608 84) false; SNode 1005 (Place 2609 84) (Place 2612 84) false; SNode 1006 (Place 2613 84) (Place 2614 84) false; SNode 1007 (Place 2619 87) (Place 3043 99) true; SNode 1008 (Place 2624 87) (Place 3043 99) true; SNode 1009 (Place 2624 87) (Place 2628 87) false; SNode 1010 (Place 2629 87) (Place 3043 99) false; SNode 1011 (Place 2639 87) (Place 3043 99) false; SNode 1012 (Place 2747 91) (Place 2775 91) true; SNode 1013 (Place 2747 91) (Place 2750 91) false; SNode 1014 (Place 2750 91) (Place 2775 91) false; SNode 1015 (Place 2750 91) (Place 2769 91) false; SNode 1016 (Place 2751 91) (Place 2768 91) true; SNode 1017 (Place 2751 91) (Place 2756 91) false; SNode 1018 (Place 2757 91) (Place 2768 91) false; SNode 1019 (Place 2766 91) (Place 2768 91) false; SNode 1020 (Place 2770 91) (Place 2775 91) false; SNode 1021 (Place 2770 91) (Place 2775 91) true; SNode 1022 (Place 2770 91) (Place 2775 91) false; SNode 1023 (Place 2966 98) (Place 2992 98) true; SNode 1024 (Place 2966 98) (Place 2969 98) false; SNode 1025 (Place 2969 98) (Place 2992 98) false; SNode 1026 (Place 2969 98) (Place 2971 98) false; SNode 1027 (Place 2972 98) (Place 2992 98) false; SNode 1028 (Place 2973 98) (Place 2984 98) true; SNode 1029 (Place 2973 98) (Place 2984 98) false; SNode 1030 (Place 2982 98) (Place 2984 98) false; SNode 1031 (Place 2986 98) (Place 2991 98) true; SNode 1032 (Place 2986 98) (Place 2991 98) false; SNode 1033 (Place 3045 101) (Place 3322 104) true; SNode 1034 (Place 3050 101) (Place 3322 104) true; SNode 1035 (Place 3050 101) (Place 3062 101) false; SNode 1036 (Place 3063 101) (Place 3322 104) false; SNode 1037 (Place 3073 101) (Place 3322 104) false; SNode 1038 (Place 3123 102) (Place 3126 102) true; SNode 1039 (Place 3123 102) (Place 3126 102) false; SNode 1040 (Place 3128 103) (Place 3132 103) true; SNode 1041 (Place 3128 103) (Place 3132 103) false].
Definition t_examples_cgroups4 : list cgroup := [CGroup (Place 39 3) (Place 76 3) [(str "// want Box:""ErrorInterface: Pop Put""")]; CGroup (Place 78 4) (Place 337 10) [(str "// Put makes the box store the given value."); (str "//"); (str "// Errors:"); (str "//"); (str "//    - examples-error-arg-nil -- if the given value is nil"); (str "//    - examples-error-invalid -- if the box already holds a value"); (str "//    - examples-error-unknown -- if an unexpected error occurred")]; CGroup (Place 368 11) (Place 439 11) [(str "// want Put:""ErrorCodes: examples-error-arg-nil examples-error-invalid""")]; CGroup (Place 442 13) (Place 591 17) [(str "// Pop retrieves the value stored in the box and removes it from the box."); (str "//"); (str "// Errors:"); (str "//"); (str "//    - examples-error-invalid -- if the box was empty")]; CGroup (Place 620 18) (Place 668 18) [(str "// want Pop:""ErrorCodes: examples-error-invalid""")]; CGroup (Place 716 25) (Place 856 28) [(str "// Errors:"); (str "//"); (str "//    - examples-error-arg-nil -- if the given value is nil"); (str "//    - examples-error-invalid -- if the box already holds a value")]; CGroup (Place 906 29) (Place 977 29) [(str "// want Put:""ErrorCodes: examples-error-arg-nil examples-error-invalid""")]; CGroup (Place 1154 42) (Place 1222 44) [(str "// Errors:"); (str "//"); (str "//    - examples-error-invalid -- if the box was empty")]; CGroup (Place 1270 45) (Place 1318 45) [(str "// want Pop:""ErrorCodes: examples-error-invalid""")]; CGroup (Place 1442 54) (Place 1540 55) [(str "// UseBoxImplAsBox converts BoxImpl to the interface Box,"); (str "// showing that it can be used that way.")]; CGroup (Place 1633 63) (Place 1688 65) [(str "// Errors:"); (str "//"); (str "//    - examples-error-not-implemented --")]; CGroup (Place 1745 66) (Place 1801 66) [(str "// want Put:""ErrorCodes: examples-error-not-implemented""")]; CGroup (Place 1854 70) (Place 1909 72) [(str "// Errors:"); (str "//"); (str "//    - examples-error-not-implemented --")]; CGroup (Place 1964 73) (Place 2020 73) [(str "// want Pop:""ErrorCodes: examples-error-not-implemented""")]; CGroup (Place 2078 77) (Place 2203 78) [(str "// UseBoxInvalidImplAsBox converts BoxInvalidImpl to the interface Box,"); (str "// showing that the analyser flags this as a problem.")]; CGroup (Place 2267 80) (Place 2605 83) [(str "/*
		want
			`cannot use expression as ""Box"" value: method ""Put"" declares the following error codes which were not part of the interface: \[examples-error-not-implemented]`
			`cannot use expression as ""Box"" value: method ""Pop"" declares the following error codes which were not part of the interface: \[examples-error-not-implemented]` */")]; CGroup (Place 2641 87) (Place 2679 87) [(str "// want Box2:""ErrorInterface: Pop Put""")]; CGroup (Place 2681 88) (Place 2745 90) [(str "// Put makes the box store the given value."); (str "//"); (str "// Errors: none")]; CGroup (Place 2776 91) (Place 2801 91) [(str "// want Put:""ErrorCodes:""")]; CGroup (Place 2804 93) (Place 2964 97) [(str "// Pop retrieves the value stored in the box and removes it from the box."); (str "//"); (str "// Errors:"); (str "//"); (str "//    - examples-error-invalid -- in case of an invalid operation")]; CGroup (Place 2993 98) (Place 3041 98) [(str "// want Pop:""ErrorCodes: examples-error-invalid""")]; CGroup (Place 3075 101) (Place 3121 101) [(str "// want EmbeddingBox:""ErrorInterface: Pop Put""")]; CGroup (Place 3133 103) (Place 3320 103) [(str "// want `embedded interface is not compatible: method ""Put"" has mismatches in declared error codes: missing codes: \[examples-error-arg-nil examples-error-invalid examples-error-unknown]`")]].
Definition t_examples_nodes5 : list snode := [SNode 1042 (Place 0 1) (Place 1378 44) true; SNode 1043 (Place 8 1) (Place 16 1) false; SNode 1044 (Place 135 8) (Place 275 10) true; SNode 1045 (Place 140 8) (Place 148 8) false; SNode 1046 (Place 135 8) (Place 168 8) false; SNode 1047 (Place 148 8) (Place 161 8) false; SNode 1048 (Place 149 8) (Place 160 8) true; SNode 1049 (Place 149 8) (Place 153 8) false; SNode 1050 (Place 154 8) (Place 160 8) false; SNode 1051 (Place 162 8) (Place 168 8) false; SNode 1052 (Place 162 8) (Place 168 8) true; SNode 1053 (Place 162 8) (Place 168 8) false; SNode 1054 (Place 163 8) (Place 168 8) false; SNode 1055 (Place 169 8) (Place 275 10) true; SNode 1056 (Place 254 9) (Place 273 9) true; SNode 1057 (Place 261 9) (Place 273 9) false; SNode 1058 (Place 262 9) (Place 273 9) false; SNode 1059 (Place 262 9) (Place 267 9) false; SNode 1060 (Place 268 9) (Place 272 9) false; SNode 1061 (Place 505 19) (Place 771 25) true; SNode 1062 (Place 510 19) (Place 519 19) false; SNode 1063 (Place 505 19) (Place 548 19) false; SNode 1064 (Place 519 19) (Place 540 19) false; SNode 1065 (Place 520 19) (Place 529 19) true; SNode 1066 (Place 520 19) (Place 524 19) false; SNode 1067 (Place 525 19) (Place 529 19) false; SNode 1068 (Place 531 19) (Place 539 19) true; SNode 1069 (Place 531 19) (Place 532 19) false; SNode 1070 (Place 533 19) (Place 539 19) false; SNode 1071 (Place 541 19) (Place 548 19) false; SNode 1072 (Place 541 19) (Place 548 19) true; SNode 1073 (Place 541 19) (Place 548 19) false; SNode 1074 (Place 542 19) (Place 548 19) false; SNode 1075 (Place 549 19) (Place 771 25) true; SNode 1076 (Place 682 20) (Place 728 20) true; SNode 1077 (Place 682 20) (Place 685 20) false; SNode 1078 (Place 689 20) (Place 728 20) false; SNode 1079 (Place 690 20) (Place 728 20) false; SNode 1080 (Place 690 20) (Place 696 20) false; SNode 1081 (Place 697 20) (Place 701 20) false; SNode 1082 (Place 703 20) (Place 727 20) false; SNode 1083 (Place 730 21) (Place 757 23) true; SNode 1084 (Place 733 21) (Place 737 21) false; SNode 1085 (Place 738 21) (Place 757 23) true; SNode 1086 (Place 742 22) (Place 754 22) true; SNode 1087 (Place 742 22) (Place 750 22) false; SNode 1088 (Place 742 22) (Place 745 22) false; SNode 1089 (Place 746 22) (Place 750 22) false; SNode 1090 (Place 753 22) (Place 754 22) false; SNode 1091 (Place 759 24) (Place 769 24) true; SNode 1092 (Place 766 24) (Place 769 24) false; SNode 1093 (Place 829 30) (Place 981 32) true; SNode 1094 (Place 834 30) (Place 849 30) false; SNode 1095 (Place 829 30) (Place 857 30) false; SNode 1096 (Place 849 30) (Place 851 30) false; SNode 1097 (Place 852 30) (Place 857 30) false; SNode 1098 (Place 852 30) (Place 857 30) true; SNode 1099 (Place 852 30) (Place 857 30) false; SNode 1100 (Place 858 30) (Place 981 32) true; SNode 1101 (Place 930 31) (Place 979 31) true; SNode 1102 (Place 937 31) (Place 979 31) false; SNode 1103 (Place 937 31) (Place 945 31) false; SNode 1104 (Place 946 31) (Place 978 31) false; SNode 1105 (Place 1099 39) (Place 1378 44) true; SNode 1106 (Place 1104 39) (Place 1119 39) false; SNode 1107 (Place 1099 39) (Place 1154 39) false; SNode 1108 (Place 1119 39) (Place 1148 39) false; SNode 1109 (Place 1120 39) (Place 1129 39) true; SNode 1110 (Place 1120 39) (Place 1124 39) false; SNode 1111 (Place 1125 39) (Place 1129 39) false; SNode 1112 (Place 1131 39) (Place 1147 39) true; SNode 1113 (Place 1131 39) (Place 1140 39) false; SNode 1114 (Place 1141 39) (Place 1147 39) false; SNode 1115 (Place 1149 39) (Place 1154 39) false; SNode 1116 (Place 1149 39) (Place 1154 39) true; SNode 1117 (Place 1149 39) (Place 1154 39) false; SNode 1118 (Place 1155 39) (Place 1378 44) true; SNode 1119 (Place 1300 40) (Place 1348 42) true; SNode 1120 (Place 1303 40) (Place 1307 40) false; SNode 1121 (Place 1308 40) (Place 1348 42) true; SNode 1122 (Place 1312 41) (Place 1345 41) true; SNode 1123 (Place 1319 41) (Place 1345 41) false; SNode 1124 (Place 1319 41) (Place 1328 41) false; SNode 1125 (Place 1329 41) (Place 1333 41) false; SNode 1126 (Place 1335 41) (Place 1344 41) false; SNode 1127 (Place 1350 43) (Place 1376 43) true; SNode 1128 (Place 1357 43) (Place 1376 43) false; SNode 1129 (Place 1357 43) (Place 1365 43) false; SNode 1130 (Place 1366 43) (Place 1375 43) false].
Definition t_examples_cgroups5 : list cgroup := [CGroup (Place 18 3) (Place 134 7) [(str "// NewError creates an Error with the given error code."); (str "//"); (str "// Errors:"); (str "//"); (str "//    - param: code -- error code parameter")]; CGroup (Place 171 8) (Place 252 8) [(str "// want NewError:""ErrorConstructor: {CodeParamPosition:0}"" NewError:""ErrorCodes:""")]; CGroup (Place 277 12) (Place 504 18) [(str "// NewError3 creates an Error3 with the given error code."); (str "//"); (str "// Errors:"); (str "//"); (str "//    - param: c               -- error code parameter, which is set if flag is true"); (str "//    - examples-error-unknown --"); (str "//    - examples-error-flagged --")]; CGroup (Place 551 19) (Place 680 19) [(str "// want NewError3:""ErrorConstructor: {CodeParamPosition:1}"" NewError3:""ErrorCodes: examples-error-flagged examples-error-unknown""")]; CGroup (Place 773 27) (Place 828 29) [(str "// Errors:"); (str "//"); (str "//    - examples-error-not-implemented --")]; CGroup (Place 860 30) (Place 928 30) [(str "// want CallConstructor:""ErrorCodes: examples-error-not-implemented""")]; CGroup (Place 983 34) (Place 1098 38) [(str "// Errors:"); (str "//"); (str "//    - param: errorCode       --"); (str "//    - examples-error-unknown --"); (str "//    - examples-error-flagged --")]; CGroup (Place 1157 39) (Place 1298 39) [(str "// want NewGeneralError:""ErrorConstructor: {CodeParamPosition:1}"" NewGeneralError:""ErrorCodes: examples-error-flagged examples-error-unknown""")]].
Definition t_examples_nodes6 : list snode := [SNode 1131 (Place 0 1) (Place 661 28) true; SNode 1132 (Place 8 1) (Place 16 1) false; SNode 1133 (Place 66 6) (Place 230 10) true; SNode 1134 (Place 71 6) (Place 86 6) false; SNode 1135 (Place 66 6) (Place 94 6) false; SNode 1136 (Place 86 6) (Place 88 6) false; SNode 1137 (Place 89 6) (Place 94 6) false; SNode 1138 (Place 89 6) (Place 94 6) true; SNode 1139 (Place 89 6) (Place 94 6) false; SNode 1140 (Place 95 6) (Place 230 10) true; SNode 1141 (Place 159 7) (Place 198 7) true; SNode 1142 (Place 159 7) (Place 162 7) false; SNode 1143 (Place 166 7) (Place 198 7) false; SNode 1144 (Place 167 7) (Place 198 7) false; SNode 1145 (Place 167 7) (Place 172 7) false; SNode 1146 (Place 173 7) (Place 197 7) false; SNode 1147 (Place 200 8) (Place 216 8) true; SNode 1148 (Place 200 8) (Place 216 8) false; SNode 1149 (Place 200 8) (Place 211 8) false; SNode 1150 (Place 212 8) (Place 215 8) false; SNode 1151 (Place 218 9) (Place 228 9) true; SNode 1152 (Place 225 9) (Place 228 9) false; SNode 1153 (Place 232 12) (Place 300 14) true; SNode 1154 (Place 237 12) (Place 248 12) false; SNode 1155 (Place 232 12) (Place 260 12) false; SNode 1156 (Place 248 12) (Place 260 12) false; SNode 1157 (Place 249 12) (Place 259 12) true; SNode 1158 (Place 249 12) (Place 252 12) false; SNode 1159 (Place 253 12) (Place 259 12) false; SNode 1160 (Place 254 12) (Place 259 12) false; SNode 1161 (Place 261 12) (Place 300 14) true; SNode 1162 (Place 264 13) (Place 298 13) true; SNode 1163 (Place 264 13) (Place 275 13) false; SNode 1164 (Place 264 13) (Place 267 13) false; SNode 1165 (Place 268 13) (Place 275 13) false; SNode 1166 (Place 278 13) (Place 298 13) false; SNode 1167 (Place 380 19) (Place 548 24) true; SNode 1168 (Place 385 19) (Place 400 19) false; SNode 1169 (Place 380 19) (Place 408 19) false; SNode 1170 (Place 400 19) (Place 402 19) false; SNode 1171 (Place 403 19) (Place 408 19) false; SNode 1172 (Place 403 19) (Place 408 19) true; SNode 1173 (Place 403 19) (Place 408 19) false; SNode 1174 (Place 409 19) (Place 548 24) true; SNode 1175 (Place 476 20) (Place 534 22) true; SNode 1176 (Place 479 20) (Place 484 20) false; SNode 1177 (Place 485 20) (Place 534 22) true; SNode 1178 (Place 489 21) (Place 531 21) true; SNode 1179 (Place 496 21) (Place 531 21) false; SNode 1180 (Place 497 21) (Place 531 21) false; SNode 1181 (Place 497 21) (Place 502 21) false; SNode 1182 (Place 503 21) (Place 530 21) false; SNode 1183 (Place 536 23) (Place 546 23) true; SNode 1184 (Place 543 23) (Place 546 23) false; SNode 1185 (Place 550 26) (Place 661 28) true; SNode 1186 (Place 555 26) (Place 567 26) false; SNode 1187 (Place 550 26) (Place 585 26) false; SNode 1188 (Place 567 26) (Place 569 26) false; SNode 1189 (Place 570 26) (Place 585 26) false; SNode 1190 (Place 571 26) (Place 576 26) true; SNode 1191 (Place 571 26) (Place 576 26) false; SNode 1192 (Place 578 26) (Place 584 26) true; SNode 1193 (Place 578 26) (Place 584 26) false; SNode 1194 (Place 586 26) (Place 661 28) true; SNode 1195 (Place 645 27) (Place 659 27) true; SNode 1196 (Place 652 27) (Place 655 27) false; SNode 1197 (Place 657 27) (Place 659 27) false].
Definition t_examples_cgroups6 : list cgroup := [CGroup (Place 18 3) (Place 65 5) [(str "// Errors:"); (str "//"); (str "//    - examples-error-invalid --")]; CGroup (Place 97 6) (Place 157 6) [(str "// want CallModifyError:""ErrorCodes: examples-error-invalid""")]; CGroup (Place 302 16) (Place 379 18) [(str "// Errors:"); (str "//"); (str "//    - example-error-unreachable -- is never actually returned")]; CGroup (Place 411 19) (Place 474 19) [(str "// want DeadBranchError:""ErrorCodes: example-error-unreachable""")]; CGroup (Place 588 26) (Place 643 26) [(str "// want ""error should be returned as the last argument""")]].
Definition t_examples_files : list source_file := [SourceFile t_examples_nodes0 t_examples_cgroups0; SourceFile t_examples_nodes1 t_examples_cgroups1; SourceFile t_examples_nodes2 t_examples_cgroups2; SourceFile t_examples_nodes3 t_examples_cgroups3; SourceFile t_examples_nodes4 t_examples_cgroups4; SourceFile t_examples_nodes5 t_examples_cgroups5; SourceFile t_examples_nodes6 t_examples_cgroups6].
Definition t_examples_info : typeinfo := map_info (list_to_map t_examples_types) (list_to_map t_examples_values) (list_to_map t_examples_uses) (list_to_map t_examples_defs) (list_to_map t_examples_sels) (list_to_set [1; 4; 5; 6; 7; 8; 9; 10; 11; 12; 13; 14; 15; 16; 17; 18; 19; 20; 50; 53; 61; 65; 70; 71; 84; 85; 89; 93; 94]) (list_to_map t_examples_pkgnames) (list_to_map t_examples_objnames) (list_to_map t_examples_objtypes) (list_to_map t_examples_under) t_examples_methods t_examples_ierr t_examples_iree t_examples_icause t_examples_impl (list_to_map t_examples_named_methods).
Definition t_examples : package := Package (list_to_map [(1, t_examples_f1); (2, t_examples_f2); (3, t_examples_f3); (4, t_examples_f4); (5, t_examples_f5); (6, t_examples_f6); (7, t_examples_f7); (8, t_examples_f8); (9, t_examples_f9); (10, t_examples_f10); (11, t_examples_f11); (12, t_examples_f12); (13, t_examples_f13); (14, t_examples_f14); (15, t_examples_f15); (16, t_examples_f16); (17, t_examples_f17); (18, t_examples_f18); (19, t_examples_f19); (20, t_examples_f20); (21, t_examples_f21); (22, t_examples_f22); (23, t_examples_f23); (24, t_examples_f24); (25, t_examples_f25); (26, t_examples_f26); (27, t_examples_f27); (28, t_examples_f28); (29, t_examples_f29); (30, t_examples_f30); (31, t_examples_f31); (32, t_examples_f32); (33, t_examples_f33); (34, t_examples_f34); (35, t_examples_f35); (36, t_examples_f36); (37, t_examples_f37); (38, t_examples_f38)]) [1; 2; 3; 4; 5; 6; 7; 8; 9; 10; 11; 12; 13; 14; 15; 16; 17; 18; 19; 20; 21; 22; 23; 24; 25; 26; 27; 28; 29; 30; 31; 32; 33; 34; 35; 36; 37; 38] t_examples_gendecls t_examples_top (list_to_map t_examples_objs) (fun id => default [] (createCommentMap t_examples_files id)) t_examples_info.
Definition t_examples_rank : gostring -> nat := fun n => default 0%nat ((list_to_map [((str "IO"), 1%nat); ((str "Box"), 1%nat); ((str "Box2"), 1%nat); ((str "EmbeddingBox"), 2%nat)] : gmap gostring nat) !! n).

(** examples: 7 diagnostics and 42 facts, as its "want" comments demand. *)
Theorem t_examples_ascending :
  report (run_test t_examples ascending (Facts ∅ ∅ ∅ ∅)) = Some [
    (1041, (str "embedded interface is not compatible: method ""Put"" has mismatches in declared error codes: missing codes: [examples-error-arg-nil examples-error-invalid examples-error-unknown]")) (* 05_interfaces.go:103 *);
    (1190, (str "error should be returned as the last argument")) (* 07_limitations.go:26 *);
    (590, (str "error code has to be constant value or error code parameter")) (* 03_error_code_origins.go:46 *);
    (328, (str "function ""AddMissing"" has a mismatch of declared and actual error codes: missing codes: [examples-error-invalid-arg examples-error-invalid-collection examples-error-limit-reached]")) (* 02_basic_examples.go:46 *);
    (307, (str "function ""AddUnused"" has a mismatch of declared and actual error codes: unused codes: [examples-error-invalid-arg examples-error-invalid-collection examples-error-limit-reached]")) (* 02_basic_examples.go:38 *);
    (998, (str "cannot use expression as ""Box"" value: method ""Pop"" declares the following error codes which were not part of the interface: [examples-error-not-implemented]")) (* 05_interfaces.go:80 *);
    (998, (str "cannot use expression as ""Box"" value: method ""Put"" declares the following error codes which were not part of the interface: [examples-error-not-implemented]")) (* 05_interfaces.go:80 *)] /\
  fact_texts (facts_after_test (run_test t_examples ascending (Facts ∅ ∅ ∅ ∅))) [50; 51; 52; 53; 54; 55; 56; 57; 58; 59; 60; 61; 62; 63; 64; 65; 66; 67; 68; 69; 70; 71; 72; 73; 74; 75; 76; 77; 78; 79; 80; 81; 82; 83; 84; 85; 86; 87; 88; 89; 90; 91; 92; 93; 94; 95; 96; 97; 98; 99; 100; 101; 102; 103; 104; 105; 106; 107; 108; 109; 110; 111; 112; 113; 114; 115; 116; 117; 118; 119; 120; 121; 122; 123; 124; 125; 126; 127; 128; 129; 130; 131; 132; 133; 134; 135; 136; 137; 138; 139; 140; 141; 147; 149; 150; 151; 152; 153; 154; 155; 156; 157; 158] = [
    (50, (str "ErrorType{Field:{Name:""TheCode"", Position:0}, Codes:}")) (* 01_error_types.go:8 Error *);
    (53, (str "ErrorType{Field:<nil>, Codes:examples-error-disconnect examples-error-empty examples-error-unknown}")) (* 01_error_types.go:15 Error2 *);
    (60, (str "ErrorCodes: examples-error-disconnect examples-error-empty examples-error-unknown")) (* 01_error_types.go:41 ReturnError2 *);
    (61, (str "ErrorType{Field:{Name:""code"", Position:1}, Codes:examples-error-flagged examples-error-unknown}")) (* 01_error_types.go:45 Error3 *);
    (64, (str "ErrorCodes: examples-error-flagged examples-error-not-implemented examples-error-unknown")) (* 01_error_types.go:66 ReturnError3 *);
    (66, (str "ErrorCodes: examples-error-invalid-arg examples-error-invalid-collection examples-error-limit-reached")) (* 02_basic_examples.go:15 Add *);
    (67, (str "ErrorCodes: examples-error-invalid-arg examples-error-invalid-collection examples-error-limit-reached")) (* 02_basic_examples.go:38 AddUnused *);
    (68, (str "ErrorCodes: ")) (* 02_basic_examples.go:46 AddMissing *);
    (69, (str "ErrorCodes: examples-error-invalid-arg examples-error-invalid-collection examples-error-limit-reached")) (* 02_basic_examples.go:73 AddAlt *);
    (70, (str "ErrorInterface: Read")) (* 02_basic_examples.go:91 IO *);
    (72, (str "ErrorCodes: ")) (* 02_basic_examples.go:103 Read *);
    (73, (str "ErrorCodes: examples-error-closed examples-error-flagged examples-error-not-implemented examples-error-unknown")) (* 03_error_code_origins.go:16 TypeConstruction *);
    (74, (str "ErrorCodes: examples-error-one examples-error-unkown examples-error-zero")) (* 03_error_code_origins.go:37 AssignmentToErrorCodeField *);
    (75, (str "ErrorCodes: examples-error-failed examples-error-invalid-name")) (* 03_error_code_origins.go:58 FunctionCall *);
    (76, (str "ErrorCodes: examples-error-failed examples-error-invalid-name")) (* 03_error_code_origins.go:66 TryOpen *);
    (77, (str "ErrorCodes: examples-error-overwritten")) (* 04_annotations.go:9 Overwrite *);
    (78, (str "ErrorCodes: examples-error-one examples-error-two")) (* 04_annotations.go:21 OverwriteMultiple *);
    (79, (str "ErrorCodes: examples-error-one examples-error-three examples-error-two")) (* 04_annotations.go:36 MultipleCodes *);
    (81, (str "ErrorCodes: examples-error-three examples-error-two")) (* 04_annotations.go:57 SubtractCode *);
    (82, (str "ErrorCodes: examples-error-extra examples-error-one")) (* 04_annotations.go:74 AddSubCode *);
    (83, (str "ErrorCodes: assigned-error")) (* 04_annotations.go:86 AssignmentProblem *);
    (84, (str "ErrorInterface: Pop Put")) (* 05_interfaces.go:3 Box *);
    (86, (str "ErrorCodes: examples-error-arg-nil examples-error-invalid")) (* 05_interfaces.go:29 Put *);
    (87, (str "ErrorCodes: examples-error-invalid")) (* 05_interfaces.go:45 Pop *);
    (90, (str "ErrorCodes: examples-error-not-implemented")) (* 05_interfaces.go:66 Put *);
    (91, (str "ErrorCodes: examples-error-not-implemented")) (* 05_interfaces.go:73 Pop *);
    (93, (str "ErrorInterface: Pop Put")) (* 05_interfaces.go:87 Box2 *);
    (94, (str "ErrorInterface: Pop Put")) (* 05_interfaces.go:101 EmbeddingBox *);
    (95, (str "ErrorCodes: ")) (* 06_error_constructors.go:8 NewError *);
    (95, (str "ErrorConstructor: {CodeParamPosition:0}")) (* 06_error_constructors.go:8 NewError *);
    (96, (str "ErrorCodes: examples-error-flagged examples-error-unknown")) (* 06_error_constructors.go:19 NewError3 *);
    (96, (str "ErrorConstructor: {CodeParamPosition:1}")) (* 06_error_constructors.go:19 NewError3 *);
    (97, (str "ErrorCodes: examples-error-not-implemented")) (* 06_error_constructors.go:30 CallConstructor *);
    (98, (str "ErrorCodes: examples-error-flagged examples-error-unknown")) (* 06_error_constructors.go:39 NewGeneralError *);
    (98, (str "ErrorConstructor: {CodeParamPosition:1}")) (* 06_error_constructors.go:39 NewGeneralError *);
    (99, (str "ErrorCodes: examples-error-invalid")) (* 07_limitations.go:6 CallModifyError *);
    (101, (str "ErrorCodes: example-error-unreachable")) (* 07_limitations.go:19 DeadBranchError *);
    (123, (str "ErrorCodes: examples-error-disconnect examples-error-io")) (* 02_basic_examples.go:96 Read *);
    (130, (str "ErrorCodes: examples-error-arg-nil examples-error-invalid examples-error-unknown")) (* 05_interfaces.go:11 Put *);
    (132, (str "ErrorCodes: examples-error-invalid")) (* 05_interfaces.go:18 Pop *);
    (133, (str "ErrorCodes: ")) (* 05_interfaces.go:91 Put *);
    (135, (str "ErrorCodes: examples-error-invalid")) (* 05_interfaces.go:98 Pop *)].
Proof. vm_compute. split; reflexivity. Qed.

(** examples: 7 diagnostics and 42 facts, as its "want" comments demand. *)
Theorem t_examples_descending :
  report (run_test t_examples descending (Facts ∅ ∅ ∅ ∅)) = Some [
    (1041, (str "embedded interface is not compatible: method ""Put"" has mismatches in declared error codes: missing codes: [examples-error-arg-nil examples-error-invalid examples-error-unknown]")) (* 05_interfaces.go:103 *);
    (1190, (str "error should be returned as the last argument")) (* 07_limitations.go:26 *);
    (307, (str "function ""AddUnused"" has a mismatch of declared and actual error codes: unused codes: [examples-error-invalid-arg examples-error-invalid-collection examples-error-limit-reached]")) (* 02_basic_examples.go:38 *);
    (328, (str "function ""AddMissing"" has a mismatch of declared and actual error codes: missing codes: [examples-error-invalid-arg examples-error-invalid-collection examples-error-limit-reached]")) (* 02_basic_examples.go:46 *);
    (590, (str "error code has to be constant value or error code parameter")) (* 03_error_code_origins.go:46 *);
    (998, (str "cannot use expression as ""Box"" value: method ""Put"" declares the following error codes which were not part of the interface: [examples-error-not-implemented]")) (* 05_interfaces.go:80 *);
    (998, (str "cannot use expression as ""Box"" value: method ""Pop"" declares the following error codes which were not part of the interface: [examples-error-not-implemented]")) (* 05_interfaces.go:80 *)] /\
  fact_texts (facts_after_test (run_test t_examples descending (Facts ∅ ∅ ∅ ∅))) [50; 51; 52; 53; 54; 55; 56; 57; 58; 59; 60; 61; 62; 63; 64; 65; 66; 67; 68; 69; 70; 71; 72; 73; 74; 75; 76; 77; 78; 79; 80; 81; 82; 83; 84; 85; 86; 87; 88; 89; 90; 91; 92; 93; 94; 95; 96; 97; 98; 99; 100; 101; 102; 103; 104; 105; 106; 107; 108; 109; 110; 111; 112; 113; 114; 115; 116; 117; 118; 119; 120; 121; 122; 123; 124; 125; 126; 127; 128; 129; 130; 131; 132; 133; 134; 135; 136; 137; 138; 139; 140; 141; 147; 149; 150; 151; 152; 153; 154; 155; 156; 157; 158] = [
    (50, (str "ErrorType{Field:{Name:""TheCode"", Position:0}, Codes:}")) (* 01_error_types.go:8 Error *);
    (53, (str "ErrorType{Field:<nil>, Codes:examples-error-disconnect examples-error-empty examples-error-unknown}")) (* 01_error_types.go:15 Error2 *);
    (60, (str "ErrorCodes: examples-error-disconnect examples-error-empty examples-error-unknown")) (* 01_error_types.go:41 ReturnError2 *);
    (61, (str "ErrorType{Field:{Name:""code"", Position:1}, Codes:examples-error-flagged examples-error-unknown}")) (* 01_error_types.go:45 Error3 *);
    (64, (str "ErrorCodes: examples-error-flagged examples-error-not-implemented examples-error-unknown")) (* 01_error_types.go:66 ReturnError3 *);
    (66, (str "ErrorCodes: examples-error-invalid-arg examples-error-invalid-collection examples-error-limit-reached")) (* 02_basic_examples.go:15 Add *);
    (67, (str "ErrorCodes: examples-error-invalid-arg examples-error-invalid-collection examples-error-limit-reached")) (* 02_basic_examples.go:38 AddUnused *);
    (68, (str "ErrorCodes: ")) (* 02_basic_examples.go:46 AddMissing *);
    (69, (str "ErrorCodes: examples-error-invalid-arg examples-error-invalid-collection examples-error-limit-reached")) (* 02_basic_examples.go:73 AddAlt *);
    (70, (str "ErrorInterface: Read")) (* 02_basic_examples.go:91 IO *);
    (72, (str "ErrorCodes: ")) (* 02_basic_examples.go:103 Read *);
    (73, (str "ErrorCodes: examples-error-closed examples-error-flagged examples-error-not-implemented examples-error-unknown")) (* 03_error_code_origins.go:16 TypeConstruction *);
    (74, (str "ErrorCodes: examples-error-one examples-error-unkown examples-error-zero")) (* 03_error_code_origins.go:37 AssignmentToErrorCodeField *);
    (75, (str "ErrorCodes: examples-error-failed examples-error-invalid-name")) (* 03_error_code_origins.go:58 FunctionCall *);
    (76, (str "ErrorCodes: examples-error-failed examples-error-invalid-name")) (* 03_error_code_origins.go:66 TryOpen *);
    (77, (str "ErrorCodes: examples-error-overwritten")) (* 04_annotations.go:9 Overwrite *);
    (78, (str "ErrorCodes: examples-error-one examples-error-two")) (* 04_annotations.go:21 OverwriteMultiple *);
    (79, (str "ErrorCodes: examples-error-one examples-error-three examples-error-two")) (* 04_annotations.go:36 MultipleCodes *);
    (81, (str "ErrorCodes: examples-error-three examples-error-two")) (* 04_annotations.go:57 SubtractCode *);
    (82, (str "ErrorCodes: examples-error-extra examples-error-one")) (* 04_annotations.go:74 AddSubCode *);
    (83, (str "ErrorCodes: assigned-error")) (* 04_annotations.go:86 AssignmentProblem *);
    (84, (str "ErrorInterface: Pop Put")) (* 05_interfaces.go:3 Box *);
    (86, (str "ErrorCodes: examples-error-arg-nil examples-error-invalid")) (* 05_interfaces.go:29 Put *);
    (87, (str "ErrorCodes: examples-error-invalid")) (* 05_interfaces.go:45 Pop *);
    (90, (str "ErrorCodes: examples-error-not-implemented")) (* 05_interfaces.go:66 Put *);
    (91, (str "ErrorCodes: examples-error-not-implemented")) (* 05_interfaces.go:73 Pop *);
    (93, (str "ErrorInterface: Pop Put")) (* 05_interfaces.go:87 Box2 *);
    (94, (str "ErrorInterface: Pop Put")) (* 05_interfaces.go:101 EmbeddingBox *);
    (95, (str "ErrorCodes: ")) (* 06_error_constructors.go:8 NewError *);
    (95, (str "ErrorConstructor: {CodeParamPosition:0}")) (* 06_error_constructors.go:8 NewError *);
    (96, (str "ErrorCodes: examples-error-flagged examples-error-unknown")) (* 06_error_constructors.go:19 NewError3 *);
    (96, (str "ErrorConstructor: {CodeParamPosition:1}")) (* 06_error_constructors.go:19 NewError3 *);
    (97, (str "ErrorCodes: examples-error-not-implemented")) (* 06_error_constructors.go:30 CallConstructor *);
    (98, (str "ErrorCodes: examples-error-flagged examples-error-unknown")) (* 06_error_constructors.go:39 NewGeneralError *);
    (98, (str "ErrorConstructor: {CodeParamPosition:1}")) (* 06_error_constructors.go:39 NewGeneralError *);
    (99, (str "ErrorCodes: examples-error-invalid")) (* 07_limitations.go:6 CallModifyError *);
    (101, (str "ErrorCodes: example-error-unreachable")) (* 07_limitations.go:19 DeadBranchError *);
    (123, (str "ErrorCodes: examples-error-disconnect examples-error-io")) (* 02_basic_examples.go:96 Read *);
    (130, (str "ErrorCodes: examples-error-arg-nil examples-error-invalid examples-error-unknown")) (* 05_interfaces.go:11 Put *);
    (132, (str "ErrorCodes: examples-error-invalid")) (* 05_interfaces.go:18 Pop *);
    (133, (str "ErrorCodes: ")) (* 05_interfaces.go:91 Put *);
    (135, (str "ErrorCodes: examples-error-invalid")) (* 05_interfaces.go:98 Pop *)].
Proof. vm_compute. split; reflexivity. Qed.

(** The presuppositions of the general theorems that this package satisfies (not: sound_ok). *)
Theorem t_examples_presuppositions :
  (forall fa, usable_functions t_examples fa) /\
  (forall fa, no_literal_recursion t_examples (collectFunctions t_examples) fa) /\
  (forall fa, literals_apart t_examples (collectFunctions t_examples) fa) /\
  types_usable t_examples /\
  (forall w n, occurs t_examples w n -> ~ ill_formed t_examples w n) /\
  distinct_definitions t_examples /\
  interfaces_ok t_examples /\
  uses_resolved t_examples (collectFunctions t_examples) /\
  Forall layout t_examples_files.
Proof.
  split_and!.
  - intros fa; apply package_usable_spec; vm_compute; reflexivity.
  - intros fa; apply recursion_check_spec; vm_compute; reflexivity.
  - intros fa; apply apart_spec; vm_compute; reflexivity.
  - apply types_ok_spec; vm_compute; reflexivity.
  - apply package_formed_spec; vm_compute; reflexivity.
  - apply definitions_check_spec; vm_compute; reflexivity.
  - apply (interfaces_check_spec t_examples t_examples_rank); vm_compute; reflexivity.
  - apply uses_check_spec; vm_compute; reflexivity.
  - apply layouts_spec; vm_compute; reflexivity.
Qed.
