(** * The test package 001 of /repo/analysis/testdata/src, run on the model.  Generated by tools/conform.py; see Conform.v. *)
From Coq Require Import Ascii String.
From stdpp Require Import base list gmap.
From Verif Require Import GoString Scc Engine Constant CommentText CommentMap Phase FactText Conform Claims Analyse Verify SpecTaint SpecProgram SpecLiterals SpecCodeMethod SpecInterfaces SpecSites SpecCrash SpecSound SpecWhole SpecLayout Checkers RecursionChecker LiteralChecker CodeCheckers FormChecker InterfaceChecker SoundChecker ChainChecker ExampleLayout GoAst.
Local Open Scope N_scope.
Definition t_001_f1 : func := Func 3 (Some (DeclInfo (Ident 4 (str "CodeNotDeclared") (Some 1)) None None)) (FuncType 5 [] (Some [(Field 8 [] 9)]) 38) (Some (Node 10 (KOther (str "*ast.BlockStmt")) [(Node 11 KReturn [(Node 12 (KUnary true) [(Node 13 KComposite [(Node 15 KBasicLit [])])])])])) 44 163.
Definition t_001_f2 : func := Func 16 (Some (DeclInfo (Ident 17 (str "ErrorNotLast") (Some 2)) None None)) (FuncType 18 [] (Some [(Field 21 [] 22); (Field 23 [] 24)]) 185) (Some (Node 25 (KOther (str "*ast.BlockStmt")) [(Node 26 KReturn [(Node 27 (KUnary true) [(Node 28 KComposite [(Node 30 KBasicLit [])])]); (Node 31 KBasicLit [])])])) 198 290.
Definition t_001_f3 : func := Func 32 (Some (DeclInfo (Ident 33 (str "CallToInvalidFunction") (Some 3)) None (Some (comment_text [(str "// CallToInvalidFunction calls a function which has an error as non-last return argument."); (str "//"); (str "// Errors:"); (str "//"); (str "//    - zonk-error -- is always returned")])))) (FuncType 34 [] (Some [(Field 37 [] 38)]) 469) (Some (Node 39 (KOther (str "*ast.BlockStmt")) [(Node 40 (KAssign 2%nat) [(Node 41 (KIdent (str "e") (Some 4)) []); (Node 42 (KIdent (str "_") (Some 5)) []); (Node 43 KCall [(Node 44 (KIdent (str "ErrorNotLast") (Some 2)) [])])]); (Node 45 (KOther (str "*ast.IfStmt")) [(Node 46 (KIdent (str "false") None) []); (Node 47 (KOther (str "*ast.BlockStmt")) [(Node 48 KReturn [(Node 49 (KIdent (str "e") (Some 4)) [])])])]); (Node 50 KReturn [(Node 51 (KUnary true) [(Node 52 KComposite [(Node 54 KBasicLit [])])])])])) 475 713.
Definition t_001_f4 : func := Func 55 (Some (DeclInfo (Ident 56 (str "ReturnInvalidError") (Some 6)) None (Some (comment_text [(str "// ReturnInvalidError returns an error that does not define a Code() method."); (str "//"); (str "// Errors:"); (str "//"); (str "//    - hello-error -- might be returned by this function")])))) (FuncType 57 [] (Some [(Field 60 [] 61)]) 893) (Some (Node 62 (KOther (str "*ast.BlockStmt")) [(Node 63 (KOther (str "*ast.IfStmt")) [(Node 64 (KIdent (str "false") None) []); (Node 65 (KOther (str "*ast.BlockStmt")) [(Node 66 KReturn [(Node 67 (KUnary true) [(Node 68 KComposite [(Node 70 KBasicLit [])])])])])]); (Node 71 KReturn [(Node 72 (KUnary true) [(Node 73 KComposite [])])])])) 899 1076.
Definition t_001_f5 : func := Func 80 (Some (DeclInfo (Ident 86 (str "Error") None) (Some [(Field 82 [(Ident 83 (str "e") (Some 7))] 84)]) None)) (FuncType 87 [] (Some [(Field 90 [] 91)]) 1137) (Some (Node 92 (KOther (str "*ast.BlockStmt")) [(Node 93 KReturn [(Node 94 KBasicLit [])])])) 1144 1169.
Definition t_001_f6 : func := Func 95 (Some (DeclInfo (Ident 96 (str "InvalidErrorCodeFormat") (Some 8)) None (Some (comment_text [(str "// InvalidErrorCodeFormat returns an error with invalid error code."); (str "//"); (str "// Errors:"); (str "//"); (str "//    - hello-error -- might be returned")])))) (FuncType 97 [] (Some [(Field 100 [] 101)]) 1327) (Some (Node 102 (KOther (str "*ast.BlockStmt")) [(Node 103 KReturn [(Node 104 KCall [(Node 105 (KIdent (str "invalidErrorCodeFormat") (Some 9)) [])])])])) 1333 1426.
Definition t_001_f7 : func := Func 106 (Some (DeclInfo (Ident 107 (str "invalidErrorCodeFormat") (Some 9)) None None)) (FuncType 108 [] (Some [(Field 111 [] 112)]) 1458) (Some (Node 113 (KOther (str "*ast.BlockStmt")) [(Node 114 (KOther (str "*ast.SwitchStmt")) [(Node 115 (KOther (str "*ast.BlockStmt")) [(Node 116 (KCaseClause 1%nat) [(Node 117 (KIdent (str "true") None) []); (Node 118 KReturn [(Node 119 (KUnary true) [(Node 120 KComposite [(Node 122 KBasicLit [])])])])]); (Node 123 (KCaseClause 1%nat) [(Node 124 (KIdent (str "true") None) []); (Node 125 KReturn [(Node 126 (KUnary true) [(Node 127 KComposite [(Node 129 KBasicLit [])])])])]); (Node 130 (KCaseClause 1%nat) [(Node 131 (KIdent (str "true") None) []); (Node 132 KReturn [(Node 133 (KUnary true) [(Node 134 KComposite [(Node 136 KBasicLit [])])])])]); (Node 137 (KCaseClause 1%nat) [(Node 138 (KIdent (str "true") None) []); (Node 139 KReturn [(Node 140 (KUnary true) [(Node 141 KComposite [(Node 143 KBasicLit [])])])])]); (Node 144 (KCaseClause 1%nat) [(Node 145 (KIdent (str "true") None) []); (Node 146 KReturn [(Node 147 (KUnary true) [(Node 148 KComposite [(Node 150 KBasicLit [])])])])]); (Node 151 (KCaseClause 0%nat) [(Node 152 KReturn [(Node 153 (KUnary true) [(Node 154 KComposite [(Node 156 KBasicLit [])])])])])])])])) 1464 2052.
Definition t_001_f8 : func := Func 157 (Some (DeclInfo (Ident 158 (str "InvalidErrorFromParameter") (Some 10)) None (Some (comment_text [(str "// Errors:"); (str "//"); (str "//    - some-error --")])))) (FuncType 159 [(Field 161 [(Ident 162 (str "p") (Some 11))] 163)] (Some [(Field 165 [] 166)]) 2130) (Some (Node 167 (KOther (str "*ast.BlockStmt")) [(Node 168 (KOther (str "*ast.SwitchStmt")) [(Node 169 (KOther (str "*ast.BlockStmt")) [(Node 170 (KCaseClause 1%nat) [(Node 171 (KIdent (str "true") None) []); (Node 172 KReturn [(Node 173 (KIdent (str "p") (Some 11)) [])])]); (Node 174 (KCaseClause 1%nat) [(Node 175 (KIdent (str "true") None) []); (Node 176 (KAssign 1%nat) [(Node 177 (KIdent (str "x") (Some 12)) []); (Node 178 (KIdent (str "p") (Some 11)) [])]); (Node 179 KReturn [(Node 180 (KIdent (str "x") (Some 12)) [])])])])]); (Node 181 KReturn [(Node 182 (KUnary true) [(Node 183 KComposite [(Node 185 KBasicLit [])])])])])) 2136 2449.
Definition t_001_f9 : func := Func 186 (Some (DeclInfo (Ident 192 (str "InvalidErrorFromReceiver") None) (Some [(Field 188 [(Ident 189 (str "e") (Some 13))] 190)]) (Some (comment_text [(str "// Errors:"); (str "//"); (str "//    - some-error --")])))) (FuncType 193 [] (Some [(Field 196 [] 197)]) 2530) (Some (Node 198 (KOther (str "*ast.BlockStmt")) [(Node 199 (KOther (str "*ast.SwitchStmt")) [(Node 200 (KOther (str "*ast.BlockStmt")) [(Node 201 (KCaseClause 1%nat) [(Node 202 (KIdent (str "true") None) []); (Node 203 KReturn [(Node 204 (KIdent (str "e") (Some 13)) [])])]); (Node 205 (KCaseClause 1%nat) [(Node 206 (KIdent (str "true") None) []); (Node 207 (KAssign 1%nat) [(Node 208 (KIdent (str "x") (Some 14)) []); (Node 209 (KIdent (str "e") (Some 13)) [])]); (Node 210 KReturn [(Node 211 (KIdent (str "x") (Some 14)) [])])])])]); (Node 212 KReturn [(Node 213 (KUnary true) [(Node 214 KComposite [(Node 216 KBasicLit [])])])])])) 2536 2848.
Definition t_001_f10 : func := Func 224 (Some (DeclInfo (Ident 225 (str "InvalidErrorFromGlobal") (Some 15)) None (Some (comment_text [(str "// Errors:"); (str "//"); (str "//    - some-error --")])))) (FuncType 226 [] (Some [(Field 229 [] 230)]) 2958) (Some (Node 231 (KOther (str "*ast.BlockStmt")) [(Node 232 (KOther (str "*ast.SwitchStmt")) [(Node 233 (KOther (str "*ast.BlockStmt")) [(Node 234 (KCaseClause 1%nat) [(Node 235 (KIdent (str "true") None) []); (Node 236 KReturn [(Node 237 (KIdent (str "globalError") (Some 16)) [])])]); (Node 238 (KCaseClause 1%nat) [(Node 239 (KIdent (str "true") None) []); (Node 240 (KAssign 1%nat) [(Node 241 (KIdent (str "x") (Some 17)) []); (Node 242 (KIdent (str "globalError") (Some 16)) [])]); (Node 243 KReturn [(Node 244 (KIdent (str "x") (Some 17)) [])])])])]); (Node 245 KReturn [(Node 246 (KUnary true) [(Node 247 KComposite [(Node 249 KBasicLit [])])])])])) 2964 3294.
Definition t_001_f11 : func := Func 250 (Some (DeclInfo (Ident 251 (str "getLambda") (Some 18)) None None)) (FuncType 252 [] (Some [(Field 255 [] 256)]) 3313) (Some (Node 261 (KOther (str "*ast.BlockStmt")) [(Node 262 KReturn [(Node 263 (KFuncLit 12) [(Node 269 (KOther (str "*ast.BlockStmt")) [(Node 270 KReturn [(Node 271 (KUnary true) [(Node 272 KComposite [(Node 274 KBasicLit [])])])])])])])])) 3326 3387.
Definition t_001_f12 : func := Func 263 None (FuncType 264 [] (Some [(Field 267 [] 268)]) 3343) (Some (Node 269 (KOther (str "*ast.BlockStmt")) [(Node 270 KReturn [(Node 271 (KUnary true) [(Node 272 KComposite [(Node 274 KBasicLit [])])])])])) 3349 3385.
Definition t_001_f13 : func := Func 275 (Some (DeclInfo (Ident 276 (str "InvalidErrorFromLambda") (Some 19)) None (Some (comment_text [(str "// Errors:"); (str "//"); (str "//    - some-error --")])))) (FuncType 277 [] (Some [(Field 280 [] 281)]) 3455) (Some (Node 282 (KOther (str "*ast.BlockStmt")) [(Node 283 (KOther (str "*ast.IfStmt")) [(Node 284 (KIdent (str "false") None) []); (Node 285 (KOther (str "*ast.BlockStmt")) [(Node 286 KReturn [(Node 287 KCall [(Node 288 KCall [(Node 289 (KIdent (str "getLambda") (Some 18)) [])])])])])]); (Node 290 KReturn [(Node 291 (KUnary true) [(Node 292 KComposite [(Node 294 KBasicLit [])])])])])) 3461 3673.
Definition t_001_f14 : func := Func 295 (Some (DeclInfo (Ident 296 (str "SliceAccess") (Some 20)) None (Some (comment_text [(str "// Errors: none")])))) (FuncType 297 [(Field 299 [(Ident 300 (str "errors") (Some 21))] 301); (Field 303 [(Ident 304 (str "index") (Some 22))] 305)] (Some [(Field 307 [] 308)]) 3735) (Some (Node 309 (KOther (str "*ast.BlockStmt")) [(Node 310 KReturn [(Node 311 KIndex [(Node 312 (KIdent (str "errors") (Some 21)) []); (Node 313 (KIdent (str "index") (Some 22)) [])])])])) 3741 3861.
Definition t_001_f15 : func := Func 319 (Some (DeclInfo (Ident 320 (str "main") (Some 23)) None None)) (FuncType 321 [] None 0) (Some (Node 323 (KOther (str "*ast.BlockStmt")) [(Node 324 (KOther (str "*ast.ExprStmt")) [(Node 325 KCall [(Node 326 (KIdent (str "One") (Some 24)) [])])])])) 3908 3918.
Definition t_001_f16 : func := Func 327 (Some (DeclInfo (Ident 328 (str "One") (Some 24)) None (Some (comment_text [(str "/*
	One is a demo function.
	It calls another function that returns an error.

	Errors:

		- hello-error -- always returned.
*/")])))) (FuncType 329 [] (Some [(Field 332 [] 333)]) 4059) (Some (Node 334 (KOther (str "*ast.BlockStmt")) [(Node 335 KReturn [(Node 336 KCall [(Node 337 (KIdent (str "Two") (Some 25)) [])])])])) 4065 4120.
Definition t_001_f17 : func := Func 338 (Some (DeclInfo (Ident 339 (str "Two") (Some 25)) None (Some (comment_text [(str "// Two is a demo function."); (str "// It returns an error value it creates itself."); (str "//"); (str "// Errors:"); (str "//"); (str "//    - hello-error -- is always returned.")])))) (FuncType 340 [] (Some [(Field 343 [] 344)]) 4268) (Some (Node 345 (KOther (str "*ast.BlockStmt")) [(Node 346 KReturn [(Node 347 (KUnary true) [(Node 348 KComposite [(Node 350 KBasicLit [])])])])])) 4274 4345.
Definition t_001_f18 : func := Func 351 (Some (DeclInfo (Ident 352 (str "Three") (Some 26)) None None)) (FuncType 353 [] (Some [(Field 356 [] 357)]) 4360) (Some (Node 359 (KOther (str "*ast.BlockStmt")) [(Node 360 KReturn [(Node 361 (KUnary true) [(Node 362 KComposite [(Node 364 KBasicLit [])])])])])) 4367 4485.
Definition t_001_f19 : func := Func 365 (Some (DeclInfo (Ident 366 (str "Four") (Some 27)) None (Some (comment_text [(str "// Four is a demo function with multiple returns."); (str "//"); (str "// Errors:"); (str "//"); (str "//    - zonk-error -- is always returned.")])))) (FuncType 367 [] (Some [(Field 370 [] 371); (Field 372 [] 373)]) 4608) (Some (Node 374 (KOther (str "*ast.BlockStmt")) [(Node 375 KReturn [(Node 376 KBasicLit []); (Node 377 (KUnary true) [(Node 378 KComposite [(Node 380 KBasicLit [])])])])])) 4624 4707.
Definition t_001_f20 : func := Func 381 (Some (DeclInfo (Ident 382 (str "Five") (Some 28)) None (Some (comment_text [(str "// Five is a demo function with multiple returns"); (str "// which is returning the result of another function"); (str "// (which *also* has multiple returns)."); (str "//"); (str "// Errors:"); (str "//"); (str "//    - zonk-error -- is always returned.")])))) (FuncType 383 [] (Some [(Field 386 [] 387); (Field 389 [] 390)]) 4922) (Some (Node 391 (KOther (str "*ast.BlockStmt")) [(Node 392 KReturn [(Node 393 KCall [(Node 394 (KIdent (str "Four") (Some 27)) [])])])])) 4943 4999.
Definition t_001_f21 : func := Func 395 (Some (DeclInfo (Ident 396 (str "Six") (Some 29)) None (Some (comment_text [(str "// Five is a demo function with multiple returns"); (str "// which is returning the result of another function"); (str "// (which *also* has multiple returns)."); (str "//"); (str "// Errors:"); (str "//"); (str "//    - hello-error -- is sometimes returned."); (str "//    - zonk-error -- is returned at other times.")])))) (FuncType 397 [(Field 399 [(Ident 400 (str "flip") (Some 30))] 401)] (Some [(Field 403 [] 404)]) 5276) (Some (Node 405 (KOther (str "*ast.BlockStmt")) [(Node 406 (KAssign 1%nat) [(Node 407 (KIdent (str "err") (Some 31)) []); (Node 408 KCall [(Node 409 KParen [(Node 410 (KIdent (str "Two") (Some 25)) [])])])]); (Node 411 (KOther (str "*ast.IfStmt")) [(Node 412 (KIdent (str "flip") (Some 30)) []); (Node 413 (KOther (str "*ast.BlockStmt")) [(Node 414 (KAssign 2%nat) [(Node 415 (KIdent (str "_") None) []); (Node 416 (KIdent (str "err") (Some 31)) []); (Node 417 KCall [(Node 418 (KIdent (str "Four") (Some 27)) [])])])])]); (Node 419 KReturn [(Node 420 (KIdent (str "err") (Some 31)) [])])])) 5282 5394.
Definition t_001_f22 : func := Func 421 (Some (DeclInfo (Ident 422 (str "Seven") (Some 32)) None (Some (comment_text [(str "// Seven is ... probably out of scope."); (str "//"); (str "// Errors:"); (str "//"); (str "//    - hello-error -- is always returned.")])))) (FuncType 423 [] (Some [(Field 426 [] 427)]) 5508) (Some (Node 428 (KOther (str "*ast.BlockStmt")) [(Node 429 (KAssign 1%nat) [(Node 430 (KIdent (str "uff") (Some 33)) []); (Node 431 (KUnary true) [(Node 432 KComposite [])])]); (Node 434 (KAssign 1%nat) [(Node 435 KSelector [(Node 436 (KIdent (str "uff") (Some 33)) []); (Node 437 (KIdent (str "TheCode") None) [])]); (Node 438 KBasicLit [])]); (Node 439 (KOther (str "*ast.DeclStmt")) [(Node 440 (KOther (str "*ast.GenDecl")) [(Node 441 (KValueSpec [(Ident 442 (str "err") (Some 34))] (Some 443)) [])])]); (Node 444 (KAssign 1%nat) [(Node 445 (KIdent (str "err") (Some 34)) []); (Node 446 (KIdent (str "uff") (Some 33)) [])]); (Node 447 KReturn [(Node 448 (KIdent (str "err") (Some 34)) [])])])) 5514 5705.
Definition t_001_f23 : func := Func 449 (Some (DeclInfo (Ident 450 (str "Eight") (Some 35)) None (Some (comment_text [(str "// Eight isn't going to fulfill what it says it will do."); (str "// It also makes a call to another package."); (str "//"); (str "// Errors:"); (str "//"); (str "//    - hello-error -- is a lie, won't actually happen.")])))) (FuncType 451 [] (Some [(Field 454 [] 455)]) 5894) (Some (Node 456 (KOther (str "*ast.BlockStmt")) [(Node 457 KReturn [(Node 458 KCall [(Node 459 KSelector [(Node 460 (KIdent (str "fmt") None) []); (Node 461 (KIdent (str "Errorf") None) [])]); (Node 462 KBasicLit [])])])])) 5900 6166.
Definition t_001_f24 : func := Func 463 (Some (DeclInfo (Ident 464 (str "Named") (Some 36)) None (Some (comment_text [(str "// Named returns an error by named return arguments."); (str "//"); (str "// Errors:"); (str "//"); (str "//    - named-error -- is always returned")])))) (FuncType 465 [] (Some [(Field 468 [(Ident 469 (str "something") (Some 37))] 470); (Field 471 [(Ident 472 (str "err") (Some 38))] 473)]) 6293) (Some (Node 474 (KOther (str "*ast.BlockStmt")) [(Node 475 (KAssign 1%nat) [(Node 476 (KIdent (str "something") (Some 37)) []); (Node 477 KBasicLit [])]); (Node 478 (KAssign 1%nat) [(Node 479 (KIdent (str "err") (Some 38)) []); (Node 480 (KUnary true) [(Node 481 KComposite [(Node 483 KBasicLit [])])])]); (Node 484 KReturn [])])) 6323 6424.
Definition t_001_f25 : func := Func 485 (Some (DeclInfo (Ident 486 (str "Shadowed") (Some 39)) None (Some (comment_text [(str "// Shadowed returns an error by named return arguments."); (str "//"); (str "// Errors:"); (str "//"); (str "//    - named-error -- is always returned")])))) (FuncType 487 [] (Some [(Field 490 [(Ident 491 (str "err") (Some 40))] 492)]) 6557) (Some (Node 493 (KOther (str "*ast.BlockStmt")) [(Node 494 (KAssign 1%nat) [(Node 495 (KIdent (str "err") (Some 40)) []); (Node 496 (KUnary true) [(Node 497 KComposite [(Node 499 KBasicLit [])])])]); (Node 500 (KOther (str "*ast.BlockStmt")) [(Node 501 (KOther (str "*ast.DeclStmt")) [(Node 502 (KOther (str "*ast.GenDecl")) [(Node 503 (KValueSpec [(Ident 504 (str "err") (Some 41))] (Some 505)) [])])]); (Node 506 (KAssign 1%nat) [(Node 507 (KIdent (str "err") (Some 41)) []); (Node 508 KBasicLit [])]); (Node 509 (KAssign 1%nat) [(Node 510 (KIdent (str "_") None) []); (Node 511 (KIdent (str "err") (Some 41)) [])])]); (Node 512 KReturn [])])) 6569 6718.
Definition t_001_f26 : func := Func 513 (Some (DeclInfo (Ident 514 (str "IdentLoop") (Some 42)) None (Some (comment_text [(str "// IdentLoop does assignments in an attempt to make the analysis fall into an endless loop."); (str "//"); (str "// Errors:"); (str "//"); (str "//    - some-error -- is always returned")])))) (FuncType 515 [] (Some [(Field 518 [] 519)]) 6887) (Some (Node 520 (KOther (str "*ast.BlockStmt")) [(Node 521 (KAssign 1%nat) [(Node 522 (KIdent (str "err1") (Some 43)) []); (Node 523 (KUnary true) [(Node 524 KComposite [(Node 526 KBasicLit [])])])]); (Node 527 (KAssign 1%nat) [(Node 528 (KIdent (str "err2") (Some 44)) []); (Node 529 (KIdent (str "err1") (Some 43)) [])]); (Node 530 (KAssign 1%nat) [(Node 531 (KIdent (str "err3") (Some 45)) []); (Node 532 (KIdent (str "err2") (Some 44)) [])]); (Node 533 (KAssign 1%nat) [(Node 534 (KIdent (str "err1") (Some 43)) []); (Node 535 (KIdent (str "err3") (Some 45)) [])]); (Node 536 KReturn [(Node 537 (KIdent (str "err1") (Some 43)) [])])])) 6893 7023.
Definition t_001_f27 : func := Func 538 (Some (DeclInfo (Ident 539 (str "PointerOfLocal") (Some 46)) None (Some (comment_text [(str "// PointerOfLocal returns a pointer to a locally created error."); (str "//"); (str "// Errors:"); (str "//"); (str "//    - value-error -- is always returned")])))) (FuncType 540 [] (Some [(Field 543 [] 544)]) 7170) (Some (Node 545 (KOther (str "*ast.BlockStmt")) [(Node 546 (KAssign 1%nat) [(Node 547 (KIdent (str "err") (Some 47)) []); (Node 548 KComposite [(Node 550 KBasicLit [])])]); (Node 551 (KOther (str "*ast.IfStmt")) [(Node 552 (KIdent (str "false") None) []); (Node 553 (KOther (str "*ast.BlockStmt")) [(Node 554 (KAssign 1%nat) [(Node 555 (KIdent (str "err2") (Some 48)) []); (Node 556 (KUnary true) [(Node 557 (KIdent (str "err") (Some 47)) [])])]); (Node 558 KReturn [(Node 559 (KIdent (str "err2") (Some 48)) [])])])]); (Node 560 KReturn [(Node 561 (KUnary true) [(Node 562 (KIdent (str "err") (Some 47)) [])])])])) 7176 7314.
Definition t_001_f28 : func := Func 583 (Some (DeclInfo (Ident 587 (str "FetchFromUrl") None) (Some [(Field 585 [] 586)]) (Some (comment_text [(str "// Errors:"); (str "//"); (str "//    - io-error -- returned if transfer fails")])))) (FuncType 588 [(Field 590 [(Ident 591 (str "url") (Some 49))] 592)] (Some [(Field 594 [] 595)]) 7643) (Some (Node 596 (KOther (str "*ast.BlockStmt")) [(Node 597 (KAssign 1%nat) [(Node 598 (KIdent (str "failed") (Some 50)) []); (Node 599 (KIdent (str "false") None) [])]); (Node 600 (KOther (str "*ast.IfStmt")) [(Node 601 (KIdent (str "failed") (Some 50)) []); (Node 602 (KOther (str "*ast.BlockStmt")) [(Node 603 KReturn [(Node 604 (KUnary true) [(Node 605 KComposite [(Node 607 KBasicLit [])])])])])]); (Node 608 KReturn [(Node 609 (KIdent (str "nil") None) [])])])) 7649 7800.
Definition t_001_f29 : func := Func 615 (Some (DeclInfo (Ident 619 (str "FetchFromUrl") None) (Some [(Field 617 [] 618)]) (Some (comment_text [(str "// Errors: none -- this method only returns error to comply with the IO interface.")])))) (FuncType 620 [(Field 622 [(Ident 623 (str "url") (Some 51))] 624)] (Some [(Field 626 [] 627)]) 7946) (Some (Node 628 (KOther (str "*ast.BlockStmt")) [(Node 629 KReturn [(Node 630 (KIdent (str "nil") None) [])])])) 7952 8053.
Definition t_001_f30 : func := Func 631 (Some (DeclInfo (Ident 632 (str "ConsumingIoImplementations") (Some 52)) None None)) (FuncType 633 [] None 0) (Some (Node 635 (KOther (str "*ast.BlockStmt")) [(Node 636 (KOther (str "*ast.DeclStmt")) [(Node 637 (KOther (str "*ast.GenDecl")) [(Node 638 (KValueSpec [(Ident 639 (str "io1") (Some 53))] (Some 640)) [(Node 641 KComposite [])])])]); (Node 643 (KOther (str "*ast.DeclStmt")) [(Node 644 (KOther (str "*ast.GenDecl")) [(Node 645 (KValueSpec [(Ident 646 (str "io2") (Some 54))] (Some 647)) [(Node 648 KComposite [])])])]); (Node 650 (KAssign 2%nat) [(Node 651 (KIdent (str "_") None) []); (Node 652 (KIdent (str "_") None) []); (Node 653 (KIdent (str "io1") (Some 53)) []); (Node 654 (KIdent (str "io2") (Some 54)) [])])])) 8089 8155.
Definition t_001_f31 : func := Func 655 (Some (DeclInfo (Ident 656 (str "DefinitionWithoutAssignment") (Some 55)) None (Some (comment_text [(str "// Errors:"); (str "//"); (str "//    - var-error --")])))) (FuncType 657 [] (Some [(Field 660 [] 661)]) 8227) (Some (Node 662 (KOther (str "*ast.BlockStmt")) [(Node 663 (KOther (str "*ast.DeclStmt")) [(Node 664 (KOther (str "*ast.GenDecl")) [(Node 665 (KValueSpec [(Ident 666 (str "err") (Some 56))] (Some 667)) [(Node 668 (KUnary true) [(Node 669 KComposite [(Node 671 KBasicLit [])])])])])]); (Node 672 KReturn [(Node 673 (KIdent (str "err") (Some 56)) [])])])) 8233 8345.
Definition t_001_f32 : func := Func 682 (Some (DeclInfo (Ident 688 (str "Code") None) (Some [(Field 684 [(Ident 685 (str "e") (Some 57))] 686)]) None)) (FuncType 689 [] (Some [(Field 692 [] 693)]) 8479) (Some (Node 694 (KOther (str "*ast.BlockStmt")) [(Node 695 KReturn [(Node 696 KSelector [(Node 697 (KIdent (str "e") (Some 57)) []); (Node 698 (KIdent (str "TheCode") None) [])])])])) 8500 8520.
Definition t_001_f33 : func := Func 699 (Some (DeclInfo (Ident 705 (str "Message") None) (Some [(Field 701 [(Ident 702 (str "e") (Some 58))] 703)]) None)) (FuncType 706 [] (Some [(Field 709 [] 710)]) 8547) (Some (Node 711 (KOther (str "*ast.BlockStmt")) [(Node 712 KReturn [(Node 713 KSelector [(Node 714 (KIdent (str "e") (Some 58)) []); (Node 715 (KIdent (str "TheCode") None) [])])])])) 8565 8585.
Definition t_001_f34 : func := Func 716 (Some (DeclInfo (Ident 722 (str "Details") None) (Some [(Field 718 [(Ident 719 (str "e") (Some 59))] 720)]) None)) (FuncType 723 [] (Some [(Field 726 [] 727)]) 8612) (Some (Node 730 (KOther (str "*ast.BlockStmt")) [(Node 731 KReturn [(Node 732 (KIdent (str "nil") None) [])])])) 8630 8644.
Definition t_001_f35 : func := Func 733 (Some (DeclInfo (Ident 739 (str "Cause") None) (Some [(Field 735 [(Ident 736 (str "e") (Some 60))] 737)]) None)) (FuncType 740 [] (Some [(Field 743 [] 744)]) 8669) (Some (Node 745 (KOther (str "*ast.BlockStmt")) [(Node 746 KReturn [(Node 747 (KIdent (str "nil") None) [])])])) 8689 8703.
Definition t_001_f36 : func := Func 748 (Some (DeclInfo (Ident 754 (str "Error") None) (Some [(Field 750 [(Ident 751 (str "e") (Some 61))] 752)]) None)) (FuncType 755 [] (Some [(Field 758 [] 759)]) 8728) (Some (Node 760 (KOther (str "*ast.BlockStmt")) [(Node 761 KReturn [(Node 762 KCall [(Node 763 KSelector [(Node 764 (KIdent (str "e") (Some 61)) []); (Node 765 (KIdent (str "Message") None) [])])])])])) 8748 8770.
Definition t_001_f37 : func := Func 768 (Some (DeclInfo (Ident 769 (str "UnusedCode") (Some 62)) None (Some (comment_text [(str "// UnusedCode declares an error which is never returned."); (str "//"); (str "// Errors:"); (str "//"); (str "//    - unused-error -- never returned")])))) (FuncType 770 [] (Some [(Field 773 [] 774)]) 8917) (Some (Node 775 (KOther (str "*ast.BlockStmt")) [(Node 776 KReturn [(Node 777 (KIdent (str "nil") None) [])])])) 8923 9100.
Definition t_001_f38 : func := Func 778 (Some (DeclInfo (Ident 779 (str "MissingCode") (Some 63)) None (Some (comment_text [(str "// MissingCode returns an error which is not declared."); (str "//"); (str "// Errors:"); (str "//"); (str "//    - hello-error -- error that might be returned")])))) (FuncType 780 [] (Some [(Field 783 [] 784)]) 9245) (Some (Node 785 (KOther (str "*ast.BlockStmt")) [(Node 786 (KOther (str "*ast.IfStmt")) [(Node 787 (KIdent (str "false") None) []); (Node 788 (KOther (str "*ast.BlockStmt")) [(Node 789 KReturn [(Node 790 (KUnary true) [(Node 791 KComposite [(Node 793 KBasicLit [])])])])])]); (Node 794 KReturn [(Node 795 (KUnary true) [(Node 796 KComposite [(Node 798 KBasicLit [])])])])])) 9251 9497.
Definition t_001_f39 : func := Func 799 (Some (DeclInfo (Ident 800 (str "MissingAndUnusedCode") (Some 64)) None (Some (comment_text [(str "// MissingAndUnusedCode returns an error which is not declared,"); (str "// and declares an error which is never returned."); (str "//"); (str "// Errors:"); (str "//"); (str "//    - unused-error -- never returned")])))) (FuncType 801 [] (Some [(Field 804 [] 805)]) 9697) (Some (Node 806 (KOther (str "*ast.BlockStmt")) [(Node 807 KReturn [(Node 808 (KUnary true) [(Node 809 KComposite [(Node 811 KBasicLit [])])])])])) 9703 9952.
Definition t_001_f40 : func := Func 812 (Some (DeclInfo (Ident 813 (str "MultipleMismatchedCodes") (Some 65)) None (Some (comment_text [(str "// MultipleMismatchedCodes has multiple error code mismatches."); (str "//"); (str "// Errors:"); (str "//"); (str "//    - hello-error     -- error that might be returned"); (str "//    - unused-error-ab -- never returned"); (str "//    - unused-error-aa -- never returned")])))) (FuncType 814 [] (Some [(Field 817 [] 818)]) 10205) (Some (Node 819 (KOther (str "*ast.BlockStmt")) [(Node 820 (KOther (str "*ast.SwitchStmt")) [(Node 821 (KOther (str "*ast.BlockStmt")) [(Node 822 (KCaseClause 1%nat) [(Node 823 (KIdent (str "true") None) []); (Node 824 KReturn [(Node 825 (KUnary true) [(Node 826 KComposite [(Node 828 KBasicLit [])])])])]); (Node 829 (KCaseClause 1%nat) [(Node 830 (KIdent (str "true") None) []); (Node 831 KReturn [(Node 832 (KUnary true) [(Node 833 KComposite [(Node 835 KBasicLit [])])])])]); (Node 836 (KCaseClause 1%nat) [(Node 837 (KIdent (str "true") None) []); (Node 838 KReturn [(Node 839 (KUnary true) [(Node 840 KComposite [(Node 842 KBasicLit [])])])])]); (Node 843 (KCaseClause 0%nat) [(Node 844 KReturn [(Node 845 (KUnary true) [(Node 846 KComposite [(Node 848 KBasicLit [])])])])])])])])) 10211 10717.
Definition t_001_gendecls : list gendecl := [GenDecl 75 [(Some (TypeSpec (Ident 77 (str "InvalidError") (Some 66)) (XStruct [])))]; GenDecl 217 [None]; GenDecl 316 [None]; GenDecl 440 [None]; GenDecl 502 [None]; GenDecl 563 [(Some (TypeSpec (Ident 565 (str "Io") (Some 68)) (XInterface 566 [IMethod 568 (Ident 569 (str "FetchFromUrl") None) (Some (comment_text [(str "// Errors:"); (str "//"); (str "//    - io-error -- returned if transfer fails")])) (FuncType 570 [(Field 572 [(Ident 573 (str "url") (Some 67))] 574)] (Some [(Field 576 [] 577)]) 7468)])))]; GenDecl 578 [(Some (TypeSpec (Ident 580 (str "IoImpl") (Some 69)) (XStruct [])))]; GenDecl 610 [(Some (TypeSpec (Ident 612 (str "IoMock") (Some 70)) (XStruct [])))]; GenDecl 637 [None]; GenDecl 644 [None]; GenDecl 664 [None]; GenDecl 674 [(Some (TypeSpec (Ident 676 (str "Error") (Some 71)) (XStruct [[(Ident 680 (str "TheCode") None)]])))]].
Definition t_001_top : list topdecl := [TopFunc 1; TopFunc 2; TopFunc 3; TopFunc 4; TopNode (Node 75 (KOther (str "*ast.GenDecl")) [(Node 76 (KOther (str "*ast.TypeSpec")) [])]); TopFunc 5; TopFunc 6; TopFunc 7; TopFunc 8; TopFunc 9; TopNode (Node 217 (KOther (str "*ast.GenDecl")) [(Node 218 (KValueSpec [(Ident 219 (str "globalError") (Some 16))] None) [(Node 220 (KUnary true) [(Node 221 KComposite [(Node 223 KBasicLit [])])])])]); TopFunc 10; TopFunc 11; TopFunc 13; TopFunc 14; TopNode (Node 316 (KOther (str "*ast.GenDecl")) [(Node 317 (KOther (str "*ast.ImportSpec")) [])]); TopFunc 15; TopFunc 16; TopFunc 17; TopFunc 18; TopFunc 19; TopFunc 20; TopFunc 21; TopFunc 22; TopFunc 23; TopFunc 24; TopFunc 25; TopFunc 26; TopFunc 27; TopNode (Node 563 (KOther (str "*ast.GenDecl")) [(Node 564 (KOther (str "*ast.TypeSpec")) [])]); TopNode (Node 578 (KOther (str "*ast.GenDecl")) [(Node 579 (KOther (str "*ast.TypeSpec")) [])]); TopFunc 28; TopNode (Node 610 (KOther (str "*ast.GenDecl")) [(Node 611 (KOther (str "*ast.TypeSpec")) [])]); TopFunc 29; TopFunc 30; TopFunc 31; TopNode (Node 674 (KOther (str "*ast.GenDecl")) [(Node 675 (KOther (str "*ast.TypeSpec")) [])]); TopFunc 32; TopFunc 33; TopFunc 34; TopFunc 35; TopFunc 36; TopFunc 37; TopFunc 38; TopFunc 39; TopFunc 40].
Definition t_001_objs : list (N * object) := [(1, Object false 20 (DFunc 1)); (2, Object false 170 (DFunc 2)); (3, Object false 445 (DFunc 3)); (4, Object true 533 DOther); (5, Object true 536 DOther); (6, Object false 872 (DFunc 4)); (7, Object true 1112 DOther); (8, Object false 1302 (DFunc 6)); (9, Object false 1433 (DFunc 7)); (10, Object false 2095 (DFunc 8)); (11, Object true 2121 DOther); (12, Object true 2321 DOther); (13, Object true 2493 DOther); (14, Object true 2720 DOther); (15, Object false 2933 (DFunc 10)); (16, Object true 2854 (DValueSpec [(Ident 219 (str "globalError") (Some 16))] [(Node 220 (KUnary true) [(Node 221 KComposite [(Node 223 KBasicLit [])])])])); (17, Object true 3156 DOther); (18, Object false 3301 (DFunc 11)); (19, Object false 3430 (DFunc 13)); (20, Object false 3696 (DFunc 14)); (21, Object true 3708 DOther); (22, Object true 3724 DOther); (23, Object false 3901 (DFunc 15)); (24, Object false 4053 (DFunc 16)); (25, Object false 4262 (DFunc 17)); (26, Object false 4352 (DFunc 18)); (27, Object false 4601 (DFunc 19)); (28, Object false 4915 (DFunc 20)); (29, Object false 5261 (DFunc 21)); (30, Object true 5265 DOther); (31, Object true 5334 DOther); (32, Object false 5500 (DFunc 22)); (33, Object true 5557 DOther); (34, Object true 5671 (DValueSpec [(Ident 442 (str "err") (Some 34))] [])); (35, Object false 5886 (DFunc 23)); (36, Object false 6285 (DFunc 24)); (37, Object true 6294 DOther); (38, Object true 6312 DOther); (39, Object false 6546 (DFunc 25)); (40, Object true 6558 DOther); (41, Object true 6652 (DValueSpec [(Ident 504 (str "err") (Some 41))] [])); (42, Object false 6875 (DFunc 26)); (43, Object true 6939 DOther); (44, Object true 6969 DOther); (45, Object true 6983 DOther); (46, Object false 7153 (DFunc 27)); (47, Object true 7228 DOther); (48, Object true 7270 DOther); (49, Object true 7631 DOther); (50, Object true 7696 DOther); (51, Object true 7934 DOther); (52, Object false 8060 (DFunc 30)); (53, Object true 8096 (DValueSpec [(Ident 639 (str "io1") (Some 53))] [(Node 641 KComposite [])])); (54, Object true 8119 (DValueSpec [(Ident 646 (str "io2") (Some 54))] [(Node 648 KComposite [])])); (55, Object false 8197 (DFunc 31)); (56, Object true 8300 (DValueSpec [(Ident 666 (str "err") (Some 56))] [(Node 668 (KUnary true) [(Node 669 KComposite [(Node 671 KBasicLit [])])])])); (57, Object true 8462 DOther); (58, Object true 8527 DOther); (59, Object true 8592 DOther); (60, Object true 8651 DOther); (61, Object true 8710 DOther); (62, Object false 8904 (DFunc 37)); (63, Object false 9231 (DFunc 38)); (64, Object false 9674 (DFunc 39)); (65, Object false 10179 (DFunc 40)); (66, Object false 1083 DType); (67, Object true 7456 DOther); (68, Object false 7321 DType); (69, Object false 7526 DType); (70, Object false 7807 DType); (71, Object false 8352 DType)].
Definition t_001_types : list (N * gotype) := [(5, (TSignature [] [(TNamed 1)] false)); (9, (TNamed 1)); (12, (TPointer (TNamed 83))); (13, (TNamed 83)); (14, (TNamed 83)); (15, (TBasic (str "string"))); (18, (TSignature [] [(TNamed 1); (TBasic (str "int"))] false)); (22, (TNamed 1)); (24, (TBasic (str "int"))); (27, (TPointer (TNamed 83))); (28, (TNamed 83)); (29, (TNamed 83)); (30, (TBasic (str "string"))); (31, (TBasic (str "int"))); (34, (TSignature [] [(TNamed 1)] false)); (38, (TNamed 1)); (41, (TNamed 1)); (42, (TBasic (str "int"))); (43, (TTuple [(TNamed 1); (TBasic (str "int"))])); (44, (TSignature [] [(TNamed 1); (TBasic (str "int"))] false)); (46, (TBasic (str "bool"))); (49, (TNamed 1)); (51, (TPointer (TNamed 83))); (52, (TNamed 83)); (53, (TNamed 83)); (54, (TBasic (str "string"))); (57, (TSignature [] [(TNamed 1)] false)); (61, (TNamed 1)); (64, (TBasic (str "bool"))); (67, (TPointer (TNamed 83))); (68, (TNamed 83)); (69, (TNamed 83)); (70, (TBasic (str "string"))); (72, (TPointer (TNamed 52))); (73, (TNamed 52)); (74, (TNamed 52)); (77, (TNamed 52)); (78, (TStruct [])); (83, (TPointer (TNamed 52))); (84, (TPointer (TNamed 52))); (85, (TNamed 52)); (87, (TSignature [] [(TBasic (str "string"))] false)); (91, (TBasic (str "string"))); (94, (TBasic (str "string"))); (97, (TSignature [] [(TNamed 1)] false)); (101, (TNamed 1)); (104, (TNamed 1)); (105, (TSignature [] [(TNamed 1)] false)); (108, (TSignature [] [(TNamed 1)] false)); (112, (TNamed 1)); (117, (TBasic (str "bool"))); (119, (TPointer (TNamed 83))); (120, (TNamed 83)); (121, (TNamed 83)); (122, (TBasic (str "string"))); (124, (TBasic (str "bool"))); (126, (TPointer (TNamed 83))); (127, (TNamed 83)); (128, (TNamed 83)); (129, (TBasic (str "string"))); (131, (TBasic (str "bool"))); (133, (TPointer (TNamed 83))); (134, (TNamed 83)); (135, (TNamed 83)); (136, (TBasic (str "string"))); (138, (TBasic (str "bool"))); (140, (TPointer (TNamed 83))); (141, (TNamed 83)); (142, (TNamed 83)); (143, (TBasic (str "string"))); (145, (TBasic (str "bool"))); (147, (TPointer (TNamed 83))); (148, (TNamed 83)); (149, (TNamed 83)); (150, (TBasic (str "string"))); (153, (TPointer (TNamed 83))); (154, (TNamed 83)); (155, (TNamed 83)); (156, (TBasic (str "string"))); (159, (TSignature [(TNamed 1)] [(TNamed 1)] false)); (162, (TNamed 1)); (163, (TNamed 1)); (166, (TNamed 1)); (171, (TBasic (str "bool"))); (173, (TNamed 1)); (175, (TBasic (str "bool"))); (177, (TNamed 1)); (178, (TNamed 1)); (180, (TNamed 1)); (182, (TPointer (TNamed 83))); (183, (TNamed 83)); (184, (TNamed 83)); (185, (TBasic (str "string"))); (189, (TPointer (TNamed 83))); (190, (TPointer (TNamed 83))); (191, (TNamed 83)); (193, (TSignature [] [(TNamed 1)] false)); (197, (TNamed 1)); (202, (TBasic (str "bool"))); (204, (TPointer (TNamed 83))); (206, (TBasic (str "bool"))); (208, (TPointer (TNamed 83))); (209, (TPointer (TNamed 83))); (211, (TPointer (TNamed 83))); (213, (TPointer (TNamed 83))); (214, (TNamed 83)); (215, (TNamed 83)); (216, (TBasic (str "string"))); (219, (TPointer (TNamed 83))); (220, (TPointer (TNamed 83))); (221, (TNamed 83)); (222, (TNamed 83)); (223, (TBasic (str "string"))); (226, (TSignature [] [(TNamed 1)] false)); (230, (TNamed 1)); (235, (TBasic (str "bool"))); (237, (TPointer (TNamed 83))); (239, (TBasic (str "bool"))); (241, (TPointer (TNamed 83))); (242, (TPointer (TNamed 83))); (244, (TPointer (TNamed 83))); (246, (TPointer (TNamed 83))); (247, (TNamed 83)); (248, (TNamed 83)); (249, (TBasic (str "string"))); (252, (TSignature [] [(TSignature [] [(TNamed 1)] false)] false)); (256, (TSignature [] [(TNamed 1)] false)); (260, (TNamed 1)); (263, (TSignature [] [(TNamed 1)] false)); (264, (TSignature [] [(TNamed 1)] false)); (268, (TNamed 1)); (271, (TPointer (TNamed 83))); (272, (TNamed 83)); (273, (TNamed 83)); (274, (TBasic (str "string"))); (277, (TSignature [] [(TNamed 1)] false)); (281, (TNamed 1)); (284, (TBasic (str "bool"))); (287, (TNamed 1)); (288, (TSignature [] [(TNamed 1)] false)); (289, (TSignature [] [(TSignature [] [(TNamed 1)] false)] false)); (291, (TPointer (TNamed 83))); (292, (TNamed 83)); (293, (TNamed 83)); (294, (TBasic (str "string"))); (297, (TSignature [(TSlice (TNamed 1)); (TBasic (str "int"))] [(TNamed 1)] false)); (300, (TSlice (TNamed 1))); (301, (TSlice (TNamed 1))); (302, (TNamed 1)); (304, (TBasic (str "int"))); (305, (TBasic (str "int"))); (308, (TNamed 1)); (311, (TNamed 1)); (312, (TSlice (TNamed 1))); (313, (TBasic (str "int"))); (321, (TSignature [] [] false)); (325, (TNamed 1)); (326, (TSignature [] [(TNamed 1)] false)); (329, (TSignature [] [(TNamed 1)] false)); (333, (TNamed 1)); (336, (TNamed 1)); (337, (TSignature [] [(TNamed 1)] false)); (340, (TSignature [] [(TNamed 1)] false)); (344, (TNamed 1)); (347, (TPointer (TNamed 83))); (348, (TNamed 83)); (349, (TNamed 83)); (350, (TBasic (str "string"))); (353, (TSignature [] [(TPointer (TNamed 83))] false)); (357, (TPointer (TNamed 83))); (358, (TNamed 83)); (361, (TPointer (TNamed 83))); (362, (TNamed 83)); (363, (TNamed 83)); (364, (TBasic (str "string"))); (367, (TSignature [] [(TBasic (str "string")); (TNamed 1)] false)); (371, (TBasic (str "string"))); (373, (TNamed 1)); (376, (TBasic (str "string"))); (377, (TPointer (TNamed 83))); (378, (TNamed 83)); (379, (TNamed 83)); (380, (TBasic (str "string"))); (383, (TSignature [] [(TInterface 4); (TNamed 1)] false)); (387, (TInterface 4)); (390, (TNamed 1)); (393, (TTuple [(TBasic (str "string")); (TNamed 1)])); (394, (TSignature [] [(TBasic (str "string")); (TNamed 1)] false)); (397, (TSignature [(TBasic (str "bool"))] [(TNamed 1)] false)); (400, (TBasic (str "bool"))); (401, (TBasic (str "bool"))); (404, (TNamed 1)); (407, (TNamed 1)); (408, (TNamed 1)); (409, (TSignature [] [(TNamed 1)] false)); (410, (TSignature [] [(TNamed 1)] false)); (412, (TBasic (str "bool"))); (416, (TNamed 1)); (417, (TTuple [(TBasic (str "string")); (TNamed 1)])); (418, (TSignature [] [(TBasic (str "string")); (TNamed 1)] false)); (420, (TNamed 1)); (423, (TSignature [] [(TNamed 1)] false)); (427, (TNamed 1)); (430, (TPointer (TNamed 83))); (431, (TPointer (TNamed 83))); (432, (TNamed 83)); (433, (TNamed 83)); (435, (TBasic (str "string"))); (436, (TPointer (TNamed 83))); (437, (TBasic (str "string"))); (438, (TBasic (str "string"))); (442, (TNamed 1)); (443, (TNamed 1)); (445, (TNamed 1)); (446, (TPointer (TNamed 83))); (448, (TNamed 1)); (451, (TSignature [] [(TNamed 1)] false)); (455, (TNamed 1)); (458, (TNamed 1)); (459, (TSignature [(TBasic (str "string")); (TSlice (TInterface 4))] [(TNamed 1)] true)); (461, (TSignature [(TBasic (str "string")); (TSlice (TInterface 4))] [(TNamed 1)] true)); (462, (TBasic (str "string"))); (465, (TSignature [] [(TBasic (str "string")); (TNamed 1)] false)); (469, (TBasic (str "string"))); (470, (TBasic (str "string"))); (472, (TNamed 1)); (473, (TNamed 1)); (476, (TBasic (str "string"))); (477, (TBasic (str "string"))); (479, (TNamed 1)); (480, (TPointer (TNamed 83))); (481, (TNamed 83)); (482, (TNamed 83)); (483, (TBasic (str "string"))); (487, (TSignature [] [(TNamed 1)] false)); (491, (TNamed 1)); (492, (TNamed 1)); (495, (TNamed 1)); (496, (TPointer (TNamed 83))); (497, (TNamed 83)); (498, (TNamed 83)); (499, (TBasic (str "string"))); (504, (TBasic (str "string"))); (505, (TBasic (str "string"))); (507, (TBasic (str "string"))); (508, (TBasic (str "string"))); (511, (TBasic (str "string"))); (515, (TSignature [] [(TNamed 1)] false)); (519, (TNamed 1)); (522, (TPointer (TNamed 83))); (523, (TPointer (TNamed 83))); (524, (TNamed 83)); (525, (TNamed 83)); (526, (TBasic (str "string"))); (528, (TPointer (TNamed 83))); (529, (TPointer (TNamed 83))); (531, (TPointer (TNamed 83))); (532, (TPointer (TNamed 83))); (534, (TPointer (TNamed 83))); (535, (TPointer (TNamed 83))); (537, (TPointer (TNamed 83))); (540, (TSignature [] [(TNamed 1)] false)); (544, (TNamed 1)); (547, (TNamed 83)); (548, (TNamed 83)); (549, (TNamed 83)); (550, (TBasic (str "string"))); (552, (TBasic (str "bool"))); (555, (TPointer (TNamed 83))); (556, (TPointer (TNamed 83))); (557, (TNamed 83)); (559, (TPointer (TNamed 83))); (561, (TPointer (TNamed 83))); (562, (TNamed 83)); (565, (TNamed 76)); (566, (TInterface 5)); (569, (TSignature [(TBasic (str "string"))] [(TNamed 1)] false)); (570, (TSignature [(TBasic (str "string"))] [(TNamed 1)] false)); (573, (TBasic (str "string"))); (574, (TBasic (str "string"))); (577, (TNamed 1)); (580, (TNamed 77)); (581, (TStruct [])); (586, (TNamed 77)); (588, (TSignature [(TBasic (str "string"))] [(TNamed 1)] false)); (591, (TBasic (str "string"))); (592, (TBasic (str "string"))); (595, (TNamed 1)); (598, (TBasic (str "bool"))); (599, (TBasic (str "bool"))); (601, (TBasic (str "bool"))); (604, (TPointer (TNamed 83))); (605, (TNamed 83)); (606, (TNamed 83)); (607, (TBasic (str "string"))); (609, TUntypedNil); (612, (TNamed 79)); (613, (TStruct [])); (618, (TNamed 79)); (620, (TSignature [(TBasic (str "string"))] [(TNamed 1)] false)); (623, (TBasic (str "string"))); (624, (TBasic (str "string"))); (627, (TNamed 1)); (630, TUntypedNil); (633, (TSignature [] [] false)); (639, (TNamed 76)); (640, (TNamed 76)); (641, (TNamed 77)); (642, (TNamed 77)); (646, (TNamed 76)); (647, (TNamed 76)); (648, (TNamed 79)); (649, (TNamed 79)); (653, (TNamed 76)); (654, (TNamed 76)); (657, (TSignature [] [(TNamed 1)] false)); (661, (TNamed 1)); (666, (TNamed 1)); (667, (TNamed 1)); (668, (TPointer (TNamed 83))); (669, (TNamed 83)); (670, (TNamed 83)); (671, (TBasic (str "string"))); (673, (TNamed 1)); (676, (TNamed 83)); (677, (TStruct [((str "TheCode"), (TBasic (str "string")))])); (680, (TBasic (str "string"))); (681, (TBasic (str "string"))); (685, (TPointer (TNamed 83))); (686, (TPointer (TNamed 83))); (687, (TNamed 83)); (689, (TSignature [] [(TBasic (str "string"))] false)); (693, (TBasic (str "string"))); (696, (TBasic (str "string"))); (697, (TPointer (TNamed 83))); (698, (TBasic (str "string"))); (702, (TPointer (TNamed 83))); (703, (TPointer (TNamed 83))); (704, (TNamed 83)); (706, (TSignature [] [(TBasic (str "string"))] false)); (710, (TBasic (str "string"))); (713, (TBasic (str "string"))); (714, (TPointer (TNamed 83))); (715, (TBasic (str "string"))); (719, (TPointer (TNamed 83))); (720, (TPointer (TNamed 83))); (721, (TNamed 83)); (723, (TSignature [] [(TMap (TBasic (str "string")) (TBasic (str "string")))] false)); (727, (TMap (TBasic (str "string")) (TBasic (str "string")))); (728, (TBasic (str "string"))); (729, (TBasic (str "string"))); (732, TUntypedNil); (736, (TPointer (TNamed 83))); (737, (TPointer (TNamed 83))); (738, (TNamed 83)); (740, (TSignature [] [(TNamed 1)] false)); (744, (TNamed 1)); (747, TUntypedNil); (751, (TPointer (TNamed 83))); (752, (TPointer (TNamed 83))); (753, (TNamed 83)); (755, (TSignature [] [(TBasic (str "string"))] false)); (759, (TBasic (str "string"))); (762, (TBasic (str "string"))); (763, (TSignature [] [(TBasic (str "string"))] false)); (764, (TPointer (TNamed 83))); (765, (TSignature [] [(TBasic (str "string"))] false)); (770, (TSignature [] [(TNamed 1)] false)); (774, (TNamed 1)); (777, TUntypedNil); (780, (TSignature [] [(TNamed 1)] false)); (784, (TNamed 1)); (787, (TBasic (str "bool"))); (790, (TPointer (TNamed 83))); (791, (TNamed 83)); (792, (TNamed 83)); (793, (TBasic (str "string"))); (795, (TPointer (TNamed 83))); (796, (TNamed 83)); (797, (TNamed 83)); (798, (TBasic (str "string"))); (801, (TSignature [] [(TNamed 1)] false)); (805, (TNamed 1)); (808, (TPointer (TNamed 83))); (809, (TNamed 83)); (810, (TNamed 83)); (811, (TBasic (str "string"))); (814, (TSignature [] [(TNamed 1)] false)); (818, (TNamed 1)); (823, (TBasic (str "bool"))); (825, (TPointer (TNamed 83))); (826, (TNamed 83)); (827, (TNamed 83)); (828, (TBasic (str "string"))); (830, (TBasic (str "bool"))); (832, (TPointer (TNamed 83))); (833, (TNamed 83)); (834, (TNamed 83)); (835, (TBasic (str "string"))); (837, (TBasic (str "bool"))); (839, (TPointer (TNamed 83))); (840, (TNamed 83)); (841, (TNamed 83)); (842, (TBasic (str "string"))); (845, (TPointer (TNamed 83))); (846, (TNamed 83)); (847, (TNamed 83)); (848, (TBasic (str "string")))].
Definition t_001_values : list (N * constval) := [(15, CString (str "some-error")); (30, CString (str "hello-error")); (31, COther); (46, COther); (54, CString (str "zonk-error")); (64, COther); (70, CString (str "hello-error")); (94, CString (str "InvalidError")); (117, COther); (122, CString (str "5-invalid-error")); (124, COther); (129, CString (str "-invalid-error")); (131, COther); (136, CString (str "invalid-error-")); (138, COther); (143, CString (str "invalid-(chars)-error")); (145, COther); (150, CString (str "invalid error")); (156, CString (str "hello-error")); (171, COther); (175, COther); (185, CString (str "some-error")); (202, COther); (206, COther); (216, CString (str "some-error")); (223, CString (str "global-error")); (235, COther); (239, COther); (249, CString (str "some-error")); (274, CString (str "lambda-error")); (284, COther); (294, CString (str "some-error")); (350, CString (str "hello-error")); (364, CString (str "hello-error-literal")); (376, CString (str "something")); (380, CString (str "zonk-error")); (438, CString (str "hello-error")); (462, CString (str "not a nice structural error")); (477, CString (str "value")); (483, CString (str "named-error")); (499, CString (str "named-error")); (508, CString (str "some value")); (526, CString (str "some-error")); (550, CString (str "value-error")); (552, COther); (599, COther); (607, CString (str "io-error")); (671, CString (str "var-error")); (787, COther); (793, CString (str "hello-error")); (798, CString (str "missing-error")); (811, CString (str "missing-error")); (823, COther); (828, CString (str "missing-error-ab")); (830, COther); (835, CString (str "missing-error-a")); (837, COther); (842, CString (str "missing-error-cc")); (848, CString (str "hello-error"))].
Definition t_001_uses : list (N * tobj) := [(9, 1); (14, 83); (22, 1); (24, 6); (29, 83); (38, 1); (44, 49); (46, 22); (49, 114); (53, 83); (61, 1); (64, 22); (69, 83); (74, 52); (85, 52); (91, 5); (101, 1); (105, 55); (112, 1); (117, 21); (121, 83); (124, 21); (128, 83); (131, 21); (135, 83); (138, 21); (142, 83); (145, 21); (149, 83); (155, 83); (163, 1); (166, 1); (171, 21); (173, 102); (175, 21); (178, 102); (180, 116); (184, 83); (191, 83); (197, 1); (202, 21); (204, 94); (206, 21); (209, 94); (211, 111); (215, 83); (222, 83); (230, 1); (235, 21); (237, 58); (239, 21); (242, 58); (244, 117); (248, 83); (260, 1); (268, 1); (273, 83); (281, 1); (284, 22); (289, 60); (293, 83); (302, 1); (305, 6); (308, 1); (312, 103); (313, 104); (326, 64); (333, 1); (337, 65); (344, 1); (349, 83); (358, 83); (363, 83); (371, 5); (373, 1); (379, 83); (390, 1); (394, 67); (401, 4); (404, 1); (410, 65); (412, 105); (416, 118); (418, 67); (420, 118); (427, 1); (433, 83); (436, 119); (437, 113); (443, 1); (445, 120); (446, 119); (448, 120); (455, 1); (460, 47); (461, 40); (470, 5); (473, 1); (476, 106); (479, 107); (482, 83); (492, 1); (495, 108); (498, 83); (505, 5); (507, 121); (511, 121); (519, 1); (525, 83); (529, 122); (532, 123); (534, 122); (535, 124); (537, 122); (544, 1); (549, 83); (552, 22); (557, 125); (559, 126); (562, 125); (574, 5); (577, 1); (586, 77); (592, 5); (595, 1); (599, 22); (601, 112); (606, 83); (609, 24); (618, 79); (624, 5); (627, 1); (630, 24); (640, 76); (642, 77); (647, 76); (649, 79); (653, 127); (654, 128); (661, 1); (667, 1); (670, 83); (673, 129); (681, 5); (687, 83); (693, 5); (697, 97); (698, 113); (704, 83); (710, 5); (714, 98); (715, 113); (721, 83); (728, 5); (729, 5); (732, 24); (738, 83); (744, 1); (747, 24); (753, 83); (759, 5); (764, 101); (765, 85); (774, 1); (777, 24); (784, 1); (787, 22); (792, 83); (797, 83); (805, 1); (810, 83); (818, 1); (823, 21); (827, 83); (830, 21); (834, 83); (837, 21); (841, 83); (847, 83)].
Definition t_001_defs : list (N * tobj) := [(4, 48); (17, 49); (33, 50); (41, 114); (42, 115); (56, 51); (77, 52); (83, 93); (86, 53); (96, 54); (107, 55); (158, 56); (162, 102); (177, 116); (189, 94); (192, 57); (208, 111); (219, 58); (225, 59); (241, 117); (251, 60); (276, 61); (296, 62); (300, 103); (304, 104); (320, 63); (328, 64); (339, 65); (352, 66); (366, 67); (382, 68); (396, 69); (400, 105); (407, 118); (422, 70); (430, 119); (442, 120); (450, 71); (464, 72); (469, 106); (472, 107); (486, 73); (491, 108); (504, 121); (514, 74); (522, 122); (528, 123); (531, 124); (539, 75); (547, 125); (555, 126); (565, 76); (569, 109); (573, 110); (580, 77); (587, 78); (591, 95); (598, 112); (612, 79); (619, 80); (623, 96); (632, 81); (639, 127); (646, 128); (656, 82); (666, 129); (676, 83); (685, 97); (688, 84); (702, 98); (705, 85); (719, 99); (722, 86); (736, 100); (739, 87); (751, 101); (754, 88); (769, 89); (779, 90); (800, 91); (813, 92)].
Definition t_001_sels : list (N * (tobj * gotype)) := [(435, (113, (TPointer (TNamed 83)))); (696, (113, (TPointer (TNamed 83)))); (713, (113, (TPointer (TNamed 83)))); (763, (85, (TPointer (TNamed 83))))].
Definition t_001_pkgnames : list (N * gostring) := [(460, (str "fmt"))].
Definition t_001_objnames : list (N * gostring) := [(1, (str "error")); (2, (str "Error")); (3, (str "?")); (4, (str "bool")); (5, (str "string")); (6, (str "int")); (7, (str "int8")); (8, (str "int16")); (9, (str "int32")); (10, (str "int64")); (11, (str "uint")); (12, (str "uint8")); (13, (str "uint16")); (14, (str "uint32")); (15, (str "uint64")); (16, (str "uintptr")); (17, (str "float32")); (18, (str "float64")); (19, (str "complex64")); (20, (str "complex128")); (21, (str "true")); (22, (str "false")); (23, (str "iota")); (24, (str "nil")); (25, (str "append")); (26, (str "cap")); (27, (str "close")); (28, (str "complex")); (29, (str "copy")); (30, (str "delete")); (31, (str "imag")); (32, (str "len")); (33, (str "make")); (34, (str "new")); (35, (str "panic")); (36, (str "print")); (37, (str "println")); (38, (str "real")); (39, (str "recover")); (40, (str "Errorf")); (41, (str "Sprintf")); (42, (str "Println")); (43, (str "New")); (44, (str "HasPrefix")); (45, (str "Float32")); (46, (str "Float64")); (47, (str "fmt")); (48, (str "CodeNotDeclared")); (49, (str "ErrorNotLast")); (50, (str "CallToInvalidFunction")); (51, (str "ReturnInvalidError")); (52, (str "InvalidError")); (53, (str "Error")); (54, (str "InvalidErrorCodeFormat")); (55, (str "invalidErrorCodeFormat")); (56, (str "InvalidErrorFromParameter")); (57, (str "InvalidErrorFromReceiver")); (58, (str "globalError")); (59, (str "InvalidErrorFromGlobal")); (60, (str "getLambda")); (61, (str "InvalidErrorFromLambda")); (62, (str "SliceAccess")); (63, (str "main")); (64, (str "One")); (65, (str "Two")); (66, (str "Three")); (67, (str "Four")); (68, (str "Five")); (69, (str "Six")); (70, (str "Seven")); (71, (str "Eight")); (72, (str "Named")); (73, (str "Shadowed")); (74, (str "IdentLoop")); (75, (str "PointerOfLocal")); (76, (str "Io")); (77, (str "IoImpl")); (78, (str "FetchFromUrl")); (79, (str "IoMock")); (80, (str "FetchFromUrl")); (81, (str "ConsumingIoImplementations")); (82, (str "DefinitionWithoutAssignment")); (83, (str "Error")); (84, (str "Code")); (85, (str "Message")); (86, (str "Details")); (87, (str "Cause")); (88, (str "Error")); (89, (str "UnusedCode")); (90, (str "MissingCode")); (91, (str "MissingAndUnusedCode")); (92, (str "MultipleMismatchedCodes")); (93, (str "e")); (94, (str "e")); (95, (str "url")); (96, (str "url")); (97, (str "e")); (98, (str "e")); (99, (str "e")); (100, (str "e")); (101, (str "e")); (102, (str "p")); (103, (str "errors")); (104, (str "index")); (105, (str "flip")); (106, (str "something")); (107, (str "err")); (108, (str "err")); (109, (str "FetchFromUrl")); (110, (str "url")); (111, (str "x")); (112, (str "failed")); (113, (str "TheCode")); (114, (str "e")); (115, (str "_")); (116, (str "x")); (117, (str "x")); (118, (str "err")); (119, (str "uff")); (120, (str "err")); (121, (str "err")); (122, (str "err1")); (123, (str "err2")); (124, (str "err3")); (125, (str "err")); (126, (str "err2")); (127, (str "io1")); (128, (str "io2")); (129, (str "err"))].
Definition t_001_objtypes : list (N * gotype) := [(1, (TNamed 1)); (2, (TSignature [] [(TBasic (str "string"))] false)); (4, (TBasic (str "bool"))); (5, (TBasic (str "string"))); (6, (TBasic (str "int"))); (7, (TBasic (str "int8"))); (8, (TBasic (str "int16"))); (9, (TBasic (str "int32"))); (10, (TBasic (str "int64"))); (11, (TBasic (str "uint"))); (12, (TBasic (str "uint8"))); (13, (TBasic (str "uint16"))); (14, (TBasic (str "uint32"))); (15, (TBasic (str "uint64"))); (16, (TBasic (str "uintptr"))); (17, (TBasic (str "float32"))); (18, (TBasic (str "float64"))); (19, (TBasic (str "complex64"))); (20, (TBasic (str "complex128"))); (40, (TSignature [(TBasic (str "string")); (TSlice (TInterface 4))] [(TNamed 1)] true)); (41, (TSignature [(TBasic (str "string")); (TSlice (TInterface 4))] [(TBasic (str "string"))] true)); (42, (TSignature [(TSlice (TInterface 4))] [(TBasic (str "int")); (TNamed 1)] true)); (43, (TSignature [(TBasic (str "string"))] [(TNamed 1)] false)); (44, (TSignature [(TBasic (str "string")); (TBasic (str "string"))] [(TBasic (str "bool"))] false)); (45, (TSignature [] [(TBasic (str "float32"))] false)); (46, (TSignature [] [(TBasic (str "float64"))] false)); (48, (TSignature [] [(TNamed 1)] false)); (49, (TSignature [] [(TNamed 1); (TBasic (str "int"))] false)); (50, (TSignature [] [(TNamed 1)] false)); (51, (TSignature [] [(TNamed 1)] false)); (52, (TNamed 52)); (53, (TSignature [] [(TBasic (str "string"))] false)); (54, (TSignature [] [(TNamed 1)] false)); (55, (TSignature [] [(TNamed 1)] false)); (56, (TSignature [(TNamed 1)] [(TNamed 1)] false)); (57, (TSignature [] [(TNamed 1)] false)); (58, (TPointer (TNamed 83))); (59, (TSignature [] [(TNamed 1)] false)); (60, (TSignature [] [(TSignature [] [(TNamed 1)] false)] false)); (61, (TSignature [] [(TNamed 1)] false)); (62, (TSignature [(TSlice (TNamed 1)); (TBasic (str "int"))] [(TNamed 1)] false)); (63, (TSignature [] [] false)); (64, (TSignature [] [(TNamed 1)] false)); (65, (TSignature [] [(TNamed 1)] false)); (66, (TSignature [] [(TPointer (TNamed 83))] false)); (67, (TSignature [] [(TBasic (str "string")); (TNamed 1)] false)); (68, (TSignature [] [(TInterface 4); (TNamed 1)] false)); (69, (TSignature [(TBasic (str "bool"))] [(TNamed 1)] false)); (70, (TSignature [] [(TNamed 1)] false)); (71, (TSignature [] [(TNamed 1)] false)); (72, (TSignature [] [(TBasic (str "string")); (TNamed 1)] false)); (73, (TSignature [] [(TNamed 1)] false)); (74, (TSignature [] [(TNamed 1)] false)); (75, (TSignature [] [(TNamed 1)] false)); (76, (TNamed 76)); (77, (TNamed 77)); (78, (TSignature [(TBasic (str "string"))] [(TNamed 1)] false)); (79, (TNamed 79)); (80, (TSignature [(TBasic (str "string"))] [(TNamed 1)] false)); (81, (TSignature [] [] false)); (82, (TSignature [] [(TNamed 1)] false)); (83, (TNamed 83)); (84, (TSignature [] [(TBasic (str "string"))] false)); (85, (TSignature [] [(TBasic (str "string"))] false)); (86, (TSignature [] [(TMap (TBasic (str "string")) (TBasic (str "string")))] false)); (87, (TSignature [] [(TNamed 1)] false)); (88, (TSignature [] [(TBasic (str "string"))] false)); (89, (TSignature [] [(TNamed 1)] false)); (90, (TSignature [] [(TNamed 1)] false)); (91, (TSignature [] [(TNamed 1)] false)); (92, (TSignature [] [(TNamed 1)] false)); (93, (TPointer (TNamed 52))); (94, (TPointer (TNamed 83))); (95, (TBasic (str "string"))); (96, (TBasic (str "string"))); (97, (TPointer (TNamed 83))); (98, (TPointer (TNamed 83))); (99, (TPointer (TNamed 83))); (100, (TPointer (TNamed 83))); (101, (TPointer (TNamed 83))); (102, (TNamed 1)); (103, (TSlice (TNamed 1))); (104, (TBasic (str "int"))); (105, (TBasic (str "bool"))); (106, (TBasic (str "string"))); (107, (TNamed 1)); (108, (TNamed 1)); (109, (TSignature [(TBasic (str "string"))] [(TNamed 1)] false)); (110, (TBasic (str "string"))); (111, (TPointer (TNamed 83))); (112, (TBasic (str "bool"))); (113, (TBasic (str "string"))); (114, (TNamed 1)); (115, (TBasic (str "int"))); (116, (TNamed 1)); (117, (TPointer (TNamed 83))); (118, (TNamed 1)); (119, (TPointer (TNamed 83))); (120, (TNamed 1)); (121, (TBasic (str "string"))); (122, (TPointer (TNamed 83))); (123, (TPointer (TNamed 83))); (124, (TPointer (TNamed 83))); (125, (TNamed 83)); (126, (TPointer (TNamed 83))); (127, (TNamed 76)); (128, (TNamed 76)); (129, (TNamed 1))].
Definition t_001_under : list (N * gotype) := [(1, (TInterface 1)); (52, (TStruct [])); (76, (TInterface 5)); (77, (TStruct [])); (79, (TStruct [])); (83, (TStruct [((str "TheCode"), (TBasic (str "string")))]))].
Definition t_001_named_methods : list (N * (list gostring)) := [(52, [(str "Error")]); (77, [(str "FetchFromUrl")]); (79, [(str "FetchFromUrl")]); (83, [(str "InvalidErrorFromReceiver"); (str "Code"); (str "Message"); (str "Details"); (str "Cause"); (str "Error")])].
Definition t_001_methods : list (gotype * gostring * tobj) := [((TInterface 1), (str "Error"), 2); ((TInterface 5), (str "FetchFromUrl"), 109); ((TNamed 1), (str "Error"), 2); ((TNamed 76), (str "FetchFromUrl"), 109); ((TNamed 77), (str "FetchFromUrl"), 78); ((TNamed 79), (str "FetchFromUrl"), 80); ((TPointer (TNamed 52)), (str "Error"), 53); ((TPointer (TNamed 77)), (str "FetchFromUrl"), 78); ((TPointer (TNamed 79)), (str "FetchFromUrl"), 80); ((TPointer (TNamed 83)), (str "Cause"), 87); ((TPointer (TNamed 83)), (str "Code"), 84); ((TPointer (TNamed 83)), (str "Details"), 86); ((TPointer (TNamed 83)), (str "Error"), 88); ((TPointer (TNamed 83)), (str "InvalidErrorFromReceiver"), 57); ((TPointer (TNamed 83)), (str "Message"), 85)].
Definition t_001_ierr : list gotype := [(TInterface 1); (TNamed 1); (TPointer (TNamed 52)); (TPointer (TNamed 83))].
Definition t_001_iree : list gotype := [(TPointer (TNamed 83))].
Definition t_001_icause : list gotype := [(TPointer (TNamed 83))].
Definition t_001_impl : list (gotype * gotype) := [((TInterface 1), (TInterface 1)); ((TInterface 5), (TInterface 5)); ((TNamed 1), (TInterface 1)); ((TNamed 76), (TInterface 5)); ((TNamed 77), (TInterface 5)); ((TNamed 79), (TInterface 5)); ((TPointer (TNamed 52)), (TInterface 1)); ((TPointer (TNamed 77)), (TInterface 5)); ((TPointer (TNamed 79)), (TInterface 5)); ((TPointer (TNamed 83)), (TInterface 1))].
Definition t_001_nodes0 : list snode := [SNode 1 (Place 0 1) (Place 3860 129) true; SNode 2 (Place 8 1) (Place 12 1) false; SNode 3 (Place 14 3) (Place 162 5) true; SNode 4 (Place 19 3) (Place 34 3) false; SNode 5 (Place 14 3) (Place 42 3) false; SNode 6 (Place 34 3) (Place 36 3) false; SNode 7 (Place 37 3) (Place 42 3) false; SNode 8 (Place 37 3) (Place 42 3) true; SNode 9 (Place 37 3) (Place 42 3) false; SNode 10 (Place 43 3) (Place 162 5) true; SNode 11 (Place 133 4) (Place 160 4) true; SNode 12 (Place 140 4) (Place 160 4) false; SNode 13 (Place 141 4) (Place 160 4) false; SNode 14 (Place 141 4) (Place 146 4) false; SNode 15 (Place 147 4) (Place 159 4) false; SNode 16 (Place 164 7) (Place 289 9) true; SNode 17 (Place 169 7) (Place 181 7) false; SNode 18 (Place 164 7) (Place 196 7) false; SNode 19 (Place 181 7) (Place 183 7) false; SNode 20 (Place 184 7) (Place 196 7) false; SNode 21 (Place 185 7) (Place 190 7) true; SNode 22 (Place 185 7) (Place 190 7) false; SNode 23 (Place 192 7) (Place 195 7) true; SNode 24 (Place 192 7) (Place 195 7) false; SNode 25 (Place 197 7) (Place 289 9) true; SNode 26 (Place 256 8) (Place 287 8) true; SNode 27 (Place 263 8) (Place 284 8) false; SNode 28 (Place 264 8) (Place 284 8) false; SNode 29 (Place 264 8) (Place 269 8) false; SNode 30 (Place 270 8) (Place 283 8) false; SNode 31 (Place 286 8) (Place 287 8) false; SNode 32 (Place 439 16) (Place 712 22) true; SNode 33 (Place 444 16) (Place 465 16) false; SNode 34 (Place 439 16) (Place 473 16) false; SNode 35 (Place 465 16) (Place 467 16) false; SNode 36 (Place 468 16) (Place 473 16) false; SNode 37 (Place 468 16) (Place 473 16) true; SNode 38 (Place 468 16) (Place 473 16) false; SNode 39 (Place 474 16) (Place 712 22) true; SNode 40 (Place 532 17) (Place 554 17) true; SNode 41 (Place 532 17) (Place 533 17) false; SNode 42 (Place 535 17) (Place 536 17) false; SNode 43 (Place 540 17) (Place 554 17) false; SNode 44 (Place 540 17) (Place 552 17) false; SNode 45 (Place 657 18) (Place 681 20) true; SNode 46 (Place 660 18) (Place 665 18) false; SNode 47 (Place 666 18) (Place 681 20) true; SNode 48 (Place 670 19) (Place 678 19) true; SNode 49 (Place 677 19) (Place 678 19) false; SNode 50 (Place 683 21) (Place 710 21) true; SNode 51 (Place 690 21) (Place 710 21) false; SNode 52 (Place 691 21) (Place 710 21) false; SNode 53 (Place 691 21) (Place 696 21) false; SNode 54 (Place 697 21) (Place 709 21) false; SNode 55 (Place 866 29) (Place 1075 34) true; SNode 56 (Place 871 29) (Place 889 29) false; SNode 57 (Place 866 29) (Place 897 29) false; SNode 58 (Place 889 29) (Place 891 29) false; SNode 59 (Place 892 29) (Place 897 29) false; SNode 60 (Place 892 29) (Place 897 29) true; SNode 61 (Place 892 29) (Place 897 29) false; SNode 62 (Place 898 29) (Place 1075 34) true; SNode 63 (Place 954 30) (Place 998 32) true; SNode 64 (Place 957 30) (Place 962 30) false; SNode 65 (Place 963 30) (Place 998 32) true; SNode 66 (Place 967 31) (Place 995 31) true; SNode 67 (Place 974 31) (Place 995 31) false; SNode 68 (Place 975 31) (Place 995 31) false; SNode 69 (Place 975 31) (Place 980 31) false; SNode 70 (Place 981 31) (Place 994 31) false; SNode 71 (Place 1000 33) (Place 1022 33) true; SNode 72 (Place 1007 33) (Place 1022 33) false; SNode 73 (Place 1008 33) (Place 1022 33) false; SNode 74 (Place 1008 33) (Place 1020 33) false; SNode 75 (Place 1077 36) (Place 1103 36) true; SNode 76 (Place 1082 36) (Place 1103 36) true; SNode 77 (Place 1082 36) (Place 1094 36) false; SNode 78 (Place 1095 36) (Place 1103 36) false; SNode 79 (Place 1101 36) (Place 1103 36) false; SNode 80 (Place 1105 38) (Place 1168 38) true; SNode 81 (Place 1110 38) (Place 1127 38) false; SNode 82 (Place 1111 38) (Place 1126 38) true; SNode 83 (Place 1111 38) (Place 1112 38) false; SNode 84 (Place 1113 38) (Place 1126 38) false; SNode 85 (Place 1114 38) (Place 1126 38) false; SNode 86 (Place 1128 38) (Place 1133 38) false; SNode 87 (Place 1105 38) (Place 1142 38) false; SNode 88 (Place 1133 38) (Place 1135 38) false; SNode 89 (Place 1136 38) (Place 1142 38) false; SNode 90 (Place 1136 38) (Place 1142 38) true; SNode 91 (Place 1136 38) (Place 1142 38) false; SNode 92 (Place 1143 38) (Place 1168 38) true; SNode 93 (Place 1145 38) (Place 1166 38) true; SNode 94 (Place 1152 38) (Place 1166 38) false; SNode 95 (Place 1296 45) (Place 1425 47) true; SNode 96 (Place 1301 45) (Place 1323 45) false; SNode 97 (Place 1296 45) (Place 1331 45) false; SNode 98 (Place 1323 45) (Place 1325 45) false; SNode 99 (Place 1326 45) (Place 1331 45) false; SNode 100 (Place 1326 45) (Place 1331 45) true; SNode 101 (Place 1326 45) (Place 1331 45) false; SNode 102 (Place 1332 45) (Place 1425 47) true; SNode 103 (Place 1392 46) (Place 1423 46) true; SNode 104 (Place 1399 46) (Place 1423 46) false; SNode 105 (Place 1399 46) (Place 1421 46) false; SNode 106 (Place 1427 49) (Place 2051 64) true; SNode 107 (Place 1432 49) (Place 1454 49) false; SNode 108 (Place 1427 49) (Place 1462 49) false; SNode 109 (Place 1454 49) (Place 1456 49) false; SNode 110 (Place 1457 49) (Place 1462 49) false; SNode 111 (Place 1457 49) (Place 1462 49) true; SNode 112 (Place 1457 49) (Place 1462 49) false; SNode 113 (Place 1463 49) (Place 2051 64) true; SNode 114 (Place 1466 50) (Place 2049 63) true; SNode 115 (Place 1473 50) (Place 2049 63) true; SNode 116 (Place 1476 51) (Place 1521 52) true; SNode 117 (Place 1481 51) (Place 1485 51) false; SNode 118 (Place 1489 52) (Place 1521 52) true; SNode 119 (Place 1496 52) (Place 1521 52) false; SNode 120 (Place 1497 52) (Place 1521 52) false; SNode 121 (Place 1497 52) (Place 1502 52) false; SNode 122 (Place 1503 52) (Place 1520 52) false; SNode 123 (Place 1580 53) (Place 1624 54) true; SNode 124 (Place 1585 53) (Place 1589 53) false; SNode 125 (Place 1593 54) (Place 1624 54) true; SNode 126 (Place 1600 54) (Place 1624 54) false; SNode 127 (Place 1601 54) (Place 1624 54) false; SNode 128 (Place 1601 54) (Place 1606 54) false; SNode 129 (Place 1607 54) (Place 1623 54) false; SNode 130 (Place 1683 55) (Place 1727 56) true; SNode 131 (Place 1688 55) (Place 1692 55) false; SNode 132 (Place 1696 56) (Place 1727 56) true; SNode 133 (Place 1703 56) (Place 1727 56) false; SNode 134 (Place 1704 56) (Place 1727 56) false; SNode 135 (Place 1704 56) (Place 1709 56) false; SNode 136 (Place 1710 56) (Place 1726 56) false; SNode 137 (Place 1786 57) (Place 1837 58) true; SNode 138 (Place 1791 57) (Place 1795 57) false; SNode 139 (Place 1799 58) (Place 1837 58) true; SNode 140 (Place 1806 58) (Place 1837 58) false; SNode 141 (Place 1807 58) (Place 1837 58) false; SNode 142 (Place 1807 58) (Place 1812 58) false; SNode 143 (Place 1813 58) (Place 1836 58) false; SNode 144 (Place 1896 59) (Place 1939 60) true; SNode 145 (Place 1901 59) (Place 1905 59) false; SNode 146 (Place 1909 60) (Place 1939 60) true; SNode 147 (Place 1916 60) (Place 1939 60) false; SNode 148 (Place 1917 60) (Place 1939 60) false; SNode 149 (Place 1917 60) (Place 1922 60) false; SNode 150 (Place 1923 60) (Place 1938 60) false; SNode 151 (Place 1998 61) (Place 2037 62) true; SNode 152 (Place 2009 62) (Place 2037 62) true; SNode 153 (Place 2016 62) (Place 2037 62) false; SNode 154 (Place 2017 62) (Place 2037 62) false; SNode 155 (Place 2017 62) (Place 2022 62) false; SNode 156 (Place 2023 62) (Place 2036 62) false; SNode 157 (Place 2089 69) (Place 2448 78) true; SNode 158 (Place 2094 69) (Place 2119 69) false; SNode 159 (Place 2089 69) (Place 2134 69) false; SNode 160 (Place 2119 69) (Place 2128 69) false; SNode 161 (Place 2120 69) (Place 2127 69) true; SNode 162 (Place 2120 69) (Place 2121 69) false; SNode 163 (Place 2122 69) (Place 2127 69) false; SNode 164 (Place 2129 69) (Place 2134 69) false; SNode 165 (Place 2129 69) (Place 2134 69) true; SNode 166 (Place 2129 69) (Place 2134 69) false; SNode 167 (Place 2135 69) (Place 2448 78) true; SNode 168 (Place 2197 70) (Place 2417 76) true; SNode 169 (Place 2204 70) (Place 2417 76) true; SNode 170 (Place 2207 71) (Place 2228 72) true; SNode 171 (Place 2212 71) (Place 2216 71) false; SNode 172 (Place 2220 72) (Place 2228 72) true; SNode 173 (Place 2227 72) (Place 2228 72) false; SNode 174 (Place 2307 73) (Place 2414 75) true; SNode 175 (Place 2312 73) (Place 2316 73) false; SNode 176 (Place 2320 74) (Place 2326 74) true; SNode 177 (Place 2320 74) (Place 2321 74) false; SNode 178 (Place 2325 74) (Place 2326 74) false; SNode 179 (Place 2406 75) (Place 2414 75) true; SNode 180 (Place 2413 75) (Place 2414 75) false; SNode 181 (Place 2419 77) (Place 2446 77) true; SNode 182 (Place 2426 77) (Place 2446 77) false; SNode 183 (Place 2427 77) (Place 2446 77) false; SNode 184 (Place 2427 77) (Place 2432 77) false; SNode 185 (Place 2433 77) (Place 2445 77) false; SNode 186 (Place 2486 83) (Place 2847 92) true; SNode 187 (Place 2491 83) (Place 2501 83) false; SNode 188 (Place 2492 83) (Place 2500 83) true; SNode 189 (Place 2492 83) (Place 2493 83) false; SNode 190 (Place 2494 83) (Place 2500 83) false; SNode 191 (Place 2495 83) (Place 2500 83) false; SNode 192 (Place 2502 83) (Place 2526 83) false; SNode 193 (Place 2486 83) (Place 2534 83) false; SNode 194 (Place 2526 83) (Place 2528 83) false; SNode 195 (Place 2529 83) (Place 2534 83) false; SNode 196 (Place 2529 83) (Place 2534 83) true; SNode 197 (Place 2529 83) (Place 2534 83) false; SNode 198 (Place 2535 83) (Place 2847 92) true; SNode 199 (Place 2596 84) (Place 2816 90) true; SNode 200 (Place 2603 84) (Place 2816 90) true; SNode 201 (Place 2606 85) (Place 2627 86) true; SNode 202 (Place 2611 85) (Place 2615 85) false; SNode 203 (Place 2619 86) (Place 2627 86) true; SNode 204 (Place 2626 86) (Place 2627 86) false; SNode 205 (Place 2706 87) (Place 2813 89) true; SNode 206 (Place 2711 87) (Place 2715 87) false; SNode 207 (Place 2719 88) (Place 2725 88) true; SNode 208 (Place 2719 88) (Place 2720 88) false; SNode 209 (Place 2724 88) (Place 2725 88) false; SNode 210 (Place 2805 89) (Place 2813 89) true; SNode 211 (Place 2812 89) (Place 2813 89) false; SNode 212 (Place 2818 91) (Place 2845 91) true; SNode 213 (Place 2825 91) (Place 2845 91) false; SNode 214 (Place 2826 91) (Place 2845 91) false; SNode 215 (Place 2826 91) (Place 2831 91) false; SNode 216 (Place 2832 91) (Place 2844 91) false; SNode 217 (Place 2849 94) (Place 2889 94) true; SNode 218 (Place 2853 94) (Place 2889 94) true; SNode 219 (Place 2853 94) (Place 2864 94) false; SNode 220 (Place 2867 94) (Place 2889 94) false; SNode 221 (Place 2868 94) (Place 2889 94) false; SNode 222 (Place 2868 94) (Place 2873 94) false; SNode 223 (Place 2874 94) (Place 2888 94) false; SNode 224 (Place 2927 99) (Place 3293 108) true; SNode 225 (Place 2932 99) (Place 2954 99) false; SNode 226 (Place 2927 99) (Place 2962 99) false; SNode 227 (Place 2954 99) (Place 2956 99) false; SNode 228 (Place 2957 99) (Place 2962 99) false; SNode 229 (Place 2957 99) (Place 2962 99) true; SNode 230 (Place 2957 99) (Place 2962 99) false; SNode 231 (Place 2963 99) (Place 3293 108) true; SNode 232 (Place 3022 100) (Place 3262 106) true; SNode 233 (Place 3029 100) (Place 3262 106) true; SNode 234 (Place 3032 101) (Place 3063 102) true; SNode 235 (Place 3037 101) (Place 3041 101) false; SNode 236 (Place 3045 102) (Place 3063 102) true; SNode 237 (Place 3052 102) (Place 3063 102) false; SNode 238 (Place 3142 103) (Place 3259 105) true; SNode 239 (Place 3147 103) (Place 3151 103) false; SNode 240 (Place 3155 104) (Place 3171 104) true; SNode 241 (Place 3155 104) (Place 3156 104) false; SNode 242 (Place 3160 104) (Place 3171 104) false; SNode 243 (Place 3251 105) (Place 3259 105) true; SNode 244 (Place 3258 105) (Place 3259 105) false; SNode 245 (Place 3264 107) (Place 3291 107) true; SNode 246 (Place 3271 107) (Place 3291 107) false; SNode 247 (Place 3272 107) (Place 3291 107) false; SNode 248 (Place 3272 107) (Place 3277 107) false; SNode 249 (Place 3278 107) (Place 3290 107) false; SNode 250 (Place 3295 110) (Place 3386 114) true; SNode 251 (Place 3300 110) (Place 3309 110) false; SNode 252 (Place 3295 110) (Place 3324 110) false; SNode 253 (Place 3309 110) (Place 3311 110) false; SNode 254 (Place 3312 110) (Place 3324 110) false; SNode 255 (Place 3312 110) (Place 3324 110) true; SNode 256 (Place 3312 110) (Place 3324 110) false; SNode 257 (Place 3316 110) (Place 3318 110) false; SNode 258 (Place 3319 110) (Place 3324 110) false; SNode 259 (Place 3319 110) (Place 3324 110) true; SNode 260 (Place 3319 110) (Place 3324 110) false; SNode 261 (Place 3325 110) (Place 3386 114) true; SNode 262 (Place 3328 111) (Place 3384 113) true; SNode 263 (Place 3335 111) (Place 3384 113) false; SNode 264 (Place 3335 111) (Place 3347 111) false; SNode 265 (Place 3339 111) (Place 3341 111) false; SNode 266 (Place 3342 111) (Place 3347 111) false; SNode 267 (Place 3342 111) (Place 3347 111) true; SNode 268 (Place 3342 111) (Place 3347 111) false; SNode 269 (Place 3348 111) (Place 3384 113) true; SNode 270 (Place 3352 112) (Place 3381 112) true; SNode 271 (Place 3359 112) (Place 3381 112) false; SNode 272 (Place 3360 112) (Place 3381 112) false; SNode 273 (Place 3360 112) (Place 3365 112) false; SNode 274 (Place 3366 112) (Place 3380 112) false; SNode 275 (Place 3424 119) (Place 3672 124) true; SNode 276 (Place 3429 119) (Place 3451 119) false; SNode 277 (Place 3424 119) (Place 3459 119) false; SNode 278 (Place 3451 119) (Place 3453 119) false; SNode 279 (Place 3454 119) (Place 3459 119) false; SNode 280 (Place 3454 119) (Place 3459 119) true; SNode 281 (Place 3454 119) (Place 3459 119) false; SNode 282 (Place 3460 119) (Place 3672 124) true; SNode 283 (Place 3519 120) (Place 3641 122) true; SNode 284 (Place 3522 120) (Place 3527 120) false; SNode 285 (Place 3528 120) (Place 3641 122) true; SNode 286 (Place 3532 121) (Place 3552 121) true; SNode 287 (Place 3539 121) (Place 3552 121) false; SNode 288 (Place 3539 121) (Place 3550 121) false; SNode 289 (Place 3539 121) (Place 3548 121) false; SNode 290 (Place 3643 123) (Place 3670 123) true; SNode 291 (Place 3650 123) (Place 3670 123) false; SNode 292 (Place 3651 123) (Place 3670 123) false; SNode 293 (Place 3651 123) (Place 3656 123) false; SNode 294 (Place 3657 123) (Place 3669 123) false; SNode 295 (Place 3690 127) (Place 3860 129) true; SNode 296 (Place 3695 127) (Place 3706 127) false; SNode 297 (Place 3690 127) (Place 3739 127) false; SNode 298 (Place 3706 127) (Place 3733 127) false; SNode 299 (Place 3707 127) (Place 3721 127) true; SNode 300 (Place 3707 127) (Place 3713 127) false; SNode 301 (Place 3714 127) (Place 3721 127) false; SNode 302 (Place 3716 127) (Place 3721 127) false; SNode 303 (Place 3723 127) (Place 3732 127) true; SNode 304 (Place 3723 127) (Place 3728 127) false; SNode 305 (Place 3729 127) (Place 3732 127) false; SNode 306 (Place 3734 127) (Place 3739 127) false; SNode 307 (Place 3734 127) (Place 3739 127) true; SNode 308 (Place 3734 127) (Place 3739 127) false; SNode 309 (Place 3740 127) (Place 3860 129) true; SNode 310 (Place 3777 128) (Place 3797 128) true; SNode 311 (Place 3784 128) (Place 3797 128) false; SNode 312 (Place 3784 128) (Place 3790 128) false; SNode 313 (Place 3791 128) (Place 3796 128) false].
Definition t_001_cgroups0 : list cgroup := [CGroup (Place 45 3) (Place 131 3) [(str "// want `function ""CodeNotDeclared"" is exported, but does not declare any error codes`")]; CGroup (Place 199 7) (Place 254 7) [(str "// want ""error should be returned as the last argument""")]; CGroup (Place 291 11) (Place 438 15) [(str "// CallToInvalidFunction calls a function which has an error as non-last return argument."); (str "//"); (str "// Errors:"); (str "//"); (str "//    - zonk-error -- is always returned")]; CGroup (Place 476 16) (Place 530 16) [(str "// want CallToInvalidFunction:""ErrorCodes: zonk-error""")]; CGroup (Place 555 17) (Place 655 17) [(str "// want ""unsupported: tracking error codes for function call with error as non-last return argument""")]; CGroup (Place 714 24) (Place 865 28) [(str "// ReturnInvalidError returns an error that does not define a Code() method."); (str "//"); (str "// Errors:"); (str "//"); (str "//    - hello-error -- might be returned by this function")]; CGroup (Place 900 29) (Place 952 29) [(str "// want ReturnInvalidError:""ErrorCodes: hello-error""")]; CGroup (Place 1023 33) (Place 1073 33) [(str "// want ""expression does not define an error code""")]; CGroup (Place 1170 40) (Place 1295 44) [(str "// InvalidErrorCodeFormat returns an error with invalid error code."); (str "//"); (str "// Errors:"); (str "//"); (str "//    - hello-error -- might be returned")]; CGroup (Place 1334 45) (Place 1390 45) [(str "// want InvalidErrorCodeFormat:""ErrorCodes: hello-error""")]; CGroup (Place 1522 52) (Place 1578 52) [(str "// want ""error code has invalid format: should match .*""")]; CGroup (Place 1625 54) (Place 1681 54) [(str "// want ""error code has invalid format: should match .*""")]; CGroup (Place 1728 56) (Place 1784 56) [(str "// want ""error code has invalid format: should match .*""")]; CGroup (Place 1838 58) (Place 1894 58) [(str "// want ""error code has invalid format: should match .*""")]; CGroup (Place 1940 60) (Place 1996 60) [(str "// want ""error code has invalid format: should match .*""")]; CGroup (Place 2038 62) (Place 2046 62) [(str "// valid")]; CGroup (Place 2053 66) (Place 2088 68) [(str "// Errors:"); (str "//"); (str "//    - some-error --")]; CGroup (Place 2137 69) (Place 2195 69) [(str "// want InvalidErrorFromParameter:""ErrorCodes: some-error""")]; CGroup (Place 2229 72) (Place 2305 72) [(str "// want ""returned error may not be a parameter, receiver or global variable""")]; CGroup (Place 2327 74) (Place 2403 74) [(str "// want ""returned error may not be a parameter, receiver or global variable""")]; CGroup (Place 2450 80) (Place 2485 82) [(str "// Errors:"); (str "//"); (str "//    - some-error --")]; CGroup (Place 2537 83) (Place 2594 83) [(str "// want InvalidErrorFromReceiver:""ErrorCodes: some-error""")]; CGroup (Place 2628 86) (Place 2704 86) [(str "// want ""returned error may not be a parameter, receiver or global variable""")]; CGroup (Place 2726 88) (Place 2802 88) [(str "// want ""returned error may not be a parameter, receiver or global variable""")]; CGroup (Place 2891 96) (Place 2926 98) [(str "// Errors:"); (str "//"); (str "//    - some-error --")]; CGroup (Place 2965 99) (Place 3020 99) [(str "// want InvalidErrorFromGlobal:""ErrorCodes: some-error""")]; CGroup (Place 3064 102) (Place 3140 102) [(str "// want ""returned error may not be a parameter, receiver or global variable""")]; CGroup (Place 3172 104) (Place 3248 104) [(str "// want ""returned error may not be a parameter, receiver or global variable""")]; CGroup (Place 3388 116) (Place 3423 118) [(str "// Errors:"); (str "//"); (str "//    - some-error --")]; CGroup (Place 3462 119) (Place 3517 119) [(str "// want InvalidErrorFromLambda:""ErrorCodes: some-error""")]; CGroup (Place 3553 121) (Place 3638 121) [(str "// want ""invalid error source: definition of the unnamed function could not be found""")]; CGroup (Place 3674 126) (Place 3689 126) [(str "// Errors: none")]; CGroup (Place 3742 127) (Place 3775 127) [(str "// want SliceAccess:""ErrorCodes:""")]; CGroup (Place 3798 128) (Place 3858 128) [(str "// want ""expression is not supported in error code analysis""")]].
Definition t_001_nodes1 : list snode := [SNode 314 (Place 0 1) (Place 4907 200) true; SNode 315 (Place 8 1) (Place 12 1) false; SNode 316 (Place 14 3) (Place 31 5) true; SNode 317 (Place 24 4) (Place 29 4) true; SNode 318 (Place 24 4) (Place 29 4) false; SNode 319 (Place 33 7) (Place 55 9) true; SNode 320 (Place 38 7) (Place 42 7) false; SNode 321 (Place 33 7) (Place 44 7) false; SNode 322 (Place 42 7) (Place 44 7) false; SNode 323 (Place 45 7) (Place 55 9) true; SNode 324 (Place 48 8) (Place 53 8) true; SNode 325 (Place 48 8) (Place 53 8) false; SNode 326 (Place 48 8) (Place 51 8) false; SNode 327 (Place 185 19) (Place 257 21) true; SNode 328 (Place 190 19) (Place 193 19) false; SNode 329 (Place 185 19) (Place 201 19) false; SNode 330 (Place 193 19) (Place 195 19) false; SNode 331 (Place 196 19) (Place 201 19) false; SNode 332 (Place 196 19) (Place 201 19) true; SNode 333 (Place 196 19) (Place 201 19) false; SNode 334 (Place 202 19) (Place 257 21) true; SNode 335 (Place 243 20) (Place 255 20) true; SNode 336 (Place 250 20) (Place 255 20) false; SNode 337 (Place 250 20) (Place 253 20) false; SNode 338 (Place 394 29) (Place 482 31) true; SNode 339 (Place 399 29) (Place 402 29) false; SNode 340 (Place 394 29) (Place 410 29) false; SNode 341 (Place 402 29) (Place 404 29) false; SNode 342 (Place 405 29) (Place 410 29) false; SNode 343 (Place 405 29) (Place 410 29) true; SNode 344 (Place 405 29) (Place 410 29) false; SNode 345 (Place 411 29) (Place 482 31) true; SNode 346 (Place 452 30) (Place 480 30) true; SNode 347 (Place 459 30) (Place 480 30) false; SNode 348 (Place 460 30) (Place 480 30) false; SNode 349 (Place 460 30) (Place 465 30) false; SNode 350 (Place 466 30) (Place 479 30) false; SNode 351 (Place 484 33) (Place 622 35) true; SNode 352 (Place 489 33) (Place 494 33) false; SNode 353 (Place 484 33) (Place 503 33) false; SNode 354 (Place 494 33) (Place 496 33) false; SNode 355 (Place 497 33) (Place 503 33) false; SNode 356 (Place 497 33) (Place 503 33) true; SNode 357 (Place 497 33) (Place 503 33) false; SNode 358 (Place 498 33) (Place 503 33) false; SNode 359 (Place 504 33) (Place 622 35) true; SNode 360 (Place 584 34) (Place 620 34) true; SNode 361 (Place 591 34) (Place 620 34) false; SNode 362 (Place 592 34) (Place 620 34) false; SNode 363 (Place 592 34) (Place 597 34) false; SNode 364 (Place 598 34) (Place 619 34) false; SNode 365 (Place 733 42) (Place 844 44) true; SNode 366 (Place 738 42) (Place 742 42) false; SNode 367 (Place 733 42) (Place 760 42) false; SNode 368 (Place 742 42) (Place 744 42) false; SNode 369 (Place 745 42) (Place 760 42) false; SNode 370 (Place 746 42) (Place 752 42) true; SNode 371 (Place 746 42) (Place 752 42) false; SNode 372 (Place 754 42) (Place 759 42) true; SNode 373 (Place 754 42) (Place 759 42) false; SNode 374 (Place 761 42) (Place 844 44) true; SNode 375 (Place 802 43) (Place 842 43) true; SNode 376 (Place 809 43) (Place 820 43) false; SNode 377 (Place 822 43) (Place 842 43) false; SNode 378 (Place 823 43) (Place 842 43) false; SNode 379 (Place 823 43) (Place 828 43) false; SNode 380 (Place 829 43) (Place 841 43) false; SNode 381 (Place 1047 53) (Place 1136 55) true; SNode 382 (Place 1052 53) (Place 1056 53) false; SNode 383 (Place 1047 53) (Place 1079 53) false; SNode 384 (Place 1056 53) (Place 1058 53) false; SNode 385 (Place 1059 53) (Place 1079 53) false; SNode 386 (Place 1060 53) (Place 1071 53) true; SNode 387 (Place 1060 53) (Place 1071 53) false; SNode 388 (Place 1069 53) (Place 1071 53) false; SNode 389 (Place 1073 53) (Place 1078 53) true; SNode 390 (Place 1073 53) (Place 1078 53) false; SNode 391 (Place 1080 53) (Place 1136 55) true; SNode 392 (Place 1121 54) (Place 1134 54) true; SNode 393 (Place 1128 54) (Place 1134 54) false; SNode 394 (Place 1128 54) (Place 1132 54) false; SNode 395 (Place 1393 65) (Place 1531 71) true; SNode 396 (Place 1398 65) (Place 1401 65) false; SNode 397 (Place 1393 65) (Place 1418 65) false; SNode 398 (Place 1401 65) (Place 1412 65) false; SNode 399 (Place 1402 65) (Place 1411 65) true; SNode 400 (Place 1402 65) (Place 1406 65) false; SNode 401 (Place 1407 65) (Place 1411 65) false; SNode 402 (Place 1413 65) (Place 1418 65) false; SNode 403 (Place 1413 65) (Place 1418 65) true; SNode 404 (Place 1413 65) (Place 1418 65) false; SNode 405 (Place 1419 65) (Place 1531 71) true; SNode 406 (Place 1471 66) (Place 1485 66) true; SNode 407 (Place 1471 66) (Place 1474 66) false; SNode 408 (Place 1478 66) (Place 1485 66) false; SNode 409 (Place 1478 66) (Place 1483 66) false; SNode 410 (Place 1479 66) (Place 1482 66) false; SNode 411 (Place 1487 67) (Place 1517 69) true; SNode 412 (Place 1490 67) (Place 1494 67) false; SNode 413 (Place 1495 67) (Place 1517 69) true; SNode 414 (Place 1499 68) (Place 1514 68) true; SNode 415 (Place 1499 68) (Place 1500 68) false; SNode 416 (Place 1502 68) (Place 1505 68) false; SNode 417 (Place 1508 68) (Place 1514 68) false; SNode 418 (Place 1508 68) (Place 1512 68) false; SNode 419 (Place 1519 70) (Place 1529 70) true; SNode 420 (Place 1526 70) (Place 1529 70) false; SNode 421 (Place 1632 78) (Place 1842 84) true; SNode 422 (Place 1637 78) (Place 1642 78) false; SNode 423 (Place 1632 78) (Place 1650 78) false; SNode 424 (Place 1642 78) (Place 1644 78) false; SNode 425 (Place 1645 78) (Place 1650 78) false; SNode 426 (Place 1645 78) (Place 1650 78) true; SNode 427 (Place 1645 78) (Place 1650 78) false; SNode 428 (Place 1651 78) (Place 1842 84) true; SNode 429 (Place 1694 79) (Place 1709 79) true; SNode 430 (Place 1694 79) (Place 1697 79) false; SNode 431 (Place 1701 79) (Place 1709 79) false; SNode 432 (Place 1702 79) (Place 1709 79) false; SNode 433 (Place 1702 79) (Place 1707 79) false; SNode 434 (Place 1775 80) (Place 1802 80) true; SNode 435 (Place 1775 80) (Place 1786 80) false; SNode 436 (Place 1775 80) (Place 1778 80) false; SNode 437 (Place 1779 80) (Place 1786 80) false; SNode 438 (Place 1789 80) (Place 1802 80) false; SNode 439 (Place 1804 81) (Place 1817 81) true; SNode 440 (Place 1804 81) (Place 1817 81) true; SNode 441 (Place 1808 81) (Place 1817 81) true; SNode 442 (Place 1808 81) (Place 1811 81) false; SNode 443 (Place 1812 81) (Place 1817 81) false; SNode 444 (Place 1819 82) (Place 1828 82) true; SNode 445 (Place 1819 82) (Place 1822 82) false; SNode 446 (Place 1825 82) (Place 1828 82) false; SNode 447 (Place 1830 83) (Place 1840 83) true; SNode 448 (Place 1837 83) (Place 1840 83) false; SNode 449 (Place 2018 92) (Place 2303 94) true; SNode 450 (Place 2023 92) (Place 2028 92) false; SNode 451 (Place 2018 92) (Place 2036 92) false; SNode 452 (Place 2028 92) (Place 2030 92) false; SNode 453 (Place 2031 92) (Place 2036 92) false; SNode 454 (Place 2031 92) (Place 2036 92) true; SNode 455 (Place 2031 92) (Place 2036 92) false; SNode 456 (Place 2037 92) (Place 2303 94) true; SNode 457 (Place 2179 93) (Place 2227 93) true; SNode 458 (Place 2186 93) (Place 2227 93) false; SNode 459 (Place 2186 93) (Place 2196 93) false; SNode 460 (Place 2186 93) (Place 2189 93) false; SNode 461 (Place 2190 93) (Place 2196 93) false; SNode 462 (Place 2197 93) (Place 2226 93) false; SNode 463 (Place 2417 101) (Place 2561 105) true; SNode 464 (Place 2422 101) (Place 2427 101) false; SNode 465 (Place 2417 101) (Place 2459 101) false; SNode 466 (Place 2427 101) (Place 2429 101) false; SNode 467 (Place 2430 101) (Place 2459 101) false; SNode 468 (Place 2431 101) (Place 2447 101) true; SNode 469 (Place 2431 101) (Place 2440 101) false; SNode 470 (Place 2441 101) (Place 2447 101) false; SNode 471 (Place 2449 101) (Place 2458 101) true; SNode 472 (Place 2449 101) (Place 2452 101) false; SNode 473 (Place 2453 101) (Place 2458 101) false; SNode 474 (Place 2460 101) (Place 2561 105) true; SNode 475 (Place 2503 102) (Place 2522 102) true; SNode 476 (Place 2503 102) (Place 2512 102) false; SNode 477 (Place 2515 102) (Place 2522 102) false; SNode 478 (Place 2524 103) (Place 2551 103) true; SNode 479 (Place 2524 103) (Place 2527 103) false; SNode 480 (Place 2530 103) (Place 2551 103) false; SNode 481 (Place 2531 103) (Place 2551 103) false; SNode 482 (Place 2531 103) (Place 2536 103) false; SNode 483 (Place 2537 103) (Place 2550 103) false; SNode 484 (Place 2553 104) (Place 2559 104) true; SNode 485 (Place 2678 112) (Place 2855 120) true; SNode 486 (Place 2683 112) (Place 2691 112) false; SNode 487 (Place 2678 112) (Place 2705 112) false; SNode 488 (Place 2691 112) (Place 2693 112) false; SNode 489 (Place 2694 112) (Place 2705 112) false; SNode 490 (Place 2695 112) (Place 2704 112) true; SNode 491 (Place 2695 112) (Place 2698 112) false; SNode 492 (Place 2699 112) (Place 2704 112) false; SNode 493 (Place 2706 112) (Place 2855 120) true; SNode 494 (Place 2752 113) (Place 2779 113) true; SNode 495 (Place 2752 113) (Place 2755 113) false; SNode 496 (Place 2758 113) (Place 2779 113) false; SNode 497 (Place 2759 113) (Place 2779 113) false; SNode 498 (Place 2759 113) (Place 2764 113) false; SNode 499 (Place 2765 113) (Place 2778 113) false; SNode 500 (Place 2781 114) (Place 2845 118) true; SNode 501 (Place 2785 115) (Place 2799 115) true; SNode 502 (Place 2785 115) (Place 2799 115) true; SNode 503 (Place 2789 115) (Place 2799 115) true; SNode 504 (Place 2789 115) (Place 2792 115) false; SNode 505 (Place 2793 115) (Place 2799 115) false; SNode 506 (Place 2814 116) (Place 2832 116) true; SNode 507 (Place 2814 116) (Place 2817 116) false; SNode 508 (Place 2820 116) (Place 2832 116) false; SNode 509 (Place 2835 117) (Place 2842 117) true; SNode 510 (Place 2835 117) (Place 2836 117) false; SNode 511 (Place 2839 117) (Place 2842 117) false; SNode 512 (Place 2847 119) (Place 2853 119) true; SNode 513 (Place 3007 127) (Place 3160 133) true; SNode 514 (Place 3012 127) (Place 3021 127) false; SNode 515 (Place 3007 127) (Place 3029 127) false; SNode 516 (Place 3021 127) (Place 3023 127) false; SNode 517 (Place 3024 127) (Place 3029 127) false; SNode 518 (Place 3024 127) (Place 3029 127) true; SNode 519 (Place 3024 127) (Place 3029 127) false; SNode 520 (Place 3030 127) (Place 3160 133) true; SNode 521 (Place 3076 128) (Place 3104 128) true; SNode 522 (Place 3076 128) (Place 3080 128) false; SNode 523 (Place 3084 128) (Place 3104 128) false; SNode 524 (Place 3085 128) (Place 3104 128) false; SNode 525 (Place 3085 128) (Place 3090 128) false; SNode 526 (Place 3091 128) (Place 3103 128) false; SNode 527 (Place 3106 129) (Place 3118 129) true; SNode 528 (Place 3106 129) (Place 3110 129) false; SNode 529 (Place 3114 129) (Place 3118 129) false; SNode 530 (Place 3120 130) (Place 3132 130) true; SNode 531 (Place 3120 130) (Place 3124 130) false; SNode 532 (Place 3128 130) (Place 3132 130) false; SNode 533 (Place 3134 131) (Place 3145 131) true; SNode 534 (Place 3134 131) (Place 3138 131) false; SNode 535 (Place 3141 131) (Place 3145 131) false; SNode 536 (Place 3147 132) (Place 3158 132) true; SNode 537 (Place 3154 132) (Place 3158 132) false; SNode 538 (Place 3285 140) (Place 3451 147) true; SNode 539 (Place 3290 140) (Place 3304 140) false; SNode 540 (Place 3285 140) (Place 3312 140) false; SNode 541 (Place 3304 140) (Place 3306 140) false; SNode 542 (Place 3307 140) (Place 3312 140) false; SNode 543 (Place 3307 140) (Place 3312 140) true; SNode 544 (Place 3307 140) (Place 3312 140) false; SNode 545 (Place 3313 140) (Place 3451 147) true; SNode 546 (Place 3365 141) (Place 3392 141) true; SNode 547 (Place 3365 141) (Place 3368 141) false; SNode 548 (Place 3372 141) (Place 3392 141) false; SNode 549 (Place 3372 141) (Place 3377 141) false; SNode 550 (Place 3378 141) (Place 3391 141) false; SNode 551 (Place 3394 142) (Place 3436 145) true; SNode 552 (Place 3397 142) (Place 3402 142) false; SNode 553 (Place 3403 142) (Place 3436 145) true; SNode 554 (Place 3407 143) (Place 3419 143) true; SNode 555 (Place 3407 143) (Place 3411 143) false; SNode 556 (Place 3415 143) (Place 3419 143) false; SNode 557 (Place 3416 143) (Place 3419 143) false; SNode 558 (Place 3422 144) (Place 3433 144) true; SNode 559 (Place 3429 144) (Place 3433 144) false; SNode 560 (Place 3438 146) (Place 3449 146) true; SNode 561 (Place 3445 146) (Place 3449 146) false; SNode 562 (Place 3446 146) (Place 3449 146) false; SNode 563 (Place 3453 149) (Place 3656 154) true; SNode 564 (Place 3458 149) (Place 3656 154) true; SNode 565 (Place 3458 149) (Place 3460 149) false; SNode 566 (Place 3461 149) (Place 3656 154) false; SNode 567 (Place 3471 149) (Place 3656 154) false; SNode 568 (Place 3580 153) (Place 3610 153) true; SNode 569 (Place 3580 153) (Place 3592 153) false; SNode 570 (Place 3592 153) (Place 3610 153) false; SNode 571 (Place 3592 153) (Place 3604 153) false; SNode 572 (Place 3593 153) (Place 3603 153) true; SNode 573 (Place 3593 153) (Place 3596 153) false; SNode 574 (Place 3597 153) (Place 3603 153) false; SNode 575 (Place 3605 153) (Place 3610 153) false; SNode 576 (Place 3605 153) (Place 3610 153) true; SNode 577 (Place 3605 153) (Place 3610 153) false; SNode 578 (Place 3658 156) (Place 3678 156) true; SNode 579 (Place 3663 156) (Place 3678 156) true; SNode 580 (Place 3663 156) (Place 3669 156) false; SNode 581 (Place 3670 156) (Place 3678 156) false; SNode 582 (Place 3676 156) (Place 3678 156) false; SNode 583 (Place 3741 161) (Place 3937 168) true; SNode 584 (Place 3746 161) (Place 3754 161) false; SNode 585 (Place 3747 161) (Place 3753 161) true; SNode 586 (Place 3747 161) (Place 3753 161) false; SNode 587 (Place 3755 161) (Place 3767 161) false; SNode 588 (Place 3741 161) (Place 3785 161) false; SNode 589 (Place 3767 161) (Place 3779 161) false; SNode 590 (Place 3768 161) (Place 3778 161) true; SNode 591 (Place 3768 161) (Place 3771 161) false; SNode 592 (Place 3772 161) (Place 3778 161) false; SNode 593 (Place 3780 161) (Place 3785 161) false; SNode 594 (Place 3780 161) (Place 3785 161) true; SNode 595 (Place 3780 161) (Place 3785 161) false; SNode 596 (Place 3786 161) (Place 3937 168) true; SNode 597 (Place 3833 162) (Place 3848 162) true; SNode 598 (Place 3833 162) (Place 3839 162) false; SNode 599 (Place 3843 162) (Place 3848 162) false; SNode 600 (Place 3881 164) (Place 3923 166) true; SNode 601 (Place 3884 164) (Place 3890 164) false; SNode 602 (Place 3891 164) (Place 3923 166) true; SNode 603 (Place 3895 165) (Place 3920 165) true; SNode 604 (Place 3902 165) (Place 3920 165) false; SNode 605 (Place 3903 165) (Place 3920 165) false; SNode 606 (Place 3903 165) (Place 3908 165) false; SNode 607 (Place 3909 165) (Place 3919 165) false; SNode 608 (Place 3925 167) (Place 3935 167) true; SNode 609 (Place 3932 167) (Place 3935 167) false; SNode 610 (Place 3939 170) (Place 3959 170) true; SNode 611 (Place 3944 170) (Place 3959 170) true; SNode 612 (Place 3944 170) (Place 3950 170) false; SNode 613 (Place 3951 170) (Place 3959 170) false; SNode 614 (Place 3957 170) (Place 3959 170) false; SNode 615 (Place 4044 173) (Place 4190 176) true; SNode 616 (Place 4049 173) (Place 4057 173) false; SNode 617 (Place 4050 173) (Place 4056 173) true; SNode 618 (Place 4050 173) (Place 4056 173) false; SNode 619 (Place 4058 173) (Place 4070 173) false; SNode 620 (Place 4044 173) (Place 4088 173) false; SNode 621 (Place 4070 173) (Place 4082 173) false; SNode 622 (Place 4071 173) (Place 4081 173) true; SNode 623 (Place 4071 173) (Place 4074 173) false; SNode 624 (Place 4075 173) (Place 4081 173) false; SNode 625 (Place 4083 173) (Place 4088 173) false; SNode 626 (Place 4083 173) (Place 4088 173) true; SNode 627 (Place 4083 173) (Place 4088 173) false; SNode 628 (Place 4089 173) (Place 4190 176) true; SNode 629 (Place 4178 175) (Place 4188 175) true; SNode 630 (Place 4185 175) (Place 4188 175) false; SNode 631 (Place 4192 178) (Place 4292 182) true; SNode 632 (Place 4197 178) (Place 4223 178) false; SNode 633 (Place 4192 178) (Place 4225 178) false; SNode 634 (Place 4223 178) (Place 4225 178) false; SNode 635 (Place 4226 178) (Place 4292 182) true; SNode 636 (Place 4229 179) (Place 4250 179) true; SNode 637 (Place 4229 179) (Place 4250 179) true; SNode 638 (Place 4233 179) (Place 4250 179) true; SNode 639 (Place 4233 179) (Place 4236 179) false; SNode 640 (Place 4237 179) (Place 4239 179) false; SNode 641 (Place 4242 179) (Place 4250 179) false; SNode 642 (Place 4242 179) (Place 4248 179) false; SNode 643 (Place 4252 180) (Place 4273 180) true; SNode 644 (Place 4252 180) (Place 4273 180) true; SNode 645 (Place 4256 180) (Place 4273 180) true; SNode 646 (Place 4256 180) (Place 4259 180) false; SNode 647 (Place 4260 180) (Place 4262 180) false; SNode 648 (Place 4265 180) (Place 4273 180) false; SNode 649 (Place 4265 180) (Place 4271 180) false; SNode 650 (Place 4275 181) (Place 4290 181) true; SNode 651 (Place 4275 181) (Place 4276 181) false; SNode 652 (Place 4278 181) (Place 4279 181) false; SNode 653 (Place 4282 181) (Place 4285 181) false; SNode 654 (Place 4287 181) (Place 4290 181) false; SNode 655 (Place 4329 187) (Place 4482 190) true; SNode 656 (Place 4334 187) (Place 4361 187) false; SNode 657 (Place 4329 187) (Place 4369 187) false; SNode 658 (Place 4361 187) (Place 4363 187) false; SNode 659 (Place 4364 187) (Place 4369 187) false; SNode 660 (Place 4364 187) (Place 4369 187) true; SNode 661 (Place 4364 187) (Place 4369 187) false; SNode 662 (Place 4370 187) (Place 4482 190) true; SNode 663 (Place 4433 188) (Place 4468 188) true; SNode 664 (Place 4433 188) (Place 4468 188) true; SNode 665 (Place 4437 188) (Place 4468 188) true; SNode 666 (Place 4437 188) (Place 4440 188) false; SNode 667 (Place 4441 188) (Place 4446 188) false; SNode 668 (Place 4449 188) (Place 4468 188) false; SNode 669 (Place 4450 188) (Place 4468 188) false; SNode 670 (Place 4450 188) (Place 4455 188) false; SNode 671 (Place 4456 188) (Place 4467 188) false; SNode 672 (Place 4470 189) (Place 4480 189) true; SNode 673 (Place 4477 189) (Place 4480 189) false; SNode 674 (Place 4484 192) (Place 4591 194) true; SNode 675 (Place 4489 192) (Place 4591 194) true; SNode 676 (Place 4489 192) (Place 4494 192) false; SNode 677 (Place 4495 192) (Place 4591 194) false; SNode 678 (Place 4502 192) (Place 4591 194) false; SNode 679 (Place 4575 193) (Place 4589 193) true; SNode 680 (Place 4575 193) (Place 4582 193) false; SNode 681 (Place 4583 193) (Place 4589 193) false; SNode 682 (Place 4593 196) (Place 4657 196) true; SNode 683 (Place 4598 196) (Place 4608 196) false; SNode 684 (Place 4599 196) (Place 4607 196) true; SNode 685 (Place 4599 196) (Place 4600 196) false; SNode 686 (Place 4601 196) (Place 4607 196) false; SNode 687 (Place 4602 196) (Place 4607 196) false; SNode 688 (Place 4609 196) (Place 4613 196) false; SNode 689 (Place 4593 196) (Place 4622 196) false; SNode 690 (Place 4613 196) (Place 4615 196) false; SNode 691 (Place 4616 196) (Place 4622 196) false; SNode 692 (Place 4616 196) (Place 4622 196) true; SNode 693 (Place 4616 196) (Place 4622 196) false; SNode 694 (Place 4637 196) (Place 4657 196) true; SNode 695 (Place 4639 196) (Place 4655 196) true; SNode 696 (Place 4646 196) (Place 4655 196) false; SNode 697 (Place 4646 196) (Place 4647 196) false; SNode 698 (Place 4648 196) (Place 4655 196) false; SNode 699 (Place 4658 197) (Place 4722 197) true; SNode 700 (Place 4663 197) (Place 4673 197) false; SNode 701 (Place 4664 197) (Place 4672 197) true; SNode 702 (Place 4664 197) (Place 4665 197) false; SNode 703 (Place 4666 197) (Place 4672 197) false; SNode 704 (Place 4667 197) (Place 4672 197) false; SNode 705 (Place 4674 197) (Place 4681 197) false; SNode 706 (Place 4658 197) (Place 4690 197) false; SNode 707 (Place 4681 197) (Place 4683 197) false; SNode 708 (Place 4684 197) (Place 4690 197) false; SNode 709 (Place 4684 197) (Place 4690 197) true; SNode 710 (Place 4684 197) (Place 4690 197) false; SNode 711 (Place 4702 197) (Place 4722 197) true; SNode 712 (Place 4704 197) (Place 4720 197) true; SNode 713 (Place 4711 197) (Place 4720 197) false; SNode 714 (Place 4711 197) (Place 4712 197) false; SNode 715 (Place 4713 197) (Place 4720 197) false; SNode 716 (Place 4723 198) (Place 4781 198) true; SNode 717 (Place 4728 198) (Place 4738 198) false; SNode 718 (Place 4729 198) (Place 4737 198) true; SNode 719 (Place 4729 198) (Place 4730 198) false; SNode 720 (Place 4731 198) (Place 4737 198) false; SNode 721 (Place 4732 198) (Place 4737 198) false; SNode 722 (Place 4739 198) (Place 4746 198) false; SNode 723 (Place 4723 198) (Place 4766 198) false; SNode 724 (Place 4746 198) (Place 4748 198) false; SNode 725 (Place 4749 198) (Place 4766 198) false; SNode 726 (Place 4749 198) (Place 4766 198) true; SNode 727 (Place 4749 198) (Place 4766 198) false; SNode 728 (Place 4753 198) (Place 4759 198) false; SNode 729 (Place 4760 198) (Place 4766 198) false; SNode 730 (Place 4767 198) (Place 4781 198) true; SNode 731 (Place 4769 198) (Place 4779 198) true; SNode 732 (Place 4776 198) (Place 4779 198) false; SNode 733 (Place 4782 199) (Place 4840 199) true; SNode 734 (Place 4787 199) (Place 4797 199) false; SNode 735 (Place 4788 199) (Place 4796 199) true; SNode 736 (Place 4788 199) (Place 4789 199) false; SNode 737 (Place 4790 199) (Place 4796 199) false; SNode 738 (Place 4791 199) (Place 4796 199) false; SNode 739 (Place 4798 199) (Place 4803 199) false; SNode 740 (Place 4782 199) (Place 4811 199) false; SNode 741 (Place 4803 199) (Place 4805 199) false; SNode 742 (Place 4806 199) (Place 4811 199) false; SNode 743 (Place 4806 199) (Place 4811 199) true; SNode 744 (Place 4806 199) (Place 4811 199) false; SNode 745 (Place 4826 199) (Place 4840 199) true; SNode 746 (Place 4828 199) (Place 4838 199) true; SNode 747 (Place 4835 199) (Place 4838 199) false; SNode 748 (Place 4841 200) (Place 4907 200) true; SNode 749 (Place 4846 200) (Place 4856 200) false; SNode 750 (Place 4847 200) (Place 4855 200) true; SNode 751 (Place 4847 200) (Place 4848 200) false; SNode 752 (Place 4849 200) (Place 4855 200) false; SNode 753 (Place 4850 200) (Place 4855 200) false; SNode 754 (Place 4857 200) (Place 4862 200) false; SNode 755 (Place 4841 200) (Place 4871 200) false; SNode 756 (Place 4862 200) (Place 4864 200) false; SNode 757 (Place 4865 200) (Place 4871 200) false; SNode 758 (Place 4865 200) (Place 4871 200) true; SNode 759 (Place 4865 200) (Place 4871 200) false; SNode 760 (Place 4885 200) (Place 4907 200) true; SNode 761 (Place 4887 200) (Place 4905 200) true; SNode 762 (Place 4894 200) (Place 4905 200) false; SNode 763 (Place 4894 200) (Place 4903 200) false; SNode 764 (Place 4894 200) (Place 4895 200) false; SNode 765 (Place 4896 200) (Place 4903 200) false].
Definition t_001_cgroups1 : list cgroup := [CGroup (Place 57 11) (Place 184 18) [(str "/*
	One is a demo function.
	It calls another function that returns an error.

	Errors:

		- hello-error -- always returned.
*/")]; CGroup (Place 204 19) (Place 241 19) [(str "// want One:""ErrorCodes: hello-error""")]; CGroup (Place 259 23) (Place 393 28) [(str "// Two is a demo function."); (str "// It returns an error value it creates itself."); (str "//"); (str "// Errors:"); (str "//"); (str "//    - hello-error -- is always returned.")]; CGroup (Place 413 29) (Place 450 29) [(str "// want Two:""ErrorCodes: hello-error""")]; CGroup (Place 506 33) (Place 582 33) [(str "// want `function ""Three"" is exported, but does not declare any error codes`")]; CGroup (Place 624 37) (Place 732 41) [(str "// Four is a demo function with multiple returns."); (str "//"); (str "// Errors:"); (str "//"); (str "//    - zonk-error -- is always returned.")]; CGroup (Place 763 42) (Place 800 42) [(str "// want Four:""ErrorCodes: zonk-error""")]; CGroup (Place 846 46) (Place 1046 52) [(str "// Five is a demo function with multiple returns"); (str "// which is returning the result of another function"); (str "// (which *also* has multiple returns)."); (str "//"); (str "// Errors:"); (str "//"); (str "//    - zonk-error -- is always returned.")]; CGroup (Place 1082 53) (Place 1119 53) [(str "// want Five:""ErrorCodes: zonk-error""")]; CGroup (Place 1138 57) (Place 1392 64) [(str "// Five is a demo function with multiple returns"); (str "// which is returning the result of another function"); (str "// (which *also* has multiple returns)."); (str "//"); (str "// Errors:"); (str "//"); (str "//    - hello-error -- is sometimes returned."); (str "//    - zonk-error -- is returned at other times.")]; CGroup (Place 1421 65) (Place 1469 65) [(str "// want Six:""ErrorCodes: hello-error zonk-error""")]; CGroup (Place 1533 73) (Place 1631 77) [(str "// Seven is ... probably out of scope."); (str "//"); (str "// Errors:"); (str "//"); (str "//    - hello-error -- is always returned.")]; CGroup (Place 1653 78) (Place 1692 78) [(str "// want Seven:""ErrorCodes: hello-error""")]; CGroup (Place 1710 79) (Place 1773 79) [(str "// Error code is initialised to empty string, which is allowed.")]; CGroup (Place 1844 86) (Place 2017 91) [(str "// Eight isn't going to fulfill what it says it will do."); (str "// It also makes a call to another package."); (str "//"); (str "// Errors:"); (str "//"); (str "//    - hello-error -- is a lie, won't actually happen.")]; CGroup (Place 2039 92) (Place 2177 92) [(str "// want Eight:""ErrorCodes: hello-error"" `function ""Eight"" has a mismatch of declared and actual error codes: unused codes: \[hello-error]`")]; CGroup (Place 2228 93) (Place 2301 93) [(str "// want `function ""Errorf"" in package ""fmt"" does not declare error codes`")]; CGroup (Place 2305 96) (Place 2416 100) [(str "// Named returns an error by named return arguments."); (str "//"); (str "// Errors:"); (str "//"); (str "//    - named-error -- is always returned")]; CGroup (Place 2462 101) (Place 2501 101) [(str "// want Named:""ErrorCodes: named-error""")]; CGroup (Place 2563 107) (Place 2677 111) [(str "// Shadowed returns an error by named return arguments."); (str "//"); (str "// Errors:"); (str "//"); (str "//    - named-error -- is always returned")]; CGroup (Place 2708 112) (Place 2750 112) [(str "// want Shadowed:""ErrorCodes: named-error""")]; CGroup (Place 2800 115) (Place 2811 115) [(str "// shadowed")]; CGroup (Place 2857 122) (Place 3006 126) [(str "// IdentLoop does assignments in an attempt to make the analysis fall into an endless loop."); (str "//"); (str "// Errors:"); (str "//"); (str "//    - some-error -- is always returned")]; CGroup (Place 3032 127) (Place 3074 127) [(str "// want IdentLoop:""ErrorCodes: some-error""")]; CGroup (Place 3162 135) (Place 3284 139) [(str "// PointerOfLocal returns a pointer to a locally created error."); (str "//"); (str "// Errors:"); (str "//"); (str "//    - value-error -- is always returned")]; CGroup (Place 3315 140) (Place 3363 140) [(str "// want PointerOfLocal:""ErrorCodes: value-error""")]; CGroup (Place 3473 149) (Place 3514 149) [(str "// want Io:""ErrorInterface: FetchFromUrl""")]; CGroup (Place 3516 150) (Place 3578 152) [(str "// Errors:"); (str "//"); (str "//    - io-error -- returned if transfer fails")]; CGroup (Place 3611 153) (Place 3654 153) [(str "// want FetchFromUrl:""ErrorCodes: io-error""")]; CGroup (Place 3680 158) (Place 3740 160) [(str "// Errors:"); (str "//"); (str "//    - io-error -- returned if transfer fails")]; CGroup (Place 3788 161) (Place 3831 161) [(str "// want FetchFromUrl:""ErrorCodes: io-error""")]; CGroup (Place 3850 163) (Place 3879 163) [(str "// do some fancy io stuff ...")]; CGroup (Place 3961 172) (Place 4043 172) [(str "// Errors: none -- this method only returns error to comply with the IO interface.")]; CGroup (Place 4091 173) (Place 4125 173) [(str "// want FetchFromUrl:""ErrorCodes:""")]; CGroup (Place 4127 174) (Place 4176 174) [(str "// this is only a mock and does not return errors")]; CGroup (Place 4294 184) (Place 4328 186) [(str "// Errors:"); (str "//"); (str "//    - var-error --")]; CGroup (Place 4372 187) (Place 4431 187) [(str "// want DefinitionWithoutAssignment:""ErrorCodes: var-error""")]; CGroup (Place 4504 192) (Place 4573 192) [(str "// want Error:`ErrorType{Field:{Name:""TheCode"", Position:0}, Codes:}`")]].
Definition t_001_nodes2 : list snode := [SNode 766 (Place 0 1) (Place 1945 64) true; SNode 767 (Place 8 1) (Place 12 1) false; SNode 768 (Place 127 8) (Place 328 13) true; SNode 769 (Place 132 8) (Place 142 8) false; SNode 770 (Place 127 8) (Place 150 8) false; SNode 771 (Place 142 8) (Place 144 8) false; SNode 772 (Place 145 8) (Place 150 8) false; SNode 773 (Place 145 8) (Place 150 8) true; SNode 774 (Place 145 8) (Place 150 8) false; SNode 775 (Place 151 8) (Place 328 13) true; SNode 776 (Place 316 12) (Place 326 12) true; SNode 777 (Place 323 12) (Place 326 12) false; SNode 778 (Place 454 20) (Place 725 28) true; SNode 779 (Place 459 20) (Place 470 20) false; SNode 780 (Place 454 20) (Place 478 20) false; SNode 781 (Place 470 20) (Place 472 20) false; SNode 782 (Place 473 20) (Place 478 20) false; SNode 783 (Place 473 20) (Place 478 20) true; SNode 784 (Place 473 20) (Place 478 20) false; SNode 785 (Place 479 20) (Place 725 28) true; SNode 786 (Place 647 24) (Place 691 26) true; SNode 787 (Place 650 24) (Place 655 24) false; SNode 788 (Place 656 24) (Place 691 26) true; SNode 789 (Place 660 25) (Place 688 25) true; SNode 790 (Place 667 25) (Place 688 25) false; SNode 791 (Place 668 25) (Place 688 25) false; SNode 792 (Place 668 25) (Place 673 25) false; SNode 793 (Place 674 25) (Place 687 25) false; SNode 794 (Place 693 27) (Place 723 27) true; SNode 795 (Place 700 27) (Place 723 27) false; SNode 796 (Place 701 27) (Place 723 27) false; SNode 797 (Place 701 27) (Place 706 27) false; SNode 798 (Place 707 27) (Place 722 27) false; SNode 799 (Place 897 36) (Place 1180 41) true; SNode 800 (Place 902 36) (Place 922 36) false; SNode 801 (Place 897 36) (Place 930 36) false; SNode 802 (Place 922 36) (Place 924 36) false; SNode 803 (Place 925 36) (Place 930 36) false; SNode 804 (Place 925 36) (Place 930 36) true; SNode 805 (Place 925 36) (Place 930 36) false; SNode 806 (Place 931 36) (Place 1180 41) true; SNode 807 (Place 1148 40) (Place 1178 40) true; SNode 808 (Place 1155 40) (Place 1178 40) false; SNode 809 (Place 1156 40) (Place 1178 40) false; SNode 810 (Place 1156 40) (Place 1161 40) false; SNode 811 (Place 1162 40) (Place 1177 40) false; SNode 812 (Place 1402 50) (Place 1945 64) true; SNode 813 (Place 1407 50) (Place 1430 50) false; SNode 814 (Place 1402 50) (Place 1438 50) false; SNode 815 (Place 1430 50) (Place 1432 50) false; SNode 816 (Place 1433 50) (Place 1438 50) false; SNode 817 (Place 1433 50) (Place 1438 50) true; SNode 818 (Place 1433 50) (Place 1438 50) false; SNode 819 (Place 1439 50) (Place 1945 64) true; SNode 820 (Place 1748 54) (Place 1943 63) true; SNode 821 (Place 1755 54) (Place 1943 63) true; SNode 822 (Place 1758 55) (Place 1804 56) true; SNode 823 (Place 1763 55) (Place 1767 55) false; SNode 824 (Place 1771 56) (Place 1804 56) true; SNode 825 (Place 1778 56) (Place 1804 56) false; SNode 826 (Place 1779 56) (Place 1804 56) false; SNode 827 (Place 1779 56) (Place 1784 56) false; SNode 828 (Place 1785 56) (Place 1803 56) false; SNode 829 (Place 1806 57) (Place 1851 58) true; SNode 830 (Place 1811 57) (Place 1815 57) false; SNode 831 (Place 1819 58) (Place 1851 58) true; SNode 832 (Place 1826 58) (Place 1851 58) false; SNode 833 (Place 1827 58) (Place 1851 58) false; SNode 834 (Place 1827 58) (Place 1832 58) false; SNode 835 (Place 1833 58) (Place 1850 58) false; SNode 836 (Place 1853 59) (Place 1899 60) true; SNode 837 (Place 1858 59) (Place 1862 59) false; SNode 838 (Place 1866 60) (Place 1899 60) true; SNode 839 (Place 1873 60) (Place 1899 60) false; SNode 840 (Place 1874 60) (Place 1899 60) false; SNode 841 (Place 1874 60) (Place 1879 60) false; SNode 842 (Place 1880 60) (Place 1898 60) false; SNode 843 (Place 1901 61) (Place 1940 62) true; SNode 844 (Place 1912 62) (Place 1940 62) true; SNode 845 (Place 1919 62) (Place 1940 62) false; SNode 846 (Place 1920 62) (Place 1940 62) false; SNode 847 (Place 1920 62) (Place 1925 62) false; SNode 848 (Place 1926 62) (Place 1939 62) false].
Definition t_001_cgroups2 : list cgroup := [CGroup (Place 14 3) (Place 126 7) [(str "// UnusedCode declares an error which is never returned."); (str "//"); (str "// Errors:"); (str "//"); (str "//    - unused-error -- never returned")]; CGroup (Place 153 8) (Place 314 11) [(str "/*
		want
			UnusedCode:""ErrorCodes: unused-error""
			`function ""UnusedCode"" has a mismatch of declared and actual error codes: unused codes: \[unused-error]` */")]; CGroup (Place 330 15) (Place 453 19) [(str "// MissingCode returns an error which is not declared."); (str "//"); (str "// Errors:"); (str "//"); (str "//    - hello-error -- error that might be returned")]; CGroup (Place 481 20) (Place 645 23) [(str "/*
		want
			MissingCode:""ErrorCodes: hello-error""
			`function ""MissingCode"" has a mismatch of declared and actual error codes: missing codes: \[missing-error]` */")]; CGroup (Place 727 30) (Place 896 35) [(str "// MissingAndUnusedCode returns an error which is not declared,"); (str "// and declares an error which is never returned."); (str "//"); (str "// Errors:"); (str "//"); (str "//    - unused-error -- never returned")]; CGroup (Place 933 36) (Place 1146 39) [(str "/*
		want
			MissingAndUnusedCode:""ErrorCodes: unused-error""
			`function ""MissingAndUnusedCode"" has a mismatch of declared and actual error codes: missing codes: \[missing-error] unused codes: \[unused-error]` */")]; CGroup (Place 1182 43) (Place 1401 49) [(str "// MultipleMismatchedCodes has multiple error code mismatches."); (str "//"); (str "// Errors:"); (str "//"); (str "//    - hello-error     -- error that might be returned"); (str "//    - unused-error-ab -- never returned"); (str "//    - unused-error-aa -- never returned")]; CGroup (Place 1441 50) (Place 1746 53) [(str "/*
		want
			MultipleMismatchedCodes:""ErrorCodes: hello-error unused-error-aa unused-error-ab""
			`function ""MultipleMismatchedCodes"" has a mismatch of declared and actual error codes: missing codes: \[missing-error-a missing-error-ab missing-error-cc] unused codes: \[unused-error-aa unused-error-ab]` */")]].
Definition t_001_files : list source_file := [SourceFile t_001_nodes0 t_001_cgroups0; SourceFile t_001_nodes1 t_001_cgroups1; SourceFile t_001_nodes2 t_001_cgroups2].
Definition t_001_info : typeinfo := map_info (list_to_map t_001_types) (list_to_map t_001_values) (list_to_map t_001_uses) (list_to_map t_001_defs) (list_to_map t_001_sels) (list_to_set [1; 4; 5; 6; 7; 8; 9; 10; 11; 12; 13; 14; 15; 16; 17; 18; 19; 20; 52; 76; 77; 79; 83]) (list_to_map t_001_pkgnames) (list_to_map t_001_objnames) (list_to_map t_001_objtypes) (list_to_map t_001_under) t_001_methods t_001_ierr t_001_iree t_001_icause t_001_impl (list_to_map t_001_named_methods).
Definition t_001 : package := Package (list_to_map [(1, t_001_f1); (2, t_001_f2); (3, t_001_f3); (4, t_001_f4); (5, t_001_f5); (6, t_001_f6); (7, t_001_f7); (8, t_001_f8); (9, t_001_f9); (10, t_001_f10); (11, t_001_f11); (12, t_001_f12); (13, t_001_f13); (14, t_001_f14); (15, t_001_f15); (16, t_001_f16); (17, t_001_f17); (18, t_001_f18); (19, t_001_f19); (20, t_001_f20); (21, t_001_f21); (22, t_001_f22); (23, t_001_f23); (24, t_001_f24); (25, t_001_f25); (26, t_001_f26); (27, t_001_f27); (28, t_001_f28); (29, t_001_f29); (30, t_001_f30); (31, t_001_f31); (32, t_001_f32); (33, t_001_f33); (34, t_001_f34); (35, t_001_f35); (36, t_001_f36); (37, t_001_f37); (38, t_001_f38); (39, t_001_f39); (40, t_001_f40)]) [1; 2; 3; 4; 5; 6; 7; 8; 9; 10; 11; 13; 14; 15; 16; 17; 18; 19; 20; 21; 22; 23; 24; 25; 26; 27; 28; 29; 30; 31; 32; 33; 34; 35; 36; 37; 38; 39; 40] t_001_gendecls t_001_top (list_to_map t_001_objs) (fun id => default [] (createCommentMap t_001_files id)) t_001_info.
Definition t_001_rank : gostring -> nat := fun n => default 0%nat ((list_to_map [((str "Io"), 1%nat)] : gmap gostring nat) !! n).

(** 001: 24 diagnostics and 29 facts, as its "want" comments demand. *)
Theorem t_001_ascending :
  report (run_test t_001 ascending (Facts ∅ ∅ ∅ ∅)) = Some [
    (21, (str "error should be returned as the last argument")) (* invalid.go:7 *);
    (3, (str "function ""CodeNotDeclared"" is exported, but does not declare any error codes")) (* invalid.go:3 *);
    (351, (str "function ""Three"" is exported, but does not declare any error codes")) (* main.go:33 *);
    (41, (str "unsupported: tracking error codes for function call with error as non-last return argument")) (* invalid.go:17 *);
    (459, (str "function ""Errorf"" in package ""fmt"" does not declare error codes")) (* main.go:93 *);
    (449, (str "function ""Eight"" has a mismatch of declared and actual error codes: unused codes: [hello-error]")) (* main.go:92 *);
    (799, (str "function ""MissingAndUnusedCode"" has a mismatch of declared and actual error codes: missing codes: [missing-error] unused codes: [unused-error]")) (* mismatch.go:36 *);
    (204, (str "returned error may not be a parameter, receiver or global variable")) (* invalid.go:86 *);
    (209, (str "returned error may not be a parameter, receiver or global variable")) (* invalid.go:88 *);
    (288, (str "invalid error source: definition of the unnamed function could not be found")) (* invalid.go:121 *);
    (768, (str "function ""UnusedCode"" has a mismatch of declared and actual error codes: unused codes: [unused-error]")) (* mismatch.go:8 *);
    (72, (str "expression does not define an error code")) (* invalid.go:33 *);
    (173, (str "returned error may not be a parameter, receiver or global variable")) (* invalid.go:72 *);
    (178, (str "returned error may not be a parameter, receiver or global variable")) (* invalid.go:74 *);
    (812, (str "function ""MultipleMismatchedCodes"" has a mismatch of declared and actual error codes: missing codes: [missing-error-a missing-error-ab missing-error-cc] unused codes: [unused-error-aa unused-error-ab]")) (* mismatch.go:50 *);
    (122, (str "error code has invalid format: should match [a-zA-Z][a-zA-Z0-9\-]*[a-zA-Z0-9]")) (* invalid.go:52 *);
    (129, (str "error code has invalid format: should match [a-zA-Z][a-zA-Z0-9\-]*[a-zA-Z0-9]")) (* invalid.go:54 *);
    (136, (str "error code has invalid format: should match [a-zA-Z][a-zA-Z0-9\-]*[a-zA-Z0-9]")) (* invalid.go:56 *);
    (143, (str "error code has invalid format: should match [a-zA-Z][a-zA-Z0-9\-]*[a-zA-Z0-9]")) (* invalid.go:58 *);
    (150, (str "error code has invalid format: should match [a-zA-Z][a-zA-Z0-9\-]*[a-zA-Z0-9]")) (* invalid.go:60 *);
    (237, (str "returned error may not be a parameter, receiver or global variable")) (* invalid.go:102 *);
    (242, (str "returned error may not be a parameter, receiver or global variable")) (* invalid.go:104 *);
    (311, (str "expression is not supported in error code analysis")) (* invalid.go:128 *);
    (778, (str "function ""MissingCode"" has a mismatch of declared and actual error codes: missing codes: [missing-error]")) (* mismatch.go:20 *)] /\
  fact_texts (facts_after_test (run_test t_001 ascending (Facts ∅ ∅ ∅ ∅))) [48; 49; 50; 51; 52; 53; 54; 55; 56; 57; 58; 59; 60; 61; 62; 63; 64; 65; 66; 67; 68; 69; 70; 71; 72; 73; 74; 75; 76; 77; 78; 79; 80; 81; 82; 83; 84; 85; 86; 87; 88; 89; 90; 91; 92; 93; 94; 95; 96; 97; 98; 99; 100; 101; 102; 103; 104; 105; 106; 107; 108; 109; 110; 111; 112; 114; 115; 116; 117; 118; 119; 120; 121; 122; 123; 124; 125; 126; 127; 128; 129] = [
    (50, (str "ErrorCodes: zonk-error")) (* invalid.go:16 CallToInvalidFunction *);
    (51, (str "ErrorCodes: hello-error")) (* invalid.go:29 ReturnInvalidError *);
    (54, (str "ErrorCodes: hello-error")) (* invalid.go:45 InvalidErrorCodeFormat *);
    (56, (str "ErrorCodes: some-error")) (* invalid.go:69 InvalidErrorFromParameter *);
    (57, (str "ErrorCodes: some-error")) (* invalid.go:83 InvalidErrorFromReceiver *);
    (59, (str "ErrorCodes: some-error")) (* invalid.go:99 InvalidErrorFromGlobal *);
    (61, (str "ErrorCodes: some-error")) (* invalid.go:119 InvalidErrorFromLambda *);
    (62, (str "ErrorCodes: ")) (* invalid.go:127 SliceAccess *);
    (64, (str "ErrorCodes: hello-error")) (* main.go:19 One *);
    (65, (str "ErrorCodes: hello-error")) (* main.go:29 Two *);
    (67, (str "ErrorCodes: zonk-error")) (* main.go:42 Four *);
    (68, (str "ErrorCodes: zonk-error")) (* main.go:53 Five *);
    (69, (str "ErrorCodes: hello-error zonk-error")) (* main.go:65 Six *);
    (70, (str "ErrorCodes: hello-error")) (* main.go:78 Seven *);
    (71, (str "ErrorCodes: hello-error")) (* main.go:92 Eight *);
    (72, (str "ErrorCodes: named-error")) (* main.go:101 Named *);
    (73, (str "ErrorCodes: named-error")) (* main.go:112 Shadowed *);
    (74, (str "ErrorCodes: some-error")) (* main.go:127 IdentLoop *);
    (75, (str "ErrorCodes: value-error")) (* main.go:140 PointerOfLocal *);
    (76, (str "ErrorInterface: FetchFromUrl")) (* main.go:149 Io *);
    (78, (str "ErrorCodes: io-error")) (* main.go:161 FetchFromUrl *);
    (80, (str "ErrorCodes: ")) (* main.go:173 FetchFromUrl *);
    (82, (str "ErrorCodes: var-error")) (* main.go:187 DefinitionWithoutAssignment *);
    (83, (str "ErrorType{Field:{Name:""TheCode"", Position:0}, Codes:}")) (* main.go:192 Error *);
    (89, (str "ErrorCodes: unused-error")) (* mismatch.go:8 UnusedCode *);
    (90, (str "ErrorCodes: hello-error")) (* mismatch.go:20 MissingCode *);
    (91, (str "ErrorCodes: unused-error")) (* mismatch.go:36 MissingAndUnusedCode *);
    (92, (str "ErrorCodes: hello-error unused-error-aa unused-error-ab")) (* mismatch.go:50 MultipleMismatchedCodes *);
    (109, (str "ErrorCodes: io-error")) (* main.go:153 FetchFromUrl *)].
Proof. vm_compute. split; reflexivity. Qed.

(** 001: 24 diagnostics and 29 facts, as its "want" comments demand. *)
Theorem t_001_descending :
  report (run_test t_001 descending (Facts ∅ ∅ ∅ ∅)) = Some [
    (21, (str "error should be returned as the last argument")) (* invalid.go:7 *);
    (351, (str "function ""Three"" is exported, but does not declare any error codes")) (* main.go:33 *);
    (3, (str "function ""CodeNotDeclared"" is exported, but does not declare any error codes")) (* invalid.go:3 *);
    (778, (str "function ""MissingCode"" has a mismatch of declared and actual error codes: missing codes: [missing-error]")) (* mismatch.go:20 *);
    (311, (str "expression is not supported in error code analysis")) (* invalid.go:128 *);
    (237, (str "returned error may not be a parameter, receiver or global variable")) (* invalid.go:102 *);
    (242, (str "returned error may not be a parameter, receiver or global variable")) (* invalid.go:104 *);
    (122, (str "error code has invalid format: should match [a-zA-Z][a-zA-Z0-9\-]*[a-zA-Z0-9]")) (* invalid.go:52 *);
    (129, (str "error code has invalid format: should match [a-zA-Z][a-zA-Z0-9\-]*[a-zA-Z0-9]")) (* invalid.go:54 *);
    (136, (str "error code has invalid format: should match [a-zA-Z][a-zA-Z0-9\-]*[a-zA-Z0-9]")) (* invalid.go:56 *);
    (143, (str "error code has invalid format: should match [a-zA-Z][a-zA-Z0-9\-]*[a-zA-Z0-9]")) (* invalid.go:58 *);
    (150, (str "error code has invalid format: should match [a-zA-Z][a-zA-Z0-9\-]*[a-zA-Z0-9]")) (* invalid.go:60 *);
    (812, (str "function ""MultipleMismatchedCodes"" has a mismatch of declared and actual error codes: missing codes: [missing-error-a missing-error-ab missing-error-cc] unused codes: [unused-error-aa unused-error-ab]")) (* mismatch.go:50 *);
    (173, (str "returned error may not be a parameter, receiver or global variable")) (* invalid.go:72 *);
    (178, (str "returned error may not be a parameter, receiver or global variable")) (* invalid.go:74 *);
    (72, (str "expression does not define an error code")) (* invalid.go:33 *);
    (768, (str "function ""UnusedCode"" has a mismatch of declared and actual error codes: unused codes: [unused-error]")) (* mismatch.go:8 *);
    (288, (str "invalid error source: definition of the unnamed function could not be found")) (* invalid.go:121 *);
    (204, (str "returned error may not be a parameter, receiver or global variable")) (* invalid.go:86 *);
    (209, (str "returned error may not be a parameter, receiver or global variable")) (* invalid.go:88 *);
    (799, (str "function ""MissingAndUnusedCode"" has a mismatch of declared and actual error codes: missing codes: [missing-error] unused codes: [unused-error]")) (* mismatch.go:36 *);
    (459, (str "function ""Errorf"" in package ""fmt"" does not declare error codes")) (* main.go:93 *);
    (449, (str "function ""Eight"" has a mismatch of declared and actual error codes: unused codes: [hello-error]")) (* main.go:92 *);
    (41, (str "unsupported: tracking error codes for function call with error as non-last return argument")) (* invalid.go:17 *)] /\
  fact_texts (facts_after_test (run_test t_001 descending (Facts ∅ ∅ ∅ ∅))) [48; 49; 50; 51; 52; 53; 54; 55; 56; 57; 58; 59; 60; 61; 62; 63; 64; 65; 66; 67; 68; 69; 70; 71; 72; 73; 74; 75; 76; 77; 78; 79; 80; 81; 82; 83; 84; 85; 86; 87; 88; 89; 90; 91; 92; 93; 94; 95; 96; 97; 98; 99; 100; 101; 102; 103; 104; 105; 106; 107; 108; 109; 110; 111; 112; 114; 115; 116; 117; 118; 119; 120; 121; 122; 123; 124; 125; 126; 127; 128; 129] = [
    (50, (str "ErrorCodes: zonk-error")) (* invalid.go:16 CallToInvalidFunction *);
    (51, (str "ErrorCodes: hello-error")) (* invalid.go:29 ReturnInvalidError *);
    (54, (str "ErrorCodes: hello-error")) (* invalid.go:45 InvalidErrorCodeFormat *);
    (56, (str "ErrorCodes: some-error")) (* invalid.go:69 InvalidErrorFromParameter *);
    (57, (str "ErrorCodes: some-error")) (* invalid.go:83 InvalidErrorFromReceiver *);
    (59, (str "ErrorCodes: some-error")) (* invalid.go:99 InvalidErrorFromGlobal *);
    (61, (str "ErrorCodes: some-error")) (* invalid.go:119 InvalidErrorFromLambda *);
    (62, (str "ErrorCodes: ")) (* invalid.go:127 SliceAccess *);
    (64, (str "ErrorCodes: hello-error")) (* main.go:19 One *);
    (65, (str "ErrorCodes: hello-error")) (* main.go:29 Two *);
    (67, (str "ErrorCodes: zonk-error")) (* main.go:42 Four *);
    (68, (str "ErrorCodes: zonk-error")) (* main.go:53 Five *);
    (69, (str "ErrorCodes: hello-error zonk-error")) (* main.go:65 Six *);
    (70, (str "ErrorCodes: hello-error")) (* main.go:78 Seven *);
    (71, (str "ErrorCodes: hello-error")) (* main.go:92 Eight *);
    (72, (str "ErrorCodes: named-error")) (* main.go:101 Named *);
    (73, (str "ErrorCodes: named-error")) (* main.go:112 Shadowed *);
    (74, (str "ErrorCodes: some-error")) (* main.go:127 IdentLoop *);
    (75, (str "ErrorCodes: value-error")) (* main.go:140 PointerOfLocal *);
    (76, (str "ErrorInterface: FetchFromUrl")) (* main.go:149 Io *);
    (78, (str "ErrorCodes: io-error")) (* main.go:161 FetchFromUrl *);
    (80, (str "ErrorCodes: ")) (* main.go:173 FetchFromUrl *);
    (82, (str "ErrorCodes: var-error")) (* main.go:187 DefinitionWithoutAssignment *);
    (83, (str "ErrorType{Field:{Name:""TheCode"", Position:0}, Codes:}")) (* main.go:192 Error *);
    (89, (str "ErrorCodes: unused-error")) (* mismatch.go:8 UnusedCode *);
    (90, (str "ErrorCodes: hello-error")) (* mismatch.go:20 MissingCode *);
    (91, (str "ErrorCodes: unused-error")) (* mismatch.go:36 MissingAndUnusedCode *);
    (92, (str "ErrorCodes: hello-error unused-error-aa unused-error-ab")) (* mismatch.go:50 MultipleMismatchedCodes *);
    (109, (str "ErrorCodes: io-error")) (* main.go:153 FetchFromUrl *)].
Proof. vm_compute. split; reflexivity. Qed.

(** The presuppositions of the general theorems that this package satisfies. *)
Theorem t_001_presuppositions :
  (forall fa, usable_functions t_001 fa) /\
  (forall fa, no_literal_recursion t_001 (collectFunctions t_001) fa) /\
  (forall fa, literals_apart t_001 (collectFunctions t_001) fa) /\
  types_usable t_001 /\
  (forall w n, occurs t_001 w n -> ~ ill_formed t_001 w n) /\
  distinct_definitions t_001 /\
  interfaces_ok t_001 /\
  uses_resolved t_001 (collectFunctions t_001) /\
  (forall g fn, pk_funcs t_001 !! g = Some fn -> disciplined t_001 (facts_after_test (run_test t_001 ascending (Facts ∅ ∅ ∅ ∅))) fn /\ resolved t_001 (collectFunctions t_001) (facts_after_test (run_test t_001 ascending (Facts ∅ ∅ ∅ ∅))) fn) /\
  Forall layout t_001_files.
Proof.
  split_and!.
  - intros fa; apply package_usable_spec; vm_compute; reflexivity.
  - intros fa; apply recursion_check_spec; vm_compute; reflexivity.
  - intros fa; apply apart_spec; vm_compute; reflexivity.
  - apply types_ok_spec; vm_compute; reflexivity.
  - apply package_formed_spec; vm_compute; reflexivity.
  - apply definitions_check_spec; vm_compute; reflexivity.
  - apply (interfaces_check_spec t_001 t_001_rank); vm_compute; reflexivity.
  - apply uses_check_spec; vm_compute; reflexivity.
  - intros g fn; apply sound_ok_spec; vm_compute; reflexivity.
  - apply layouts_spec; vm_compute; reflexivity.
Qed.
