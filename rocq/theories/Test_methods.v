(** * The test package methods of /repo/analysis/testdata/src, run on the model.  Generated by tools/conform.py; see Conform.v. *)
From Coq Require Import Ascii String.
From stdpp Require Import base list gmap.
From Verif Require Import GoString Scc Engine Constant CommentText CommentMap Phase FactText Conform Claims Analyse Verify SpecTaint SpecProgram SpecLiterals SpecCodeMethod SpecInterfaces SpecSites SpecCrash SpecSound SpecWhole SpecLayout Checkers RecursionChecker LiteralChecker CodeCheckers FormChecker InterfaceChecker SoundChecker ChainChecker ExampleLayout GoAst.
Local Open Scope N_scope.
Definition t_methods_f1 : func := Func 46 (Some (DeclInfo (Ident 50 (str "Easy1") None) (Some [(Field 48 [] 49)]) (Some (comment_text [(str "// Errors:"); (str "//"); (str "//    - easy-error -- is always returned")])))) (FuncType 51 [] (Some [(Field 54 [] 55)]) 234) (Some (Node 56 (KOther (str "*ast.BlockStmt")) [(Node 57 KReturn [(Node 58 (KUnary true) [(Node 59 KComposite [(Node 61 KBasicLit [])])])])])) 240 311.
Definition t_methods_f2 : func := Func 62 (Some (DeclInfo (Ident 66 (str "Easy1") None) (Some [(Field 64 [] 65)]) (Some (comment_text [(str "// Errors:"); (str "//"); (str "//    - easy-error -- is always returned")])))) (FuncType 67 [] (Some [(Field 70 [] 71)]) 385) (Some (Node 72 (KOther (str "*ast.BlockStmt")) [(Node 73 KReturn [(Node 74 (KUnary true) [(Node 75 KComposite [(Node 77 KBasicLit [])])])])])) 391 462.
Definition t_methods_f3 : func := Func 78 (Some (DeclInfo (Ident 82 (str "Easy1") None) (Some [(Field 80 [] 81)]) (Some (comment_text [(str "// Errors:"); (str "//"); (str "//    - easy-error -- is always returned")])))) (FuncType 83 [] (Some [(Field 86 [] 87)]) 536) (Some (Node 88 (KOther (str "*ast.BlockStmt")) [(Node 89 KReturn [(Node 90 (KUnary true) [(Node 91 KComposite [(Node 93 KBasicLit [])])])])])) 542 613.
Definition t_methods_f4 : func := Func 94 (Some (DeclInfo (Ident 98 (str "Easy1") None) (Some [(Field 96 [] 97)]) (Some (comment_text [(str "// Errors:"); (str "//"); (str "//    - easy-error -- is always returned")])))) (FuncType 99 [] (Some [(Field 102 [] 103)]) 687) (Some (Node 104 (KOther (str "*ast.BlockStmt")) [(Node 105 KReturn [(Node 106 (KUnary true) [(Node 107 KComposite [(Node 109 KBasicLit [])])])])])) 693 764.
Definition t_methods_f5 : func := Func 110 (Some (DeclInfo (Ident 115 (str "Easy2") None) (Some [(Field 112 [] 113)]) (Some (comment_text [(str "// Errors:"); (str "//"); (str "//    - easy-error -- is always returned")])))) (FuncType 116 [] (Some [(Field 119 [] 120)]) 839) (Some (Node 121 (KOther (str "*ast.BlockStmt")) [(Node 122 KReturn [(Node 123 (KUnary true) [(Node 124 KComposite [(Node 126 KBasicLit [])])])])])) 845 916.
Definition t_methods_f6 : func := Func 127 (Some (DeclInfo (Ident 132 (str "Easy2") None) (Some [(Field 129 [] 130)]) (Some (comment_text [(str "// Errors:"); (str "//"); (str "//    - easy-error -- is always returned")])))) (FuncType 133 [] (Some [(Field 136 [] 137)]) 991) (Some (Node 138 (KOther (str "*ast.BlockStmt")) [(Node 139 KReturn [(Node 140 (KUnary true) [(Node 141 KComposite [(Node 143 KBasicLit [])])])])])) 997 1068.
Definition t_methods_f7 : func := Func 144 (Some (DeclInfo (Ident 149 (str "Easy2") None) (Some [(Field 146 [] 147)]) (Some (comment_text [(str "// Errors:"); (str "//"); (str "//    - easy-error -- is always returned")])))) (FuncType 150 [] (Some [(Field 153 [] 154)]) 1143) (Some (Node 155 (KOther (str "*ast.BlockStmt")) [(Node 156 KReturn [(Node 157 (KUnary true) [(Node 158 KComposite [(Node 160 KBasicLit [])])])])])) 1149 1220.
Definition t_methods_f8 : func := Func 161 (Some (DeclInfo (Ident 166 (str "Easy2") None) (Some [(Field 163 [] 164)]) (Some (comment_text [(str "// Errors:"); (str "//"); (str "//    - easy-error -- is always returned")])))) (FuncType 167 [] (Some [(Field 170 [] 171)]) 1295) (Some (Node 172 (KOther (str "*ast.BlockStmt")) [(Node 173 KReturn [(Node 174 (KUnary true) [(Node 175 KComposite [(Node 177 KBasicLit [])])])])])) 1301 1372.
Definition t_methods_f9 : func := Func 178 (Some (DeclInfo (Ident 183 (str "methodA") None) (Some [(Field 180 [] 181)]) (Some (comment_text [(str "// Unused, here to test that the correct methodA is found.")])))) (FuncType 184 [] (Some [(Field 187 [] 188)]) 1453) (Some (Node 189 (KOther (str "*ast.BlockStmt")) [(Node 190 KReturn [(Node 191 (KUnary true) [(Node 192 KComposite [(Node 194 KBasicLit [])])])])])) 1459 1488.
Definition t_methods_f10 : func := Func 195 (Some (DeclInfo (Ident 199 (str "valueMethodA") None) (Some [(Field 197 [] 198)]) (Some (comment_text [(str "// Unused, here to test that the correct valueMethodA is found.")])))) (FuncType 200 [] (Some [(Field 203 [] 204)]) 1578) (Some (Node 205 (KOther (str "*ast.BlockStmt")) [(Node 206 KReturn [(Node 207 (KUnary true) [(Node 208 KComposite [(Node 210 KBasicLit [])])])])])) 1584 1619.
Definition t_methods_f11 : func := Func 211 (Some (DeclInfo (Ident 216 (str "methodA") None) (Some [(Field 213 [] 214)]) None)) (FuncType 217 [] (Some [(Field 220 [] 221)]) 1641) (Some (Node 222 (KOther (str "*ast.BlockStmt")) [(Node 223 KReturn [(Node 224 (KUnary true) [(Node 225 KComposite [(Node 227 KBasicLit [])])])])])) 1647 1676.
Definition t_methods_f12 : func := Func 228 (Some (DeclInfo (Ident 232 (str "valueMethodA") None) (Some [(Field 230 [] 231)]) None)) (FuncType 233 [] (Some [(Field 236 [] 237)]) 1702) (Some (Node 238 (KOther (str "*ast.BlockStmt")) [(Node 239 KReturn [(Node 240 (KUnary true) [(Node 241 KComposite [(Node 243 KBasicLit [])])])])])) 1708 1743.
Definition t_methods_f13 : func := Func 244 (Some (DeclInfo (Ident 249 (str "methodB") None) (Some [(Field 246 [] 247)]) None)) (FuncType 250 [] (Some [(Field 253 [] 254)]) 1765) (Some (Node 255 (KOther (str "*ast.BlockStmt")) [(Node 256 KReturn [(Node 257 (KUnary true) [(Node 258 KComposite [(Node 260 KBasicLit [])])])])])) 1771 1800.
Definition t_methods_f14 : func := Func 261 (Some (DeclInfo (Ident 265 (str "valueMethodB") None) (Some [(Field 263 [] 264)]) None)) (FuncType 266 [] (Some [(Field 269 [] 270)]) 1826) (Some (Node 271 (KOther (str "*ast.BlockStmt")) [(Node 272 KReturn [(Node 273 (KUnary true) [(Node 274 KComposite [(Node 276 KBasicLit [])])])])])) 1832 1867.
Definition t_methods_f15 : func := Func 277 (Some (DeclInfo (Ident 282 (str "methodC") None) (Some [(Field 279 [] 280)]) None)) (FuncType 283 [] (Some [(Field 286 [] 287)]) 1889) (Some (Node 288 (KOther (str "*ast.BlockStmt")) [(Node 289 KReturn [(Node 290 (KUnary true) [(Node 291 KComposite [(Node 293 KBasicLit [])])])])])) 1895 1924.
Definition t_methods_f16 : func := Func 294 (Some (DeclInfo (Ident 298 (str "valueMethodC") None) (Some [(Field 296 [] 297)]) None)) (FuncType 299 [] (Some [(Field 302 [] 303)]) 1950) (Some (Node 304 (KOther (str "*ast.BlockStmt")) [(Node 305 KReturn [(Node 306 (KUnary true) [(Node 307 KComposite [(Node 309 KBasicLit [])])])])])) 1956 1991.
Definition t_methods_f17 : func := Func 310 (Some (DeclInfo (Ident 315 (str "methodA") None) (Some [(Field 312 [] 313)]) (Some (comment_text [(str "// Unused, here to test that the correct methodA is found.")])))) (FuncType 316 [] (Some [(Field 319 [] 320)]) 2072) (Some (Node 321 (KOther (str "*ast.BlockStmt")) [(Node 322 KReturn [(Node 323 (KUnary true) [(Node 324 KComposite [(Node 326 KBasicLit [])])])])])) 2078 2107.
Definition t_methods_f18 : func := Func 327 (Some (DeclInfo (Ident 331 (str "valueMethodA") None) (Some [(Field 329 [] 330)]) (Some (comment_text [(str "// Unused, here to test that the correct valueMethodA is found.")])))) (FuncType 332 [] (Some [(Field 335 [] 336)]) 2197) (Some (Node 337 (KOther (str "*ast.BlockStmt")) [(Node 338 KReturn [(Node 339 (KUnary true) [(Node 340 KComposite [(Node 342 KBasicLit [])])])])])) 2203 2238.
Definition t_methods_f19 : func := Func 343 (Some (DeclInfo (Ident 349 (str "MethodCall") None) (Some [(Field 345 [(Ident 346 (str "a") (Some 1))] 347)]) (Some (comment_text [(str "// Errors:"); (str "//"); (str "//    - a-error --")])))) (FuncType 350 [] (Some [(Field 353 [] 354)]) 2298) (Some (Node 355 (KOther (str "*ast.BlockStmt")) [(Node 356 KReturn [(Node 357 KCall [(Node 358 KSelector [(Node 359 (KIdent (str "a") (Some 1)) []); (Node 360 (KIdent (str "methodA") None) [])])])])])) 2304 2368.
Definition t_methods_f20 : func := Func 361 (Some (DeclInfo (Ident 366 (str "IndirectMethodCall") None) (Some [(Field 363 [(Ident 364 (str "a") (Some 2))] 365)]) (Some (comment_text [(str "// Errors:"); (str "//"); (str "//    - a-error --")])))) (FuncType 367 [] (Some [(Field 370 [] 371)]) 2435) (Some (Node 372 (KOther (str "*ast.BlockStmt")) [(Node 373 KReturn [(Node 374 KCall [(Node 375 KSelector [(Node 376 (KIdent (str "a") (Some 2)) []); (Node 377 (KIdent (str "methodA") None) [])])])])])) 2441 2513.
Definition t_methods_f21 : func := Func 378 (Some (DeclInfo (Ident 384 (str "DereferencedMethodCall") None) (Some [(Field 380 [(Ident 381 (str "a") (Some 3))] 382)]) (Some (comment_text [(str "// Errors:"); (str "//"); (str "//    - a-value-error --")])))) (FuncType 385 [] (Some [(Field 388 [] 389)]) 2591) (Some (Node 390 (KOther (str "*ast.BlockStmt")) [(Node 391 KReturn [(Node 392 KCall [(Node 393 KSelector [(Node 394 (KIdent (str "a") (Some 3)) []); (Node 395 (KIdent (str "valueMethodA") None) [])])])])])) 2597 2684.
Definition t_methods_f22 : func := Func 396 (Some (DeclInfo (Ident 402 (str "PromotedCall") None) (Some [(Field 398 [(Ident 399 (str "d") (Some 4))] 400)]) (Some (comment_text [(str "// Errors:"); (str "//"); (str "//    - a-error --"); (str "//    - b-error --"); (str "//    - c-error --")])))) (FuncType 403 [] (Some [(Field 406 [] 407)]) 2784) (Some (Node 408 (KOther (str "*ast.BlockStmt")) [(Node 409 (KOther (str "*ast.SwitchStmt")) [(Node 410 (KOther (str "*ast.BlockStmt")) [(Node 411 (KCaseClause 1%nat) [(Node 412 (KIdent (str "true") None) []); (Node 413 KReturn [(Node 414 KCall [(Node 415 KSelector [(Node 416 (KIdent (str "d") (Some 4)) []); (Node 417 (KIdent (str "methodA") None) [])])])])]); (Node 418 (KCaseClause 1%nat) [(Node 419 (KIdent (str "true") None) []); (Node 420 KReturn [(Node 421 KCall [(Node 422 KSelector [(Node 423 (KIdent (str "d") (Some 4)) []); (Node 424 (KIdent (str "methodB") None) [])])])])]); (Node 425 (KCaseClause 1%nat) [(Node 426 (KIdent (str "true") None) []); (Node 427 KReturn [(Node 428 KCall [(Node 429 KSelector [(Node 430 (KIdent (str "d") (Some 4)) []); (Node 431 (KIdent (str "methodC") None) [])])])])])])]); (Node 432 KReturn [(Node 433 (KIdent (str "nil") None) [])])])) 2790 2976.
Definition t_methods_f23 : func := Func 434 (Some (DeclInfo (Ident 439 (str "IndirectPromotedCall") None) (Some [(Field 436 [(Ident 437 (str "d") (Some 5))] 438)]) (Some (comment_text [(str "// Errors:"); (str "//"); (str "//    - a-error --"); (str "//    - b-error --"); (str "//    - c-error --")])))) (FuncType 440 [] (Some [(Field 443 [] 444)]) 3083) (Some (Node 445 (KOther (str "*ast.BlockStmt")) [(Node 446 (KOther (str "*ast.SwitchStmt")) [(Node 447 (KOther (str "*ast.BlockStmt")) [(Node 448 (KCaseClause 1%nat) [(Node 449 (KIdent (str "true") None) []); (Node 450 KReturn [(Node 451 KCall [(Node 452 KSelector [(Node 453 (KIdent (str "d") (Some 5)) []); (Node 454 (KIdent (str "methodA") None) [])])])])]); (Node 455 (KCaseClause 1%nat) [(Node 456 (KIdent (str "true") None) []); (Node 457 KReturn [(Node 458 KCall [(Node 459 KSelector [(Node 460 (KIdent (str "d") (Some 5)) []); (Node 461 (KIdent (str "methodB") None) [])])])])]); (Node 462 (KCaseClause 1%nat) [(Node 463 (KIdent (str "true") None) []); (Node 464 KReturn [(Node 465 KCall [(Node 466 KSelector [(Node 467 (KIdent (str "d") (Some 5)) []); (Node 468 (KIdent (str "methodC") None) [])])])])])])]); (Node 469 KReturn [(Node 470 (KIdent (str "nil") None) [])])])) 3089 3283.
Definition t_methods_f24 : func := Func 471 (Some (DeclInfo (Ident 477 (str "DereferencedPromotedCall") None) (Some [(Field 473 [(Ident 474 (str "d") (Some 6))] 475)]) (Some (comment_text [(str "// Errors:"); (str "//"); (str "//    - a-value-error --"); (str "//    - b-value-error --"); (str "//    - c-value-error --")])))) (FuncType 478 [] (Some [(Field 481 [] 482)]) 3413) (Some (Node 483 (KOther (str "*ast.BlockStmt")) [(Node 484 (KOther (str "*ast.SwitchStmt")) [(Node 485 (KOther (str "*ast.BlockStmt")) [(Node 486 (KCaseClause 1%nat) [(Node 487 (KIdent (str "true") None) []); (Node 488 KReturn [(Node 489 KCall [(Node 490 KSelector [(Node 491 (KIdent (str "d") (Some 6)) []); (Node 492 (KIdent (str "valueMethodA") None) [])])])])]); (Node 493 (KCaseClause 1%nat) [(Node 494 (KIdent (str "true") None) []); (Node 495 KReturn [(Node 496 KCall [(Node 497 KSelector [(Node 498 (KIdent (str "d") (Some 6)) []); (Node 499 (KIdent (str "valueMethodB") None) [])])])])]); (Node 500 (KCaseClause 1%nat) [(Node 501 (KIdent (str "true") None) []); (Node 502 KReturn [(Node 503 KCall [(Node 504 KSelector [(Node 505 (KIdent (str "d") (Some 6)) []); (Node 506 (KIdent (str "valueMethodC") None) [])])])])])])]); (Node 507 KReturn [(Node 508 (KIdent (str "nil") None) [])])])) 3419 3651.
Definition t_methods_f25 : func := Func 509 (Some (DeclInfo (Ident 510 (str "FunctionCallingMethods") (Some 7)) None (Some (comment_text [(str "// Errors:"); (str "//"); (str "//    - a-error --"); (str "//    - b-error --"); (str "//    - c-error --"); (str "//    - x-error --")])))) (FuncType 511 [(Field 513 [(Ident 514 (str "a") (Some 8))] 515); (Field 517 [(Ident 518 (str "b") (Some 9))] 519); (Field 520 [(Ident 521 (str "d") (Some 10))] 522); (Field 524 [(Ident 525 (str "x") (Some 11))] 526)] (Some [(Field 529 [] 530)]) 3794) (Some (Node 531 (KOther (str "*ast.BlockStmt")) [(Node 532 (KOther (str "*ast.SwitchStmt")) [(Node 533 (KOther (str "*ast.BlockStmt")) [(Node 534 (KCaseClause 1%nat) [(Node 535 (KIdent (str "true") None) []); (Node 536 KReturn [(Node 537 KCall [(Node 538 KSelector [(Node 539 (KIdent (str "a") (Some 8)) []); (Node 540 (KIdent (str "methodA") None) [])])])])]); (Node 541 (KCaseClause 1%nat) [(Node 542 (KIdent (str "true") None) []); (Node 543 KReturn [(Node 544 KCall [(Node 545 KSelector [(Node 546 (KIdent (str "b") (Some 9)) []); (Node 547 (KIdent (str "methodB") None) [])])])])]); (Node 548 (KCaseClause 1%nat) [(Node 549 (KIdent (str "true") None) []); (Node 550 KReturn [(Node 551 KCall [(Node 552 KSelector [(Node 553 (KIdent (str "d") (Some 10)) []); (Node 554 (KIdent (str "methodC") None) [])])])])]); (Node 555 (KCaseClause 1%nat) [(Node 556 (KIdent (str "true") None) []); (Node 557 KReturn [(Node 558 KCall [(Node 559 KSelector [(Node 560 (KIdent (str "x") (Some 11)) []); (Node 561 (KIdent (str "methodA") None) [])])])])])])]); (Node 562 KReturn [(Node 563 (KIdent (str "nil") None) [])])])) 3800 4037.
Definition t_methods_f26 : func := Func 564 (Some (DeclInfo (Ident 565 (str "ArrayMethodCall") (Some 12)) None (Some (comment_text [(str "// Errors:"); (str "//"); (str "//    - a-error --"); (str "//    - b-error --"); (str "//    - c-error --")])))) (FuncType 566 [(Field 568 [(Ident 569 (str "ds") (Some 13))] 570)] (Some [(Field 573 [] 574)]) 4139) (Some (Node 575 (KOther (str "*ast.BlockStmt")) [(Node 576 (KOther (str "*ast.SwitchStmt")) [(Node 577 (KOther (str "*ast.BlockStmt")) [(Node 578 (KCaseClause 1%nat) [(Node 579 (KIdent (str "true") None) []); (Node 580 KReturn [(Node 581 KCall [(Node 582 KSelector [(Node 583 KIndex [(Node 584 (KIdent (str "ds") (Some 13)) []); (Node 585 KBasicLit [])]); (Node 586 (KIdent (str "methodA") None) [])])])])]); (Node 587 (KCaseClause 1%nat) [(Node 588 (KIdent (str "true") None) []); (Node 589 KReturn [(Node 590 KCall [(Node 591 KSelector [(Node 592 KIndex [(Node 593 (KIdent (str "ds") (Some 13)) []); (Node 594 KBasicLit [])]); (Node 595 (KIdent (str "methodB") None) [])])])])]); (Node 596 (KCaseClause 1%nat) [(Node 597 (KIdent (str "true") None) []); (Node 598 (KRange true true) [(Node 599 (KIdent (str "_") (Some 14)) []); (Node 600 (KIdent (str "d") (Some 15)) []); (Node 601 (KIdent (str "ds") (Some 13)) []); (Node 602 (KOther (str "*ast.BlockStmt")) [(Node 603 KReturn [(Node 604 KCall [(Node 605 KSelector [(Node 606 (KIdent (str "d") (Some 15)) []); (Node 607 (KIdent (str "methodC") None) [])])])])])])])])]); (Node 608 KReturn [(Node 609 (KIdent (str "nil") None) [])])])) 4145 4372.
Definition t_methods_f27 : func := Func 610 (Some (DeclInfo (Ident 611 (str "Struct") (Some 16)) None (Some (comment_text [(str "// Errors:"); (str "//"); (str "//    - a-error --")])))) (FuncType 612 [(Field 614 [(Ident 615 (str "s") (Some 17))] 616)] (Some [(Field 623 [] 624)]) 4437) (Some (Node 625 (KOther (str "*ast.BlockStmt")) [(Node 626 KReturn [(Node 627 KCall [(Node 628 KSelector [(Node 629 KSelector [(Node 630 (KIdent (str "s") (Some 17)) []); (Node 631 (KIdent (str "D") None) [])]); (Node 632 (KIdent (str "methodA") None) [])])])])])) 4443 4505.
Definition t_methods_f28 : func := Func 633 (Some (DeclInfo (Ident 639 (str "MultipleResults") None) (Some [(Field 635 [(Ident 636 (str "d") (Some 18))] 637)]) (Some (comment_text [(str "// Errors:"); (str "//"); (str "//    - c-error --")])))) (FuncType 640 [] (Some [(Field 643 [] 644); (Field 646 [] 647); (Field 648 [] 649)]) 4570) (Some (Node 650 (KOther (str "*ast.BlockStmt")) [(Node 651 KReturn [(Node 652 (KIdent (str "d") (Some 18)) []); (Node 653 KSelector [(Node 654 (KIdent (str "d") (Some 18)) []); (Node 655 (KIdent (str "A") None) [])]); (Node 656 KCall [(Node 657 KSelector [(Node 658 (KIdent (str "d") (Some 18)) []); (Node 659 (KIdent (str "methodC") None) [])])])])])) 4585 4662.
Definition t_methods_f29 : func := Func 660 (Some (DeclInfo (Ident 661 (str "CallMultipleResults") (Some 19)) None (Some (comment_text [(str "// Errors:"); (str "//"); (str "//    - a-error --"); (str "//    - c-error --")])))) (FuncType 662 [(Field 664 [(Ident 665 (str "d") (Some 20))] 666)] (Some [(Field 669 [] 670)]) 4747) (Some (Node 671 (KOther (str "*ast.BlockStmt")) [(Node 672 (KAssign 3%nat) [(Node 673 (KIdent (str "_") (Some 21)) []); (Node 674 (KIdent (str "a") (Some 22)) []); (Node 675 (KIdent (str "err") (Some 23)) []); (Node 676 KCall [(Node 677 KSelector [(Node 678 (KIdent (str "d") (Some 20)) []); (Node 679 (KIdent (str "MultipleResults") None) [])])])]); (Node 680 (KOther (str "*ast.IfStmt")) [(Node 681 (KOther (str "*ast.BinaryExpr")) [(Node 682 (KIdent (str "err") (Some 23)) []); (Node 683 (KIdent (str "nil") None) [])]); (Node 684 (KOther (str "*ast.BlockStmt")) [(Node 685 KReturn [(Node 686 (KIdent (str "err") (Some 23)) [])])])]); (Node 687 KReturn [(Node 688 KCall [(Node 689 KSelector [(Node 690 (KIdent (str "a") (Some 22)) []); (Node 691 (KIdent (str "methodA") None) [])])])])])) 4753 4902.
Definition t_methods_f30 : func := Func 692 (Some (DeclInfo (Ident 698 (str "self") None) (Some [(Field 694 [(Ident 695 (str "d") (Some 24))] 696)]) None)) (FuncType 699 [] (Some [(Field 702 [] 703)]) 4923) (Some (Node 705 (KOther (str "*ast.BlockStmt")) [(Node 706 KReturn [(Node 707 (KIdent (str "d") (Some 24)) [])])])) 4926 4939.
Definition t_methods_f31 : func := Func 708 (Some (DeclInfo (Ident 714 (str "Chained") None) (Some [(Field 710 [(Ident 711 (str "d") (Some 25))] 712)]) (Some (comment_text [(str "// Errors:"); (str "//"); (str "//    - a-error --")])))) (FuncType 715 [] (Some [(Field 718 [] 719)]) 4996) (Some (Node 720 (KOther (str "*ast.BlockStmt")) [(Node 721 KReturn [(Node 722 KCall [(Node 723 KSelector [(Node 724 KCall [(Node 725 KSelector [(Node 726 KCall [(Node 727 KSelector [(Node 728 KCall [(Node 729 KSelector [(Node 730 KCall [(Node 731 KSelector [(Node 732 (KIdent (str "d") (Some 25)) []); (Node 733 (KIdent (str "self") None) [])])]); (Node 734 (KIdent (str "self") None) [])])]); (Node 735 (KIdent (str "self") None) [])])]); (Node 736 (KIdent (str "self") None) [])])]); (Node 737 (KIdent (str "methodA") None) [])])])])])) 5002 5091.
Definition t_methods_f32 : func := Func 746 (Some (DeclInfo (Ident 752 (str "Code") None) (Some [(Field 748 [(Ident 749 (str "e") (Some 26))] 750)]) None)) (FuncType 753 [] (Some [(Field 756 [] 757)]) 5225) (Some (Node 758 (KOther (str "*ast.BlockStmt")) [(Node 759 KReturn [(Node 760 KSelector [(Node 761 (KIdent (str "e") (Some 26)) []); (Node 762 (KIdent (str "TheCode") None) [])])])])) 5246 5266.
Definition t_methods_f33 : func := Func 763 (Some (DeclInfo (Ident 769 (str "Message") None) (Some [(Field 765 [(Ident 766 (str "e") (Some 27))] 767)]) None)) (FuncType 770 [] (Some [(Field 773 [] 774)]) 5293) (Some (Node 775 (KOther (str "*ast.BlockStmt")) [(Node 776 KReturn [(Node 777 KSelector [(Node 778 (KIdent (str "e") (Some 27)) []); (Node 779 (KIdent (str "TheCode") None) [])])])])) 5311 5331.
Definition t_methods_f34 : func := Func 780 (Some (DeclInfo (Ident 786 (str "Details") None) (Some [(Field 782 [(Ident 783 (str "e") (Some 28))] 784)]) None)) (FuncType 787 [] (Some [(Field 790 [] 791)]) 5358) (Some (Node 794 (KOther (str "*ast.BlockStmt")) [(Node 795 KReturn [(Node 796 (KIdent (str "nil") None) [])])])) 5376 5390.
Definition t_methods_f35 : func := Func 797 (Some (DeclInfo (Ident 803 (str "Cause") None) (Some [(Field 799 [(Ident 800 (str "e") (Some 29))] 801)]) None)) (FuncType 804 [] (Some [(Field 807 [] 808)]) 5415) (Some (Node 809 (KOther (str "*ast.BlockStmt")) [(Node 810 KReturn [(Node 811 (KIdent (str "nil") None) [])])])) 5435 5449.
Definition t_methods_f36 : func := Func 812 (Some (DeclInfo (Ident 818 (str "Error") None) (Some [(Field 814 [(Ident 815 (str "e") (Some 30))] 816)]) None)) (FuncType 819 [] (Some [(Field 822 [] 823)]) 5474) (Some (Node 824 (KOther (str "*ast.BlockStmt")) [(Node 825 KReturn [(Node 826 KCall [(Node 827 KSelector [(Node 828 (KIdent (str "e") (Some 30)) []); (Node 829 (KIdent (str "Message") None) [])])])])])) 5494 5516.
Definition t_methods_gendecls : list gendecl := [GenDecl 3 [(Some (TypeSpec (Ident 5 (str "A") (Some 31)) XOther)); (Some (TypeSpec (Ident 8 (str "B") (Some 32)) (XStruct []))); (Some (TypeSpec (Ident 12 (str "C") (Some 33)) (XStruct [[(Ident 16 (str "U") None); (Ident 17 (str "V") None)]]))); (Some (TypeSpec (Ident 20 (str "D") (Some 34)) (XStruct [[]; []; []]))); (Some (TypeSpec (Ident 30 (str "X") (Some 35)) XOther)); (Some (TypeSpec (Ident 33 (str "Y") (Some 36)) (XStruct []))); (Some (TypeSpec (Ident 37 (str "Z") (Some 37)) (XStruct [[(Ident 41 (str "S") None)]; [(Ident 44 (str "T") None)]])))]; GenDecl 738 [(Some (TypeSpec (Ident 740 (str "Error") (Some 38)) (XStruct [[(Ident 744 (str "TheCode") None)]])))]].
Definition t_methods_top : list topdecl := [TopNode (Node 3 (KOther (str "*ast.GenDecl")) [(Node 4 (KOther (str "*ast.TypeSpec")) []); (Node 7 (KOther (str "*ast.TypeSpec")) []); (Node 11 (KOther (str "*ast.TypeSpec")) []); (Node 19 (KOther (str "*ast.TypeSpec")) []); (Node 29 (KOther (str "*ast.TypeSpec")) []); (Node 32 (KOther (str "*ast.TypeSpec")) []); (Node 36 (KOther (str "*ast.TypeSpec")) [])]); TopFunc 1; TopFunc 2; TopFunc 3; TopFunc 4; TopFunc 5; TopFunc 6; TopFunc 7; TopFunc 8; TopFunc 9; TopFunc 10; TopFunc 11; TopFunc 12; TopFunc 13; TopFunc 14; TopFunc 15; TopFunc 16; TopFunc 17; TopFunc 18; TopFunc 19; TopFunc 20; TopFunc 21; TopFunc 22; TopFunc 23; TopFunc 24; TopFunc 25; TopFunc 26; TopFunc 27; TopFunc 28; TopFunc 29; TopFunc 30; TopFunc 31; TopNode (Node 738 (KOther (str "*ast.GenDecl")) [(Node 739 (KOther (str "*ast.TypeSpec")) [])]); TopFunc 32; TopFunc 33; TopFunc 34; TopFunc 35; TopFunc 36].
Definition t_methods_objs : list (N * object) := [(1, Object true 2279 DOther); (2, Object true 2409 DOther); (3, Object true 2560 DOther); (4, Object true 2763 DOther); (5, Object true 3055 DOther); (6, Object true 3380 DOther); (7, Object false 3748 (DFunc 25)); (8, Object true 3771 DOther); (9, Object true 3777 DOther); (10, Object true 3782 DOther); (11, Object true 3788 DOther); (12, Object false 4115 (DFunc 26)); (13, Object true 4131 DOther); (14, Object true 4311 DOther); (15, Object true 4314 DOther); (16, Object false 4412 (DFunc 27)); (17, Object true 4419 DOther); (18, Object true 4546 DOther); (19, Object false 4721 (DFunc 29)); (20, Object true 4741 DOther); (21, Object true 4814 DOther); (22, Object true 4817 DOther); (23, Object true 4820 DOther); (24, Object true 4910 DOther); (25, Object true 4980 DOther); (26, Object true 5208 DOther); (27, Object true 5273 DOther); (28, Object true 5338 DOther); (29, Object true 5397 DOther); (30, Object true 5456 DOther); (31, Object false 26 DType); (32, Object false 36 DType); (33, Object false 48 DType); (34, Object false 77 DType); (35, Object false 104 DType); (36, Object false 114 DType); (37, Object false 126 DType); (38, Object false 5098 DType)].
Definition t_methods_types : list (N * gotype) := [(5, (TNamed 47)); (6, (TBasic (str "string"))); (8, (TNamed 48)); (9, (TStruct [])); (12, (TNamed 49)); (13, (TStruct [((str "U"), (TBasic (str "string"))); ((str "V"), (TBasic (str "string")))])); (16, (TBasic (str "string"))); (17, (TBasic (str "string"))); (18, (TBasic (str "string"))); (20, (TNamed 50)); (21, (TStruct [((str "A"), (TNamed 47)); ((str "B"), (TNamed 48)); ((str "C"), (TNamed 49))])); (24, (TNamed 47)); (26, (TNamed 48)); (28, (TNamed 49)); (30, (TNamed 51)); (31, (TBasic (str "string"))); (33, (TNamed 52)); (34, (TStruct [])); (37, (TNamed 53)); (38, (TStruct [((str "S"), (TBasic (str "int"))); ((str "T"), (TBasic (str "string")))])); (41, (TBasic (str "int"))); (42, (TBasic (str "int"))); (44, (TBasic (str "string"))); (45, (TBasic (str "string"))); (49, (TNamed 47)); (51, (TSignature [] [(TNamed 1)] false)); (55, (TNamed 1)); (58, (TPointer (TNamed 85))); (59, (TNamed 85)); (60, (TNamed 85)); (61, (TBasic (str "string"))); (65, (TNamed 48)); (67, (TSignature [] [(TNamed 1)] false)); (71, (TNamed 1)); (74, (TPointer (TNamed 85))); (75, (TNamed 85)); (76, (TNamed 85)); (77, (TBasic (str "string"))); (81, (TNamed 49)); (83, (TSignature [] [(TNamed 1)] false)); (87, (TNamed 1)); (90, (TPointer (TNamed 85))); (91, (TNamed 85)); (92, (TNamed 85)); (93, (TBasic (str "string"))); (97, (TNamed 50)); (99, (TSignature [] [(TNamed 1)] false)); (103, (TNamed 1)); (106, (TPointer (TNamed 85))); (107, (TNamed 85)); (108, (TNamed 85)); (109, (TBasic (str "string"))); (113, (TPointer (TNamed 47))); (114, (TNamed 47)); (116, (TSignature [] [(TNamed 1)] false)); (120, (TNamed 1)); (123, (TPointer (TNamed 85))); (124, (TNamed 85)); (125, (TNamed 85)); (126, (TBasic (str "string"))); (130, (TPointer (TNamed 48))); (131, (TNamed 48)); (133, (TSignature [] [(TNamed 1)] false)); (137, (TNamed 1)); (140, (TPointer (TNamed 85))); (141, (TNamed 85)); (142, (TNamed 85)); (143, (TBasic (str "string"))); (147, (TPointer (TNamed 49))); (148, (TNamed 49)); (150, (TSignature [] [(TNamed 1)] false)); (154, (TNamed 1)); (157, (TPointer (TNamed 85))); (158, (TNamed 85)); (159, (TNamed 85)); (160, (TBasic (str "string"))); (164, (TPointer (TNamed 50))); (165, (TNamed 50)); (167, (TSignature [] [(TNamed 1)] false)); (171, (TNamed 1)); (174, (TPointer (TNamed 85))); (175, (TNamed 85)); (176, (TNamed 85)); (177, (TBasic (str "string"))); (181, (TPointer (TNamed 51))); (182, (TNamed 51)); (184, (TSignature [] [(TNamed 1)] false)); (188, (TNamed 1)); (191, (TPointer (TNamed 85))); (192, (TNamed 85)); (193, (TNamed 85)); (194, (TBasic (str "string"))); (198, (TNamed 51)); (200, (TSignature [] [(TNamed 1)] false)); (204, (TNamed 1)); (207, (TPointer (TNamed 85))); (208, (TNamed 85)); (209, (TNamed 85)); (210, (TBasic (str "string"))); (214, (TPointer (TNamed 47))); (215, (TNamed 47)); (217, (TSignature [] [(TNamed 1)] false)); (221, (TNamed 1)); (224, (TPointer (TNamed 85))); (225, (TNamed 85)); (226, (TNamed 85)); (227, (TBasic (str "string"))); (231, (TNamed 47)); (233, (TSignature [] [(TNamed 1)] false)); (237, (TNamed 1)); (240, (TPointer (TNamed 85))); (241, (TNamed 85)); (242, (TNamed 85)); (243, (TBasic (str "string"))); (247, (TPointer (TNamed 48))); (248, (TNamed 48)); (250, (TSignature [] [(TNamed 1)] false)); (254, (TNamed 1)); (257, (TPointer (TNamed 85))); (258, (TNamed 85)); (259, (TNamed 85)); (260, (TBasic (str "string"))); (264, (TNamed 48)); (266, (TSignature [] [(TNamed 1)] false)); (270, (TNamed 1)); (273, (TPointer (TNamed 85))); (274, (TNamed 85)); (275, (TNamed 85)); (276, (TBasic (str "string"))); (280, (TPointer (TNamed 49))); (281, (TNamed 49)); (283, (TSignature [] [(TNamed 1)] false)); (287, (TNamed 1)); (290, (TPointer (TNamed 85))); (291, (TNamed 85)); (292, (TNamed 85)); (293, (TBasic (str "string"))); (297, (TNamed 49)); (299, (TSignature [] [(TNamed 1)] false)); (303, (TNamed 1)); (306, (TPointer (TNamed 85))); (307, (TNamed 85)); (308, (TNamed 85)); (309, (TBasic (str "string"))); (313, (TPointer (TNamed 52))); (314, (TNamed 52)); (316, (TSignature [] [(TNamed 1)] false)); (320, (TNamed 1)); (323, (TPointer (TNamed 85))); (324, (TNamed 85)); (325, (TNamed 85)); (326, (TBasic (str "string"))); (330, (TNamed 52)); (332, (TSignature [] [(TNamed 1)] false)); (336, (TNamed 1)); (339, (TPointer (TNamed 85))); (340, (TNamed 85)); (341, (TNamed 85)); (342, (TBasic (str "string"))); (346, (TPointer (TNamed 47))); (347, (TPointer (TNamed 47))); (348, (TNamed 47)); (350, (TSignature [] [(TNamed 1)] false)); (354, (TNamed 1)); (357, (TNamed 1)); (358, (TSignature [] [(TNamed 1)] false)); (359, (TPointer (TNamed 47))); (360, (TSignature [] [(TNamed 1)] false)); (364, (TNamed 47)); (365, (TNamed 47)); (367, (TSignature [] [(TNamed 1)] false)); (371, (TNamed 1)); (374, (TNamed 1)); (375, (TSignature [] [(TNamed 1)] false)); (376, (TNamed 47)); (377, (TSignature [] [(TNamed 1)] false)); (381, (TPointer (TNamed 47))); (382, (TPointer (TNamed 47))); (383, (TNamed 47)); (385, (TSignature [] [(TNamed 1)] false)); (389, (TNamed 1)); (392, (TNamed 1)); (393, (TSignature [] [(TNamed 1)] false)); (394, (TPointer (TNamed 47))); (395, (TSignature [] [(TNamed 1)] false)); (399, (TPointer (TNamed 50))); (400, (TPointer (TNamed 50))); (401, (TNamed 50)); (403, (TSignature [] [(TNamed 1)] false)); (407, (TNamed 1)); (412, (TBasic (str "bool"))); (414, (TNamed 1)); (415, (TSignature [] [(TNamed 1)] false)); (416, (TPointer (TNamed 50))); (417, (TSignature [] [(TNamed 1)] false)); (419, (TBasic (str "bool"))); (421, (TNamed 1)); (422, (TSignature [] [(TNamed 1)] false)); (423, (TPointer (TNamed 50))); (424, (TSignature [] [(TNamed 1)] false)); (426, (TBasic (str "bool"))); (428, (TNamed 1)); (429, (TSignature [] [(TNamed 1)] false)); (430, (TPointer (TNamed 50))); (431, (TSignature [] [(TNamed 1)] false)); (433, TUntypedNil); (437, (TNamed 50)); (438, (TNamed 50)); (440, (TSignature [] [(TNamed 1)] false)); (444, (TNamed 1)); (449, (TBasic (str "bool"))); (451, (TNamed 1)); (452, (TSignature [] [(TNamed 1)] false)); (453, (TNamed 50)); (454, (TSignature [] [(TNamed 1)] false)); (456, (TBasic (str "bool"))); (458, (TNamed 1)); (459, (TSignature [] [(TNamed 1)] false)); (460, (TNamed 50)); (461, (TSignature [] [(TNamed 1)] false)); (463, (TBasic (str "bool"))); (465, (TNamed 1)); (466, (TSignature [] [(TNamed 1)] false)); (467, (TNamed 50)); (468, (TSignature [] [(TNamed 1)] false)); (470, TUntypedNil); (474, (TPointer (TNamed 50))); (475, (TPointer (TNamed 50))); (476, (TNamed 50)); (478, (TSignature [] [(TNamed 1)] false)); (482, (TNamed 1)); (487, (TBasic (str "bool"))); (489, (TNamed 1)); (490, (TSignature [] [(TNamed 1)] false)); (491, (TPointer (TNamed 50))); (492, (TSignature [] [(TNamed 1)] false)); (494, (TBasic (str "bool"))); (496, (TNamed 1)); (497, (TSignature [] [(TNamed 1)] false)); (498, (TPointer (TNamed 50))); (499, (TSignature [] [(TNamed 1)] false)); (501, (TBasic (str "bool"))); (503, (TNamed 1)); (504, (TSignature [] [(TNamed 1)] false)); (505, (TPointer (TNamed 50))); (506, (TSignature [] [(TNamed 1)] false)); (508, TUntypedNil); (511, (TSignature [(TPointer (TNamed 47)); (TNamed 48); (TPointer (TNamed 50)); (TPointer (TNamed 51))] [(TNamed 1)] false)); (514, (TPointer (TNamed 47))); (515, (TPointer (TNamed 47))); (516, (TNamed 47)); (518, (TNamed 48)); (519, (TNamed 48)); (521, (TPointer (TNamed 50))); (522, (TPointer (TNamed 50))); (523, (TNamed 50)); (525, (TPointer (TNamed 51))); (526, (TPointer (TNamed 51))); (527, (TNamed 51)); (530, (TNamed 1)); (535, (TBasic (str "bool"))); (537, (TNamed 1)); (538, (TSignature [] [(TNamed 1)] false)); (539, (TPointer (TNamed 47))); (540, (TSignature [] [(TNamed 1)] false)); (542, (TBasic (str "bool"))); (544, (TNamed 1)); (545, (TSignature [] [(TNamed 1)] false)); (546, (TNamed 48)); (547, (TSignature [] [(TNamed 1)] false)); (549, (TBasic (str "bool"))); (551, (TNamed 1)); (552, (TSignature [] [(TNamed 1)] false)); (553, (TPointer (TNamed 50))); (554, (TSignature [] [(TNamed 1)] false)); (556, (TBasic (str "bool"))); (558, (TNamed 1)); (559, (TSignature [] [(TNamed 1)] false)); (560, (TPointer (TNamed 51))); (561, (TSignature [] [(TNamed 1)] false)); (563, TUntypedNil); (566, (TSignature [(TSlice (TNamed 50))] [(TNamed 1)] false)); (569, (TSlice (TNamed 50))); (570, (TSlice (TNamed 50))); (571, (TNamed 50)); (574, (TNamed 1)); (579, (TBasic (str "bool"))); (581, (TNamed 1)); (582, (TSignature [] [(TNamed 1)] false)); (583, (TNamed 50)); (584, (TSlice (TNamed 50))); (585, (TBasic (str "int"))); (586, (TSignature [] [(TNamed 1)] false)); (588, (TBasic (str "bool"))); (590, (TNamed 1)); (591, (TSignature [] [(TNamed 1)] false)); (592, (TNamed 50)); (593, (TSlice (TNamed 50))); (594, (TBasic (str "int"))); (595, (TSignature [] [(TNamed 1)] false)); (597, (TBasic (str "bool"))); (599, (TBasic (str "int"))); (600, (TNamed 50)); (601, (TSlice (TNamed 50))); (604, (TNamed 1)); (605, (TSignature [] [(TNamed 1)] false)); (606, (TNamed 50)); (607, (TSignature [] [(TNamed 1)] false)); (609, TUntypedNil); (612, (TSignature [(TPointer (TStruct [((str "D"), (TNamed 50))]))] [(TNamed 1)] false)); (615, (TPointer (TStruct [((str "D"), (TNamed 50))]))); (616, (TPointer (TStruct [((str "D"), (TNamed 50))]))); (617, (TStruct [((str "D"), (TNamed 50))])); (620, (TNamed 50)); (621, (TNamed 50)); (624, (TNamed 1)); (627, (TNamed 1)); (628, (TSignature [] [(TNamed 1)] false)); (629, (TNamed 50)); (630, (TPointer (TStruct [((str "D"), (TNamed 50))]))); (631, (TNamed 50)); (632, (TSignature [] [(TNamed 1)] false)); (636, (TPointer (TNamed 50))); (637, (TPointer (TNamed 50))); (638, (TNamed 50)); (640, (TSignature [] [(TPointer (TNamed 50)); (TNamed 47); (TNamed 1)] false)); (644, (TPointer (TNamed 50))); (645, (TNamed 50)); (647, (TNamed 47)); (649, (TNamed 1)); (652, (TPointer (TNamed 50))); (653, (TNamed 47)); (654, (TPointer (TNamed 50))); (655, (TNamed 47)); (656, (TNamed 1)); (657, (TSignature [] [(TNamed 1)] false)); (658, (TPointer (TNamed 50))); (659, (TSignature [] [(TNamed 1)] false)); (662, (TSignature [(TPointer (TNamed 50))] [(TNamed 1)] false)); (665, (TPointer (TNamed 50))); (666, (TPointer (TNamed 50))); (667, (TNamed 50)); (670, (TNamed 1)); (673, (TPointer (TNamed 50))); (674, (TNamed 47)); (675, (TNamed 1)); (676, (TTuple [(TPointer (TNamed 50)); (TNamed 47); (TNamed 1)])); (677, (TSignature [] [(TPointer (TNamed 50)); (TNamed 47); (TNamed 1)] false)); (678, (TPointer (TNamed 50))); (679, (TSignature [] [(TPointer (TNamed 50)); (TNamed 47); (TNamed 1)] false)); (681, (TBasic (str "bool"))); (682, (TNamed 1)); (683, TUntypedNil); (686, (TNamed 1)); (688, (TNamed 1)); (689, (TSignature [] [(TNamed 1)] false)); (690, (TNamed 47)); (691, (TSignature [] [(TNamed 1)] false)); (695, (TPointer (TNamed 50))); (696, (TPointer (TNamed 50))); (697, (TNamed 50)); (699, (TSignature [] [(TPointer (TNamed 50))] false)); (703, (TPointer (TNamed 50))); (704, (TNamed 50)); (707, (TPointer (TNamed 50))); (711, (TPointer (TNamed 50))); (712, (TPointer (TNamed 50))); (713, (TNamed 50)); (715, (TSignature [] [(TNamed 1)] false)); (719, (TNamed 1)); (722, (TNamed 1)); (723, (TSignature [] [(TNamed 1)] false)); (724, (TPointer (TNamed 50))); (725, (TSignature [] [(TPointer (TNamed 50))] false)); (726, (TPointer (TNamed 50))); (727, (TSignature [] [(TPointer (TNamed 50))] false)); (728, (TPointer (TNamed 50))); (729, (TSignature [] [(TPointer (TNamed 50))] false)); (730, (TPointer (TNamed 50))); (731, (TSignature [] [(TPointer (TNamed 50))] false)); (732, (TPointer (TNamed 50))); (733, (TSignature [] [(TPointer (TNamed 50))] false)); (734, (TSignature [] [(TPointer (TNamed 50))] false)); (735, (TSignature [] [(TPointer (TNamed 50))] false)); (736, (TSignature [] [(TPointer (TNamed 50))] false)); (737, (TSignature [] [(TNamed 1)] false)); (740, (TNamed 85)); (741, (TStruct [((str "TheCode"), (TBasic (str "string")))])); (744, (TBasic (str "string"))); (745, (TBasic (str "string"))); (749, (TPointer (TNamed 85))); (750, (TPointer (TNamed 85))); (751, (TNamed 85)); (753, (TSignature [] [(TBasic (str "string"))] false)); (757, (TBasic (str "string"))); (760, (TBasic (str "string"))); (761, (TPointer (TNamed 85))); (762, (TBasic (str "string"))); (766, (TPointer (TNamed 85))); (767, (TPointer (TNamed 85))); (768, (TNamed 85)); (770, (TSignature [] [(TBasic (str "string"))] false)); (774, (TBasic (str "string"))); (777, (TBasic (str "string"))); (778, (TPointer (TNamed 85))); (779, (TBasic (str "string"))); (783, (TPointer (TNamed 85))); (784, (TPointer (TNamed 85))); (785, (TNamed 85)); (787, (TSignature [] [(TMap (TBasic (str "string")) (TBasic (str "string")))] false)); (791, (TMap (TBasic (str "string")) (TBasic (str "string")))); (792, (TBasic (str "string"))); (793, (TBasic (str "string"))); (796, TUntypedNil); (800, (TPointer (TNamed 85))); (801, (TPointer (TNamed 85))); (802, (TNamed 85)); (804, (TSignature [] [(TNamed 1)] false)); (808, (TNamed 1)); (811, TUntypedNil); (815, (TPointer (TNamed 85))); (816, (TPointer (TNamed 85))); (817, (TNamed 85)); (819, (TSignature [] [(TBasic (str "string"))] false)); (823, (TBasic (str "string"))); (826, (TBasic (str "string"))); (827, (TSignature [] [(TBasic (str "string"))] false)); (828, (TPointer (TNamed 85))); (829, (TSignature [] [(TBasic (str "string"))] false))].
Definition t_methods_values : list (N * constval) := [(61, CString (str "easy-error")); (77, CString (str "easy-error")); (93, CString (str "easy-error")); (109, CString (str "easy-error")); (126, CString (str "easy-error")); (143, CString (str "easy-error")); (160, CString (str "easy-error")); (177, CString (str "easy-error")); (194, CString (str "x-error")); (210, CString (str "x-value-error")); (227, CString (str "a-error")); (243, CString (str "a-value-error")); (260, CString (str "b-error")); (276, CString (str "b-value-error")); (293, CString (str "c-error")); (309, CString (str "c-value-error")); (326, CString (str "y-error")); (342, CString (str "y-value-error")); (412, COther); (419, COther); (426, COther); (449, COther); (456, COther); (463, COther); (487, COther); (494, COther); (501, COther); (535, COther); (542, COther); (549, COther); (556, COther); (579, COther); (585, COther); (588, COther); (594, COther); (597, COther)].
Definition t_methods_uses : list (N * tobj) := [(6, 5); (18, 5); (24, 47); (26, 48); (28, 49); (31, 5); (42, 6); (45, 5); (49, 47); (55, 1); (60, 85); (65, 48); (71, 1); (76, 85); (81, 49); (87, 1); (92, 85); (97, 50); (103, 1); (108, 85); (114, 47); (120, 1); (125, 85); (131, 48); (137, 1); (142, 85); (148, 49); (154, 1); (159, 85); (165, 50); (171, 1); (176, 85); (182, 51); (188, 1); (193, 85); (198, 51); (204, 1); (209, 85); (215, 47); (221, 1); (226, 85); (231, 47); (237, 1); (242, 85); (248, 48); (254, 1); (259, 85); (264, 48); (270, 1); (275, 85); (281, 49); (287, 1); (292, 85); (297, 49); (303, 1); (308, 85); (314, 52); (320, 1); (325, 85); (330, 52); (336, 1); (341, 85); (348, 47); (354, 1); (359, 91); (360, 64); (365, 47); (371, 1); (376, 92); (377, 64); (383, 47); (389, 1); (394, 93); (395, 65); (401, 50); (407, 1); (412, 21); (416, 94); (417, 64); (419, 21); (423, 94); (424, 66); (426, 21); (430, 94); (431, 68); (433, 24); (438, 50); (444, 1); (449, 21); (453, 95); (454, 64); (456, 21); (460, 95); (461, 66); (463, 21); (467, 95); (468, 68); (470, 24); (476, 50); (482, 1); (487, 21); (491, 96); (492, 65); (494, 21); (498, 96); (499, 67); (501, 21); (505, 96); (506, 69); (508, 24); (516, 47); (519, 48); (523, 50); (527, 51); (530, 1); (535, 21); (539, 105); (540, 64); (542, 21); (546, 106); (547, 66); (549, 21); (553, 107); (554, 68); (556, 21); (560, 108); (561, 62); (563, 24); (571, 50); (574, 1); (579, 21); (584, 109); (586, 64); (588, 21); (593, 109); (595, 66); (597, 21); (601, 109); (606, 115); (607, 68); (609, 24); (621, 50); (624, 1); (630, 110); (631, 116); (632, 64); (638, 50); (645, 50); (647, 47); (649, 1); (652, 97); (654, 97); (655, 112); (658, 97); (659, 68); (667, 50); (670, 1); (678, 111); (679, 81); (682, 119); (683, 24); (686, 119); (690, 118); (691, 64); (697, 50); (704, 50); (707, 98); (713, 50); (719, 1); (732, 99); (733, 83); (734, 83); (735, 83); (736, 83); (737, 64); (745, 5); (751, 85); (757, 5); (761, 100); (762, 113); (768, 85); (774, 5); (778, 101); (779, 113); (785, 85); (792, 5); (793, 5); (796, 24); (802, 85); (808, 1); (811, 24); (817, 85); (823, 5); (828, 104); (829, 87)].
Definition t_methods_defs : list (N * tobj) := [(5, 47); (8, 48); (12, 49); (20, 50); (30, 51); (33, 52); (37, 53); (50, 54); (66, 55); (82, 56); (98, 57); (115, 58); (132, 59); (149, 60); (166, 61); (183, 62); (199, 63); (216, 64); (232, 65); (249, 66); (265, 67); (282, 68); (298, 69); (315, 70); (331, 71); (346, 91); (349, 72); (364, 92); (366, 73); (381, 93); (384, 74); (399, 94); (402, 75); (437, 95); (439, 76); (474, 96); (477, 77); (510, 78); (514, 105); (518, 106); (521, 107); (525, 108); (565, 79); (569, 109); (599, 114); (600, 115); (611, 80); (615, 110); (636, 97); (639, 81); (661, 82); (665, 111); (673, 117); (674, 118); (675, 119); (695, 98); (698, 83); (711, 99); (714, 84); (740, 85); (749, 100); (752, 86); (766, 101); (769, 87); (783, 102); (786, 88); (800, 103); (803, 89); (815, 104); (818, 90)].
Definition t_methods_sels : list (N * (tobj * gotype)) := [(358, (64, (TPointer (TNamed 47)))); (375, (64, (TNamed 47))); (393, (65, (TPointer (TNamed 47)))); (415, (64, (TPointer (TNamed 50)))); (422, (66, (TPointer (TNamed 50)))); (429, (68, (TPointer (TNamed 50)))); (452, (64, (TNamed 50))); (459, (66, (TNamed 50))); (466, (68, (TNamed 50))); (490, (65, (TPointer (TNamed 50)))); (497, (67, (TPointer (TNamed 50)))); (504, (69, (TPointer (TNamed 50)))); (538, (64, (TPointer (TNamed 47)))); (545, (66, (TNamed 48))); (552, (68, (TPointer (TNamed 50)))); (559, (62, (TPointer (TNamed 51)))); (582, (64, (TNamed 50))); (591, (66, (TNamed 50))); (605, (68, (TNamed 50))); (628, (64, (TNamed 50))); (629, (116, (TPointer (TStruct [((str "D"), (TNamed 50))])))); (653, (112, (TPointer (TNamed 50)))); (657, (68, (TPointer (TNamed 50)))); (677, (81, (TPointer (TNamed 50)))); (689, (64, (TNamed 47))); (723, (64, (TPointer (TNamed 50)))); (725, (83, (TPointer (TNamed 50)))); (727, (83, (TPointer (TNamed 50)))); (729, (83, (TPointer (TNamed 50)))); (731, (83, (TPointer (TNamed 50)))); (760, (113, (TPointer (TNamed 85)))); (777, (113, (TPointer (TNamed 85)))); (827, (87, (TPointer (TNamed 85))))].
Definition t_methods_pkgnames : list (N * gostring) := [].
Definition t_methods_objnames : list (N * gostring) := [(1, (str "error")); (2, (str "Error")); (3, (str "?")); (4, (str "bool")); (5, (str "string")); (6, (str "int")); (7, (str "int8")); (8, (str "int16")); (9, (str "int32")); (10, (str "int64")); (11, (str "uint")); (12, (str "uint8")); (13, (str "uint16")); (14, (str "uint32")); (15, (str "uint64")); (16, (str "uintptr")); (17, (str "float32")); (18, (str "float64")); (19, (str "complex64")); (20, (str "complex128")); (21, (str "true")); (22, (str "false")); (23, (str "iota")); (24, (str "nil")); (25, (str "append")); (26, (str "cap")); (27, (str "close")); (28, (str "complex")); (29, (str "copy")); (30, (str "delete")); (31, (str "imag")); (32, (str "len")); (33, (str "make")); (34, (str "new")); (35, (str "panic")); (36, (str "print")); (37, (str "println")); (38, (str "real")); (39, (str "recover")); (40, (str "Errorf")); (41, (str "Sprintf")); (42, (str "Println")); (43, (str "New")); (44, (str "HasPrefix")); (45, (str "Float32")); (46, (str "Float64")); (47, (str "A")); (48, (str "B")); (49, (str "C")); (50, (str "D")); (51, (str "X")); (52, (str "Y")); (53, (str "Z")); (54, (str "Easy1")); (55, (str "Easy1")); (56, (str "Easy1")); (57, (str "Easy1")); (58, (str "Easy2")); (59, (str "Easy2")); (60, (str "Easy2")); (61, (str "Easy2")); (62, (str "methodA")); (63, (str "valueMethodA")); (64, (str "methodA")); (65, (str "valueMethodA")); (66, (str "methodB")); (67, (str "valueMethodB")); (68, (str "methodC")); (69, (str "valueMethodC")); (70, (str "methodA")); (71, (str "valueMethodA")); (72, (str "MethodCall")); (73, (str "IndirectMethodCall")); (74, (str "DereferencedMethodCall")); (75, (str "PromotedCall")); (76, (str "IndirectPromotedCall")); (77, (str "DereferencedPromotedCall")); (78, (str "FunctionCallingMethods")); (79, (str "ArrayMethodCall")); (80, (str "Struct")); (81, (str "MultipleResults")); (82, (str "CallMultipleResults")); (83, (str "self")); (84, (str "Chained")); (85, (str "Error")); (86, (str "Code")); (87, (str "Message")); (88, (str "Details")); (89, (str "Cause")); (90, (str "Error")); (91, (str "a")); (92, (str "a")); (93, (str "a")); (94, (str "d")); (95, (str "d")); (96, (str "d")); (97, (str "d")); (98, (str "d")); (99, (str "d")); (100, (str "e")); (101, (str "e")); (102, (str "e")); (103, (str "e")); (104, (str "e")); (105, (str "a")); (106, (str "b")); (107, (str "d")); (108, (str "x")); (109, (str "ds")); (110, (str "s")); (111, (str "d")); (112, (str "A")); (113, (str "TheCode")); (114, (str "_")); (115, (str "d")); (116, (str "D")); (117, (str "_")); (118, (str "a")); (119, (str "err"))].
Definition t_methods_objtypes : list (N * gotype) := [(1, (TNamed 1)); (2, (TSignature [] [(TBasic (str "string"))] false)); (4, (TBasic (str "bool"))); (5, (TBasic (str "string"))); (6, (TBasic (str "int"))); (7, (TBasic (str "int8"))); (8, (TBasic (str "int16"))); (9, (TBasic (str "int32"))); (10, (TBasic (str "int64"))); (11, (TBasic (str "uint"))); (12, (TBasic (str "uint8"))); (13, (TBasic (str "uint16"))); (14, (TBasic (str "uint32"))); (15, (TBasic (str "uint64"))); (16, (TBasic (str "uintptr"))); (17, (TBasic (str "float32"))); (18, (TBasic (str "float64"))); (19, (TBasic (str "complex64"))); (20, (TBasic (str "complex128"))); (40, (TSignature [(TBasic (str "string")); (TSlice (TInterface 4))] [(TNamed 1)] true)); (41, (TSignature [(TBasic (str "string")); (TSlice (TInterface 4))] [(TBasic (str "string"))] true)); (42, (TSignature [(TSlice (TInterface 4))] [(TBasic (str "int")); (TNamed 1)] true)); (43, (TSignature [(TBasic (str "string"))] [(TNamed 1)] false)); (44, (TSignature [(TBasic (str "string")); (TBasic (str "string"))] [(TBasic (str "bool"))] false)); (45, (TSignature [] [(TBasic (str "float32"))] false)); (46, (TSignature [] [(TBasic (str "float64"))] false)); (47, (TNamed 47)); (48, (TNamed 48)); (49, (TNamed 49)); (50, (TNamed 50)); (51, (TNamed 51)); (52, (TNamed 52)); (53, (TNamed 53)); (54, (TSignature [] [(TNamed 1)] false)); (55, (TSignature [] [(TNamed 1)] false)); (56, (TSignature [] [(TNamed 1)] false)); (57, (TSignature [] [(TNamed 1)] false)); (58, (TSignature [] [(TNamed 1)] false)); (59, (TSignature [] [(TNamed 1)] false)); (60, (TSignature [] [(TNamed 1)] false)); (61, (TSignature [] [(TNamed 1)] false)); (62, (TSignature [] [(TNamed 1)] false)); (63, (TSignature [] [(TNamed 1)] false)); (64, (TSignature [] [(TNamed 1)] false)); (65, (TSignature [] [(TNamed 1)] false)); (66, (TSignature [] [(TNamed 1)] false)); (67, (TSignature [] [(TNamed 1)] false)); (68, (TSignature [] [(TNamed 1)] false)); (69, (TSignature [] [(TNamed 1)] false)); (70, (TSignature [] [(TNamed 1)] false)); (71, (TSignature [] [(TNamed 1)] false)); (72, (TSignature [] [(TNamed 1)] false)); (73, (TSignature [] [(TNamed 1)] false)); (74, (TSignature [] [(TNamed 1)] false)); (75, (TSignature [] [(TNamed 1)] false)); (76, (TSignature [] [(TNamed 1)] false)); (77, (TSignature [] [(TNamed 1)] false)); (78, (TSignature [(TPointer (TNamed 47)); (TNamed 48); (TPointer (TNamed 50)); (TPointer (TNamed 51))] [(TNamed 1)] false)); (79, (TSignature [(TSlice (TNamed 50))] [(TNamed 1)] false)); (80, (TSignature [(TPointer (TStruct [((str "D"), (TNamed 50))]))] [(TNamed 1)] false)); (81, (TSignature [] [(TPointer (TNamed 50)); (TNamed 47); (TNamed 1)] false)); (82, (TSignature [(TPointer (TNamed 50))] [(TNamed 1)] false)); (83, (TSignature [] [(TPointer (TNamed 50))] false)); (84, (TSignature [] [(TNamed 1)] false)); (85, (TNamed 85)); (86, (TSignature [] [(TBasic (str "string"))] false)); (87, (TSignature [] [(TBasic (str "string"))] false)); (88, (TSignature [] [(TMap (TBasic (str "string")) (TBasic (str "string")))] false)); (89, (TSignature [] [(TNamed 1)] false)); (90, (TSignature [] [(TBasic (str "string"))] false)); (91, (TPointer (TNamed 47))); (92, (TNamed 47)); (93, (TPointer (TNamed 47))); (94, (TPointer (TNamed 50))); (95, (TNamed 50)); (96, (TPointer (TNamed 50))); (97, (TPointer (TNamed 50))); (98, (TPointer (TNamed 50))); (99, (TPointer (TNamed 50))); (100, (TPointer (TNamed 85))); (101, (TPointer (TNamed 85))); (102, (TPointer (TNamed 85))); (103, (TPointer (TNamed 85))); (104, (TPointer (TNamed 85))); (105, (TPointer (TNamed 47))); (106, (TNamed 48)); (107, (TPointer (TNamed 50))); (108, (TPointer (TNamed 51))); (109, (TSlice (TNamed 50))); (110, (TPointer (TStruct [((str "D"), (TNamed 50))]))); (111, (TPointer (TNamed 50))); (112, (TNamed 47)); (113, (TBasic (str "string"))); (114, (TBasic (str "int"))); (115, (TNamed 50)); (116, (TNamed 50)); (117, (TPointer (TNamed 50))); (118, (TNamed 47)); (119, (TNamed 1))].
Definition t_methods_under : list (N * gotype) := [(1, (TInterface 1)); (47, (TBasic (str "string"))); (48, (TStruct [])); (49, (TStruct [((str "U"), (TBasic (str "string"))); ((str "V"), (TBasic (str "string")))])); (50, (TStruct [((str "A"), (TNamed 47)); ((str "B"), (TNamed 48)); ((str "C"), (TNamed 49))])); (51, (TBasic (str "string"))); (52, (TStruct [])); (53, (TStruct [((str "S"), (TBasic (str "int"))); ((str "T"), (TBasic (str "string")))])); (85, (TStruct [((str "TheCode"), (TBasic (str "string")))]))].
Definition t_methods_named_methods : list (N * (list gostring)) := [(47, [(str "Easy1"); (str "Easy2"); (str "methodA"); (str "valueMethodA"); (str "MethodCall"); (str "IndirectMethodCall"); (str "DereferencedMethodCall")]); (48, [(str "Easy1"); (str "Easy2"); (str "methodB"); (str "valueMethodB")]); (49, [(str "Easy1"); (str "Easy2"); (str "methodC"); (str "valueMethodC")]); (50, [(str "Easy1"); (str "Easy2"); (str "PromotedCall"); (str "IndirectPromotedCall"); (str "DereferencedPromotedCall"); (str "MultipleResults"); (str "self"); (str "Chained")]); (51, [(str "methodA"); (str "valueMethodA")]); (52, [(str "methodA"); (str "valueMethodA")]); (85, [(str "Code"); (str "Message"); (str "Details"); (str "Cause"); (str "Error")])].
Definition t_methods_methods : list (gotype * gostring * tobj) := [((TInterface 1), (str "Error"), 2); ((TNamed 1), (str "Error"), 2); ((TNamed 47), (str "Easy1"), 54); ((TNamed 47), (str "IndirectMethodCall"), 73); ((TNamed 47), (str "valueMethodA"), 65); ((TNamed 48), (str "Easy1"), 55); ((TNamed 48), (str "valueMethodB"), 67); ((TNamed 49), (str "Easy1"), 56); ((TNamed 49), (str "valueMethodC"), 69); ((TNamed 50), (str "Easy1"), 57); ((TNamed 50), (str "IndirectMethodCall"), 73); ((TNamed 50), (str "IndirectPromotedCall"), 76); ((TNamed 50), (str "valueMethodA"), 65); ((TNamed 50), (str "valueMethodB"), 67); ((TNamed 50), (str "valueMethodC"), 69); ((TNamed 51), (str "valueMethodA"), 63); ((TNamed 52), (str "valueMethodA"), 71); ((TPointer (TNamed 47)), (str "DereferencedMethodCall"), 74); ((TPointer (TNamed 47)), (str "Easy1"), 54); ((TPointer (TNamed 47)), (str "Easy2"), 58); ((TPointer (TNamed 47)), (str "IndirectMethodCall"), 73); ((TPointer (TNamed 47)), (str "MethodCall"), 72); ((TPointer (TNamed 47)), (str "methodA"), 64); ((TPointer (TNamed 47)), (str "valueMethodA"), 65); ((TPointer (TNamed 48)), (str "Easy1"), 55); ((TPointer (TNamed 48)), (str "Easy2"), 59); ((TPointer (TNamed 48)), (str "methodB"), 66); ((TPointer (TNamed 48)), (str "valueMethodB"), 67); ((TPointer (TNamed 49)), (str "Easy1"), 56); ((TPointer (TNamed 49)), (str "Easy2"), 60); ((TPointer (TNamed 49)), (str "methodC"), 68); ((TPointer (TNamed 49)), (str "valueMethodC"), 69); ((TPointer (TNamed 50)), (str "Chained"), 84); ((TPointer (TNamed 50)), (str "DereferencedMethodCall"), 74); ((TPointer (TNamed 50)), (str "DereferencedPromotedCall"), 77); ((TPointer (TNamed 50)), (str "Easy1"), 57); ((TPointer (TNamed 50)), (str "Easy2"), 61); ((TPointer (TNamed 50)), (str "IndirectMethodCall"), 73); ((TPointer (TNamed 50)), (str "IndirectPromotedCall"), 76); ((TPointer (TNamed 50)), (str "MethodCall"), 72); ((TPointer (TNamed 50)), (str "MultipleResults"), 81); ((TPointer (TNamed 50)), (str "PromotedCall"), 75); ((TPointer (TNamed 50)), (str "methodA"), 64); ((TPointer (TNamed 50)), (str "methodB"), 66); ((TPointer (TNamed 50)), (str "methodC"), 68); ((TPointer (TNamed 50)), (str "self"), 83); ((TPointer (TNamed 50)), (str "valueMethodA"), 65); ((TPointer (TNamed 50)), (str "valueMethodB"), 67); ((TPointer (TNamed 50)), (str "valueMethodC"), 69); ((TPointer (TNamed 51)), (str "methodA"), 62); ((TPointer (TNamed 51)), (str "valueMethodA"), 63); ((TPointer (TNamed 52)), (str "methodA"), 70); ((TPointer (TNamed 52)), (str "valueMethodA"), 71); ((TPointer (TNamed 85)), (str "Cause"), 89); ((TPointer (TNamed 85)), (str "Code"), 86); ((TPointer (TNamed 85)), (str "Details"), 88); ((TPointer (TNamed 85)), (str "Error"), 90); ((TPointer (TNamed 85)), (str "Message"), 87); ((TPointer (TStruct [((str "A"), (TNamed 47)); ((str "B"), (TNamed 48)); ((str "C"), (TNamed 49))])), (str "DereferencedMethodCall"), 74); ((TPointer (TStruct [((str "A"), (TNamed 47)); ((str "B"), (TNamed 48)); ((str "C"), (TNamed 49))])), (str "IndirectMethodCall"), 73); ((TPointer (TStruct [((str "A"), (TNamed 47)); ((str "B"), (TNamed 48)); ((str "C"), (TNamed 49))])), (str "MethodCall"), 72); ((TPointer (TStruct [((str "A"), (TNamed 47)); ((str "B"), (TNamed 48)); ((str "C"), (TNamed 49))])), (str "methodA"), 64); ((TPointer (TStruct [((str "A"), (TNamed 47)); ((str "B"), (TNamed 48)); ((str "C"), (TNamed 49))])), (str "methodB"), 66); ((TPointer (TStruct [((str "A"), (TNamed 47)); ((str "B"), (TNamed 48)); ((str "C"), (TNamed 49))])), (str "methodC"), 68); ((TPointer (TStruct [((str "A"), (TNamed 47)); ((str "B"), (TNamed 48)); ((str "C"), (TNamed 49))])), (str "valueMethodA"), 65); ((TPointer (TStruct [((str "A"), (TNamed 47)); ((str "B"), (TNamed 48)); ((str "C"), (TNamed 49))])), (str "valueMethodB"), 67); ((TPointer (TStruct [((str "A"), (TNamed 47)); ((str "B"), (TNamed 48)); ((str "C"), (TNamed 49))])), (str "valueMethodC"), 69); ((TStruct [((str "A"), (TNamed 47)); ((str "B"), (TNamed 48)); ((str "C"), (TNamed 49))]), (str "IndirectMethodCall"), 73); ((TStruct [((str "A"), (TNamed 47)); ((str "B"), (TNamed 48)); ((str "C"), (TNamed 49))]), (str "valueMethodA"), 65); ((TStruct [((str "A"), (TNamed 47)); ((str "B"), (TNamed 48)); ((str "C"), (TNamed 49))]), (str "valueMethodB"), 67); ((TStruct [((str "A"), (TNamed 47)); ((str "B"), (TNamed 48)); ((str "C"), (TNamed 49))]), (str "valueMethodC"), 69)].
Definition t_methods_ierr : list gotype := [(TInterface 1); (TNamed 1); (TPointer (TNamed 85))].
Definition t_methods_iree : list gotype := [(TPointer (TNamed 85))].
Definition t_methods_icause : list gotype := [(TPointer (TNamed 85))].
Definition t_methods_impl : list (gotype * gotype) := [((TInterface 1), (TInterface 1)); ((TNamed 1), (TInterface 1)); ((TPointer (TNamed 85)), (TInterface 1))].
Definition t_methods_nodes0 : list snode := [SNode 1 (Place 0 1) (Place 5515 280) true; SNode 2 (Place 8 1) (Place 15 1) false; SNode 3 (Place 17 3) (Place 159 20) true; SNode 4 (Place 25 4) (Place 33 4) true; SNode 5 (Place 25 4) (Place 26 4) false; SNode 6 (Place 27 4) (Place 33 4) false; SNode 7 (Place 35 5) (Place 45 5) true; SNode 8 (Place 35 5) (Place 36 5) false; SNode 9 (Place 37 5) (Place 45 5) false; SNode 10 (Place 43 5) (Place 45 5) false; SNode 11 (Place 47 6) (Place 74 8) true; SNode 12 (Place 47 6) (Place 48 6) false; SNode 13 (Place 49 6) (Place 74 8) false; SNode 14 (Place 56 6) (Place 74 8) false; SNode 15 (Place 60 7) (Place 71 7) true; SNode 16 (Place 60 7) (Place 61 7) false; SNode 17 (Place 63 7) (Place 64 7) false; SNode 18 (Place 65 7) (Place 71 7) false; SNode 19 (Place 76 9) (Place 101 13) true; SNode 20 (Place 76 9) (Place 77 9) false; SNode 21 (Place 78 9) (Place 101 13) false; SNode 22 (Place 85 9) (Place 101 13) false; SNode 23 (Place 89 10) (Place 90 10) true; SNode 24 (Place 89 10) (Place 90 10) false; SNode 25 (Place 93 11) (Place 94 11) true; SNode 26 (Place 93 11) (Place 94 11) false; SNode 27 (Place 97 12) (Place 98 12) true; SNode 28 (Place 97 12) (Place 98 12) false; SNode 29 (Place 103 14) (Place 111 14) true; SNode 30 (Place 103 14) (Place 104 14) false; SNode 31 (Place 105 14) (Place 111 14) false; SNode 32 (Place 113 15) (Place 123 15) true; SNode 33 (Place 113 15) (Place 114 15) false; SNode 34 (Place 115 15) (Place 123 15) false; SNode 35 (Place 121 15) (Place 123 15) false; SNode 36 (Place 125 16) (Place 157 19) true; SNode 37 (Place 125 16) (Place 126 16) false; SNode 38 (Place 127 16) (Place 157 19) false; SNode 39 (Place 134 16) (Place 157 19) false; SNode 40 (Place 138 17) (Place 143 17) true; SNode 41 (Place 138 17) (Place 139 17) false; SNode 42 (Place 140 17) (Place 143 17) false; SNode 43 (Place 146 18) (Place 154 18) true; SNode 44 (Place 146 18) (Place 147 18) false; SNode 45 (Place 148 18) (Place 154 18) false; SNode 46 (Place 216 25) (Place 310 27) true; SNode 47 (Place 221 25) (Place 224 25) false; SNode 48 (Place 222 25) (Place 223 25) true; SNode 49 (Place 222 25) (Place 223 25) false; SNode 50 (Place 225 25) (Place 230 25) false; SNode 51 (Place 216 25) (Place 238 25) false; SNode 52 (Place 230 25) (Place 232 25) false; SNode 53 (Place 233 25) (Place 238 25) false; SNode 54 (Place 233 25) (Place 238 25) true; SNode 55 (Place 233 25) (Place 238 25) false; SNode 56 (Place 239 25) (Place 310 27) true; SNode 57 (Place 281 26) (Place 308 26) true; SNode 58 (Place 288 26) (Place 308 26) false; SNode 59 (Place 289 26) (Place 308 26) false; SNode 60 (Place 289 26) (Place 294 26) false; SNode 61 (Place 295 26) (Place 307 26) false; SNode 62 (Place 367 32) (Place 461 34) true; SNode 63 (Place 372 32) (Place 375 32) false; SNode 64 (Place 373 32) (Place 374 32) true; SNode 65 (Place 373 32) (Place 374 32) false; SNode 66 (Place 376 32) (Place 381 32) false; SNode 67 (Place 367 32) (Place 389 32) false; SNode 68 (Place 381 32) (Place 383 32) false; SNode 69 (Place 384 32) (Place 389 32) false; SNode 70 (Place 384 32) (Place 389 32) true; SNode 71 (Place 384 32) (Place 389 32) false; SNode 72 (Place 390 32) (Place 461 34) true; SNode 73 (Place 432 33) (Place 459 33) true; SNode 74 (Place 439 33) (Place 459 33) false; SNode 75 (Place 440 33) (Place 459 33) false; SNode 76 (Place 440 33) (Place 445 33) false; SNode 77 (Place 446 33) (Place 458 33) false; SNode 78 (Place 518 39) (Place 612 41) true; SNode 79 (Place 523 39) (Place 526 39) false; SNode 80 (Place 524 39) (Place 525 39) true; SNode 81 (Place 524 39) (Place 525 39) false; SNode 82 (Place 527 39) (Place 532 39) false; SNode 83 (Place 518 39) (Place 540 39) false; SNode 84 (Place 532 39) (Place 534 39) false; SNode 85 (Place 535 39) (Place 540 39) false; SNode 86 (Place 535 39) (Place 540 39) true; SNode 87 (Place 535 39) (Place 540 39) false; SNode 88 (Place 541 39) (Place 612 41) true; SNode 89 (Place 583 40) (Place 610 40) true; SNode 90 (Place 590 40) (Place 610 40) false; SNode 91 (Place 591 40) (Place 610 40) false; SNode 92 (Place 591 40) (Place 596 40) false; SNode 93 (Place 597 40) (Place 609 40) false; SNode 94 (Place 669 46) (Place 763 48) true; SNode 95 (Place 674 46) (Place 677 46) false; SNode 96 (Place 675 46) (Place 676 46) true; SNode 97 (Place 675 46) (Place 676 46) false; SNode 98 (Place 678 46) (Place 683 46) false; SNode 99 (Place 669 46) (Place 691 46) false; SNode 100 (Place 683 46) (Place 685 46) false; SNode 101 (Place 686 46) (Place 691 46) false; SNode 102 (Place 686 46) (Place 691 46) true; SNode 103 (Place 686 46) (Place 691 46) false; SNode 104 (Place 692 46) (Place 763 48) true; SNode 105 (Place 734 47) (Place 761 47) true; SNode 106 (Place 741 47) (Place 761 47) false; SNode 107 (Place 742 47) (Place 761 47) false; SNode 108 (Place 742 47) (Place 747 47) false; SNode 109 (Place 748 47) (Place 760 47) false; SNode 110 (Place 820 53) (Place 915 55) true; SNode 111 (Place 825 53) (Place 829 53) false; SNode 112 (Place 826 53) (Place 828 53) true; SNode 113 (Place 826 53) (Place 828 53) false; SNode 114 (Place 827 53) (Place 828 53) false; SNode 115 (Place 830 53) (Place 835 53) false; SNode 116 (Place 820 53) (Place 843 53) false; SNode 117 (Place 835 53) (Place 837 53) false; SNode 118 (Place 838 53) (Place 843 53) false; SNode 119 (Place 838 53) (Place 843 53) true; SNode 120 (Place 838 53) (Place 843 53) false; SNode 121 (Place 844 53) (Place 915 55) true; SNode 122 (Place 886 54) (Place 913 54) true; SNode 123 (Place 893 54) (Place 913 54) false; SNode 124 (Place 894 54) (Place 913 54) false; SNode 125 (Place 894 54) (Place 899 54) false; SNode 126 (Place 900 54) (Place 912 54) false; SNode 127 (Place 972 60) (Place 1067 62) true; SNode 128 (Place 977 60) (Place 981 60) false; SNode 129 (Place 978 60) (Place 980 60) true; SNode 130 (Place 978 60) (Place 980 60) false; SNode 131 (Place 979 60) (Place 980 60) false; SNode 132 (Place 982 60) (Place 987 60) false; SNode 133 (Place 972 60) (Place 995 60) false; SNode 134 (Place 987 60) (Place 989 60) false; SNode 135 (Place 990 60) (Place 995 60) false; SNode 136 (Place 990 60) (Place 995 60) true; SNode 137 (Place 990 60) (Place 995 60) false; SNode 138 (Place 996 60) (Place 1067 62) true; SNode 139 (Place 1038 61) (Place 1065 61) true; SNode 140 (Place 1045 61) (Place 1065 61) false; SNode 141 (Place 1046 61) (Place 1065 61) false; SNode 142 (Place 1046 61) (Place 1051 61) false; SNode 143 (Place 1052 61) (Place 1064 61) false; SNode 144 (Place 1124 67) (Place 1219 69) true; SNode 145 (Place 1129 67) (Place 1133 67) false; SNode 146 (Place 1130 67) (Place 1132 67) true; SNode 147 (Place 1130 67) (Place 1132 67) false; SNode 148 (Place 1131 67) (Place 1132 67) false; SNode 149 (Place 1134 67) (Place 1139 67) false; SNode 150 (Place 1124 67) (Place 1147 67) false; SNode 151 (Place 1139 67) (Place 1141 67) false; SNode 152 (Place 1142 67) (Place 1147 67) false; SNode 153 (Place 1142 67) (Place 1147 67) true; SNode 154 (Place 1142 67) (Place 1147 67) false; SNode 155 (Place 1148 67) (Place 1219 69) true; SNode 156 (Place 1190 68) (Place 1217 68) true; SNode 157 (Place 1197 68) (Place 1217 68) false; SNode 158 (Place 1198 68) (Place 1217 68) false; SNode 159 (Place 1198 68) (Place 1203 68) false; SNode 160 (Place 1204 68) (Place 1216 68) false; SNode 161 (Place 1276 74) (Place 1371 76) true; SNode 162 (Place 1281 74) (Place 1285 74) false; SNode 163 (Place 1282 74) (Place 1284 74) true; SNode 164 (Place 1282 74) (Place 1284 74) false; SNode 165 (Place 1283 74) (Place 1284 74) false; SNode 166 (Place 1286 74) (Place 1291 74) false; SNode 167 (Place 1276 74) (Place 1299 74) false; SNode 168 (Place 1291 74) (Place 1293 74) false; SNode 169 (Place 1294 74) (Place 1299 74) false; SNode 170 (Place 1294 74) (Place 1299 74) true; SNode 171 (Place 1294 74) (Place 1299 74) false; SNode 172 (Place 1300 74) (Place 1371 76) true; SNode 173 (Place 1342 75) (Place 1369 75) true; SNode 174 (Place 1349 75) (Place 1369 75) false; SNode 175 (Place 1350 75) (Place 1369 75) false; SNode 176 (Place 1350 75) (Place 1355 75) false; SNode 177 (Place 1356 75) (Place 1368 75) false; SNode 178 (Place 1432 79) (Place 1487 81) true; SNode 179 (Place 1437 79) (Place 1441 79) false; SNode 180 (Place 1438 79) (Place 1440 79) true; SNode 181 (Place 1438 79) (Place 1440 79) false; SNode 182 (Place 1439 79) (Place 1440 79) false; SNode 183 (Place 1442 79) (Place 1449 79) false; SNode 184 (Place 1432 79) (Place 1457 79) false; SNode 185 (Place 1449 79) (Place 1451 79) false; SNode 186 (Place 1452 79) (Place 1457 79) false; SNode 187 (Place 1452 79) (Place 1457 79) true; SNode 188 (Place 1452 79) (Place 1457 79) false; SNode 189 (Place 1458 79) (Place 1487 81) true; SNode 190 (Place 1461 80) (Place 1485 80) true; SNode 191 (Place 1468 80) (Place 1485 80) false; SNode 192 (Place 1469 80) (Place 1485 80) false; SNode 193 (Place 1469 80) (Place 1474 80) false; SNode 194 (Place 1475 80) (Place 1484 80) false; SNode 195 (Place 1553 84) (Place 1618 86) true; SNode 196 (Place 1558 84) (Place 1561 84) false; SNode 197 (Place 1559 84) (Place 1560 84) true; SNode 198 (Place 1559 84) (Place 1560 84) false; SNode 199 (Place 1562 84) (Place 1574 84) false; SNode 200 (Place 1553 84) (Place 1582 84) false; SNode 201 (Place 1574 84) (Place 1576 84) false; SNode 202 (Place 1577 84) (Place 1582 84) false; SNode 203 (Place 1577 84) (Place 1582 84) true; SNode 204 (Place 1577 84) (Place 1582 84) false; SNode 205 (Place 1583 84) (Place 1618 86) true; SNode 206 (Place 1586 85) (Place 1616 85) true; SNode 207 (Place 1593 85) (Place 1616 85) false; SNode 208 (Place 1594 85) (Place 1616 85) false; SNode 209 (Place 1594 85) (Place 1599 85) false; SNode 210 (Place 1600 85) (Place 1615 85) false; SNode 211 (Place 1620 88) (Place 1675 90) true; SNode 212 (Place 1625 88) (Place 1629 88) false; SNode 213 (Place 1626 88) (Place 1628 88) true; SNode 214 (Place 1626 88) (Place 1628 88) false; SNode 215 (Place 1627 88) (Place 1628 88) false; SNode 216 (Place 1630 88) (Place 1637 88) false; SNode 217 (Place 1620 88) (Place 1645 88) false; SNode 218 (Place 1637 88) (Place 1639 88) false; SNode 219 (Place 1640 88) (Place 1645 88) false; SNode 220 (Place 1640 88) (Place 1645 88) true; SNode 221 (Place 1640 88) (Place 1645 88) false; SNode 222 (Place 1646 88) (Place 1675 90) true; SNode 223 (Place 1649 89) (Place 1673 89) true; SNode 224 (Place 1656 89) (Place 1673 89) false; SNode 225 (Place 1657 89) (Place 1673 89) false; SNode 226 (Place 1657 89) (Place 1662 89) false; SNode 227 (Place 1663 89) (Place 1672 89) false; SNode 228 (Place 1677 92) (Place 1742 94) true; SNode 229 (Place 1682 92) (Place 1685 92) false; SNode 230 (Place 1683 92) (Place 1684 92) true; SNode 231 (Place 1683 92) (Place 1684 92) false; SNode 232 (Place 1686 92) (Place 1698 92) false; SNode 233 (Place 1677 92) (Place 1706 92) false; SNode 234 (Place 1698 92) (Place 1700 92) false; SNode 235 (Place 1701 92) (Place 1706 92) false; SNode 236 (Place 1701 92) (Place 1706 92) true; SNode 237 (Place 1701 92) (Place 1706 92) false; SNode 238 (Place 1707 92) (Place 1742 94) true; SNode 239 (Place 1710 93) (Place 1740 93) true; SNode 240 (Place 1717 93) (Place 1740 93) false; SNode 241 (Place 1718 93) (Place 1740 93) false; SNode 242 (Place 1718 93) (Place 1723 93) false; SNode 243 (Place 1724 93) (Place 1739 93) false; SNode 244 (Place 1744 96) (Place 1799 98) true; SNode 245 (Place 1749 96) (Place 1753 96) false; SNode 246 (Place 1750 96) (Place 1752 96) true; SNode 247 (Place 1750 96) (Place 1752 96) false; SNode 248 (Place 1751 96) (Place 1752 96) false; SNode 249 (Place 1754 96) (Place 1761 96) false; SNode 250 (Place 1744 96) (Place 1769 96) false; SNode 251 (Place 1761 96) (Place 1763 96) false; SNode 252 (Place 1764 96) (Place 1769 96) false; SNode 253 (Place 1764 96) (Place 1769 96) true; SNode 254 (Place 1764 96) (Place 1769 96) false; SNode 255 (Place 1770 96) (Place 1799 98) true; SNode 256 (Place 1773 97) (Place 1797 97) true; SNode 257 (Place 1780 97) (Place 1797 97) false; SNode 258 (Place 1781 97) (Place 1797 97) false; SNode 259 (Place 1781 97) (Place 1786 97) false; SNode 260 (Place 1787 97) (Place 1796 97) false; SNode 261 (Place 1801 100) (Place 1866 102) true; SNode 262 (Place 1806 100) (Place 1809 100) false; SNode 263 (Place 1807 100) (Place 1808 100) true; SNode 264 (Place 1807 100) (Place 1808 100) false; SNode 265 (Place 1810 100) (Place 1822 100) false; SNode 266 (Place 1801 100) (Place 1830 100) false; SNode 267 (Place 1822 100) (Place 1824 100) false; SNode 268 (Place 1825 100) (Place 1830 100) false; SNode 269 (Place 1825 100) (Place 1830 100) true; SNode 270 (Place 1825 100) (Place 1830 100) false; SNode 271 (Place 1831 100) (Place 1866 102) true; SNode 272 (Place 1834 101) (Place 1864 101) true; SNode 273 (Place 1841 101) (Place 1864 101) false; SNode 274 (Place 1842 101) (Place 1864 101) false; SNode 275 (Place 1842 101) (Place 1847 101) false; SNode 276 (Place 1848 101) (Place 1863 101) false; SNode 277 (Place 1868 104) (Place 1923 106) true; SNode 278 (Place 1873 104) (Place 1877 104) false; SNode 279 (Place 1874 104) (Place 1876 104) true; SNode 280 (Place 1874 104) (Place 1876 104) false; SNode 281 (Place 1875 104) (Place 1876 104) false; SNode 282 (Place 1878 104) (Place 1885 104) false; SNode 283 (Place 1868 104) (Place 1893 104) false; SNode 284 (Place 1885 104) (Place 1887 104) false; SNode 285 (Place 1888 104) (Place 1893 104) false; SNode 286 (Place 1888 104) (Place 1893 104) true; SNode 287 (Place 1888 104) (Place 1893 104) false; SNode 288 (Place 1894 104) (Place 1923 106) true; SNode 289 (Place 1897 105) (Place 1921 105) true; SNode 290 (Place 1904 105) (Place 1921 105) false; SNode 291 (Place 1905 105) (Place 1921 105) false; SNode 292 (Place 1905 105) (Place 1910 105) false; SNode 293 (Place 1911 105) (Place 1920 105) false; SNode 294 (Place 1925 108) (Place 1990 110) true; SNode 295 (Place 1930 108) (Place 1933 108) false; SNode 296 (Place 1931 108) (Place 1932 108) true; SNode 297 (Place 1931 108) (Place 1932 108) false; SNode 298 (Place 1934 108) (Place 1946 108) false; SNode 299 (Place 1925 108) (Place 1954 108) false; SNode 300 (Place 1946 108) (Place 1948 108) false; SNode 301 (Place 1949 108) (Place 1954 108) false; SNode 302 (Place 1949 108) (Place 1954 108) true; SNode 303 (Place 1949 108) (Place 1954 108) false; SNode 304 (Place 1955 108) (Place 1990 110) true; SNode 305 (Place 1958 109) (Place 1988 109) true; SNode 306 (Place 1965 109) (Place 1988 109) false; SNode 307 (Place 1966 109) (Place 1988 109) false; SNode 308 (Place 1966 109) (Place 1971 109) false; SNode 309 (Place 1972 109) (Place 1987 109) false; SNode 310 (Place 2051 113) (Place 2106 115) true; SNode 311 (Place 2056 113) (Place 2060 113) false; SNode 312 (Place 2057 113) (Place 2059 113) true; SNode 313 (Place 2057 113) (Place 2059 113) false; SNode 314 (Place 2058 113) (Place 2059 113) false; SNode 315 (Place 2061 113) (Place 2068 113) false; SNode 316 (Place 2051 113) (Place 2076 113) false; SNode 317 (Place 2068 113) (Place 2070 113) false; SNode 318 (Place 2071 113) (Place 2076 113) false; SNode 319 (Place 2071 113) (Place 2076 113) true; SNode 320 (Place 2071 113) (Place 2076 113) false; SNode 321 (Place 2077 113) (Place 2106 115) true; SNode 322 (Place 2080 114) (Place 2104 114) true; SNode 323 (Place 2087 114) (Place 2104 114) false; SNode 324 (Place 2088 114) (Place 2104 114) false; SNode 325 (Place 2088 114) (Place 2093 114) false; SNode 326 (Place 2094 114) (Place 2103 114) false; SNode 327 (Place 2172 118) (Place 2237 120) true; SNode 328 (Place 2177 118) (Place 2180 118) false; SNode 329 (Place 2178 118) (Place 2179 118) true; SNode 330 (Place 2178 118) (Place 2179 118) false; SNode 331 (Place 2181 118) (Place 2193 118) false; SNode 332 (Place 2172 118) (Place 2201 118) false; SNode 333 (Place 2193 118) (Place 2195 118) false; SNode 334 (Place 2196 118) (Place 2201 118) false; SNode 335 (Place 2196 118) (Place 2201 118) true; SNode 336 (Place 2196 118) (Place 2201 118) false; SNode 337 (Place 2202 118) (Place 2237 120) true; SNode 338 (Place 2205 119) (Place 2235 119) true; SNode 339 (Place 2212 119) (Place 2235 119) false; SNode 340 (Place 2213 119) (Place 2235 119) false; SNode 341 (Place 2213 119) (Place 2218 119) false; SNode 342 (Place 2219 119) (Place 2234 119) false; SNode 343 (Place 2272 125) (Place 2367 127) true; SNode 344 (Place 2277 125) (Place 2283 125) false; SNode 345 (Place 2278 125) (Place 2282 125) true; SNode 346 (Place 2278 125) (Place 2279 125) false; SNode 347 (Place 2280 125) (Place 2282 125) false; SNode 348 (Place 2281 125) (Place 2282 125) false; SNode 349 (Place 2284 125) (Place 2294 125) false; SNode 350 (Place 2272 125) (Place 2302 125) false; SNode 351 (Place 2294 125) (Place 2296 125) false; SNode 352 (Place 2297 125) (Place 2302 125) false; SNode 353 (Place 2297 125) (Place 2302 125) true; SNode 354 (Place 2297 125) (Place 2302 125) false; SNode 355 (Place 2303 125) (Place 2367 127) true; SNode 356 (Place 2347 126) (Place 2365 126) true; SNode 357 (Place 2354 126) (Place 2365 126) false; SNode 358 (Place 2354 126) (Place 2363 126) false; SNode 359 (Place 2354 126) (Place 2355 126) false; SNode 360 (Place 2356 126) (Place 2363 126) false; SNode 361 (Place 2402 132) (Place 2512 134) true; SNode 362 (Place 2407 132) (Place 2412 132) false; SNode 363 (Place 2408 132) (Place 2411 132) true; SNode 364 (Place 2408 132) (Place 2409 132) false; SNode 365 (Place 2410 132) (Place 2411 132) false; SNode 366 (Place 2413 132) (Place 2431 132) false; SNode 367 (Place 2402 132) (Place 2439 132) false; SNode 368 (Place 2431 132) (Place 2433 132) false; SNode 369 (Place 2434 132) (Place 2439 132) false; SNode 370 (Place 2434 132) (Place 2439 132) true; SNode 371 (Place 2434 132) (Place 2439 132) false; SNode 372 (Place 2440 132) (Place 2512 134) true; SNode 373 (Place 2492 133) (Place 2510 133) true; SNode 374 (Place 2499 133) (Place 2510 133) false; SNode 375 (Place 2499 133) (Place 2508 133) false; SNode 376 (Place 2499 133) (Place 2500 133) false; SNode 377 (Place 2501 133) (Place 2508 133) false; SNode 378 (Place 2553 139) (Place 2683 141) true; SNode 379 (Place 2558 139) (Place 2564 139) false; SNode 380 (Place 2559 139) (Place 2563 139) true; SNode 381 (Place 2559 139) (Place 2560 139) false; SNode 382 (Place 2561 139) (Place 2563 139) false; SNode 383 (Place 2562 139) (Place 2563 139) false; SNode 384 (Place 2565 139) (Place 2587 139) false; SNode 385 (Place 2553 139) (Place 2595 139) false; SNode 386 (Place 2587 139) (Place 2589 139) false; SNode 387 (Place 2590 139) (Place 2595 139) false; SNode 388 (Place 2590 139) (Place 2595 139) true; SNode 389 (Place 2590 139) (Place 2595 139) false; SNode 390 (Place 2596 139) (Place 2683 141) true; SNode 391 (Place 2658 140) (Place 2681 140) true; SNode 392 (Place 2665 140) (Place 2681 140) false; SNode 393 (Place 2665 140) (Place 2679 140) false; SNode 394 (Place 2665 140) (Place 2666 140) false; SNode 395 (Place 2667 140) (Place 2679 140) false; SNode 396 (Place 2756 148) (Place 2975 158) true; SNode 397 (Place 2761 148) (Place 2767 148) false; SNode 398 (Place 2762 148) (Place 2766 148) true; SNode 399 (Place 2762 148) (Place 2763 148) false; SNode 400 (Place 2764 148) (Place 2766 148) false; SNode 401 (Place 2765 148) (Place 2766 148) false; SNode 402 (Place 2768 148) (Place 2780 148) false; SNode 403 (Place 2756 148) (Place 2788 148) false; SNode 404 (Place 2780 148) (Place 2782 148) false; SNode 405 (Place 2783 148) (Place 2788 148) false; SNode 406 (Place 2783 148) (Place 2788 148) true; SNode 407 (Place 2783 148) (Place 2788 148) false; SNode 408 (Place 2789 148) (Place 2975 158) true; SNode 409 (Place 2851 149) (Place 2961 156) true; SNode 410 (Place 2858 149) (Place 2961 156) true; SNode 411 (Place 2861 150) (Place 2892 151) true; SNode 412 (Place 2866 150) (Place 2870 150) false; SNode 413 (Place 2874 151) (Place 2892 151) true; SNode 414 (Place 2881 151) (Place 2892 151) false; SNode 415 (Place 2881 151) (Place 2890 151) false; SNode 416 (Place 2881 151) (Place 2882 151) false; SNode 417 (Place 2883 151) (Place 2890 151) false; SNode 418 (Place 2894 152) (Place 2925 153) true; SNode 419 (Place 2899 152) (Place 2903 152) false; SNode 420 (Place 2907 153) (Place 2925 153) true; SNode 421 (Place 2914 153) (Place 2925 153) false; SNode 422 (Place 2914 153) (Place 2923 153) false; SNode 423 (Place 2914 153) (Place 2915 153) false; SNode 424 (Place 2916 153) (Place 2923 153) false; SNode 425 (Place 2927 154) (Place 2958 155) true; SNode 426 (Place 2932 154) (Place 2936 154) false; SNode 427 (Place 2940 155) (Place 2958 155) true; SNode 428 (Place 2947 155) (Place 2958 155) false; SNode 429 (Place 2947 155) (Place 2956 155) false; SNode 430 (Place 2947 155) (Place 2948 155) false; SNode 431 (Place 2949 155) (Place 2956 155) false; SNode 432 (Place 2963 157) (Place 2973 157) true; SNode 433 (Place 2970 157) (Place 2973 157) false; SNode 434 (Place 3048 165) (Place 3282 175) true; SNode 435 (Place 3053 165) (Place 3058 165) false; SNode 436 (Place 3054 165) (Place 3057 165) true; SNode 437 (Place 3054 165) (Place 3055 165) false; SNode 438 (Place 3056 165) (Place 3057 165) false; SNode 439 (Place 3059 165) (Place 3079 165) false; SNode 440 (Place 3048 165) (Place 3087 165) false; SNode 441 (Place 3079 165) (Place 3081 165) false; SNode 442 (Place 3082 165) (Place 3087 165) false; SNode 443 (Place 3082 165) (Place 3087 165) true; SNode 444 (Place 3082 165) (Place 3087 165) false; SNode 445 (Place 3088 165) (Place 3282 175) true; SNode 446 (Place 3158 166) (Place 3268 173) true; SNode 447 (Place 3165 166) (Place 3268 173) true; SNode 448 (Place 3168 167) (Place 3199 168) true; SNode 449 (Place 3173 167) (Place 3177 167) false; SNode 450 (Place 3181 168) (Place 3199 168) true; SNode 451 (Place 3188 168) (Place 3199 168) false; SNode 452 (Place 3188 168) (Place 3197 168) false; SNode 453 (Place 3188 168) (Place 3189 168) false; SNode 454 (Place 3190 168) (Place 3197 168) false; SNode 455 (Place 3201 169) (Place 3232 170) true; SNode 456 (Place 3206 169) (Place 3210 169) false; SNode 457 (Place 3214 170) (Place 3232 170) true; SNode 458 (Place 3221 170) (Place 3232 170) false; SNode 459 (Place 3221 170) (Place 3230 170) false; SNode 460 (Place 3221 170) (Place 3222 170) false; SNode 461 (Place 3223 170) (Place 3230 170) false; SNode 462 (Place 3234 171) (Place 3265 172) true; SNode 463 (Place 3239 171) (Place 3243 171) false; SNode 464 (Place 3247 172) (Place 3265 172) true; SNode 465 (Place 3254 172) (Place 3265 172) false; SNode 466 (Place 3254 172) (Place 3263 172) false; SNode 467 (Place 3254 172) (Place 3255 172) false; SNode 468 (Place 3256 172) (Place 3263 172) false; SNode 469 (Place 3270 174) (Place 3280 174) true; SNode 470 (Place 3277 174) (Place 3280 174) false; SNode 471 (Place 3373 182) (Place 3650 193) true; SNode 472 (Place 3378 182) (Place 3384 182) false; SNode 473 (Place 3379 182) (Place 3383 182) true; SNode 474 (Place 3379 182) (Place 3380 182) false; SNode 475 (Place 3381 182) (Place 3383 182) false; SNode 476 (Place 3382 182) (Place 3383 182) false; SNode 477 (Place 3385 182) (Place 3409 182) false; SNode 478 (Place 3373 182) (Place 3417 182) false; SNode 479 (Place 3409 182) (Place 3411 182) false; SNode 480 (Place 3412 182) (Place 3417 182) false; SNode 481 (Place 3412 182) (Place 3417 182) true; SNode 482 (Place 3412 182) (Place 3417 182) false; SNode 483 (Place 3418 182) (Place 3650 193) true; SNode 484 (Place 3510 183) (Place 3636 191) true; SNode 485 (Place 3517 183) (Place 3636 191) true; SNode 486 (Place 3520 184) (Place 3556 185) true; SNode 487 (Place 3525 184) (Place 3529 184) false; SNode 488 (Place 3533 185) (Place 3556 185) true; SNode 489 (Place 3540 185) (Place 3556 185) false; SNode 490 (Place 3540 185) (Place 3554 185) false; SNode 491 (Place 3540 185) (Place 3541 185) false; SNode 492 (Place 3542 185) (Place 3554 185) false; SNode 493 (Place 3558 186) (Place 3594 187) true; SNode 494 (Place 3563 186) (Place 3567 186) false; SNode 495 (Place 3571 187) (Place 3594 187) true; SNode 496 (Place 3578 187) (Place 3594 187) false; SNode 497 (Place 3578 187) (Place 3592 187) false; SNode 498 (Place 3578 187) (Place 3579 187) false; SNode 499 (Place 3580 187) (Place 3592 187) false; SNode 500 (Place 3596 188) (Place 3632 189) true; SNode 501 (Place 3601 188) (Place 3605 188) false; SNode 502 (Place 3609 189) (Place 3632 189) true; SNode 503 (Place 3616 189) (Place 3632 189) false; SNode 504 (Place 3616 189) (Place 3630 189) false; SNode 505 (Place 3616 189) (Place 3617 189) false; SNode 506 (Place 3618 189) (Place 3630 189) false; SNode 507 (Place 3638 192) (Place 3648 192) true; SNode 508 (Place 3645 192) (Place 3648 192) false; SNode 509 (Place 3742 201) (Place 4036 213) true; SNode 510 (Place 3747 201) (Place 3769 201) false; SNode 511 (Place 3742 201) (Place 3798 201) false; SNode 512 (Place 3769 201) (Place 3792 201) false; SNode 513 (Place 3770 201) (Place 3774 201) true; SNode 514 (Place 3770 201) (Place 3771 201) false; SNode 515 (Place 3772 201) (Place 3774 201) false; SNode 516 (Place 3773 201) (Place 3774 201) false; SNode 517 (Place 3776 201) (Place 3779 201) true; SNode 518 (Place 3776 201) (Place 3777 201) false; SNode 519 (Place 3778 201) (Place 3779 201) false; SNode 520 (Place 3781 201) (Place 3785 201) true; SNode 521 (Place 3781 201) (Place 3782 201) false; SNode 522 (Place 3783 201) (Place 3785 201) false; SNode 523 (Place 3784 201) (Place 3785 201) false; SNode 524 (Place 3787 201) (Place 3791 201) true; SNode 525 (Place 3787 201) (Place 3788 201) false; SNode 526 (Place 3789 201) (Place 3791 201) false; SNode 527 (Place 3790 201) (Place 3791 201) false; SNode 528 (Place 3793 201) (Place 3798 201) false; SNode 529 (Place 3793 201) (Place 3798 201) true; SNode 530 (Place 3793 201) (Place 3798 201) false; SNode 531 (Place 3799 201) (Place 4036 213) true; SNode 532 (Place 3879 202) (Place 4022 211) true; SNode 533 (Place 3886 202) (Place 4022 211) true; SNode 534 (Place 3889 203) (Place 3920 204) true; SNode 535 (Place 3894 203) (Place 3898 203) false; SNode 536 (Place 3902 204) (Place 3920 204) true; SNode 537 (Place 3909 204) (Place 3920 204) false; SNode 538 (Place 3909 204) (Place 3918 204) false; SNode 539 (Place 3909 204) (Place 3910 204) false; SNode 540 (Place 3911 204) (Place 3918 204) false; SNode 541 (Place 3922 205) (Place 3953 206) true; SNode 542 (Place 3927 205) (Place 3931 205) false; SNode 543 (Place 3935 206) (Place 3953 206) true; SNode 544 (Place 3942 206) (Place 3953 206) false; SNode 545 (Place 3942 206) (Place 3951 206) false; SNode 546 (Place 3942 206) (Place 3943 206) false; SNode 547 (Place 3944 206) (Place 3951 206) false; SNode 548 (Place 3955 207) (Place 3986 208) true; SNode 549 (Place 3960 207) (Place 3964 207) false; SNode 550 (Place 3968 208) (Place 3986 208) true; SNode 551 (Place 3975 208) (Place 3986 208) false; SNode 552 (Place 3975 208) (Place 3984 208) false; SNode 553 (Place 3975 208) (Place 3976 208) false; SNode 554 (Place 3977 208) (Place 3984 208) false; SNode 555 (Place 3988 209) (Place 4019 210) true; SNode 556 (Place 3993 209) (Place 3997 209) false; SNode 557 (Place 4001 210) (Place 4019 210) true; SNode 558 (Place 4008 210) (Place 4019 210) false; SNode 559 (Place 4008 210) (Place 4017 210) false; SNode 560 (Place 4008 210) (Place 4009 210) false; SNode 561 (Place 4010 210) (Place 4017 210) false; SNode 562 (Place 4024 212) (Place 4034 212) true; SNode 563 (Place 4031 212) (Place 4034 212) false; SNode 564 (Place 4109 220) (Place 4371 232) true; SNode 565 (Place 4114 220) (Place 4129 220) false; SNode 566 (Place 4109 220) (Place 4143 220) false; SNode 567 (Place 4129 220) (Place 4137 220) false; SNode 568 (Place 4130 220) (Place 4136 220) true; SNode 569 (Place 4130 220) (Place 4132 220) false; SNode 570 (Place 4133 220) (Place 4136 220) false; SNode 571 (Place 4135 220) (Place 4136 220) false; SNode 572 (Place 4138 220) (Place 4143 220) false; SNode 573 (Place 4138 220) (Place 4143 220) true; SNode 574 (Place 4138 220) (Place 4143 220) false; SNode 575 (Place 4144 220) (Place 4371 232) true; SNode 576 (Place 4209 221) (Place 4357 230) true; SNode 577 (Place 4216 221) (Place 4357 230) true; SNode 578 (Place 4219 222) (Place 4254 223) true; SNode 579 (Place 4224 222) (Place 4228 222) false; SNode 580 (Place 4232 223) (Place 4254 223) true; SNode 581 (Place 4239 223) (Place 4254 223) false; SNode 582 (Place 4239 223) (Place 4252 223) false; SNode 583 (Place 4239 223) (Place 4244 223) false; SNode 584 (Place 4239 223) (Place 4241 223) false; SNode 585 (Place 4242 223) (Place 4243 223) false; SNode 586 (Place 4245 223) (Place 4252 223) false; SNode 587 (Place 4256 224) (Place 4291 225) true; SNode 588 (Place 4261 224) (Place 4265 224) false; SNode 589 (Place 4269 225) (Place 4291 225) true; SNode 590 (Place 4276 225) (Place 4291 225) false; SNode 591 (Place 4276 225) (Place 4289 225) false; SNode 592 (Place 4276 225) (Place 4281 225) false; SNode 593 (Place 4276 225) (Place 4278 225) false; SNode 594 (Place 4279 225) (Place 4280 225) false; SNode 595 (Place 4282 225) (Place 4289 225) false; SNode 596 (Place 4293 226) (Place 4354 229) true; SNode 597 (Place 4298 226) (Place 4302 226) false; SNode 598 (Place 4306 227) (Place 4354 229) true; SNode 599 (Place 4310 227) (Place 4311 227) false; SNode 600 (Place 4313 227) (Place 4314 227) false; SNode 601 (Place 4324 227) (Place 4326 227) false; SNode 602 (Place 4327 227) (Place 4354 229) true; SNode 603 (Place 4332 228) (Place 4350 228) true; SNode 604 (Place 4339 228) (Place 4350 228) false; SNode 605 (Place 4339 228) (Place 4348 228) false; SNode 606 (Place 4339 228) (Place 4340 228) false; SNode 607 (Place 4341 228) (Place 4348 228) false; SNode 608 (Place 4359 231) (Place 4369 231) true; SNode 609 (Place 4366 231) (Place 4369 231) false; SNode 610 (Place 4406 237) (Place 4504 239) true; SNode 611 (Place 4411 237) (Place 4417 237) false; SNode 612 (Place 4406 237) (Place 4441 237) false; SNode 613 (Place 4417 237) (Place 4435 237) false; SNode 614 (Place 4418 237) (Place 4434 237) true; SNode 615 (Place 4418 237) (Place 4419 237) false; SNode 616 (Place 4420 237) (Place 4434 237) false; SNode 617 (Place 4421 237) (Place 4434 237) false; SNode 618 (Place 4427 237) (Place 4434 237) false; SNode 619 (Place 4429 237) (Place 4432 237) true; SNode 620 (Place 4429 237) (Place 4430 237) false; SNode 621 (Place 4431 237) (Place 4432 237) false; SNode 622 (Place 4436 237) (Place 4441 237) false; SNode 623 (Place 4436 237) (Place 4441 237) true; SNode 624 (Place 4436 237) (Place 4441 237) false; SNode 625 (Place 4442 237) (Place 4504 239) true; SNode 626 (Place 4482 238) (Place 4502 238) true; SNode 627 (Place 4489 238) (Place 4502 238) false; SNode 628 (Place 4489 238) (Place 4500 238) false; SNode 629 (Place 4489 238) (Place 4492 238) false; SNode 630 (Place 4489 238) (Place 4490 238) false; SNode 631 (Place 4491 238) (Place 4492 238) false; SNode 632 (Place 4493 238) (Place 4500 238) false; SNode 633 (Place 4539 244) (Place 4661 246) true; SNode 634 (Place 4544 244) (Place 4550 244) false; SNode 635 (Place 4545 244) (Place 4549 244) true; SNode 636 (Place 4545 244) (Place 4546 244) false; SNode 637 (Place 4547 244) (Place 4549 244) false; SNode 638 (Place 4548 244) (Place 4549 244) false; SNode 639 (Place 4551 244) (Place 4566 244) false; SNode 640 (Place 4539 244) (Place 4583 244) false; SNode 641 (Place 4566 244) (Place 4568 244) false; SNode 642 (Place 4569 244) (Place 4583 244) false; SNode 643 (Place 4570 244) (Place 4572 244) true; SNode 644 (Place 4570 244) (Place 4572 244) false; SNode 645 (Place 4571 244) (Place 4572 244) false; SNode 646 (Place 4574 244) (Place 4575 244) true; SNode 647 (Place 4574 244) (Place 4575 244) false; SNode 648 (Place 4577 244) (Place 4582 244) true; SNode 649 (Place 4577 244) (Place 4582 244) false; SNode 650 (Place 4584 244) (Place 4661 246) true; SNode 651 (Place 4633 245) (Place 4659 245) true; SNode 652 (Place 4640 245) (Place 4641 245) false; SNode 653 (Place 4643 245) (Place 4646 245) false; SNode 654 (Place 4643 245) (Place 4644 245) false; SNode 655 (Place 4645 245) (Place 4646 245) false; SNode 656 (Place 4648 245) (Place 4659 245) false; SNode 657 (Place 4648 245) (Place 4657 245) false; SNode 658 (Place 4648 245) (Place 4649 245) false; SNode 659 (Place 4650 245) (Place 4657 245) false; SNode 660 (Place 4715 252) (Place 4901 259) true; SNode 661 (Place 4720 252) (Place 4739 252) false; SNode 662 (Place 4715 252) (Place 4751 252) false; SNode 663 (Place 4739 252) (Place 4745 252) false; SNode 664 (Place 4740 252) (Place 4744 252) true; SNode 665 (Place 4740 252) (Place 4741 252) false; SNode 666 (Place 4742 252) (Place 4744 252) false; SNode 667 (Place 4743 252) (Place 4744 252) false; SNode 668 (Place 4746 252) (Place 4751 252) false; SNode 669 (Place 4746 252) (Place 4751 252) true; SNode 670 (Place 4746 252) (Place 4751 252) false; SNode 671 (Place 4752 252) (Place 4901 259) true; SNode 672 (Place 4813 253) (Place 4845 253) true; SNode 673 (Place 4813 253) (Place 4814 253) false; SNode 674 (Place 4816 253) (Place 4817 253) false; SNode 675 (Place 4819 253) (Place 4822 253) false; SNode 676 (Place 4826 253) (Place 4845 253) false; SNode 677 (Place 4826 253) (Place 4843 253) false; SNode 678 (Place 4826 253) (Place 4827 253) false; SNode 679 (Place 4828 253) (Place 4843 253) false; SNode 680 (Place 4847 254) (Place 4878 256) true; SNode 681 (Place 4850 254) (Place 4860 254) false; SNode 682 (Place 4850 254) (Place 4853 254) false; SNode 683 (Place 4857 254) (Place 4860 254) false; SNode 684 (Place 4861 254) (Place 4878 256) true; SNode 685 (Place 4865 255) (Place 4875 255) true; SNode 686 (Place 4872 255) (Place 4875 255) false; SNode 687 (Place 4881 258) (Place 4899 258) true; SNode 688 (Place 4888 258) (Place 4899 258) false; SNode 689 (Place 4888 258) (Place 4897 258) false; SNode 690 (Place 4888 258) (Place 4889 258) false; SNode 691 (Place 4890 258) (Place 4897 258) false; SNode 692 (Place 4903 261) (Place 4938 263) true; SNode 693 (Place 4908 261) (Place 4914 261) false; SNode 694 (Place 4909 261) (Place 4913 261) true; SNode 695 (Place 4909 261) (Place 4910 261) false; SNode 696 (Place 4911 261) (Place 4913 261) false; SNode 697 (Place 4912 261) (Place 4913 261) false; SNode 698 (Place 4915 261) (Place 4919 261) false; SNode 699 (Place 4903 261) (Place 4924 261) false; SNode 700 (Place 4919 261) (Place 4921 261) false; SNode 701 (Place 4922 261) (Place 4924 261) false; SNode 702 (Place 4922 261) (Place 4924 261) true; SNode 703 (Place 4922 261) (Place 4924 261) false; SNode 704 (Place 4923 261) (Place 4924 261) false; SNode 705 (Place 4925 261) (Place 4938 263) true; SNode 706 (Place 4928 262) (Place 4936 262) true; SNode 707 (Place 4935 262) (Place 4936 262) false; SNode 708 (Place 4973 268) (Place 5090 270) true; SNode 709 (Place 4978 268) (Place 4984 268) false; SNode 710 (Place 4979 268) (Place 4983 268) true; SNode 711 (Place 4979 268) (Place 4980 268) false; SNode 712 (Place 4981 268) (Place 4983 268) false; SNode 713 (Place 4982 268) (Place 4983 268) false; SNode 714 (Place 4985 268) (Place 4992 268) false; SNode 715 (Place 4973 268) (Place 5000 268) false; SNode 716 (Place 4992 268) (Place 4994 268) false; SNode 717 (Place 4995 268) (Place 5000 268) false; SNode 718 (Place 4995 268) (Place 5000 268) true; SNode 719 (Place 4995 268) (Place 5000 268) false; SNode 720 (Place 5001 268) (Place 5090 270) true; SNode 721 (Place 5042 269) (Place 5088 269) true; SNode 722 (Place 5049 269) (Place 5088 269) false; SNode 723 (Place 5049 269) (Place 5086 269) false; SNode 724 (Place 5049 269) (Place 5078 269) false; SNode 725 (Place 5049 269) (Place 5076 269) false; SNode 726 (Place 5049 269) (Place 5071 269) false; SNode 727 (Place 5049 269) (Place 5069 269) false; SNode 728 (Place 5049 269) (Place 5064 269) false; SNode 729 (Place 5049 269) (Place 5062 269) false; SNode 730 (Place 5049 269) (Place 5057 269) false; SNode 731 (Place 5049 269) (Place 5055 269) false; SNode 732 (Place 5049 269) (Place 5050 269) false; SNode 733 (Place 5051 269) (Place 5055 269) false; SNode 734 (Place 5058 269) (Place 5062 269) false; SNode 735 (Place 5065 269) (Place 5069 269) false; SNode 736 (Place 5072 269) (Place 5076 269) false; SNode 737 (Place 5079 269) (Place 5086 269) false; SNode 738 (Place 5092 272) (Place 5199 274) true; SNode 739 (Place 5097 272) (Place 5199 274) true; SNode 740 (Place 5097 272) (Place 5102 272) false; SNode 741 (Place 5103 272) (Place 5199 274) false; SNode 742 (Place 5110 272) (Place 5199 274) false; SNode 743 (Place 5183 273) (Place 5197 273) true; SNode 744 (Place 5183 273) (Place 5190 273) false; SNode 745 (Place 5191 273) (Place 5197 273) false; SNode 746 (Place 5201 276) (Place 5265 276) true; SNode 747 (Place 5206 276) (Place 5216 276) false; SNode 748 (Place 5207 276) (Place 5215 276) true; SNode 749 (Place 5207 276) (Place 5208 276) false; SNode 750 (Place 5209 276) (Place 5215 276) false; SNode 751 (Place 5210 276) (Place 5215 276) false; SNode 752 (Place 5217 276) (Place 5221 276) false; SNode 753 (Place 5201 276) (Place 5230 276) false; SNode 754 (Place 5221 276) (Place 5223 276) false; SNode 755 (Place 5224 276) (Place 5230 276) false; SNode 756 (Place 5224 276) (Place 5230 276) true; SNode 757 (Place 5224 276) (Place 5230 276) false; SNode 758 (Place 5245 276) (Place 5265 276) true; SNode 759 (Place 5247 276) (Place 5263 276) true; SNode 760 (Place 5254 276) (Place 5263 276) false; SNode 761 (Place 5254 276) (Place 5255 276) false; SNode 762 (Place 5256 276) (Place 5263 276) false; SNode 763 (Place 5266 277) (Place 5330 277) true; SNode 764 (Place 5271 277) (Place 5281 277) false; SNode 765 (Place 5272 277) (Place 5280 277) true; SNode 766 (Place 5272 277) (Place 5273 277) false; SNode 767 (Place 5274 277) (Place 5280 277) false; SNode 768 (Place 5275 277) (Place 5280 277) false; SNode 769 (Place 5282 277) (Place 5289 277) false; SNode 770 (Place 5266 277) (Place 5298 277) false; SNode 771 (Place 5289 277) (Place 5291 277) false; SNode 772 (Place 5292 277) (Place 5298 277) false; SNode 773 (Place 5292 277) (Place 5298 277) true; SNode 774 (Place 5292 277) (Place 5298 277) false; SNode 775 (Place 5310 277) (Place 5330 277) true; SNode 776 (Place 5312 277) (Place 5328 277) true; SNode 777 (Place 5319 277) (Place 5328 277) false; SNode 778 (Place 5319 277) (Place 5320 277) false; SNode 779 (Place 5321 277) (Place 5328 277) false; SNode 780 (Place 5331 278) (Place 5389 278) true; SNode 781 (Place 5336 278) (Place 5346 278) false; SNode 782 (Place 5337 278) (Place 5345 278) true; SNode 783 (Place 5337 278) (Place 5338 278) false; SNode 784 (Place 5339 278) (Place 5345 278) false; SNode 785 (Place 5340 278) (Place 5345 278) false; SNode 786 (Place 5347 278) (Place 5354 278) false; SNode 787 (Place 5331 278) (Place 5374 278) false; SNode 788 (Place 5354 278) (Place 5356 278) false; SNode 789 (Place 5357 278) (Place 5374 278) false; SNode 790 (Place 5357 278) (Place 5374 278) true; SNode 791 (Place 5357 278) (Place 5374 278) false; SNode 792 (Place 5361 278) (Place 5367 278) false; SNode 793 (Place 5368 278) (Place 5374 278) false; SNode 794 (Place 5375 278) (Place 5389 278) true; SNode 795 (Place 5377 278) (Place 5387 278) true; SNode 796 (Place 5384 278) (Place 5387 278) false; SNode 797 (Place 5390 279) (Place 5448 279) true; SNode 798 (Place 5395 279) (Place 5405 279) false; SNode 799 (Place 5396 279) (Place 5404 279) true; SNode 800 (Place 5396 279) (Place 5397 279) false; SNode 801 (Place 5398 279) (Place 5404 279) false; SNode 802 (Place 5399 279) (Place 5404 279) false; SNode 803 (Place 5406 279) (Place 5411 279) false; SNode 804 (Place 5390 279) (Place 5419 279) false; SNode 805 (Place 5411 279) (Place 5413 279) false; SNode 806 (Place 5414 279) (Place 5419 279) false; SNode 807 (Place 5414 279) (Place 5419 279) true; SNode 808 (Place 5414 279) (Place 5419 279) false; SNode 809 (Place 5434 279) (Place 5448 279) true; SNode 810 (Place 5436 279) (Place 5446 279) true; SNode 811 (Place 5443 279) (Place 5446 279) false; SNode 812 (Place 5449 280) (Place 5515 280) true; SNode 813 (Place 5454 280) (Place 5464 280) false; SNode 814 (Place 5455 280) (Place 5463 280) true; SNode 815 (Place 5455 280) (Place 5456 280) false; SNode 816 (Place 5457 280) (Place 5463 280) false; SNode 817 (Place 5458 280) (Place 5463 280) false; SNode 818 (Place 5465 280) (Place 5470 280) false; SNode 819 (Place 5449 280) (Place 5479 280) false; SNode 820 (Place 5470 280) (Place 5472 280) false; SNode 821 (Place 5473 280) (Place 5479 280) false; SNode 822 (Place 5473 280) (Place 5479 280) true; SNode 823 (Place 5473 280) (Place 5479 280) false; SNode 824 (Place 5493 280) (Place 5515 280) true; SNode 825 (Place 5495 280) (Place 5513 280) true; SNode 826 (Place 5502 280) (Place 5513 280) false; SNode 827 (Place 5502 280) (Place 5511 280) false; SNode 828 (Place 5502 280) (Place 5503 280) false; SNode 829 (Place 5504 280) (Place 5511 280) false].
Definition t_methods_cgroups0 : list cgroup := [CGroup (Place 161 22) (Place 215 24) [(str "// Errors:"); (str "//"); (str "//    - easy-error -- is always returned")]; CGroup (Place 241 25) (Place 279 25) [(str "// want Easy1:""ErrorCodes: easy-error""")]; CGroup (Place 312 29) (Place 366 31) [(str "// Errors:"); (str "//"); (str "//    - easy-error -- is always returned")]; CGroup (Place 392 32) (Place 430 32) [(str "// want Easy1:""ErrorCodes: easy-error""")]; CGroup (Place 463 36) (Place 517 38) [(str "// Errors:"); (str "//"); (str "//    - easy-error -- is always returned")]; CGroup (Place 543 39) (Place 581 39) [(str "// want Easy1:""ErrorCodes: easy-error""")]; CGroup (Place 614 43) (Place 668 45) [(str "// Errors:"); (str "//"); (str "//    - easy-error -- is always returned")]; CGroup (Place 694 46) (Place 732 46) [(str "// want Easy1:""ErrorCodes: easy-error""")]; CGroup (Place 765 50) (Place 819 52) [(str "// Errors:"); (str "//"); (str "//    - easy-error -- is always returned")]; CGroup (Place 846 53) (Place 884 53) [(str "// want Easy2:""ErrorCodes: easy-error""")]; CGroup (Place 917 57) (Place 971 59) [(str "// Errors:"); (str "//"); (str "//    - easy-error -- is always returned")]; CGroup (Place 998 60) (Place 1036 60) [(str "// want Easy2:""ErrorCodes: easy-error""")]; CGroup (Place 1069 64) (Place 1123 66) [(str "// Errors:"); (str "//"); (str "//    - easy-error -- is always returned")]; CGroup (Place 1150 67) (Place 1188 67) [(str "// want Easy2:""ErrorCodes: easy-error""")]; CGroup (Place 1221 71) (Place 1275 73) [(str "// Errors:"); (str "//"); (str "//    - easy-error -- is always returned")]; CGroup (Place 1302 74) (Place 1340 74) [(str "// want Easy2:""ErrorCodes: easy-error""")]; CGroup (Place 1373 78) (Place 1431 78) [(str "// Unused, here to test that the correct methodA is found.")]; CGroup (Place 1489 83) (Place 1552 83) [(str "// Unused, here to test that the correct valueMethodA is found.")]; CGroup (Place 1992 112) (Place 2050 112) [(str "// Unused, here to test that the correct methodA is found.")]; CGroup (Place 2108 117) (Place 2171 117) [(str "// Unused, here to test that the correct valueMethodA is found.")]; CGroup (Place 2239 122) (Place 2271 124) [(str "// Errors:"); (str "//"); (str "//    - a-error --")]; CGroup (Place 2305 125) (Place 2345 125) [(str "// want MethodCall:""ErrorCodes: a-error""")]; CGroup (Place 2369 129) (Place 2401 131) [(str "// Errors:"); (str "//"); (str "//    - a-error --")]; CGroup (Place 2442 132) (Place 2490 132) [(str "// want IndirectMethodCall:""ErrorCodes: a-error""")]; CGroup (Place 2514 136) (Place 2552 138) [(str "// Errors:"); (str "//"); (str "//    - a-value-error --")]; CGroup (Place 2598 139) (Place 2656 139) [(str "// want DereferencedMethodCall:""ErrorCodes: a-value-error""")]; CGroup (Place 2685 143) (Place 2755 147) [(str "// Errors:"); (str "//"); (str "//    - a-error --"); (str "//    - b-error --"); (str "//    - c-error --")]; CGroup (Place 2791 148) (Place 2849 148) [(str "// want PromotedCall:""ErrorCodes: a-error b-error c-error""")]; CGroup (Place 2977 160) (Place 3047 164) [(str "// Errors:"); (str "//"); (str "//    - a-error --"); (str "//    - b-error --"); (str "//    - c-error --")]; CGroup (Place 3090 165) (Place 3156 165) [(str "// want IndirectPromotedCall:""ErrorCodes: a-error b-error c-error""")]; CGroup (Place 3284 177) (Place 3372 181) [(str "// Errors:"); (str "//"); (str "//    - a-value-error --"); (str "//    - b-value-error --"); (str "//    - c-value-error --")]; CGroup (Place 3420 182) (Place 3508 182) [(str "// want DereferencedPromotedCall:""ErrorCodes: a-value-error b-value-error c-value-error""")]; CGroup (Place 3652 195) (Place 3741 200) [(str "// Errors:"); (str "//"); (str "//    - a-error --"); (str "//    - b-error --"); (str "//    - c-error --"); (str "//    - x-error --")]; CGroup (Place 3801 201) (Place 3877 201) [(str "// want FunctionCallingMethods:""ErrorCodes: a-error b-error c-error x-error""")]; CGroup (Place 4038 215) (Place 4108 219) [(str "// Errors:"); (str "//"); (str "//    - a-error --"); (str "//    - b-error --"); (str "//    - c-error --")]; CGroup (Place 4146 220) (Place 4207 220) [(str "// want ArrayMethodCall:""ErrorCodes: a-error b-error c-error""")]; CGroup (Place 4373 234) (Place 4405 236) [(str "// Errors:"); (str "//"); (str "//    - a-error --")]; CGroup (Place 4444 237) (Place 4480 237) [(str "// want Struct:""ErrorCodes: a-error""")]; CGroup (Place 4506 241) (Place 4538 243) [(str "// Errors:"); (str "//"); (str "//    - c-error --")]; CGroup (Place 4586 244) (Place 4631 244) [(str "// want MultipleResults:""ErrorCodes: c-error""")]; CGroup (Place 4663 248) (Place 4714 251) [(str "// Errors:"); (str "//"); (str "//    - a-error --"); (str "//    - c-error --")]; CGroup (Place 4754 252) (Place 4811 252) [(str "// want CallMultipleResults:""ErrorCodes: a-error c-error""")]; CGroup (Place 4940 265) (Place 4972 267) [(str "// Errors:"); (str "//"); (str "//    - a-error --")]; CGroup (Place 5003 268) (Place 5040 268) [(str "// want Chained:""ErrorCodes: a-error""")]; CGroup (Place 5112 272) (Place 5181 272) [(str "// want Error:`ErrorType{Field:{Name:""TheCode"", Position:0}, Codes:}`")]].
Definition t_methods_files : list source_file := [SourceFile t_methods_nodes0 t_methods_cgroups0].
Definition t_methods_info : typeinfo := map_info (list_to_map t_methods_types) (list_to_map t_methods_values) (list_to_map t_methods_uses) (list_to_map t_methods_defs) (list_to_map t_methods_sels) (list_to_set [1; 4; 5; 6; 7; 8; 9; 10; 11; 12; 13; 14; 15; 16; 17; 18; 19; 20; 47; 48; 49; 50; 51; 52; 53; 85]) (list_to_map t_methods_pkgnames) (list_to_map t_methods_objnames) (list_to_map t_methods_objtypes) (list_to_map t_methods_under) t_methods_methods t_methods_ierr t_methods_iree t_methods_icause t_methods_impl (list_to_map t_methods_named_methods).
Definition t_methods : package := Package (list_to_map [(1, t_methods_f1); (2, t_methods_f2); (3, t_methods_f3); (4, t_methods_f4); (5, t_methods_f5); (6, t_methods_f6); (7, t_methods_f7); (8, t_methods_f8); (9, t_methods_f9); (10, t_methods_f10); (11, t_methods_f11); (12, t_methods_f12); (13, t_methods_f13); (14, t_methods_f14); (15, t_methods_f15); (16, t_methods_f16); (17, t_methods_f17); (18, t_methods_f18); (19, t_methods_f19); (20, t_methods_f20); (21, t_methods_f21); (22, t_methods_f22); (23, t_methods_f23); (24, t_methods_f24); (25, t_methods_f25); (26, t_methods_f26); (27, t_methods_f27); (28, t_methods_f28); (29, t_methods_f29); (30, t_methods_f30); (31, t_methods_f31); (32, t_methods_f32); (33, t_methods_f33); (34, t_methods_f34); (35, t_methods_f35); (36, t_methods_f36)]) [1; 2; 3; 4; 5; 6; 7; 8; 9; 10; 11; 12; 13; 14; 15; 16; 17; 18; 19; 20; 21; 22; 23; 24; 25; 26; 27; 28; 29; 30; 31; 32; 33; 34; 35; 36] t_methods_gendecls t_methods_top (list_to_map t_methods_objs) (fun id => default [] (createCommentMap t_methods_files id)) t_methods_info.
Definition t_methods_rank : gostring -> nat := fun n => default 0%nat ((list_to_map [] : gmap gostring nat) !! n).

(** methods: 0 diagnostics and 21 facts, as its "want" comments demand. *)
Theorem t_methods_ascending :
  report (run_test t_methods ascending (Facts ∅ ∅ ∅ ∅)) = Some [
] /\
  fact_texts (facts_after_test (run_test t_methods ascending (Facts ∅ ∅ ∅ ∅))) [47; 48; 49; 50; 51; 52; 53; 54; 55; 56; 57; 58; 59; 60; 61; 62; 63; 64; 65; 66; 67; 68; 69; 70; 71; 72; 73; 74; 75; 76; 77; 78; 79; 80; 81; 82; 83; 84; 85; 86; 87; 88; 89; 90; 91; 92; 93; 94; 95; 96; 97; 98; 99; 100; 101; 102; 103; 104; 105; 106; 107; 108; 109; 110; 111; 114; 115; 117; 118; 119] = [
    (54, (str "ErrorCodes: easy-error")) (* methods.go:25 Easy1 *);
    (55, (str "ErrorCodes: easy-error")) (* methods.go:32 Easy1 *);
    (56, (str "ErrorCodes: easy-error")) (* methods.go:39 Easy1 *);
    (57, (str "ErrorCodes: easy-error")) (* methods.go:46 Easy1 *);
    (58, (str "ErrorCodes: easy-error")) (* methods.go:53 Easy2 *);
    (59, (str "ErrorCodes: easy-error")) (* methods.go:60 Easy2 *);
    (60, (str "ErrorCodes: easy-error")) (* methods.go:67 Easy2 *);
    (61, (str "ErrorCodes: easy-error")) (* methods.go:74 Easy2 *);
    (72, (str "ErrorCodes: a-error")) (* methods.go:125 MethodCall *);
    (73, (str "ErrorCodes: a-error")) (* methods.go:132 IndirectMethodCall *);
    (74, (str "ErrorCodes: a-value-error")) (* methods.go:139 DereferencedMethodCall *);
    (75, (str "ErrorCodes: a-error b-error c-error")) (* methods.go:148 PromotedCall *);
    (76, (str "ErrorCodes: a-error b-error c-error")) (* methods.go:165 IndirectPromotedCall *);
    (77, (str "ErrorCodes: a-value-error b-value-error c-value-error")) (* methods.go:182 DereferencedPromotedCall *);
    (78, (str "ErrorCodes: a-error b-error c-error x-error")) (* methods.go:201 FunctionCallingMethods *);
    (79, (str "ErrorCodes: a-error b-error c-error")) (* methods.go:220 ArrayMethodCall *);
    (80, (str "ErrorCodes: a-error")) (* methods.go:237 Struct *);
    (81, (str "ErrorCodes: c-error")) (* methods.go:244 MultipleResults *);
    (82, (str "ErrorCodes: a-error c-error")) (* methods.go:252 CallMultipleResults *);
    (84, (str "ErrorCodes: a-error")) (* methods.go:268 Chained *);
    (85, (str "ErrorType{Field:{Name:""TheCode"", Position:0}, Codes:}")) (* methods.go:272 Error *)].
Proof. vm_compute. split; reflexivity. Qed.

(** methods: 0 diagnostics and 21 facts, as its "want" comments demand. *)
Theorem t_methods_descending :
  report (run_test t_methods descending (Facts ∅ ∅ ∅ ∅)) = Some [
] /\
  fact_texts (facts_after_test (run_test t_methods descending (Facts ∅ ∅ ∅ ∅))) [47; 48; 49; 50; 51; 52; 53; 54; 55; 56; 57; 58; 59; 60; 61; 62; 63; 64; 65; 66; 67; 68; 69; 70; 71; 72; 73; 74; 75; 76; 77; 78; 79; 80; 81; 82; 83; 84; 85; 86; 87; 88; 89; 90; 91; 92; 93; 94; 95; 96; 97; 98; 99; 100; 101; 102; 103; 104; 105; 106; 107; 108; 109; 110; 111; 114; 115; 117; 118; 119] = [
    (54, (str "ErrorCodes: easy-error")) (* methods.go:25 Easy1 *);
    (55, (str "ErrorCodes: easy-error")) (* methods.go:32 Easy1 *);
    (56, (str "ErrorCodes: easy-error")) (* methods.go:39 Easy1 *);
    (57, (str "ErrorCodes: easy-error")) (* methods.go:46 Easy1 *);
    (58, (str "ErrorCodes: easy-error")) (* methods.go:53 Easy2 *);
    (59, (str "ErrorCodes: easy-error")) (* methods.go:60 Easy2 *);
    (60, (str "ErrorCodes: easy-error")) (* methods.go:67 Easy2 *);
    (61, (str "ErrorCodes: easy-error")) (* methods.go:74 Easy2 *);
    (72, (str "ErrorCodes: a-error")) (* methods.go:125 MethodCall *);
    (73, (str "ErrorCodes: a-error")) (* methods.go:132 IndirectMethodCall *);
    (74, (str "ErrorCodes: a-value-error")) (* methods.go:139 DereferencedMethodCall *);
    (75, (str "ErrorCodes: a-error b-error c-error")) (* methods.go:148 PromotedCall *);
    (76, (str "ErrorCodes: a-error b-error c-error")) (* methods.go:165 IndirectPromotedCall *);
    (77, (str "ErrorCodes: a-value-error b-value-error c-value-error")) (* methods.go:182 DereferencedPromotedCall *);
    (78, (str "ErrorCodes: a-error b-error c-error x-error")) (* methods.go:201 FunctionCallingMethods *);
    (79, (str "ErrorCodes: a-error b-error c-error")) (* methods.go:220 ArrayMethodCall *);
    (80, (str "ErrorCodes: a-error")) (* methods.go:237 Struct *);
    (81, (str "ErrorCodes: c-error")) (* methods.go:244 MultipleResults *);
    (82, (str "ErrorCodes: a-error c-error")) (* methods.go:252 CallMultipleResults *);
    (84, (str "ErrorCodes: a-error")) (* methods.go:268 Chained *);
    (85, (str "ErrorType{Field:{Name:""TheCode"", Position:0}, Codes:}")) (* methods.go:272 Error *)].
Proof. vm_compute. split; reflexivity. Qed.

(** The presuppositions of the general theorems that this package satisfies. *)
Theorem t_methods_presuppositions :
  (forall fa, usable_functions t_methods fa) /\
  (forall fa, no_literal_recursion t_methods (collectFunctions t_methods) fa) /\
  (forall fa, literals_apart t_methods (collectFunctions t_methods) fa) /\
  types_usable t_methods /\
  (forall w n, occurs t_methods w n -> ~ ill_formed t_methods w n) /\
  distinct_definitions t_methods /\
  interfaces_ok t_methods /\
  uses_resolved t_methods (collectFunctions t_methods) /\
  (forall g fn, pk_funcs t_methods !! g = Some fn -> disciplined t_methods (facts_after_test (run_test t_methods ascending (Facts ∅ ∅ ∅ ∅))) fn /\ resolved t_methods (collectFunctions t_methods) (facts_after_test (run_test t_methods ascending (Facts ∅ ∅ ∅ ∅))) fn) /\
  Forall layout t_methods_files.
Proof.
  split_and!.
  - intros fa; apply package_usable_spec; vm_compute; reflexivity.
  - intros fa; apply recursion_check_spec; vm_compute; reflexivity.
  - intros fa; apply apart_spec; vm_compute; reflexivity.
  - apply types_ok_spec; vm_compute; reflexivity.
  - apply package_formed_spec; vm_compute; reflexivity.
  - apply definitions_check_spec; vm_compute; reflexivity.
  - apply (interfaces_check_spec t_methods t_methods_rank); vm_compute; reflexivity.
  - apply uses_check_spec; vm_compute; reflexivity.
  - intros g fn; apply sound_ok_spec; vm_compute; reflexivity.
  - apply layouts_spec; vm_compute; reflexivity.
Qed.
