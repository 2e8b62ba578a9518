(** * The test package errortypes of /repo/analysis/testdata/src, run on the model.  Generated by tools/conform.py; see Conform.v. *)
From Coq Require Import Ascii String.
From stdpp Require Import base list gmap.
From Verif Require Import GoString Scc Engine Constant CommentText CommentMap Phase FactText Conform Claims Analyse Verify SpecTaint SpecProgram SpecLiterals SpecCodeMethod SpecInterfaces SpecSites SpecCrash SpecSound SpecWhole SpecLayout Checkers RecursionChecker LiteralChecker CodeCheckers FormChecker InterfaceChecker SoundChecker ChainChecker ExampleLayout GoAst.
Local Open Scope N_scope.
Definition t_errortypes_f1 : func := Func 3 (Some (DeclInfo (Ident 4 (str "AllErrors") (Some 1)) None (Some (comment_text [(str "// AllErrors returns variations of all errors defined in this package."); (str "//"); (str "// Errors:"); (str "//"); (str "//    - some-error       --"); (str "//    - some-2-error     --"); (str "//    - some-3-error     --"); (str "//    - some-4-error     --"); (str "//    - multiple-1-error --"); (str "//    - multiple-2-error --"); (str "//    - multiple-3-error --"); (str "//    - value-1-error    --"); (str "//    - value-2-error    --"); (str "//    - field-1-error    --"); (str "//    - field-2-error    --"); (str "//    - field-3-error    --"); (str "//    - field-4-error    --"); (str "//    - field-5-error    --"); (str "//    - field-6-error    --"); (str "//    - promoted-1-error --"); (str "//    - promoted-2-error --"); (str "//    - promoted-3-error --"); (str "//    - combined-1-error --"); (str "//    - combined-2-error --"); (str "//    - combined-3-error --"); (str "//    - string-error     --")])))) (FuncType 5 [] (Some [(Field 8 [] 9)]) 742) (Some (Node 10 (KOther (str "*ast.BlockStmt")) [(Node 11 (KOther (str "*ast.DeclStmt")) [(Node 12 (KOther (str "*ast.GenDecl")) [(Node 13 (KValueSpec [(Ident 14 (str "someVariable") (Some 2))] (Some 15)) [])])]); (Node 16 (KOther (str "*ast.SwitchStmt")) [(Node 17 (KOther (str "*ast.BlockStmt")) [(Node 18 (KCaseClause 1%nat) [(Node 19 (KIdent (str "true") None) []); (Node 20 KReturn [(Node 21 (KUnary true) [(Node 22 KComposite [])])])]); (Node 24 (KCaseClause 1%nat) [(Node 25 (KIdent (str "true") None) []); (Node 26 KReturn [(Node 27 (KUnary true) [(Node 28 KComposite [])])])]); (Node 30 (KCaseClause 1%nat) [(Node 31 (KIdent (str "true") None) []); (Node 32 KReturn [(Node 33 (KUnary true) [(Node 34 KComposite [])])])]); (Node 36 (KCaseClause 1%nat) [(Node 37 (KIdent (str "true") None) []); (Node 38 KReturn [(Node 39 (KUnary true) [(Node 40 KComposite [])])])]); (Node 42 (KCaseClause 1%nat) [(Node 43 (KIdent (str "true") None) []); (Node 44 KReturn [(Node 45 (KUnary true) [(Node 46 KComposite [])])])]); (Node 48 (KCaseClause 1%nat) [(Node 49 (KIdent (str "true") None) []); (Node 50 KReturn [(Node 51 KComposite [])])]); (Node 53 (KCaseClause 1%nat) [(Node 54 (KIdent (str "true") None) []); (Node 55 KReturn [(Node 56 (KUnary true) [(Node 57 KComposite [])])])]); (Node 59 (KCaseClause 1%nat) [(Node 60 (KIdent (str "true") None) []); (Node 61 KReturn [(Node 62 (KUnary true) [(Node 63 KComposite [])])])]); (Node 65 (KCaseClause 1%nat) [(Node 66 (KIdent (str "true") None) []); (Node 67 KReturn [(Node 68 (KUnary true) [(Node 69 KComposite [])])])]); (Node 71 (KCaseClause 1%nat) [(Node 72 (KIdent (str "true") None) []); (Node 73 KReturn [(Node 74 (KUnary true) [(Node 75 KComposite [])])])]); (Node 77 (KCaseClause 1%nat) [(Node 78 (KIdent (str "true") None) []); (Node 79 KReturn [(Node 80 (KUnary true) [(Node 81 KComposite [(Node 83 KBasicLit [])])])])]); (Node 84 (KCaseClause 1%nat) [(Node 85 (KIdent (str "true") None) []); (Node 86 KReturn [(Node 87 (KUnary true) [(Node 88 KComposite [(Node 90 KBasicLit []); (Node 91 KBasicLit []); (Node 92 KBasicLit [])])])])]); (Node 93 (KCaseClause 1%nat) [(Node 94 (KIdent (str "true") None) []); (Node 95 KReturn [(Node 96 (KUnary true) [(Node 97 KComposite [(Node 99 KBasicLit []); (Node 100 KBasicLit []); (Node 101 KBasicLit [])])])])]); (Node 102 (KCaseClause 1%nat) [(Node 103 (KIdent (str "true") None) []); (Node 104 KReturn [(Node 105 (KUnary true) [(Node 106 KComposite [(Node 108 KBasicLit [])])])])]); (Node 109 (KCaseClause 1%nat) [(Node 110 (KIdent (str "true") None) []); (Node 111 KReturn [(Node 112 (KUnary true) [(Node 113 KComposite [(Node 115 KKeyValue [(Node 116 (KIdent (str "field") None) []); (Node 117 KBasicLit [])])])])])]); (Node 118 (KCaseClause 1%nat) [(Node 119 (KIdent (str "true") None) []); (Node 120 KReturn [(Node 121 (KUnary true) [(Node 122 KComposite [(Node 124 KKeyValue [(Node 125 (KIdent (str "field3") None) []); (Node 126 KBasicLit [])]); (Node 127 KKeyValue [(Node 128 (KIdent (str "field2") None) []); (Node 129 KBasicLit [])]); (Node 130 KKeyValue [(Node 131 (KIdent (str "field1") None) []); (Node 132 KBasicLit [])])])])])]); (Node 133 (KCaseClause 1%nat) [(Node 134 (KIdent (str "true") None) []); (Node 135 KReturn [(Node 136 (KUnary true) [(Node 137 KComposite [(Node 139 (KIdent (str "someVariable") (Some 2)) [])])])])]); (Node 140 (KCaseClause 1%nat) [(Node 141 (KIdent (str "true") None) []); (Node 142 KReturn [(Node 143 (KUnary true) [(Node 144 KComposite [])])])]); (Node 146 (KCaseClause 1%nat) [(Node 147 (KIdent (str "true") None) []); (Node 148 KReturn [(Node 149 (KUnary true) [(Node 150 KComposite [(Node 152 KKeyValue [(Node 153 (KIdent (str "field3") None) []); (Node 154 KBasicLit [])])])])])]); (Node 155 (KCaseClause 1%nat) [(Node 156 (KIdent (str "true") None) []); (Node 157 KReturn [(Node 158 (KUnary true) [(Node 159 KComposite [(Node 161 KBasicLit [])])])])]); (Node 162 (KCaseClause 1%nat) [(Node 163 (KIdent (str "true") None) []); (Node 164 KReturn [(Node 165 (KUnary true) [(Node 166 KComposite [(Node 168 KKeyValue [(Node 169 (KIdent (str "field3") None) []); (Node 170 KBasicLit [])]); (Node 171 KKeyValue [(Node 172 (KIdent (str "field1") None) []); (Node 173 KBasicLit [])])])])])]); (Node 174 (KCaseClause 1%nat) [(Node 175 (KIdent (str "true") None) []); (Node 176 KReturn [(Node 177 (KUnary true) [(Node 178 KComposite [(Node 180 KBasicLit [])])])])]); (Node 181 (KCaseClause 1%nat) [(Node 182 (KIdent (str "true") None) []); (Node 183 KReturn [(Node 184 (KUnary true) [(Node 185 KComposite [(Node 187 KComposite [(Node 189 KBasicLit []); (Node 190 KBasicLit [])]); (Node 191 KBasicLit []); (Node 192 KBasicLit [])])])])]); (Node 193 (KCaseClause 1%nat) [(Node 194 (KIdent (str "true") None) []); (Node 195 KReturn [(Node 196 (KUnary true) [(Node 197 KComposite [(Node 199 KKeyValue [(Node 200 (KIdent (str "field") None) []); (Node 201 KBasicLit [])])])])])]); (Node 202 (KCaseClause 1%nat) [(Node 203 (KIdent (str "true") None) []); (Node 204 KReturn [(Node 205 (KUnary true) [(Node 206 KComposite [(Node 208 (KIdent (str "nil") None) []); (Node 209 KBasicLit []); (Node 210 KBasicLit [])])])])]); (Node 211 (KCaseClause 1%nat) [(Node 212 (KIdent (str "true") None) []); (Node 213 KReturn [(Node 214 (KUnary true) [(Node 215 KComposite [(Node 217 KComposite [(Node 219 KBasicLit []); (Node 220 KBasicLit [])])])])])]); (Node 221 (KCaseClause 1%nat) [(Node 222 (KIdent (str "true") None) []); (Node 223 KReturn [(Node 224 (KUnary true) [(Node 225 KComposite [(Node 227 KBasicLit [])])])])]); (Node 228 (KCaseClause 1%nat) [(Node 229 (KIdent (str "true") None) []); (Node 230 KReturn [(Node 231 KCall [(Node 232 (KIdent (str "ValidStringError") (Some 3)) []); (Node 233 KBasicLit [])])])]); (Node 234 (KCaseClause 1%nat) [(Node 235 (KIdent (str "true") None) []); (Node 236 KReturn [(Node 237 KCall [(Node 238 (KIdent (str "InvalidStringError") (Some 4)) []); (Node 239 KBasicLit [])])])])])]); (Node 240 KReturn [(Node 241 (KIdent (str "nil") None) [])])])) 748 3565.
Definition t_errortypes_f2 : func := Func 247 (Some (DeclInfo (Ident 253 (str "Code") None) (Some [(Field 249 [(Ident 250 (str "e") (Some 5))] 251)]) None)) (FuncType 254 [] (Some [(Field 257 [] 258)]) 3692) (Some (Node 259 (KOther (str "*ast.BlockStmt")) [(Node 260 KReturn [(Node 261 KBasicLit [])])])) 3700 3723.
Definition t_errortypes_f3 : func := Func 262 (Some (DeclInfo (Ident 268 (str "Error") None) (Some [(Field 264 [(Ident 265 (str "e") (Some 6))] 266)]) None)) (FuncType 269 [] (Some [(Field 272 [] 273)]) 3756) (Some (Node 274 (KOther (str "*ast.BlockStmt")) [(Node 275 KReturn [(Node 276 KBasicLit [])])])) 3763 3789.
Definition t_errortypes_f4 : func := Func 282 (Some (DeclInfo (Ident 288 (str "Code") None) (Some [(Field 284 [(Ident 285 (str "e") (Some 7))] 286)]) None)) (FuncType 289 [] (Some [(Field 292 [] 293)]) 3921) (Some (Node 294 (KOther (str "*ast.BlockStmt")) [(Node 295 KReturn [(Node 296 (KOther (str "*ast.BinaryExpr")) [(Node 297 KBasicLit []); (Node 298 KBasicLit [])])])])) 3929 3959.
Definition t_errortypes_f5 : func := Func 299 (Some (DeclInfo (Ident 305 (str "Error") None) (Some [(Field 301 [(Ident 302 (str "e") (Some 8))] 303)]) None)) (FuncType 306 [] (Some [(Field 309 [] 310)]) 3993) (Some (Node 311 (KOther (str "*ast.BlockStmt")) [(Node 312 KReturn [(Node 313 KBasicLit [])])])) 4000 4027.
Definition t_errortypes_f6 : func := Func 325 (Some (DeclInfo (Ident 331 (str "Code") None) (Some [(Field 327 [(Ident 328 (str "e") (Some 9))] 329)]) None)) (FuncType 332 [] (Some [(Field 335 [] 336)]) 4207) (Some (Node 337 (KOther (str "*ast.BlockStmt")) [(Node 338 KReturn [(Node 339 (KIdent (str "constantError3Code") (Some 10)) [])])])) 4215 4244.
Definition t_errortypes_f7 : func := Func 340 (Some (DeclInfo (Ident 346 (str "Error") None) (Some [(Field 342 [(Ident 343 (str "e") (Some 11))] 344)]) None)) (FuncType 347 [] (Some [(Field 350 [] 351)]) 4278) (Some (Node 352 (KOther (str "*ast.BlockStmt")) [(Node 353 KReturn [(Node 354 KBasicLit [])])])) 4285 4312.
Definition t_errortypes_f8 : func := Func 360 (Some (DeclInfo (Ident 365 (str "Code") None) (Some [(Field 362 [] 363)]) None)) (FuncType 366 [] (Some [(Field 369 [] 370)]) 4442) (Some (Node 371 (KOther (str "*ast.BlockStmt")) [(Node 372 KReturn [(Node 373 KBasicLit [])])])) 4450 4475.
Definition t_errortypes_f9 : func := Func 374 (Some (DeclInfo (Ident 379 (str "Error") None) (Some [(Field 376 [] 377)]) None)) (FuncType 380 [] (Some [(Field 383 [] 384)]) 4507) (Some (Node 385 (KOther (str "*ast.BlockStmt")) [(Node 386 KReturn [(Node 387 KBasicLit [])])])) 4514 4541.
Definition t_errortypes_f10 : func := Func 393 (Some (DeclInfo (Ident 399 (str "Code") None) (Some [(Field 395 [(Ident 396 (str "e") (Some 12))] 397)]) None)) (FuncType 400 [] (Some [(Field 403 [] 404)]) 4732) (Some (Node 405 (KOther (str "*ast.BlockStmt")) [(Node 406 (KOther (str "*ast.SwitchStmt")) [(Node 407 (KOther (str "*ast.BlockStmt")) [(Node 408 (KCaseClause 1%nat) [(Node 409 (KIdent (str "true") None) []); (Node 410 KReturn [(Node 411 KBasicLit [])])]); (Node 412 (KCaseClause 1%nat) [(Node 413 (KIdent (str "true") None) []); (Node 414 KReturn [(Node 415 KBasicLit [])])]); (Node 416 (KCaseClause 0%nat) [(Node 417 KReturn [(Node 418 KBasicLit [])])])])])])) 4739 4873.
Definition t_errortypes_f11 : func := Func 419 (Some (DeclInfo (Ident 425 (str "Error") None) (Some [(Field 421 [(Ident 422 (str "e") (Some 13))] 423)]) None)) (FuncType 426 [] (Some [(Field 429 [] 430)]) 4914) (Some (Node 431 (KOther (str "*ast.BlockStmt")) [(Node 432 KReturn [(Node 433 KBasicLit [])])])) 4921 4955.
Definition t_errortypes_f12 : func := Func 439 (Some (DeclInfo (Ident 444 (str "Code") None) (Some [(Field 441 [(Ident 442 (str "e") (Some 14))] 443)]) None)) (FuncType 445 [] (Some [(Field 448 [] 449)]) 5087) (Some (Node 450 (KOther (str "*ast.BlockStmt")) [(Node 451 KReturn [(Node 452 KBasicLit [])])])) 5095 5121.
Definition t_errortypes_f13 : func := Func 453 (Some (DeclInfo (Ident 458 (str "Error") None) (Some [(Field 455 [(Ident 456 (str "e") (Some 15))] 457)]) None)) (FuncType 459 [] (Some [(Field 462 [] 463)]) 5154) (Some (Node 464 (KOther (str "*ast.BlockStmt")) [(Node 465 KReturn [(Node 466 KBasicLit [])])])) 5161 5188.
Definition t_errortypes_f14 : func := Func 472 (Some (DeclInfo (Ident 477 (str "Code") None) (Some [(Field 474 [(Ident 475 (str "e") (Some 16))] 476)]) None)) (FuncType 478 [] (Some [(Field 481 [] 482)]) 5323) (Some (Node 483 (KOther (str "*ast.BlockStmt")) [(Node 484 KReturn [(Node 485 KBasicLit [])])])) 5331 5357.
Definition t_errortypes_f15 : func := Func 486 (Some (DeclInfo (Ident 491 (str "Error") None) (Some [(Field 488 [(Ident 489 (str "e") (Some 17))] 490)]) None)) (FuncType 492 [] (Some [(Field 495 [] 496)]) 5391) (Some (Node 497 (KOther (str "*ast.BlockStmt")) [(Node 498 KReturn [(Node 499 KBasicLit [])])])) 5398 5426.
Definition t_errortypes_f16 : func := Func 505 (Some (DeclInfo (Ident 511 (str "Code") None) (Some [(Field 507 [(Ident 508 (str "e") (Some 18))] 509)]) None)) (FuncType 512 [] (Some [(Field 515 [] 516)]) 5573) (Some (Node 517 (KOther (str "*ast.BlockStmt")) [(Node 518 KReturn [(Node 519 KBasicLit [])])])) 5581 5607.
Definition t_errortypes_f17 : func := Func 520 (Some (DeclInfo (Ident 526 (str "Error") None) (Some [(Field 522 [(Ident 523 (str "e") (Some 19))] 524)]) None)) (FuncType 527 [] (Some [(Field 530 [] 531)]) 5696) (Some (Node 532 (KOther (str "*ast.BlockStmt")) [(Node 533 KReturn [(Node 534 KBasicLit [])])])) 5703 5728.
Definition t_errortypes_f18 : func := Func 544 (Some (DeclInfo (Ident 550 (str "Code") None) (Some [(Field 546 [(Ident 547 (str "e") (Some 20))] 548)]) None)) (FuncType 551 [] (Some [(Field 554 [] 555)]) 5901) (Some (Node 556 (KOther (str "*ast.BlockStmt")) [(Node 557 KReturn [(Node 558 (KOther (str "*ast.BinaryExpr")) [(Node 559 KSelector [(Node 560 (KIdent (str "e") (Some 20)) []); (Node 561 (KIdent (str "field1") None) [])]); (Node 562 KSelector [(Node 563 (KIdent (str "e") (Some 20)) []); (Node 564 (KIdent (str "field2") None) [])])])])])) 5909 5939.
Definition t_errortypes_f19 : func := Func 565 (Some (DeclInfo (Ident 571 (str "Error") None) (Some [(Field 567 [(Ident 568 (str "e") (Some 21))] 569)]) None)) (FuncType 572 [] (Some [(Field 575 [] 576)]) 6055) (Some (Node 577 (KOther (str "*ast.BlockStmt")) [(Node 578 KReturn [(Node 579 KBasicLit [])])])) 6062 6088.
Definition t_errortypes_f20 : func := Func 585 (Some (DeclInfo (Ident 591 (str "Error") None) (Some [(Field 587 [(Ident 588 (str "e") (Some 22))] 589)]) None)) (FuncType 592 [] (Some [(Field 595 [] 596)]) 6151) (Some (Node 597 (KOther (str "*ast.BlockStmt")) [(Node 598 KReturn [(Node 599 KBasicLit [])])])) 6158 6184.
Definition t_errortypes_f21 : func := Func 608 (Some (DeclInfo (Ident 614 (str "Code") None) (Some [(Field 610 [(Ident 611 (str "e") (Some 23))] 612)]) None)) (FuncType 615 [] (Some [(Field 618 [] 619)]) 6327) (Some (Node 620 (KOther (str "*ast.BlockStmt")) [(Node 621 KReturn [(Node 622 KSelector [(Node 623 (KIdent (str "e") (Some 23)) []); (Node 624 (KIdent (str "field") None) [])])])])) 6335 6353.
Definition t_errortypes_f22 : func := Func 625 (Some (DeclInfo (Ident 631 (str "Error") None) (Some [(Field 627 [(Ident 628 (str "e") (Some 24))] 629)]) None)) (FuncType 632 [] (Some [(Field 635 [] 636)]) 6383) (Some (Node 637 (KOther (str "*ast.BlockStmt")) [(Node 638 KReturn [(Node 639 KBasicLit [])])])) 6390 6413.
Definition t_errortypes_f23 : func := Func 650 (Some (DeclInfo (Ident 656 (str "Code") None) (Some [(Field 652 [(Ident 653 (str "e") (Some 25))] 654)]) None)) (FuncType 657 [] (Some [(Field 660 [] 661)]) 6577) (Some (Node 662 (KOther (str "*ast.BlockStmt")) [(Node 663 (KOther (str "*ast.SwitchStmt")) [(Node 664 (KOther (str "*ast.BlockStmt")) [(Node 665 (KCaseClause 1%nat) [(Node 666 (KIdent (str "true") None) []); (Node 667 KReturn [(Node 668 KSelector [(Node 669 (KIdent (str "e") (Some 25)) []); (Node 670 (KIdent (str "field1") None) [])])])]); (Node 671 (KCaseClause 1%nat) [(Node 672 (KIdent (str "true") None) []); (Node 673 KReturn [(Node 674 KSelector [(Node 675 (KIdent (str "e") (Some 25)) []); (Node 676 (KIdent (str "field2") None) [])])])]); (Node 677 (KCaseClause 0%nat) [(Node 678 KReturn [(Node 679 KSelector [(Node 680 (KIdent (str "e") (Some 25)) []); (Node 681 (KIdent (str "field3") None) [])])])])])])])) 6584 6902.
Definition t_errortypes_f24 : func := Func 682 (Some (DeclInfo (Ident 688 (str "Error") None) (Some [(Field 684 [(Ident 685 (str "e") (Some 26))] 686)]) None)) (FuncType 689 [] (Some [(Field 692 [] 693)]) 6933) (Some (Node 694 (KOther (str "*ast.BlockStmt")) [(Node 695 KReturn [(Node 696 KBasicLit [])])])) 6940 6964.
Definition t_errortypes_f25 : func := Func 707 (Some (DeclInfo (Ident 713 (str "Code") None) (Some [(Field 709 [(Ident 710 (str "e") (Some 27))] 711)]) None)) (FuncType 714 [] (Some [(Field 717 [] 718)]) 7118) (Some (Node 719 (KOther (str "*ast.BlockStmt")) [(Node 720 KReturn [(Node 721 KSelector [(Node 722 (KIdent (str "e") (Some 27)) []); (Node 723 (KIdent (str "field2") None) [])])])])) 7126 7145.
Definition t_errortypes_f26 : func := Func 724 (Some (DeclInfo (Ident 730 (str "Error") None) (Some [(Field 726 [(Ident 727 (str "e") (Some 28))] 728)]) None)) (FuncType 731 [] (Some [(Field 734 [] 735)]) 7176) (Some (Node 736 (KOther (str "*ast.BlockStmt")) [(Node 737 KReturn [(Node 738 KBasicLit [])])])) 7183 7207.
Definition t_errortypes_f27 : func := Func 774 (Some (DeclInfo (Ident 780 (str "Code") None) (Some [(Field 776 [(Ident 777 (str "e") (Some 29))] 778)]) None)) (FuncType 781 [] (Some [(Field 784 [] 785)]) 7506) (Some (Node 786 (KOther (str "*ast.BlockStmt")) [(Node 787 KReturn [(Node 788 KSelector [(Node 789 (KIdent (str "e") (Some 29)) []); (Node 790 (KIdent (str "field") None) [])])])])) 7514 7532.
Definition t_errortypes_f28 : func := Func 791 (Some (DeclInfo (Ident 797 (str "Error") None) (Some [(Field 793 [(Ident 794 (str "e") (Some 30))] 795)]) None)) (FuncType 798 [] (Some [(Field 801 [] 802)]) 7570) (Some (Node 803 (KOther (str "*ast.BlockStmt")) [(Node 804 KReturn [(Node 805 KBasicLit [])])])) 7577 7608.
Definition t_errortypes_f29 : func := Func 824 (Some (DeclInfo (Ident 830 (str "Code") None) (Some [(Field 826 [(Ident 827 (str "e") (Some 31))] 828)]) None)) (FuncType 831 [] (Some [(Field 834 [] 835)]) 7838) (Some (Node 836 (KOther (str "*ast.BlockStmt")) [(Node 837 KReturn [(Node 838 KSelector [(Node 839 (KIdent (str "e") (Some 31)) []); (Node 840 (KIdent (str "field") None) [])])])])) 7846 7864.
Definition t_errortypes_f30 : func := Func 841 (Some (DeclInfo (Ident 847 (str "Error") None) (Some [(Field 843 [(Ident 844 (str "e") (Some 32))] 845)]) None)) (FuncType 848 [] (Some [(Field 851 [] 852)]) 7903) (Some (Node 853 (KOther (str "*ast.BlockStmt")) [(Node 854 KReturn [(Node 855 KBasicLit [])])])) 7910 7942.
Definition t_errortypes_f31 : func := Func 868 (Some (DeclInfo (Ident 874 (str "Code") None) (Some [(Field 870 [(Ident 871 (str "e") (Some 33))] 872)]) None)) (FuncType 875 [] (Some [(Field 878 [] 879)]) 8139) (Some (Node 880 (KOther (str "*ast.BlockStmt")) [(Node 881 KReturn [(Node 882 KSelector [(Node 883 (KIdent (str "e") (Some 33)) []); (Node 884 (KIdent (str "errorCode") None) [])])])])) 8147 8169.
Definition t_errortypes_f32 : func := Func 885 (Some (DeclInfo (Ident 891 (str "Error") None) (Some [(Field 887 [(Ident 888 (str "e") (Some 34))] 889)]) None)) (FuncType 892 [] (Some [(Field 895 [] 896)]) 8208) (Some (Node 897 (KOther (str "*ast.BlockStmt")) [(Node 898 KReturn [(Node 899 KBasicLit [])])])) 8215 8247.
Definition t_errortypes_f33 : func := Func 907 (Some (DeclInfo (Ident 913 (str "Code") None) (Some [(Field 909 [(Ident 910 (str "e") (Some 35))] 911)]) None)) (FuncType 914 [] (Some [(Field 917 [] 918)]) 8446) (Some (Node 919 (KOther (str "*ast.BlockStmt")) [(Node 920 KReturn [(Node 921 KSelector [(Node 922 (KIdent (str "e") (Some 35)) []); (Node 923 (KIdent (str "Some") None) [])])])])) 8454 8471.
Definition t_errortypes_f34 : func := Func 924 (Some (DeclInfo (Ident 930 (str "Error") None) (Some [(Field 926 [(Ident 927 (str "e") (Some 36))] 928)]) None)) (FuncType 931 [] (Some [(Field 934 [] 935)]) 8662) (Some (Node 936 (KOther (str "*ast.BlockStmt")) [(Node 937 KReturn [(Node 938 KBasicLit [])])])) 8669 8707.
Definition t_errortypes_f35 : func := Func 947 (Some (DeclInfo (Ident 953 (str "Code") None) (Some [(Field 949 [(Ident 950 (str "e") (Some 37))] 951)]) None)) (FuncType 954 [] (Some [(Field 957 [] 958)]) 8892) (Some (Node 959 (KOther (str "*ast.BlockStmt")) [(Node 960 (KOther (str "*ast.SwitchStmt")) [(Node 961 (KOther (str "*ast.BlockStmt")) [(Node 962 (KCaseClause 1%nat) [(Node 963 (KIdent (str "true") None) []); (Node 964 KReturn [(Node 965 KSelector [(Node 966 (KIdent (str "e") (Some 37)) []); (Node 967 (KIdent (str "field") None) [])])])]); (Node 968 (KCaseClause 1%nat) [(Node 969 (KIdent (str "true") None) []); (Node 970 KReturn [(Node 971 KBasicLit [])])])])]); (Node 972 KReturn [(Node 973 KBasicLit [])])])) 8899 9011.
Definition t_errortypes_f36 : func := Func 974 (Some (DeclInfo (Ident 980 (str "Error") None) (Some [(Field 976 [(Ident 977 (str "e") (Some 38))] 978)]) None)) (FuncType 981 [] (Some [(Field 984 [] 985)]) 9044) (Some (Node 986 (KOther (str "*ast.BlockStmt")) [(Node 987 KReturn [(Node 988 KBasicLit [])])])) 9051 9077.
Definition t_errortypes_f37 : func := Func 993 (Some (DeclInfo (Ident 998 (str "Code") None) (Some [(Field 995 [(Ident 996 (str "e") (Some 39))] 997)]) None)) (FuncType 999 [] (Some [(Field 1002 [] 1003)]) 9212) (Some (Node 1004 (KOther (str "*ast.BlockStmt")) [(Node 1005 KReturn [(Node 1006 KBasicLit [])])])) 9220 9245.
Definition t_errortypes_f38 : func := Func 1007 (Some (DeclInfo (Ident 1012 (str "Error") None) (Some [(Field 1009 [(Ident 1010 (str "e") (Some 40))] 1011)]) None)) (FuncType 1013 [] (Some [(Field 1016 [] 1017)]) 9280) (Some (Node 1018 (KOther (str "*ast.BlockStmt")) [(Node 1019 KReturn [(Node 1020 KBasicLit [])])])) 9287 9316.
Definition t_errortypes_f39 : func := Func 1025 (Some (DeclInfo (Ident 1030 (str "Code") None) (Some [(Field 1027 [(Ident 1028 (str "e") (Some 41))] 1029)]) None)) (FuncType 1031 [] (Some [(Field 1034 [] 1035)]) 9478) (Some (Node 1036 (KOther (str "*ast.BlockStmt")) [(Node 1037 KReturn [(Node 1038 KCall [(Node 1039 (KIdent (str "string") None) []); (Node 1040 (KIdent (str "e") (Some 41)) [])])])])) 9486 9506.
Definition t_errortypes_f40 : func := Func 1041 (Some (DeclInfo (Ident 1046 (str "Error") None) (Some [(Field 1043 [(Ident 1044 (str "e") (Some 42))] 1045)]) None)) (FuncType 1047 [] (Some [(Field 1050 [] 1051)]) 9626) (Some (Node 1052 (KOther (str "*ast.BlockStmt")) [(Node 1053 KReturn [(Node 1054 KBasicLit [])])])) 9633 9664.
Definition t_errortypes_f41 : func := Func 1067 (Some (DeclInfo (Ident 1073 (str "Code") None) (Some [(Field 1069 [(Ident 1070 (str "e") (Some 43))] 1071)]) None)) (FuncType 1074 [] (Some [(Field 1077 [] 1078)]) 9899) (Some (Node 1079 (KOther (str "*ast.BlockStmt")) [(Node 1080 (KOther (str "*ast.IfStmt")) [(Node 1081 KSelector [(Node 1082 (KIdent (str "e") (Some 43)) []); (Node 1083 (KIdent (str "flag1") None) [])]); (Node 1084 (KOther (str "*ast.BlockStmt")) [(Node 1085 (KAssign 1%nat) [(Node 1086 KSelector [(Node 1087 (KIdent (str "e") (Some 43)) []); (Node 1088 (KIdent (str "code") None) [])]); (Node 1089 KBasicLit [])])])]); (Node 1090 (KOther (str "*ast.IfStmt")) [(Node 1091 KSelector [(Node 1092 (KIdent (str "e") (Some 43)) []); (Node 1093 (KIdent (str "flag2") None) [])]); (Node 1094 (KOther (str "*ast.BlockStmt")) [(Node 1095 (KAssign 1%nat) [(Node 1096 KSelector [(Node 1097 (KIdent (str "e") (Some 43)) []); (Node 1098 (KIdent (str "code") None) [])]); (Node 1099 (KOther (str "*ast.BinaryExpr")) [(Node 1100 KSelector [(Node 1101 (KIdent (str "e") (Some 43)) []); (Node 1102 (KIdent (str "code") None) [])]); (Node 1103 KBasicLit [])])])])]); (Node 1104 KReturn [(Node 1105 KSelector [(Node 1106 (KIdent (str "e") (Some 43)) []); (Node 1107 (KIdent (str "code") None) [])])])])) 9906 10087.
Definition t_errortypes_f42 : func := Func 1108 (Some (DeclInfo (Ident 1114 (str "Error") None) (Some [(Field 1110 [(Ident 1111 (str "e") (Some 44))] 1112)]) None)) (FuncType 1115 [] (Some [(Field 1118 [] 1119)]) 10123) (Some (Node 1120 (KOther (str "*ast.BlockStmt")) [(Node 1121 (KOther (str "*ast.IfStmt")) [(Node 1122 KSelector [(Node 1123 (KIdent (str "e") (Some 44)) []); (Node 1124 (KIdent (str "flag1") None) [])]); (Node 1125 (KOther (str "*ast.BlockStmt")) [(Node 1126 (KAssign 1%nat) [(Node 1127 KSelector [(Node 1128 (KIdent (str "e") (Some 44)) []); (Node 1129 (KIdent (str "code") None) [])]); (Node 1130 KBasicLit [])])])]); (Node 1131 (KOther (str "*ast.IfStmt")) [(Node 1132 KSelector [(Node 1133 (KIdent (str "e") (Some 44)) []); (Node 1134 (KIdent (str "flag2") None) [])]); (Node 1135 (KOther (str "*ast.BlockStmt")) [(Node 1136 (KAssign 1%nat) [(Node 1137 KSelector [(Node 1138 (KIdent (str "e") (Some 44)) []); (Node 1139 (KIdent (str "code") None) [])]); (Node 1140 (KOther (str "*ast.BinaryExpr")) [(Node 1141 KSelector [(Node 1142 (KIdent (str "e") (Some 44)) []); (Node 1143 (KIdent (str "code") None) [])]); (Node 1144 KBasicLit [])])])])]); (Node 1145 KReturn [(Node 1146 KBasicLit [])])])) 10130 10322.
Definition t_errortypes_f43 : func := Func 1147 (Some (DeclInfo (Ident 1153 (str "OtherMethod") None) (Some [(Field 1149 [(Ident 1150 (str "e") (Some 45))] 1151)]) None)) (FuncType 1154 [] (Some [(Field 1157 [] 1158)]) 10364) (Some (Node 1159 (KOther (str "*ast.BlockStmt")) [(Node 1160 (KOther (str "*ast.IfStmt")) [(Node 1161 KSelector [(Node 1162 (KIdent (str "e") (Some 45)) []); (Node 1163 (KIdent (str "flag1") None) [])]); (Node 1164 (KOther (str "*ast.BlockStmt")) [(Node 1165 (KAssign 1%nat) [(Node 1166 KSelector [(Node 1167 (KIdent (str "e") (Some 45)) []); (Node 1168 (KIdent (str "code") None) [])]); (Node 1169 KBasicLit [])])])]); (Node 1170 (KOther (str "*ast.IfStmt")) [(Node 1171 KSelector [(Node 1172 (KIdent (str "e") (Some 45)) []); (Node 1173 (KIdent (str "flag2") None) [])]); (Node 1174 (KOther (str "*ast.BlockStmt")) [(Node 1175 (KAssign 1%nat) [(Node 1176 KSelector [(Node 1177 (KIdent (str "e") (Some 45)) []); (Node 1178 (KIdent (str "code") None) [])]); (Node 1179 (KOther (str "*ast.BinaryExpr")) [(Node 1180 KSelector [(Node 1181 (KIdent (str "e") (Some 45)) []); (Node 1182 (KIdent (str "code") None) [])]); (Node 1183 KBasicLit [])])])])]); (Node 1184 KReturn [(Node 1185 KBasicLit [])])])) 10371 10563.
Definition t_errortypes_f44 : func := Func 1191 (Some (DeclInfo (Ident 1197 (str "Code") None) (Some [(Field 1193 [(Ident 1194 (str "e") (Some 46))] 1195)]) None)) (FuncType 1198 [] (Some [(Field 1201 [] 1202)]) 10707) (Some (Node 1203 (KOther (str "*ast.BlockStmt")) [(Node 1204 (KOther (str "*ast.IfStmt")) [(Node 1205 (KOther (str "*ast.BinaryExpr")) [(Node 1206 (KIdent (str "e") (Some 46)) []); (Node 1207 (KIdent (str "nil") None) [])]); (Node 1208 (KOther (str "*ast.BlockStmt")) [(Node 1209 KReturn [(Node 1210 KBasicLit [])])])]); (Node 1211 KReturn [(Node 1212 KBasicLit [])])])) 10714 10776.
Definition t_errortypes_f45 : func := Func 1213 (Some (DeclInfo (Ident 1218 (str "Error") None) (Some [(Field 1215 [] 1216)]) None)) (FuncType 1219 [] (Some [(Field 1222 [] 1223)]) 10810) (Some (Node 1224 (KOther (str "*ast.BlockStmt")) [(Node 1225 KReturn [(Node 1226 KBasicLit [])])])) 10817 10848.
Definition t_errortypes_f46 : func := Func 1232 (Some (DeclInfo (Ident 1237 (str "Code") None) (Some [(Field 1234 [] 1235)]) None)) (FuncType 1238 [] (Some [(Field 1241 [(Ident 1242 (str "code") (Some 47))] 1243)]) 10990) (Some (Node 1244 (KOther (str "*ast.BlockStmt")) [(Node 1245 (KAssign 1%nat) [(Node 1246 (KIdent (str "code") (Some 47)) []); (Node 1247 KBasicLit [])]); (Node 1248 (KOther (str "*ast.IfStmt")) [(Node 1249 (KIdent (str "false") None) []); (Node 1250 (KOther (str "*ast.BlockStmt")) [(Node 1251 (KAssign 1%nat) [(Node 1252 (KIdent (str "code") (Some 47)) []); (Node 1253 KBasicLit [])])])]); (Node 1254 KReturn [])])) 11004 11071.
Definition t_errortypes_f47 : func := Func 1255 (Some (DeclInfo (Ident 1260 (str "Error") None) (Some [(Field 1257 [] 1258)]) None)) (FuncType 1261 [] (Some [(Field 1264 [(Ident 1265 (str "err") (Some 48))] 1266)]) 11105) (Some (Node 1267 (KOther (str "*ast.BlockStmt")) [(Node 1268 (KAssign 1%nat) [(Node 1269 (KIdent (str "err") (Some 48)) []); (Node 1270 KBasicLit [])]); (Node 1271 KReturn [])])) 11118 11155.
Definition t_errortypes_f48 : func := Func 1280 (Some (DeclInfo (Ident 1286 (str "Code") None) (Some [(Field 1282 [(Ident 1283 (str "e") (Some 49))] 1284)]) None)) (FuncType 1287 [] (Some [(Field 1290 [(Ident 1291 (str "code") (Some 50))] 1292)]) 11325) (Some (Node 1293 (KOther (str "*ast.BlockStmt")) [(Node 1294 (KAssign 1%nat) [(Node 1295 (KIdent (str "code") (Some 50)) []); (Node 1296 KSelector [(Node 1297 (KIdent (str "e") (Some 49)) []); (Node 1298 (KIdent (str "TheCode") None) [])])]); (Node 1299 KReturn [])])) 11339 11368.
Definition t_errortypes_f49 : func := Func 1300 (Some (DeclInfo (Ident 1305 (str "Error") None) (Some [(Field 1302 [] 1303)]) None)) (FuncType 1306 [] (Some [(Field 1309 [(Ident 1310 (str "err") (Some 51))] 1311)]) 11403) (Some (Node 1312 (KOther (str "*ast.BlockStmt")) [(Node 1313 (KAssign 1%nat) [(Node 1314 (KIdent (str "err") (Some 51)) []); (Node 1315 KBasicLit [])]); (Node 1316 KReturn [])])) 11416 11454.
Definition t_errortypes_f50 : func := Func 1325 (Some (DeclInfo (Ident 1331 (str "Code") None) (Some [(Field 1327 [(Ident 1328 (str "e") (Some 52))] 1329)]) None)) (FuncType 1332 [] (Some [(Field 1335 [(Ident 1336 (str "code") (Some 53))] 1337)]) 11634) (Some (Node 1338 (KOther (str "*ast.BlockStmt")) [(Node 1339 (KAssign 1%nat) [(Node 1340 (KIdent (str "errorCode") (Some 54)) []); (Node 1341 KBasicLit [])]); (Node 1342 (KAssign 1%nat) [(Node 1343 (KIdent (str "code") (Some 53)) []); (Node 1344 KSelector [(Node 1345 (KIdent (str "e") (Some 52)) []); (Node 1346 (KIdent (str "TheCode") None) [])])]); (Node 1347 (KOther (str "*ast.IfStmt")) [(Node 1348 (KIdent (str "false") None) []); (Node 1349 (KOther (str "*ast.BlockStmt")) [(Node 1350 (KAssign 1%nat) [(Node 1351 (KIdent (str "code") (Some 53)) []); (Node 1352 (KIdent (str "errorCode") (Some 54)) [])])])]); (Node 1353 KReturn [])])) 11648 11738.
Definition t_errortypes_f51 : func := Func 1354 (Some (DeclInfo (Ident 1359 (str "Error") None) (Some [(Field 1356 [] 1357)]) None)) (FuncType 1360 [] (Some [(Field 1363 [(Ident 1364 (str "err") (Some 55))] 1365)]) 11773) (Some (Node 1366 (KOther (str "*ast.BlockStmt")) [(Node 1367 (KAssign 1%nat) [(Node 1368 (KIdent (str "err") (Some 55)) []); (Node 1369 KBasicLit [])]); (Node 1370 KReturn [])])) 11786 11824.
Definition t_errortypes_f52 : func := Func 1379 (Some (DeclInfo (Ident 1385 (str "Code") None) (Some [(Field 1381 [(Ident 1382 (str "e") (Some 56))] 1383)]) (Some (comment_text [(str "// Two return statements should only emit 1 error message")])))) (FuncType 1386 [] (Some [(Field 1389 [(Ident 1390 (str "code") (Some 57))] 1391)]) 12052) (Some (Node 1392 (KOther (str "*ast.BlockStmt")) [(Node 1393 (KAssign 1%nat) [(Node 1394 (KIdent (str "code") (Some 57)) []); (Node 1395 KSelector [(Node 1396 (KIdent (str "e") (Some 56)) []); (Node 1397 (KIdent (str "TheCode") None) [])])]); (Node 1398 (KOther (str "*ast.IfStmt")) [(Node 1399 (KIdent (str "false") None) []); (Node 1400 (KOther (str "*ast.BlockStmt")) [(Node 1401 (KAssign 1%nat) [(Node 1402 (KIdent (str "code") (Some 57)) []); (Node 1403 KBasicLit [])]); (Node 1404 KReturn [])])]); (Node 1405 KReturn [])])) 12066 12204.
Definition t_errortypes_f53 : func := Func 1406 (Some (DeclInfo (Ident 1411 (str "Error") None) (Some [(Field 1408 [] 1409)]) None)) (FuncType 1412 [] (Some [(Field 1415 [] 1416)]) 12239) (Some (Node 1417 (KOther (str "*ast.BlockStmt")) [(Node 1418 KReturn [(Node 1419 KBasicLit [])])])) 12246 12276.
Definition t_errortypes_f54 : func := Func 1428 (Some (DeclInfo (Ident 1434 (str "Code") None) (Some [(Field 1430 [(Ident 1431 (str "e") (Some 58))] 1432)]) None)) (FuncType 1435 [] (Some [(Field 1438 [] 1439)]) 12455) (Some (Node 1440 (KOther (str "*ast.BlockStmt")) [(Node 1441 (KAssign 1%nat) [(Node 1442 (KIdent (str "code") (Some 59)) []); (Node 1443 KSelector [(Node 1444 (KIdent (str "e") (Some 58)) []); (Node 1445 (KIdent (str "TheCode") None) [])])]); (Node 1446 KReturn [(Node 1447 (KIdent (str "code") (Some 59)) [])])])) 12462 12497.
Definition t_errortypes_f55 : func := Func 1448 (Some (DeclInfo (Ident 1453 (str "Error") None) (Some [(Field 1450 [] 1451)]) None)) (FuncType 1454 [] (Some [(Field 1457 [] 1458)]) 12535) (Some (Node 1459 (KOther (str "*ast.BlockStmt")) [(Node 1460 KReturn [(Node 1461 KBasicLit [])])])) 12542 12574.
Definition t_errortypes_f56 : func := Func 1470 (Some (DeclInfo (Ident 1476 (str "Code") None) (Some [(Field 1472 [(Ident 1473 (str "e") (Some 60))] 1474)]) None)) (FuncType 1477 [] (Some [(Field 1480 [] 1481)]) 12775) (Some (Node 1482 (KOther (str "*ast.BlockStmt")) [(Node 1483 (KAssign 1%nat) [(Node 1484 (KIdent (str "code") (Some 61)) []); (Node 1485 KSelector [(Node 1486 (KIdent (str "e") (Some 60)) []); (Node 1487 (KIdent (str "TheCode") None) [])])]); (Node 1488 (KAssign 1%nat) [(Node 1489 (KIdent (str "other") (Some 62)) []); (Node 1490 KBasicLit [])]); (Node 1491 (KOther (str "*ast.DeclStmt")) [(Node 1492 (KOther (str "*ast.GenDecl")) [(Node 1493 (KValueSpec [(Ident 1494 (str "code2") (Some 63))] (Some 1495)) [])])]); (Node 1496 (KOther (str "*ast.IfStmt")) [(Node 1497 (KIdent (str "false") None) []); (Node 1498 (KOther (str "*ast.BlockStmt")) [(Node 1499 (KAssign 1%nat) [(Node 1500 (KIdent (str "code2") (Some 63)) []); (Node 1501 (KIdent (str "code") (Some 61)) [])]); (Node 1502 KReturn [(Node 1503 (KIdent (str "code2") (Some 63)) [])])]); (Node 1504 (KOther (str "*ast.BlockStmt")) [(Node 1505 (KAssign 1%nat) [(Node 1506 (KIdent (str "code3") (Some 64)) []); (Node 1507 KBasicLit [])]); (Node 1508 (KOther (str "*ast.IfStmt")) [(Node 1509 (KOther (str "*ast.BinaryExpr")) [(Node 1510 (KIdent (str "code") (Some 61)) []); (Node 1511 KBasicLit [])]); (Node 1512 (KOther (str "*ast.BlockStmt")) [(Node 1513 (KAssign 1%nat) [(Node 1514 (KIdent (str "code3") (Some 64)) []); (Node 1515 (KIdent (str "other") (Some 62)) [])])])]); (Node 1516 KReturn [(Node 1517 (KIdent (str "code3") (Some 64)) [])])])])])) 12782 12990.
Definition t_errortypes_f57 : func := Func 1518 (Some (DeclInfo (Ident 1523 (str "Error") None) (Some [(Field 1520 [] 1521)]) None)) (FuncType 1524 [] (Some [(Field 1527 [] 1528)]) 13028) (Some (Node 1529 (KOther (str "*ast.BlockStmt")) [(Node 1530 KReturn [(Node 1531 KBasicLit [])])])) 13035 13067.
Definition t_errortypes_gendecls : list gendecl := [GenDecl 12 [None]; GenDecl 242 [(Some (TypeSpec (Ident 244 (str "ConstantError") (Some 65)) (XStruct [])))]; GenDecl 277 [(Some (TypeSpec (Ident 279 (str "ConstantError2") (Some 66)) (XStruct [])))]; GenDecl 314 [None]; GenDecl 320 [(Some (TypeSpec (Ident 322 (str "ConstantError3") (Some 67)) (XStruct [])))]; GenDecl 355 [(Some (TypeSpec (Ident 357 (str "ConstantError4") (Some 68)) (XStruct [])))]; GenDecl 388 [(Some (TypeSpec (Ident 390 (str "MultipleConstantError") (Some 69)) (XStruct [])))]; GenDecl 434 [(Some (TypeSpec (Ident 436 (str "ValueTypeError") (Some 70)) (XStruct [])))]; GenDecl 467 [(Some (TypeSpec (Ident 469 (str "ValueTypeError2") (Some 71)) (XStruct [])))]; GenDecl 500 [(Some (TypeSpec (Ident 502 (str "InvalidError") (Some 72)) (XStruct [])))]; GenDecl 535 [(Some (TypeSpec (Ident 537 (str "InvalidError2") (Some 73)) (XStruct [[(Ident 541 (str "field1") None); (Ident 542 (str "field2") None)]])))]; GenDecl 580 [(Some (TypeSpec (Ident 582 (str "InvalidError3") (Some 74)) (XStruct [])))]; GenDecl 600 [(Some (TypeSpec (Ident 602 (str "FieldError") (Some 75)) (XStruct [[(Ident 606 (str "field") None)]])))]; GenDecl 640 [(Some (TypeSpec (Ident 642 (str "FieldError2") (Some 76)) (XStruct [[(Ident 646 (str "field1") None); (Ident 647 (str "field2") None); (Ident 648 (str "field3") None)]])))]; GenDecl 697 [(Some (TypeSpec (Ident 699 (str "FieldError3") (Some 77)) (XStruct [[(Ident 703 (str "_") None); (Ident 704 (str "field2") None); (Ident 705 (str "_") None)]])))]; GenDecl 739 [(Some (TypeSpec (Ident 741 (str "Promoteable") (Some 78)) (XStruct [[(Ident 745 (str "Some") None); (Ident 746 (str "Other") None)]])))]; GenDecl 748 [(Some (TypeSpec (Ident 750 (str "Promoteable2") (Some 79)) (XStruct [[(Ident 754 (str "_") None); (Ident 755 (str "_") None); (Ident 756 (str "_") None)]])))]; GenDecl 758 [(Some (TypeSpec (Ident 760 (str "Promoteable3") (Some 80)) (XStruct [])))]; GenDecl 763 [(Some (TypeSpec (Ident 765 (str "PromotedFieldError") (Some 81)) (XStruct [[]; [(Ident 771 (str "_") None); (Ident 772 (str "field") None)]])))]; GenDecl 806 [(Some (TypeSpec (Ident 808 (str "PromotedFieldError2") (Some 82)) (XStruct [[]; []; [(Ident 816 (str "_") None)]; [(Ident 819 (str "_") None); (Ident 820 (str "field") None)]; []])))]; GenDecl 856 [(Some (TypeSpec (Ident 858 (str "PromotedFieldError3") (Some 83)) (XStruct [[]; [(Ident 865 (str "errorCode") None); (Ident 866 (str "_") None)]])))]; GenDecl 900 [(Some (TypeSpec (Ident 902 (str "InvalidPromotedFieldError") (Some 84)) (XStruct [[]])))]; GenDecl 939 [(Some (TypeSpec (Ident 941 (str "CombinedError") (Some 85)) (XStruct [[(Ident 945 (str "field") None)]])))]; GenDecl 989 [(Some (TypeSpec (Ident 991 (str "ValidStringError") (Some 3)) XOther))]; GenDecl 1021 [(Some (TypeSpec (Ident 1023 (str "InvalidStringError") (Some 4)) XOther))]; GenDecl 1055 [(Some (TypeSpec (Ident 1057 (str "ModifyingError1") (Some 86)) (XStruct [[(Ident 1061 (str "code") None)]; [(Ident 1064 (str "flag1") None); (Ident 1065 (str "flag2") None)]])))]; GenDecl 1186 [(Some (TypeSpec (Ident 1188 (str "EmptyStringError") (Some 87)) (XStruct [])))]; GenDecl 1227 [(Some (TypeSpec (Ident 1229 (str "NamedReturnError") (Some 88)) (XStruct [])))]; GenDecl 1272 [(Some (TypeSpec (Ident 1274 (str "NamedReturnError2") (Some 89)) (XStruct [[(Ident 1278 (str "TheCode") None)]])))]; GenDecl 1317 [(Some (TypeSpec (Ident 1319 (str "NamedReturnError3") (Some 90)) (XStruct [[(Ident 1323 (str "TheCode") None)]])))]; GenDecl 1371 [(Some (TypeSpec (Ident 1373 (str "NamedReturnError4") (Some 91)) (XStruct [[(Ident 1377 (str "TheCode") None)]])))]; GenDecl 1420 [(Some (TypeSpec (Ident 1422 (str "ReturnLocalVarError1") (Some 92)) (XStruct [[(Ident 1426 (str "TheCode") None)]])))]; GenDecl 1462 [(Some (TypeSpec (Ident 1464 (str "ReturnLocalVarError2") (Some 93)) (XStruct [[(Ident 1468 (str "TheCode") None)]])))]; GenDecl 1492 [None]].
Definition t_errortypes_top : list topdecl := [TopFunc 1; TopNode (Node 242 (KOther (str "*ast.GenDecl")) [(Node 243 (KOther (str "*ast.TypeSpec")) [])]); TopFunc 2; TopFunc 3; TopNode (Node 277 (KOther (str "*ast.GenDecl")) [(Node 278 (KOther (str "*ast.TypeSpec")) [])]); TopFunc 4; TopFunc 5; TopNode (Node 314 (KOther (str "*ast.GenDecl")) [(Node 315 (KValueSpec [(Ident 316 (str "constantError3Code") (Some 10))] None) [(Node 317 (KOther (str "*ast.BinaryExpr")) [(Node 318 KBasicLit []); (Node 319 KBasicLit [])])])]); TopNode (Node 320 (KOther (str "*ast.GenDecl")) [(Node 321 (KOther (str "*ast.TypeSpec")) [])]); TopFunc 6; TopFunc 7; TopNode (Node 355 (KOther (str "*ast.GenDecl")) [(Node 356 (KOther (str "*ast.TypeSpec")) [])]); TopFunc 8; TopFunc 9; TopNode (Node 388 (KOther (str "*ast.GenDecl")) [(Node 389 (KOther (str "*ast.TypeSpec")) [])]); TopFunc 10; TopFunc 11; TopNode (Node 434 (KOther (str "*ast.GenDecl")) [(Node 435 (KOther (str "*ast.TypeSpec")) [])]); TopFunc 12; TopFunc 13; TopNode (Node 467 (KOther (str "*ast.GenDecl")) [(Node 468 (KOther (str "*ast.TypeSpec")) [])]); TopFunc 14; TopFunc 15; TopNode (Node 500 (KOther (str "*ast.GenDecl")) [(Node 501 (KOther (str "*ast.TypeSpec")) [])]); TopFunc 16; TopFunc 17; TopNode (Node 535 (KOther (str "*ast.GenDecl")) [(Node 536 (KOther (str "*ast.TypeSpec")) [])]); TopFunc 18; TopFunc 19; TopNode (Node 580 (KOther (str "*ast.GenDecl")) [(Node 581 (KOther (str "*ast.TypeSpec")) [])]); TopFunc 20; TopNode (Node 600 (KOther (str "*ast.GenDecl")) [(Node 601 (KOther (str "*ast.TypeSpec")) [])]); TopFunc 21; TopFunc 22; TopNode (Node 640 (KOther (str "*ast.GenDecl")) [(Node 641 (KOther (str "*ast.TypeSpec")) [])]); TopFunc 23; TopFunc 24; TopNode (Node 697 (KOther (str "*ast.GenDecl")) [(Node 698 (KOther (str "*ast.TypeSpec")) [])]); TopFunc 25; TopFunc 26; TopNode (Node 739 (KOther (str "*ast.GenDecl")) [(Node 740 (KOther (str "*ast.TypeSpec")) [])]); TopNode (Node 748 (KOther (str "*ast.GenDecl")) [(Node 749 (KOther (str "*ast.TypeSpec")) [])]); TopNode (Node 758 (KOther (str "*ast.GenDecl")) [(Node 759 (KOther (str "*ast.TypeSpec")) [])]); TopNode (Node 763 (KOther (str "*ast.GenDecl")) [(Node 764 (KOther (str "*ast.TypeSpec")) [])]); TopFunc 27; TopFunc 28; TopNode (Node 806 (KOther (str "*ast.GenDecl")) [(Node 807 (KOther (str "*ast.TypeSpec")) [])]); TopFunc 29; TopFunc 30; TopNode (Node 856 (KOther (str "*ast.GenDecl")) [(Node 857 (KOther (str "*ast.TypeSpec")) [])]); TopFunc 31; TopFunc 32; TopNode (Node 900 (KOther (str "*ast.GenDecl")) [(Node 901 (KOther (str "*ast.TypeSpec")) [])]); TopFunc 33; TopFunc 34; TopNode (Node 939 (KOther (str "*ast.GenDecl")) [(Node 940 (KOther (str "*ast.TypeSpec")) [])]); TopFunc 35; TopFunc 36; TopNode (Node 989 (KOther (str "*ast.GenDecl")) [(Node 990 (KOther (str "*ast.TypeSpec")) [])]); TopFunc 37; TopFunc 38; TopNode (Node 1021 (KOther (str "*ast.GenDecl")) [(Node 1022 (KOther (str "*ast.TypeSpec")) [])]); TopFunc 39; TopFunc 40; TopNode (Node 1055 (KOther (str "*ast.GenDecl")) [(Node 1056 (KOther (str "*ast.TypeSpec")) [])]); TopFunc 41; TopFunc 42; TopFunc 43; TopNode (Node 1186 (KOther (str "*ast.GenDecl")) [(Node 1187 (KOther (str "*ast.TypeSpec")) [])]); TopFunc 44; TopFunc 45; TopNode (Node 1227 (KOther (str "*ast.GenDecl")) [(Node 1228 (KOther (str "*ast.TypeSpec")) [])]); TopFunc 46; TopFunc 47; TopNode (Node 1272 (KOther (str "*ast.GenDecl")) [(Node 1273 (KOther (str "*ast.TypeSpec")) [])]); TopFunc 48; TopFunc 49; TopNode (Node 1317 (KOther (str "*ast.GenDecl")) [(Node 1318 (KOther (str "*ast.TypeSpec")) [])]); TopFunc 50; TopFunc 51; TopNode (Node 1371 (KOther (str "*ast.GenDecl")) [(Node 1372 (KOther (str "*ast.TypeSpec")) [])]); TopFunc 52; TopFunc 53; TopNode (Node 1420 (KOther (str "*ast.GenDecl")) [(Node 1421 (KOther (str "*ast.TypeSpec")) [])]); TopFunc 54; TopFunc 55; TopNode (Node 1462 (KOther (str "*ast.GenDecl")) [(Node 1463 (KOther (str "*ast.TypeSpec")) [])]); TopFunc 56; TopFunc 57].
Definition t_errortypes_objs : list (N * object) := [(1, Object false 730 (DFunc 1)); (2, Object true 1115 (DValueSpec [(Ident 14 (str "someVariable") (Some 2))] [])); (3, Object false 9084 DType); (4, Object false 9323 DType); (5, Object true 3667 DOther); (6, Object true 3730 DOther); (7, Object true 3895 DOther); (8, Object true 3966 DOther); (9, Object true 4181 DOther); (10, Object false 4035 (DValueSpec [(Ident 316 (str "constantError3Code") (Some 10))] [(Node 317 (KOther (str "*ast.BinaryExpr")) [(Node 318 KBasicLit []); (Node 319 KBasicLit [])])])); (11, Object true 4251 DOther); (12, Object true 4699 DOther); (13, Object true 4880 DOther); (14, Object true 5062 DOther); (15, Object true 5128 DOther); (16, Object true 5297 DOther); (17, Object true 5364 DOther); (18, Object true 5549 DOther); (19, Object true 5671 DOther); (20, Object true 5876 DOther); (21, Object true 6029 DOther); (22, Object true 6125 DOther); (23, Object true 6305 DOther); (24, Object true 6360 DOther); (25, Object true 6554 DOther); (26, Object true 6909 DOther); (27, Object true 7095 DOther); (28, Object true 7152 DOther); (29, Object true 7476 DOther); (30, Object true 7539 DOther); (31, Object true 7807 DOther); (32, Object true 7871 DOther); (33, Object true 8108 DOther); (34, Object true 8176 DOther); (35, Object true 8409 DOther); (36, Object true 8624 DOther); (37, Object true 8867 DOther); (38, Object true 9018 DOther); (39, Object true 9185 DOther); (40, Object true 9252 DOther); (41, Object true 9449 DOther); (42, Object true 9596 DOther); (43, Object true 9872 DOther); (44, Object true 10095 DOther); (45, Object true 10330 DOther); (46, Object true 10679 DOther); (47, Object true 10991 DOther); (48, Object true 11106 DOther); (49, Object true 11296 DOther); (50, Object true 11326 DOther); (51, Object true 11404 DOther); (52, Object true 11605 DOther); (53, Object true 11635 DOther); (54, Object true 11651 DOther); (55, Object true 11774 DOther); (56, Object true 12023 DOther); (57, Object true 12053 DOther); (58, Object true 12423 DOther); (59, Object true 12465 DOther); (60, Object true 12743 DOther); (61, Object true 12785 DOther); (62, Object true 12804 DOther); (63, Object true 12832 (DValueSpec [(Ident 1494 (str "code2") (Some 63))] [])); (64, Object true 12899 DOther); (65, Object false 3572 DType); (66, Object false 3796 DType); (67, Object false 4082 DType); (68, Object false 4319 DType); (69, Object false 4548 DType); (70, Object false 4962 DType); (71, Object false 5195 DType); (72, Object false 5433 DType); (73, Object false 5735 DType); (74, Object false 6095 DType); (75, Object false 6191 DType); (76, Object false 6420 DType); (77, Object false 6971 DType); (78, Object false 7214 DType); (79, Object false 7260 DType); (80, Object false 7300 DType); (81, Object false 7328 DType); (82, Object false 7615 DType); (83, Object false 7949 DType); (84, Object false 8254 DType); (85, Object false 8714 DType); (86, Object false 9671 DType); (87, Object false 10570 DType); (88, Object false 10855 DType); (89, Object false 11162 DType); (90, Object false 11461 DType); (91, Object false 11831 DType); (92, Object false 12283 DType); (93, Object false 12581 DType)].
Definition t_errortypes_types : list (N * gotype) := [(5, (TSignature [] [(TNamed 1)] false)); (9, (TNamed 1)); (14, (TBasic (str "string"))); (15, (TBasic (str "string"))); (19, (TBasic (str "bool"))); (21, (TPointer (TNamed 48))); (22, (TNamed 48)); (23, (TNamed 48)); (25, (TBasic (str "bool"))); (27, (TPointer (TNamed 51))); (28, (TNamed 51)); (29, (TNamed 51)); (31, (TBasic (str "bool"))); (33, (TPointer (TNamed 55))); (34, (TNamed 55)); (35, (TNamed 55)); (37, (TBasic (str "bool"))); (39, (TPointer (TNamed 58))); (40, (TNamed 58)); (41, (TNamed 58)); (43, (TBasic (str "bool"))); (45, (TPointer (TNamed 61))); (46, (TNamed 61)); (47, (TNamed 61)); (49, (TBasic (str "bool"))); (51, (TNamed 64)); (52, (TNamed 64)); (54, (TBasic (str "bool"))); (56, (TPointer (TNamed 67))); (57, (TNamed 67)); (58, (TNamed 67)); (60, (TBasic (str "bool"))); (62, (TPointer (TNamed 70))); (63, (TNamed 70)); (64, (TNamed 70)); (66, (TBasic (str "bool"))); (68, (TPointer (TNamed 73))); (69, (TNamed 73)); (70, (TNamed 73)); (72, (TBasic (str "bool"))); (74, (TPointer (TNamed 76))); (75, (TNamed 76)); (76, (TNamed 76)); (78, (TBasic (str "bool"))); (80, (TPointer (TNamed 78))); (81, (TNamed 78)); (82, (TNamed 78)); (83, (TBasic (str "string"))); (85, (TBasic (str "bool"))); (87, (TPointer (TNamed 81))); (88, (TNamed 81)); (89, (TNamed 81)); (90, (TBasic (str "string"))); (91, (TBasic (str "string"))); (92, (TBasic (str "string"))); (94, (TBasic (str "bool"))); (96, (TPointer (TNamed 84))); (97, (TNamed 84)); (98, (TNamed 84)); (99, (TBasic (str "string"))); (100, (TBasic (str "string"))); (101, (TBasic (str "string"))); (103, (TBasic (str "bool"))); (105, (TPointer (TNamed 78))); (106, (TNamed 78)); (107, (TNamed 78)); (108, (TBasic (str "string"))); (110, (TBasic (str "bool"))); (112, (TPointer (TNamed 78))); (113, (TNamed 78)); (114, (TNamed 78)); (116, (TBasic (str "string"))); (117, (TBasic (str "string"))); (119, (TBasic (str "bool"))); (121, (TPointer (TNamed 81))); (122, (TNamed 81)); (123, (TNamed 81)); (125, (TBasic (str "string"))); (126, (TBasic (str "string"))); (128, (TBasic (str "string"))); (129, (TBasic (str "string"))); (131, (TBasic (str "string"))); (132, (TBasic (str "string"))); (134, (TBasic (str "bool"))); (136, (TPointer (TNamed 78))); (137, (TNamed 78)); (138, (TNamed 78)); (139, (TBasic (str "string"))); (141, (TBasic (str "bool"))); (143, (TPointer (TNamed 78))); (144, (TNamed 78)); (145, (TNamed 78)); (147, (TBasic (str "bool"))); (149, (TPointer (TNamed 81))); (150, (TNamed 81)); (151, (TNamed 81)); (153, (TBasic (str "string"))); (154, (TBasic (str "string"))); (156, (TBasic (str "bool"))); (158, (TPointer (TNamed 78))); (159, (TNamed 78)); (160, (TNamed 78)); (161, (TBasic (str "string"))); (163, (TBasic (str "bool"))); (165, (TPointer (TNamed 81))); (166, (TNamed 81)); (167, (TNamed 81)); (169, (TBasic (str "string"))); (170, (TBasic (str "string"))); (172, (TBasic (str "string"))); (173, (TBasic (str "string"))); (175, (TBasic (str "bool"))); (177, (TPointer (TNamed 78))); (178, (TNamed 78)); (179, (TNamed 78)); (180, (TBasic (str "string"))); (182, (TBasic (str "bool"))); (184, (TPointer (TNamed 90))); (185, (TNamed 90)); (186, (TNamed 90)); (187, (TNamed 87)); (188, (TNamed 87)); (189, (TBasic (str "string"))); (190, (TBasic (str "string"))); (191, (TBasic (str "string"))); (192, (TBasic (str "string"))); (194, (TBasic (str "bool"))); (196, (TPointer (TNamed 93))); (197, (TNamed 93)); (198, (TNamed 93)); (200, (TBasic (str "string"))); (201, (TBasic (str "string"))); (203, (TBasic (str "bool"))); (205, (TPointer (TNamed 96))); (206, (TNamed 96)); (207, (TNamed 96)); (208, TUntypedNil); (209, (TBasic (str "string"))); (210, (TBasic (str "string"))); (212, (TBasic (str "bool"))); (214, (TPointer (TNamed 99))); (215, (TNamed 99)); (216, (TNamed 99)); (217, (TNamed 87)); (218, (TNamed 87)); (219, (TBasic (str "string"))); (220, (TBasic (str "string"))); (222, (TBasic (str "bool"))); (224, (TPointer (TNamed 102))); (225, (TNamed 102)); (226, (TNamed 102)); (227, (TBasic (str "string"))); (229, (TBasic (str "bool"))); (231, (TNamed 105)); (232, (TNamed 105)); (233, (TNamed 105)); (235, (TBasic (str "bool"))); (237, (TNamed 108)); (238, (TNamed 108)); (239, (TNamed 108)); (241, TUntypedNil); (244, (TNamed 48)); (245, (TStruct [])); (250, (TPointer (TNamed 48))); (251, (TPointer (TNamed 48))); (252, (TNamed 48)); (254, (TSignature [] [(TBasic (str "string"))] false)); (258, (TBasic (str "string"))); (261, (TBasic (str "string"))); (265, (TPointer (TNamed 48))); (266, (TPointer (TNamed 48))); (267, (TNamed 48)); (269, (TSignature [] [(TBasic (str "string"))] false)); (273, (TBasic (str "string"))); (276, (TBasic (str "string"))); (279, (TNamed 51)); (280, (TStruct [])); (285, (TPointer (TNamed 51))); (286, (TPointer (TNamed 51))); (287, (TNamed 51)); (289, (TSignature [] [(TBasic (str "string"))] false)); (293, (TBasic (str "string"))); (296, (TBasic (str "string"))); (297, (TBasic (str "string"))); (298, (TBasic (str "string"))); (302, (TPointer (TNamed 51))); (303, (TPointer (TNamed 51))); (304, (TNamed 51)); (306, (TSignature [] [(TBasic (str "string"))] false)); (310, (TBasic (str "string"))); (313, (TBasic (str "string"))); (316, (TBasic (str "string"))); (317, (TBasic (str "string"))); (318, (TBasic (str "string"))); (319, (TBasic (str "string"))); (322, (TNamed 55)); (323, (TStruct [])); (328, (TPointer (TNamed 55))); (329, (TPointer (TNamed 55))); (330, (TNamed 55)); (332, (TSignature [] [(TBasic (str "string"))] false)); (336, (TBasic (str "string"))); (339, (TBasic (str "string"))); (343, (TPointer (TNamed 55))); (344, (TPointer (TNamed 55))); (345, (TNamed 55)); (347, (TSignature [] [(TBasic (str "string"))] false)); (351, (TBasic (str "string"))); (354, (TBasic (str "string"))); (357, (TNamed 58)); (358, (TStruct [])); (363, (TPointer (TNamed 58))); (364, (TNamed 58)); (366, (TSignature [] [(TBasic (str "string"))] false)); (370, (TBasic (str "string"))); (373, (TBasic (str "string"))); (377, (TPointer (TNamed 58))); (378, (TNamed 58)); (380, (TSignature [] [(TBasic (str "string"))] false)); (384, (TBasic (str "string"))); (387, (TBasic (str "string"))); (390, (TNamed 61)); (391, (TStruct [])); (396, (TPointer (TNamed 61))); (397, (TPointer (TNamed 61))); (398, (TNamed 61)); (400, (TSignature [] [(TBasic (str "string"))] false)); (404, (TBasic (str "string"))); (409, (TBasic (str "bool"))); (411, (TBasic (str "string"))); (413, (TBasic (str "bool"))); (415, (TBasic (str "string"))); (418, (TBasic (str "string"))); (422, (TPointer (TNamed 61))); (423, (TPointer (TNamed 61))); (424, (TNamed 61)); (426, (TSignature [] [(TBasic (str "string"))] false)); (430, (TBasic (str "string"))); (433, (TBasic (str "string"))); (436, (TNamed 64)); (437, (TStruct [])); (442, (TNamed 64)); (443, (TNamed 64)); (445, (TSignature [] [(TBasic (str "string"))] false)); (449, (TBasic (str "string"))); (452, (TBasic (str "string"))); (456, (TNamed 64)); (457, (TNamed 64)); (459, (TSignature [] [(TBasic (str "string"))] false)); (463, (TBasic (str "string"))); (466, (TBasic (str "string"))); (469, (TNamed 67)); (470, (TStruct [])); (475, (TNamed 67)); (476, (TNamed 67)); (478, (TSignature [] [(TBasic (str "string"))] false)); (482, (TBasic (str "string"))); (485, (TBasic (str "string"))); (489, (TNamed 67)); (490, (TNamed 67)); (492, (TSignature [] [(TBasic (str "string"))] false)); (496, (TBasic (str "string"))); (499, (TBasic (str "string"))); (502, (TNamed 70)); (503, (TStruct [])); (508, (TPointer (TNamed 70))); (509, (TPointer (TNamed 70))); (510, (TNamed 70)); (512, (TSignature [] [(TBasic (str "string"))] false)); (516, (TBasic (str "string"))); (519, (TBasic (str "string"))); (523, (TPointer (TNamed 70))); (524, (TPointer (TNamed 70))); (525, (TNamed 70)); (527, (TSignature [] [(TBasic (str "string"))] false)); (531, (TBasic (str "string"))); (534, (TBasic (str "string"))); (537, (TNamed 73)); (538, (TStruct [((str "field1"), (TBasic (str "string"))); ((str "field2"), (TBasic (str "string")))])); (541, (TBasic (str "string"))); (542, (TBasic (str "string"))); (543, (TBasic (str "string"))); (547, (TPointer (TNamed 73))); (548, (TPointer (TNamed 73))); (549, (TNamed 73)); (551, (TSignature [] [(TBasic (str "string"))] false)); (555, (TBasic (str "string"))); (558, (TBasic (str "string"))); (559, (TBasic (str "string"))); (560, (TPointer (TNamed 73))); (561, (TBasic (str "string"))); (562, (TBasic (str "string"))); (563, (TPointer (TNamed 73))); (564, (TBasic (str "string"))); (568, (TPointer (TNamed 73))); (569, (TPointer (TNamed 73))); (570, (TNamed 73)); (572, (TSignature [] [(TBasic (str "string"))] false)); (576, (TBasic (str "string"))); (579, (TBasic (str "string"))); (582, (TNamed 76)); (583, (TStruct [])); (588, (TPointer (TNamed 76))); (589, (TPointer (TNamed 76))); (590, (TNamed 76)); (592, (TSignature [] [(TBasic (str "string"))] false)); (596, (TBasic (str "string"))); (599, (TBasic (str "string"))); (602, (TNamed 78)); (603, (TStruct [((str "field"), (TBasic (str "string")))])); (606, (TBasic (str "string"))); (607, (TBasic (str "string"))); (611, (TPointer (TNamed 78))); (612, (TPointer (TNamed 78))); (613, (TNamed 78)); (615, (TSignature [] [(TBasic (str "string"))] false)); (619, (TBasic (str "string"))); (622, (TBasic (str "string"))); (623, (TPointer (TNamed 78))); (624, (TBasic (str "string"))); (628, (TPointer (TNamed 78))); (629, (TPointer (TNamed 78))); (630, (TNamed 78)); (632, (TSignature [] [(TBasic (str "string"))] false)); (636, (TBasic (str "string"))); (639, (TBasic (str "string"))); (642, (TNamed 81)); (643, (TStruct [((str "field1"), (TBasic (str "string"))); ((str "field2"), (TBasic (str "string"))); ((str "field3"), (TBasic (str "string")))])); (646, (TBasic (str "string"))); (647, (TBasic (str "string"))); (648, (TBasic (str "string"))); (649, (TBasic (str "string"))); (653, (TPointer (TNamed 81))); (654, (TPointer (TNamed 81))); (655, (TNamed 81)); (657, (TSignature [] [(TBasic (str "string"))] false)); (661, (TBasic (str "string"))); (666, (TBasic (str "bool"))); (668, (TBasic (str "string"))); (669, (TPointer (TNamed 81))); (670, (TBasic (str "string"))); (672, (TBasic (str "bool"))); (674, (TBasic (str "string"))); (675, (TPointer (TNamed 81))); (676, (TBasic (str "string"))); (679, (TBasic (str "string"))); (680, (TPointer (TNamed 81))); (681, (TBasic (str "string"))); (685, (TPointer (TNamed 81))); (686, (TPointer (TNamed 81))); (687, (TNamed 81)); (689, (TSignature [] [(TBasic (str "string"))] false)); (693, (TBasic (str "string"))); (696, (TBasic (str "string"))); (699, (TNamed 84)); (700, (TStruct [((str "_"), (TBasic (str "string"))); ((str "field2"), (TBasic (str "string"))); ((str "_"), (TBasic (str "string")))])); (703, (TBasic (str "string"))); (704, (TBasic (str "string"))); (705, (TBasic (str "string"))); (706, (TBasic (str "string"))); (710, (TPointer (TNamed 84))); (711, (TPointer (TNamed 84))); (712, (TNamed 84)); (714, (TSignature [] [(TBasic (str "string"))] false)); (718, (TBasic (str "string"))); (721, (TBasic (str "string"))); (722, (TPointer (TNamed 84))); (723, (TBasic (str "string"))); (727, (TPointer (TNamed 84))); (728, (TPointer (TNamed 84))); (729, (TNamed 84)); (731, (TSignature [] [(TBasic (str "string"))] false)); (735, (TBasic (str "string"))); (738, (TBasic (str "string"))); (741, (TNamed 87)); (742, (TStruct [((str "Some"), (TBasic (str "string"))); ((str "Other"), (TBasic (str "string")))])); (745, (TBasic (str "string"))); (746, (TBasic (str "string"))); (747, (TBasic (str "string"))); (750, (TNamed 88)); (751, (TStruct [((str "_"), (TBasic (str "int"))); ((str "_"), (TBasic (str "int"))); ((str "_"), (TBasic (str "int")))])); (754, (TBasic (str "int"))); (755, (TBasic (str "int"))); (756, (TBasic (str "int"))); (757, (TBasic (str "int"))); (760, (TNamed 89)); (761, (TStruct [])); (765, (TNamed 90)); (766, (TStruct [((str "Promoteable"), (TNamed 87)); ((str "_"), (TBasic (str "string"))); ((str "field"), (TBasic (str "string")))])); (769, (TNamed 87)); (771, (TBasic (str "string"))); (772, (TBasic (str "string"))); (773, (TBasic (str "string"))); (777, (TPointer (TNamed 90))); (778, (TPointer (TNamed 90))); (779, (TNamed 90)); (781, (TSignature [] [(TBasic (str "string"))] false)); (785, (TBasic (str "string"))); (788, (TBasic (str "string"))); (789, (TPointer (TNamed 90))); (790, (TBasic (str "string"))); (794, (TPointer (TNamed 90))); (795, (TPointer (TNamed 90))); (796, (TNamed 90)); (798, (TSignature [] [(TBasic (str "string"))] false)); (802, (TBasic (str "string"))); (805, (TBasic (str "string"))); (808, (TNamed 93)); (809, (TStruct [((str "Promoteable"), (TNamed 87)); ((str "Promoteable2"), (TNamed 88)); ((str "_"), (TBasic (str "int"))); ((str "_"), (TBasic (str "string"))); ((str "field"), (TBasic (str "string"))); ((str "Promoteable3"), (TNamed 89))])); (812, (TNamed 87)); (814, (TNamed 88)); (816, (TBasic (str "int"))); (817, (TBasic (str "int"))); (819, (TBasic (str "string"))); (820, (TBasic (str "string"))); (821, (TBasic (str "string"))); (823, (TNamed 89)); (827, (TPointer (TNamed 93))); (828, (TPointer (TNamed 93))); (829, (TNamed 93)); (831, (TSignature [] [(TBasic (str "string"))] false)); (835, (TBasic (str "string"))); (838, (TBasic (str "string"))); (839, (TPointer (TNamed 93))); (840, (TBasic (str "string"))); (844, (TPointer (TNamed 93))); (845, (TPointer (TNamed 93))); (846, (TNamed 93)); (848, (TSignature [] [(TBasic (str "string"))] false)); (852, (TBasic (str "string"))); (855, (TBasic (str "string"))); (858, (TNamed 96)); (859, (TStruct [((str "Promoteable"), (TPointer (TNamed 87))); ((str "errorCode"), (TBasic (str "string"))); ((str "_"), (TBasic (str "string")))])); (862, (TPointer (TNamed 87))); (863, (TNamed 87)); (865, (TBasic (str "string"))); (866, (TBasic (str "string"))); (867, (TBasic (str "string"))); (871, (TPointer (TNamed 96))); (872, (TPointer (TNamed 96))); (873, (TNamed 96)); (875, (TSignature [] [(TBasic (str "string"))] false)); (879, (TBasic (str "string"))); (882, (TBasic (str "string"))); (883, (TPointer (TNamed 96))); (884, (TBasic (str "string"))); (888, (TPointer (TNamed 96))); (889, (TPointer (TNamed 96))); (890, (TNamed 96)); (892, (TSignature [] [(TBasic (str "string"))] false)); (896, (TBasic (str "string"))); (899, (TBasic (str "string"))); (902, (TNamed 99)); (903, (TStruct [((str "Promoteable"), (TNamed 87))])); (906, (TNamed 87)); (910, (TPointer (TNamed 99))); (911, (TPointer (TNamed 99))); (912, (TNamed 99)); (914, (TSignature [] [(TBasic (str "string"))] false)); (918, (TBasic (str "string"))); (921, (TBasic (str "string"))); (922, (TPointer (TNamed 99))); (923, (TBasic (str "string"))); (927, (TPointer (TNamed 99))); (928, (TPointer (TNamed 99))); (929, (TNamed 99)); (931, (TSignature [] [(TBasic (str "string"))] false)); (935, (TBasic (str "string"))); (938, (TBasic (str "string"))); (941, (TNamed 102)); (942, (TStruct [((str "field"), (TBasic (str "string")))])); (945, (TBasic (str "string"))); (946, (TBasic (str "string"))); (950, (TPointer (TNamed 102))); (951, (TPointer (TNamed 102))); (952, (TNamed 102)); (954, (TSignature [] [(TBasic (str "string"))] false)); (958, (TBasic (str "string"))); (963, (TBasic (str "bool"))); (965, (TBasic (str "string"))); (966, (TPointer (TNamed 102))); (967, (TBasic (str "string"))); (969, (TBasic (str "bool"))); (971, (TBasic (str "string"))); (973, (TBasic (str "string"))); (977, (TPointer (TNamed 102))); (978, (TPointer (TNamed 102))); (979, (TNamed 102)); (981, (TSignature [] [(TBasic (str "string"))] false)); (985, (TBasic (str "string"))); (988, (TBasic (str "string"))); (991, (TNamed 105)); (992, (TBasic (str "string"))); (996, (TNamed 105)); (997, (TNamed 105)); (999, (TSignature [] [(TBasic (str "string"))] false)); (1003, (TBasic (str "string"))); (1006, (TBasic (str "string"))); (1010, (TNamed 105)); (1011, (TNamed 105)); (1013, (TSignature [] [(TBasic (str "string"))] false)); (1017, (TBasic (str "string"))); (1020, (TBasic (str "string"))); (1023, (TNamed 108)); (1024, (TBasic (str "string"))); (1028, (TNamed 108)); (1029, (TNamed 108)); (1031, (TSignature [] [(TBasic (str "string"))] false)); (1035, (TBasic (str "string"))); (1038, (TBasic (str "string"))); (1039, (TBasic (str "string"))); (1040, (TNamed 108)); (1044, (TNamed 108)); (1045, (TNamed 108)); (1047, (TSignature [] [(TBasic (str "string"))] false)); (1051, (TBasic (str "string"))); (1054, (TBasic (str "string"))); (1057, (TNamed 111)); (1058, (TStruct [((str "code"), (TBasic (str "string"))); ((str "flag1"), (TBasic (str "bool"))); ((str "flag2"), (TBasic (str "bool")))])); (1061, (TBasic (str "string"))); (1062, (TBasic (str "string"))); (1064, (TBasic (str "bool"))); (1065, (TBasic (str "bool"))); (1066, (TBasic (str "bool"))); (1070, (TPointer (TNamed 111))); (1071, (TPointer (TNamed 111))); (1072, (TNamed 111)); (1074, (TSignature [] [(TBasic (str "string"))] false)); (1078, (TBasic (str "string"))); (1081, (TBasic (str "bool"))); (1082, (TPointer (TNamed 111))); (1083, (TBasic (str "bool"))); (1086, (TBasic (str "string"))); (1087, (TPointer (TNamed 111))); (1088, (TBasic (str "string"))); (1089, (TBasic (str "string"))); (1091, (TBasic (str "bool"))); (1092, (TPointer (TNamed 111))); (1093, (TBasic (str "bool"))); (1096, (TBasic (str "string"))); (1097, (TPointer (TNamed 111))); (1098, (TBasic (str "string"))); (1099, (TBasic (str "string"))); (1100, (TBasic (str "string"))); (1101, (TPointer (TNamed 111))); (1102, (TBasic (str "string"))); (1103, (TBasic (str "string"))); (1105, (TBasic (str "string"))); (1106, (TPointer (TNamed 111))); (1107, (TBasic (str "string"))); (1111, (TPointer (TNamed 111))); (1112, (TPointer (TNamed 111))); (1113, (TNamed 111)); (1115, (TSignature [] [(TBasic (str "string"))] false)); (1119, (TBasic (str "string"))); (1122, (TBasic (str "bool"))); (1123, (TPointer (TNamed 111))); (1124, (TBasic (str "bool"))); (1127, (TBasic (str "string"))); (1128, (TPointer (TNamed 111))); (1129, (TBasic (str "string"))); (1130, (TBasic (str "string"))); (1132, (TBasic (str "bool"))); (1133, (TPointer (TNamed 111))); (1134, (TBasic (str "bool"))); (1137, (TBasic (str "string"))); (1138, (TPointer (TNamed 111))); (1139, (TBasic (str "string"))); (1140, (TBasic (str "string"))); (1141, (TBasic (str "string"))); (1142, (TPointer (TNamed 111))); (1143, (TBasic (str "string"))); (1144, (TBasic (str "string"))); (1146, (TBasic (str "string"))); (1150, (TPointer (TNamed 111))); (1151, (TPointer (TNamed 111))); (1152, (TNamed 111)); (1154, (TSignature [] [(TBasic (str "string"))] false)); (1158, (TBasic (str "string"))); (1161, (TBasic (str "bool"))); (1162, (TPointer (TNamed 111))); (1163, (TBasic (str "bool"))); (1166, (TBasic (str "string"))); (1167, (TPointer (TNamed 111))); (1168, (TBasic (str "string"))); (1169, (TBasic (str "string"))); (1171, (TBasic (str "bool"))); (1172, (TPointer (TNamed 111))); (1173, (TBasic (str "bool"))); (1176, (TBasic (str "string"))); (1177, (TPointer (TNamed 111))); (1178, (TBasic (str "string"))); (1179, (TBasic (str "string"))); (1180, (TBasic (str "string"))); (1181, (TPointer (TNamed 111))); (1182, (TBasic (str "string"))); (1183, (TBasic (str "string"))); (1185, (TBasic (str "string"))); (1188, (TNamed 115)); (1189, (TStruct [])); (1194, (TPointer (TNamed 115))); (1195, (TPointer (TNamed 115))); (1196, (TNamed 115)); (1198, (TSignature [] [(TBasic (str "string"))] false)); (1202, (TBasic (str "string"))); (1205, (TBasic (str "bool"))); (1206, (TPointer (TNamed 115))); (1207, TUntypedNil); (1210, (TBasic (str "string"))); (1212, (TBasic (str "string"))); (1216, (TPointer (TNamed 115))); (1217, (TNamed 115)); (1219, (TSignature [] [(TBasic (str "string"))] false)); (1223, (TBasic (str "string"))); (1226, (TBasic (str "string"))); (1229, (TNamed 118)); (1230, (TStruct [])); (1235, (TPointer (TNamed 118))); (1236, (TNamed 118)); (1238, (TSignature [] [(TBasic (str "string"))] false)); (1242, (TBasic (str "string"))); (1243, (TBasic (str "string"))); (1246, (TBasic (str "string"))); (1247, (TBasic (str "string"))); (1249, (TBasic (str "bool"))); (1252, (TBasic (str "string"))); (1253, (TBasic (str "string"))); (1258, (TPointer (TNamed 118))); (1259, (TNamed 118)); (1261, (TSignature [] [(TBasic (str "string"))] false)); (1265, (TBasic (str "string"))); (1266, (TBasic (str "string"))); (1269, (TBasic (str "string"))); (1270, (TBasic (str "string"))); (1274, (TNamed 121)); (1275, (TStruct [((str "TheCode"), (TBasic (str "string")))])); (1278, (TBasic (str "string"))); (1279, (TBasic (str "string"))); (1283, (TPointer (TNamed 121))); (1284, (TPointer (TNamed 121))); (1285, (TNamed 121)); (1287, (TSignature [] [(TBasic (str "string"))] false)); (1291, (TBasic (str "string"))); (1292, (TBasic (str "string"))); (1295, (TBasic (str "string"))); (1296, (TBasic (str "string"))); (1297, (TPointer (TNamed 121))); (1298, (TBasic (str "string"))); (1303, (TPointer (TNamed 121))); (1304, (TNamed 121)); (1306, (TSignature [] [(TBasic (str "string"))] false)); (1310, (TBasic (str "string"))); (1311, (TBasic (str "string"))); (1314, (TBasic (str "string"))); (1315, (TBasic (str "string"))); (1319, (TNamed 124)); (1320, (TStruct [((str "TheCode"), (TBasic (str "string")))])); (1323, (TBasic (str "string"))); (1324, (TBasic (str "string"))); (1328, (TPointer (TNamed 124))); (1329, (TPointer (TNamed 124))); (1330, (TNamed 124)); (1332, (TSignature [] [(TBasic (str "string"))] false)); (1336, (TBasic (str "string"))); (1337, (TBasic (str "string"))); (1340, (TBasic (str "string"))); (1341, (TBasic (str "string"))); (1343, (TBasic (str "string"))); (1344, (TBasic (str "string"))); (1345, (TPointer (TNamed 124))); (1346, (TBasic (str "string"))); (1348, (TBasic (str "bool"))); (1351, (TBasic (str "string"))); (1352, (TBasic (str "string"))); (1357, (TPointer (TNamed 124))); (1358, (TNamed 124)); (1360, (TSignature [] [(TBasic (str "string"))] false)); (1364, (TBasic (str "string"))); (1365, (TBasic (str "string"))); (1368, (TBasic (str "string"))); (1369, (TBasic (str "string"))); (1373, (TNamed 127)); (1374, (TStruct [((str "TheCode"), (TBasic (str "string")))])); (1377, (TBasic (str "string"))); (1378, (TBasic (str "string"))); (1382, (TPointer (TNamed 127))); (1383, (TPointer (TNamed 127))); (1384, (TNamed 127)); (1386, (TSignature [] [(TBasic (str "string"))] false)); (1390, (TBasic (str "string"))); (1391, (TBasic (str "string"))); (1394, (TBasic (str "string"))); (1395, (TBasic (str "string"))); (1396, (TPointer (TNamed 127))); (1397, (TBasic (str "string"))); (1399, (TBasic (str "bool"))); (1402, (TBasic (str "string"))); (1403, (TBasic (str "string"))); (1409, (TPointer (TNamed 127))); (1410, (TNamed 127)); (1412, (TSignature [] [(TBasic (str "string"))] false)); (1416, (TBasic (str "string"))); (1419, (TBasic (str "string"))); (1422, (TNamed 130)); (1423, (TStruct [((str "TheCode"), (TBasic (str "string")))])); (1426, (TBasic (str "string"))); (1427, (TBasic (str "string"))); (1431, (TPointer (TNamed 130))); (1432, (TPointer (TNamed 130))); (1433, (TNamed 130)); (1435, (TSignature [] [(TBasic (str "string"))] false)); (1439, (TBasic (str "string"))); (1442, (TBasic (str "string"))); (1443, (TBasic (str "string"))); (1444, (TPointer (TNamed 130))); (1445, (TBasic (str "string"))); (1447, (TBasic (str "string"))); (1451, (TPointer (TNamed 130))); (1452, (TNamed 130)); (1454, (TSignature [] [(TBasic (str "string"))] false)); (1458, (TBasic (str "string"))); (1461, (TBasic (str "string"))); (1464, (TNamed 133)); (1465, (TStruct [((str "TheCode"), (TBasic (str "string")))])); (1468, (TBasic (str "string"))); (1469, (TBasic (str "string"))); (1473, (TPointer (TNamed 133))); (1474, (TPointer (TNamed 133))); (1475, (TNamed 133)); (1477, (TSignature [] [(TBasic (str "string"))] false)); (1481, (TBasic (str "string"))); (1484, (TBasic (str "string"))); (1485, (TBasic (str "string"))); (1486, (TPointer (TNamed 133))); (1487, (TBasic (str "string"))); (1489, (TBasic (str "string"))); (1490, (TBasic (str "string"))); (1494, (TBasic (str "string"))); (1495, (TBasic (str "string"))); (1497, (TBasic (str "bool"))); (1500, (TBasic (str "string"))); (1501, (TBasic (str "string"))); (1503, (TBasic (str "string"))); (1506, (TBasic (str "string"))); (1507, (TBasic (str "string"))); (1509, (TBasic (str "bool"))); (1510, (TBasic (str "string"))); (1511, (TBasic (str "string"))); (1514, (TBasic (str "string"))); (1515, (TBasic (str "string"))); (1517, (TBasic (str "string"))); (1521, (TPointer (TNamed 133))); (1522, (TNamed 133)); (1524, (TSignature [] [(TBasic (str "string"))] false)); (1528, (TBasic (str "string"))); (1531, (TBasic (str "string")))].
Definition t_errortypes_values : list (N * constval) := [(19, COther); (25, COther); (31, COther); (37, COther); (43, COther); (49, COther); (54, COther); (60, COther); (66, COther); (72, COther); (78, COther); (83, CString (str "field-1-error")); (85, COther); (90, CString (str "field-2-error")); (91, CString (str "some other")); (92, CString (str "values")); (94, COther); (99, CString (str "something")); (100, CString (str "field-3-error")); (101, CString (str "something else")); (103, COther); (108, CString (str "field-4-error")); (110, COther); (117, CString (str "field-5-error")); (119, COther); (126, CString (str "unrelated")); (129, CString (str "stuff")); (132, CString (str "field-6-error")); (134, COther); (141, COther); (147, COther); (154, CString (str "unrelated")); (156, COther); (161, CString (str "")); (163, COther); (170, CString (str "unrelated")); (173, CString (str "")); (175, COther); (180, CString (str "badformat-")); (182, COther); (189, CString (str "one")); (190, CString (str "two")); (191, CString (str "three")); (192, CString (str "promoted-1-error")); (194, COther); (201, CString (str "promoted-2-error")); (203, COther); (209, CString (str "promoted-3-error")); (210, CString (str "something")); (212, COther); (219, CString (str "x")); (220, CString (str "y")); (222, COther); (227, CString (str "combined-3-error")); (229, COther); (231, CString (str "some error text")); (233, CString (str "some error text")); (235, COther); (237, CString (str "string-2-error")); (239, CString (str "string-2-error")); (261, CString (str "some-error")); (276, CString (str "ConstantError")); (296, CString (str "some-2-error")); (297, CString (str "some-2")); (298, CString (str "-error")); (313, CString (str "ConstantError2")); (317, CString (str "some-3-error")); (318, CString (str "some-3")); (319, CString (str "-error")); (339, CString (str "some-3-error")); (354, CString (str "ConstantError3")); (373, CString (str "some-4-error")); (387, CString (str "ConstantError4")); (409, COther); (411, CString (str "multiple-1-error")); (413, COther); (415, CString (str "multiple-2-error")); (418, CString (str "multiple-3-error")); (433, CString (str "MultipleConstantError")); (452, CString (str "value-1-error")); (466, CString (str "ValueTypeError")); (485, CString (str "value-2-error")); (499, CString (str "ValueTypeError2")); (519, CString (str "invalid error")); (534, CString (str "InvalidError")); (579, CString (str "InvalidError2")); (599, CString (str "InvalidError3")); (639, CString (str "FieldError")); (666, COther); (672, COther); (696, CString (str "FieldError2")); (738, CString (str "FieldError3")); (805, CString (str "PromotedFieldError")); (855, CString (str "PromotedFieldError2")); (899, CString (str "PromotedFieldError3")); (938, CString (str "InvalidPromotedFieldError")); (963, COther); (969, COther); (971, CString (str "combined-1-error")); (973, CString (str "combined-2-error")); (988, CString (str "CombinedError")); (1006, CString (str "string-error")); (1020, CString (str "ValidStringError")); (1054, CString (str "InvalidStringError")); (1089, CString (str "replaced-1-error")); (1103, CString (str "-error")); (1130, CString (str "replaced-2-error")); (1144, CString (str "-error")); (1146, CString (str "ModifyingError1")); (1169, CString (str "replaced-3-error")); (1183, CString (str "-error")); (1185, CString (str "ModifyingError1")); (1210, CString (str "")); (1212, CString (str "empty-string-error")); (1226, CString (str "empty-string-error")); (1247, CString (str "named-return-error")); (1249, COther); (1253, CString (str "")); (1270, CString (str "NamedReturnError")); (1315, CString (str "NamedReturnError2")); (1341, CString (str "some-error")); (1348, COther); (1369, CString (str "NamedReturnError3")); (1399, COther); (1403, CString (str "-invalid-error")); (1419, CString (str "NamedReturnError4")); (1461, CString (str "ReturnLocalVarError")); (1490, CString (str "other-error")); (1497, COther); (1507, CString (str "some-error")); (1511, CString (str "extra-error")); (1531, CString (str "ReturnLocalVarError"))].
Definition t_errortypes_uses : list (N * tobj) := [(9, 1); (15, 5); (19, 21); (23, 48); (25, 21); (29, 51); (31, 21); (35, 55); (37, 21); (41, 58); (43, 21); (47, 61); (49, 21); (52, 64); (54, 21); (58, 67); (60, 21); (64, 70); (66, 21); (70, 73); (72, 21); (76, 76); (78, 21); (82, 78); (85, 21); (89, 81); (94, 21); (98, 84); (103, 21); (107, 78); (110, 21); (114, 78); (116, 191); (119, 21); (123, 81); (125, 194); (128, 193); (131, 192); (134, 21); (138, 78); (139, 210); (141, 21); (145, 78); (147, 21); (151, 81); (153, 194); (156, 21); (160, 78); (163, 21); (167, 81); (169, 194); (172, 192); (175, 21); (179, 78); (182, 21); (186, 90); (188, 87); (194, 21); (198, 93); (200, 197); (203, 21); (207, 96); (208, 24); (212, 21); (216, 99); (218, 87); (222, 21); (226, 102); (229, 21); (232, 105); (235, 21); (238, 108); (241, 24); (252, 48); (258, 5); (267, 48); (273, 5); (287, 51); (293, 5); (304, 51); (310, 5); (330, 55); (336, 5); (339, 54); (345, 55); (351, 5); (364, 58); (370, 5); (378, 58); (384, 5); (398, 61); (404, 5); (409, 21); (413, 21); (424, 61); (430, 5); (443, 64); (449, 5); (457, 64); (463, 5); (476, 67); (482, 5); (490, 67); (496, 5); (510, 70); (516, 5); (525, 70); (531, 5); (543, 5); (549, 73); (555, 5); (560, 150); (561, 189); (563, 150); (564, 190); (570, 73); (576, 5); (590, 76); (596, 5); (607, 5); (613, 78); (619, 5); (623, 153); (624, 191); (630, 78); (636, 5); (649, 5); (655, 81); (661, 5); (666, 21); (669, 155); (670, 192); (672, 21); (675, 155); (676, 193); (680, 155); (681, 194); (687, 81); (693, 5); (706, 5); (712, 84); (718, 5); (722, 157); (723, 195); (729, 84); (735, 5); (747, 5); (757, 6); (769, 87); (773, 5); (779, 90); (785, 5); (789, 159); (790, 196); (796, 90); (802, 5); (812, 87); (814, 88); (817, 6); (821, 5); (823, 89); (829, 93); (835, 5); (839, 161); (840, 197); (846, 93); (852, 5); (863, 87); (867, 5); (873, 96); (879, 5); (883, 163); (884, 198); (890, 96); (896, 5); (906, 87); (912, 99); (918, 5); (922, 165); (923, 199); (929, 99); (935, 5); (946, 5); (952, 102); (958, 5); (963, 21); (966, 167); (967, 191); (969, 21); (979, 102); (985, 5); (992, 5); (997, 105); (1003, 5); (1011, 105); (1017, 5); (1024, 5); (1029, 108); (1035, 5); (1039, 5); (1040, 171); (1045, 108); (1051, 5); (1062, 5); (1066, 4); (1072, 111); (1078, 5); (1082, 173); (1083, 200); (1087, 173); (1088, 201); (1092, 173); (1093, 202); (1097, 173); (1098, 201); (1101, 173); (1102, 201); (1106, 173); (1107, 201); (1113, 111); (1119, 5); (1123, 174); (1124, 200); (1128, 174); (1129, 201); (1133, 174); (1134, 202); (1138, 174); (1139, 201); (1142, 174); (1143, 201); (1152, 111); (1158, 5); (1162, 175); (1163, 200); (1167, 175); (1168, 201); (1172, 175); (1173, 202); (1177, 175); (1178, 201); (1181, 175); (1182, 201); (1196, 115); (1202, 5); (1206, 176); (1207, 24); (1217, 115); (1223, 5); (1236, 118); (1243, 5); (1246, 177); (1249, 22); (1252, 177); (1259, 118); (1266, 5); (1269, 178); (1279, 5); (1285, 121); (1292, 5); (1295, 180); (1297, 179); (1298, 203); (1304, 121); (1311, 5); (1314, 181); (1324, 5); (1330, 124); (1337, 5); (1343, 183); (1345, 182); (1346, 203); (1348, 22); (1351, 183); (1352, 204); (1358, 124); (1365, 5); (1368, 184); (1378, 5); (1384, 127); (1391, 5); (1394, 186); (1396, 185); (1397, 203); (1399, 22); (1402, 186); (1410, 127); (1416, 5); (1427, 5); (1433, 130); (1439, 5); (1444, 187); (1445, 203); (1447, 205); (1452, 130); (1458, 5); (1469, 5); (1475, 133); (1481, 5); (1486, 188); (1487, 203); (1495, 5); (1497, 22); (1500, 208); (1501, 206); (1503, 208); (1510, 206); (1514, 209); (1515, 207); (1517, 209); (1522, 133); (1528, 5)].
Definition t_errortypes_defs : list (N * tobj) := [(4, 47); (14, 210); (244, 48); (250, 136); (253, 49); (265, 137); (268, 50); (279, 51); (285, 138); (288, 52); (302, 139); (305, 53); (316, 54); (322, 55); (328, 140); (331, 56); (343, 141); (346, 57); (357, 58); (365, 59); (379, 60); (390, 61); (396, 142); (399, 62); (422, 143); (425, 63); (436, 64); (442, 144); (444, 65); (456, 145); (458, 66); (469, 67); (475, 146); (477, 68); (489, 147); (491, 69); (502, 70); (508, 148); (511, 71); (523, 149); (526, 72); (537, 73); (547, 150); (550, 74); (568, 151); (571, 75); (582, 76); (588, 152); (591, 77); (602, 78); (611, 153); (614, 79); (628, 154); (631, 80); (642, 81); (653, 155); (656, 82); (685, 156); (688, 83); (699, 84); (710, 157); (713, 85); (727, 158); (730, 86); (741, 87); (750, 88); (760, 89); (765, 90); (777, 159); (780, 91); (794, 160); (797, 92); (808, 93); (827, 161); (830, 94); (844, 162); (847, 95); (858, 96); (871, 163); (874, 97); (888, 164); (891, 98); (902, 99); (910, 165); (913, 100); (927, 166); (930, 101); (941, 102); (950, 167); (953, 103); (977, 168); (980, 104); (991, 105); (996, 169); (998, 106); (1010, 170); (1012, 107); (1023, 108); (1028, 171); (1030, 109); (1044, 172); (1046, 110); (1057, 111); (1070, 173); (1073, 112); (1111, 174); (1114, 113); (1150, 175); (1153, 114); (1188, 115); (1194, 176); (1197, 116); (1218, 117); (1229, 118); (1237, 119); (1242, 177); (1260, 120); (1265, 178); (1274, 121); (1283, 179); (1286, 122); (1291, 180); (1305, 123); (1310, 181); (1319, 124); (1328, 182); (1331, 125); (1336, 183); (1340, 204); (1359, 126); (1364, 184); (1373, 127); (1382, 185); (1385, 128); (1390, 186); (1411, 129); (1422, 130); (1431, 187); (1434, 131); (1442, 205); (1453, 132); (1464, 133); (1473, 188); (1476, 134); (1484, 206); (1489, 207); (1494, 208); (1506, 209); (1523, 135)].
Definition t_errortypes_sels : list (N * (tobj * gotype)) := [(559, (189, (TPointer (TNamed 73)))); (562, (190, (TPointer (TNamed 73)))); (622, (191, (TPointer (TNamed 78)))); (668, (192, (TPointer (TNamed 81)))); (674, (193, (TPointer (TNamed 81)))); (679, (194, (TPointer (TNamed 81)))); (721, (195, (TPointer (TNamed 84)))); (788, (196, (TPointer (TNamed 90)))); (838, (197, (TPointer (TNamed 93)))); (882, (198, (TPointer (TNamed 96)))); (921, (199, (TPointer (TNamed 99)))); (965, (191, (TPointer (TNamed 102)))); (1081, (200, (TPointer (TNamed 111)))); (1086, (201, (TPointer (TNamed 111)))); (1091, (202, (TPointer (TNamed 111)))); (1096, (201, (TPointer (TNamed 111)))); (1100, (201, (TPointer (TNamed 111)))); (1105, (201, (TPointer (TNamed 111)))); (1122, (200, (TPointer (TNamed 111)))); (1127, (201, (TPointer (TNamed 111)))); (1132, (202, (TPointer (TNamed 111)))); (1137, (201, (TPointer (TNamed 111)))); (1141, (201, (TPointer (TNamed 111)))); (1161, (200, (TPointer (TNamed 111)))); (1166, (201, (TPointer (TNamed 111)))); (1171, (202, (TPointer (TNamed 111)))); (1176, (201, (TPointer (TNamed 111)))); (1180, (201, (TPointer (TNamed 111)))); (1296, (203, (TPointer (TNamed 121)))); (1344, (203, (TPointer (TNamed 124)))); (1395, (203, (TPointer (TNamed 127)))); (1443, (203, (TPointer (TNamed 130)))); (1485, (203, (TPointer (TNamed 133))))].
Definition t_errortypes_pkgnames : list (N * gostring) := [].
Definition t_errortypes_objnames : list (N * gostring) := [(1, (str "error")); (2, (str "Error")); (3, (str "?")); (4, (str "bool")); (5, (str "string")); (6, (str "int")); (7, (str "int8")); (8, (str "int16")); (9, (str "int32")); (10, (str "int64")); (11, (str "uint")); (12, (str "uint8")); (13, (str "uint16")); (14, (str "uint32")); (15, (str "uint64")); (16, (str "uintptr")); (17, (str "float32")); (18, (str "float64")); (19, (str "complex64")); (20, (str "complex128")); (21, (str "true")); (22, (str "false")); (23, (str "iota")); (24, (str "nil")); (25, (str "append")); (26, (str "cap")); (27, (str "close")); (28, (str "complex")); (29, (str "copy")); (30, (str "delete")); (31, (str "imag")); (32, (str "len")); (33, (str "make")); (34, (str "new")); (35, (str "panic")); (36, (str "print")); (37, (str "println")); (38, (str "real")); (39, (str "recover")); (40, (str "Errorf")); (41, (str "Sprintf")); (42, (str "Println")); (43, (str "New")); (44, (str "HasPrefix")); (45, (str "Float32")); (46, (str "Float64")); (47, (str "AllErrors")); (48, (str "ConstantError")); (49, (str "Code")); (50, (str "Error")); (51, (str "ConstantError2")); (52, (str "Code")); (53, (str "Error")); (54, (str "constantError3Code")); (55, (str "ConstantError3")); (56, (str "Code")); (57, (str "Error")); (58, (str "ConstantError4")); (59, (str "Code")); (60, (str "Error")); (61, (str "MultipleConstantError")); (62, (str "Code")); (63, (str "Error")); (64, (str "ValueTypeError")); (65, (str "Code")); (66, (str "Error")); (67, (str "ValueTypeError2")); (68, (str "Code")); (69, (str "Error")); (70, (str "InvalidError")); (71, (str "Code")); (72, (str "Error")); (73, (str "InvalidError2")); (74, (str "Code")); (75, (str "Error")); (76, (str "InvalidError3")); (77, (str "Error")); (78, (str "FieldError")); (79, (str "Code")); (80, (str "Error")); (81, (str "FieldError2")); (82, (str "Code")); (83, (str "Error")); (84, (str "FieldError3")); (85, (str "Code")); (86, (str "Error")); (87, (str "Promoteable")); (88, (str "Promoteable2")); (89, (str "Promoteable3")); (90, (str "PromotedFieldError")); (91, (str "Code")); (92, (str "Error")); (93, (str "PromotedFieldError2")); (94, (str "Code")); (95, (str "Error")); (96, (str "PromotedFieldError3")); (97, (str "Code")); (98, (str "Error")); (99, (str "InvalidPromotedFieldError")); (100, (str "Code")); (101, (str "Error")); (102, (str "CombinedError")); (103, (str "Code")); (104, (str "Error")); (105, (str "ValidStringError")); (106, (str "Code")); (107, (str "Error")); (108, (str "InvalidStringError")); (109, (str "Code")); (110, (str "Error")); (111, (str "ModifyingError1")); (112, (str "Code")); (113, (str "Error")); (114, (str "OtherMethod")); (115, (str "EmptyStringError")); (116, (str "Code")); (117, (str "Error")); (118, (str "NamedReturnError")); (119, (str "Code")); (120, (str "Error")); (121, (str "NamedReturnError2")); (122, (str "Code")); (123, (str "Error")); (124, (str "NamedReturnError3")); (125, (str "Code")); (126, (str "Error")); (127, (str "NamedReturnError4")); (128, (str "Code")); (129, (str "Error")); (130, (str "ReturnLocalVarError1")); (131, (str "Code")); (132, (str "Error")); (133, (str "ReturnLocalVarError2")); (134, (str "Code")); (135, (str "Error")); (136, (str "e")); (137, (str "e")); (138, (str "e")); (139, (str "e")); (140, (str "e")); (141, (str "e")); (142, (str "e")); (143, (str "e")); (144, (str "e")); (145, (str "e")); (146, (str "e")); (147, (str "e")); (148, (str "e")); (149, (str "e")); (150, (str "e")); (151, (str "e")); (152, (str "e")); (153, (str "e")); (154, (str "e")); (155, (str "e")); (156, (str "e")); (157, (str "e")); (158, (str "e")); (159, (str "e")); (160, (str "e")); (161, (str "e")); (162, (str "e")); (163, (str "e")); (164, (str "e")); (165, (str "e")); (166, (str "e")); (167, (str "e")); (168, (str "e")); (169, (str "e")); (170, (str "e")); (171, (str "e")); (172, (str "e")); (173, (str "e")); (174, (str "e")); (175, (str "e")); (176, (str "e")); (177, (str "code")); (178, (str "err")); (179, (str "e")); (180, (str "code")); (181, (str "err")); (182, (str "e")); (183, (str "code")); (184, (str "err")); (185, (str "e")); (186, (str "code")); (187, (str "e")); (188, (str "e")); (189, (str "field1")); (190, (str "field2")); (191, (str "field")); (192, (str "field1")); (193, (str "field2")); (194, (str "field3")); (195, (str "field2")); (196, (str "field")); (197, (str "field")); (198, (str "errorCode")); (199, (str "Some")); (200, (str "flag1")); (201, (str "code")); (202, (str "flag2")); (203, (str "TheCode")); (204, (str "errorCode")); (205, (str "code")); (206, (str "code")); (207, (str "other")); (208, (str "code2")); (209, (str "code3")); (210, (str "someVariable"))].
Definition t_errortypes_objtypes : list (N * gotype) := [(1, (TNamed 1)); (2, (TSignature [] [(TBasic (str "string"))] false)); (4, (TBasic (str "bool"))); (5, (TBasic (str "string"))); (6, (TBasic (str "int"))); (7, (TBasic (str "int8"))); (8, (TBasic (str "int16"))); (9, (TBasic (str "int32"))); (10, (TBasic (str "int64"))); (11, (TBasic (str "uint"))); (12, (TBasic (str "uint8"))); (13, (TBasic (str "uint16"))); (14, (TBasic (str "uint32"))); (15, (TBasic (str "uint64"))); (16, (TBasic (str "uintptr"))); (17, (TBasic (str "float32"))); (18, (TBasic (str "float64"))); (19, (TBasic (str "complex64"))); (20, (TBasic (str "complex128"))); (40, (TSignature [(TBasic (str "string")); (TSlice (TInterface 4))] [(TNamed 1)] true)); (41, (TSignature [(TBasic (str "string")); (TSlice (TInterface 4))] [(TBasic (str "string"))] true)); (42, (TSignature [(TSlice (TInterface 4))] [(TBasic (str "int")); (TNamed 1)] true)); (43, (TSignature [(TBasic (str "string"))] [(TNamed 1)] false)); (44, (TSignature [(TBasic (str "string")); (TBasic (str "string"))] [(TBasic (str "bool"))] false)); (45, (TSignature [] [(TBasic (str "float32"))] false)); (46, (TSignature [] [(TBasic (str "float64"))] false)); (47, (TSignature [] [(TNamed 1)] false)); (48, (TNamed 48)); (49, (TSignature [] [(TBasic (str "string"))] false)); (50, (TSignature [] [(TBasic (str "string"))] false)); (51, (TNamed 51)); (52, (TSignature [] [(TBasic (str "string"))] false)); (53, (TSignature [] [(TBasic (str "string"))] false)); (54, (TBasic (str "string"))); (55, (TNamed 55)); (56, (TSignature [] [(TBasic (str "string"))] false)); (57, (TSignature [] [(TBasic (str "string"))] false)); (58, (TNamed 58)); (59, (TSignature [] [(TBasic (str "string"))] false)); (60, (TSignature [] [(TBasic (str "string"))] false)); (61, (TNamed 61)); (62, (TSignature [] [(TBasic (str "string"))] false)); (63, (TSignature [] [(TBasic (str "string"))] false)); (64, (TNamed 64)); (65, (TSignature [] [(TBasic (str "string"))] false)); (66, (TSignature [] [(TBasic (str "string"))] false)); (67, (TNamed 67)); (68, (TSignature [] [(TBasic (str "string"))] false)); (69, (TSignature [] [(TBasic (str "string"))] false)); (70, (TNamed 70)); (71, (TSignature [] [(TBasic (str "string"))] false)); (72, (TSignature [] [(TBasic (str "string"))] false)); (73, (TNamed 73)); (74, (TSignature [] [(TBasic (str "string"))] false)); (75, (TSignature [] [(TBasic (str "string"))] false)); (76, (TNamed 76)); (77, (TSignature [] [(TBasic (str "string"))] false)); (78, (TNamed 78)); (79, (TSignature [] [(TBasic (str "string"))] false)); (80, (TSignature [] [(TBasic (str "string"))] false)); (81, (TNamed 81)); (82, (TSignature [] [(TBasic (str "string"))] false)); (83, (TSignature [] [(TBasic (str "string"))] false)); (84, (TNamed 84)); (85, (TSignature [] [(TBasic (str "string"))] false)); (86, (TSignature [] [(TBasic (str "string"))] false)); (87, (TNamed 87)); (88, (TNamed 88)); (89, (TNamed 89)); (90, (TNamed 90)); (91, (TSignature [] [(TBasic (str "string"))] false)); (92, (TSignature [] [(TBasic (str "string"))] false)); (93, (TNamed 93)); (94, (TSignature [] [(TBasic (str "string"))] false)); (95, (TSignature [] [(TBasic (str "string"))] false)); (96, (TNamed 96)); (97, (TSignature [] [(TBasic (str "string"))] false)); (98, (TSignature [] [(TBasic (str "string"))] false)); (99, (TNamed 99)); (100, (TSignature [] [(TBasic (str "string"))] false)); (101, (TSignature [] [(TBasic (str "string"))] false)); (102, (TNamed 102)); (103, (TSignature [] [(TBasic (str "string"))] false)); (104, (TSignature [] [(TBasic (str "string"))] false)); (105, (TNamed 105)); (106, (TSignature [] [(TBasic (str "string"))] false)); (107, (TSignature [] [(TBasic (str "string"))] false)); (108, (TNamed 108)); (109, (TSignature [] [(TBasic (str "string"))] false)); (110, (TSignature [] [(TBasic (str "string"))] false)); (111, (TNamed 111)); (112, (TSignature [] [(TBasic (str "string"))] false)); (113, (TSignature [] [(TBasic (str "string"))] false)); (114, (TSignature [] [(TBasic (str "string"))] false)); (115, (TNamed 115)); (116, (TSignature [] [(TBasic (str "string"))] false)); (117, (TSignature [] [(TBasic (str "string"))] false)); (118, (TNamed 118)); (119, (TSignature [] [(TBasic (str "string"))] false)); (120, (TSignature [] [(TBasic (str "string"))] false)); (121, (TNamed 121)); (122, (TSignature [] [(TBasic (str "string"))] false)); (123, (TSignature [] [(TBasic (str "string"))] false)); (124, (TNamed 124)); (125, (TSignature [] [(TBasic (str "string"))] false)); (126, (TSignature [] [(TBasic (str "string"))] false)); (127, (TNamed 127)); (128, (TSignature [] [(TBasic (str "string"))] false)); (129, (TSignature [] [(TBasic (str "string"))] false)); (130, (TNamed 130)); (131, (TSignature [] [(TBasic (str "string"))] false)); (132, (TSignature [] [(TBasic (str "string"))] false)); (133, (TNamed 133)); (134, (TSignature [] [(TBasic (str "string"))] false)); (135, (TSignature [] [(TBasic (str "string"))] false)); (136, (TPointer (TNamed 48))); (137, (TPointer (TNamed 48))); (138, (TPointer (TNamed 51))); (139, (TPointer (TNamed 51))); (140, (TPointer (TNamed 55))); (141, (TPointer (TNamed 55))); (142, (TPointer (TNamed 61))); (143, (TPointer (TNamed 61))); (144, (TNamed 64)); (145, (TNamed 64)); (146, (TNamed 67)); (147, (TNamed 67)); (148, (TPointer (TNamed 70))); (149, (TPointer (TNamed 70))); (150, (TPointer (TNamed 73))); (151, (TPointer (TNamed 73))); (152, (TPointer (TNamed 76))); (153, (TPointer (TNamed 78))); (154, (TPointer (TNamed 78))); (155, (TPointer (TNamed 81))); (156, (TPointer (TNamed 81))); (157, (TPointer (TNamed 84))); (158, (TPointer (TNamed 84))); (159, (TPointer (TNamed 90))); (160, (TPointer (TNamed 90))); (161, (TPointer (TNamed 93))); (162, (TPointer (TNamed 93))); (163, (TPointer (TNamed 96))); (164, (TPointer (TNamed 96))); (165, (TPointer (TNamed 99))); (166, (TPointer (TNamed 99))); (167, (TPointer (TNamed 102))); (168, (TPointer (TNamed 102))); (169, (TNamed 105)); (170, (TNamed 105)); (171, (TNamed 108)); (172, (TNamed 108)); (173, (TPointer (TNamed 111))); (174, (TPointer (TNamed 111))); (175, (TPointer (TNamed 111))); (176, (TPointer (TNamed 115))); (177, (TBasic (str "string"))); (178, (TBasic (str "string"))); (179, (TPointer (TNamed 121))); (180, (TBasic (str "string"))); (181, (TBasic (str "string"))); (182, (TPointer (TNamed 124))); (183, (TBasic (str "string"))); (184, (TBasic (str "string"))); (185, (TPointer (TNamed 127))); (186, (TBasic (str "string"))); (187, (TPointer (TNamed 130))); (188, (TPointer (TNamed 133))); (189, (TBasic (str "string"))); (190, (TBasic (str "string"))); (191, (TBasic (str "string"))); (192, (TBasic (str "string"))); (193, (TBasic (str "string"))); (194, (TBasic (str "string"))); (195, (TBasic (str "string"))); (196, (TBasic (str "string"))); (197, (TBasic (str "string"))); (198, (TBasic (str "string"))); (199, (TBasic (str "string"))); (200, (TBasic (str "bool"))); (201, (TBasic (str "string"))); (202, (TBasic (str "bool"))); (203, (TBasic (str "string"))); (204, (TBasic (str "string"))); (205, (TBasic (str "string"))); (206, (TBasic (str "string"))); (207, (TBasic (str "string"))); (208, (TBasic (str "string"))); (209, (TBasic (str "string"))); (210, (TBasic (str "string")))].
Definition t_errortypes_under : list (N * gotype) := [(1, (TInterface 1)); (48, (TStruct [])); (51, (TStruct [])); (55, (TStruct [])); (58, (TStruct [])); (61, (TStruct [])); (64, (TStruct [])); (67, (TStruct [])); (70, (TStruct [])); (73, (TStruct [((str "field1"), (TBasic (str "string"))); ((str "field2"), (TBasic (str "string")))])); (76, (TStruct [])); (78, (TStruct [((str "field"), (TBasic (str "string")))])); (81, (TStruct [((str "field1"), (TBasic (str "string"))); ((str "field2"), (TBasic (str "string"))); ((str "field3"), (TBasic (str "string")))])); (84, (TStruct [((str "_"), (TBasic (str "string"))); ((str "field2"), (TBasic (str "string"))); ((str "_"), (TBasic (str "string")))])); (87, (TStruct [((str "Some"), (TBasic (str "string"))); ((str "Other"), (TBasic (str "string")))])); (88, (TStruct [((str "_"), (TBasic (str "int"))); ((str "_"), (TBasic (str "int"))); ((str "_"), (TBasic (str "int")))])); (89, (TStruct [])); (90, (TStruct [((str "Promoteable"), (TNamed 87)); ((str "_"), (TBasic (str "string"))); ((str "field"), (TBasic (str "string")))])); (93, (TStruct [((str "Promoteable"), (TNamed 87)); ((str "Promoteable2"), (TNamed 88)); ((str "_"), (TBasic (str "int"))); ((str "_"), (TBasic (str "string"))); ((str "field"), (TBasic (str "string"))); ((str "Promoteable3"), (TNamed 89))])); (96, (TStruct [((str "Promoteable"), (TPointer (TNamed 87))); ((str "errorCode"), (TBasic (str "string"))); ((str "_"), (TBasic (str "string")))])); (99, (TStruct [((str "Promoteable"), (TNamed 87))])); (102, (TStruct [((str "field"), (TBasic (str "string")))])); (105, (TBasic (str "string"))); (108, (TBasic (str "string"))); (111, (TStruct [((str "code"), (TBasic (str "string"))); ((str "flag1"), (TBasic (str "bool"))); ((str "flag2"), (TBasic (str "bool")))])); (115, (TStruct [])); (118, (TStruct [])); (121, (TStruct [((str "TheCode"), (TBasic (str "string")))])); (124, (TStruct [((str "TheCode"), (TBasic (str "string")))])); (127, (TStruct [((str "TheCode"), (TBasic (str "string")))])); (130, (TStruct [((str "TheCode"), (TBasic (str "string")))])); (133, (TStruct [((str "TheCode"), (TBasic (str "string")))]))].
Definition t_errortypes_named_methods : list (N * (list gostring)) := [(48, [(str "Code"); (str "Error")]); (51, [(str "Code"); (str "Error")]); (55, [(str "Code"); (str "Error")]); (58, [(str "Code"); (str "Error")]); (61, [(str "Code"); (str "Error")]); (64, [(str "Code"); (str "Error")]); (67, [(str "Code"); (str "Error")]); (70, [(str "Code"); (str "Error")]); (73, [(str "Code"); (str "Error")]); (76, [(str "Error")]); (78, [(str "Code"); (str "Error")]); (81, [(str "Code"); (str "Error")]); (84, [(str "Code"); (str "Error")]); (90, [(str "Code"); (str "Error")]); (93, [(str "Code"); (str "Error")]); (96, [(str "Code"); (str "Error")]); (99, [(str "Code"); (str "Error")]); (102, [(str "Code"); (str "Error")]); (105, [(str "Code"); (str "Error")]); (108, [(str "Code"); (str "Error")]); (111, [(str "Code"); (str "Error"); (str "OtherMethod")]); (115, [(str "Code"); (str "Error")]); (118, [(str "Code"); (str "Error")]); (121, [(str "Code"); (str "Error")]); (124, [(str "Code"); (str "Error")]); (127, [(str "Code"); (str "Error")]); (130, [(str "Code"); (str "Error")]); (133, [(str "Code"); (str "Error")])].
Definition t_errortypes_methods : list (gotype * gostring * tobj) := [((TInterface 1), (str "Error"), 2); ((TNamed 1), (str "Error"), 2); ((TNamed 105), (str "Code"), 106); ((TNamed 105), (str "Error"), 107); ((TNamed 108), (str "Code"), 109); ((TNamed 108), (str "Error"), 110); ((TNamed 64), (str "Code"), 65); ((TNamed 64), (str "Error"), 66); ((TNamed 67), (str "Code"), 68); ((TNamed 67), (str "Error"), 69); ((TPointer (TNamed 102)), (str "Code"), 103); ((TPointer (TNamed 102)), (str "Error"), 104); ((TPointer (TNamed 105)), (str "Code"), 106); ((TPointer (TNamed 105)), (str "Error"), 107); ((TPointer (TNamed 108)), (str "Code"), 109); ((TPointer (TNamed 108)), (str "Error"), 110); ((TPointer (TNamed 111)), (str "Code"), 112); ((TPointer (TNamed 111)), (str "Error"), 113); ((TPointer (TNamed 111)), (str "OtherMethod"), 114); ((TPointer (TNamed 115)), (str "Code"), 116); ((TPointer (TNamed 115)), (str "Error"), 117); ((TPointer (TNamed 118)), (str "Code"), 119); ((TPointer (TNamed 118)), (str "Error"), 120); ((TPointer (TNamed 121)), (str "Code"), 122); ((TPointer (TNamed 121)), (str "Error"), 123); ((TPointer (TNamed 124)), (str "Code"), 125); ((TPointer (TNamed 124)), (str "Error"), 126); ((TPointer (TNamed 127)), (str "Code"), 128); ((TPointer (TNamed 127)), (str "Error"), 129); ((TPointer (TNamed 130)), (str "Code"), 131); ((TPointer (TNamed 130)), (str "Error"), 132); ((TPointer (TNamed 133)), (str "Code"), 134); ((TPointer (TNamed 133)), (str "Error"), 135); ((TPointer (TNamed 48)), (str "Code"), 49); ((TPointer (TNamed 48)), (str "Error"), 50); ((TPointer (TNamed 51)), (str "Code"), 52); ((TPointer (TNamed 51)), (str "Error"), 53); ((TPointer (TNamed 55)), (str "Code"), 56); ((TPointer (TNamed 55)), (str "Error"), 57); ((TPointer (TNamed 58)), (str "Code"), 59); ((TPointer (TNamed 58)), (str "Error"), 60); ((TPointer (TNamed 61)), (str "Code"), 62); ((TPointer (TNamed 61)), (str "Error"), 63); ((TPointer (TNamed 64)), (str "Code"), 65); ((TPointer (TNamed 64)), (str "Error"), 66); ((TPointer (TNamed 67)), (str "Code"), 68); ((TPointer (TNamed 67)), (str "Error"), 69); ((TPointer (TNamed 70)), (str "Code"), 71); ((TPointer (TNamed 70)), (str "Error"), 72); ((TPointer (TNamed 73)), (str "Code"), 74); ((TPointer (TNamed 73)), (str "Error"), 75); ((TPointer (TNamed 76)), (str "Error"), 77); ((TPointer (TNamed 78)), (str "Code"), 79); ((TPointer (TNamed 78)), (str "Error"), 80); ((TPointer (TNamed 81)), (str "Code"), 82); ((TPointer (TNamed 81)), (str "Error"), 83); ((TPointer (TNamed 84)), (str "Code"), 85); ((TPointer (TNamed 84)), (str "Error"), 86); ((TPointer (TNamed 90)), (str "Code"), 91); ((TPointer (TNamed 90)), (str "Error"), 92); ((TPointer (TNamed 93)), (str "Code"), 94); ((TPointer (TNamed 93)), (str "Error"), 95); ((TPointer (TNamed 96)), (str "Code"), 97); ((TPointer (TNamed 96)), (str "Error"), 98); ((TPointer (TNamed 99)), (str "Code"), 100); ((TPointer (TNamed 99)), (str "Error"), 101)].
Definition t_errortypes_ierr : list gotype := [(TInterface 1); (TNamed 1); (TNamed 105); (TNamed 108); (TNamed 64); (TNamed 67); (TPointer (TNamed 102)); (TPointer (TNamed 105)); (TPointer (TNamed 108)); (TPointer (TNamed 111)); (TPointer (TNamed 115)); (TPointer (TNamed 118)); (TPointer (TNamed 121)); (TPointer (TNamed 124)); (TPointer (TNamed 127)); (TPointer (TNamed 130)); (TPointer (TNamed 133)); (TPointer (TNamed 48)); (TPointer (TNamed 51)); (TPointer (TNamed 55)); (TPointer (TNamed 58)); (TPointer (TNamed 61)); (TPointer (TNamed 64)); (TPointer (TNamed 67)); (TPointer (TNamed 70)); (TPointer (TNamed 73)); (TPointer (TNamed 76)); (TPointer (TNamed 78)); (TPointer (TNamed 81)); (TPointer (TNamed 84)); (TPointer (TNamed 90)); (TPointer (TNamed 93)); (TPointer (TNamed 96)); (TPointer (TNamed 99))].
Definition t_errortypes_iree : list gotype := [(TNamed 105); (TNamed 108); (TNamed 64); (TNamed 67); (TPointer (TNamed 102)); (TPointer (TNamed 105)); (TPointer (TNamed 108)); (TPointer (TNamed 111)); (TPointer (TNamed 115)); (TPointer (TNamed 118)); (TPointer (TNamed 121)); (TPointer (TNamed 124)); (TPointer (TNamed 127)); (TPointer (TNamed 130)); (TPointer (TNamed 133)); (TPointer (TNamed 48)); (TPointer (TNamed 51)); (TPointer (TNamed 55)); (TPointer (TNamed 58)); (TPointer (TNamed 61)); (TPointer (TNamed 64)); (TPointer (TNamed 67)); (TPointer (TNamed 70)); (TPointer (TNamed 73)); (TPointer (TNamed 78)); (TPointer (TNamed 81)); (TPointer (TNamed 84)); (TPointer (TNamed 90)); (TPointer (TNamed 93)); (TPointer (TNamed 96)); (TPointer (TNamed 99))].
Definition t_errortypes_icause : list gotype := [].
Definition t_errortypes_impl : list (gotype * gotype) := [((TInterface 1), (TInterface 1)); ((TNamed 1), (TInterface 1)); ((TNamed 105), (TInterface 1)); ((TNamed 108), (TInterface 1)); ((TNamed 64), (TInterface 1)); ((TNamed 67), (TInterface 1)); ((TPointer (TNamed 102)), (TInterface 1)); ((TPointer (TNamed 105)), (TInterface 1)); ((TPointer (TNamed 108)), (TInterface 1)); ((TPointer (TNamed 111)), (TInterface 1)); ((TPointer (TNamed 115)), (TInterface 1)); ((TPointer (TNamed 118)), (TInterface 1)); ((TPointer (TNamed 121)), (TInterface 1)); ((TPointer (TNamed 124)), (TInterface 1)); ((TPointer (TNamed 127)), (TInterface 1)); ((TPointer (TNamed 130)), (TInterface 1)); ((TPointer (TNamed 133)), (TInterface 1)); ((TPointer (TNamed 48)), (TInterface 1)); ((TPointer (TNamed 51)), (TInterface 1)); ((TPointer (TNamed 55)), (TInterface 1)); ((TPointer (TNamed 58)), (TInterface 1)); ((TPointer (TNamed 61)), (TInterface 1)); ((TPointer (TNamed 64)), (TInterface 1)); ((TPointer (TNamed 67)), (TInterface 1)); ((TPointer (TNamed 70)), (TInterface 1)); ((TPointer (TNamed 73)), (TInterface 1)); ((TPointer (TNamed 76)), (TInterface 1)); ((TPointer (TNamed 78)), (TInterface 1)); ((TPointer (TNamed 81)), (TInterface 1)); ((TPointer (TNamed 84)), (TInterface 1)); ((TPointer (TNamed 90)), (TInterface 1)); ((TPointer (TNamed 93)), (TInterface 1)); ((TPointer (TNamed 96)), (TInterface 1)); ((TPointer (TNamed 99)), (TInterface 1))].
Definition t_errortypes_nodes0 : list snode := [SNode 1 (Place 0 1) (Place 13066 370) true; SNode 2 (Place 8 1) (Place 18 1) false; SNode 3 (Place 724 29) (Place 3564 92) true; SNode 4 (Place 729 29) (Place 738 29) false; SNode 5 (Place 724 29) (Place 746 29) false; SNode 6 (Place 738 29) (Place 740 29) false; SNode 7 (Place 741 29) (Place 746 29) false; SNode 8 (Place 741 29) (Place 746 29) true; SNode 9 (Place 741 29) (Place 746 29) false; SNode 10 (Place 747 29) (Place 3564 92) true; SNode 11 (Place 1110 30) (Place 1133 30) true; SNode 12 (Place 1110 30) (Place 1133 30) true; SNode 13 (Place 1114 30) (Place 1133 30) true; SNode 14 (Place 1114 30) (Place 1126 30) false; SNode 15 (Place 1127 30) (Place 1133 30) false; SNode 16 (Place 1135 31) (Place 3550 90) true; SNode 17 (Place 1142 31) (Place 3550 90) true; SNode 18 (Place 1145 32) (Place 1181 33) true; SNode 19 (Place 1150 32) (Place 1154 32) false; SNode 20 (Place 1158 33) (Place 1181 33) true; SNode 21 (Place 1165 33) (Place 1181 33) false; SNode 22 (Place 1166 33) (Place 1181 33) false; SNode 23 (Place 1166 33) (Place 1179 33) false; SNode 24 (Place 1183 34) (Place 1220 35) true; SNode 25 (Place 1188 34) (Place 1192 34) false; SNode 26 (Place 1196 35) (Place 1220 35) true; SNode 27 (Place 1203 35) (Place 1220 35) false; SNode 28 (Place 1204 35) (Place 1220 35) false; SNode 29 (Place 1204 35) (Place 1218 35) false; SNode 30 (Place 1222 36) (Place 1259 37) true; SNode 31 (Place 1227 36) (Place 1231 36) false; SNode 32 (Place 1235 37) (Place 1259 37) true; SNode 33 (Place 1242 37) (Place 1259 37) false; SNode 34 (Place 1243 37) (Place 1259 37) false; SNode 35 (Place 1243 37) (Place 1257 37) false; SNode 36 (Place 1261 38) (Place 1298 39) true; SNode 37 (Place 1266 38) (Place 1270 38) false; SNode 38 (Place 1274 39) (Place 1298 39) true; SNode 39 (Place 1281 39) (Place 1298 39) false; SNode 40 (Place 1282 39) (Place 1298 39) false; SNode 41 (Place 1282 39) (Place 1296 39) false; SNode 42 (Place 1300 40) (Place 1344 41) true; SNode 43 (Place 1305 40) (Place 1309 40) false; SNode 44 (Place 1313 41) (Place 1344 41) true; SNode 45 (Place 1320 41) (Place 1344 41) false; SNode 46 (Place 1321 41) (Place 1344 41) false; SNode 47 (Place 1321 41) (Place 1342 41) false; SNode 48 (Place 1346 42) (Place 1382 43) true; SNode 49 (Place 1351 42) (Place 1355 42) false; SNode 50 (Place 1359 43) (Place 1382 43) true; SNode 51 (Place 1366 43) (Place 1382 43) false; SNode 52 (Place 1366 43) (Place 1380 43) false; SNode 53 (Place 1384 44) (Place 1422 45) true; SNode 54 (Place 1389 44) (Place 1393 44) false; SNode 55 (Place 1397 45) (Place 1422 45) true; SNode 56 (Place 1404 45) (Place 1422 45) false; SNode 57 (Place 1405 45) (Place 1422 45) false; SNode 58 (Place 1405 45) (Place 1420 45) false; SNode 59 (Place 1477 46) (Place 1512 47) true; SNode 60 (Place 1482 46) (Place 1486 46) false; SNode 61 (Place 1490 47) (Place 1512 47) true; SNode 62 (Place 1497 47) (Place 1512 47) false; SNode 63 (Place 1498 47) (Place 1512 47) false; SNode 64 (Place 1498 47) (Place 1510 47) false; SNode 65 (Place 1620 48) (Place 1656 49) true; SNode 66 (Place 1625 48) (Place 1629 48) false; SNode 67 (Place 1633 49) (Place 1656 49) true; SNode 68 (Place 1640 49) (Place 1656 49) false; SNode 69 (Place 1641 49) (Place 1656 49) false; SNode 70 (Place 1641 49) (Place 1654 49) false; SNode 71 (Place 1764 50) (Place 1800 51) true; SNode 72 (Place 1769 50) (Place 1773 50) false; SNode 73 (Place 1777 51) (Place 1800 51) true; SNode 74 (Place 1784 51) (Place 1800 51) false; SNode 75 (Place 1785 51) (Place 1800 51) false; SNode 76 (Place 1785 51) (Place 1798 51) false; SNode 77 (Place 1853 52) (Place 1901 53) true; SNode 78 (Place 1858 52) (Place 1862 52) false; SNode 79 (Place 1866 53) (Place 1901 53) true; SNode 80 (Place 1873 53) (Place 1901 53) false; SNode 81 (Place 1874 53) (Place 1901 53) false; SNode 82 (Place 1874 53) (Place 1884 53) false; SNode 83 (Place 1885 53) (Place 1900 53) false; SNode 84 (Place 1903 54) (Place 1976 55) true; SNode 85 (Place 1908 54) (Place 1912 54) false; SNode 86 (Place 1916 55) (Place 1976 55) true; SNode 87 (Place 1923 55) (Place 1976 55) false; SNode 88 (Place 1924 55) (Place 1976 55) false; SNode 89 (Place 1924 55) (Place 1935 55) false; SNode 90 (Place 1936 55) (Place 1951 55) false; SNode 91 (Place 1953 55) (Place 1965 55) false; SNode 92 (Place 1967 55) (Place 1975 55) false; SNode 93 (Place 1978 56) (Place 2058 57) true; SNode 94 (Place 1983 56) (Place 1987 56) false; SNode 95 (Place 1991 57) (Place 2058 57) true; SNode 96 (Place 1998 57) (Place 2058 57) false; SNode 97 (Place 1999 57) (Place 2058 57) false; SNode 98 (Place 1999 57) (Place 2010 57) false; SNode 99 (Place 2011 57) (Place 2022 57) false; SNode 100 (Place 2024 57) (Place 2039 57) false; SNode 101 (Place 2041 57) (Place 2057 57) false; SNode 102 (Place 2060 58) (Place 2108 59) true; SNode 103 (Place 2065 58) (Place 2069 58) false; SNode 104 (Place 2073 59) (Place 2108 59) true; SNode 105 (Place 2080 59) (Place 2108 59) false; SNode 106 (Place 2081 59) (Place 2108 59) false; SNode 107 (Place 2081 59) (Place 2091 59) false; SNode 108 (Place 2092 59) (Place 2107 59) false; SNode 109 (Place 2199 60) (Place 2254 61) true; SNode 110 (Place 2204 60) (Place 2208 60) false; SNode 111 (Place 2212 61) (Place 2254 61) true; SNode 112 (Place 2219 61) (Place 2254 61) false; SNode 113 (Place 2220 61) (Place 2254 61) false; SNode 114 (Place 2220 61) (Place 2230 61) false; SNode 115 (Place 2231 61) (Place 2253 61) false; SNode 116 (Place 2231 61) (Place 2236 61) false; SNode 117 (Place 2238 61) (Place 2253 61) false; SNode 118 (Place 2293 62) (Place 2388 63) true; SNode 119 (Place 2298 62) (Place 2302 62) false; SNode 120 (Place 2306 63) (Place 2388 63) true; SNode 121 (Place 2313 63) (Place 2388 63) false; SNode 122 (Place 2314 63) (Place 2388 63) false; SNode 123 (Place 2314 63) (Place 2325 63) false; SNode 124 (Place 2326 63) (Place 2345 63) false; SNode 125 (Place 2326 63) (Place 2332 63) false; SNode 126 (Place 2334 63) (Place 2345 63) false; SNode 127 (Place 2347 63) (Place 2362 63) false; SNode 128 (Place 2347 63) (Place 2353 63) false; SNode 129 (Place 2355 63) (Place 2362 63) false; SNode 130 (Place 2364 63) (Place 2387 63) false; SNode 131 (Place 2364 63) (Place 2370 63) false; SNode 132 (Place 2372 63) (Place 2387 63) false; SNode 133 (Place 2434 64) (Place 2479 65) true; SNode 134 (Place 2439 64) (Place 2443 64) false; SNode 135 (Place 2447 65) (Place 2479 65) true; SNode 136 (Place 2454 65) (Place 2479 65) false; SNode 137 (Place 2455 65) (Place 2479 65) false; SNode 138 (Place 2455 65) (Place 2465 65) false; SNode 139 (Place 2466 65) (Place 2478 65) false; SNode 140 (Place 2551 66) (Place 2584 67) true; SNode 141 (Place 2556 66) (Place 2560 66) false; SNode 142 (Place 2564 67) (Place 2584 67) true; SNode 143 (Place 2571 67) (Place 2584 67) false; SNode 144 (Place 2572 67) (Place 2584 67) false; SNode 145 (Place 2572 67) (Place 2582 67) false; SNode 146 (Place 2586 68) (Place 2639 69) true; SNode 147 (Place 2591 68) (Place 2595 68) false; SNode 148 (Place 2599 69) (Place 2639 69) true; SNode 149 (Place 2606 69) (Place 2639 69) false; SNode 150 (Place 2607 69) (Place 2639 69) false; SNode 151 (Place 2607 69) (Place 2618 69) false; SNode 152 (Place 2619 69) (Place 2638 69) false; SNode 153 (Place 2619 69) (Place 2625 69) false; SNode 154 (Place 2627 69) (Place 2638 69) false; SNode 155 (Place 2641 70) (Place 2676 71) true; SNode 156 (Place 2646 70) (Place 2650 70) false; SNode 157 (Place 2654 71) (Place 2676 71) true; SNode 158 (Place 2661 71) (Place 2676 71) false; SNode 159 (Place 2662 71) (Place 2676 71) false; SNode 160 (Place 2662 71) (Place 2672 71) false; SNode 161 (Place 2673 71) (Place 2675 71) false; SNode 162 (Place 2678 72) (Place 2743 73) true; SNode 163 (Place 2683 72) (Place 2687 72) false; SNode 164 (Place 2691 73) (Place 2743 73) true; SNode 165 (Place 2698 73) (Place 2743 73) false; SNode 166 (Place 2699 73) (Place 2743 73) false; SNode 167 (Place 2699 73) (Place 2710 73) false; SNode 168 (Place 2711 73) (Place 2730 73) false; SNode 169 (Place 2711 73) (Place 2717 73) false; SNode 170 (Place 2719 73) (Place 2730 73) false; SNode 171 (Place 2732 73) (Place 2742 73) false; SNode 172 (Place 2732 73) (Place 2738 73) false; SNode 173 (Place 2740 73) (Place 2742 73) false; SNode 174 (Place 2745 74) (Place 2790 75) true; SNode 175 (Place 2750 74) (Place 2754 74) false; SNode 176 (Place 2758 75) (Place 2790 75) true; SNode 177 (Place 2765 75) (Place 2790 75) false; SNode 178 (Place 2766 75) (Place 2790 75) false; SNode 179 (Place 2766 75) (Place 2776 75) false; SNode 180 (Place 2777 75) (Place 2789 75) false; SNode 181 (Place 2849 76) (Place 2944 77) true; SNode 182 (Place 2854 76) (Place 2858 76) false; SNode 183 (Place 2862 77) (Place 2944 77) true; SNode 184 (Place 2869 77) (Place 2944 77) false; SNode 185 (Place 2870 77) (Place 2944 77) false; SNode 186 (Place 2870 77) (Place 2888 77) false; SNode 187 (Place 2889 77) (Place 2914 77) false; SNode 188 (Place 2889 77) (Place 2900 77) false; SNode 189 (Place 2901 77) (Place 2906 77) false; SNode 190 (Place 2908 77) (Place 2913 77) false; SNode 191 (Place 2916 77) (Place 2923 77) false; SNode 192 (Place 2925 77) (Place 2943 77) false; SNode 193 (Place 2946 78) (Place 3013 79) true; SNode 194 (Place 2951 78) (Place 2955 78) false; SNode 195 (Place 2959 79) (Place 3013 79) true; SNode 196 (Place 2966 79) (Place 3013 79) false; SNode 197 (Place 2967 79) (Place 3013 79) false; SNode 198 (Place 2967 79) (Place 2986 79) false; SNode 199 (Place 2987 79) (Place 3012 79) false; SNode 200 (Place 2987 79) (Place 2992 79) false; SNode 201 (Place 2994 79) (Place 3012 79) false; SNode 202 (Place 3015 80) (Place 3093 81) true; SNode 203 (Place 3020 80) (Place 3024 80) false; SNode 204 (Place 3028 81) (Place 3093 81) true; SNode 205 (Place 3035 81) (Place 3093 81) false; SNode 206 (Place 3036 81) (Place 3093 81) false; SNode 207 (Place 3036 81) (Place 3055 81) false; SNode 208 (Place 3056 81) (Place 3059 81) false; SNode 209 (Place 3061 81) (Place 3079 81) false; SNode 210 (Place 3081 81) (Place 3092 81) false; SNode 211 (Place 3095 82) (Place 3164 83) true; SNode 212 (Place 3100 82) (Place 3104 82) false; SNode 213 (Place 3108 83) (Place 3164 83) true; SNode 214 (Place 3115 83) (Place 3164 83) false; SNode 215 (Place 3116 83) (Place 3164 83) false; SNode 216 (Place 3116 83) (Place 3141 83) false; SNode 217 (Place 3142 83) (Place 3163 83) false; SNode 218 (Place 3142 83) (Place 3153 83) false; SNode 219 (Place 3154 83) (Place 3157 83) false; SNode 220 (Place 3159 83) (Place 3162 83) false; SNode 221 (Place 3272 84) (Place 3326 85) true; SNode 222 (Place 3277 84) (Place 3281 84) false; SNode 223 (Place 3285 85) (Place 3326 85) true; SNode 224 (Place 3292 85) (Place 3326 85) false; SNode 225 (Place 3293 85) (Place 3326 85) false; SNode 226 (Place 3293 85) (Place 3306 85) false; SNode 227 (Place 3307 85) (Place 3325 85) false; SNode 228 (Place 3328 86) (Place 3383 87) true; SNode 229 (Place 3333 86) (Place 3337 86) false; SNode 230 (Place 3341 87) (Place 3383 87) true; SNode 231 (Place 3348 87) (Place 3383 87) false; SNode 232 (Place 3348 87) (Place 3364 87) false; SNode 233 (Place 3365 87) (Place 3382 87) false; SNode 234 (Place 3385 88) (Place 3441 89) true; SNode 235 (Place 3390 88) (Place 3394 88) false; SNode 236 (Place 3398 89) (Place 3441 89) true; SNode 237 (Place 3405 89) (Place 3441 89) false; SNode 238 (Place 3405 89) (Place 3423 89) false; SNode 239 (Place 3424 89) (Place 3440 89) false; SNode 240 (Place 3552 91) (Place 3562 91) true; SNode 241 (Place 3559 91) (Place 3562 91) false; SNode 242 (Place 3566 94) (Place 3593 94) true; SNode 243 (Place 3571 94) (Place 3593 94) true; SNode 244 (Place 3571 94) (Place 3584 94) false; SNode 245 (Place 3585 94) (Place 3593 94) false; SNode 246 (Place 3591 94) (Place 3593 94) false; SNode 247 (Place 3660 96) (Place 3722 96) true; SNode 248 (Place 3665 96) (Place 3683 96) false; SNode 249 (Place 3666 96) (Place 3682 96) true; SNode 250 (Place 3666 96) (Place 3667 96) false; SNode 251 (Place 3668 96) (Place 3682 96) false; SNode 252 (Place 3669 96) (Place 3682 96) false; SNode 253 (Place 3684 96) (Place 3688 96) false; SNode 254 (Place 3660 96) (Place 3697 96) false; SNode 255 (Place 3688 96) (Place 3690 96) false; SNode 256 (Place 3691 96) (Place 3697 96) false; SNode 257 (Place 3691 96) (Place 3697 96) true; SNode 258 (Place 3691 96) (Place 3697 96) false; SNode 259 (Place 3699 96) (Place 3722 96) true; SNode 260 (Place 3701 96) (Place 3720 96) true; SNode 261 (Place 3708 96) (Place 3720 96) false; SNode 262 (Place 3723 97) (Place 3788 97) true; SNode 263 (Place 3728 97) (Place 3746 97) false; SNode 264 (Place 3729 97) (Place 3745 97) true; SNode 265 (Place 3729 97) (Place 3730 97) false; SNode 266 (Place 3731 97) (Place 3745 97) false; SNode 267 (Place 3732 97) (Place 3745 97) false; SNode 268 (Place 3747 97) (Place 3752 97) false; SNode 269 (Place 3723 97) (Place 3761 97) false; SNode 270 (Place 3752 97) (Place 3754 97) false; SNode 271 (Place 3755 97) (Place 3761 97) false; SNode 272 (Place 3755 97) (Place 3761 97) true; SNode 273 (Place 3755 97) (Place 3761 97) false; SNode 274 (Place 3762 97) (Place 3788 97) true; SNode 275 (Place 3764 97) (Place 3786 97) true; SNode 276 (Place 3771 97) (Place 3786 97) false; SNode 277 (Place 3790 99) (Place 3818 99) true; SNode 278 (Place 3795 99) (Place 3818 99) true; SNode 279 (Place 3795 99) (Place 3809 99) false; SNode 280 (Place 3810 99) (Place 3818 99) false; SNode 281 (Place 3816 99) (Place 3818 99) false; SNode 282 (Place 3888 101) (Place 3958 101) true; SNode 283 (Place 3893 101) (Place 3912 101) false; SNode 284 (Place 3894 101) (Place 3911 101) true; SNode 285 (Place 3894 101) (Place 3895 101) false; SNode 286 (Place 3896 101) (Place 3911 101) false; SNode 287 (Place 3897 101) (Place 3911 101) false; SNode 288 (Place 3913 101) (Place 3917 101) false; SNode 289 (Place 3888 101) (Place 3926 101) false; SNode 290 (Place 3917 101) (Place 3919 101) false; SNode 291 (Place 3920 101) (Place 3926 101) false; SNode 292 (Place 3920 101) (Place 3926 101) true; SNode 293 (Place 3920 101) (Place 3926 101) false; SNode 294 (Place 3928 101) (Place 3958 101) true; SNode 295 (Place 3930 101) (Place 3956 101) true; SNode 296 (Place 3937 101) (Place 3956 101) false; SNode 297 (Place 3937 101) (Place 3945 101) false; SNode 298 (Place 3948 101) (Place 3956 101) false; SNode 299 (Place 3959 102) (Place 4026 102) true; SNode 300 (Place 3964 102) (Place 3983 102) false; SNode 301 (Place 3965 102) (Place 3982 102) true; SNode 302 (Place 3965 102) (Place 3966 102) false; SNode 303 (Place 3967 102) (Place 3982 102) false; SNode 304 (Place 3968 102) (Place 3982 102) false; SNode 305 (Place 3984 102) (Place 3989 102) false; SNode 306 (Place 3959 102) (Place 3998 102) false; SNode 307 (Place 3989 102) (Place 3991 102) false; SNode 308 (Place 3992 102) (Place 3998 102) false; SNode 309 (Place 3992 102) (Place 3998 102) true; SNode 310 (Place 3992 102) (Place 3998 102) false; SNode 311 (Place 3999 102) (Place 4026 102) true; SNode 312 (Place 4001 102) (Place 4024 102) true; SNode 313 (Place 4008 102) (Place 4024 102) false; SNode 314 (Place 4028 104) (Place 4074 104) true; SNode 315 (Place 4034 104) (Place 4074 104) true; SNode 316 (Place 4034 104) (Place 4052 104) false; SNode 317 (Place 4055 104) (Place 4074 104) false; SNode 318 (Place 4055 104) (Place 4063 104) false; SNode 319 (Place 4066 104) (Place 4074 104) false; SNode 320 (Place 4076 106) (Place 4104 106) true; SNode 321 (Place 4081 106) (Place 4104 106) true; SNode 322 (Place 4081 106) (Place 4095 106) false; SNode 323 (Place 4096 106) (Place 4104 106) false; SNode 324 (Place 4102 106) (Place 4104 106) false; SNode 325 (Place 4174 108) (Place 4243 108) true; SNode 326 (Place 4179 108) (Place 4198 108) false; SNode 327 (Place 4180 108) (Place 4197 108) true; SNode 328 (Place 4180 108) (Place 4181 108) false; SNode 329 (Place 4182 108) (Place 4197 108) false; SNode 330 (Place 4183 108) (Place 4197 108) false; SNode 331 (Place 4199 108) (Place 4203 108) false; SNode 332 (Place 4174 108) (Place 4212 108) false; SNode 333 (Place 4203 108) (Place 4205 108) false; SNode 334 (Place 4206 108) (Place 4212 108) false; SNode 335 (Place 4206 108) (Place 4212 108) true; SNode 336 (Place 4206 108) (Place 4212 108) false; SNode 337 (Place 4214 108) (Place 4243 108) true; SNode 338 (Place 4216 108) (Place 4241 108) true; SNode 339 (Place 4223 108) (Place 4241 108) false; SNode 340 (Place 4244 109) (Place 4311 109) true; SNode 341 (Place 4249 109) (Place 4268 109) false; SNode 342 (Place 4250 109) (Place 4267 109) true; SNode 343 (Place 4250 109) (Place 4251 109) false; SNode 344 (Place 4252 109) (Place 4267 109) false; SNode 345 (Place 4253 109) (Place 4267 109) false; SNode 346 (Place 4269 109) (Place 4274 109) false; SNode 347 (Place 4244 109) (Place 4283 109) false; SNode 348 (Place 4274 109) (Place 4276 109) false; SNode 349 (Place 4277 109) (Place 4283 109) false; SNode 350 (Place 4277 109) (Place 4283 109) true; SNode 351 (Place 4277 109) (Place 4283 109) false; SNode 352 (Place 4284 109) (Place 4311 109) true; SNode 353 (Place 4286 109) (Place 4309 109) true; SNode 354 (Place 4293 109) (Place 4309 109) false; SNode 355 (Place 4313 111) (Place 4341 111) true; SNode 356 (Place 4318 111) (Place 4341 111) true; SNode 357 (Place 4318 111) (Place 4332 111) false; SNode 358 (Place 4333 111) (Place 4341 111) false; SNode 359 (Place 4339 111) (Place 4341 111) false; SNode 360 (Place 4411 113) (Place 4474 113) true; SNode 361 (Place 4416 113) (Place 4433 113) false; SNode 362 (Place 4417 113) (Place 4432 113) true; SNode 363 (Place 4417 113) (Place 4432 113) false; SNode 364 (Place 4418 113) (Place 4432 113) false; SNode 365 (Place 4434 113) (Place 4438 113) false; SNode 366 (Place 4411 113) (Place 4447 113) false; SNode 367 (Place 4438 113) (Place 4440 113) false; SNode 368 (Place 4441 113) (Place 4447 113) false; SNode 369 (Place 4441 113) (Place 4447 113) true; SNode 370 (Place 4441 113) (Place 4447 113) false; SNode 371 (Place 4449 113) (Place 4474 113) true; SNode 372 (Place 4451 113) (Place 4472 113) true; SNode 373 (Place 4458 113) (Place 4472 113) false; SNode 374 (Place 4475 114) (Place 4540 114) true; SNode 375 (Place 4480 114) (Place 4497 114) false; SNode 376 (Place 4481 114) (Place 4496 114) true; SNode 377 (Place 4481 114) (Place 4496 114) false; SNode 378 (Place 4482 114) (Place 4496 114) false; SNode 379 (Place 4498 114) (Place 4503 114) false; SNode 380 (Place 4475 114) (Place 4512 114) false; SNode 381 (Place 4503 114) (Place 4505 114) false; SNode 382 (Place 4506 114) (Place 4512 114) false; SNode 383 (Place 4506 114) (Place 4512 114) true; SNode 384 (Place 4506 114) (Place 4512 114) false; SNode 385 (Place 4513 114) (Place 4540 114) true; SNode 386 (Place 4515 114) (Place 4538 114) true; SNode 387 (Place 4522 114) (Place 4538 114) false; SNode 388 (Place 4542 116) (Place 4577 116) true; SNode 389 (Place 4547 116) (Place 4577 116) true; SNode 390 (Place 4547 116) (Place 4568 116) false; SNode 391 (Place 4569 116) (Place 4577 116) false; SNode 392 (Place 4575 116) (Place 4577 116) false; SNode 393 (Place 4692 118) (Place 4872 127) true; SNode 394 (Place 4697 118) (Place 4723 118) false; SNode 395 (Place 4698 118) (Place 4722 118) true; SNode 396 (Place 4698 118) (Place 4699 118) false; SNode 397 (Place 4700 118) (Place 4722 118) false; SNode 398 (Place 4701 118) (Place 4722 118) false; SNode 399 (Place 4724 118) (Place 4728 118) false; SNode 400 (Place 4692 118) (Place 4737 118) false; SNode 401 (Place 4728 118) (Place 4730 118) false; SNode 402 (Place 4731 118) (Place 4737 118) false; SNode 403 (Place 4731 118) (Place 4737 118) true; SNode 404 (Place 4731 118) (Place 4737 118) false; SNode 405 (Place 4738 118) (Place 4872 127) true; SNode 406 (Place 4741 119) (Place 4870 126) true; SNode 407 (Place 4748 119) (Place 4870 126) true; SNode 408 (Place 4751 120) (Place 4789 121) true; SNode 409 (Place 4756 120) (Place 4760 120) false; SNode 410 (Place 4764 121) (Place 4789 121) true; SNode 411 (Place 4771 121) (Place 4789 121) false; SNode 412 (Place 4791 122) (Place 4829 123) true; SNode 413 (Place 4796 122) (Place 4800 122) false; SNode 414 (Place 4804 123) (Place 4829 123) true; SNode 415 (Place 4811 123) (Place 4829 123) false; SNode 416 (Place 4831 124) (Place 4867 125) true; SNode 417 (Place 4842 125) (Place 4867 125) true; SNode 418 (Place 4849 125) (Place 4867 125) false; SNode 419 (Place 4873 128) (Place 4954 128) true; SNode 420 (Place 4878 128) (Place 4904 128) false; SNode 421 (Place 4879 128) (Place 4903 128) true; SNode 422 (Place 4879 128) (Place 4880 128) false; SNode 423 (Place 4881 128) (Place 4903 128) false; SNode 424 (Place 4882 128) (Place 4903 128) false; SNode 425 (Place 4905 128) (Place 4910 128) false; SNode 426 (Place 4873 128) (Place 4919 128) false; SNode 427 (Place 4910 128) (Place 4912 128) false; SNode 428 (Place 4913 128) (Place 4919 128) false; SNode 429 (Place 4913 128) (Place 4919 128) true; SNode 430 (Place 4913 128) (Place 4919 128) false; SNode 431 (Place 4920 128) (Place 4954 128) true; SNode 432 (Place 4922 128) (Place 4952 128) true; SNode 433 (Place 4929 128) (Place 4952 128) false; SNode 434 (Place 4956 130) (Place 4984 130) true; SNode 435 (Place 4961 130) (Place 4984 130) true; SNode 436 (Place 4961 130) (Place 4975 130) false; SNode 437 (Place 4976 130) (Place 4984 130) false; SNode 438 (Place 4982 130) (Place 4984 130) false; SNode 439 (Place 5055 132) (Place 5120 132) true; SNode 440 (Place 5060 132) (Place 5078 132) false; SNode 441 (Place 5061 132) (Place 5077 132) true; SNode 442 (Place 5061 132) (Place 5062 132) false; SNode 443 (Place 5063 132) (Place 5077 132) false; SNode 444 (Place 5079 132) (Place 5083 132) false; SNode 445 (Place 5055 132) (Place 5092 132) false; SNode 446 (Place 5083 132) (Place 5085 132) false; SNode 447 (Place 5086 132) (Place 5092 132) false; SNode 448 (Place 5086 132) (Place 5092 132) true; SNode 449 (Place 5086 132) (Place 5092 132) false; SNode 450 (Place 5094 132) (Place 5120 132) true; SNode 451 (Place 5096 132) (Place 5118 132) true; SNode 452 (Place 5103 132) (Place 5118 132) false; SNode 453 (Place 5121 133) (Place 5187 133) true; SNode 454 (Place 5126 133) (Place 5144 133) false; SNode 455 (Place 5127 133) (Place 5143 133) true; SNode 456 (Place 5127 133) (Place 5128 133) false; SNode 457 (Place 5129 133) (Place 5143 133) false; SNode 458 (Place 5145 133) (Place 5150 133) false; SNode 459 (Place 5121 133) (Place 5159 133) false; SNode 460 (Place 5150 133) (Place 5152 133) false; SNode 461 (Place 5153 133) (Place 5159 133) false; SNode 462 (Place 5153 133) (Place 5159 133) true; SNode 463 (Place 5153 133) (Place 5159 133) false; SNode 464 (Place 5160 133) (Place 5187 133) true; SNode 465 (Place 5162 133) (Place 5185 133) true; SNode 466 (Place 5169 133) (Place 5185 133) false; SNode 467 (Place 5189 135) (Place 5218 135) true; SNode 468 (Place 5194 135) (Place 5218 135) true; SNode 469 (Place 5194 135) (Place 5209 135) false; SNode 470 (Place 5210 135) (Place 5218 135) false; SNode 471 (Place 5216 135) (Place 5218 135) false; SNode 472 (Place 5290 137) (Place 5356 137) true; SNode 473 (Place 5295 137) (Place 5314 137) false; SNode 474 (Place 5296 137) (Place 5313 137) true; SNode 475 (Place 5296 137) (Place 5297 137) false; SNode 476 (Place 5298 137) (Place 5313 137) false; SNode 477 (Place 5315 137) (Place 5319 137) false; SNode 478 (Place 5290 137) (Place 5328 137) false; SNode 479 (Place 5319 137) (Place 5321 137) false; SNode 480 (Place 5322 137) (Place 5328 137) false; SNode 481 (Place 5322 137) (Place 5328 137) true; SNode 482 (Place 5322 137) (Place 5328 137) false; SNode 483 (Place 5330 137) (Place 5356 137) true; SNode 484 (Place 5332 137) (Place 5354 137) true; SNode 485 (Place 5339 137) (Place 5354 137) false; SNode 486 (Place 5357 138) (Place 5425 138) true; SNode 487 (Place 5362 138) (Place 5381 138) false; SNode 488 (Place 5363 138) (Place 5380 138) true; SNode 489 (Place 5363 138) (Place 5364 138) false; SNode 490 (Place 5365 138) (Place 5380 138) false; SNode 491 (Place 5382 138) (Place 5387 138) false; SNode 492 (Place 5357 138) (Place 5396 138) false; SNode 493 (Place 5387 138) (Place 5389 138) false; SNode 494 (Place 5390 138) (Place 5396 138) false; SNode 495 (Place 5390 138) (Place 5396 138) true; SNode 496 (Place 5390 138) (Place 5396 138) false; SNode 497 (Place 5397 138) (Place 5425 138) true; SNode 498 (Place 5399 138) (Place 5423 138) true; SNode 499 (Place 5406 138) (Place 5423 138) false; SNode 500 (Place 5427 140) (Place 5453 140) true; SNode 501 (Place 5432 140) (Place 5453 140) true; SNode 502 (Place 5432 140) (Place 5444 140) false; SNode 503 (Place 5445 140) (Place 5453 140) false; SNode 504 (Place 5451 140) (Place 5453 140) false; SNode 505 (Place 5542 142) (Place 5606 142) true; SNode 506 (Place 5547 142) (Place 5564 142) false; SNode 507 (Place 5548 142) (Place 5563 142) true; SNode 508 (Place 5548 142) (Place 5549 142) false; SNode 509 (Place 5550 142) (Place 5563 142) false; SNode 510 (Place 5551 142) (Place 5563 142) false; SNode 511 (Place 5565 142) (Place 5569 142) false; SNode 512 (Place 5542 142) (Place 5578 142) false; SNode 513 (Place 5569 142) (Place 5571 142) false; SNode 514 (Place 5572 142) (Place 5578 142) false; SNode 515 (Place 5572 142) (Place 5578 142) true; SNode 516 (Place 5572 142) (Place 5578 142) false; SNode 517 (Place 5580 142) (Place 5606 142) true; SNode 518 (Place 5582 142) (Place 5604 142) true; SNode 519 (Place 5589 142) (Place 5604 142) false; SNode 520 (Place 5664 143) (Place 5727 143) true; SNode 521 (Place 5669 143) (Place 5686 143) false; SNode 522 (Place 5670 143) (Place 5685 143) true; SNode 523 (Place 5670 143) (Place 5671 143) false; SNode 524 (Place 5672 143) (Place 5685 143) false; SNode 525 (Place 5673 143) (Place 5685 143) false; SNode 526 (Place 5687 143) (Place 5692 143) false; SNode 527 (Place 5664 143) (Place 5701 143) false; SNode 528 (Place 5692 143) (Place 5694 143) false; SNode 529 (Place 5695 143) (Place 5701 143) false; SNode 530 (Place 5695 143) (Place 5701 143) true; SNode 531 (Place 5695 143) (Place 5701 143) false; SNode 532 (Place 5702 143) (Place 5727 143) true; SNode 533 (Place 5704 143) (Place 5725 143) true; SNode 534 (Place 5711 143) (Place 5725 143) false; SNode 535 (Place 5729 145) (Place 5779 145) true; SNode 536 (Place 5734 145) (Place 5779 145) true; SNode 537 (Place 5734 145) (Place 5747 145) false; SNode 538 (Place 5748 145) (Place 5779 145) false; SNode 539 (Place 5754 145) (Place 5779 145) false; SNode 540 (Place 5756 145) (Place 5777 145) true; SNode 541 (Place 5756 145) (Place 5762 145) false; SNode 542 (Place 5764 145) (Place 5770 145) false; SNode 543 (Place 5771 145) (Place 5777 145) false; SNode 544 (Place 5869 147) (Place 5938 147) true; SNode 545 (Place 5874 147) (Place 5892 147) false; SNode 546 (Place 5875 147) (Place 5891 147) true; SNode 547 (Place 5875 147) (Place 5876 147) false; SNode 548 (Place 5877 147) (Place 5891 147) false; SNode 549 (Place 5878 147) (Place 5891 147) false; SNode 550 (Place 5893 147) (Place 5897 147) false; SNode 551 (Place 5869 147) (Place 5906 147) false; SNode 552 (Place 5897 147) (Place 5899 147) false; SNode 553 (Place 5900 147) (Place 5906 147) false; SNode 554 (Place 5900 147) (Place 5906 147) true; SNode 555 (Place 5900 147) (Place 5906 147) false; SNode 556 (Place 5908 147) (Place 5938 147) true; SNode 557 (Place 5910 147) (Place 5936 147) true; SNode 558 (Place 5917 147) (Place 5936 147) false; SNode 559 (Place 5917 147) (Place 5925 147) false; SNode 560 (Place 5917 147) (Place 5918 147) false; SNode 561 (Place 5919 147) (Place 5925 147) false; SNode 562 (Place 5928 147) (Place 5936 147) false; SNode 563 (Place 5928 147) (Place 5929 147) false; SNode 564 (Place 5930 147) (Place 5936 147) false; SNode 565 (Place 6022 148) (Place 6087 148) true; SNode 566 (Place 6027 148) (Place 6045 148) false; SNode 567 (Place 6028 148) (Place 6044 148) true; SNode 568 (Place 6028 148) (Place 6029 148) false; SNode 569 (Place 6030 148) (Place 6044 148) false; SNode 570 (Place 6031 148) (Place 6044 148) false; SNode 571 (Place 6046 148) (Place 6051 148) false; SNode 572 (Place 6022 148) (Place 6060 148) false; SNode 573 (Place 6051 148) (Place 6053 148) false; SNode 574 (Place 6054 148) (Place 6060 148) false; SNode 575 (Place 6054 148) (Place 6060 148) true; SNode 576 (Place 6054 148) (Place 6060 148) false; SNode 577 (Place 6061 148) (Place 6087 148) true; SNode 578 (Place 6063 148) (Place 6085 148) true; SNode 579 (Place 6070 148) (Place 6085 148) false; SNode 580 (Place 6089 150) (Place 6116 150) true; SNode 581 (Place 6094 150) (Place 6116 150) true; SNode 582 (Place 6094 150) (Place 6107 150) false; SNode 583 (Place 6108 150) (Place 6116 150) false; SNode 584 (Place 6114 150) (Place 6116 150) false; SNode 585 (Place 6118 152) (Place 6183 152) true; SNode 586 (Place 6123 152) (Place 6141 152) false; SNode 587 (Place 6124 152) (Place 6140 152) true; SNode 588 (Place 6124 152) (Place 6125 152) false; SNode 589 (Place 6126 152) (Place 6140 152) false; SNode 590 (Place 6127 152) (Place 6140 152) false; SNode 591 (Place 6142 152) (Place 6147 152) false; SNode 592 (Place 6118 152) (Place 6156 152) false; SNode 593 (Place 6147 152) (Place 6149 152) false; SNode 594 (Place 6150 152) (Place 6156 152) false; SNode 595 (Place 6150 152) (Place 6156 152) true; SNode 596 (Place 6150 152) (Place 6156 152) false; SNode 597 (Place 6157 152) (Place 6183 152) true; SNode 598 (Place 6159 152) (Place 6181 152) true; SNode 599 (Place 6166 152) (Place 6181 152) false; SNode 600 (Place 6185 154) (Place 6223 154) true; SNode 601 (Place 6190 154) (Place 6223 154) true; SNode 602 (Place 6190 154) (Place 6200 154) false; SNode 603 (Place 6201 154) (Place 6223 154) false; SNode 604 (Place 6207 154) (Place 6223 154) false; SNode 605 (Place 6209 154) (Place 6221 154) true; SNode 606 (Place 6209 154) (Place 6214 154) false; SNode 607 (Place 6215 154) (Place 6221 154) false; SNode 608 (Place 6298 156) (Place 6352 156) true; SNode 609 (Place 6303 156) (Place 6318 156) false; SNode 610 (Place 6304 156) (Place 6317 156) true; SNode 611 (Place 6304 156) (Place 6305 156) false; SNode 612 (Place 6306 156) (Place 6317 156) false; SNode 613 (Place 6307 156) (Place 6317 156) false; SNode 614 (Place 6319 156) (Place 6323 156) false; SNode 615 (Place 6298 156) (Place 6332 156) false; SNode 616 (Place 6323 156) (Place 6325 156) false; SNode 617 (Place 6326 156) (Place 6332 156) false; SNode 618 (Place 6326 156) (Place 6332 156) true; SNode 619 (Place 6326 156) (Place 6332 156) false; SNode 620 (Place 6334 156) (Place 6352 156) true; SNode 621 (Place 6336 156) (Place 6350 156) true; SNode 622 (Place 6343 156) (Place 6350 156) false; SNode 623 (Place 6343 156) (Place 6344 156) false; SNode 624 (Place 6345 156) (Place 6350 156) false; SNode 625 (Place 6353 157) (Place 6412 157) true; SNode 626 (Place 6358 157) (Place 6373 157) false; SNode 627 (Place 6359 157) (Place 6372 157) true; SNode 628 (Place 6359 157) (Place 6360 157) false; SNode 629 (Place 6361 157) (Place 6372 157) false; SNode 630 (Place 6362 157) (Place 6372 157) false; SNode 631 (Place 6374 157) (Place 6379 157) false; SNode 632 (Place 6353 157) (Place 6388 157) false; SNode 633 (Place 6379 157) (Place 6381 157) false; SNode 634 (Place 6382 157) (Place 6388 157) false; SNode 635 (Place 6382 157) (Place 6388 157) true; SNode 636 (Place 6382 157) (Place 6388 157) false; SNode 637 (Place 6389 157) (Place 6412 157) true; SNode 638 (Place 6391 157) (Place 6410 157) true; SNode 639 (Place 6398 157) (Place 6410 157) false; SNode 640 (Place 6414 159) (Place 6470 159) true; SNode 641 (Place 6419 159) (Place 6470 159) true; SNode 642 (Place 6419 159) (Place 6430 159) false; SNode 643 (Place 6431 159) (Place 6470 159) false; SNode 644 (Place 6437 159) (Place 6470 159) false; SNode 645 (Place 6439 159) (Place 6468 159) true; SNode 646 (Place 6439 159) (Place 6445 159) false; SNode 647 (Place 6447 159) (Place 6453 159) false; SNode 648 (Place 6455 159) (Place 6461 159) false; SNode 649 (Place 6462 159) (Place 6468 159) false; SNode 650 (Place 6547 161) (Place 6901 170) true; SNode 651 (Place 6552 161) (Place 6568 161) false; SNode 652 (Place 6553 161) (Place 6567 161) true; SNode 653 (Place 6553 161) (Place 6554 161) false; SNode 654 (Place 6555 161) (Place 6567 161) false; SNode 655 (Place 6556 161) (Place 6567 161) false; SNode 656 (Place 6569 161) (Place 6573 161) false; SNode 657 (Place 6547 161) (Place 6582 161) false; SNode 658 (Place 6573 161) (Place 6575 161) false; SNode 659 (Place 6576 161) (Place 6582 161) false; SNode 660 (Place 6576 161) (Place 6582 161) true; SNode 661 (Place 6576 161) (Place 6582 161) false; SNode 662 (Place 6583 161) (Place 6901 170) true; SNode 663 (Place 6586 162) (Place 6899 169) true; SNode 664 (Place 6593 162) (Place 6899 169) true; SNode 665 (Place 6596 163) (Place 6624 164) true; SNode 666 (Place 6601 163) (Place 6605 163) false; SNode 667 (Place 6609 164) (Place 6624 164) true; SNode 668 (Place 6616 164) (Place 6624 164) false; SNode 669 (Place 6616 164) (Place 6617 164) false; SNode 670 (Place 6618 164) (Place 6624 164) false; SNode 671 (Place 6626 165) (Place 6654 166) true; SNode 672 (Place 6631 165) (Place 6635 165) false; SNode 673 (Place 6639 166) (Place 6654 166) true; SNode 674 (Place 6646 166) (Place 6654 166) false; SNode 675 (Place 6646 166) (Place 6647 166) false; SNode 676 (Place 6648 166) (Place 6654 166) false; SNode 677 (Place 6763 167) (Place 6789 168) true; SNode 678 (Place 6774 168) (Place 6789 168) true; SNode 679 (Place 6781 168) (Place 6789 168) false; SNode 680 (Place 6781 168) (Place 6782 168) false; SNode 681 (Place 6783 168) (Place 6789 168) false; SNode 682 (Place 6902 171) (Place 6963 171) true; SNode 683 (Place 6907 171) (Place 6923 171) false; SNode 684 (Place 6908 171) (Place 6922 171) true; SNode 685 (Place 6908 171) (Place 6909 171) false; SNode 686 (Place 6910 171) (Place 6922 171) false; SNode 687 (Place 6911 171) (Place 6922 171) false; SNode 688 (Place 6924 171) (Place 6929 171) false; SNode 689 (Place 6902 171) (Place 6938 171) false; SNode 690 (Place 6929 171) (Place 6931 171) false; SNode 691 (Place 6932 171) (Place 6938 171) false; SNode 692 (Place 6932 171) (Place 6938 171) true; SNode 693 (Place 6932 171) (Place 6938 171) false; SNode 694 (Place 6939 171) (Place 6963 171) true; SNode 695 (Place 6941 171) (Place 6961 171) true; SNode 696 (Place 6948 171) (Place 6961 171) false; SNode 697 (Place 6965 173) (Place 7011 173) true; SNode 698 (Place 6970 173) (Place 7011 173) true; SNode 699 (Place 6970 173) (Place 6981 173) false; SNode 700 (Place 6982 173) (Place 7011 173) false; SNode 701 (Place 6988 173) (Place 7011 173) false; SNode 702 (Place 6990 173) (Place 7009 173) true; SNode 703 (Place 6990 173) (Place 6991 173) false; SNode 704 (Place 6993 173) (Place 6999 173) false; SNode 705 (Place 7001 173) (Place 7002 173) false; SNode 706 (Place 7003 173) (Place 7009 173) false; SNode 707 (Place 7088 175) (Place 7144 175) true; SNode 708 (Place 7093 175) (Place 7109 175) false; SNode 709 (Place 7094 175) (Place 7108 175) true; SNode 710 (Place 7094 175) (Place 7095 175) false; SNode 711 (Place 7096 175) (Place 7108 175) false; SNode 712 (Place 7097 175) (Place 7108 175) false; SNode 713 (Place 7110 175) (Place 7114 175) false; SNode 714 (Place 7088 175) (Place 7123 175) false; SNode 715 (Place 7114 175) (Place 7116 175) false; SNode 716 (Place 7117 175) (Place 7123 175) false; SNode 717 (Place 7117 175) (Place 7123 175) true; SNode 718 (Place 7117 175) (Place 7123 175) false; SNode 719 (Place 7125 175) (Place 7144 175) true; SNode 720 (Place 7127 175) (Place 7142 175) true; SNode 721 (Place 7134 175) (Place 7142 175) false; SNode 722 (Place 7134 175) (Place 7135 175) false; SNode 723 (Place 7136 175) (Place 7142 175) false; SNode 724 (Place 7145 176) (Place 7206 176) true; SNode 725 (Place 7150 176) (Place 7166 176) false; SNode 726 (Place 7151 176) (Place 7165 176) true; SNode 727 (Place 7151 176) (Place 7152 176) false; SNode 728 (Place 7153 176) (Place 7165 176) false; SNode 729 (Place 7154 176) (Place 7165 176) false; SNode 730 (Place 7167 176) (Place 7172 176) false; SNode 731 (Place 7145 176) (Place 7181 176) false; SNode 732 (Place 7172 176) (Place 7174 176) false; SNode 733 (Place 7175 176) (Place 7181 176) false; SNode 734 (Place 7175 176) (Place 7181 176) true; SNode 735 (Place 7175 176) (Place 7181 176) false; SNode 736 (Place 7182 176) (Place 7206 176) true; SNode 737 (Place 7184 176) (Place 7204 176) true; SNode 738 (Place 7191 176) (Place 7204 176) false; SNode 739 (Place 7208 178) (Place 7253 178) true; SNode 740 (Place 7213 178) (Place 7253 178) true; SNode 741 (Place 7213 178) (Place 7224 178) false; SNode 742 (Place 7225 178) (Place 7253 178) false; SNode 743 (Place 7231 178) (Place 7253 178) false; SNode 744 (Place 7233 178) (Place 7251 178) true; SNode 745 (Place 7233 178) (Place 7237 178) false; SNode 746 (Place 7239 178) (Place 7244 178) false; SNode 747 (Place 7245 178) (Place 7251 178) false; SNode 748 (Place 7254 179) (Place 7293 179) true; SNode 749 (Place 7259 179) (Place 7293 179) true; SNode 750 (Place 7259 179) (Place 7271 179) false; SNode 751 (Place 7272 179) (Place 7293 179) false; SNode 752 (Place 7278 179) (Place 7293 179) false; SNode 753 (Place 7280 179) (Place 7291 179) true; SNode 754 (Place 7280 179) (Place 7281 179) false; SNode 755 (Place 7283 179) (Place 7284 179) false; SNode 756 (Place 7286 179) (Place 7287 179) false; SNode 757 (Place 7288 179) (Place 7291 179) false; SNode 758 (Place 7294 180) (Place 7320 180) true; SNode 759 (Place 7299 180) (Place 7320 180) true; SNode 760 (Place 7299 180) (Place 7311 180) false; SNode 761 (Place 7312 180) (Place 7320 180) false; SNode 762 (Place 7318 180) (Place 7320 180) false; SNode 763 (Place 7322 182) (Place 7467 185) true; SNode 764 (Place 7327 182) (Place 7467 185) true; SNode 765 (Place 7327 182) (Place 7345 182) false; SNode 766 (Place 7346 182) (Place 7467 185) false; SNode 767 (Place 7353 182) (Place 7467 185) false; SNode 768 (Place 7437 183) (Place 7448 183) true; SNode 769 (Place 7437 183) (Place 7448 183) false; SNode 770 (Place 7450 184) (Place 7465 184) true; SNode 771 (Place 7450 184) (Place 7451 184) false; SNode 772 (Place 7453 184) (Place 7458 184) false; SNode 773 (Place 7459 184) (Place 7465 184) false; SNode 774 (Place 7469 187) (Place 7531 187) true; SNode 775 (Place 7474 187) (Place 7497 187) false; SNode 776 (Place 7475 187) (Place 7496 187) true; SNode 777 (Place 7475 187) (Place 7476 187) false; SNode 778 (Place 7477 187) (Place 7496 187) false; SNode 779 (Place 7478 187) (Place 7496 187) false; SNode 780 (Place 7498 187) (Place 7502 187) false; SNode 781 (Place 7469 187) (Place 7511 187) false; SNode 782 (Place 7502 187) (Place 7504 187) false; SNode 783 (Place 7505 187) (Place 7511 187) false; SNode 784 (Place 7505 187) (Place 7511 187) true; SNode 785 (Place 7505 187) (Place 7511 187) false; SNode 786 (Place 7513 187) (Place 7531 187) true; SNode 787 (Place 7515 187) (Place 7529 187) true; SNode 788 (Place 7522 187) (Place 7529 187) false; SNode 789 (Place 7522 187) (Place 7523 187) false; SNode 790 (Place 7524 187) (Place 7529 187) false; SNode 791 (Place 7532 188) (Place 7607 188) true; SNode 792 (Place 7537 188) (Place 7560 188) false; SNode 793 (Place 7538 188) (Place 7559 188) true; SNode 794 (Place 7538 188) (Place 7539 188) false; SNode 795 (Place 7540 188) (Place 7559 188) false; SNode 796 (Place 7541 188) (Place 7559 188) false; SNode 797 (Place 7561 188) (Place 7566 188) false; SNode 798 (Place 7532 188) (Place 7575 188) false; SNode 799 (Place 7566 188) (Place 7568 188) false; SNode 800 (Place 7569 188) (Place 7575 188) false; SNode 801 (Place 7569 188) (Place 7575 188) true; SNode 802 (Place 7569 188) (Place 7575 188) false; SNode 803 (Place 7576 188) (Place 7607 188) true; SNode 804 (Place 7578 188) (Place 7605 188) true; SNode 805 (Place 7585 188) (Place 7605 188) false; SNode 806 (Place 7609 190) (Place 7798 196) true; SNode 807 (Place 7614 190) (Place 7798 196) true; SNode 808 (Place 7614 190) (Place 7633 190) false; SNode 809 (Place 7634 190) (Place 7798 196) false; SNode 810 (Place 7641 190) (Place 7798 196) false; SNode 811 (Place 7726 191) (Place 7737 191) true; SNode 812 (Place 7726 191) (Place 7737 191) false; SNode 813 (Place 7739 192) (Place 7751 192) true; SNode 814 (Place 7739 192) (Place 7751 192) false; SNode 815 (Place 7753 193) (Place 7765 193) true; SNode 816 (Place 7753 193) (Place 7754 193) false; SNode 817 (Place 7762 193) (Place 7765 193) false; SNode 818 (Place 7767 194) (Place 7782 194) true; SNode 819 (Place 7767 194) (Place 7768 194) false; SNode 820 (Place 7770 194) (Place 7775 194) false; SNode 821 (Place 7776 194) (Place 7782 194) false; SNode 822 (Place 7784 195) (Place 7796 195) true; SNode 823 (Place 7784 195) (Place 7796 195) false; SNode 824 (Place 7800 198) (Place 7863 198) true; SNode 825 (Place 7805 198) (Place 7829 198) false; SNode 826 (Place 7806 198) (Place 7828 198) true; SNode 827 (Place 7806 198) (Place 7807 198) false; SNode 828 (Place 7808 198) (Place 7828 198) false; SNode 829 (Place 7809 198) (Place 7828 198) false; SNode 830 (Place 7830 198) (Place 7834 198) false; SNode 831 (Place 7800 198) (Place 7843 198) false; SNode 832 (Place 7834 198) (Place 7836 198) false; SNode 833 (Place 7837 198) (Place 7843 198) false; SNode 834 (Place 7837 198) (Place 7843 198) true; SNode 835 (Place 7837 198) (Place 7843 198) false; SNode 836 (Place 7845 198) (Place 7863 198) true; SNode 837 (Place 7847 198) (Place 7861 198) true; SNode 838 (Place 7854 198) (Place 7861 198) false; SNode 839 (Place 7854 198) (Place 7855 198) false; SNode 840 (Place 7856 198) (Place 7861 198) false; SNode 841 (Place 7864 199) (Place 7941 199) true; SNode 842 (Place 7869 199) (Place 7893 199) false; SNode 843 (Place 7870 199) (Place 7892 199) true; SNode 844 (Place 7870 199) (Place 7871 199) false; SNode 845 (Place 7872 199) (Place 7892 199) false; SNode 846 (Place 7873 199) (Place 7892 199) false; SNode 847 (Place 7894 199) (Place 7899 199) false; SNode 848 (Place 7864 199) (Place 7908 199) false; SNode 849 (Place 7899 199) (Place 7901 199) false; SNode 850 (Place 7902 199) (Place 7908 199) false; SNode 851 (Place 7902 199) (Place 7908 199) true; SNode 852 (Place 7902 199) (Place 7908 199) false; SNode 853 (Place 7909 199) (Place 7941 199) true; SNode 854 (Place 7911 199) (Place 7939 199) true; SNode 855 (Place 7918 199) (Place 7939 199) false; SNode 856 (Place 7943 201) (Place 8099 204) true; SNode 857 (Place 7948 201) (Place 8099 204) true; SNode 858 (Place 7948 201) (Place 7967 201) false; SNode 859 (Place 7968 201) (Place 8099 204) false; SNode 860 (Place 7975 201) (Place 8099 204) false; SNode 861 (Place 8064 202) (Place 8076 202) true; SNode 862 (Place 8064 202) (Place 8076 202) false; SNode 863 (Place 8065 202) (Place 8076 202) false; SNode 864 (Place 8078 203) (Place 8097 203) true; SNode 865 (Place 8078 203) (Place 8087 203) false; SNode 866 (Place 8089 203) (Place 8090 203) false; SNode 867 (Place 8091 203) (Place 8097 203) false; SNode 868 (Place 8101 206) (Place 8168 206) true; SNode 869 (Place 8106 206) (Place 8130 206) false; SNode 870 (Place 8107 206) (Place 8129 206) true; SNode 871 (Place 8107 206) (Place 8108 206) false; SNode 872 (Place 8109 206) (Place 8129 206) false; SNode 873 (Place 8110 206) (Place 8129 206) false; SNode 874 (Place 8131 206) (Place 8135 206) false; SNode 875 (Place 8101 206) (Place 8144 206) false; SNode 876 (Place 8135 206) (Place 8137 206) false; SNode 877 (Place 8138 206) (Place 8144 206) false; SNode 878 (Place 8138 206) (Place 8144 206) true; SNode 879 (Place 8138 206) (Place 8144 206) false; SNode 880 (Place 8146 206) (Place 8168 206) true; SNode 881 (Place 8148 206) (Place 8166 206) true; SNode 882 (Place 8155 206) (Place 8166 206) false; SNode 883 (Place 8155 206) (Place 8156 206) false; SNode 884 (Place 8157 206) (Place 8166 206) false; SNode 885 (Place 8169 207) (Place 8246 207) true; SNode 886 (Place 8174 207) (Place 8198 207) false; SNode 887 (Place 8175 207) (Place 8197 207) true; SNode 888 (Place 8175 207) (Place 8176 207) false; SNode 889 (Place 8177 207) (Place 8197 207) false; SNode 890 (Place 8178 207) (Place 8197 207) false; SNode 891 (Place 8199 207) (Place 8204 207) false; SNode 892 (Place 8169 207) (Place 8213 207) false; SNode 893 (Place 8204 207) (Place 8206 207) false; SNode 894 (Place 8207 207) (Place 8213 207) false; SNode 895 (Place 8207 207) (Place 8213 207) true; SNode 896 (Place 8207 207) (Place 8213 207) false; SNode 897 (Place 8214 207) (Place 8246 207) true; SNode 898 (Place 8216 207) (Place 8244 207) true; SNode 899 (Place 8223 207) (Place 8244 207) false; SNode 900 (Place 8248 209) (Place 8300 209) true; SNode 901 (Place 8253 209) (Place 8300 209) true; SNode 902 (Place 8253 209) (Place 8278 209) false; SNode 903 (Place 8279 209) (Place 8300 209) false; SNode 904 (Place 8285 209) (Place 8300 209) false; SNode 905 (Place 8287 209) (Place 8298 209) true; SNode 906 (Place 8287 209) (Place 8298 209) false; SNode 907 (Place 8402 211) (Place 8470 211) true; SNode 908 (Place 8407 211) (Place 8437 211) false; SNode 909 (Place 8408 211) (Place 8436 211) true; SNode 910 (Place 8408 211) (Place 8409 211) false; SNode 911 (Place 8410 211) (Place 8436 211) false; SNode 912 (Place 8411 211) (Place 8436 211) false; SNode 913 (Place 8438 211) (Place 8442 211) false; SNode 914 (Place 8402 211) (Place 8451 211) false; SNode 915 (Place 8442 211) (Place 8444 211) false; SNode 916 (Place 8445 211) (Place 8451 211) false; SNode 917 (Place 8445 211) (Place 8451 211) true; SNode 918 (Place 8445 211) (Place 8451 211) false; SNode 919 (Place 8453 211) (Place 8470 211) true; SNode 920 (Place 8455 211) (Place 8468 211) true; SNode 921 (Place 8462 211) (Place 8468 211) false; SNode 922 (Place 8462 211) (Place 8463 211) false; SNode 923 (Place 8464 211) (Place 8468 211) false; SNode 924 (Place 8617 212) (Place 8706 212) true; SNode 925 (Place 8622 212) (Place 8652 212) false; SNode 926 (Place 8623 212) (Place 8651 212) true; SNode 927 (Place 8623 212) (Place 8624 212) false; SNode 928 (Place 8625 212) (Place 8651 212) false; SNode 929 (Place 8626 212) (Place 8651 212) false; SNode 930 (Place 8653 212) (Place 8658 212) false; SNode 931 (Place 8617 212) (Place 8667 212) false; SNode 932 (Place 8658 212) (Place 8660 212) false; SNode 933 (Place 8661 212) (Place 8667 212) false; SNode 934 (Place 8661 212) (Place 8667 212) true; SNode 935 (Place 8661 212) (Place 8667 212) false; SNode 936 (Place 8668 212) (Place 8706 212) true; SNode 937 (Place 8670 212) (Place 8704 212) true; SNode 938 (Place 8677 212) (Place 8704 212) false; SNode 939 (Place 8708 214) (Place 8749 214) true; SNode 940 (Place 8713 214) (Place 8749 214) true; SNode 941 (Place 8713 214) (Place 8726 214) false; SNode 942 (Place 8727 214) (Place 8749 214) false; SNode 943 (Place 8733 214) (Place 8749 214) false; SNode 944 (Place 8735 214) (Place 8747 214) true; SNode 945 (Place 8735 214) (Place 8740 214) false; SNode 946 (Place 8741 214) (Place 8747 214) false; SNode 947 (Place 8860 216) (Place 9010 224) true; SNode 948 (Place 8865 216) (Place 8883 216) false; SNode 949 (Place 8866 216) (Place 8882 216) true; SNode 950 (Place 8866 216) (Place 8867 216) false; SNode 951 (Place 8868 216) (Place 8882 216) false; SNode 952 (Place 8869 216) (Place 8882 216) false; SNode 953 (Place 8884 216) (Place 8888 216) false; SNode 954 (Place 8860 216) (Place 8897 216) false; SNode 955 (Place 8888 216) (Place 8890 216) false; SNode 956 (Place 8891 216) (Place 8897 216) false; SNode 957 (Place 8891 216) (Place 8897 216) true; SNode 958 (Place 8891 216) (Place 8897 216) false; SNode 959 (Place 8898 216) (Place 9010 224) true; SNode 960 (Place 8901 217) (Place 8981 222) true; SNode 961 (Place 8908 217) (Place 8981 222) true; SNode 962 (Place 8911 218) (Place 8938 219) true; SNode 963 (Place 8916 218) (Place 8920 218) false; SNode 964 (Place 8924 219) (Place 8938 219) true; SNode 965 (Place 8931 219) (Place 8938 219) false; SNode 966 (Place 8931 219) (Place 8932 219) false; SNode 967 (Place 8933 219) (Place 8938 219) false; SNode 968 (Place 8940 220) (Place 8978 221) true; SNode 969 (Place 8945 220) (Place 8949 220) false; SNode 970 (Place 8953 221) (Place 8978 221) true; SNode 971 (Place 8960 221) (Place 8978 221) false; SNode 972 (Place 8983 223) (Place 9008 223) true; SNode 973 (Place 8990 223) (Place 9008 223) false; SNode 974 (Place 9011 225) (Place 9076 225) true; SNode 975 (Place 9016 225) (Place 9034 225) false; SNode 976 (Place 9017 225) (Place 9033 225) true; SNode 977 (Place 9017 225) (Place 9018 225) false; SNode 978 (Place 9019 225) (Place 9033 225) false; SNode 979 (Place 9020 225) (Place 9033 225) false; SNode 980 (Place 9035 225) (Place 9040 225) false; SNode 981 (Place 9011 225) (Place 9049 225) false; SNode 982 (Place 9040 225) (Place 9042 225) false; SNode 983 (Place 9043 225) (Place 9049 225) false; SNode 984 (Place 9043 225) (Place 9049 225) true; SNode 985 (Place 9043 225) (Place 9049 225) false; SNode 986 (Place 9050 225) (Place 9076 225) true; SNode 987 (Place 9052 225) (Place 9074 225) true; SNode 988 (Place 9059 225) (Place 9074 225) false; SNode 989 (Place 9078 227) (Place 9106 227) true; SNode 990 (Place 9083 227) (Place 9106 227) true; SNode 991 (Place 9083 227) (Place 9099 227) false; SNode 992 (Place 9100 227) (Place 9106 227) false; SNode 993 (Place 9178 229) (Place 9244 229) true; SNode 994 (Place 9183 229) (Place 9203 229) false; SNode 995 (Place 9184 229) (Place 9202 229) true; SNode 996 (Place 9184 229) (Place 9185 229) false; SNode 997 (Place 9186 229) (Place 9202 229) false; SNode 998 (Place 9204 229) (Place 9208 229) false; SNode 999 (Place 9178 229) (Place 9217 229) false; SNode 1000 (Place 9208 229) (Place 9210 229) false; SNode 1001 (Place 9211 229) (Place 9217 229) false; SNode 1002 (Place 9211 229) (Place 9217 229) true; SNode 1003 (Place 9211 229) (Place 9217 229) false; SNode 1004 (Place 9219 229) (Place 9244 229) true; SNode 1005 (Place 9221 229) (Place 9242 229) true; SNode 1006 (Place 9228 229) (Place 9242 229) false; SNode 1007 (Place 9245 230) (Place 9315 230) true; SNode 1008 (Place 9250 230) (Place 9270 230) false; SNode 1009 (Place 9251 230) (Place 9269 230) true; SNode 1010 (Place 9251 230) (Place 9252 230) false; SNode 1011 (Place 9253 230) (Place 9269 230) false; SNode 1012 (Place 9271 230) (Place 9276 230) false; SNode 1013 (Place 9245 230) (Place 9285 230) false; SNode 1014 (Place 9276 230) (Place 9278 230) false; SNode 1015 (Place 9279 230) (Place 9285 230) false; SNode 1016 (Place 9279 230) (Place 9285 230) true; SNode 1017 (Place 9279 230) (Place 9285 230) false; SNode 1018 (Place 9286 230) (Place 9315 230) true; SNode 1019 (Place 9288 230) (Place 9313 230) true; SNode 1020 (Place 9295 230) (Place 9313 230) false; SNode 1021 (Place 9317 232) (Place 9347 232) true; SNode 1022 (Place 9322 232) (Place 9347 232) true; SNode 1023 (Place 9322 232) (Place 9340 232) false; SNode 1024 (Place 9341 232) (Place 9347 232) false; SNode 1025 (Place 9442 234) (Place 9505 234) true; SNode 1026 (Place 9447 234) (Place 9469 234) false; SNode 1027 (Place 9448 234) (Place 9468 234) true; SNode 1028 (Place 9448 234) (Place 9449 234) false; SNode 1029 (Place 9450 234) (Place 9468 234) false; SNode 1030 (Place 9470 234) (Place 9474 234) false; SNode 1031 (Place 9442 234) (Place 9483 234) false; SNode 1032 (Place 9474 234) (Place 9476 234) false; SNode 1033 (Place 9477 234) (Place 9483 234) false; SNode 1034 (Place 9477 234) (Place 9483 234) true; SNode 1035 (Place 9477 234) (Place 9483 234) false; SNode 1036 (Place 9485 234) (Place 9505 234) true; SNode 1037 (Place 9487 234) (Place 9503 234) true; SNode 1038 (Place 9494 234) (Place 9503 234) false; SNode 1039 (Place 9494 234) (Place 9500 234) false; SNode 1040 (Place 9501 234) (Place 9502 234) false; SNode 1041 (Place 9589 235) (Place 9663 235) true; SNode 1042 (Place 9594 235) (Place 9616 235) false; SNode 1043 (Place 9595 235) (Place 9615 235) true; SNode 1044 (Place 9595 235) (Place 9596 235) false; SNode 1045 (Place 9597 235) (Place 9615 235) false; SNode 1046 (Place 9617 235) (Place 9622 235) false; SNode 1047 (Place 9589 235) (Place 9631 235) false; SNode 1048 (Place 9622 235) (Place 9624 235) false; SNode 1049 (Place 9625 235) (Place 9631 235) false; SNode 1050 (Place 9625 235) (Place 9631 235) true; SNode 1051 (Place 9625 235) (Place 9631 235) false; SNode 1052 (Place 9632 235) (Place 9663 235) true; SNode 1053 (Place 9634 235) (Place 9661 235) true; SNode 1054 (Place 9641 235) (Place 9661 235) false; SNode 1055 (Place 9665 237) (Place 9863 240) true; SNode 1056 (Place 9670 237) (Place 9863 240) true; SNode 1057 (Place 9670 237) (Place 9685 237) false; SNode 1058 (Place 9686 237) (Place 9863 240) false; SNode 1059 (Place 9693 237) (Place 9863 240) false; SNode 1060 (Place 9823 238) (Place 9842 238) true; SNode 1061 (Place 9823 238) (Place 9827 238) false; SNode 1062 (Place 9836 238) (Place 9842 238) false; SNode 1063 (Place 9844 239) (Place 9861 239) true; SNode 1064 (Place 9844 239) (Place 9849 239) false; SNode 1065 (Place 9851 239) (Place 9856 239) false; SNode 1066 (Place 9857 239) (Place 9861 239) false; SNode 1067 (Place 9865 242) (Place 10086 250) true; SNode 1068 (Place 9870 242) (Place 9890 242) false; SNode 1069 (Place 9871 242) (Place 9889 242) true; SNode 1070 (Place 9871 242) (Place 9872 242) false; SNode 1071 (Place 9873 242) (Place 9889 242) false; SNode 1072 (Place 9874 242) (Place 9889 242) false; SNode 1073 (Place 9891 242) (Place 9895 242) false; SNode 1074 (Place 9865 242) (Place 9904 242) false; SNode 1075 (Place 9895 242) (Place 9897 242) false; SNode 1076 (Place 9898 242) (Place 9904 242) false; SNode 1077 (Place 9898 242) (Place 9904 242) true; SNode 1078 (Place 9898 242) (Place 9904 242) false; SNode 1079 (Place 9905 242) (Place 10086 250) true; SNode 1080 (Place 9908 243) (Place 9953 245) true; SNode 1081 (Place 9911 243) (Place 9918 243) false; SNode 1082 (Place 9911 243) (Place 9912 243) false; SNode 1083 (Place 9913 243) (Place 9918 243) false; SNode 1084 (Place 9919 243) (Place 9953 245) true; SNode 1085 (Place 9923 244) (Place 9950 244) true; SNode 1086 (Place 9923 244) (Place 9929 244) false; SNode 1087 (Place 9923 244) (Place 9924 244) false; SNode 1088 (Place 9925 244) (Place 9929 244) false; SNode 1089 (Place 9932 244) (Place 9950 244) false; SNode 1090 (Place 9955 246) (Place 10069 248) true; SNode 1091 (Place 9958 246) (Place 9965 246) false; SNode 1092 (Place 9958 246) (Place 9959 246) false; SNode 1093 (Place 9960 246) (Place 9965 246) false; SNode 1094 (Place 9966 246) (Place 10069 248) true; SNode 1095 (Place 9970 247) (Place 9996 247) true; SNode 1096 (Place 9970 247) (Place 9976 247) false; SNode 1097 (Place 9970 247) (Place 9971 247) false; SNode 1098 (Place 9972 247) (Place 9976 247) false; SNode 1099 (Place 9979 247) (Place 9996 247) false; SNode 1100 (Place 9979 247) (Place 9985 247) false; SNode 1101 (Place 9979 247) (Place 9980 247) false; SNode 1102 (Place 9981 247) (Place 9985 247) false; SNode 1103 (Place 9988 247) (Place 9996 247) false; SNode 1104 (Place 10071 249) (Place 10084 249) true; SNode 1105 (Place 10078 249) (Place 10084 249) false; SNode 1106 (Place 10078 249) (Place 10079 249) false; SNode 1107 (Place 10080 249) (Place 10084 249) false; SNode 1108 (Place 10088 252) (Place 10321 260) true; SNode 1109 (Place 10093 252) (Place 10113 252) false; SNode 1110 (Place 10094 252) (Place 10112 252) true; SNode 1111 (Place 10094 252) (Place 10095 252) false; SNode 1112 (Place 10096 252) (Place 10112 252) false; SNode 1113 (Place 10097 252) (Place 10112 252) false; SNode 1114 (Place 10114 252) (Place 10119 252) false; SNode 1115 (Place 10088 252) (Place 10128 252) false; SNode 1116 (Place 10119 252) (Place 10121 252) false; SNode 1117 (Place 10122 252) (Place 10128 252) false; SNode 1118 (Place 10122 252) (Place 10128 252) true; SNode 1119 (Place 10122 252) (Place 10128 252) false; SNode 1120 (Place 10129 252) (Place 10321 260) true; SNode 1121 (Place 10132 253) (Place 10177 255) true; SNode 1122 (Place 10135 253) (Place 10142 253) false; SNode 1123 (Place 10135 253) (Place 10136 253) false; SNode 1124 (Place 10137 253) (Place 10142 253) false; SNode 1125 (Place 10143 253) (Place 10177 255) true; SNode 1126 (Place 10147 254) (Place 10174 254) true; SNode 1127 (Place 10147 254) (Place 10153 254) false; SNode 1128 (Place 10147 254) (Place 10148 254) false; SNode 1129 (Place 10149 254) (Place 10153 254) false; SNode 1130 (Place 10156 254) (Place 10174 254) false; SNode 1131 (Place 10179 256) (Place 10293 258) true; SNode 1132 (Place 10182 256) (Place 10189 256) false; SNode 1133 (Place 10182 256) (Place 10183 256) false; SNode 1134 (Place 10184 256) (Place 10189 256) false; SNode 1135 (Place 10190 256) (Place 10293 258) true; SNode 1136 (Place 10194 257) (Place 10220 257) true; SNode 1137 (Place 10194 257) (Place 10200 257) false; SNode 1138 (Place 10194 257) (Place 10195 257) false; SNode 1139 (Place 10196 257) (Place 10200 257) false; SNode 1140 (Place 10203 257) (Place 10220 257) false; SNode 1141 (Place 10203 257) (Place 10209 257) false; SNode 1142 (Place 10203 257) (Place 10204 257) false; SNode 1143 (Place 10205 257) (Place 10209 257) false; SNode 1144 (Place 10212 257) (Place 10220 257) false; SNode 1145 (Place 10295 259) (Place 10319 259) true; SNode 1146 (Place 10302 259) (Place 10319 259) false; SNode 1147 (Place 10323 262) (Place 10562 270) true; SNode 1148 (Place 10328 262) (Place 10348 262) false; SNode 1149 (Place 10329 262) (Place 10347 262) true; SNode 1150 (Place 10329 262) (Place 10330 262) false; SNode 1151 (Place 10331 262) (Place 10347 262) false; SNode 1152 (Place 10332 262) (Place 10347 262) false; SNode 1153 (Place 10349 262) (Place 10360 262) false; SNode 1154 (Place 10323 262) (Place 10369 262) false; SNode 1155 (Place 10360 262) (Place 10362 262) false; SNode 1156 (Place 10363 262) (Place 10369 262) false; SNode 1157 (Place 10363 262) (Place 10369 262) true; SNode 1158 (Place 10363 262) (Place 10369 262) false; SNode 1159 (Place 10370 262) (Place 10562 270) true; SNode 1160 (Place 10373 263) (Place 10418 265) true; SNode 1161 (Place 10376 263) (Place 10383 263) false; SNode 1162 (Place 10376 263) (Place 10377 263) false; SNode 1163 (Place 10378 263) (Place 10383 263) false; SNode 1164 (Place 10384 263) (Place 10418 265) true; SNode 1165 (Place 10388 264) (Place 10415 264) true; SNode 1166 (Place 10388 264) (Place 10394 264) false; SNode 1167 (Place 10388 264) (Place 10389 264) false; SNode 1168 (Place 10390 264) (Place 10394 264) false; SNode 1169 (Place 10397 264) (Place 10415 264) false; SNode 1170 (Place 10420 266) (Place 10534 268) true; SNode 1171 (Place 10423 266) (Place 10430 266) false; SNode 1172 (Place 10423 266) (Place 10424 266) false; SNode 1173 (Place 10425 266) (Place 10430 266) false; SNode 1174 (Place 10431 266) (Place 10534 268) true; SNode 1175 (Place 10435 267) (Place 10461 267) true; SNode 1176 (Place 10435 267) (Place 10441 267) false; SNode 1177 (Place 10435 267) (Place 10436 267) false; SNode 1178 (Place 10437 267) (Place 10441 267) false; SNode 1179 (Place 10444 267) (Place 10461 267) false; SNode 1180 (Place 10444 267) (Place 10450 267) false; SNode 1181 (Place 10444 267) (Place 10445 267) false; SNode 1182 (Place 10446 267) (Place 10450 267) false; SNode 1183 (Place 10453 267) (Place 10461 267) false; SNode 1184 (Place 10536 269) (Place 10560 269) true; SNode 1185 (Place 10543 269) (Place 10560 269) false; SNode 1186 (Place 10564 272) (Place 10594 272) true; SNode 1187 (Place 10569 272) (Place 10594 272) true; SNode 1188 (Place 10569 272) (Place 10585 272) false; SNode 1189 (Place 10586 272) (Place 10594 272) false; SNode 1190 (Place 10592 272) (Place 10594 272) false; SNode 1191 (Place 10672 274) (Place 10775 279) true; SNode 1192 (Place 10677 274) (Place 10698 274) false; SNode 1193 (Place 10678 274) (Place 10697 274) true; SNode 1194 (Place 10678 274) (Place 10679 274) false; SNode 1195 (Place 10680 274) (Place 10697 274) false; SNode 1196 (Place 10681 274) (Place 10697 274) false; SNode 1197 (Place 10699 274) (Place 10703 274) false; SNode 1198 (Place 10672 274) (Place 10712 274) false; SNode 1199 (Place 10703 274) (Place 10705 274) false; SNode 1200 (Place 10706 274) (Place 10712 274) false; SNode 1201 (Place 10706 274) (Place 10712 274) true; SNode 1202 (Place 10706 274) (Place 10712 274) false; SNode 1203 (Place 10713 274) (Place 10775 279) true; SNode 1204 (Place 10716 275) (Place 10744 277) true; SNode 1205 (Place 10719 275) (Place 10727 275) false; SNode 1206 (Place 10719 275) (Place 10720 275) false; SNode 1207 (Place 10724 275) (Place 10727 275) false; SNode 1208 (Place 10728 275) (Place 10744 277) true; SNode 1209 (Place 10732 276) (Place 10741 276) true; SNode 1210 (Place 10739 276) (Place 10741 276) false; SNode 1211 (Place 10746 278) (Place 10773 278) true; SNode 1212 (Place 10753 278) (Place 10773 278) false; SNode 1213 (Place 10776 280) (Place 10847 280) true; SNode 1214 (Place 10781 280) (Place 10800 280) false; SNode 1215 (Place 10782 280) (Place 10799 280) true; SNode 1216 (Place 10782 280) (Place 10799 280) false; SNode 1217 (Place 10783 280) (Place 10799 280) false; SNode 1218 (Place 10801 280) (Place 10806 280) false; SNode 1219 (Place 10776 280) (Place 10815 280) false; SNode 1220 (Place 10806 280) (Place 10808 280) false; SNode 1221 (Place 10809 280) (Place 10815 280) false; SNode 1222 (Place 10809 280) (Place 10815 280) true; SNode 1223 (Place 10809 280) (Place 10815 280) false; SNode 1224 (Place 10816 280) (Place 10847 280) true; SNode 1225 (Place 10818 280) (Place 10845 280) true; SNode 1226 (Place 10825 280) (Place 10845 280) false; SNode 1227 (Place 10849 282) (Place 10879 282) true; SNode 1228 (Place 10854 282) (Place 10879 282) true; SNode 1229 (Place 10854 282) (Place 10870 282) false; SNode 1230 (Place 10871 282) (Place 10879 282) false; SNode 1231 (Place 10877 282) (Place 10879 282) false; SNode 1232 (Place 10957 284) (Place 11070 290) true; SNode 1233 (Place 10962 284) (Place 10981 284) false; SNode 1234 (Place 10963 284) (Place 10980 284) true; SNode 1235 (Place 10963 284) (Place 10980 284) false; SNode 1236 (Place 10964 284) (Place 10980 284) false; SNode 1237 (Place 10982 284) (Place 10986 284) false; SNode 1238 (Place 10957 284) (Place 11002 284) false; SNode 1239 (Place 10986 284) (Place 10988 284) false; SNode 1240 (Place 10989 284) (Place 11002 284) false; SNode 1241 (Place 10990 284) (Place 11001 284) true; SNode 1242 (Place 10990 284) (Place 10994 284) false; SNode 1243 (Place 10995 284) (Place 11001 284) false; SNode 1244 (Place 11003 284) (Place 11070 290) true; SNode 1245 (Place 11006 285) (Place 11033 285) true; SNode 1246 (Place 11006 285) (Place 11010 285) false; SNode 1247 (Place 11013 285) (Place 11033 285) false; SNode 1248 (Place 11035 286) (Place 11060 288) true; SNode 1249 (Place 11038 286) (Place 11043 286) false; SNode 1250 (Place 11044 286) (Place 11060 288) true; SNode 1251 (Place 11048 287) (Place 11057 287) true; SNode 1252 (Place 11048 287) (Place 11052 287) false; SNode 1253 (Place 11055 287) (Place 11057 287) false; SNode 1254 (Place 11062 289) (Place 11068 289) true; SNode 1255 (Place 11071 291) (Place 11154 294) true; SNode 1256 (Place 11076 291) (Place 11095 291) false; SNode 1257 (Place 11077 291) (Place 11094 291) true; SNode 1258 (Place 11077 291) (Place 11094 291) false; SNode 1259 (Place 11078 291) (Place 11094 291) false; SNode 1260 (Place 11096 291) (Place 11101 291) false; SNode 1261 (Place 11071 291) (Place 11116 291) false; SNode 1262 (Place 11101 291) (Place 11103 291) false; SNode 1263 (Place 11104 291) (Place 11116 291) false; SNode 1264 (Place 11105 291) (Place 11115 291) true; SNode 1265 (Place 11105 291) (Place 11108 291) false; SNode 1266 (Place 11109 291) (Place 11115 291) false; SNode 1267 (Place 11117 291) (Place 11154 294) true; SNode 1268 (Place 11120 292) (Place 11144 292) true; SNode 1269 (Place 11120 292) (Place 11123 292) false; SNode 1270 (Place 11126 292) (Place 11144 292) false; SNode 1271 (Place 11146 293) (Place 11152 293) true; SNode 1272 (Place 11156 296) (Place 11287 298) true; SNode 1273 (Place 11161 296) (Place 11287 298) true; SNode 1274 (Place 11161 296) (Place 11178 296) false; SNode 1275 (Place 11179 296) (Place 11287 298) false; SNode 1276 (Place 11186 296) (Place 11287 298) false; SNode 1277 (Place 11271 297) (Place 11285 297) true; SNode 1278 (Place 11271 297) (Place 11278 297) false; SNode 1279 (Place 11279 297) (Place 11285 297) false; SNode 1280 (Place 11289 300) (Place 11367 303) true; SNode 1281 (Place 11294 300) (Place 11316 300) false; SNode 1282 (Place 11295 300) (Place 11315 300) true; SNode 1283 (Place 11295 300) (Place 11296 300) false; SNode 1284 (Place 11297 300) (Place 11315 300) false; SNode 1285 (Place 11298 300) (Place 11315 300) false; SNode 1286 (Place 11317 300) (Place 11321 300) false; SNode 1287 (Place 11289 300) (Place 11337 300) false; SNode 1288 (Place 11321 300) (Place 11323 300) false; SNode 1289 (Place 11324 300) (Place 11337 300) false; SNode 1290 (Place 11325 300) (Place 11336 300) true; SNode 1291 (Place 11325 300) (Place 11329 300) false; SNode 1292 (Place 11330 300) (Place 11336 300) false; SNode 1293 (Place 11338 300) (Place 11367 303) true; SNode 1294 (Place 11341 301) (Place 11357 301) true; SNode 1295 (Place 11341 301) (Place 11345 301) false; SNode 1296 (Place 11348 301) (Place 11357 301) false; SNode 1297 (Place 11348 301) (Place 11349 301) false; SNode 1298 (Place 11350 301) (Place 11357 301) false; SNode 1299 (Place 11359 302) (Place 11365 302) true; SNode 1300 (Place 11368 304) (Place 11453 307) true; SNode 1301 (Place 11373 304) (Place 11393 304) false; SNode 1302 (Place 11374 304) (Place 11392 304) true; SNode 1303 (Place 11374 304) (Place 11392 304) false; SNode 1304 (Place 11375 304) (Place 11392 304) false; SNode 1305 (Place 11394 304) (Place 11399 304) false; SNode 1306 (Place 11368 304) (Place 11414 304) false; SNode 1307 (Place 11399 304) (Place 11401 304) false; SNode 1308 (Place 11402 304) (Place 11414 304) false; SNode 1309 (Place 11403 304) (Place 11413 304) true; SNode 1310 (Place 11403 304) (Place 11406 304) false; SNode 1311 (Place 11407 304) (Place 11413 304) false; SNode 1312 (Place 11415 304) (Place 11453 307) true; SNode 1313 (Place 11418 305) (Place 11443 305) true; SNode 1314 (Place 11418 305) (Place 11421 305) false; SNode 1315 (Place 11424 305) (Place 11443 305) false; SNode 1316 (Place 11445 306) (Place 11451 306) true; SNode 1317 (Place 11455 309) (Place 11596 311) true; SNode 1318 (Place 11460 309) (Place 11596 311) true; SNode 1319 (Place 11460 309) (Place 11477 309) false; SNode 1320 (Place 11478 309) (Place 11596 311) false; SNode 1321 (Place 11485 309) (Place 11596 311) false; SNode 1322 (Place 11580 310) (Place 11594 310) true; SNode 1323 (Place 11580 310) (Place 11587 310) false; SNode 1324 (Place 11588 310) (Place 11594 310) false; SNode 1325 (Place 11598 313) (Place 11737 320) true; SNode 1326 (Place 11603 313) (Place 11625 313) false; SNode 1327 (Place 11604 313) (Place 11624 313) true; SNode 1328 (Place 11604 313) (Place 11605 313) false; SNode 1329 (Place 11606 313) (Place 11624 313) false; SNode 1330 (Place 11607 313) (Place 11624 313) false; SNode 1331 (Place 11626 313) (Place 11630 313) false; SNode 1332 (Place 11598 313) (Place 11646 313) false; SNode 1333 (Place 11630 313) (Place 11632 313) false; SNode 1334 (Place 11633 313) (Place 11646 313) false; SNode 1335 (Place 11634 313) (Place 11645 313) true; SNode 1336 (Place 11634 313) (Place 11638 313) false; SNode 1337 (Place 11639 313) (Place 11645 313) false; SNode 1338 (Place 11647 313) (Place 11737 320) true; SNode 1339 (Place 11650 314) (Place 11675 314) true; SNode 1340 (Place 11650 314) (Place 11659 314) false; SNode 1341 (Place 11663 314) (Place 11675 314) false; SNode 1342 (Place 11677 315) (Place 11693 315) true; SNode 1343 (Place 11677 315) (Place 11681 315) false; SNode 1344 (Place 11684 315) (Place 11693 315) false; SNode 1345 (Place 11684 315) (Place 11685 315) false; SNode 1346 (Place 11686 315) (Place 11693 315) false; SNode 1347 (Place 11695 316) (Place 11727 318) true; SNode 1348 (Place 11698 316) (Place 11703 316) false; SNode 1349 (Place 11704 316) (Place 11727 318) true; SNode 1350 (Place 11708 317) (Place 11724 317) true; SNode 1351 (Place 11708 317) (Place 11712 317) false; SNode 1352 (Place 11715 317) (Place 11724 317) false; SNode 1353 (Place 11729 319) (Place 11735 319) true; SNode 1354 (Place 11738 321) (Place 11823 324) true; SNode 1355 (Place 11743 321) (Place 11763 321) false; SNode 1356 (Place 11744 321) (Place 11762 321) true; SNode 1357 (Place 11744 321) (Place 11762 321) false; SNode 1358 (Place 11745 321) (Place 11762 321) false; SNode 1359 (Place 11764 321) (Place 11769 321) false; SNode 1360 (Place 11738 321) (Place 11784 321) false; SNode 1361 (Place 11769 321) (Place 11771 321) false; SNode 1362 (Place 11772 321) (Place 11784 321) false; SNode 1363 (Place 11773 321) (Place 11783 321) true; SNode 1364 (Place 11773 321) (Place 11776 321) false; SNode 1365 (Place 11777 321) (Place 11783 321) false; SNode 1366 (Place 11785 321) (Place 11823 324) true; SNode 1367 (Place 11788 322) (Place 11813 322) true; SNode 1368 (Place 11788 322) (Place 11791 322) false; SNode 1369 (Place 11794 322) (Place 11813 322) false; SNode 1370 (Place 11815 323) (Place 11821 323) true; SNode 1371 (Place 11825 326) (Place 11956 328) true; SNode 1372 (Place 11830 326) (Place 11956 328) true; SNode 1373 (Place 11830 326) (Place 11847 326) false; SNode 1374 (Place 11848 326) (Place 11956 328) false; SNode 1375 (Place 11855 326) (Place 11956 328) false; SNode 1376 (Place 11940 327) (Place 11954 327) true; SNode 1377 (Place 11940 327) (Place 11947 327) false; SNode 1378 (Place 11948 327) (Place 11954 327) false; SNode 1379 (Place 12016 331) (Place 12203 338) true; SNode 1380 (Place 12021 331) (Place 12043 331) false; SNode 1381 (Place 12022 331) (Place 12042 331) true; SNode 1382 (Place 12022 331) (Place 12023 331) false; SNode 1383 (Place 12024 331) (Place 12042 331) false; SNode 1384 (Place 12025 331) (Place 12042 331) false; SNode 1385 (Place 12044 331) (Place 12048 331) false; SNode 1386 (Place 12016 331) (Place 12064 331) false; SNode 1387 (Place 12048 331) (Place 12050 331) false; SNode 1388 (Place 12051 331) (Place 12064 331) false; SNode 1389 (Place 12052 331) (Place 12063 331) true; SNode 1390 (Place 12052 331) (Place 12056 331) false; SNode 1391 (Place 12057 331) (Place 12063 331) false; SNode 1392 (Place 12065 331) (Place 12203 338) true; SNode 1393 (Place 12068 332) (Place 12084 332) true; SNode 1394 (Place 12068 332) (Place 12072 332) false; SNode 1395 (Place 12075 332) (Place 12084 332) false; SNode 1396 (Place 12075 332) (Place 12076 332) false; SNode 1397 (Place 12077 332) (Place 12084 332) false; SNode 1398 (Place 12086 333) (Place 12193 336) true; SNode 1399 (Place 12089 333) (Place 12094 333) false; SNode 1400 (Place 12095 333) (Place 12193 336) true; SNode 1401 (Place 12099 334) (Place 12122 334) true; SNode 1402 (Place 12099 334) (Place 12103 334) false; SNode 1403 (Place 12106 334) (Place 12122 334) false; SNode 1404 (Place 12184 335) (Place 12190 335) true; SNode 1405 (Place 12195 337) (Place 12201 337) true; SNode 1406 (Place 12204 339) (Place 12275 339) true; SNode 1407 (Place 12209 339) (Place 12229 339) false; SNode 1408 (Place 12210 339) (Place 12228 339) true; SNode 1409 (Place 12210 339) (Place 12228 339) false; SNode 1410 (Place 12211 339) (Place 12228 339) false; SNode 1411 (Place 12230 339) (Place 12235 339) false; SNode 1412 (Place 12204 339) (Place 12244 339) false; SNode 1413 (Place 12235 339) (Place 12237 339) false; SNode 1414 (Place 12238 339) (Place 12244 339) false; SNode 1415 (Place 12238 339) (Place 12244 339) true; SNode 1416 (Place 12238 339) (Place 12244 339) false; SNode 1417 (Place 12245 339) (Place 12275 339) true; SNode 1418 (Place 12247 339) (Place 12273 339) true; SNode 1419 (Place 12254 339) (Place 12273 339) false; SNode 1420 (Place 12277 341) (Place 12414 343) true; SNode 1421 (Place 12282 341) (Place 12414 343) true; SNode 1422 (Place 12282 341) (Place 12302 341) false; SNode 1423 (Place 12303 341) (Place 12414 343) false; SNode 1424 (Place 12310 341) (Place 12414 343) false; SNode 1425 (Place 12398 342) (Place 12412 342) true; SNode 1426 (Place 12398 342) (Place 12405 342) false; SNode 1427 (Place 12406 342) (Place 12412 342) false; SNode 1428 (Place 12416 345) (Place 12496 348) true; SNode 1429 (Place 12421 345) (Place 12446 345) false; SNode 1430 (Place 12422 345) (Place 12445 345) true; SNode 1431 (Place 12422 345) (Place 12423 345) false; SNode 1432 (Place 12424 345) (Place 12445 345) false; SNode 1433 (Place 12425 345) (Place 12445 345) false; SNode 1434 (Place 12447 345) (Place 12451 345) false; SNode 1435 (Place 12416 345) (Place 12460 345) false; SNode 1436 (Place 12451 345) (Place 12453 345) false; SNode 1437 (Place 12454 345) (Place 12460 345) false; SNode 1438 (Place 12454 345) (Place 12460 345) true; SNode 1439 (Place 12454 345) (Place 12460 345) false; SNode 1440 (Place 12461 345) (Place 12496 348) true; SNode 1441 (Place 12464 346) (Place 12481 346) true; SNode 1442 (Place 12464 346) (Place 12468 346) false; SNode 1443 (Place 12472 346) (Place 12481 346) false; SNode 1444 (Place 12472 346) (Place 12473 346) false; SNode 1445 (Place 12474 346) (Place 12481 346) false; SNode 1446 (Place 12483 347) (Place 12494 347) true; SNode 1447 (Place 12490 347) (Place 12494 347) false; SNode 1448 (Place 12497 349) (Place 12573 349) true; SNode 1449 (Place 12502 349) (Place 12525 349) false; SNode 1450 (Place 12503 349) (Place 12524 349) true; SNode 1451 (Place 12503 349) (Place 12524 349) false; SNode 1452 (Place 12504 349) (Place 12524 349) false; SNode 1453 (Place 12526 349) (Place 12531 349) false; SNode 1454 (Place 12497 349) (Place 12540 349) false; SNode 1455 (Place 12531 349) (Place 12533 349) false; SNode 1456 (Place 12534 349) (Place 12540 349) false; SNode 1457 (Place 12534 349) (Place 12540 349) true; SNode 1458 (Place 12534 349) (Place 12540 349) false; SNode 1459 (Place 12541 349) (Place 12573 349) true; SNode 1460 (Place 12543 349) (Place 12571 349) true; SNode 1461 (Place 12550 349) (Place 12571 349) false; SNode 1462 (Place 12575 351) (Place 12734 353) true; SNode 1463 (Place 12580 351) (Place 12734 353) true; SNode 1464 (Place 12580 351) (Place 12600 351) false; SNode 1465 (Place 12601 351) (Place 12734 353) false; SNode 1466 (Place 12608 351) (Place 12734 353) false; SNode 1467 (Place 12718 352) (Place 12732 352) true; SNode 1468 (Place 12718 352) (Place 12725 352) false; SNode 1469 (Place 12726 352) (Place 12732 352) false; SNode 1470 (Place 12736 355) (Place 12989 369) true; SNode 1471 (Place 12741 355) (Place 12766 355) false; SNode 1472 (Place 12742 355) (Place 12765 355) true; SNode 1473 (Place 12742 355) (Place 12743 355) false; SNode 1474 (Place 12744 355) (Place 12765 355) false; SNode 1475 (Place 12745 355) (Place 12765 355) false; SNode 1476 (Place 12767 355) (Place 12771 355) false; SNode 1477 (Place 12736 355) (Place 12780 355) false; SNode 1478 (Place 12771 355) (Place 12773 355) false; SNode 1479 (Place 12774 355) (Place 12780 355) false; SNode 1480 (Place 12774 355) (Place 12780 355) true; SNode 1481 (Place 12774 355) (Place 12780 355) false; SNode 1482 (Place 12781 355) (Place 12989 369) true; SNode 1483 (Place 12784 356) (Place 12801 356) true; SNode 1484 (Place 12784 356) (Place 12788 356) false; SNode 1485 (Place 12792 356) (Place 12801 356) false; SNode 1486 (Place 12792 356) (Place 12793 356) false; SNode 1487 (Place 12794 356) (Place 12801 356) false; SNode 1488 (Place 12803 357) (Place 12825 357) true; SNode 1489 (Place 12803 357) (Place 12808 357) false; SNode 1490 (Place 12812 357) (Place 12825 357) false; SNode 1491 (Place 12827 358) (Place 12843 358) true; SNode 1492 (Place 12827 358) (Place 12843 358) true; SNode 1493 (Place 12831 358) (Place 12843 358) true; SNode 1494 (Place 12831 358) (Place 12836 358) false; SNode 1495 (Place 12837 358) (Place 12843 358) false; SNode 1496 (Place 12845 359) (Place 12987 368) true; SNode 1497 (Place 12848 359) (Place 12853 359) false; SNode 1498 (Place 12854 359) (Place 12888 362) true; SNode 1499 (Place 12858 360) (Place 12870 360) true; SNode 1500 (Place 12858 360) (Place 12863 360) false; SNode 1501 (Place 12866 360) (Place 12870 360) false; SNode 1502 (Place 12873 361) (Place 12885 361) true; SNode 1503 (Place 12880 361) (Place 12885 361) false; SNode 1504 (Place 12894 362) (Place 12987 368) true; SNode 1505 (Place 12898 363) (Place 12919 363) true; SNode 1506 (Place 12898 363) (Place 12903 363) false; SNode 1507 (Place 12907 363) (Place 12919 363) false; SNode 1508 (Place 12922 364) (Place 12969 366) true; SNode 1509 (Place 12925 364) (Place 12946 364) false; SNode 1510 (Place 12925 364) (Place 12929 364) false; SNode 1511 (Place 12933 364) (Place 12946 364) false; SNode 1512 (Place 12947 364) (Place 12969 366) true; SNode 1513 (Place 12952 365) (Place 12965 365) true; SNode 1514 (Place 12952 365) (Place 12957 365) false; SNode 1515 (Place 12960 365) (Place 12965 365) false; SNode 1516 (Place 12972 367) (Place 12984 367) true; SNode 1517 (Place 12979 367) (Place 12984 367) false; SNode 1518 (Place 12990 370) (Place 13066 370) true; SNode 1519 (Place 12995 370) (Place 13018 370) false; SNode 1520 (Place 12996 370) (Place 13017 370) true; SNode 1521 (Place 12996 370) (Place 13017 370) false; SNode 1522 (Place 12997 370) (Place 13017 370) false; SNode 1523 (Place 13019 370) (Place 13024 370) false; SNode 1524 (Place 12990 370) (Place 13033 370) false; SNode 1525 (Place 13024 370) (Place 13026 370) false; SNode 1526 (Place 13027 370) (Place 13033 370) false; SNode 1527 (Place 13027 370) (Place 13033 370) true; SNode 1528 (Place 13027 370) (Place 13033 370) false; SNode 1529 (Place 13034 370) (Place 13066 370) true; SNode 1530 (Place 13036 370) (Place 13064 370) true; SNode 1531 (Place 13043 370) (Place 13064 370) false].
Definition t_errortypes_cgroups0 : list cgroup := [CGroup (Place 20 3) (Place 723 28) [(str "// AllErrors returns variations of all errors defined in this package."); (str "//"); (str "// Errors:"); (str "//"); (str "//    - some-error       --"); (str "//    - some-2-error     --"); (str "//    - some-3-error     --"); (str "//    - some-4-error     --"); (str "//    - multiple-1-error --"); (str "//    - multiple-2-error --"); (str "//    - multiple-3-error --"); (str "//    - value-1-error    --"); (str "//    - value-2-error    --"); (str "//    - field-1-error    --"); (str "//    - field-2-error    --"); (str "//    - field-3-error    --"); (str "//    - field-4-error    --"); (str "//    - field-5-error    --"); (str "//    - field-6-error    --"); (str "//    - promoted-1-error --"); (str "//    - promoted-2-error --"); (str "//    - promoted-3-error --"); (str "//    - combined-1-error --"); (str "//    - combined-2-error --"); (str "//    - combined-3-error --"); (str "//    - string-error     --")]; CGroup (Place 749 29) (Place 1108 29) [(str "// want AllErrors:""ErrorCodes: combined-1-error combined-2-error combined-3-error field-1-error field-2-error field-3-error field-4-error field-5-error field-6-error multiple-1-error multiple-2-error multiple-3-error promoted-1-error promoted-2-error promoted-3-error some-2-error some-3-error some-4-error some-error string-error value-1-error value-2-error""")]; CGroup (Place 1423 45) (Place 1475 45) [(str "// valid because methods of T are also methods of *T")]; CGroup (Place 1513 47) (Place 1618 47) [(str "// want ""expression is not a valid error: error types must return constant error codes or a single field""")]; CGroup (Place 1657 49) (Place 1762 49) [(str "// want ""expression is not a valid error: error types must return constant error codes or a single field""")]; CGroup (Place 1801 51) (Place 1851 51) [(str "// want ""expression does not define an error code""")]; CGroup (Place 2109 59) (Place 2197 59) [(str "// repeated FieldError to test if multiple error codes can originate using the same type")]; CGroup (Place 2255 61) (Place 2291 61) [(str "// simple test for named constructor")]; CGroup (Place 2389 63) (Place 2432 63) [(str "// more advanced test for named constructor")]; CGroup (Place 2480 65) (Place 2549 65) [(str "// want ""error code has to be constant value or error code parameter""")]; CGroup (Place 2791 75) (Place 2847 75) [(str "// want ""error code has invalid format: should match .*""")]; CGroup (Place 3165 83) (Place 3270 83) [(str "// want ""expression is not a valid error: error types must return constant error codes or a single field""")]; CGroup (Place 3442 89) (Place 3547 89) [(str "// want ""expression is not a valid error: error types must return constant error codes or a single field""")]; CGroup (Place 3594 94) (Place 3658 94) [(str "// want ConstantError:""ErrorType{Field:<nil>, Codes:some-error}""")]; CGroup (Place 3819 99) (Place 3886 99) [(str "// want ConstantError2:""ErrorType{Field:<nil>, Codes:some-2-error}""")]; CGroup (Place 4105 106) (Place 4172 106) [(str "// want ConstantError3:""ErrorType{Field:<nil>, Codes:some-3-error}""")]; CGroup (Place 4342 111) (Place 4409 111) [(str "// want ConstantError4:""ErrorType{Field:<nil>, Codes:some-4-error}""")]; CGroup (Place 4578 116) (Place 4690 116) [(str "// want MultipleConstantError:""ErrorType{Field:<nil>, Codes:multiple-1-error multiple-2-error multiple-3-error}""")]; CGroup (Place 4985 130) (Place 5053 130) [(str "// want ValueTypeError:""ErrorType{Field:<nil>, Codes:value-1-error}""")]; CGroup (Place 5219 135) (Place 5288 135) [(str "// want ValueTypeError2:""ErrorType{Field:<nil>, Codes:value-2-error}""")]; CGroup (Place 5454 140) (Place 5540 140) [(str "// want `type ""InvalidError"" is an invalid error type: could not find any error codes`")]; CGroup (Place 5607 142) (Place 5663 142) [(str "// want ""error code has invalid format: should match .*""")]; CGroup (Place 5780 145) (Place 5867 145) [(str "// want `type ""InvalidError2"" is an invalid error type: could not find any error codes`")]; CGroup (Place 5939 147) (Place 6021 147) [(str "// want `function ""Code"" should always return a string constant or a single field`")]; CGroup (Place 6224 154) (Place 6296 154) [(str "// want FieldError:`ErrorType{Field:{Name:""field"", Position:0}, Codes:}`")]; CGroup (Place 6471 159) (Place 6545 159) [(str "// want FieldError2:`ErrorType{Field:{Name:""field1"", Position:0}, Codes:}`")]; CGroup (Place 6655 166) (Place 6761 166) [(str "// want `only single field allowed: cannot return field ""field2"" because field .* was returned previously`")]; CGroup (Place 6790 168) (Place 6896 168) [(str "// want `only single field allowed: cannot return field ""field3"" because field .* was returned previously`")]; CGroup (Place 7012 173) (Place 7086 173) [(str "// want FieldError3:`ErrorType{Field:{Name:""field2"", Position:1}, Codes:}`")]; CGroup (Place 7355 182) (Place 7435 182) [(str "// want PromotedFieldError:`ErrorType{Field:{Name:""field"", Position:2}, Codes:}`")]; CGroup (Place 7643 190) (Place 7724 190) [(str "// want PromotedFieldError2:`ErrorType{Field:{Name:""field"", Position:4}, Codes:}`")]; CGroup (Place 7977 201) (Place 8062 201) [(str "// want PromotedFieldError3:`ErrorType{Field:{Name:""errorCode"", Position:1}, Codes:}`")]; CGroup (Place 8301 209) (Place 8400 209) [(str "// want `type ""InvalidPromotedFieldError"" is an invalid error type: could not find any error codes`")]; CGroup (Place 8471 211) (Place 8616 211) [(str "// want `returned field ""Some"" is not a valid error code field \(promoted fields are not supported currently, but might be added in the future\)`")]; CGroup (Place 8750 214) (Place 8858 214) [(str "// want CombinedError:`ErrorType{Field:{Name:""field"", Position:0}, Codes:combined-1-error combined-2-error}`")]; CGroup (Place 9107 227) (Place 9176 227) [(str "// want ValidStringError:`ErrorType{Field:<nil>, Codes:string-error}`")]; CGroup (Place 9348 232) (Place 9440 232) [(str "// want `type ""InvalidStringError"" is an invalid error type: could not find any error codes`")]; CGroup (Place 9506 234) (Place 9588 234) [(str "// want `function ""Code"" should always return a string constant or a single field`")]; CGroup (Place 9695 237) (Place 9821 237) [(str "// want ModifyingError1:`ErrorType{Field:{Name:""code"", Position:0}, Codes:replaced-1-error replaced-2-error replaced-3-error}`")]; CGroup (Place 9997 247) (Place 10066 247) [(str "// want ""error code has to be constant value or error code parameter""")]; CGroup (Place 10221 257) (Place 10290 257) [(str "// want ""error code has to be constant value or error code parameter""")]; CGroup (Place 10462 267) (Place 10531 267) [(str "// want ""error code has to be constant value or error code parameter""")]; CGroup (Place 10595 272) (Place 10670 272) [(str "// want EmptyStringError:""ErrorType{Field:<nil>, Codes:empty-string-error}""")]; CGroup (Place 10880 282) (Place 10955 282) [(str "// want NamedReturnError:`ErrorType{Field:<nil>, Codes:named-return-error}`")]; CGroup (Place 11188 296) (Place 11269 296) [(str "// want NamedReturnError2:`ErrorType{Field:{Name:""TheCode"", Position:0}, Codes:}`")]; CGroup (Place 11487 309) (Place 11578 309) [(str "// want NamedReturnError3:`ErrorType{Field:{Name:""TheCode"", Position:0}, Codes:some-error}`")]; CGroup (Place 11857 326) (Place 11938 326) [(str "// want NamedReturnError4:`ErrorType{Field:{Name:""TheCode"", Position:0}, Codes:}`")]; CGroup (Place 11958 330) (Place 12015 330) [(str "// Two return statements should only emit 1 error message")]; CGroup (Place 12123 334) (Place 12181 334) [(str "// want ""error code has invalid format: should match (.*)""")]; CGroup (Place 12312 341) (Place 12396 341) [(str "// want ReturnLocalVarError1:`ErrorType{Field:{Name:""TheCode"", Position:0}, Codes:}`")]; CGroup (Place 12610 351) (Place 12716 351) [(str "// want ReturnLocalVarError2:`ErrorType{Field:{Name:""TheCode"", Position:0}, Codes:other-error some-error}`")]].
Definition t_errortypes_files : list source_file := [SourceFile t_errortypes_nodes0 t_errortypes_cgroups0].
Definition t_errortypes_info : typeinfo := map_info (list_to_map t_errortypes_types) (list_to_map t_errortypes_values) (list_to_map t_errortypes_uses) (list_to_map t_errortypes_defs) (list_to_map t_errortypes_sels) (list_to_set [1; 4; 5; 6; 7; 8; 9; 10; 11; 12; 13; 14; 15; 16; 17; 18; 19; 20; 48; 51; 55; 58; 61; 64; 67; 70; 73; 76; 78; 81; 84; 87; 88; 89; 90; 93; 96; 99; 102; 105; 108; 111; 115; 118; 121; 124; 127; 130; 133]) (list_to_map t_errortypes_pkgnames) (list_to_map t_errortypes_objnames) (list_to_map t_errortypes_objtypes) (list_to_map t_errortypes_under) t_errortypes_methods t_errortypes_ierr t_errortypes_iree t_errortypes_icause t_errortypes_impl (list_to_map t_errortypes_named_methods).
Definition t_errortypes : package := Package (list_to_map [(1, t_errortypes_f1); (2, t_errortypes_f2); (3, t_errortypes_f3); (4, t_errortypes_f4); (5, t_errortypes_f5); (6, t_errortypes_f6); (7, t_errortypes_f7); (8, t_errortypes_f8); (9, t_errortypes_f9); (10, t_errortypes_f10); (11, t_errortypes_f11); (12, t_errortypes_f12); (13, t_errortypes_f13); (14, t_errortypes_f14); (15, t_errortypes_f15); (16, t_errortypes_f16); (17, t_errortypes_f17); (18, t_errortypes_f18); (19, t_errortypes_f19); (20, t_errortypes_f20); (21, t_errortypes_f21); (22, t_errortypes_f22); (23, t_errortypes_f23); (24, t_errortypes_f24); (25, t_errortypes_f25); (26, t_errortypes_f26); (27, t_errortypes_f27); (28, t_errortypes_f28); (29, t_errortypes_f29); (30, t_errortypes_f30); (31, t_errortypes_f31); (32, t_errortypes_f32); (33, t_errortypes_f33); (34, t_errortypes_f34); (35, t_errortypes_f35); (36, t_errortypes_f36); (37, t_errortypes_f37); (38, t_errortypes_f38); (39, t_errortypes_f39); (40, t_errortypes_f40); (41, t_errortypes_f41); (42, t_errortypes_f42); (43, t_errortypes_f43); (44, t_errortypes_f44); (45, t_errortypes_f45); (46, t_errortypes_f46); (47, t_errortypes_f47); (48, t_errortypes_f48); (49, t_errortypes_f49); (50, t_errortypes_f50); (51, t_errortypes_f51); (52, t_errortypes_f52); (53, t_errortypes_f53); (54, t_errortypes_f54); (55, t_errortypes_f55); (56, t_errortypes_f56); (57, t_errortypes_f57)]) [1; 2; 3; 4; 5; 6; 7; 8; 9; 10; 11; 12; 13; 14; 15; 16; 17; 18; 19; 20; 21; 22; 23; 24; 25; 26; 27; 28; 29; 30; 31; 32; 33; 34; 35; 36; 37; 38; 39; 40; 41; 42; 43; 44; 45; 46; 47; 48; 49; 50; 51; 52; 53; 54; 55; 56; 57] t_errortypes_gendecls t_errortypes_top (list_to_map t_errortypes_objs) (fun id => default [] (createCommentMap t_errortypes_files id)) t_errortypes_info.
Definition t_errortypes_rank : gostring -> nat := fun n => default 0%nat ((list_to_map [] : gmap gostring nat) !! n).

(** errortypes: 21 diagnostics and 24 facts, as its "want" comments demand. *)
Theorem t_errortypes_ascending :
  report (run_test t_errortypes ascending (Facts ∅ ∅ ∅ ∅)) = Some [
    (519, (str "error code has invalid format: should match [a-zA-Z][a-zA-Z0-9\-]*[a-zA-Z0-9]")) (* errortypes.go:142 *);
    (500, (str "type ""InvalidError"" is an invalid error type: could not find any error codes")) (* errortypes.go:140 *);
    (558, (str "function ""Code"" should always return a string constant or a single field")) (* errortypes.go:147 *);
    (535, (str "type ""InvalidError2"" is an invalid error type: could not find any error codes")) (* errortypes.go:145 *);
    (674, (str "only single field allowed: cannot return field ""field2"" because field ""field1"" was returned previously")) (* errortypes.go:166 *);
    (679, (str "only single field allowed: cannot return field ""field3"" because field ""field1"" was returned previously")) (* errortypes.go:168 *);
    (907, (str "returned field ""Some"" is not a valid error code field (promoted fields are not supported currently, but might be added in the future)")) (* errortypes.go:211 *);
    (900, (str "type ""InvalidPromotedFieldError"" is an invalid error type: could not find any error codes")) (* errortypes.go:209 *);
    (1038, (str "function ""Code"" should always return a string constant or a single field")) (* errortypes.go:234 *);
    (1021, (str "type ""InvalidStringError"" is an invalid error type: could not find any error codes")) (* errortypes.go:232 *);
    (1099, (str "error code has to be constant value or error code parameter")) (* errortypes.go:247 *);
    (1140, (str "error code has to be constant value or error code parameter")) (* errortypes.go:257 *);
    (1179, (str "error code has to be constant value or error code parameter")) (* errortypes.go:267 *);
    (1403, (str "error code has invalid format: should match [a-zA-Z][a-zA-Z0-9\-]*[a-zA-Z0-9]")) (* errortypes.go:334 *);
    (62, (str "expression is not a valid error: error types must return constant error codes or a single field")) (* errortypes.go:47 *);
    (68, (str "expression is not a valid error: error types must return constant error codes or a single field")) (* errortypes.go:49 *);
    (74, (str "expression does not define an error code")) (* errortypes.go:51 *);
    (139, (str "error code has to be constant value or error code parameter")) (* errortypes.go:65 *);
    (180, (str "error code has invalid format: should match [a-zA-Z][a-zA-Z0-9\-]*[a-zA-Z0-9]")) (* errortypes.go:75 *);
    (214, (str "expression is not a valid error: error types must return constant error codes or a single field")) (* errortypes.go:83 *);
    (237, (str "expression is not a valid error: error types must return constant error codes or a single field")) (* errortypes.go:89 *)] /\
  fact_texts (facts_after_test (run_test t_errortypes ascending (Facts ∅ ∅ ∅ ∅))) [47; 48; 49; 50; 51; 52; 53; 54; 55; 56; 57; 58; 59; 60; 61; 62; 63; 64; 65; 66; 67; 68; 69; 70; 71; 72; 73; 74; 75; 76; 77; 78; 79; 80; 81; 82; 83; 84; 85; 86; 87; 88; 89; 90; 91; 92; 93; 94; 95; 96; 97; 98; 99; 100; 101; 102; 103; 104; 105; 106; 107; 108; 109; 110; 111; 112; 113; 114; 115; 116; 117; 118; 119; 120; 121; 122; 123; 124; 125; 126; 127; 128; 129; 130; 131; 132; 133; 134; 135; 136; 137; 138; 139; 140; 141; 142; 143; 144; 145; 146; 147; 148; 149; 150; 151; 152; 153; 154; 155; 156; 157; 158; 159; 160; 161; 162; 163; 164; 165; 166; 167; 168; 169; 170; 171; 172; 173; 174; 175; 176; 177; 178; 179; 180; 181; 182; 183; 184; 185; 186; 187; 188; 204; 205; 206; 207; 208; 209; 210] = [
    (47, (str "ErrorCodes: combined-1-error combined-2-error combined-3-error field-1-error field-2-error field-3-error field-4-error field-5-error field-6-error multiple-1-error multiple-2-error multiple-3-error promoted-1-error promoted-2-error promoted-3-error some-2-error some-3-error some-4-error some-error string-error value-1-error value-2-error")) (* errortypes.go:29 AllErrors *);
    (48, (str "ErrorType{Field:<nil>, Codes:some-error}")) (* errortypes.go:94 ConstantError *);
    (51, (str "ErrorType{Field:<nil>, Codes:some-2-error}")) (* errortypes.go:99 ConstantError2 *);
    (55, (str "ErrorType{Field:<nil>, Codes:some-3-error}")) (* errortypes.go:106 ConstantError3 *);
    (58, (str "ErrorType{Field:<nil>, Codes:some-4-error}")) (* errortypes.go:111 ConstantError4 *);
    (61, (str "ErrorType{Field:<nil>, Codes:multiple-1-error multiple-2-error multiple-3-error}")) (* errortypes.go:116 MultipleConstantError *);
    (64, (str "ErrorType{Field:<nil>, Codes:value-1-error}")) (* errortypes.go:130 ValueTypeError *);
    (67, (str "ErrorType{Field:<nil>, Codes:value-2-error}")) (* errortypes.go:135 ValueTypeError2 *);
    (78, (str "ErrorType{Field:{Name:""field"", Position:0}, Codes:}")) (* errortypes.go:154 FieldError *);
    (81, (str "ErrorType{Field:{Name:""field1"", Position:0}, Codes:}")) (* errortypes.go:159 FieldError2 *);
    (84, (str "ErrorType{Field:{Name:""field2"", Position:1}, Codes:}")) (* errortypes.go:173 FieldError3 *);
    (90, (str "ErrorType{Field:{Name:""field"", Position:2}, Codes:}")) (* errortypes.go:182 PromotedFieldError *);
    (93, (str "ErrorType{Field:{Name:""field"", Position:4}, Codes:}")) (* errortypes.go:190 PromotedFieldError2 *);
    (96, (str "ErrorType{Field:{Name:""errorCode"", Position:1}, Codes:}")) (* errortypes.go:201 PromotedFieldError3 *);
    (102, (str "ErrorType{Field:{Name:""field"", Position:0}, Codes:combined-1-error combined-2-error}")) (* errortypes.go:214 CombinedError *);
    (105, (str "ErrorType{Field:<nil>, Codes:string-error}")) (* errortypes.go:227 ValidStringError *);
    (111, (str "ErrorType{Field:{Name:""code"", Position:0}, Codes:replaced-1-error replaced-2-error replaced-3-error}")) (* errortypes.go:237 ModifyingError1 *);
    (115, (str "ErrorType{Field:<nil>, Codes:empty-string-error}")) (* errortypes.go:272 EmptyStringError *);
    (118, (str "ErrorType{Field:<nil>, Codes:named-return-error}")) (* errortypes.go:282 NamedReturnError *);
    (121, (str "ErrorType{Field:{Name:""TheCode"", Position:0}, Codes:}")) (* errortypes.go:296 NamedReturnError2 *);
    (124, (str "ErrorType{Field:{Name:""TheCode"", Position:0}, Codes:some-error}")) (* errortypes.go:309 NamedReturnError3 *);
    (127, (str "ErrorType{Field:{Name:""TheCode"", Position:0}, Codes:}")) (* errortypes.go:326 NamedReturnError4 *);
    (130, (str "ErrorType{Field:{Name:""TheCode"", Position:0}, Codes:}")) (* errortypes.go:341 ReturnLocalVarError1 *);
    (133, (str "ErrorType{Field:{Name:""TheCode"", Position:0}, Codes:other-error some-error}")) (* errortypes.go:351 ReturnLocalVarError2 *)].
Proof. vm_compute. split; reflexivity. Qed.

(** errortypes: 21 diagnostics and 24 facts, as its "want" comments demand. *)
Theorem t_errortypes_descending :
  report (run_test t_errortypes descending (Facts ∅ ∅ ∅ ∅)) = Some [
    (519, (str "error code has invalid format: should match [a-zA-Z][a-zA-Z0-9\-]*[a-zA-Z0-9]")) (* errortypes.go:142 *);
    (500, (str "type ""InvalidError"" is an invalid error type: could not find any error codes")) (* errortypes.go:140 *);
    (558, (str "function ""Code"" should always return a string constant or a single field")) (* errortypes.go:147 *);
    (535, (str "type ""InvalidError2"" is an invalid error type: could not find any error codes")) (* errortypes.go:145 *);
    (674, (str "only single field allowed: cannot return field ""field2"" because field ""field1"" was returned previously")) (* errortypes.go:166 *);
    (679, (str "only single field allowed: cannot return field ""field3"" because field ""field1"" was returned previously")) (* errortypes.go:168 *);
    (907, (str "returned field ""Some"" is not a valid error code field (promoted fields are not supported currently, but might be added in the future)")) (* errortypes.go:211 *);
    (900, (str "type ""InvalidPromotedFieldError"" is an invalid error type: could not find any error codes")) (* errortypes.go:209 *);
    (1038, (str "function ""Code"" should always return a string constant or a single field")) (* errortypes.go:234 *);
    (1021, (str "type ""InvalidStringError"" is an invalid error type: could not find any error codes")) (* errortypes.go:232 *);
    (1099, (str "error code has to be constant value or error code parameter")) (* errortypes.go:247 *);
    (1140, (str "error code has to be constant value or error code parameter")) (* errortypes.go:257 *);
    (1179, (str "error code has to be constant value or error code parameter")) (* errortypes.go:267 *);
    (1403, (str "error code has invalid format: should match [a-zA-Z][a-zA-Z0-9\-]*[a-zA-Z0-9]")) (* errortypes.go:334 *);
    (62, (str "expression is not a valid error: error types must return constant error codes or a single field")) (* errortypes.go:47 *);
    (68, (str "expression is not a valid error: error types must return constant error codes or a single field")) (* errortypes.go:49 *);
    (74, (str "expression does not define an error code")) (* errortypes.go:51 *);
    (139, (str "error code has to be constant value or error code parameter")) (* errortypes.go:65 *);
    (180, (str "error code has invalid format: should match [a-zA-Z][a-zA-Z0-9\-]*[a-zA-Z0-9]")) (* errortypes.go:75 *);
    (214, (str "expression is not a valid error: error types must return constant error codes or a single field")) (* errortypes.go:83 *);
    (237, (str "expression is not a valid error: error types must return constant error codes or a single field")) (* errortypes.go:89 *)] /\
  fact_texts (facts_after_test (run_test t_errortypes descending (Facts ∅ ∅ ∅ ∅))) [47; 48; 49; 50; 51; 52; 53; 54; 55; 56; 57; 58; 59; 60; 61; 62; 63; 64; 65; 66; 67; 68; 69; 70; 71; 72; 73; 74; 75; 76; 77; 78; 79; 80; 81; 82; 83; 84; 85; 86; 87; 88; 89; 90; 91; 92; 93; 94; 95; 96; 97; 98; 99; 100; 101; 102; 103; 104; 105; 106; 107; 108; 109; 110; 111; 112; 113; 114; 115; 116; 117; 118; 119; 120; 121; 122; 123; 124; 125; 126; 127; 128; 129; 130; 131; 132; 133; 134; 135; 136; 137; 138; 139; 140; 141; 142; 143; 144; 145; 146; 147; 148; 149; 150; 151; 152; 153; 154; 155; 156; 157; 158; 159; 160; 161; 162; 163; 164; 165; 166; 167; 168; 169; 170; 171; 172; 173; 174; 175; 176; 177; 178; 179; 180; 181; 182; 183; 184; 185; 186; 187; 188; 204; 205; 206; 207; 208; 209; 210] = [
    (47, (str "ErrorCodes: combined-1-error combined-2-error combined-3-error field-1-error field-2-error field-3-error field-4-error field-5-error field-6-error multiple-1-error multiple-2-error multiple-3-error promoted-1-error promoted-2-error promoted-3-error some-2-error some-3-error some-4-error some-error string-error value-1-error value-2-error")) (* errortypes.go:29 AllErrors *);
    (48, (str "ErrorType{Field:<nil>, Codes:some-error}")) (* errortypes.go:94 ConstantError *);
    (51, (str "ErrorType{Field:<nil>, Codes:some-2-error}")) (* errortypes.go:99 ConstantError2 *);
    (55, (str "ErrorType{Field:<nil>, Codes:some-3-error}")) (* errortypes.go:106 ConstantError3 *);
    (58, (str "ErrorType{Field:<nil>, Codes:some-4-error}")) (* errortypes.go:111 ConstantError4 *);
    (61, (str "ErrorType{Field:<nil>, Codes:multiple-1-error multiple-2-error multiple-3-error}")) (* errortypes.go:116 MultipleConstantError *);
    (64, (str "ErrorType{Field:<nil>, Codes:value-1-error}")) (* errortypes.go:130 ValueTypeError *);
    (67, (str "ErrorType{Field:<nil>, Codes:value-2-error}")) (* errortypes.go:135 ValueTypeError2 *);
    (78, (str "ErrorType{Field:{Name:""field"", Position:0}, Codes:}")) (* errortypes.go:154 FieldError *);
    (81, (str "ErrorType{Field:{Name:""field1"", Position:0}, Codes:}")) (* errortypes.go:159 FieldError2 *);
    (84, (str "ErrorType{Field:{Name:""field2"", Position:1}, Codes:}")) (* errortypes.go:173 FieldError3 *);
    (90, (str "ErrorType{Field:{Name:""field"", Position:2}, Codes:}")) (* errortypes.go:182 PromotedFieldError *);
    (93, (str "ErrorType{Field:{Name:""field"", Position:4}, Codes:}")) (* errortypes.go:190 PromotedFieldError2 *);
    (96, (str "ErrorType{Field:{Name:""errorCode"", Position:1}, Codes:}")) (* errortypes.go:201 PromotedFieldError3 *);
    (102, (str "ErrorType{Field:{Name:""field"", Position:0}, Codes:combined-1-error combined-2-error}")) (* errortypes.go:214 CombinedError *);
    (105, (str "ErrorType{Field:<nil>, Codes:string-error}")) (* errortypes.go:227 ValidStringError *);
    (111, (str "ErrorType{Field:{Name:""code"", Position:0}, Codes:replaced-1-error replaced-2-error replaced-3-error}")) (* errortypes.go:237 ModifyingError1 *);
    (115, (str "ErrorType{Field:<nil>, Codes:empty-string-error}")) (* errortypes.go:272 EmptyStringError *);
    (118, (str "ErrorType{Field:<nil>, Codes:named-return-error}")) (* errortypes.go:282 NamedReturnError *);
    (121, (str "ErrorType{Field:{Name:""TheCode"", Position:0}, Codes:}")) (* errortypes.go:296 NamedReturnError2 *);
    (124, (str "ErrorType{Field:{Name:""TheCode"", Position:0}, Codes:some-error}")) (* errortypes.go:309 NamedReturnError3 *);
    (127, (str "ErrorType{Field:{Name:""TheCode"", Position:0}, Codes:}")) (* errortypes.go:326 NamedReturnError4 *);
    (130, (str "ErrorType{Field:{Name:""TheCode"", Position:0}, Codes:}")) (* errortypes.go:341 ReturnLocalVarError1 *);
    (133, (str "ErrorType{Field:{Name:""TheCode"", Position:0}, Codes:other-error some-error}")) (* errortypes.go:351 ReturnLocalVarError2 *)].
Proof. vm_compute. split; reflexivity. Qed.

(** The presuppositions of the general theorems that this package satisfies (not: sound_ok). *)
Theorem t_errortypes_presuppositions :
  (forall fa, usable_functions t_errortypes fa) /\
  (forall fa, no_literal_recursion t_errortypes (collectFunctions t_errortypes) fa) /\
  (forall fa, literals_apart t_errortypes (collectFunctions t_errortypes) fa) /\
  types_usable t_errortypes /\
  (forall w n, occurs t_errortypes w n -> ~ ill_formed t_errortypes w n) /\
  distinct_definitions t_errortypes /\
  interfaces_ok t_errortypes /\
  uses_resolved t_errortypes (collectFunctions t_errortypes) /\
  Forall layout t_errortypes_files.
Proof.
  split_and!.
  - intros fa; apply package_usable_spec; vm_compute; reflexivity.
  - intros fa; apply recursion_check_spec; vm_compute; reflexivity.
  - intros fa; apply apart_spec; vm_compute; reflexivity.
  - apply types_ok_spec; vm_compute; reflexivity.
  - apply package_formed_spec; vm_compute; reflexivity.
  - apply definitions_check_spec; vm_compute; reflexivity.
  - apply (interfaces_check_spec t_errortypes t_errortypes_rank); vm_compute; reflexivity.
  - apply uses_check_spec; vm_compute; reflexivity.
  - apply layouts_spec; vm_compute; reflexivity.
Qed.
