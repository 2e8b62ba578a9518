(** * The test package dereference_assignment of /repo/analysis/testdata/src, run on the model.  Generated by tools/conform.py; see Conform.v. *)
From Coq Require Import Ascii String.
From stdpp Require Import base list gmap.
From Verif Require Import GoString Scc Engine Constant CommentText CommentMap Phase FactText Conform Claims Analyse Verify SpecTaint SpecProgram SpecLiterals SpecCodeMethod SpecInterfaces SpecSites SpecCrash SpecSound SpecWhole SpecLayout Checkers RecursionChecker LiteralChecker CodeCheckers FormChecker InterfaceChecker SoundChecker ChainChecker ExampleLayout GoAst.
Local Open Scope N_scope.
Definition t_dereference_assignment_f1 : func := Func 3 (Some (DeclInfo (Ident 4 (str "DereferenceAssignment") (Some 1)) None (Some (comment_text [(str "// Errors:"); (str "//"); (str "//    - some-error --"); (str "//    - other-error --")])))) (FuncType 5 [] (Some [(Field 8 [] 9)]) 120) (Some (Node 10 (KOther (str "*ast.BlockStmt")) [(Node 11 (KAssign 1%nat) [(Node 12 (KIdent (str "err") (Some 2)) []); (Node 13 KComposite [(Node 15 KBasicLit [])])]); (Node 16 (KAssign 1%nat) [(Node 17 (KIdent (str "err2") (Some 3)) []); (Node 18 (KUnary true) [(Node 19 (KIdent (str "err") (Some 2)) [])])]); (Node 20 (KAssign 1%nat) [(Node 21 (KOther (str "*ast.StarExpr")) [(Node 22 (KIdent (str "err2") (Some 3)) [])]); (Node 23 KComposite [(Node 25 KBasicLit [])])]); (Node 26 KReturn [(Node 27 (KUnary true) [(Node 28 (KIdent (str "err") (Some 2)) [])])])])) 126 281.
Definition t_dereference_assignment_f2 : func := Func 29 (Some (DeclInfo (Ident 30 (str "DereferenceAssignment2") (Some 4)) None (Some (comment_text [(str "// Errors:"); (str "//"); (str "//    - some-error --"); (str "//    - other-error --")])))) (FuncType 31 [] (Some [(Field 34 [] 35)]) 372) (Some (Node 36 (KOther (str "*ast.BlockStmt")) [(Node 37 (KAssign 1%nat) [(Node 38 (KIdent (str "err") (Some 5)) []); (Node 39 (KUnary true) [(Node 40 KComposite [(Node 42 KBasicLit [])])])]); (Node 43 (KAssign 1%nat) [(Node 44 (KOther (str "*ast.StarExpr")) [(Node 45 (KIdent (str "err") (Some 5)) [])]); (Node 46 KComposite [(Node 48 KBasicLit [])])]); (Node 49 KReturn [(Node 50 (KIdent (str "err") (Some 5)) [])])])) 378 519.
Definition t_dereference_assignment_f3 : func := Func 59 (Some (DeclInfo (Ident 65 (str "Code") None) (Some [(Field 61 [(Ident 62 (str "e") (Some 6))] 63)]) None)) (FuncType 66 [] (Some [(Field 69 [] 70)]) 653) (Some (Node 71 (KOther (str "*ast.BlockStmt")) [(Node 72 KReturn [(Node 73 KSelector [(Node 74 (KIdent (str "e") (Some 6)) []); (Node 75 (KIdent (str "TheCode") None) [])])])])) 674 694.
Definition t_dereference_assignment_f4 : func := Func 76 (Some (DeclInfo (Ident 82 (str "Message") None) (Some [(Field 78 [(Ident 79 (str "e") (Some 7))] 80)]) None)) (FuncType 83 [] (Some [(Field 86 [] 87)]) 721) (Some (Node 88 (KOther (str "*ast.BlockStmt")) [(Node 89 KReturn [(Node 90 KSelector [(Node 91 (KIdent (str "e") (Some 7)) []); (Node 92 (KIdent (str "TheCode") None) [])])])])) 739 759.
Definition t_dereference_assignment_f5 : func := Func 93 (Some (DeclInfo (Ident 99 (str "Details") None) (Some [(Field 95 [(Ident 96 (str "e") (Some 8))] 97)]) None)) (FuncType 100 [] (Some [(Field 103 [] 104)]) 786) (Some (Node 107 (KOther (str "*ast.BlockStmt")) [(Node 108 KReturn [(Node 109 (KIdent (str "nil") None) [])])])) 804 818.
Definition t_dereference_assignment_f6 : func := Func 110 (Some (DeclInfo (Ident 116 (str "Cause") None) (Some [(Field 112 [(Ident 113 (str "e") (Some 9))] 114)]) None)) (FuncType 117 [] (Some [(Field 120 [] 121)]) 843) (Some (Node 122 (KOther (str "*ast.BlockStmt")) [(Node 123 KReturn [(Node 124 (KIdent (str "nil") None) [])])])) 863 877.
Definition t_dereference_assignment_f7 : func := Func 125 (Some (DeclInfo (Ident 131 (str "Error") None) (Some [(Field 127 [(Ident 128 (str "e") (Some 10))] 129)]) None)) (FuncType 132 [] (Some [(Field 135 [] 136)]) 902) (Some (Node 137 (KOther (str "*ast.BlockStmt")) [(Node 138 KReturn [(Node 139 KCall [(Node 140 KSelector [(Node 141 (KIdent (str "e") (Some 10)) []); (Node 142 (KIdent (str "Message") None) [])])])])])) 922 944.
Definition t_dereference_assignment_gendecls : list gendecl := [GenDecl 51 [(Some (TypeSpec (Ident 53 (str "Error") (Some 11)) (XStruct [[(Ident 57 (str "TheCode") None)]])))]].
Definition t_dereference_assignment_top : list topdecl := [TopFunc 1; TopFunc 2; TopNode (Node 51 (KOther (str "*ast.GenDecl")) [(Node 52 (KOther (str "*ast.TypeSpec")) [])]); TopFunc 3; TopFunc 4; TopFunc 5; TopFunc 6; TopFunc 7].
Definition t_dereference_assignment_objs : list (N * object) := [(1, Object false 96 (DFunc 1)); (2, Object true 196 DOther); (3, Object true 224 DOther); (4, Object false 347 (DFunc 2)); (5, Object true 449 DOther); (6, Object true 636 DOther); (7, Object true 701 DOther); (8, Object true 766 DOther); (9, Object true 825 DOther); (10, Object true 884 DOther); (11, Object false 526 DType)].
Definition t_dereference_assignment_types : list (N * gotype) := [(5, (TSignature [] [(TNamed 1)] false)); (9, (TNamed 1)); (12, (TNamed 49)); (13, (TNamed 49)); (14, (TNamed 49)); (15, (TBasic (str "string"))); (17, (TPointer (TNamed 49))); (18, (TPointer (TNamed 49))); (19, (TNamed 49)); (21, (TNamed 49)); (22, (TPointer (TNamed 49))); (23, (TNamed 49)); (24, (TNamed 49)); (25, (TBasic (str "string"))); (27, (TPointer (TNamed 49))); (28, (TNamed 49)); (31, (TSignature [] [(TNamed 1)] false)); (35, (TNamed 1)); (38, (TPointer (TNamed 49))); (39, (TPointer (TNamed 49))); (40, (TNamed 49)); (41, (TNamed 49)); (42, (TBasic (str "string"))); (44, (TNamed 49)); (45, (TPointer (TNamed 49))); (46, (TNamed 49)); (47, (TNamed 49)); (48, (TBasic (str "string"))); (50, (TPointer (TNamed 49))); (53, (TNamed 49)); (54, (TStruct [((str "TheCode"), (TBasic (str "string")))])); (57, (TBasic (str "string"))); (58, (TBasic (str "string"))); (62, (TPointer (TNamed 49))); (63, (TPointer (TNamed 49))); (64, (TNamed 49)); (66, (TSignature [] [(TBasic (str "string"))] false)); (70, (TBasic (str "string"))); (73, (TBasic (str "string"))); (74, (TPointer (TNamed 49))); (75, (TBasic (str "string"))); (79, (TPointer (TNamed 49))); (80, (TPointer (TNamed 49))); (81, (TNamed 49)); (83, (TSignature [] [(TBasic (str "string"))] false)); (87, (TBasic (str "string"))); (90, (TBasic (str "string"))); (91, (TPointer (TNamed 49))); (92, (TBasic (str "string"))); (96, (TPointer (TNamed 49))); (97, (TPointer (TNamed 49))); (98, (TNamed 49)); (100, (TSignature [] [(TMap (TBasic (str "string")) (TBasic (str "string")))] false)); (104, (TMap (TBasic (str "string")) (TBasic (str "string")))); (105, (TBasic (str "string"))); (106, (TBasic (str "string"))); (109, TUntypedNil); (113, (TPointer (TNamed 49))); (114, (TPointer (TNamed 49))); (115, (TNamed 49)); (117, (TSignature [] [(TNamed 1)] false)); (121, (TNamed 1)); (124, TUntypedNil); (128, (TPointer (TNamed 49))); (129, (TPointer (TNamed 49))); (130, (TNamed 49)); (132, (TSignature [] [(TBasic (str "string"))] false)); (136, (TBasic (str "string"))); (139, (TBasic (str "string"))); (140, (TSignature [] [(TBasic (str "string"))] false)); (141, (TPointer (TNamed 49))); (142, (TSignature [] [(TBasic (str "string"))] false))].
Definition t_dereference_assignment_values : list (N * constval) := [(15, CString (str "some-error")); (25, CString (str "other-error")); (42, CString (str "some-error")); (48, CString (str "other-error"))].
Definition t_dereference_assignment_uses : list (N * tobj) := [(9, 1); (14, 49); (19, 61); (22, 62); (24, 49); (28, 61); (35, 1); (41, 49); (45, 63); (47, 49); (50, 63); (58, 5); (64, 49); (70, 5); (74, 55); (75, 60); (81, 49); (87, 5); (91, 56); (92, 60); (98, 49); (105, 5); (106, 5); (109, 24); (115, 49); (121, 1); (124, 24); (130, 49); (136, 5); (141, 59); (142, 51)].
Definition t_dereference_assignment_defs : list (N * tobj) := [(4, 47); (12, 61); (17, 62); (30, 48); (38, 63); (53, 49); (62, 55); (65, 50); (79, 56); (82, 51); (96, 57); (99, 52); (113, 58); (116, 53); (128, 59); (131, 54)].
Definition t_dereference_assignment_sels : list (N * (tobj * gotype)) := [(73, (60, (TPointer (TNamed 49)))); (90, (60, (TPointer (TNamed 49)))); (140, (51, (TPointer (TNamed 49))))].
Definition t_dereference_assignment_pkgnames : list (N * gostring) := [].
Definition t_dereference_assignment_objnames : list (N * gostring) := [(1, (str "error")); (2, (str "Error")); (3, (str "?")); (4, (str "bool")); (5, (str "string")); (6, (str "int")); (7, (str "int8")); (8, (str "int16")); (9, (str "int32")); (10, (str "int64")); (11, (str "uint")); (12, (str "uint8")); (13, (str "uint16")); (14, (str "uint32")); (15, (str "uint64")); (16, (str "uintptr")); (17, (str "float32")); (18, (str "float64")); (19, (str "complex64")); (20, (str "complex128")); (21, (str "true")); (22, (str "false")); (23, (str "iota")); (24, (str "nil")); (25, (str "append")); (26, (str "cap")); (27, (str "close")); (28, (str "complex")); (29, (str "copy")); (30, (str "delete")); (31, (str "imag")); (32, (str "len")); (33, (str "make")); (34, (str "new")); (35, (str "panic")); (36, (str "print")); (37, (str "println")); (38, (str "real")); (39, (str "recover")); (40, (str "Errorf")); (41, (str "Sprintf")); (42, (str "Println")); (43, (str "New")); (44, (str "HasPrefix")); (45, (str "Float32")); (46, (str "Float64")); (47, (str "DereferenceAssignment")); (48, (str "DereferenceAssignment2")); (49, (str "Error")); (50, (str "Code")); (51, (str "Message")); (52, (str "Details")); (53, (str "Cause")); (54, (str "Error")); (55, (str "e")); (56, (str "e")); (57, (str "e")); (58, (str "e")); (59, (str "e")); (60, (str "TheCode")); (61, (str "err")); (62, (str "err2")); (63, (str "err"))].
Definition t_dereference_assignment_objtypes : list (N * gotype) := [(1, (TNamed 1)); (2, (TSignature [] [(TBasic (str "string"))] false)); (4, (TBasic (str "bool"))); (5, (TBasic (str "string"))); (6, (TBasic (str "int"))); (7, (TBasic (str "int8"))); (8, (TBasic (str "int16"))); (9, (TBasic (str "int32"))); (10, (TBasic (str "int64"))); (11, (TBasic (str "uint"))); (12, (TBasic (str "uint8"))); (13, (TBasic (str "uint16"))); (14, (TBasic (str "uint32"))); (15, (TBasic (str "uint64"))); (16, (TBasic (str "uintptr"))); (17, (TBasic (str "float32"))); (18, (TBasic (str "float64"))); (19, (TBasic (str "complex64"))); (20, (TBasic (str "complex128"))); (40, (TSignature [(TBasic (str "string")); (TSlice (TInterface 4))] [(TNamed 1)] true)); (41, (TSignature [(TBasic (str "string")); (TSlice (TInterface 4))] [(TBasic (str "string"))] true)); (42, (TSignature [(TSlice (TInterface 4))] [(TBasic (str "int")); (TNamed 1)] true)); (43, (TSignature [(TBasic (str "string"))] [(TNamed 1)] false)); (44, (TSignature [(TBasic (str "string")); (TBasic (str "string"))] [(TBasic (str "bool"))] false)); (45, (TSignature [] [(TBasic (str "float32"))] false)); (46, (TSignature [] [(TBasic (str "float64"))] false)); (47, (TSignature [] [(TNamed 1)] false)); (48, (TSignature [] [(TNamed 1)] false)); (49, (TNamed 49)); (50, (TSignature [] [(TBasic (str "string"))] false)); (51, (TSignature [] [(TBasic (str "string"))] false)); (52, (TSignature [] [(TMap (TBasic (str "string")) (TBasic (str "string")))] false)); (53, (TSignature [] [(TNamed 1)] false)); (54, (TSignature [] [(TBasic (str "string"))] false)); (55, (TPointer (TNamed 49))); (56, (TPointer (TNamed 49))); (57, (TPointer (TNamed 49))); (58, (TPointer (TNamed 49))); (59, (TPointer (TNamed 49))); (60, (TBasic (str "string"))); (61, (TNamed 49)); (62, (TPointer (TNamed 49))); (63, (TPointer (TNamed 49)))].
Definition t_dereference_assignment_under : list (N * gotype) := [(1, (TInterface 1)); (49, (TStruct [((str "TheCode"), (TBasic (str "string")))]))].
Definition t_dereference_assignment_named_methods : list (N * (list gostring)) := [(49, [(str "Code"); (str "Message"); (str "Details"); (str "Cause"); (str "Error")])].
Definition t_dereference_assignment_methods : list (gotype * gostring * tobj) := [((TInterface 1), (str "Error"), 2); ((TNamed 1), (str "Error"), 2); ((TPointer (TNamed 49)), (str "Cause"), 53); ((TPointer (TNamed 49)), (str "Code"), 50); ((TPointer (TNamed 49)), (str "Details"), 52); ((TPointer (TNamed 49)), (str "Error"), 54); ((TPointer (TNamed 49)), (str "Message"), 51)].
Definition t_dereference_assignment_ierr : list gotype := [(TInterface 1); (TNamed 1); (TPointer (TNamed 49))].
Definition t_dereference_assignment_iree : list gotype := [(TPointer (TNamed 49))].
Definition t_dereference_assignment_icause : list gotype := [(TPointer (TNamed 49))].
Definition t_dereference_assignment_impl : list (gotype * gotype) := [((TInterface 1), (TInterface 1)); ((TNamed 1), (TInterface 1)); ((TPointer (TNamed 49)), (TInterface 1))].
Definition t_dereference_assignment_nodes0 : list snode := [SNode 1 (Place 0 1) (Place 943 32) true; SNode 2 (Place 8 1) (Place 29 1) false; SNode 3 (Place 90 7) (Place 280 12) true; SNode 4 (Place 95 7) (Place 116 7) false; SNode 5 (Place 90 7) (Place 124 7) false; SNode 6 (Place 116 7) (Place 118 7) false; SNode 7 (Place 119 7) (Place 124 7) false; SNode 8 (Place 119 7) (Place 124 7) true; SNode 9 (Place 119 7) (Place 124 7) false; SNode 10 (Place 125 7) (Place 280 12) true; SNode 11 (Place 195 8) (Place 221 8) true; SNode 12 (Place 195 8) (Place 198 8) false; SNode 13 (Place 202 8) (Place 221 8) false; SNode 14 (Place 202 8) (Place 207 8) false; SNode 15 (Place 208 8) (Place 220 8) false; SNode 16 (Place 223 9) (Place 235 9) true; SNode 17 (Place 223 9) (Place 227 9) false; SNode 18 (Place 231 9) (Place 235 9) false; SNode 19 (Place 232 9) (Place 235 9) false; SNode 20 (Place 237 10) (Place 265 10) true; SNode 21 (Place 237 10) (Place 242 10) false; SNode 22 (Place 238 10) (Place 242 10) false; SNode 23 (Place 245 10) (Place 265 10) false; SNode 24 (Place 245 10) (Place 250 10) false; SNode 25 (Place 251 10) (Place 264 10) false; SNode 26 (Place 267 11) (Place 278 11) true; SNode 27 (Place 274 11) (Place 278 11) false; SNode 28 (Place 275 11) (Place 278 11) false; SNode 29 (Place 341 18) (Place 518 22) true; SNode 30 (Place 346 18) (Place 368 18) false; SNode 31 (Place 341 18) (Place 376 18) false; SNode 32 (Place 368 18) (Place 370 18) false; SNode 33 (Place 371 18) (Place 376 18) false; SNode 34 (Place 371 18) (Place 376 18) true; SNode 35 (Place 371 18) (Place 376 18) false; SNode 36 (Place 377 18) (Place 518 22) true; SNode 37 (Place 448 19) (Place 475 19) true; SNode 38 (Place 448 19) (Place 451 19) false; SNode 39 (Place 455 19) (Place 475 19) false; SNode 40 (Place 456 19) (Place 475 19) false; SNode 41 (Place 456 19) (Place 461 19) false; SNode 42 (Place 462 19) (Place 474 19) false; SNode 43 (Place 477 20) (Place 504 20) true; SNode 44 (Place 477 20) (Place 481 20) false; SNode 45 (Place 478 20) (Place 481 20) false; SNode 46 (Place 484 20) (Place 504 20) false; SNode 47 (Place 484 20) (Place 489 20) false; SNode 48 (Place 490 20) (Place 503 20) false; SNode 49 (Place 506 21) (Place 516 21) true; SNode 50 (Place 513 21) (Place 516 21) false; SNode 51 (Place 520 24) (Place 627 26) true; SNode 52 (Place 525 24) (Place 627 26) true; SNode 53 (Place 525 24) (Place 530 24) false; SNode 54 (Place 531 24) (Place 627 26) false; SNode 55 (Place 538 24) (Place 627 26) false; SNode 56 (Place 611 25) (Place 625 25) true; SNode 57 (Place 611 25) (Place 618 25) false; SNode 58 (Place 619 25) (Place 625 25) false; SNode 59 (Place 629 28) (Place 693 28) true; SNode 60 (Place 634 28) (Place 644 28) false; SNode 61 (Place 635 28) (Place 643 28) true; SNode 62 (Place 635 28) (Place 636 28) false; SNode 63 (Place 637 28) (Place 643 28) false; SNode 64 (Place 638 28) (Place 643 28) false; SNode 65 (Place 645 28) (Place 649 28) false; SNode 66 (Place 629 28) (Place 658 28) false; SNode 67 (Place 649 28) (Place 651 28) false; SNode 68 (Place 652 28) (Place 658 28) false; SNode 69 (Place 652 28) (Place 658 28) true; SNode 70 (Place 652 28) (Place 658 28) false; SNode 71 (Place 673 28) (Place 693 28) true; SNode 72 (Place 675 28) (Place 691 28) true; SNode 73 (Place 682 28) (Place 691 28) false; SNode 74 (Place 682 28) (Place 683 28) false; SNode 75 (Place 684 28) (Place 691 28) false; SNode 76 (Place 694 29) (Place 758 29) true; SNode 77 (Place 699 29) (Place 709 29) false; SNode 78 (Place 700 29) (Place 708 29) true; SNode 79 (Place 700 29) (Place 701 29) false; SNode 80 (Place 702 29) (Place 708 29) false; SNode 81 (Place 703 29) (Place 708 29) false; SNode 82 (Place 710 29) (Place 717 29) false; SNode 83 (Place 694 29) (Place 726 29) false; SNode 84 (Place 717 29) (Place 719 29) false; SNode 85 (Place 720 29) (Place 726 29) false; SNode 86 (Place 720 29) (Place 726 29) true; SNode 87 (Place 720 29) (Place 726 29) false; SNode 88 (Place 738 29) (Place 758 29) true; SNode 89 (Place 740 29) (Place 756 29) true; SNode 90 (Place 747 29) (Place 756 29) false; SNode 91 (Place 747 29) (Place 748 29) false; SNode 92 (Place 749 29) (Place 756 29) false; SNode 93 (Place 759 30) (Place 817 30) true; SNode 94 (Place 764 30) (Place 774 30) false; SNode 95 (Place 765 30) (Place 773 30) true; SNode 96 (Place 765 30) (Place 766 30) false; SNode 97 (Place 767 30) (Place 773 30) false; SNode 98 (Place 768 30) (Place 773 30) false; SNode 99 (Place 775 30) (Place 782 30) false; SNode 100 (Place 759 30) (Place 802 30) false; SNode 101 (Place 782 30) (Place 784 30) false; SNode 102 (Place 785 30) (Place 802 30) false; SNode 103 (Place 785 30) (Place 802 30) true; SNode 104 (Place 785 30) (Place 802 30) false; SNode 105 (Place 789 30) (Place 795 30) false; SNode 106 (Place 796 30) (Place 802 30) false; SNode 107 (Place 803 30) (Place 817 30) true; SNode 108 (Place 805 30) (Place 815 30) true; SNode 109 (Place 812 30) (Place 815 30) false; SNode 110 (Place 818 31) (Place 876 31) true; SNode 111 (Place 823 31) (Place 833 31) false; SNode 112 (Place 824 31) (Place 832 31) true; SNode 113 (Place 824 31) (Place 825 31) false; SNode 114 (Place 826 31) (Place 832 31) false; SNode 115 (Place 827 31) (Place 832 31) false; SNode 116 (Place 834 31) (Place 839 31) false; SNode 117 (Place 818 31) (Place 847 31) false; SNode 118 (Place 839 31) (Place 841 31) false; SNode 119 (Place 842 31) (Place 847 31) false; SNode 120 (Place 842 31) (Place 847 31) true; SNode 121 (Place 842 31) (Place 847 31) false; SNode 122 (Place 862 31) (Place 876 31) true; SNode 123 (Place 864 31) (Place 874 31) true; SNode 124 (Place 871 31) (Place 874 31) false; SNode 125 (Place 877 32) (Place 943 32) true; SNode 126 (Place 882 32) (Place 892 32) false; SNode 127 (Place 883 32) (Place 891 32) true; SNode 128 (Place 883 32) (Place 884 32) false; SNode 129 (Place 885 32) (Place 891 32) false; SNode 130 (Place 886 32) (Place 891 32) false; SNode 131 (Place 893 32) (Place 898 32) false; SNode 132 (Place 877 32) (Place 907 32) false; SNode 133 (Place 898 32) (Place 900 32) false; SNode 134 (Place 901 32) (Place 907 32) false; SNode 135 (Place 901 32) (Place 907 32) true; SNode 136 (Place 901 32) (Place 907 32) false; SNode 137 (Place 921 32) (Place 943 32) true; SNode 138 (Place 923 32) (Place 941 32) true; SNode 139 (Place 930 32) (Place 941 32) false; SNode 140 (Place 930 32) (Place 939 32) false; SNode 141 (Place 930 32) (Place 931 32) false; SNode 142 (Place 932 32) (Place 939 32) false].
Definition t_dereference_assignment_cgroups0 : list cgroup := [CGroup (Place 31 3) (Place 89 6) [(str "// Errors:"); (str "//"); (str "//    - some-error --"); (str "//    - other-error --")]; CGroup (Place 127 7) (Place 193 7) [(str "// want DereferenceAssignment:""ErrorCodes: other-error some-error""")]; CGroup (Place 282 14) (Place 340 17) [(str "// Errors:"); (str "//"); (str "//    - some-error --"); (str "//    - other-error --")]; CGroup (Place 379 18) (Place 446 18) [(str "// want DereferenceAssignment2:""ErrorCodes: other-error some-error""")]; CGroup (Place 540 24) (Place 609 24) [(str "// want Error:`ErrorType{Field:{Name:""TheCode"", Position:0}, Codes:}`")]].
Definition t_dereference_assignment_files : list source_file := [SourceFile t_dereference_assignment_nodes0 t_dereference_assignment_cgroups0].
Definition t_dereference_assignment_info : typeinfo := map_info (list_to_map t_dereference_assignment_types) (list_to_map t_dereference_assignment_values) (list_to_map t_dereference_assignment_uses) (list_to_map t_dereference_assignment_defs) (list_to_map t_dereference_assignment_sels) (list_to_set [1; 4; 5; 6; 7; 8; 9; 10; 11; 12; 13; 14; 15; 16; 17; 18; 19; 20; 49]) (list_to_map t_dereference_assignment_pkgnames) (list_to_map t_dereference_assignment_objnames) (list_to_map t_dereference_assignment_objtypes) (list_to_map t_dereference_assignment_under) t_dereference_assignment_methods t_dereference_assignment_ierr t_dereference_assignment_iree t_dereference_assignment_icause t_dereference_assignment_impl (list_to_map t_dereference_assignment_named_methods).
Definition t_dereference_assignment : package := Package (list_to_map [(1, t_dereference_assignment_f1); (2, t_dereference_assignment_f2); (3, t_dereference_assignment_f3); (4, t_dereference_assignment_f4); (5, t_dereference_assignment_f5); (6, t_dereference_assignment_f6); (7, t_dereference_assignment_f7)]) [1; 2; 3; 4; 5; 6; 7] t_dereference_assignment_gendecls t_dereference_assignment_top (list_to_map t_dereference_assignment_objs) (fun id => default [] (createCommentMap t_dereference_assignment_files id)) t_dereference_assignment_info.
Definition t_dereference_assignment_rank : gostring -> nat := fun n => default 0%nat ((list_to_map [] : gmap gostring nat) !! n).

(** dereference_assignment: 2 diagnostics and 3 facts, as its "want" comments demand. *)
Theorem t_dereference_assignment_ascending :
  report (run_test t_dereference_assignment ascending (Facts ∅ ∅ ∅ ∅)) = Some [
    (3, (str "function ""DereferenceAssignment"" has a mismatch of declared and actual error codes: unused codes: [other-error]")) (* assign.go:7 *);
    (29, (str "function ""DereferenceAssignment2"" has a mismatch of declared and actual error codes: unused codes: [other-error]")) (* assign.go:18 *)] /\
  fact_texts (facts_after_test (run_test t_dereference_assignment ascending (Facts ∅ ∅ ∅ ∅))) [47; 48; 49; 50; 51; 52; 53; 54; 55; 56; 57; 58; 59; 61; 62; 63] = [
    (47, (str "ErrorCodes: other-error some-error")) (* assign.go:7 DereferenceAssignment *);
    (48, (str "ErrorCodes: other-error some-error")) (* assign.go:18 DereferenceAssignment2 *);
    (49, (str "ErrorType{Field:{Name:""TheCode"", Position:0}, Codes:}")) (* assign.go:24 Error *)].
Proof. vm_compute. split; reflexivity. Qed.

(** dereference_assignment: 2 diagnostics and 3 facts, as its "want" comments demand. *)
Theorem t_dereference_assignment_descending :
  report (run_test t_dereference_assignment descending (Facts ∅ ∅ ∅ ∅)) = Some [
    (29, (str "function ""DereferenceAssignment2"" has a mismatch of declared and actual error codes: unused codes: [other-error]")) (* assign.go:18 *);
    (3, (str "function ""DereferenceAssignment"" has a mismatch of declared and actual error codes: unused codes: [other-error]")) (* assign.go:7 *)] /\
  fact_texts (facts_after_test (run_test t_dereference_assignment descending (Facts ∅ ∅ ∅ ∅))) [47; 48; 49; 50; 51; 52; 53; 54; 55; 56; 57; 58; 59; 61; 62; 63] = [
    (47, (str "ErrorCodes: other-error some-error")) (* assign.go:7 DereferenceAssignment *);
    (48, (str "ErrorCodes: other-error some-error")) (* assign.go:18 DereferenceAssignment2 *);
    (49, (str "ErrorType{Field:{Name:""TheCode"", Position:0}, Codes:}")) (* assign.go:24 Error *)].
Proof. vm_compute. split; reflexivity. Qed.

(** The presuppositions of the general theorems that this package satisfies (not: sound_ok). *)
Theorem t_dereference_assignment_presuppositions :
  (forall fa, usable_functions t_dereference_assignment fa) /\
  (forall fa, no_literal_recursion t_dereference_assignment (collectFunctions t_dereference_assignment) fa) /\
  (forall fa, literals_apart t_dereference_assignment (collectFunctions t_dereference_assignment) fa) /\
  types_usable t_dereference_assignment /\
  (forall w n, occurs t_dereference_assignment w n -> ~ ill_formed t_dereference_assignment w n) /\
  distinct_definitions t_dereference_assignment /\
  interfaces_ok t_dereference_assignment /\
  uses_resolved t_dereference_assignment (collectFunctions t_dereference_assignment) /\
  Forall layout t_dereference_assignment_files.
Proof.
  split_and!.
  - intros fa; apply package_usable_spec; vm_compute; reflexivity.
  - intros fa; apply recursion_check_spec; vm_compute; reflexivity.
  - intros fa; apply apart_spec; vm_compute; reflexivity.
  - apply types_ok_spec; vm_compute; reflexivity.
  - apply package_formed_spec; vm_compute; reflexivity.
  - apply definitions_check_spec; vm_compute; reflexivity.
  - apply (interfaces_check_spec t_dereference_assignment t_dereference_assignment_rank); vm_compute; reflexivity.
  - apply uses_check_spec; vm_compute; reflexivity.
  - apply layouts_spec; vm_compute; reflexivity.
Qed.
