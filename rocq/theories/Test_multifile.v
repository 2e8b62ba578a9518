(** * The test package multifile of /repo/analysis/testdata/src, run on the model.  Generated by tools/conform.py; see Conform.v. *)
From Coq Require Import Ascii String.
From stdpp Require Import base list gmap.
From Verif Require Import GoString Scc Engine Constant CommentText CommentMap Phase FactText Conform Claims Analyse Verify SpecTaint SpecProgram SpecLiterals SpecCodeMethod SpecInterfaces SpecSites SpecCrash SpecSound SpecWhole SpecLayout Checkers RecursionChecker LiteralChecker CodeCheckers FormChecker InterfaceChecker SoundChecker ChainChecker ExampleLayout GoAst.
Local Open Scope N_scope.
Definition t_multifile_f1 : func := Func 3 (Some (DeclInfo (Ident 4 (str "Func1") (Some 1)) None (Some (comment_text [(str "// Errors:"); (str "//"); (str "//    - func1-error --"); (str "//    - func2-error --")])))) (FuncType 5 [] (Some [(Field 8 [] 9)]) 93) (Some (Node 10 (KOther (str "*ast.BlockStmt")) [(Node 11 (KOther (str "*ast.IfStmt")) [(Node 12 (KIdent (str "false") None) []); (Node 13 (KOther (str "*ast.BlockStmt")) [(Node 14 KReturn [(Node 15 KCall [(Node 16 (KIdent (str "Func2") None) [])])])])]); (Node 17 KReturn [(Node 18 (KUnary true) [(Node 19 KComposite [(Node 21 KBasicLit [])])])])])) 99 216.
Definition t_multifile_f2 : func := Func 22 (Some (DeclInfo (Ident 23 (str "GlobalFromOtherFile") (Some 2)) None (Some (comment_text [(str "// Errors:"); (str "//"); (str "//    - local-error --")])))) (FuncType 24 [] (Some [(Field 27 [] 28)]) 282) (Some (Node 29 (KOther (str "*ast.BlockStmt")) [(Node 30 (KOther (str "*ast.IfStmt")) [(Node 31 (KIdent (str "true") None) []); (Node 32 (KOther (str "*ast.BlockStmt")) [(Node 33 KReturn [(Node 34 (KIdent (str "globalError") None) [])])])]); (Node 35 KReturn [(Node 36 (KUnary true) [(Node 37 KComposite [(Node 39 KBasicLit [])])])])])) 288 487.
Definition t_multifile_f3 : func := Func 48 (Some (DeclInfo (Ident 54 (str "Code") None) (Some [(Field 50 [(Ident 51 (str "e") (Some 3))] 52)]) None)) (FuncType 55 [] (Some [(Field 58 [] 59)]) 621) (Some (Node 60 (KOther (str "*ast.BlockStmt")) [(Node 61 KReturn [(Node 62 KSelector [(Node 63 (KIdent (str "e") (Some 3)) []); (Node 64 (KIdent (str "TheCode") None) [])])])])) 642 662.
Definition t_multifile_f4 : func := Func 65 (Some (DeclInfo (Ident 71 (str "Message") None) (Some [(Field 67 [(Ident 68 (str "e") (Some 4))] 69)]) None)) (FuncType 72 [] (Some [(Field 75 [] 76)]) 689) (Some (Node 77 (KOther (str "*ast.BlockStmt")) [(Node 78 KReturn [(Node 79 KSelector [(Node 80 (KIdent (str "e") (Some 4)) []); (Node 81 (KIdent (str "TheCode") None) [])])])])) 707 727.
Definition t_multifile_f5 : func := Func 82 (Some (DeclInfo (Ident 88 (str "Details") None) (Some [(Field 84 [(Ident 85 (str "e") (Some 5))] 86)]) None)) (FuncType 89 [] (Some [(Field 92 [] 93)]) 754) (Some (Node 96 (KOther (str "*ast.BlockStmt")) [(Node 97 KReturn [(Node 98 (KIdent (str "nil") None) [])])])) 772 786.
Definition t_multifile_f6 : func := Func 99 (Some (DeclInfo (Ident 105 (str "Cause") None) (Some [(Field 101 [(Ident 102 (str "e") (Some 6))] 103)]) None)) (FuncType 106 [] (Some [(Field 109 [] 110)]) 811) (Some (Node 111 (KOther (str "*ast.BlockStmt")) [(Node 112 KReturn [(Node 113 (KIdent (str "nil") None) [])])])) 831 845.
Definition t_multifile_f7 : func := Func 114 (Some (DeclInfo (Ident 120 (str "Error") None) (Some [(Field 116 [(Ident 117 (str "e") (Some 7))] 118)]) None)) (FuncType 121 [] (Some [(Field 124 [] 125)]) 870) (Some (Node 126 (KOther (str "*ast.BlockStmt")) [(Node 127 KReturn [(Node 128 KCall [(Node 129 KSelector [(Node 130 (KIdent (str "e") (Some 7)) []); (Node 131 (KIdent (str "Message") None) [])])])])])) 890 912.
Definition t_multifile_f8 : func := Func 138 (Some (DeclInfo (Ident 139 (str "Func2") (Some 8)) None (Some (comment_text [(str "// Errors:"); (str "//"); (str "//    - func2-error --")])))) (FuncType 140 [] (Some [(Field 143 [] 144)]) 1006) (Some (Node 145 (KOther (str "*ast.BlockStmt")) [(Node 146 KReturn [(Node 147 (KUnary true) [(Node 148 KComposite [(Node 150 KBasicLit [])])])])])) 1012 1085.
Definition t_multifile_gendecls : list gendecl := [GenDecl 40 [(Some (TypeSpec (Ident 42 (str "Error") (Some 9)) (XStruct [[(Ident 46 (str "TheCode") None)]])))]; GenDecl 134 [None]].
Definition t_multifile_top : list topdecl := [TopFunc 1; TopFunc 2; TopNode (Node 40 (KOther (str "*ast.GenDecl")) [(Node 41 (KOther (str "*ast.TypeSpec")) [])]); TopFunc 3; TopFunc 4; TopFunc 5; TopFunc 6; TopFunc 7; TopNode (Node 134 (KOther (str "*ast.GenDecl")) [(Node 135 (KValueSpec [(Ident 136 (str "globalError") (Some 10))] (Some 137)) [])]); TopFunc 8].
Definition t_multifile_objs : list (N * object) := [(1, Object false 85 (DFunc 1)); (2, Object false 260 (DFunc 2)); (3, Object true 604 DOther); (4, Object true 669 DOther); (5, Object true 734 DOther); (6, Object true 793 DOther); (7, Object true 852 DOther); (8, Object false 998 (DFunc 8)); (9, Object false 494 DType); (10, Object true 937 (DValueSpec [(Ident 136 (str "globalError") (Some 10))] []))].
Definition t_multifile_types : list (N * gotype) := [(5, (TSignature [] [(TNamed 1)] false)); (9, (TNamed 1)); (12, (TBasic (str "bool"))); (15, (TNamed 1)); (16, (TSignature [] [(TNamed 1)] false)); (18, (TPointer (TNamed 49))); (19, (TNamed 49)); (20, (TNamed 49)); (21, (TBasic (str "string"))); (24, (TSignature [] [(TNamed 1)] false)); (28, (TNamed 1)); (31, (TBasic (str "bool"))); (34, (TNamed 1)); (36, (TPointer (TNamed 49))); (37, (TNamed 49)); (38, (TNamed 49)); (39, (TBasic (str "string"))); (42, (TNamed 49)); (43, (TStruct [((str "TheCode"), (TBasic (str "string")))])); (46, (TBasic (str "string"))); (47, (TBasic (str "string"))); (51, (TPointer (TNamed 49))); (52, (TPointer (TNamed 49))); (53, (TNamed 49)); (55, (TSignature [] [(TBasic (str "string"))] false)); (59, (TBasic (str "string"))); (62, (TBasic (str "string"))); (63, (TPointer (TNamed 49))); (64, (TBasic (str "string"))); (68, (TPointer (TNamed 49))); (69, (TPointer (TNamed 49))); (70, (TNamed 49)); (72, (TSignature [] [(TBasic (str "string"))] false)); (76, (TBasic (str "string"))); (79, (TBasic (str "string"))); (80, (TPointer (TNamed 49))); (81, (TBasic (str "string"))); (85, (TPointer (TNamed 49))); (86, (TPointer (TNamed 49))); (87, (TNamed 49)); (89, (TSignature [] [(TMap (TBasic (str "string")) (TBasic (str "string")))] false)); (93, (TMap (TBasic (str "string")) (TBasic (str "string")))); (94, (TBasic (str "string"))); (95, (TBasic (str "string"))); (98, TUntypedNil); (102, (TPointer (TNamed 49))); (103, (TPointer (TNamed 49))); (104, (TNamed 49)); (106, (TSignature [] [(TNamed 1)] false)); (110, (TNamed 1)); (113, TUntypedNil); (117, (TPointer (TNamed 49))); (118, (TPointer (TNamed 49))); (119, (TNamed 49)); (121, (TSignature [] [(TBasic (str "string"))] false)); (125, (TBasic (str "string"))); (128, (TBasic (str "string"))); (129, (TSignature [] [(TBasic (str "string"))] false)); (130, (TPointer (TNamed 49))); (131, (TSignature [] [(TBasic (str "string"))] false)); (136, (TNamed 1)); (137, (TNamed 1)); (140, (TSignature [] [(TNamed 1)] false)); (144, (TNamed 1)); (147, (TPointer (TNamed 49))); (148, (TNamed 49)); (149, (TNamed 49)); (150, (TBasic (str "string")))].
Definition t_multifile_values : list (N * constval) := [(12, COther); (21, CString (str "func1-error")); (31, COther); (39, CString (str "local-error")); (150, CString (str "func2-error"))].
Definition t_multifile_uses : list (N * tobj) := [(9, 1); (12, 22); (16, 56); (20, 49); (28, 1); (31, 21); (34, 55); (38, 49); (47, 5); (53, 49); (59, 5); (63, 57); (64, 62); (70, 49); (76, 5); (80, 58); (81, 62); (87, 49); (94, 5); (95, 5); (98, 24); (104, 49); (110, 1); (113, 24); (119, 49); (125, 5); (130, 61); (131, 51); (137, 1); (144, 1); (149, 49)].
Definition t_multifile_defs : list (N * tobj) := [(4, 47); (23, 48); (42, 49); (51, 57); (54, 50); (68, 58); (71, 51); (85, 59); (88, 52); (102, 60); (105, 53); (117, 61); (120, 54); (136, 55); (139, 56)].
Definition t_multifile_sels : list (N * (tobj * gotype)) := [(62, (62, (TPointer (TNamed 49)))); (79, (62, (TPointer (TNamed 49)))); (129, (51, (TPointer (TNamed 49))))].
Definition t_multifile_pkgnames : list (N * gostring) := [].
Definition t_multifile_objnames : list (N * gostring) := [(1, (str "error")); (2, (str "Error")); (3, (str "?")); (4, (str "bool")); (5, (str "string")); (6, (str "int")); (7, (str "int8")); (8, (str "int16")); (9, (str "int32")); (10, (str "int64")); (11, (str "uint")); (12, (str "uint8")); (13, (str "uint16")); (14, (str "uint32")); (15, (str "uint64")); (16, (str "uintptr")); (17, (str "float32")); (18, (str "float64")); (19, (str "complex64")); (20, (str "complex128")); (21, (str "true")); (22, (str "false")); (23, (str "iota")); (24, (str "nil")); (25, (str "append")); (26, (str "cap")); (27, (str "close")); (28, (str "complex")); (29, (str "copy")); (30, (str "delete")); (31, (str "imag")); (32, (str "len")); (33, (str "make")); (34, (str "new")); (35, (str "panic")); (36, (str "print")); (37, (str "println")); (38, (str "real")); (39, (str "recover")); (40, (str "Errorf")); (41, (str "Sprintf")); (42, (str "Println")); (43, (str "New")); (44, (str "HasPrefix")); (45, (str "Float32")); (46, (str "Float64")); (47, (str "Func1")); (48, (str "GlobalFromOtherFile")); (49, (str "Error")); (50, (str "Code")); (51, (str "Message")); (52, (str "Details")); (53, (str "Cause")); (54, (str "Error")); (55, (str "globalError")); (56, (str "Func2")); (57, (str "e")); (58, (str "e")); (59, (str "e")); (60, (str "e")); (61, (str "e")); (62, (str "TheCode"))].
Definition t_multifile_objtypes : list (N * gotype) := [(1, (TNamed 1)); (2, (TSignature [] [(TBasic (str "string"))] false)); (4, (TBasic (str "bool"))); (5, (TBasic (str "string"))); (6, (TBasic (str "int"))); (7, (TBasic (str "int8"))); (8, (TBasic (str "int16"))); (9, (TBasic (str "int32"))); (10, (TBasic (str "int64"))); (11, (TBasic (str "uint"))); (12, (TBasic (str "uint8"))); (13, (TBasic (str "uint16"))); (14, (TBasic (str "uint32"))); (15, (TBasic (str "uint64"))); (16, (TBasic (str "uintptr"))); (17, (TBasic (str "float32"))); (18, (TBasic (str "float64"))); (19, (TBasic (str "complex64"))); (20, (TBasic (str "complex128"))); (40, (TSignature [(TBasic (str "string")); (TSlice (TInterface 4))] [(TNamed 1)] true)); (41, (TSignature [(TBasic (str "string")); (TSlice (TInterface 4))] [(TBasic (str "string"))] true)); (42, (TSignature [(TSlice (TInterface 4))] [(TBasic (str "int")); (TNamed 1)] true)); (43, (TSignature [(TBasic (str "string"))] [(TNamed 1)] false)); (44, (TSignature [(TBasic (str "string")); (TBasic (str "string"))] [(TBasic (str "bool"))] false)); (45, (TSignature [] [(TBasic (str "float32"))] false)); (46, (TSignature [] [(TBasic (str "float64"))] false)); (47, (TSignature [] [(TNamed 1)] false)); (48, (TSignature [] [(TNamed 1)] false)); (49, (TNamed 49)); (50, (TSignature [] [(TBasic (str "string"))] false)); (51, (TSignature [] [(TBasic (str "string"))] false)); (52, (TSignature [] [(TMap (TBasic (str "string")) (TBasic (str "string")))] false)); (53, (TSignature [] [(TNamed 1)] false)); (54, (TSignature [] [(TBasic (str "string"))] false)); (55, (TNamed 1)); (56, (TSignature [] [(TNamed 1)] false)); (57, (TPointer (TNamed 49))); (58, (TPointer (TNamed 49))); (59, (TPointer (TNamed 49))); (60, (TPointer (TNamed 49))); (61, (TPointer (TNamed 49))); (62, (TBasic (str "string")))].
Definition t_multifile_under : list (N * gotype) := [(1, (TInterface 1)); (49, (TStruct [((str "TheCode"), (TBasic (str "string")))]))].
Definition t_multifile_named_methods : list (N * (list gostring)) := [(49, [(str "Code"); (str "Message"); (str "Details"); (str "Cause"); (str "Error")])].
Definition t_multifile_methods : list (gotype * gostring * tobj) := [((TInterface 1), (str "Error"), 2); ((TNamed 1), (str "Error"), 2); ((TPointer (TNamed 49)), (str "Cause"), 53); ((TPointer (TNamed 49)), (str "Code"), 50); ((TPointer (TNamed 49)), (str "Details"), 52); ((TPointer (TNamed 49)), (str "Error"), 54); ((TPointer (TNamed 49)), (str "Message"), 51)].
Definition t_multifile_ierr : list gotype := [(TInterface 1); (TNamed 1); (TPointer (TNamed 49))].
Definition t_multifile_iree : list gotype := [(TPointer (TNamed 49))].
Definition t_multifile_icause : list gotype := [(TPointer (TNamed 49))].
Definition t_multifile_impl : list (gotype * gotype) := [((TInterface 1), (TInterface 1)); ((TNamed 1), (TInterface 1)); ((TPointer (TNamed 49)), (TInterface 1))].
Definition t_multifile_nodes0 : list snode := [SNode 1 (Place 0 1) (Place 911 32) true; SNode 2 (Place 8 1) (Place 17 1) false; SNode 3 (Place 79 7) (Place 215 12) true; SNode 4 (Place 84 7) (Place 89 7) false; SNode 5 (Place 79 7) (Place 97 7) false; SNode 6 (Place 89 7) (Place 91 7) false; SNode 7 (Place 92 7) (Place 97 7) false; SNode 8 (Place 92 7) (Place 97 7) true; SNode 9 (Place 92 7) (Place 97 7) false; SNode 10 (Place 98 7) (Place 215 12) true; SNode 11 (Place 153 8) (Place 183 10) true; SNode 12 (Place 156 8) (Place 161 8) false; SNode 13 (Place 162 8) (Place 183 10) true; SNode 14 (Place 166 9) (Place 180 9) true; SNode 15 (Place 173 9) (Place 180 9) false; SNode 16 (Place 173 9) (Place 178 9) false; SNode 17 (Place 185 11) (Place 213 11) true; SNode 18 (Place 192 11) (Place 213 11) false; SNode 19 (Place 193 11) (Place 213 11) false; SNode 20 (Place 193 11) (Place 198 11) false; SNode 21 (Place 199 11) (Place 212 11) false; SNode 22 (Place 254 17) (Place 486 22) true; SNode 23 (Place 259 17) (Place 278 17) false; SNode 24 (Place 254 17) (Place 286 17) false; SNode 25 (Place 278 17) (Place 280 17) false; SNode 26 (Place 281 17) (Place 286 17) false; SNode 27 (Place 281 17) (Place 286 17) true; SNode 28 (Place 281 17) (Place 286 17) false; SNode 29 (Place 287 17) (Place 486 22) true; SNode 30 (Place 344 18) (Place 454 20) true; SNode 31 (Place 347 18) (Place 351 18) false; SNode 32 (Place 352 18) (Place 454 20) true; SNode 33 (Place 356 19) (Place 374 19) true; SNode 34 (Place 363 19) (Place 374 19) false; SNode 35 (Place 456 21) (Place 484 21) true; SNode 36 (Place 463 21) (Place 484 21) false; SNode 37 (Place 464 21) (Place 484 21) false; SNode 38 (Place 464 21) (Place 469 21) false; SNode 39 (Place 470 21) (Place 483 21) false; SNode 40 (Place 488 24) (Place 595 26) true; SNode 41 (Place 493 24) (Place 595 26) true; SNode 42 (Place 493 24) (Place 498 24) false; SNode 43 (Place 499 24) (Place 595 26) false; SNode 44 (Place 506 24) (Place 595 26) false; SNode 45 (Place 579 25) (Place 593 25) true; SNode 46 (Place 579 25) (Place 586 25) false; SNode 47 (Place 587 25) (Place 593 25) false; SNode 48 (Place 597 28) (Place 661 28) true; SNode 49 (Place 602 28) (Place 612 28) false; SNode 50 (Place 603 28) (Place 611 28) true; SNode 51 (Place 603 28) (Place 604 28) false; SNode 52 (Place 605 28) (Place 611 28) false; SNode 53 (Place 606 28) (Place 611 28) false; SNode 54 (Place 613 28) (Place 617 28) false; SNode 55 (Place 597 28) (Place 626 28) false; SNode 56 (Place 617 28) (Place 619 28) false; SNode 57 (Place 620 28) (Place 626 28) false; SNode 58 (Place 620 28) (Place 626 28) true; SNode 59 (Place 620 28) (Place 626 28) false; SNode 60 (Place 641 28) (Place 661 28) true; SNode 61 (Place 643 28) (Place 659 28) true; SNode 62 (Place 650 28) (Place 659 28) false; SNode 63 (Place 650 28) (Place 651 28) false; SNode 64 (Place 652 28) (Place 659 28) false; SNode 65 (Place 662 29) (Place 726 29) true; SNode 66 (Place 667 29) (Place 677 29) false; SNode 67 (Place 668 29) (Place 676 29) true; SNode 68 (Place 668 29) (Place 669 29) false; SNode 69 (Place 670 29) (Place 676 29) false; SNode 70 (Place 671 29) (Place 676 29) false; SNode 71 (Place 678 29) (Place 685 29) false; SNode 72 (Place 662 29) (Place 694 29) false; SNode 73 (Place 685 29) (Place 687 29) false; SNode 74 (Place 688 29) (Place 694 29) false; SNode 75 (Place 688 29) (Place 694 29) true; SNode 76 (Place 688 29) (Place 694 29) false; SNode 77 (Place 706 29) (Place 726 29) true; SNode 78 (Place 708 29) (Place 724 29) true; SNode 79 (Place 715 29) (Place 724 29) false; SNode 80 (Place 715 29) (Place 716 29) false; SNode 81 (Place 717 29) (Place 724 29) false; SNode 82 (Place 727 30) (Place 785 30) true; SNode 83 (Place 732 30) (Place 742 30) false; SNode 84 (Place 733 30) (Place 741 30) true; SNode 85 (Place 733 30) (Place 734 30) false; SNode 86 (Place 735 30) (Place 741 30) false; SNode 87 (Place 736 30) (Place 741 30) false; SNode 88 (Place 743 30) (Place 750 30) false; SNode 89 (Place 727 30) (Place 770 30) false; SNode 90 (Place 750 30) (Place 752 30) false; SNode 91 (Place 753 30) (Place 770 30) false; SNode 92 (Place 753 30) (Place 770 30) true; SNode 93 (Place 753 30) (Place 770 30) false; SNode 94 (Place 757 30) (Place 763 30) false; SNode 95 (Place 764 30) (Place 770 30) false; SNode 96 (Place 771 30) (Place 785 30) true; SNode 97 (Place 773 30) (Place 783 30) true; SNode 98 (Place 780 30) (Place 783 30) false; SNode 99 (Place 786 31) (Place 844 31) true; SNode 100 (Place 791 31) (Place 801 31) false; SNode 101 (Place 792 31) (Place 800 31) true; SNode 102 (Place 792 31) (Place 793 31) false; SNode 103 (Place 794 31) (Place 800 31) false; SNode 104 (Place 795 31) (Place 800 31) false; SNode 105 (Place 802 31) (Place 807 31) false; SNode 106 (Place 786 31) (Place 815 31) false; SNode 107 (Place 807 31) (Place 809 31) false; SNode 108 (Place 810 31) (Place 815 31) false; SNode 109 (Place 810 31) (Place 815 31) true; SNode 110 (Place 810 31) (Place 815 31) false; SNode 111 (Place 830 31) (Place 844 31) true; SNode 112 (Place 832 31) (Place 842 31) true; SNode 113 (Place 839 31) (Place 842 31) false; SNode 114 (Place 845 32) (Place 911 32) true; SNode 115 (Place 850 32) (Place 860 32) false; SNode 116 (Place 851 32) (Place 859 32) true; SNode 117 (Place 851 32) (Place 852 32) false; SNode 118 (Place 853 32) (Place 859 32) false; SNode 119 (Place 854 32) (Place 859 32) false; SNode 120 (Place 861 32) (Place 866 32) false; SNode 121 (Place 845 32) (Place 875 32) false; SNode 122 (Place 866 32) (Place 868 32) false; SNode 123 (Place 869 32) (Place 875 32) false; SNode 124 (Place 869 32) (Place 875 32) true; SNode 125 (Place 869 32) (Place 875 32) false; SNode 126 (Place 889 32) (Place 911 32) true; SNode 127 (Place 891 32) (Place 909 32) true; SNode 128 (Place 898 32) (Place 909 32) false; SNode 129 (Place 898 32) (Place 907 32) false; SNode 130 (Place 898 32) (Place 899 32) false; SNode 131 (Place 900 32) (Place 907 32) false].
Definition t_multifile_cgroups0 : list cgroup := [CGroup (Place 19 3) (Place 78 6) [(str "// Errors:"); (str "//"); (str "//    - func1-error --"); (str "//    - func2-error --")]; CGroup (Place 100 7) (Place 151 7) [(str "// want Func1:""ErrorCodes: func1-error func2-error""")]; CGroup (Place 217 14) (Place 253 16) [(str "// Errors:"); (str "//"); (str "//    - local-error --")]; CGroup (Place 289 17) (Place 342 17) [(str "// want GlobalFromOtherFile:""ErrorCodes: local-error""")]; CGroup (Place 375 19) (Place 451 19) [(str "// want ""returned error may not be a parameter, receiver or global variable""")]; CGroup (Place 508 24) (Place 577 24) [(str "// want Error:`ErrorType{Field:{Name:""TheCode"", Position:0}, Codes:}`")]].
Definition t_multifile_nodes1 : list snode := [SNode 132 (Place 0 1) (Place 171 10) true; SNode 133 (Place 8 1) (Place 17 1) false; SNode 134 (Place 19 3) (Place 40 3) true; SNode 135 (Place 23 3) (Place 40 3) true; SNode 136 (Place 23 3) (Place 34 3) false; SNode 137 (Place 35 3) (Place 40 3) false; SNode 138 (Place 79 8) (Place 171 10) true; SNode 139 (Place 84 8) (Place 89 8) false; SNode 140 (Place 79 8) (Place 97 8) false; SNode 141 (Place 89 8) (Place 91 8) false; SNode 142 (Place 92 8) (Place 97 8) false; SNode 143 (Place 92 8) (Place 97 8) true; SNode 144 (Place 92 8) (Place 97 8) false; SNode 145 (Place 98 8) (Place 171 10) true; SNode 146 (Place 141 9) (Place 169 9) true; SNode 147 (Place 148 9) (Place 169 9) false; SNode 148 (Place 149 9) (Place 169 9) false; SNode 149 (Place 149 9) (Place 154 9) false; SNode 150 (Place 155 9) (Place 168 9) false].
Definition t_multifile_cgroups1 : list cgroup := [CGroup (Place 42 5) (Place 78 7) [(str "// Errors:"); (str "//"); (str "//    - func2-error --")]; CGroup (Place 100 8) (Place 139 8) [(str "// want Func2:""ErrorCodes: func2-error""")]].
Definition t_multifile_files : list source_file := [SourceFile t_multifile_nodes0 t_multifile_cgroups0; SourceFile t_multifile_nodes1 t_multifile_cgroups1].
Definition t_multifile_info : typeinfo := map_info (list_to_map t_multifile_types) (list_to_map t_multifile_values) (list_to_map t_multifile_uses) (list_to_map t_multifile_defs) (list_to_map t_multifile_sels) (list_to_set [1; 4; 5; 6; 7; 8; 9; 10; 11; 12; 13; 14; 15; 16; 17; 18; 19; 20; 49]) (list_to_map t_multifile_pkgnames) (list_to_map t_multifile_objnames) (list_to_map t_multifile_objtypes) (list_to_map t_multifile_under) t_multifile_methods t_multifile_ierr t_multifile_iree t_multifile_icause t_multifile_impl (list_to_map t_multifile_named_methods).
Definition t_multifile : package := Package (list_to_map [(1, t_multifile_f1); (2, t_multifile_f2); (3, t_multifile_f3); (4, t_multifile_f4); (5, t_multifile_f5); (6, t_multifile_f6); (7, t_multifile_f7); (8, t_multifile_f8)]) [1; 2; 3; 4; 5; 6; 7; 8] t_multifile_gendecls t_multifile_top (list_to_map t_multifile_objs) (fun id => default [] (createCommentMap t_multifile_files id)) t_multifile_info.
Definition t_multifile_rank : gostring -> nat := fun n => default 0%nat ((list_to_map [] : gmap gostring nat) !! n).

(** multifile: 1 diagnostics and 4 facts, as its "want" comments demand. *)
Theorem t_multifile_ascending :
  report (run_test t_multifile ascending (Facts ∅ ∅ ∅ ∅)) = Some [
    (34, (str "returned error may not be a parameter, receiver or global variable")) (* file1.go:19 *)] /\
  fact_texts (facts_after_test (run_test t_multifile ascending (Facts ∅ ∅ ∅ ∅))) [47; 48; 49; 50; 51; 52; 53; 54; 55; 56; 57; 58; 59; 60; 61] = [
    (47, (str "ErrorCodes: func1-error func2-error")) (* file1.go:7 Func1 *);
    (48, (str "ErrorCodes: local-error")) (* file1.go:17 GlobalFromOtherFile *);
    (49, (str "ErrorType{Field:{Name:""TheCode"", Position:0}, Codes:}")) (* file1.go:24 Error *);
    (56, (str "ErrorCodes: func2-error")) (* file2.go:8 Func2 *)].
Proof. vm_compute. split; reflexivity. Qed.

(** multifile: 1 diagnostics and 4 facts, as its "want" comments demand. *)
Theorem t_multifile_descending :
  report (run_test t_multifile descending (Facts ∅ ∅ ∅ ∅)) = Some [
    (34, (str "returned error may not be a parameter, receiver or global variable")) (* file1.go:19 *)] /\
  fact_texts (facts_after_test (run_test t_multifile descending (Facts ∅ ∅ ∅ ∅))) [47; 48; 49; 50; 51; 52; 53; 54; 55; 56; 57; 58; 59; 60; 61] = [
    (47, (str "ErrorCodes: func1-error func2-error")) (* file1.go:7 Func1 *);
    (48, (str "ErrorCodes: local-error")) (* file1.go:17 GlobalFromOtherFile *);
    (49, (str "ErrorType{Field:{Name:""TheCode"", Position:0}, Codes:}")) (* file1.go:24 Error *);
    (56, (str "ErrorCodes: func2-error")) (* file2.go:8 Func2 *)].
Proof. vm_compute. split; reflexivity. Qed.

(** The presuppositions of the general theorems that this package satisfies. *)
Theorem t_multifile_presuppositions :
  (forall fa, usable_functions t_multifile fa) /\
  (forall fa, no_literal_recursion t_multifile (collectFunctions t_multifile) fa) /\
  (forall fa, literals_apart t_multifile (collectFunctions t_multifile) fa) /\
  types_usable t_multifile /\
  (forall w n, occurs t_multifile w n -> ~ ill_formed t_multifile w n) /\
  distinct_definitions t_multifile /\
  interfaces_ok t_multifile /\
  uses_resolved t_multifile (collectFunctions t_multifile) /\
  (forall g fn, pk_funcs t_multifile !! g = Some fn -> disciplined t_multifile (facts_after_test (run_test t_multifile ascending (Facts ∅ ∅ ∅ ∅))) fn /\ resolved t_multifile (collectFunctions t_multifile) (facts_after_test (run_test t_multifile ascending (Facts ∅ ∅ ∅ ∅))) fn) /\
  Forall layout t_multifile_files.
Proof.
  split_and!.
  - intros fa; apply package_usable_spec; vm_compute; reflexivity.
  - intros fa; apply recursion_check_spec; vm_compute; reflexivity.
  - intros fa; apply apart_spec; vm_compute; reflexivity.
  - apply types_ok_spec; vm_compute; reflexivity.
  - apply package_formed_spec; vm_compute; reflexivity.
  - apply definitions_check_spec; vm_compute; reflexivity.
  - apply (interfaces_check_spec t_multifile t_multifile_rank); vm_compute; reflexivity.
  - apply uses_check_spec; vm_compute; reflexivity.
  - intros g fn; apply sound_ok_spec; vm_compute; reflexivity.
  - apply layouts_spec; vm_compute; reflexivity.
Qed.
