(** * The test package typecast of /repo/analysis/testdata/src, run on the model.  Generated by tools/conform.py; see Conform.v. *)
From Coq Require Import Ascii String.
From stdpp Require Import base list gmap.
From Verif Require Import GoString Scc Engine Constant CommentText CommentMap Phase FactText Conform Claims Analyse Verify SpecTaint SpecProgram SpecLiterals SpecCodeMethod SpecInterfaces SpecSites SpecCrash SpecSound SpecWhole SpecLayout Checkers RecursionChecker LiteralChecker CodeCheckers FormChecker InterfaceChecker SoundChecker ChainChecker ExampleLayout GoAst.
Local Open Scope N_scope.
Definition t_typecast_f1 : func := Func 3 (Some (DeclInfo (Ident 4 (str "TypeCast") (Some 1)) None (Some (comment_text [(str "// Errors:"); (str "//"); (str "//    - string-error --")])))) (FuncType 5 [] (Some [(Field 8 [] 9)]) 73) (Some (Node 10 (KOther (str "*ast.BlockStmt")) [(Node 11 KReturn [(Node 12 KCall [(Node 13 (KIdent (str "StringError") None) []); (Node 14 KBasicLit [])])])])) 79 178.
Definition t_typecast_f2 : func := Func 21 (Some (DeclInfo (Ident 25 (str "Code") None) (Some [(Field 23 [] 24)]) None)) (FuncType 26 [] (Some [(Field 29 [] 30)]) 314) (Some (Node 31 (KOther (str "*ast.BlockStmt")) [(Node 32 KReturn [(Node 33 KBasicLit [])])])) 326 351.
Definition t_typecast_f3 : func := Func 34 (Some (DeclInfo (Ident 38 (str "Error") None) (Some [(Field 36 [] 37)]) None)) (FuncType 39 [] (Some [(Field 42 [] 43)]) 379) (Some (Node 44 (KOther (str "*ast.BlockStmt")) [(Node 45 KReturn [(Node 46 KBasicLit [])])])) 390 414.
Definition t_typecast_f4 : func := Func 47 (Some (DeclInfo (Ident 52 (str "Message") None) (Some [(Field 49 [(Ident 50 (str "s") (Some 2))] 51)]) None)) (FuncType 53 [] (Some [(Field 56 [] 57)]) 446) (Some (Node 58 (KOther (str "*ast.BlockStmt")) [(Node 59 KReturn [(Node 60 KCall [(Node 61 (KIdent (str "string") None) []); (Node 62 (KIdent (str "s") (Some 2)) [])])])])) 453 473.
Definition t_typecast_gendecls : list gendecl := [GenDecl 17 [(Some (TypeSpec (Ident 19 (str "StringError") (Some 3)) XOther))]].
Definition t_typecast_top : list topdecl := [TopFunc 1; TopNode (Node 17 (KOther (str "*ast.GenDecl")) [(Node 18 (KOther (str "*ast.TypeSpec")) [])]); TopFunc 2; TopFunc 3; TopFunc 4].
Definition t_typecast_objs : list (N * object) := [(1, Object false 62 (DFunc 1)); (2, Object true 421 DOther); (3, Object false 203 DType)].
Definition t_typecast_types : list (N * gotype) := [(5, (TSignature [] [(TNamed 1)] false)); (9, (TNamed 1)); (12, (TNamed 48)); (13, (TNamed 48)); (14, (TNamed 48)); (19, (TNamed 48)); (20, (TBasic (str "string"))); (24, (TNamed 48)); (26, (TSignature [] [(TBasic (str "string"))] false)); (30, (TBasic (str "string"))); (33, (TBasic (str "string"))); (37, (TNamed 48)); (39, (TSignature [] [(TBasic (str "string"))] false)); (43, (TBasic (str "string"))); (46, (TBasic (str "string"))); (50, (TNamed 48)); (51, (TNamed 48)); (53, (TSignature [] [(TBasic (str "string"))] false)); (57, (TBasic (str "string"))); (60, (TBasic (str "string"))); (61, (TBasic (str "string"))); (62, (TNamed 48))].
Definition t_typecast_values : list (N * constval) := [(12, CString (str "some message about the error")); (14, CString (str "some message about the error")); (33, CString (str "string-error")); (46, CString (str "StringError"))].
Definition t_typecast_uses : list (N * tobj) := [(9, 1); (13, 48); (20, 5); (24, 48); (30, 5); (37, 48); (43, 5); (51, 48); (57, 5); (61, 5); (62, 52)].
Definition t_typecast_defs : list (N * tobj) := [(4, 47); (19, 48); (25, 49); (38, 50); (50, 52); (52, 51)].
Definition t_typecast_sels : list (N * (tobj * gotype)) := [].
Definition t_typecast_pkgnames : list (N * gostring) := [].
Definition t_typecast_objnames : list (N * gostring) := [(1, (str "error")); (2, (str "Error")); (3, (str "?")); (4, (str "bool")); (5, (str "string")); (6, (str "int")); (7, (str "int8")); (8, (str "int16")); (9, (str "int32")); (10, (str "int64")); (11, (str "uint")); (12, (str "uint8")); (13, (str "uint16")); (14, (str "uint32")); (15, (str "uint64")); (16, (str "uintptr")); (17, (str "float32")); (18, (str "float64")); (19, (str "complex64")); (20, (str "complex128")); (21, (str "true")); (22, (str "false")); (23, (str "iota")); (24, (str "nil")); (25, (str "append")); (26, (str "cap")); (27, (str "close")); (28, (str "complex")); (29, (str "copy")); (30, (str "delete")); (31, (str "imag")); (32, (str "len")); (33, (str "make")); (34, (str "new")); (35, (str "panic")); (36, (str "print")); (37, (str "println")); (38, (str "real")); (39, (str "recover")); (40, (str "Errorf")); (41, (str "Sprintf")); (42, (str "Println")); (43, (str "New")); (44, (str "HasPrefix")); (45, (str "Float32")); (46, (str "Float64")); (47, (str "TypeCast")); (48, (str "StringError")); (49, (str "Code")); (50, (str "Error")); (51, (str "Message")); (52, (str "s"))].
Definition t_typecast_objtypes : list (N * gotype) := [(1, (TNamed 1)); (2, (TSignature [] [(TBasic (str "string"))] false)); (4, (TBasic (str "bool"))); (5, (TBasic (str "string"))); (6, (TBasic (str "int"))); (7, (TBasic (str "int8"))); (8, (TBasic (str "int16"))); (9, (TBasic (str "int32"))); (10, (TBasic (str "int64"))); (11, (TBasic (str "uint"))); (12, (TBasic (str "uint8"))); (13, (TBasic (str "uint16"))); (14, (TBasic (str "uint32"))); (15, (TBasic (str "uint64"))); (16, (TBasic (str "uintptr"))); (17, (TBasic (str "float32"))); (18, (TBasic (str "float64"))); (19, (TBasic (str "complex64"))); (20, (TBasic (str "complex128"))); (40, (TSignature [(TBasic (str "string")); (TSlice (TInterface 4))] [(TNamed 1)] true)); (41, (TSignature [(TBasic (str "string")); (TSlice (TInterface 4))] [(TBasic (str "string"))] true)); (42, (TSignature [(TSlice (TInterface 4))] [(TBasic (str "int")); (TNamed 1)] true)); (43, (TSignature [(TBasic (str "string"))] [(TNamed 1)] false)); (44, (TSignature [(TBasic (str "string")); (TBasic (str "string"))] [(TBasic (str "bool"))] false)); (45, (TSignature [] [(TBasic (str "float32"))] false)); (46, (TSignature [] [(TBasic (str "float64"))] false)); (47, (TSignature [] [(TNamed 1)] false)); (48, (TNamed 48)); (49, (TSignature [] [(TBasic (str "string"))] false)); (50, (TSignature [] [(TBasic (str "string"))] false)); (51, (TSignature [] [(TBasic (str "string"))] false)); (52, (TNamed 48))].
Definition t_typecast_under : list (N * gotype) := [(1, (TInterface 1)); (48, (TBasic (str "string")))].
Definition t_typecast_named_methods : list (N * (list gostring)) := [(48, [(str "Code"); (str "Error"); (str "Message")])].
Definition t_typecast_methods : list (gotype * gostring * tobj) := [((TInterface 1), (str "Error"), 2); ((TNamed 1), (str "Error"), 2); ((TNamed 48), (str "Code"), 49); ((TNamed 48), (str "Error"), 50); ((TNamed 48), (str "Message"), 51); ((TPointer (TNamed 48)), (str "Code"), 49); ((TPointer (TNamed 48)), (str "Error"), 50); ((TPointer (TNamed 48)), (str "Message"), 51)].
Definition t_typecast_ierr : list gotype := [(TInterface 1); (TNamed 1); (TNamed 48); (TPointer (TNamed 48))].
Definition t_typecast_iree : list gotype := [(TNamed 48); (TPointer (TNamed 48))].
Definition t_typecast_icause : list gotype := [].
Definition t_typecast_impl : list (gotype * gotype) := [((TInterface 1), (TInterface 1)); ((TNamed 1), (TInterface 1)); ((TNamed 48), (TInterface 1)); ((TPointer (TNamed 48)), (TInterface 1))].
Definition t_typecast_nodes0 : list snode := [SNode 1 (Place 0 1) (Place 177 8) true; SNode 2 (Place 8 1) (Place 16 1) false; SNode 3 (Place 56 6) (Place 177 8) true; SNode 4 (Place 61 6) (Place 69 6) false; SNode 5 (Place 56 6) (Place 77 6) false; SNode 6 (Place 69 6) (Place 71 6) false; SNode 7 (Place 72 6) (Place 77 6) false; SNode 8 (Place 72 6) (Place 77 6) true; SNode 9 (Place 72 6) (Place 77 6) false; SNode 10 (Place 78 6) (Place 177 8) true; SNode 11 (Place 125 7) (Place 175 7) true; SNode 12 (Place 132 7) (Place 175 7) false; SNode 13 (Place 132 7) (Place 143 7) false; SNode 14 (Place 144 7) (Place 174 7) false].
Definition t_typecast_cgroups0 : list cgroup := [CGroup (Place 18 3) (Place 55 5) [(str "// Errors:"); (str "//"); (str "//    - string-error --")]; CGroup (Place 80 6) (Place 123 6) [(str "// want TypeCast:""ErrorCodes: string-error""")]].
Definition t_typecast_nodes1 : list snode := [SNode 15 (Place 0 1) (Place 293 7) true; SNode 16 (Place 8 1) (Place 16 1) false; SNode 17 (Place 18 3) (Place 41 3) true; SNode 18 (Place 23 3) (Place 41 3) true; SNode 19 (Place 23 3) (Place 34 3) false; SNode 20 (Place 35 3) (Place 41 3) false; SNode 21 (Place 108 5) (Place 171 5) true; SNode 22 (Place 113 5) (Place 126 5) false; SNode 23 (Place 114 5) (Place 125 5) true; SNode 24 (Place 114 5) (Place 125 5) false; SNode 25 (Place 127 5) (Place 131 5) false; SNode 26 (Place 108 5) (Place 140 5) false; SNode 27 (Place 131 5) (Place 133 5) false; SNode 28 (Place 134 5) (Place 140 5) false; SNode 29 (Place 134 5) (Place 140 5) true; SNode 30 (Place 134 5) (Place 140 5) false; SNode 31 (Place 146 5) (Place 171 5) true; SNode 32 (Place 148 5) (Place 169 5) true; SNode 33 (Place 155 5) (Place 169 5) false; SNode 34 (Place 172 6) (Place 234 6) true; SNode 35 (Place 177 6) (Place 190 6) false; SNode 36 (Place 178 6) (Place 189 6) true; SNode 37 (Place 178 6) (Place 189 6) false; SNode 38 (Place 191 6) (Place 196 6) false; SNode 39 (Place 172 6) (Place 205 6) false; SNode 40 (Place 196 6) (Place 198 6) false; SNode 41 (Place 199 6) (Place 205 6) false; SNode 42 (Place 199 6) (Place 205 6) true; SNode 43 (Place 199 6) (Place 205 6) false; SNode 44 (Place 210 6) (Place 234 6) true; SNode 45 (Place 212 6) (Place 232 6) true; SNode 46 (Place 219 6) (Place 232 6) false; SNode 47 (Place 235 7) (Place 293 7) true; SNode 48 (Place 240 7) (Place 255 7) false; SNode 49 (Place 241 7) (Place 254 7) true; SNode 50 (Place 241 7) (Place 242 7) false; SNode 51 (Place 243 7) (Place 254 7) false; SNode 52 (Place 256 7) (Place 263 7) false; SNode 53 (Place 235 7) (Place 272 7) false; SNode 54 (Place 263 7) (Place 265 7) false; SNode 55 (Place 266 7) (Place 272 7) false; SNode 56 (Place 266 7) (Place 272 7) true; SNode 57 (Place 266 7) (Place 272 7) false; SNode 58 (Place 273 7) (Place 293 7) true; SNode 59 (Place 275 7) (Place 291 7) true; SNode 60 (Place 282 7) (Place 291 7) false; SNode 61 (Place 282 7) (Place 288 7) false; SNode 62 (Place 289 7) (Place 290 7) false].
Definition t_typecast_cgroups1 : list cgroup := [CGroup (Place 42 3) (Place 106 3) [(str "// want StringError:`ErrorType{Field:<nil>, Codes:string-error}`")]].
Definition t_typecast_files : list source_file := [SourceFile t_typecast_nodes0 t_typecast_cgroups0; SourceFile t_typecast_nodes1 t_typecast_cgroups1].
Definition t_typecast_info : typeinfo := map_info (list_to_map t_typecast_types) (list_to_map t_typecast_values) (list_to_map t_typecast_uses) (list_to_map t_typecast_defs) (list_to_map t_typecast_sels) (list_to_set [1; 4; 5; 6; 7; 8; 9; 10; 11; 12; 13; 14; 15; 16; 17; 18; 19; 20; 48]) (list_to_map t_typecast_pkgnames) (list_to_map t_typecast_objnames) (list_to_map t_typecast_objtypes) (list_to_map t_typecast_under) t_typecast_methods t_typecast_ierr t_typecast_iree t_typecast_icause t_typecast_impl (list_to_map t_typecast_named_methods).
Definition t_typecast : package := Package (list_to_map [(1, t_typecast_f1); (2, t_typecast_f2); (3, t_typecast_f3); (4, t_typecast_f4)]) [1; 2; 3; 4] t_typecast_gendecls t_typecast_top (list_to_map t_typecast_objs) (fun id => default [] (createCommentMap t_typecast_files id)) t_typecast_info.
Definition t_typecast_rank : gostring -> nat := fun n => default 0%nat ((list_to_map [] : gmap gostring nat) !! n).

(** typecast: 0 diagnostics and 2 facts, as its "want" comments demand. *)
Theorem t_typecast_ascending :
  report (run_test t_typecast ascending (Facts ∅ ∅ ∅ ∅)) = Some [
] /\
  fact_texts (facts_after_test (run_test t_typecast ascending (Facts ∅ ∅ ∅ ∅))) [47; 48; 49; 50; 51; 52] = [
    (47, (str "ErrorCodes: string-error")) (* cast.go:6 TypeCast *);
    (48, (str "ErrorType{Field:<nil>, Codes:string-error}")) (* type.go:3 StringError *)].
Proof. vm_compute. split; reflexivity. Qed.

(** typecast: 0 diagnostics and 2 facts, as its "want" comments demand. *)
Theorem t_typecast_descending :
  report (run_test t_typecast descending (Facts ∅ ∅ ∅ ∅)) = Some [
] /\
  fact_texts (facts_after_test (run_test t_typecast descending (Facts ∅ ∅ ∅ ∅))) [47; 48; 49; 50; 51; 52] = [
    (47, (str "ErrorCodes: string-error")) (* cast.go:6 TypeCast *);
    (48, (str "ErrorType{Field:<nil>, Codes:string-error}")) (* type.go:3 StringError *)].
Proof. vm_compute. split; reflexivity. Qed.

(** The presuppositions of the general theorems that this package satisfies. *)
Theorem t_typecast_presuppositions :
  (forall fa, usable_functions t_typecast fa) /\
  (forall fa, no_literal_recursion t_typecast (collectFunctions t_typecast) fa) /\
  (forall fa, literals_apart t_typecast (collectFunctions t_typecast) fa) /\
  types_usable t_typecast /\
  (forall w n, occurs t_typecast w n -> ~ ill_formed t_typecast w n) /\
  distinct_definitions t_typecast /\
  interfaces_ok t_typecast /\
  uses_resolved t_typecast (collectFunctions t_typecast) /\
  (forall g fn, pk_funcs t_typecast !! g = Some fn -> disciplined t_typecast (facts_after_test (run_test t_typecast ascending (Facts ∅ ∅ ∅ ∅))) fn /\ resolved t_typecast (collectFunctions t_typecast) (facts_after_test (run_test t_typecast ascending (Facts ∅ ∅ ∅ ∅))) fn) /\
  Forall layout t_typecast_files.
Proof.
  split_and!.
  - intros fa; apply package_usable_spec; vm_compute; reflexivity.
  - intros fa; apply recursion_check_spec; vm_compute; reflexivity.
  - intros fa; apply apart_spec; vm_compute; reflexivity.
  - apply types_ok_spec; vm_compute; reflexivity.
  - apply package_formed_spec; vm_compute; reflexivity.
  - apply definitions_check_spec; vm_compute; reflexivity.
  - apply (interfaces_check_spec t_typecast t_typecast_rank); vm_compute; reflexivity.
  - apply uses_check_spec; vm_compute; reflexivity.
  - intros g fn; apply sound_ok_spec; vm_compute; reflexivity.
  - apply layouts_spec; vm_compute; reflexivity.
Qed.
