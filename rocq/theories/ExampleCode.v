(** * A concrete package for C25: all presuppositions are met by it.

<<
    type (
        E struct { msg, code string }
        Bad struct { code string }
    )
    func (e *E) Code() string {
        c := "default-code"
        d := c
        if ... { d = "other-code" }
        if ... { return e.code }
        return d
    }
    func (e *E) Error() string { return e.msg }
    func (e *E) Set() {
        e.msg, e.code = "x", "set-code"
        e.code = "invalid-"
    }
    func (e *Bad) Code() string {
        if ... { return f() }
        return "not valid"
    }
    func (e *Bad) Error() string { return e.code }
>>
    Written by tools/example_code.py. *)
From Coq Require Import Ascii String.
From stdpp Require Import base list gmap.
From Verif Require Import GoString ErrorCode Scc Engine CodeSet Annotation Constant GoAst Taint Extract Analyse Phase ErrorTypes Claims Interfaces
  Conversions Verify SpecMay SpecProgram SpecRun RunProofs Checkers SpecCodeMethod CodeCheckers PropErrorTypes ExampleBase.
Local Open Scope N_scope.

Definition ec_types : list (N * gotype) := [(8, (TPointer (TNamed 2))); (10, (TPointer (TNamed 2))); (12, (TBasic (str "string"))); (19, (TBasic (str "string"))); (20, (TBasic (str "string"))); (22, (TBasic (str "string"))); (23, (TBasic (str "string"))); (25, (TBasic (str "string"))); (26, (TBasic (str "string"))); (30, (TPointer (TNamed 2))); (31, (TBasic (str "string"))); (32, (TBasic (str "string"))); (36, (TBasic (str "string"))); (42, (TPointer (TNamed 2))); (44, (TPointer (TNamed 2))); (46, (TBasic (str "string"))); (51, (TPointer (TNamed 2))); (52, (TBasic (str "string"))); (53, (TBasic (str "string"))); (59, (TPointer (TNamed 2))); (61, (TPointer (TNamed 2))); (66, (TPointer (TNamed 2))); (67, (TBasic (str "string"))); (68, (TBasic (str "string"))); (69, (TPointer (TNamed 2))); (70, (TBasic (str "string"))); (71, (TBasic (str "string"))); (72, (TBasic (str "string"))); (73, (TBasic (str "string"))); (75, (TPointer (TNamed 2))); (76, (TBasic (str "string"))); (77, (TBasic (str "string"))); (78, (TBasic (str "string"))); (84, (TPointer (TNamed 3))); (86, (TPointer (TNamed 3))); (88, (TBasic (str "string"))); (95, (TBasic (str "string"))); (99, (TBasic (str "string"))); (105, (TPointer (TNamed 3))); (107, (TPointer (TNamed 3))); (109, (TBasic (str "string"))); (114, (TPointer (TNamed 3))); (115, (TBasic (str "string"))); (116, (TBasic (str "string")))].
Definition ec_values : list (N * constval) := [(20, (CString (str "default-code"))); (26, (CString (str "other-code"))); (72, (CString (str "x"))); (73, (CString (str "set-code"))); (78, (CString (str "invalid-"))); (99, (CString (str "not valid")))].
Definition ec_uses : list (N * tobj) := [].
Definition ec_defs : list (N * tobj) := [(2, 2); (5, 3); (15, 21); (49, 22); (64, 23); (91, 24); (112, 25)].
Definition ec_sels : list (N * (tobj * gotype)) := [].
Definition ec_objnames : list (N * gostring) := [(2, str "E"); (3, str "Bad"); (21, str "Code"); (22, str "Error"); (23, str "Set"); (24, str "Code"); (25, str "Error")].
Definition ec_objtypes : list (N * gotype) := [(2, (TNamed 2)); (3, (TNamed 3))].
Definition ec_underlying : list (N * gotype) := [(1, (TInterface 1)); (2, (TStruct [(str "msg", TBasic (str "string")); (str "code", TBasic (str "string"))])); (3, (TStruct [(str "code", TBasic (str "string"))]))].
Definition ec_methods : list (gotype * gostring * tobj) := [(TPointer (TNamed 2), str "Code", 21); (TPointer (TNamed 2), str "Error", 22); (TPointer (TNamed 2), str "Set", 23); (TPointer (TNamed 3), str "Code", 24); (TPointer (TNamed 3), str "Error", 25)].
Definition ec_impl_error : list gotype := [TNamed 1; TPointer (TNamed 2); TPointer (TNamed 3)].
Definition ec_impl_ree : list gotype := [TPointer (TNamed 2); TPointer (TNamed 3)].
Definition ec_impl_cause : list gotype := [].
Definition ec_impl : list (gotype * gotype) := [].
Definition ec_named_methods : list (N * list gostring) := [(2, [str "Code"; str "Error"; str "Set"]); (3, [str "Code"; str "Error"])].
Definition ec_info : typeinfo := table_info ec_types ec_values ec_uses ec_defs ec_sels [1; 2; 3] [] ec_objnames ec_objtypes ec_underlying ec_methods ec_impl_error ec_impl_ree ec_impl_cause ec_impl ec_named_methods.
Definition ec_f1 : func := Func 40 (Some (DeclInfo (Ident 15 (str "Code") None) (Some [Field 9 [Ident 8 (str "e") (Some 1)] 10]) None)) (FuncType 13 [] (Some [Field 11 [] 12]) 14) (Some (Node 38 (KOther (str "*ast.BlockStmt")) [Node 21 (KAssign 1%nat) [Node 19 (KIdent (str "c") (Some 2)) []; Node 20 KBasicLit []]; Node 24 (KAssign 1%nat) [Node 22 (KIdent (str "d") (Some 3)) []; Node 23 (KIdent (str "c") (Some 2)) []]; Node 29 (KOther (str "*ast.IfStmt")) [Node 28 (KOther (str "*ast.BlockStmt")) [Node 27 (KAssign 1%nat) [Node 25 (KIdent (str "d") (Some 3)) []; Node 26 KBasicLit []]]]; Node 35 (KOther (str "*ast.IfStmt")) [Node 34 (KOther (str "*ast.BlockStmt")) [Node 33 KReturn [Node 32 KSelector [Node 30 (KIdent (str "e") (Some 1)) []; Node 31 (KIdent (str "code") None) []]]]]; Node 37 KReturn [Node 36 (KIdent (str "d") (Some 3)) []]])) 16 39.
Definition ec_f2 : func := Func 57 (Some (DeclInfo (Ident 49 (str "Error") None) (Some [Field 43 [Ident 42 (str "e") (Some 4)] 44]) None)) (FuncType 47 [] (Some [Field 45 [] 46]) 48) (Some (Node 55 (KOther (str "*ast.BlockStmt")) [Node 54 KReturn [Node 53 KSelector [Node 51 (KIdent (str "e") (Some 4)) []; Node 52 (KIdent (str "msg") None) []]]])) 50 56.
Definition ec_f3 : func := Func 82 (Some (DeclInfo (Ident 64 (str "Set") None) (Some [Field 60 [Ident 59 (str "e") (Some 5)] 61]) None)) (FuncType 62 [] None 63) (Some (Node 80 (KOther (str "*ast.BlockStmt")) [Node 74 (KAssign 2%nat) [Node 68 KSelector [Node 66 (KIdent (str "e") (Some 5)) []; Node 67 (KIdent (str "msg") None) []]; Node 71 KSelector [Node 69 (KIdent (str "e") (Some 5)) []; Node 70 (KIdent (str "code") None) []]; Node 72 KBasicLit []; Node 73 KBasicLit []]; Node 79 (KAssign 1%nat) [Node 77 KSelector [Node 75 (KIdent (str "e") (Some 5)) []; Node 76 (KIdent (str "code") None) []]; Node 78 KBasicLit []]])) 65 81.
Definition ec_f4 : func := Func 103 (Some (DeclInfo (Ident 91 (str "Code") None) (Some [Field 85 [Ident 84 (str "e") (Some 6)] 86]) None)) (FuncType 89 [] (Some [Field 87 [] 88]) 90) (Some (Node 101 (KOther (str "*ast.BlockStmt")) [Node 98 (KOther (str "*ast.IfStmt")) [Node 97 (KOther (str "*ast.BlockStmt")) [Node 96 KReturn [Node 95 KCall [Node 94 (KIdent (str "f") None) []]]]]; Node 100 KReturn [Node 99 KBasicLit []]])) 92 102.
Definition ec_f5 : func := Func 120 (Some (DeclInfo (Ident 112 (str "Error") None) (Some [Field 106 [Ident 105 (str "e") (Some 8)] 107]) None)) (FuncType 110 [] (Some [Field 108 [] 109]) 111) (Some (Node 118 (KOther (str "*ast.BlockStmt")) [Node 117 KReturn [Node 116 KSelector [Node 114 (KIdent (str "e") (Some 8)) []; Node 115 (KIdent (str "code") None) []]]])) 113 119.
Definition ec_funcs : gmap fid func := list_to_map [(1, ec_f1); (2, ec_f2); (3, ec_f3); (4, ec_f4); (5, ec_f5)].
Definition ec_objs : gmap oid object := list_to_map [(1, Object true 7 DOther); (2, Object true 17 DOther); (3, Object true 18 DOther); (4, Object true 41 DOther); (5, Object true 58 DOther); (6, Object true 83 DOther); (7, Object true 93 DOther); (8, Object true 104 DOther)].
Definition ec_comments : list (N * list gostring) := [].
Definition ec : package := Package ec_funcs [1; 2; 3; 4; 5] [GenDecl 1 [Some (TypeSpec (Ident 2 (str "E") None) (XStruct [[Ident 3 (str "msg") None; Ident 4 (str "code") None]])); Some (TypeSpec (Ident 5 (str "Bad") None) (XStruct [[Ident 6 (str "code") None]]))]] [TopFunc 1; TopFunc 2; TopFunc 3; TopFunc 4; TopFunc 5] ec_objs (fun n => default [] (lookup_in ec_comments n)) ec_info.

Theorem ec_usable : types_usable ec.
Proof. apply types_ok_spec. vm_compute. reflexivity. Qed.
(** E has the constants, and the codes assigned to the field; nothing is recorded for Bad. *)
Example ec_answer : match findAndTagErrorTypes ec (collectFunctions ec) no_facts with
  | Ok (fa, ds) => Some (map (fun p : tobj * errortype => (p.1, elements (et_codes p.2), et_field p.2)) (map_to_list (fa_type fa)), ds)
  | _ => None end =
  Some ([(2, [str "other-code"; str "set-code"; str "default-code"], Some (str "code", 1%nat))],
    [Diag 78 (str "error code has invalid format: should match [a-zA-Z][a-zA-Z0-9\-]*[a-zA-Z0-9]");
     Diag 95 (str "function ""Code"" should always return a string constant or a single field");
     Diag 99 (str "error code has invalid format: should match [a-zA-Z][a-zA-Z0-9\-]*[a-zA-Z0-9]");
     Diag 1 (str "type ""Bad"" is an invalid error type: could not find any error codes")]).
Proof. vm_compute. reflexivity. Qed.
(** C25_error_types applies to it, with this answer. *)
Theorem C25_example : exists outs fa, length outs = 2%nat /\
  findAndTagErrorTypes ec (collectFunctions ec) no_facts = Ok (fa, concat (map snd outs)) /\ types_recorded no_facts (map fst outs) fa /\
  Forall2 (fun '(at_, ts) '(r, ds) => tagged ec no_facts at_ ts r (fun d => d ∈ ds)) (type_declarations ec) outs.
Proof.
  destruct (C25_error_types ec no_facts ec_usable) as (outs&fa&E&Hr&H). exists outs, fa. split; [|exact (conj E (conj Hr H))]. apply Forall2_length in H. exact (eq_sym H).
Qed.
