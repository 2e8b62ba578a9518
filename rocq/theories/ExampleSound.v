(** * A concrete package for C22: all presuppositions are met, nothing is reported, and its executions return the declared codes.

<<
    type Error struct { TheCode string }
    func (e *Error) Code() string  { return e.TheCode }
    func (e *Error) Error() string { return e.TheCode }

    // Errors:
    //
    //    - param: code -- the code
    func NewErr(code string) error { return &Error{code} }

    // Errors:
    //
    //    - one -- first
    //    - two -- then
    //    - three -- finally
    func F(n int) error {
        e := &Error{"one"}
        err := G(n)
        if err != nil { return err }
        if ... { e.TheCode = "two" }
        return e
    }
    // Errors:
    //
    //    - one -- first
    //    - two -- then
    //    - three -- finally
    func G(n int) error { if ... { return NewErr("three") }; return F(n) }
>>
    Written by tools/example_sound.py. *)
From Coq Require Import Ascii String.
From stdpp Require Import base list gmap.
From Verif Require Import GoString ErrorCode Scc Engine CodeSet Annotation Constant GoAst Taint Extract Analyse Phase ErrorTypes Claims Interfaces
  Conversions Verify SpecTaint SpecMay SpecProgram SpecEvents SpecClaims SpecRun SpecEnd ReturnProofs RunProofs ProgramProofs Checkers ExampleBase SpecExec SpecSound SoundChecker PropSound.
Local Open Scope N_scope.

Definition es_types : list (N * gotype) := [(5, (TPointer (TNamed 2))); (7, (TPointer (TNamed 2))); (9, (TBasic (str "string"))); (14, (TPointer (TNamed 2))); (15, (TBasic (str "string"))); (16, (TBasic (str "string"))); (22, (TPointer (TNamed 2))); (24, (TPointer (TNamed 2))); (26, (TBasic (str "string"))); (31, (TPointer (TNamed 2))); (32, (TBasic (str "string"))); (33, (TBasic (str "string"))); (39, (TBasic (str "string"))); (41, (TBasic (str "string"))); (43, (TNamed 1)); (48, (TBasic (str "string"))); (49, (TNamed 2)); (50, (TPointer (TNamed 2))); (59, (TBasic (str "int"))); (61, (TBasic (str "int"))); (63, (TNamed 1)); (70, (TPointer (TNamed 2))); (71, (TBasic (str "string"))); (72, (TNamed 2)); (73, (TPointer (TNamed 2))); (75, (TNamed 1)); (76, (TSignature [TBasic (str "int")] [TNamed 1] false)); (77, (TBasic (str "int"))); (78, (TNamed 1)); (80, (TNamed 1)); (81, TUntypedNil); (83, (TNamed 1)); (87, (TPointer (TNamed 2))); (88, (TBasic (str "string"))); (89, (TBasic (str "string"))); (90, (TBasic (str "string"))); (94, (TPointer (TNamed 2))); (100, (TBasic (str "int"))); (102, (TBasic (str "int"))); (104, (TNamed 1)); (109, (TSignature [TBasic (str "string")] [TNamed 1] false)); (110, (TBasic (str "string"))); (111, (TNamed 1)); (115, (TSignature [TBasic (str "int")] [TNamed 1] false)); (116, (TBasic (str "int"))); (117, (TNamed 1))].
Definition es_values : list (N * constval) := [(71, (CString (str "one"))); (90, (CString (str "two"))); (110, (CString (str "three")))].
Definition es_uses : list (N * tobj) := [(76, 25); (109, 23); (115, 24)].
Definition es_defs : list (N * tobj) := [(2, 2); (12, 21); (29, 22); (46, 23); (66, 24); (107, 25)].
Definition es_sels : list (N * (tobj * gotype)) := [].
Definition es_objnames : list (N * gostring) := [(2, str "Error"); (21, str "Code"); (22, str "Error"); (23, str "NewErr"); (24, str "F"); (25, str "G")].
Definition es_objtypes : list (N * gotype) := [(2, (TNamed 2))].
Definition es_underlying : list (N * gotype) := [(1, (TInterface 1)); (2, (TStruct [(str "TheCode", TBasic (str "string"))]))].
Definition es_methods : list (gotype * gostring * tobj) := [(TPointer (TNamed 2), str "Code", 21); (TPointer (TNamed 2), str "Error", 22)].
Definition es_impl_error : list gotype := [TNamed 1; TPointer (TNamed 2)].
Definition es_impl_ree : list gotype := [TPointer (TNamed 2)].
Definition es_impl_cause : list gotype := [].
Definition es_impl : list (gotype * gotype) := [].
Definition es_named_methods : list (N * list gostring) := [(2, [str "Code"; str "Error"])].
Definition es_info : typeinfo := table_info es_types es_values es_uses es_defs es_sels [1; 2] [] es_objnames es_objtypes es_underlying es_methods es_impl_error es_impl_ree es_impl_cause es_impl es_named_methods.
Definition es_f1 : func := Func 20 (Some (DeclInfo (Ident 12 (str "Code") None) (Some [Field 6 [Ident 5 (str "e") (Some 1)] 7]) None)) (FuncType 10 [] (Some [Field 8 [] 9]) 11) (Some (Node 18 (KOther (str "*ast.BlockStmt")) [Node 17 KReturn [Node 16 KSelector [Node 14 (KIdent (str "e") (Some 1)) []; Node 15 (KIdent (str "TheCode") None) []]]])) 13 19.
Definition es_f2 : func := Func 37 (Some (DeclInfo (Ident 29 (str "Error") None) (Some [Field 23 [Ident 22 (str "e") (Some 2)] 24]) None)) (FuncType 27 [] (Some [Field 25 [] 26]) 28) (Some (Node 35 (KOther (str "*ast.BlockStmt")) [Node 34 KReturn [Node 33 KSelector [Node 31 (KIdent (str "e") (Some 2)) []; Node 32 (KIdent (str "TheCode") None) []]]])) 30 36.
Definition es_f3 : func := Func 54 (Some (DeclInfo (Ident 46 (str "NewErr") None) None (Some (str "Errors:" ++ [10] ++ [] ++ [10] ++ str "- param: code -- the code")))) (FuncType 44 [Field 40 [Ident 39 (str "code") (Some 3)] 41] (Some [Field 42 [] 43]) 45) (Some (Node 52 (KOther (str "*ast.BlockStmt")) [Node 51 KReturn [Node 50 (KUnary true) [Node 49 KComposite [Node 48 (KIdent (str "code") (Some 3)) []]]]])) 47 53.
Definition es_f4 : func := Func 98 (Some (DeclInfo (Ident 66 (str "F") None) None (Some (str "Errors:" ++ [10] ++ [] ++ [10] ++ str "- one -- first" ++ [10] ++ str "- two -- then" ++ [10] ++ str "- three -- finally")))) (FuncType 64 [Field 60 [Ident 59 (str "n") (Some 7)] 61] (Some [Field 62 [] 63]) 65) (Some (Node 96 (KOther (str "*ast.BlockStmt")) [Node 74 (KAssign 1%nat) [Node 70 (KIdent (str "e") (Some 8)) []; Node 73 (KUnary true) [Node 72 KComposite [Node 71 KBasicLit []]]]; Node 79 (KAssign 1%nat) [Node 75 (KIdent (str "err") (Some 9)) []; Node 78 KCall [Node 76 (KIdent (str "G") (Some 6)) []; Node 77 (KIdent (str "n") (Some 7)) []]]; Node 86 (KOther (str "*ast.IfStmt")) [Node 82 (KOther (str "*ast.BinaryExpr")) [Node 80 (KIdent (str "err") (Some 9)) []; Node 81 (KIdent (str "nil") None) []]; Node 85 (KOther (str "*ast.BlockStmt")) [Node 84 KReturn [Node 83 (KIdent (str "err") (Some 9)) []]]]; Node 93 (KOther (str "*ast.IfStmt")) [Node 92 (KOther (str "*ast.BlockStmt")) [Node 91 (KAssign 1%nat) [Node 89 KSelector [Node 87 (KIdent (str "e") (Some 8)) []; Node 88 (KIdent (str "TheCode") None) []]; Node 90 KBasicLit []]]]; Node 95 KReturn [Node 94 (KIdent (str "e") (Some 8)) []]])) 67 97.
Definition es_f5 : func := Func 121 (Some (DeclInfo (Ident 107 (str "G") None) None (Some (str "Errors:" ++ [10] ++ [] ++ [10] ++ str "- one -- first" ++ [10] ++ str "- two -- then" ++ [10] ++ str "- three -- finally")))) (FuncType 105 [Field 101 [Ident 100 (str "n") (Some 10)] 102] (Some [Field 103 [] 104]) 106) (Some (Node 119 (KOther (str "*ast.BlockStmt")) [Node 114 (KOther (str "*ast.IfStmt")) [Node 113 (KOther (str "*ast.BlockStmt")) [Node 112 KReturn [Node 111 KCall [Node 109 (KIdent (str "NewErr") (Some 4)) []; Node 110 KBasicLit []]]]]; Node 118 KReturn [Node 117 KCall [Node 115 (KIdent (str "F") (Some 5)) []; Node 116 (KIdent (str "n") (Some 10)) []]]])) 108 120.
Definition es_funcs : gmap fid func := list_to_map [(1, es_f1); (2, es_f2); (3, es_f3); (4, es_f4); (5, es_f5)].
Definition es_objs : gmap oid object := list_to_map [(1, Object true 4 DOther); (2, Object true 21 DOther); (3, Object true 38 DOther); (4, Object false 55 (DFunc 3)); (5, Object false 56 (DFunc 4)); (6, Object false 57 (DFunc 5)); (7, Object true 58 DOther); (8, Object true 68 DOther); (9, Object true 69 DOther); (10, Object true 99 DOther)].
Definition es_comments : list (N * list gostring) := [].
Definition es : package := Package es_funcs [1; 2; 3; 4; 5] [GenDecl 1 [Some (TypeSpec (Ident 2 (str "Error") None) (XStruct [[Ident 3 (str "TheCode") None]]))]] [TopFunc 1; TopFunc 2; TopFunc 3; TopFunc 4; TopFunc 5] es_objs (fun n => default [] (lookup_in es_comments n)) es_info.

(** ** The run *)
Notation es_lk := (collectFunctions es).
Notation es_ord := (some_run_orders es_lk).
Definition es_run : run := run_of es false es_ord no_facts.
Definition es_facts : facts := Facts ∅ {[ 23 := 0%nat ]} {[ 2 := ErrorType ∅ (Some (str "TheCode", 0%nat)) ]} ∅.
Theorem es_completes : completes es false es_ord no_facts es_run.
Proof. apply run_of_ok. vm_compute. reflexivity. Qed.
Lemma es_during : facts_during es es_ord es_run = es_facts.
Proof. vm_compute. reflexivity. Qed.
Lemma es_quiet : r_diags es_run = [].
Proof. vm_compute. reflexivity. Qed.
Lemma es_usable fa : usable_functions es fa /\ no_literal_calls es fa.
Proof. apply package_ok_spec. vm_compute. reflexivity. Qed.
Lemma es_agree c : agree_everywhere es c.
Proof. intros g fn Hg. eapply agree_spec; [|exact Hg]. vm_compute. reflexivity. Qed.
Lemma es_sound g fn : pk_funcs es !! g = Some fn -> disciplined es es_facts fn /\ resolved es es_lk es_facts fn.
Proof. apply sound_ok_spec. vm_compute. reflexivity. Qed.

(** ** Executions *)
Notation ES_exec := (exec es es_lk es_facts nobody).
Notation ES_eval := (eval es es_lk es_facts nobody).
Notation ES_reached := (reached es es_lk es_facts nobody).
Definition nothing : env := fun _ => VNil.
Lemma in_list {A} `{EqDecision A} (x : A) (l : list A) : bool_decide (x ∈ l) = true -> x ∈ l.
Proof. apply bool_decide_eq_true. Qed.
Ltac member := apply in_list; vm_compute; reflexivity.

(** The statements and expressions of F and G. *)
Definition one_expr : node := Node 73 (KUnary true) [Node 72 KComposite [Node 71 KBasicLit []]].
Definition e_target : node := Node 70 (KIdent (str "e") (Some 8)) [].
Definition field_target : node := Node 89 KSelector [Node 87 (KIdent (str "e") (Some 8)) []; Node 88 (KIdent (str "TheCode") None) []].
Definition two_expr : node := Node 90 KBasicLit [].
Definition return_e : node := Node 95 KReturn [Node 94 (KIdent (str "e") (Some 8)) []].
Definition err_target : node := Node 75 (KIdent (str "err") (Some 9)) [].
Definition call_G : node := Node 78 KCall [Node 76 (KIdent (str "G") (Some 6)) []; Node 77 (KIdent (str "n") (Some 7)) []].
Definition return_err : node := Node 84 KReturn [Node 83 (KIdent (str "err") (Some 9)) []].

Lemma no_struct_var fn o : bool_decide (is_struct_var es es_facts fn o = false) = true -> ~ struct_var es es_facts fn o.
Proof. intros H%bool_decide_eq_true Hs%is_struct_var_spec. congruence. Qed.
Lemma new_one h a : h !! a = None -> ES_eval es_f4 nothing h one_expr (<[a := Cell ∅ (str "one")]> h) (VErr a).
Proof.
  intros Ha. apply (ev_new _ _ _ _ _ _ _ _ (ErrorType ∅ (Some (str "TheCode", 0%nat))) (str "one")).
  - by constructor.
  - exists (TPointer (TNamed 2)), 2. split; [vm_compute; reflexivity|]. split; [reflexivity|]. vm_compute. reflexivity.
  - left. repeat constructor.
  - left. exists (Node 71 KBasicLit []). split; [|apply sv_const; vm_compute; reflexivity]. constructor. by eapply fi_position.
  - by constructor.
Qed.
(** The variable e after `e := &Error{"one"}`. *)
Definition with_e : env := set_var nothing 8 (VErr 0).
Definition mem1 : heap := <[0 := Cell ∅ (str "one")]> ∅.
Definition mem2 : heap := <[0 := Cell ∅ (str "two")]> mem1.
Lemma starts_F : starts es es_f4 ∅ [VNil] nothing.
Proof.
  split; [done|]. split; [done|]. intros p i o Hp _. destruct p as [|p]; [done|]. vm_compute in Hp. destruct p; discriminate.
Qed.
Lemma reached_e : ES_reached es_f4 ∅ [VNil] with_e mem1.
Proof.
  eapply (re_assign _ _ _ _ _ _ _ nothing ∅ [e_target] [one_expr] mem1 [VErr 0]).
  - apply re_start, starts_F.
  - eapply (wr_assign _ _ (Node 74 (KAssign 1%nat) [e_target; one_expr])); [member|reflexivity|reflexivity].
  - reflexivity.
  - eapply es_cons; [by apply new_one|apply es_nil].
  - eapply ss_cons; [|apply ss_nil]. eapply (st_var _ _ _ _ _ _ _ _ (Ident 70 (str "e") (Some 8)) 8); [reflexivity|reflexivity|].
    intros Hs. exfalso. revert Hs. apply no_struct_var. vm_compute. reflexivity.
Qed.
Lemma reached_two : ES_reached es_f4 ∅ [VNil] with_e mem2.
Proof.
  eapply (re_assign _ _ _ _ _ _ _ with_e mem1 [field_target] [two_expr] mem1 [VStr (str "two")]).
  - apply reached_e.
  - eapply (wr_assign _ _ (Node 91 (KAssign 1%nat) [field_target; two_expr])); [member|reflexivity|reflexivity].
  - reflexivity.
  - eapply es_cons; [|apply es_nil]. apply ev_string, sv_const. vm_compute. reflexivity.
  - eapply ss_cons; [|apply ss_nil]. eapply (st_field _ _ _ _ _ _ _ _ (Node 87 (KIdent (str "e") (Some 8)) []) (Ident 87 (str "e") (Some 8)) 8 0 (Cell ∅ (str "one")) (str "two"));
      try reflexivity. apply (field_of_spec es es_facts). vm_compute. reflexivity.
Qed.
Lemma exec_two : ES_exec ∅ 4 [VNil] mem2 (VErr 0).
Proof.
  eapply (ex_return _ _ _ _ _ _ es_f4 _ with_e mem2 return_e (Node 94 (KIdent (str "e") (Some 8)) [])).
  - vm_compute. reflexivity.
  - apply reached_two.
  - member.
  - by apply ret_last.
  - eapply (ev_var _ _ _ _ es_f4 with_e mem2 _ (Ident 94 (str "e") (Some 8)) 8).
    + split; [reflexivity|]. split; [reflexivity|]. split; vm_compute; discriminate.
    + vm_compute. discriminate.
    + intros Hs. exfalso. revert Hs. apply no_struct_var. vm_compute. reflexivity.
  - intros q Hq. exfalso. revert Hq. apply no_request. vm_compute. reflexivity.
Qed.

(** G executes NewErr("three"), and F returns what G returns. *)
Definition mem3 : heap := <[0 := Cell ∅ (str "three")]> ∅.
Lemma exec_new : ES_exec ∅ 3 [VStr (str "three")] mem3 (VErr 0).
Proof.
  set (en := set_var nothing 3 (VStr (str "three"))).
  eapply (ex_return _ _ _ _ _ _ es_f3 _ en ∅ (Node 51 KReturn [Node 50 (KUnary true) [Node 49 KComposite [Node 48 (KIdent (str "code") (Some 3)) []]]])
            (Node 50 (KUnary true) [Node 49 KComposite [Node 48 (KIdent (str "code") (Some 3)) []]])).
  - vm_compute. reflexivity.
  - apply re_start. split; [|split].
    + intros o a H. unfold en, set_var in H. destruct (decide (o = 3)); discriminate.
    + intros o (Ho&_) _. unfold en, set_var. destruct (decide (o = 3)) as [->|]; [|done]. vm_compute in Ho. discriminate.
    + intros p i o Hp Ho. destruct p as [|p]; [|vm_compute in Hp; destruct p; discriminate]. vm_compute in Hp. injection Hp as <-.
      cbn in Ho. injection Ho as <-. reflexivity.
  - member.
  - by apply ret_last.
  - apply (ev_new _ _ _ _ _ _ _ _ (ErrorType ∅ (Some (str "TheCode", 0%nat))) (str "three")).
    + by constructor.
    + exists (TPointer (TNamed 2)), 2. split; [vm_compute; reflexivity|]. split; [reflexivity|]. vm_compute. reflexivity.
    + left. repeat constructor.
    + left. exists (Node 48 (KIdent (str "code") (Some 3)) []). split; [constructor; by eapply fi_position|].
      eapply sv_var; [vm_compute; reflexivity|reflexivity|reflexivity|reflexivity].
    + by constructor.
  - intros q Hq. exfalso. revert Hq. apply no_request. vm_compute. reflexivity.
Qed.
Lemma plain f : plain_call es es_facts f.
Proof.
  split.
  - intros s (o&_&Ho). cbn [fa_codes es_facts] in Ho. by rewrite lookup_empty in Ho.
  - intros _ s (t&n&et&_&_&Ht&<-&Hne). cbn [fa_type es_facts] in Ht. apply lookup_singleton_Some in Ht as [_ <-]. by apply Hne.
Qed.
Definition call_new : node := Node 111 KCall [Node 109 (KIdent (str "NewErr") (Some 4)) []; Node 110 KBasicLit []].
Lemma exec_G : ES_exec ∅ 5 [VNil] mem3 (VErr 0).
Proof.
  eapply (ex_return _ _ _ _ _ _ es_f5 _ nothing ∅ (Node 112 KReturn [call_new]) call_new).
  - vm_compute. reflexivity.
  - apply re_start. split; [done|]. split; [done|]. intros p i o Hp _. destruct p as [|p]; [done|]. vm_compute in Hp. destruct p; discriminate.
  - member.
  - by apply ret_last.
  - eapply (ev_call _ _ _ _ es_f5 nothing ∅ call_new _ _ 3 [VStr (str "three")]).
    + vm_compute. reflexivity.
    + reflexivity.
    + apply plain.
    + apply den_func. vm_compute. reflexivity.
    + intros p a s Hp Hv. destruct p as [|p]; [|vm_compute in Hv; destruct p; discriminate]. cbn in Hp, Hv.
      injection Hp as <-. injection Hv as <-. apply sv_const. vm_compute. reflexivity.
    + apply exec_new.
  - intros q Hq. exfalso. revert Hq. apply no_request. vm_compute. reflexivity.
Qed.
Lemma exec_three : ES_exec ∅ 4 [VNil] mem3 (VErr 0).
Proof.
  set (en := set_var nothing 9 (VErr 0)).
  eapply (ex_return _ _ _ _ _ _ es_f4 _ en mem3 return_err (Node 83 (KIdent (str "err") (Some 9)) [])).
  - vm_compute. reflexivity.
  - eapply (re_assign _ _ _ _ _ _ _ nothing ∅ [err_target] [call_G] mem3 [VErr 0]).
    + apply re_start, starts_F.
    + eapply (wr_assign _ _ (Node 79 (KAssign 1%nat) [err_target; call_G])); [member|reflexivity|reflexivity].
    + reflexivity.
    + eapply es_cons; [|apply es_nil]. eapply (ev_call _ _ _ _ es_f4 nothing ∅ call_G _ _ 5 [VNil]).
      * vm_compute. reflexivity.
      * reflexivity.
      * apply plain.
      * apply den_func. vm_compute. reflexivity.
      * intros p a s Hp Hv. destruct p as [|p]; [discriminate|]. vm_compute in Hv. destruct p; discriminate.
      * apply exec_G.
    + eapply ss_cons; [|apply ss_nil]. eapply (st_var _ _ _ _ _ _ _ _ (Ident 75 (str "err") (Some 9)) 9); [reflexivity|reflexivity|].
      intros Hs. exfalso. revert Hs. apply no_struct_var. vm_compute. reflexivity.
  - member.
  - by apply ret_last.
  - eapply (ev_var _ _ _ _ es_f4 en mem3 _ (Ident 83 (str "err") (Some 9)) 9).
    + split; [reflexivity|]. split; [reflexivity|]. split; vm_compute; discriminate.
    + vm_compute. discriminate.
    + intros Hs. exfalso. revert Hs. apply no_struct_var. vm_compute. reflexivity.
  - intros q Hq. exfalso. revert Hq. apply no_request. vm_compute. reflexivity.
Qed.

(** All presuppositions of C22_sound hold, the analyzer reports nothing, and there are executions of F that return the codes
    "two" and "three". *)
Theorem C22_example : exists r,
  orders_ok es_lk es_ord /\ completes es false es_ord no_facts r /\
  usable_functions es (facts_during es es_ord r) /\ no_literal_recursion es es_lk (facts_during es es_ord r) /\
  (forall c, agree_everywhere es c) /\
  (forall g fn, pk_funcs es !! g = Some fn ->
     disciplined es (facts_during es es_ord r) fn /\ resolved es es_lk (facts_during es es_ord r) fn) /\
  r_diags r = [] /\
  (exists fn codes param, known_function es 4 fn /\ returns_error_last es (fn_type fn) /\ declares_codes es fn codes param) /\
  (exists h v, exec es es_lk (facts_during es es_ord r) nobody ∅ 4 [VNil] h v /\ has_code h v (str "two")) /\
  (exists h v, exec es es_lk (facts_during es es_ord r) nobody ∅ 4 [VNil] h v /\ has_code h v (str "three")).
Proof.
  exists es_run. rewrite es_during. split; [apply some_run_orders_ok|]. split; [apply es_completes|].
  destruct (es_usable es_facts) as [? ?]. split; [done|]. split; [by apply no_literal_calls_recursion|]. split; [apply es_agree|]. split; [apply es_sound|].
  split; [apply es_quiet|]. split; [|split].
  - assert (is_Some (r_claims es_run !! 4)) as [[codes param] Hc] by (apply (bool_decide_unpack _); vm_compute; exact Logic.I).
    apply (run_claims es false es_ord no_facts es_run es_completes (some_run_orders_ok _)) in Hc as (fn&?&?&?). by exists fn, codes, param.
  - exists mem2, (VErr 0). split; [apply exec_two|]. exists 0, (Cell ∅ (str "two")). split; [done|]. split; [reflexivity|]. split; [by right|discriminate].
  - exists mem3, (VErr 0). split; [apply exec_three|]. exists 0, (Cell ∅ (str "three")). split; [done|]. split; [reflexivity|]. split; [by right|discriminate].
Qed.
