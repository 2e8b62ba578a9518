(** * Analysis of functions, calls and expressions (analyse.go 464-823, function_lookup.go). *)
From Coq Require Import Ascii String.
From stdpp Require Import base list gmap.
From Verif Require Import GoString ErrorCode Scc Engine Annotation CodeSet Constant GoAst Taint Extract.

(** analyse.go 214-216, isMethod. *)
Definition isMethod (fn : func) : bool :=
  match fn_decl fn with
  | Some d => match dc_recv d with Some [_] => true | _ => false end
  | None => false
  end.
Definition func_name (fn : func) : gostring :=
  match fn_decl fn with Some d => i_name (dc_name d) | None => [] end.

(** function_lookup.go 16-21 (without the caches). *)
Record lookup_table := Lookup {
  lk_functions : gmap gostring fid;
  lk_methods : gmap gostring (list fid)
}.
(** function_lookup.go 32-56, collectFunctions. *)
Definition collect_one (pk : package) (lk : lookup_table) (f : fid) : lookup_table :=
  match pk_funcs pk !! f with
  | None => lk
  | Some fn =>
    if isMethod fn
    then Lookup (lk_functions lk)
           (<[ func_name fn := default [] (lk_methods lk !! func_name fn) ++ [f] ]> (lk_methods lk))
    else Lookup (<[ func_name fn := f ]> (lk_functions lk)) (lk_methods lk)
  end.
Definition collectFunctions (pk : package) : lookup_table := foldl (collect_one pk) (Lookup ∅ ∅) (pk_decls pk).

(** function_lookup.go 73-88, searchMethodType: the object of the method. *)
Definition searchMethodType (pk : package) (receiver : gotype) (methodName : gostring) : option tobj :=
  match ti_methods (pk_info pk) receiver methodName with
  | Some o => Some o
  | None => match receiver with
            | TPointer _ => None
            | _ => ti_methods (pk_info pk) (TPointer receiver) methodName
            end
  end.
(** function_lookup.go 91-113, searchMethod. *)
Definition decl_obj (pk : package) (f : fid) : option tobj :=
  match pk_funcs pk !! f with
  | Some fn => match fn_decl fn with Some d => ti_defs (pk_info pk) (i_id (dc_name d)) | None => None end
  | None => None
  end.
Definition searchMethod (pk : package) (lk : lookup_table) (receiver : gotype) (methodName : gostring) : option fid :=
  match lk_methods lk !! methodName with
  | None => None
  | Some methods =>
    match searchMethodType pk receiver methodName with
    | None => None
    | Some o => list_find (fun f => decl_obj pk f = Some o) methods ≫= fun p => Some p.2
    end
  end.

Section analyse.
Context (pk : package) (lk : lookup_table) (fa : facts).
Notation info := (pk_info pk).

(** analyse.go 663-722 for a call whose target declaration has been found. *)
Definition call_function (target : option fid) (calledFunction : node) : eff diag :=
  match target with
  | Some g => EffCallEdge g                                                         (* 710-718 *)
  | None => report (node_id calledFunction) (str "called function does not declare error codes")  (* 719-722 *)
  end.

(** analyse.go 638-725, findErrorCodesFromFunctionCall; [call] is callExpr with its arguments, or nil;
    [lambdas] is findErrorCodesFromAllAssignedLambdas. *)
Definition findErrorCodesFromFunctionCall (lambdas : ident -> eff diag) (fn : func) (calledFunction : node)
    (cal : option tobj) (call : option (node * list node)) : eff diag :=
  let ctor := extractErrorCodeFromConstructorCall pk fa fn calledFunction cal (snd <$> call) in   (* 642-646 *)
  match (match cal with Some o => fa_codes fa !! o | None => None end) with
  | Some codes => EffUnion ctor (EffSet codes)                                      (* 650-653 *)
  | None =>
    let conversionCodes :=
      match call, cal with
      | Some _, None => extractErrorCodesFromTypeConversion pk fa calledFunction
      | _, _ => ∅
      end in
    if decide (conversionCodes <> ∅) then EffUnion ctor (EffSet conversionCodes)    (* 656-661 *)
    else
      let e := unparen calledFunction in
      match as_ident e with
      | Some i =>                                                                   (* 666-689 *)
        match i_obj i with
        | None =>
          match lk_functions lk !! i_name i with
          | Some g => EffUnion ctor (EffCallEdge g)
          | None => EffUnion (discard ctor) (report (i_id i)
                      (str "function " ++ quoted (i_name i) ++ str " in dot-imported package does not declare error codes"))
          end
        | Some o =>
          match ob_decl (obj_of pk o) with
          | DFunc g => EffUnion ctor (EffCallEdge g)
          | DType => match call with
                     | Some (c, _) => EffUnion (discard ctor) (extractErrorCodesFromAffector pk fa fn c)
                     | None => discard ctor
                     end
          | _ => EffUnion (discard ctor) (lambdas i)
          end
        end
      | None =>
        match as_selector e with
        | Some (x, sel) =>                                                          (* 690-702 *)
          match (match as_ident (unparen x) with Some t => ti_pkgname info (i_id t) | None => None end) with
          | Some pkg_name =>
            EffUnion (discard ctor) (report (node_id e)
              (str "function " ++ quoted (i_name sel) ++ str " in package " ++ quoted pkg_name
               ++ str " does not declare error codes"))
          | None =>
            match ti_selection info (node_id e) with
            | None => EffUnion (discard ctor) EffPanic                              (* selection.Recv() on nil *)
            | Some (_, recv) => EffUnion ctor (call_function (searchMethod pk lk recv (i_name sel)) calledFunction)
            end
          end
        | None =>
          match as_funclit e with
          | Some g => EffUnion ctor (EffCallEdge g)                                 (* 703-704 *)
          | None => EffUnion (discard ctor) (report (node_id e)
                      (str "invalid error source: definition of the unnamed function could not be found"))  (* 705-708 *)
          end
        end
      end
  end.

(** analyse.go 754-777, findErrorCodesInLambdaAssignment. *)
Definition findErrorCodesInLambdaAssignment (lambdas : ident -> eff diag) (fn : func) (i : ident) (assigned : node) : eff diag :=
  let e := unparen assigned in
  match as_funclit e with
  | Some g => EffCallDirect g                                                       (* 759-760 *)
  | None =>
    match as_ident e with
    | Some r => findErrorCodesFromFunctionCall lambdas fn e (ti_uses info (i_id r)) None      (* 761-763 *)
    | None =>
      match as_selector e with
      | Some (_, sel) =>                                                            (* 764-771 *)
        let cal := match ti_selection info (node_id e) with
                   | Some (o, _) => Some o
                   | None => ti_uses info (i_id sel)
                   end in
        findErrorCodesFromFunctionCall lambdas fn e cal None
      | None => report (node_id e) (str "unsupported: assignment to variable " ++ quoted (i_name i)
                  ++ str " can only be an identifier or function literal")          (* 772-773 *)
      end
    end
  end.

(** analyse.go 729-752, findErrorCodesFromAllAssignedLambdas; [lambdas] handles calls found in there (763). *)
Definition all_assigned_lambdas (lambdas : ident -> eff diag) (fn : func) (i : ident) : eff diag :=
  let r := taintSpread pk fn None ∅ i in                                            (* 732 *)
  if negb (ts_ok r) then EffPanic else
  EffUnion
    (eff_all (map (fun bad => report (i_id bad)
       (match fn_decl fn with
        | Some _ => str "error returning function literal may not be a parameter, receiver or global variable"
        | None => str "error returning function literal may not be a parameter, global variable or other variables declared outside of the function body"
        end)) (ts_oos r)))
  (EffUnion
    (eff_all (map (fun d => report (node_id (de_source d))
       (str "unsupported: assigning result of function call to variable " ++ quoted (i_name (de_target d)) ++ str " is not allowed"))
       (ts_destructs r)))
    (eff_all (map (findErrorCodesInLambdaAssignment lambdas fn i) (ts_exprs r)))).
(** The recursion 748 -> 763 -> 687: an identifier that was assigned to a variable of function type and is itself not a
    variable (141) is a declared function or an imported one; it would have to be a constant to get to 687
    a second time, and constants are not functions.  The model stops there. *)
Definition findErrorCodesFromAllAssignedLambdas (fn : func) (i : ident) : eff diag :=
  all_assigned_lambdas (fun _ => EffPanic) fn i.

(** analyse.go 630-633, findErrorCodesInCallExpression. *)
Definition findErrorCodesInCallExpression (fn : func) (call : node) : eff diag :=
  match as_call call with
  | Some (f, args) =>
    findErrorCodesFromFunctionCall (findErrorCodesFromAllAssignedLambdas fn) fn f (callee pk f) (Some (call, args))
  | None => EffPanic (* not reached *)
  end.

(** analyse.go 795-798: the loop over the tracked expressions; [rec] is findErrorCodesInExpression.  The set
    of visited identifiers is shared. *)
Definition expr_analysis := gset oid -> node -> eff diag * gset oid.
Fixpoint codes_of_exprs (rec : expr_analysis) (visited : gset oid) (exprs : list node) : eff diag * gset oid :=
  match exprs with
  | [] => (eff_none, visited)
  | e :: exprs' =>
    let '(c, v1) := rec visited e in
    let '(c', v2) := codes_of_exprs rec v1 exprs' in
    (EffUnion c c', v2)
  end.
(** analyse.go 800-820: the loop over the destructuring assignments. *)
Definition codes_of_destruct (rec : expr_analysis) (fn : func) (visited : gset oid) (d : destruct) : eff diag * gset oid :=
  let e := unparen (de_source d) in
  match e with
  | Node _ (KTypeAssert _) [x] => rec visited x                                     (* 802-804 *)
  | Node _ KCall (f :: _) =>                                                        (* 805-816 *)
    match ti_type info (node_id f) with
    | Some (TSignature _ results _) =>
      if decide (S (de_position d) = length results)
      then (findErrorCodesInCallExpression fn e, visited)
      else (report (i_id (de_target d))
              (str "unsupported: tracking error codes for function call with error as non-last return argument"), visited)
    | _ => (EffPanic, visited)                                                      (* 806: failed type assertion *)
    end
  | _ => (EffPanic, visited)                                                        (* 818 *)
  end.
Fixpoint codes_of_destructs (rec : expr_analysis) (fn : func) (visited : gset oid) (ds : list destruct) : eff diag * gset oid :=
  match ds with
  | [] => (eff_none, visited)
  | d :: ds' =>
    let '(c, v1) := codes_of_destruct rec fn visited d in
    let '(c', v2) := codes_of_destructs rec fn v1 ds' in
    (EffUnion c c', v2)
  end.

(** analyse.go 780-823, findErrorCodesFromIdentTaint. *)
Definition findErrorCodesFromIdentTaint (rec : expr_analysis) (fn : func) (visited : gset oid) (i : ident) : eff diag * gset oid :=
  let r := taintSpread pk fn None visited i in                                      (* 783 *)
  if negb (ts_ok r) then (EffPanic, visited) else
  let bad := eff_all (map (fun b => report (i_id b)
     (match fn_decl fn with
      | Some _ => str "returned error may not be a parameter, receiver or global variable"
      | None => str "returned error may not be a parameter, global variable or other variables declared outside of the function body"
      end)) (ts_oos r)) in                                                          (* 785-791 *)
  let '(c1, v1) := codes_of_exprs rec (ts_visited r) (ts_exprs r) in
  let '(c2, v2) := codes_of_destructs rec fn v1 (ts_destructs r) in
  (EffUnion bad (EffUnion c1 c2), v2).

(** analyse.go 576-620, findErrorCodesInExpression; the identifiers visited are returned as well.  [fuel] bounds
    the depth of the recursion. *)
Fixpoint findErrorCodesInExpression (fn : func) (fuel : nat) (visited : gset oid) (expr : node) : eff diag * gset oid :=
  match fuel with
  | O => (EffPanic, visited)
  | S n =>
    let rec := findErrorCodesInExpression fn n in
    let e := unparen expr in
    match e with
    | Node _ KCall _ => (findErrorCodesInCallExpression fn e, visited)              (* 586-587 *)
    | Node id (KIdent name obj) _ => findErrorCodesFromIdentTaint rec fn visited (Ident id name obj)   (* 588-589 *)
    | Node _ (KUnary is_and) [x] =>                                                 (* 590-601 *)
      if is_and && (match ti_type info (node_id e) with Some t => ti_implements_error info t | None => false end)
      then match as_ident (unparen x) with
           | Some i => findErrorCodesFromIdentTaint rec fn visited i
           | None => (extractErrorCodesFromAffector pk fa fn e, visited)
           end
      else (report (node_id e) (str "expression " ++ type_name e ++ str " does not implement valid error type"), visited)
    | Node _ KComposite _ | Node _ KBasicLit _ => (extractErrorCodesFromAffector pk fa fn e, visited)   (* 602-603 *)
    | Node _ KSelector [_; Node id (KIdent name obj) _] =>
      findErrorCodesFromIdentTaint rec fn visited (Ident id name obj)               (* 604-605 *)
    | Node _ (KTypeAssert None) _ =>
      (report (node_id e) (str "type assertion switch is not supported in error code analysis"), visited)   (* 606-610 *)
    | Node _ (KTypeAssert (Some _)) _ =>
      (report (node_id e) (str "type assertion is not supported in error code analysis"), visited)          (* 611-612 *)
    | Node _ KIndex _ => (report (node_id e) (str "expression is not supported in error code analysis"), visited)  (* 613-615 *)
    | _ => (report (node_id e) (str "expression " ++ type_name e ++ str " is not supported in error code analysis"), visited)
    end
  end.
(** Every level of the recursion (794-804 -> 576) has one more visited identifier of the table. *)
Definition expr_fuel : nat := S (S (size (pk_objs pk))).

(** analyse.go 550-573, findErrorCodesInReturnStmt. *)
Definition return_expression (fn : func) (results : list node) : option node :=
  match last results with
  | Some e => Some e                                                                (* 566 *)
  | None =>                                                                         (* 553-564 *)
    match ft_results (fn_type fn) with
    | Some fields =>
      match last fields with
      | Some f =>
        match last (f_names f) with
        | Some i => Some (Node (i_id i) (KIdent (i_name i) (i_obj i)) [])
        | None => None                                                              (* 561: panic *)
        end
      | None => None                                                                (* 556: panic *)
      end
    | None => None                                                                  (* nil dereference *)
    end
  end.
Definition findErrorCodesInReturnStmt (fn : func) (visited : gset oid) (results : list node) : eff diag * gset oid :=
  match return_expression fn results with
  | Some e => findErrorCodesInExpression fn expr_fuel visited e
  | None => (EffPanic, visited)
  end.

(** The message of an annotation diagnostic, annotation.go 61, 66, 87, 110, 130, 134. *)
Definition annotation_message (d : annotation_diag) : gostring :=
  match d with
  | AnnExpectedOperator => str "error in annotation: expected '=', '+=', '-=', '+code', or '-code' after 'Error Codes' indicator"
  | AnnMultiple => str "found multiple annotations for the same return statement: only one is allowed"
  | AnnInvalidCode => str "invalid error code in annotation: should match [a-zA-Z][a-zA-Z0-9\-]*[a-zA-Z0-9]"
  | AnnMissingSign => str "invalid error code in annotation: code has to start with '+' or '-'"
  end.

(** analyse.go 502-515: one return statement. *)
Definition codes_of_return (fn : func) (visited : gset oid) (stmt : node) : eff diag * gset oid :=
  let '(annotations, ds) := getReturnStmtAnnotations (pk_comments pk (node_id stmt)) in
  let reports := eff_all (map (fun d => report (node_id stmt) (annotation_message d)) ds) in
  match annotations with
  | Some a =>
    if an_shouldOverwrite a then (EffUnion reports (EffSet (an_overwrite a)), visited)       (* 503-506 *)
    else let '(c, v) := findErrorCodesInReturnStmt fn visited (node_kids stmt) in
         (EffUnion reports (EffUnion (EffDiff c (an_subCodes a)) (EffSet (an_addCodes a))), v)   (* 508-512 *)
  | None => let '(c, v) := findErrorCodesInReturnStmt fn visited (node_kids stmt) in (EffUnion reports c, v)
  end.

(** analyse.go 497-518: the return statements ast.Inspect finds, not entering function literals and return
    statements. *)
Fixpoint returns_of (n : node) : list node :=
  match n with
  | Node _ (KFuncLit _) _ => []
  | Node _ KReturn _ => [n]
  | Node _ _ kids => flat_map returns_of kids
  end.

(** analyse.go 494-521, findErrorCodesInFunctionReturnStmts. *)
Fixpoint codes_of_returns (fn : func) (visited : gset oid) (stmts : list node) : eff diag * gset oid :=
  match stmts with
  | [] => (eff_none, visited)
  | s :: stmts' =>
    let '(c, v1) := codes_of_return fn visited s in
    let '(c', v2) := codes_of_returns fn v1 stmts' in
    (EffUnion c c', v2)
  end.
Definition findErrorCodesInFunctionReturnStmts (fn : func) : eff diag * gset oid :=
  match fn_body fn with
  | Some body => codes_of_returns fn ∅ (returns_of body)
  | None => (EffPanic, ∅)
  end.

(** analyse.go 470-480: what findErrorCodesInFunc does for one function.  [order] gives the iteration order over
    the set of tracked variables (845). *)
Definition function_effect (order : gset oid -> list oid) (fn : func) : eff diag :=
  let '(returnCodes, visited) := findErrorCodesInFunctionReturnStmts fn in
  EffUnion (EffUnion (ectractErrorCodesFromConstructor pk fa fn) returnCodes)
           (findCodesAssignedToErrorCodeFields pk fa fn (order visited)).
Definition plan (order : gset oid -> list oid) (f : fid) : eff diag :=
  match pk_funcs pk !! f with
  | Some fn => function_effect order fn
  | None => EffPanic (* not reached: there is no such function *)
  end.
End analyse.
