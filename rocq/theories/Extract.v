(** * Extraction of codes from expressions (extract_error_code.go) and from assignments to code fields
    (analyse.go 842-935).

    A function that returns a set of codes and may report is modelled by the effect expression it
    executes; `code, ok` results are modelled by the set with the code if ok. *)
From Coq Require Import Ascii String.
From stdpp Require Import base list gmap.
From Verif Require Import GoString ErrorCode Scc Engine CodeSet Constant GoAst Taint.

Definition report (at_ : nid) (msg : gostring) : eff diag := EffReport (Diag at_ msg).
Definition eff_none : eff diag := EffSet ∅.
(** result = Union(result, x1); result = Union(result, x2); ... starting from the empty set. *)
Definition eff_all (l : list (eff diag)) : eff diag := foldl EffUnion eff_none l.

(** A call-free effect executed for its reports only, its codes being dropped. *)
Fixpoint discard (e : eff diag) : eff diag :=
  match e with
  | EffSet _ => EffSet ∅
  | EffUnion a b => EffUnion (discard a) (discard b)
  | EffDiff a s => EffDiff (discard a) s
  | _ => e
  end.

Section extract.
Context (pk : package) (fa : facts).
Notation info := (pk_info pk).

(** typeutil.Callee (golang.org/x/tools/go/types/typeutil/callee.go). *)
Definition callee (fun_ : node) : option tobj :=
  let f := unparen fun_ in
  let obj :=
    match as_ident f with
    | Some i => ti_uses info (i_id i)
    | None =>
      match as_selector f with
      | Some (_, sel) => match ti_selection info (node_id f) with
                         | Some (o, _) => Some o
                         | None => ti_uses info (i_id sel)
                         end
      | None => None
      end
    end in
  match obj with
  | Some o => if ti_is_typename info o then None else Some o
  | None => None
  end.

(** tag_error_types.go 114-126, getErrorTypeForError: [inr tt] is the error, [inl None] is nil, nil. *)
Definition getErrorTypeForError (t : option gotype) : option errortype + unit :=
  match t with
  | None => inr tt
  | Some t => match getNamedType t with
              | None => inr tt
              | Some n => inl (fa_type fa !! n)
              end
  end.

(** extract_error_code.go 271-292, getParamPosition; [None] is -1.  [pos] is the position of the first of
    the given fields. *)
Fixpoint param_position_names (o : oid) (names : list ident) (pos : nat) : nat + nat :=
  match names with
  | [] => inr pos
  | n :: names' => if decide (i_obj n = Some o) then inl pos else param_position_names o names' (S pos)
  end.
Fixpoint param_position (o : oid) (fields : list field) (pos : nat) : option nat :=
  match fields with
  | [] => None
  | f :: fields' =>
    match f_names f with
    | [] => param_position o fields' (S pos)
    | names => match param_position_names o names pos with
               | inl p => Some p
               | inr pos' => param_position o fields' pos'
               end
    end
  end.
Definition getParamPosition (ft : functype) (param : ident) : option nat :=
  match i_obj param with
  | None => None
  | Some o => param_position o (ft_params ft) 0
  end.

(** extract_error_code.go 296-320, getParamIdent. *)
Fixpoint param_ident_names (target : nat) (names : list ident) (pos : nat) : ident + nat :=
  match names with
  | [] => inr pos
  | n :: names' => if decide (pos = target) then inl n else param_ident_names target names' (S pos)
  end.
Fixpoint param_ident (target : nat) (fields : list field) (pos : nat) : option ident :=
  match fields with
  | [] => None
  | f :: fields' =>
    match f_names f with
    | [] => if decide (pos = target) then None else param_ident target fields' (S pos)
    | names => match param_ident_names target names pos with
               | inl i => Some i
               | inr pos' => param_ident target fields' pos'
               end
    end
  end.
Definition getParamIdent (ft : functype) (position : nat) : option ident :=
  param_ident position (ft_params ft) 0.

(** extract_error_code.go 259-267, importErrorConstructorFact. *)
Definition importErrorConstructorFact (fn : func) : option nat :=
  match fn_decl fn with
  | None => None
  | Some d => match ti_defs info (i_id (dc_name d)) with
              | Some o => fa_ctor fa !! o
              | None => None
              end
  end.

(** extract_error_code.go 202-214, checkIfExprIsErrorCodeParam. *)
Definition checkIfExprIsErrorCodeParam (fn : func) (param : ident) (position : nat) : eff diag :=
  if decide (importErrorConstructorFact fn = Some position) then eff_none
  else report (i_id param)
         (str "require an error code parameter declaration to use " ++ quoted (i_name param) ++ str " as an error code").

(** extract_error_code.go 149-173, extractErrorCodeFromStringExpression. *)
Definition extractErrorCodeFromStringExpression (fn : func) (codeExpr : node) : eff diag :=
  match ti_value info (node_id codeExpr) with
  | Some v =>                                                                       (* 151-157 *)
    match getErrorCodeFromConstant (ti_is_print info) v with
    | inr msg => report (node_id codeExpr) msg
    | inl code => if decide (code = []) then eff_none else EffSet {[ code ]}
    end
  | None =>
    match as_ident (unparen codeExpr) with                                          (* 160-172 *)
    | Some i =>
      match getParamPosition (fn_type fn) i with
      | Some p => checkIfExprIsErrorCodeParam fn i p
      | None => report (node_id codeExpr) (str "error code has to be constant value or error code parameter")
      end
    | None => report (node_id codeExpr) (str "error code has to be constant value or error code parameter")
    end
  end.

(** extract_error_code.go 63-114, findFieldInitExpression: [inl None] is nil without report, [inr id] a
    report at [id] and nil. *)
Fixpoint find_keyed (name : gostring) (elts : list node) (seen : bool) : option node * bool :=
  (* 75-91: the value found, and isKeyBased *)
  match elts with
  | [] => (None, seen)
  | e :: elts' =>
    match as_keyvalue e with
    | None => (None, seen)                                        (* 77-79: break *)
    | Some (k, v) =>
      match as_ident k with
      | None => (None, true)                                       (* 83-86: break *)
      | Some i => if decide (name = i_name i) then (Some v, true) else find_keyed name elts' true
      end
    end
  end.
(** [at_] is where a failure is reported (112): the expression the parentheses were removed from (64). *)
Fixpoint find_init (name : gostring) (position : nat) (at_ : nid) (e : node) : option node + nid :=
  match e with
  | Node _ KParen [x] => find_init name position at_ x             (* 64 *)
  | Node _ KComposite elts =>
    match elts with
    | [] => inl None                                               (* 66-70 *)
    | _ =>
      match find_keyed name elts false with
      | (Some v, _) => inl (Some v)                                (* 88-90 *)
      | (None, true) => inl None                                   (* 93-96 *)
      | (None, false) =>
        match elts !! position with                                (* 100-103 *)
        | Some v => inl (Some v)
        | None => inr at_                                          (* 112 *)
        end
      end
    end
  | Node _ (KUnary true) [x] => find_init name position (node_id x) x   (* 104-107 *)
  | _ => inr at_                                                   (* 108-112 *)
  end.
Definition findFieldInitExpression (constructExpr : node) (name : gostring) (position : nat) : option node + nid :=
  find_init name position (node_id constructExpr) constructExpr.

(** extract_error_code.go 50-61, extractFieldErrorCode. *)
Definition extractFieldErrorCode (fn : func) (expr : node) (f : gostring * nat) : eff diag :=
  match findFieldInitExpression expr f.1 f.2 with
  | inr at_ => report at_ (str "could not find initialiser for error code field in contructor expression")
  | inl None => eff_none
  | inl (Some e) => extractErrorCodeFromStringExpression fn e
  end.

(** analyse.go 932-935, checkErrorTypeHasLegibleCode. *)
Definition checkErrorTypeHasLegibleCode (e : node) : bool :=
  match ti_type info (node_id e) with
  | Some t => ti_implements_ree info t || ti_implements_ree info (TPointer t)
  | None => false
  end.

(** extract_error_code.go 16-45, extractErrorCodesFromAffector. *)
Definition extractErrorCodesFromAffector (fn : func) (affector : node) : eff diag :=
  if negb (checkErrorTypeHasLegibleCode affector)
  then report (node_id affector) (str "expression does not define an error code")   (* 20-23 *)
  else match getErrorTypeForError (ti_type info (node_id affector)) with
       | inr _ | inl None =>                                                        (* 26-30 *)
         report (node_id affector)
           (str "expression is not a valid error: error types must return constant error codes or a single field")
       | inl (Some et) =>                                                           (* 31-42 *)
         EffUnion (EffSet (et_codes et))
           (match et_field et with
            | None => eff_none
            | Some f => extractFieldErrorCode fn affector f
            end)
       end.

(** extract_error_code.go 118-127, extractErrorCodesFromTypeConversion; nil is the empty set. *)
Definition extractErrorCodesFromTypeConversion (fun_ : node) : codeset :=
  match getErrorTypeForError (ti_type info (node_id fun_)) with
  | inl (Some et) => et_codes et
  | _ => ∅
  end.

(** extract_error_code.go 131-147, extractErrorCodeFromConstructorCall; [args] is callExpr.Args, [None] if
    callExpr is nil. *)
Definition extractErrorCodeFromConstructorCall (fn : func) (reportRange : node) (cal : option tobj)
    (args : option (list node)) : eff diag :=
  match cal with
  | None => eff_none
  | Some o =>
    match fa_ctor fa !! o with
    | None => eff_none                                                              (* 133-135 *)
    | Some p =>
      match args with
      | None => report (node_id reportRange)
                  (str "unsupported use of error constructor " ++ quoted (ti_objname info o))   (* 137-140 *)
      | Some args =>
        match args !! p with
        | None => EffPanic                                                          (* 142-144 *)
        | Some arg => extractErrorCodeFromStringExpression fn arg                   (* 146 *)
        end
      end
    end
  end.

(** extract_error_code.go 223-256, ectractErrorCodesFromConstructor. *)
Definition ectractErrorCodesFromConstructor (fn : func) : eff diag :=
  match importErrorConstructorFact fn with
  | None => eff_none                                                                (* 228-230 *)
  | Some p =>
    match getParamIdent (fn_type fn) p with
    | None => EffPanic                                                              (* 233-236 *)
    | Some i =>
      let r := taintSpread pk fn (i_obj i) ∅ i in                                   (* 238 *)
      if negb (ts_ok r) then EffPanic else
      EffUnion
        (eff_all (map (fun bad => report (i_id bad)
           (str "error code parameter may not be assigned an other parameter, receiver or global variable")) (ts_oos r)))
      (EffUnion
        (eff_all (map (fun d => report (node_id (de_source d))
           (str "unsupported: assigning result of function call to error code parameter " ++ quoted (i_name (de_target d))
            ++ str " is not allowed")) (ts_destructs r)))
        (eff_all (map (extractErrorCodeFromStringExpression fn) (ts_exprs r))))
    end
  end.

(** analyse.go 884-924: the entries of one assignment.  [et] is errorType (which the loop may set). *)
Fixpoint code_field_lhs (fn : func) (o : oid) (rhs : list node) (same_length : bool) (i : nat) (lhs : list node)
    (et : option errortype) : eff diag :=
  match lhs with
  | [] => eff_none
  | l :: lhs' =>
    let continue := fun et' => code_field_lhs fn o rhs same_length (S i) lhs' et' in
    match as_selector l with
    | None => continue et                                                           (* 885-888 *)
    | Some (x, sel) =>
      match as_ident x with
      | None => continue et                                                         (* 890-893 *)
      | Some xi =>
        if decide (i_obj xi <> Some o) then continue et                             (* 891, 895-897 *)
        else
          let check := fun (et' : errortype) =>                                     (* 911-923 *)
            match et_field et' with
            | None => EffPanic                                (* errorType.Field.Name with a nil Field *)
            | Some (fname, _) =>
              if decide (fname <> i_name sel) then continue (Some et')
              else if negb same_length then
                match rhs with
                | r :: _ => EffUnion (report (node_id r) (str "error code has to be constant value or error code parameter"))
                              (continue (Some et'))
                | [] => EffPanic
                end
              else match rhs !! i with
                   | Some r => EffUnion (extractErrorCodeFromStringExpression fn r) (continue (Some et'))
                   | None => EffPanic
                   end
            end in
          match et with
          | Some et' => check et'
          | None =>                                                                 (* 901-907 *)
            match getErrorTypeForError (ti_type info (i_id xi)) with
            | inl (Some et') =>
              match et_field et' with
              | None => continue (Some et')       (* errorType stays set: the next entry skips 901-907 *)
              | Some _ => check et'
              end
            | _ => continue None
            end
          end
      end
    end
  end.

(** analyse.go 853-873: ast.Inspect visits the assignments, not entering them. *)
Fixpoint assigns_pruned (n : node) : list (list node * list node) :=
  match as_assign n with
  | Some a => [a]
  | None => let 'Node _ _ kids := n in flat_map assigns_pruned kids
  end.

(** analyse.go 853-873, findCodesAssignedToErrorCodeField (errorIdent is not nil).  ast.Inspect is called on
    the whole declaration; only the body contains assignments. *)
Definition findCodesAssignedToErrorCodeField (fn : func) (et : option errortype) (o : oid) : eff diag :=
  match fn_body fn with
  | None => eff_none
  | Some body =>
    eff_all (map (fun '(lhs, rhs) => code_field_lhs fn o rhs (bool_decide (length lhs = length rhs)) 0 lhs et)
               (assigns_pruned body))
  end.

(** analyse.go 842-851, findCodesAssignedToErrorCodeFields; [order] is the iteration order over the set of
    tracked variables. *)
Definition findCodesAssignedToErrorCodeFields (fn : func) (order : list oid) : eff diag :=
  eff_all (map (findCodesAssignedToErrorCodeField fn None) order).
End extract.
