(** * Conversions to interfaces with methods that declare error codes (interfaces_verify.go). *)
From Coq Require Import Ascii String.
From stdpp Require Import base list gmap.
From Verif Require Import GoString ErrorCode Scc Engine CodeSet Constant GoAst Taint Extract Analyse Phase Interfaces.

(** A conversion that is checked (interfaces_verify.go 474-488): the codes the interface declares, the type of
    the interface, the type of the value, the position reported. *)
Record site := Site { s_iface : gmap gostring codeset; s_target : gotype; s_value : gotype; s_pos : nid }.
(** What is done at a node: a check, or a panic. *)
Inductive conv := CSite (s : site) | CPanic.

Section sites.
Context (pk : package) (fa : facts).
Notation info := (pk_info pk).
Notation type_of := (ti_type info).

(** analyse.go 236-243, getUnderlyingType. *)
Definition getUnderlyingType (t : gotype) : gotype :=
  match getNamedType t with
  | Some n => ti_underlying info n
  | None => t
  end.

(** interfaces_verify.go 484-527, checkIfTypeIsValidSubtypeForInterface: the call.  (A value without type would be a
    nil dereference.) *)
Definition check_type (m : gmap gostring codeset) (target : gotype) (value : option gotype) (pos : nid) : conv :=
  match value with
  | Some t => CSite (Site m target t pos)
  | None => CPanic
  end.
(** interfaces_verify.go 474-477, checkIfExprHasValidSubtypeForInterface. *)
Definition check_expr (m : gmap gostring codeset) (target : gotype) (e : node) : conv :=
  check_type m target (type_of (node_id e)) (node_id e).
(** If the type is an interface with a fact: the checks for it. *)
Definition with_fact (t : option gotype) (k : gmap gostring codeset -> gotype -> list conv) : list conv :=
  match t with
  | Some t => match importErrorInterfaceFact fa (Some t) with
              | Some m => k m t
              | None => []
              end
  | None => []
  end.

(** interfaces_verify.go 101-125, findConversionsInAssignStmt. *)
Definition findConversionsInAssignStmt (lhs rhs : list node) : list conv :=
  concat (imap (fun i l =>
    with_fact (type_of (node_id l)) (fun m t =>
      if decide (length lhs = length rhs)
      then match rhs !! i with Some e => [check_expr m t e] | None => [CPanic] end
      else match rhs with
           | call :: _ =>
             match type_of (node_id call) with
             | Some (TTuple ts) => match ts !! i with
                                   | Some v => [check_type m t (Some v) (node_id call)]
                                   | None => [CPanic]
                                   end
             | _ => [CPanic]
             end
           | [] => [CPanic]
           end)) lhs).

(** interfaces_verify.go 127-155, findConversionsInValueSpec. *)
Definition findConversionsInValueSpec (names : list ident) (typ : option nid) (values : list node) : list conv :=
  match values, typ with
  | call :: _, Some typ =>
    with_fact (type_of typ) (fun m t =>
      if decide (length names = length values) then map (check_expr m t) values
      else match type_of (node_id call) with
           | Some (TTuple ts) =>
             imap (fun i _ => match ts !! i with
                              | Some v => check_type m t (Some v) (node_id call)
                              | None => CPanic
                              end) names
           | _ => [CPanic]
           end)
  | _, _ => []
  end.

(** interfaces_verify.go 207-218, findConversionsExplicit. *)
Definition findConversionsExplicit (args : list node) (t : option gotype) : list conv :=
  with_fact t (fun m t => match args with [a] => [check_expr m t a] | _ => [CPanic] end).

(** interfaces_verify.go 157-205, findConversionsInCallExpr. *)
Definition findConversionsInCallExpr (f : node) (args : list node) : list conv :=
  match args with
  | [] => []
  | _ =>
    match type_of (node_id f) with
    | Some (TSignature params _ variadic) =>
      concat (imap (fun i p =>                                                       (* 170-184 *)
        with_fact (Some p) (fun m t =>
          match args !! i with
          | None => [CPanic]
          | Some a => check_expr m t a ::
                      (if variadic && bool_decide (S i = length params)
                       then map (check_expr m t) (drop (length params) args) else [])
          end)) params)
      ++ (if variadic : bool then                                                    (* 187-203 *)
            match last params with
            | Some (TSlice elem) => with_fact (Some elem) (fun m t => map (check_expr m t) (drop (length params - 1) args))
            | Some _ => []
            | None => [CPanic]
            end
          else [])
    | t => findConversionsExplicit args t
    end
  end.

(** interfaces_verify.go 220-240, findConversionsInTypeAssertExpr; [x] is the operand. *)
Definition findConversionsInTypeAssertExpr (typ : option nid) (x : node) : list conv :=
  match typ with
  | None => []
  | Some typ =>
    with_fact (type_of typ) (fun m t =>
      match type_of (node_id x) with
      | None => [CPanic]
      | Some v => match getUnderlyingType t with
                  | TInterface i => if ti_implements info v (TInterface i) then [check_type m t (Some v) (node_id x)] else []
                  | _ => [check_type m t (Some v) (node_id x)]
                  end
      end)
  end.

(** interfaces_verify.go 242-275, findConversionsInTypeSwitchStmt. *)
Definition case_elements (clause : node) : list node :=
  match node_kind clause with KCaseClause n => take n (node_kids clause) | _ => [] end.
Definition findConversionsInTypeSwitchStmt (assign body : node) : list conv :=
  match as_assign assign with
  | Some (_, [rhs]) =>
    match rhs with
    | Node _ (KTypeAssert _) [x] =>
      flat_map (fun clause =>
        flat_map (fun c =>
          with_fact (type_of (node_id c)) (fun m t =>
            match getUnderlyingType t, type_of (node_id x) with
            | TInterface i, Some v => if ti_implements info v (TInterface i) then [check_type m t (Some v) (node_id c)] else []
            | TInterface _, None => [CPanic]
            | _, _ => []
            end)) (case_elements clause)) (node_kids body)
    | _ => [CPanic]                                                                  (* 252 *)
    end
  | _ => []
  end.

(** interfaces_verify.go 277-293, findConversionsInIndexExpr. *)
Definition findConversionsInIndexExpr (x index : node) : list conv :=
  match type_of (node_id x) with
  | Some t => match getUnderlyingType t with
              | TMap key _ => with_fact (Some key) (fun m k => [check_expr m k index])
              | _ => []
              end
  | None => []
  end.

(** interfaces_verify.go 333-340: the value keyed [name]; a panic if an element before it is not keyed by an identifier. *)
Fixpoint keyed_value (m : gmap gostring codeset) (t : gotype) (name : gostring) (elts : list node) : list conv :=
  match elts with
  | [] => []
  | e :: elts' =>
    match as_keyvalue e with
    | Some (k, v) => match as_ident k with
                     | Some i => if decide (i_name i = name) then [check_expr m t v] else keyed_value m t name elts'
                     | None => [CPanic]
                     end
    | None => [CPanic]
    end
  end.
(** interfaces_verify.go 317-343, findConversionsInStructLit. *)
Definition findConversionsInStructLit (elts : list node) (fields : list (gostring * gotype)) : list conv :=
  match elts with
  | [] => []
  | e0 :: _ =>
    concat (imap (fun i (fd : gostring * gotype) =>
      with_fact (Some fd.2) (fun m t =>
        match as_keyvalue e0 with
        | None => match elts !! i with Some e => [check_expr m t e] | None => [CPanic] end
        | Some _ => keyed_value m t fd.1 elts
        end)) fields)
  end.
(** interfaces_verify.go 345-357, findConversionsInCompositeValues. *)
Definition findConversionsInCompositeValues (elts : list node) (elem : gotype) : list conv :=
  with_fact (Some elem) (fun m t =>
    map (fun e => match as_keyvalue e with Some (_, v) => check_expr m t v | None => check_expr m t e end) elts).
(** interfaces_verify.go 359-369, findConversionsInMapLitKeys. *)
Definition findConversionsInMapLitKeys (elts : list node) (key : gotype) : list conv :=
  with_fact (Some key) (fun m t =>
    map (fun e => match as_keyvalue e with Some (k, _) => check_expr m t k | None => CPanic end) elts).
(** interfaces_verify.go 295-315, findConversionsInCompositeLit. *)
Definition findConversionsInCompositeLit (n : node) (elts : list node) : list conv :=
  match elts with
  | [] => []
  | _ =>
    match type_of (node_id n) with
    | None => []
    | Some t =>
      match getUnderlyingType t with
      | TStruct fields => findConversionsInStructLit elts fields
      | TSlice elem | TArray _ elem => findConversionsInCompositeValues elts elem
      | TMap key elem => findConversionsInCompositeValues elts elem ++ findConversionsInMapLitKeys elts key
      | _ => []
      end
    end
  end.

(** interfaces_verify.go 371-397, findConversionsInReturnStmt; [pos] is the position of the first result of [fields]. *)
Fixpoint return_fields (results : list node) (pos : nat) (fields : list field) : list conv :=
  match fields with
  | [] => []
  | f :: fields' =>
    let n := match f_names f with [] => 1 | l => length l end in
    with_fact (type_of (f_type f)) (fun m t =>
      map (fun i => match results !! i with Some e => check_expr m t e | None => CPanic end) (seq pos n))
    ++ return_fields results (pos + n) fields'
  end.
Definition findConversionsInReturnStmt (results : list node) (within : option functype) : list conv :=
  match within with
  | None => [CPanic]                                                                 (* 87 *) 
  | Some ft =>
    match results with
    | [] => []
    | _ => match ft_results ft with
           | Some fields => return_fields results 0 fields
           | None => [CPanic]                                                        (* 378: nil dereference *)
           end
    end
  end.

(** interfaces_verify.go 399-424, findConversionsInRangeStmtKey. *)
Definition findConversionsInRangeStmtKey (key : option node) (x : node) : list conv :=
  match key with
  | None => []
  | Some key =>
    with_fact (type_of (node_id key)) (fun m t =>
      match getUnderlyingType <$> type_of (node_id x) with
      | Some (TMap k _) => [check_type m t (Some k) (node_id x)]
      | Some (TChan _ e) => [check_type m t (Some e) (node_id x)]
      | _ => [CPanic]
      end)
  end.
(** interfaces_verify.go 426-449, findConversionsInRangeStmtValue. *)
Definition findConversionsInRangeStmtValue (key value : option node) (x : node) : list conv :=
  match key, value with
  | Some _, Some value =>
    with_fact (type_of (node_id value)) (fun m t =>
      match getUnderlyingType <$> type_of (node_id x) with
      | Some (TPointer (TArray _ e)) | Some (TArray _ e) | Some (TSlice e) | Some (TMap _ e) | Some (TChan _ e) =>
        [check_type m t (Some e) (node_id x)]
      | _ => [CPanic]
      end)
  | _, _ => []
  end.

(** interfaces_verify.go 451-461, findConversionsInSendStmt. *)
Definition findConversionsInSendStmt (chan value : node) : list conv :=
  match getUnderlyingType <$> type_of (node_id chan) with
  | Some (TChan _ e) => with_fact (Some e) (fun m t => [check_expr m t value])
  | _ => [CPanic]
  end.

(** interfaces_verify.go 66-94: what is done when a node is entered; [within] is the type of the innermost
    function. *)
Definition node_conversions (within : option functype) (n : node) : list conv :=
  match n with
  | Node _ (KAssign k) kids => findConversionsInAssignStmt (take k kids) (drop k kids)
  | Node _ (KValueSpec names typ) values => findConversionsInValueSpec names typ values
  | Node _ KCall (f :: args) => findConversionsInCallExpr f args
  | Node _ (KTypeAssert typ) [x] => findConversionsInTypeAssertExpr typ x
  | Node _ (KTypeSwitch has_init) kids =>
    match drop (if has_init : bool then 1 else 0) kids with
    | [assign; body] => findConversionsInTypeSwitchStmt assign body
    | _ => []
    end
  | Node _ KIndex [x; index] => findConversionsInIndexExpr x index
  | Node _ KComposite elts => findConversionsInCompositeLit n elts
  | Node _ KReturn results => findConversionsInReturnStmt results within
  | Node _ (KRange has_key has_value) kids =>
    let key := if has_key : bool then kids !! 0 else None in
    let value := if has_value : bool then kids !! (if has_key : bool then 1 else 0) else None in
    match drop ((if has_key : bool then 1 else 0) + (if has_value : bool then 1 else 0)) kids with
    | [x; _] => findConversionsInRangeStmtKey key x ++ findConversionsInRangeStmtValue key value x
    | _ => []
    end
  | Node _ KSend [chan; value] => findConversionsInSendStmt chan value
  | _ => []
  end.

(** interfaces_verify.go 40-61: the traversal with the stack of function literals. *)
Fixpoint tree_conversions (within : option functype) (n : node) : list conv :=
  let 'Node _ k kids := n in
  let inner := match k with
               | KFuncLit f => match pk_funcs pk !! f with Some fn => Some (fn_type fn) | None => None end
               | _ => within
               end in
  node_conversions within n ++ flat_map (tree_conversions inner) kids.
Definition top_conversions (d : topdecl) : list conv :=
  match d with
  | TopNode n => tree_conversions None n
  | TopFunc f => match pk_funcs pk !! f with
                 | Some fn => match fn_body fn with
                              | Some b => tree_conversions (Some (fn_type fn)) b
                              | None => []
                              end
                 | None => []
                 end
  end.
Definition all_conversions : list conv := flat_map top_conversions (pk_top pk).
End sites.

Section check.
Context (pk : package) (lk : lookup_table) (fa : facts) (plan : fid -> eff diag) (fuel : nat).
Notation info := (pk_info pk).

Definition add_diag (d : diag) (st : est diag) : est diag := Est (e_scc st) (e_found st) (e_diags st ++ [d]) (e_comps st).

(** interfaces_verify.go 504-517: the codes of the method that implements the interface method. *)
Definition implemented_codes (value : gotype) (method : gostring) (st : est diag) : outcome (codeset * est diag) :=
  match searchMethodType pk value method with
  | None => Panicked                                                                 (* 499-502 *)
  | Some o =>
    match fa_codes fa !! o with
    | Some codes => Ok (codes, st)                                                   (* 507-508 *)
    | None =>
      match searchMethod pk lk value method with
      | None => Ok (∅, st)                                                           (* nothing is found for nil *)
      | Some g => match e_found st !! g with
                  | Some codes => Ok (codes, st)
                  | None => find_codes_in_func plan fuel g st
                  end
      end
    end
  end.
Definition conversion_message (target : gotype) (method : gostring) (codes : list gostring) : gostring :=
  str "cannot use expression as " ++ quoted (match getNamedType target with Some n => ti_objname info n | None => [] end)
  ++ str " value: method " ++ quoted method
  ++ str " declares the following error codes which were not part of the interface: " ++ format_strings codes.
(** interfaces_verify.go 498-526: one method of the interface.  (The order of Slice is irrelevant: the codes are sorted.) *)
Definition check_method (s : site) (st : est diag) (method : gostring) : outcome (est diag) :=
  match s_iface s !! method with
  | None => Ok st (* not reached *)
  | Some codes =>
    match implemented_codes (s_value s) method st with
    | Ok (found, st') =>
      let unexpected := found ∖ codes in
      if decide (unexpected = ∅) then Ok st'
      else Ok (add_diag (Diag (s_pos s) (conversion_message (s_target s) method (sort_strings (elements unexpected)))) st')
    | Panicked => Panicked
    | OutOfFuel => OutOfFuel
    end
  end.
Fixpoint check_methods (s : site) (methods : list gostring) (st : est diag) : outcome (est diag) :=
  match methods with
  | [] => Ok st
  | m :: methods' => match check_method s st m with
                     | Ok st' => check_methods s methods' st'
                     | Panicked => Panicked
                     | OutOfFuel => OutOfFuel
                     end
  end.
(** interfaces_verify.go 484-527, checkIfTypeIsValidSubtypeForInterface; [order] is the iteration order over the
    methods. *)
Definition check_site (order : gset gostring -> list gostring) (s : site) (st : est diag) : outcome (est diag) :=
  if decide (s_value s = s_target s) then Ok st                                      (* 486-488 *)
  else match s_value s with
       | TUntypedNil => Ok st                                                        (* 493-496 *)
       | _ => check_methods s (order (dom (s_iface s))) st
       end.
(** interfaces_verify.go 33-99, findConversionsToErrorReturningInterfaces: the checks are made in the order in which
    the conversions are found; [orders i] is the iteration order in check number [i]. *)
Fixpoint check_all (orders : nat -> gset gostring -> list gostring) (l : list conv) (st : est diag) : outcome (est diag) :=
  match l with
  | [] => Ok st
  | CPanic :: _ => Panicked
  | CSite s :: l' => match check_site (orders (length l')) s st with
                     | Ok st' => check_all orders l' st'
                     | Panicked => Panicked
                     | OutOfFuel => OutOfFuel
                     end
  end.
End check.
