(** * Finding error types (tag_error_types.go). *)
From Coq Require Import Ascii String.
From stdpp Require Import base list gmap.
From Verif Require Import GoString ErrorCode Scc Engine CodeSet Constant GoAst Taint Extract Analyse Phase.

(** tag_error_types.go 164-173, codeMethodAnalysis: what is written. *)
Record cstate := CState { cs_visited : gset oid; cs_codes : codeset; cs_field : option gostring }.

Section code_method.
Context (pk : package) (fn : func) (receiver : option ident).
Notation info := (pk_info pk).

(** tag_error_types.go 296-311, analyseReturnedIdentTaint; [rec] is analyseReturnedExpression. *)
Definition analyseReturnedIdentTaint (rec : node -> cstate -> phase cstate) (i : ident) (st : cstate) : phase cstate :=
  let r := taintSpread pk fn None (cs_visited st) i in                               (* 298 *)
  if negb (ts_ok r) then ppanic else
  let* _ := peach (fun bad => ptell (i_id bad) (str "error code variable may not be a parameter, receiver or global variable")) (ts_oos r) in
  let* _ := peach (fun d => ptell (node_id (de_source d))
    (str "unsupported: assigning result of function call to variable " ++ quoted (i_name (de_target d)) ++ str " is not allowed"))
    (ts_destructs r) in
  pfold (fun st e => rec e st) (CState (ts_visited r) (cs_codes st) (cs_field st)) (ts_exprs r).

(** tag_error_types.go 236-279, analyseReturnedExpression; [fuel] bounds the depth of the recursion (309). *)
Fixpoint analyseReturnedExpression (fuel : nat) (n : node) (st : cstate) : phase cstate :=
  match fuel with
  | O => OutOfFuel
  | S k =>
    let e := unparen n in                                                            (* 238 *)
    match ti_value info (node_id e) with
    | Some v =>                                                                      (* 242-253 *)
      match getErrorCodeFromConstant (ti_is_print info) v with
      | inl value => pret (if decide (value = []) then st
                           else CState (cs_visited st) (code_add (cs_codes st) value) (cs_field st))
      | inr msg => let* _ := ptell (node_id n) msg in pret st
      end
    | None =>
      let is_field :=                                                                (* 257-260 *)
        match as_selector e, receiver with
        | Some (x, sel), Some r =>
          match as_ident (unparen x) with
          | Some i => if decide (i_obj i = i_obj r) then Some sel else None
          | None => None
          end
        | _, _ => None
        end in
      match is_field with
      | Some sel =>
        match cs_field st with
        | None => pret (CState (cs_visited st) (cs_codes st) (Some (i_name sel)))    (* 261-262 *)
        | Some f =>
          if decide (f = i_name sel) then pret st
          else let* _ := ptell (node_id n) (str "only single field allowed: cannot return field " ++ quoted (i_name sel)
                 ++ str " because field " ++ quoted f ++ str " was returned previously") in pret st   (* 263-265 *)
        end
      | None =>
        match as_ident e with
        | Some i => analyseReturnedIdentTaint (analyseReturnedExpression k) i st     (* 272-276 *)
        | None => let* _ := ptell (node_id n) (str "function " ++ quoted (func_name fn)
                    ++ str " should always return a string constant or a single field") in pret st    (* 278 *)
        end
      end
    end
  end.
(** As for [expr_fuel]. *)
Definition code_fuel : nat := S (S (size (pk_objs pk))).

(** tag_error_types.go 281-294, analyseNamedReturn. *)
Definition analyseNamedReturn (st : cstate) : phase cstate :=
  match ft_results (fn_type fn) with
  | Some [f] => match f_names f with
                | [i] => analyseReturnedIdentTaint (analyseReturnedExpression code_fuel) i st
                | _ => ppanic
                end
  | _ => ppanic
  end.

(** tag_error_types.go 197-211: the return statements, not entering function literals. *)
Fixpoint code_returns (n : node) : list node :=
  match n with
  | Node _ (KFuncLit _) _ => []
  | Node _ KReturn kids => n :: flat_map code_returns kids
  | Node _ _ kids => flat_map code_returns kids
  end.
Definition analyse_return (st : cstate) (stmt : node) : phase cstate :=
  match node_kids stmt with
  | [] => analyseNamedReturn st                                                      (* 202-203 *)
  | [e] => analyseReturnedExpression code_fuel e st                                  (* 204-205 *)
  | _ => ppanic                                                                      (* 207 *)
  end.

(** tag_error_types.go 314-336, getFieldPosition; [None] is -1. *)
Fixpoint field_pos_names (name : gostring) (names : list ident) (i : nat) : nat + nat :=
  match names with
  | [] => inr i
  | n :: names' => if decide (i_name n = name) then inl i else field_pos_names name names' (S i)
  end.
Fixpoint field_pos (name : gostring) (fields : list (list ident)) (i : nat) : option nat :=
  match fields with
  | [] => None
  | [] :: fields' => field_pos name fields' (S i)
  | names :: fields' => match field_pos_names name names i with
                        | inl p => Some p
                        | inr i' => field_pos name fields' i'
                        end
  end.
Definition getFieldPosition (ts : typespec) (name : gostring) : option nat :=
  match tsp_type ts with
  | XStruct fields => field_pos name fields 0
  | _ => None
  end.

(** tag_error_types.go 187-234, analyseCodeMethod; [None] is nil. *)
Definition analyseCodeMethod (ts : typespec) : phase (option errortype) :=
  let* st := pfold analyse_return (CState ∅ ∅ None)
               (match fn_body fn with Some b => code_returns b | None => [] end) in
  let* field :=                                                                      (* 216-224 *)
    match cs_field st with
    | None => pret None
    | Some name =>
      match getFieldPosition ts name with
      | Some p => pret (Some (name, p))
      | None => let* _ := ptell (fn_pos fn) (str "returned field " ++ quoted name
                  ++ str " is not a valid error code field (promoted fields are not supported currently, but might be added in the future)") in
                pret None
      end
    end in
  match field with
  | None => if decide (cs_codes st = ∅) then pret None else pret (Some (ErrorType (cs_codes st) None))   (* 226-233 *)
  | Some f => pret (Some (ErrorType (cs_codes st) (Some f)))
  end.
End code_method.

Section tag.
Context (pk : package) (lk : lookup_table).
Notation info := (pk_info pk).

(** tag_error_types.go 158-162, errorTypesSubset. *)
Definition errorTypesSubset (type1 : option gotype) (type2 : gotype) : bool :=
  match type1 with
  | None => false
  | Some t => bool_decide (t = type2) || (match type2 with TPointer e => bool_decide (t = e) | _ => false end)
  end.

(** funcDecl.Recv.List[0] of a method. *)
Definition receiver_field (f : fid) : option field :=
  match pk_funcs pk !! f with
  | Some fn => match fn_decl fn with
               | Some d => match dc_recv d with Some (r :: _) => Some r | _ => None end
               | None => None
               end
  | None => None
  end.
Definition is_method_of (err : gotype) (f : fid) : bool :=
  match receiver_field f with
  | Some r => errorTypesSubset (ti_type info (f_type r)) err
  | None => false
  end.
(** len(receiverField.Names) == 1: receiverField.Names[0]. *)
Definition receiver_ident (f : fid) : option ident :=
  match receiver_field f with
  | Some r => match f_names r with [i] => Some i | _ => None end
  | None => None
  end.

(** tag_error_types.go 132-155, getCodeFuncFromError. *)
Definition getCodeFuncFromError (err : gotype) : option (fid * option ident) :=
  match lk_methods lk !! str "Code" with
  | None => None
  | Some methods => list_find (fun f => is_method_of err f = true) methods ≫= fun p => Some (p.2, receiver_ident p.2)
  end.

(** tag_error_types.go 370-395, collectMethodsForErrorType. *)
Definition collectMethodsForErrorType (err : gotype) : list fid :=
  match getNamedType err with
  | None => []
  | Some n => flat_map (fun name => List.filter (is_method_of err) (default [] (lk_methods lk !! name))) (ti_named_methods info n)
  end.

(** tag_error_types.go 340-367, analyseMethodsOfErrorType: the error type with the codes added. *)
Definition analyseMethodsOfErrorType (fa : facts) (et : errortype) (err : gotype) : phase errortype :=
  match et_field et with
  | None => pret et                                                                  (* 342-344 *)
  | Some _ =>
    let* assignedCodes :=                                                            (* 346-360 *)
      pfold (fun assigned f =>
        match receiver_ident f with
        | None => pret assigned
        | Some r =>
          match pk_funcs pk !! f, i_obj r with
          | Some fn, Some o =>
            let* new := eff_result (findCodesAssignedToErrorCodeField pk fa fn (Some et) o) in
            pret (assigned ∪ new)
          | _, _ => pret assigned (* not reached: names in a declaration have an object *)
          end
        end) ∅ (collectMethodsForErrorType err) in
    if decide (assignedCodes = ∅) then pret et                                       (* 363-366 *)
    else pret (ErrorType (et_codes et ∪ assignedCodes) (et_field et))
  end.

(** tag_error_types.go 84-110, tagErrorType: the text of the error, or the fact to export, if any. *)
Definition tagErrorType (fa : facts) (err : gotype) (ts : typespec) : phase (gostring + option (tobj * errortype)) :=
  match getNamedType err with
  | None => pret (inl (str "type is an invalid error type"))                         (* 85-89 *)
  | Some n =>
    match ti_underlying info n with
    | TInterface _ => pret (inr None)                                                (* 92-94 *)
    | _ =>
      match getCodeFuncFromError err with
      | None => pret (inl (str "found no method ""Code() string"""))                 (* 96-99 *)
      | Some (f, receiver) =>
        match pk_funcs pk !! f with
        | None => ppanic (* not reached: the lookup contains declarations *)
        | Some fn =>
          let* et := analyseCodeMethod pk fn receiver ts in                          (* 100 *)
          match et with
          | None => pret (inl (str "type " ++ quoted (ti_objname info n)
                                ++ str " is an invalid error type: could not find any error codes"))   (* 102-104 *)
          | Some et => let* et' := analyseMethodsOfErrorType fa et err in pret (inr (Some (n, et')))    (* 106-109 *)
          end
        end
      end
    end
  end.

Definition add_type_fact (n : tobj) (et : errortype) (fa : facts) : facts :=
  Facts (fa_codes fa) (fa_ctor fa) (<[ n := et ]> (fa_type fa)) (fa_iface fa).

(** tag_error_types.go 55-76: one specification of the declaration [node]. *)
Definition tag_spec (node : nid) (fa : facts) (spec : option typespec) : phase facts :=
  match spec with
  | None => pret fa                                                                  (* 56-59 *)
  | Some ts =>
    match ti_defs info (i_id (tsp_name ts)) with
    | None => ppanic                                                                 (* 61: nil dereference *)
    | Some o =>
      let t := ti_objtype info o in
      let candidate := if ti_implements_ree info t then Some t                       (* 64-69 *)
                       else if ti_implements_ree info (TPointer t) then Some (TPointer t) else None in
      match candidate with
      | None => pret fa
      | Some err =>
        let* r := tagErrorType fa err ts in
        match r with
        | inl msg => let* _ := ptell node msg in pret fa                             (* 73-75 *)
        | inr None => pret fa
        | inr (Some (n, et)) => pret (add_type_fact n et fa)
        end
      end
    end
  end.
(** tag_error_types.go 44-81, findAndTagErrorTypes: the facts afterwards. *)
Definition findAndTagErrorTypes (fa : facts) : phase facts :=
  pfold (fun fa g => pfold (tag_spec (gd_id g)) fa (gd_specs g)) fa (pk_gendecls pk).
End tag.
