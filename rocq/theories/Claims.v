(** * Which functions are analysed and what they declare (analyse.go 267-432). *)
From Coq Require Import Ascii String.
From stdpp Require Import base list gmap.
From Verif Require Import GoString ErrorCode Scc Engine DocParser CodeSet Constant Quote GoAst Taint Extract Analyse Phase.

(** find_error_docs.go 92-144 and analyse.go 206-211: the texts of the errors. *)
Definition doc_message (e : doc_error) : gostring :=
  match e with
  | DocNeedBlankLine => str "need a blank line after the 'Errors:' block indicator"
  | DocRepeatedIndicator => str "repeated 'Errors:' block indicator"
  | DocNoDashDash => str "mid block, a line leading with '- ' didnt contain a '--' to mark the end of the code name"
  | DocEmptyCode => str "an error code can't be purely whitespace"
  | DocEmptyParam => str "an error code parameter can't be purely whitespace"
  | DocMultipleParams => str "cannot define more than one error code parameter (found multiple 'param:' inidicators)"
  | DocInvalidCode => str "declared error code has invalid format: should match [a-zA-Z][a-zA-Z0-9\-]*[a-zA-Z0-9]"
  | DocPanic => []   (* never happens: C03_no_panic *)
  end.

(** go/ast.IsExported: the first rune is an upper case letter. *)
Definition is_exported (is_upper : N -> bool) (name : gostring) : bool :=
  match name with
  | [] => false
  | _ => let '(r, _) := decode_rune name in
         if (r <? 128)%N then between 65 r 90 else is_upper r
  end.

(** analyse.go 75-88. *)
Record claim := Claim { cl_codes : codeset; cl_param : option (ident * nat) }.

Section claims.
Context (pk : package).
Notation info := (pk_info pk).

(** types.Implements(TypeOf(e), tError). *)
Definition is_error_type (e : nid) : bool :=
  match ti_type info e with Some t => ti_implements_error info t | None => false end.

(** analyse.go 291-311, checkFunctionReturnsError. *)
Definition checkFunctionReturnsError (ft : functype) : phase bool :=
  match ft_results ft with
  | None => pret false                                                               (* 293-295 *)
  | Some l =>
    match last l with
    | None => ppanic                                                                 (* 297: index -1 *)
    | Some r =>
      if is_error_type (f_type r) then pret true                                     (* 299, 310 *)
      else let* _ := peach (fun result => if is_error_type (f_type result)
                                          then ptell (f_id result) (str "error should be returned as the last argument")
                                          else pret tt) l in pret false              (* 300-307 *)
    end
  end.

(** analyse.go 269-287, findErrorReturningFunctions; [each] is the order in which lookup.forEach
    (function_lookup.go 58-70) visits the functions. *)
Definition findErrorReturningFunctions (each : list fid) : phase (list fid) :=
  pfold (fun acc f =>
    match pk_funcs pk !! f with
    | Some fn => let* b := checkFunctionReturnsError (fn_type fn) in pret (if b : bool then acc ++ [f] else acc)
    | None => ppanic (* not reached: the lookup contains declarations *)
    end) [] each.

(** analyse.go 355-380, findErrorCodeParamIdent: [None] is nil, false.  (The name is any text of the documentation, so
    %q can escape it.) *)
Fixpoint find_param_names (name : gostring) (names : list ident) (pos : nat) : (ident * nat) + nat :=
  match names with
  | [] => inr pos
  | n :: names' => if decide (i_name n <> name) then find_param_names name names' (S pos) else inl (n, pos)
  end.
Fixpoint find_param (name : gostring) (fields : list field) (pos : nat) : option (ident * nat) :=
  match fields with
  | [] => None
  | f :: fields' => match find_param_names name (f_names f) pos with
                    | inl r => Some r
                    | inr pos' => find_param name fields' pos'
                    end
  end.
Definition is_string_type (t : option gotype) : bool :=
  match t with Some (TBasic n) => bool_decide (n = str "string") | _ => false end.
Definition findErrorCodeParamIdent (ft : functype) (name : gostring) : phase (option (option (ident * nat))) :=
  if decide (name = []) then pret (Some None)                                        (* 356-358 *)
  else match find_param name (ft_params ft) 0 with
       | Some (i, p) =>
         if is_string_type (ti_type info (i_id i)) then pret (Some (Some (i, p)))    (* 374 *)
         else let* _ := ptell (i_id i) (str "error code parameter " ++ quote (ti_is_print info) name ++ str " has to be of type string") in
              pret None                                                              (* 368-372 *)
       | None => let* _ := ptell (ft_id ft) (str "declared error code parameter " ++ quote (ti_is_print info) name
                             ++ str " could not be found in parameter list") in
                 pret None                                                           (* 378-379 *)
       end.

(** analyse.go 331-338: a Cause() method of an error type. *)
Definition is_cause_method (fn : func) : bool :=
  match fn_decl fn with
  | Some d => match dc_recv d with
              | Some [r] => (match ti_type info (f_type r) with Some t => ti_implements_cause info t | None => false end)
                            && bool_decide (i_name (dc_name d) = str "Cause")
              | _ => false
              end
  | None => false
  end.

(** analyse.go 318-348: one function of the loop of findClaimedErrorCodes; [strict] is cliArguments.requireErrorCodes. *)
Definition claim_of (strict : bool) (fn : func) : phase (option claim) :=
  let name := func_name fn in
  match findErrorDocs (match fn_decl fn with Some d => dc_doc d | None => None end) with
  | inr e => let* _ := ptell (fn_pos fn) (str "function " ++ quoted name ++ str " has odd docstring: " ++ doc_message e) in
             pret None                                                               (* 319-323 *)
  | inl r =>
    let* p := findErrorCodeParamIdent (fn_type fn) (dr_param r) in                   (* 325-328 *)
    match p with
    | None => pret None
    | Some param =>
      if bool_decide (dr_codes r = ∅) && negb (dr_none r) && bool_decide (param = None) then   (* 330 *)
        if is_cause_method fn then pret None                                         (* 333-338 *)
        else if strict && is_exported (ti_is_upper info) name
             then let* _ := ptell (fn_pos fn) (str "function " ++ quoted name
                              ++ str " is exported, but does not declare any error codes") in pret None   (* 342-344 *)
             else pret None
      else pret (Some (Claim (dr_codes r) param))                                    (* 346 *)
    end
  end.
(** analyse.go 316-351, findClaimedErrorCodes. *)
Definition findClaimedErrorCodes (strict : bool) (funcs : list fid) : phase (gmap fid claim) :=
  pfold (fun acc f =>
    match pk_funcs pk !! f with
    | Some fn => let* c := claim_of strict fn in
                 pret (match c with Some c => <[ f := c ]> acc | None => acc end)
    | None => ppanic (* not reached *)
    end) ∅ funcs.

Definition add_codes_fact (o : tobj) (s : codeset) (fa : facts) : facts :=
  Facts (<[ o := s ]> (fa_codes fa)) (fa_ctor fa) (fa_type fa) (fa_iface fa).
Definition add_ctor_fact (o : tobj) (p : nat) (fa : facts) : facts :=
  Facts (fa_codes fa) (<[ o := p ]> (fa_ctor fa)) (fa_type fa) (fa_iface fa).

(** analyse.go 383-407, exportErrorConstructorFacts; [order] is the iteration order over the claims.  (The
    definition of the name of a function declaration is a *types.Func.) *)
Definition exportErrorConstructorFacts (claims : gmap fid claim) (order : list fid) (fa : facts) : facts :=
  foldl (fun fa f =>
    match claims !! f with
    | Some c => match cl_param c, decl_obj pk f with
                | Some (_, p), Some o => add_ctor_fact o p fa
                | _, _ => fa
                end
    | None => fa
    end) fa order.
(** analyse.go 410-432, exportErrorCodeFacts. *)
Definition exportErrorCodeFacts (claims : gmap fid claim) (order : list fid) (fa : facts) : facts :=
  foldl (fun fa f =>
    match claims !! f with
    | Some c => match decl_obj pk f with
                | Some o => add_codes_fact o (cl_codes c) fa
                | None => fa
                end
    | None => fa
    end) fa order.
End claims.

(** function_lookup.go 60-70, forEach: the functions visited. *)
Definition lookup_all (lk : lookup_table) : list fid :=
  (map_to_list (lk_functions lk)).*2 ++ concat (map_to_list (lk_methods lk)).*2.
