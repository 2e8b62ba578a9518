(** * Tracking of variables (taint_spread.go, analyse.go 825-840). *)
From Coq Require Import Ascii String.
From stdpp Require Import base list gmap.
From Verif Require Import GoString ErrorCode Scc Constant GoAst.

Definition nil_name : gostring := str "nil".

(** Object of a pointer that is not nil.  Objects that are not in the table are treated like objects
    declared before the package (they are never in scope). *)
Definition obj_of (pk : package) (o : oid) : object :=
  default (Object false 0%N DOther) (pk_objs pk !! o).

(** analyse.go 826-840, isIdentOriginOutsideFunctionScope. *)
Definition function_pos (fn : func) : N :=
  match ft_results (fn_type fn) with
  | Some _ => ft_results_pos (fn_type fn)
  | None => fn_body_pos fn
  end.
Definition isIdentOriginOutsideFunctionScope (pk : package) (fn : func) (i : ident) : bool :=
  if decide (i_name i = nil_name) then false
  else match i_obj i with
       | None => true
       | Some o => let pos := ob_pos (obj_of pk o) in
                   (pos <=? function_pos fn)%N || (fn_body_end fn <=? pos)%N
       end.

(** taint_spread.go 29-33. *)
Record destruct := Destruct { de_position : nat; de_target : ident; de_source : node }.

(** taint_spread.go 11-27: the result, visited and blocked; [ts_ok] is false iff the recursion of the
    model was cut off (never: see Taint proofs). *)
Record tstate := TState {
  ts_exprs : list node;
  ts_destructs : list destruct;
  ts_oos : list ident;
  ts_visited : gset oid;
  ts_blocked : gset oid;
  ts_ok : bool
}.
Definition add_expr (e : node) (st : tstate) : tstate :=
  TState (ts_exprs st ++ [e]) (ts_destructs st) (ts_oos st) (ts_visited st) (ts_blocked st) (ts_ok st).
Definition add_destruct (d : destruct) (st : tstate) : tstate :=
  TState (ts_exprs st) (ts_destructs st ++ [d]) (ts_oos st) (ts_visited st) (ts_blocked st) (ts_ok st).
Definition add_oos (i : ident) (st : tstate) : tstate :=
  TState (ts_exprs st) (ts_destructs st) (ts_oos st ++ [i]) (ts_visited st) (ts_blocked st) (ts_ok st).
Definition mark_visited (o : oid) (st : tstate) : tstate :=
  TState (ts_exprs st) (ts_destructs st) (ts_oos st) ({[ o ]} ∪ ts_visited st) (ts_blocked st) (ts_ok st).
Definition block (os : list oid) (st : tstate) : tstate :=
  TState (ts_exprs st) (ts_destructs st) (ts_oos st) (ts_visited st) (list_to_set os ∪ ts_blocked st) (ts_ok st).
Definition cut_off (st : tstate) : tstate :=
  TState (ts_exprs st) (ts_destructs st) (ts_oos st) (ts_visited st) (ts_blocked st) false.

(** The objects of the named parameters of a function literal.  (Identifiers of parameters always have an
    object, taint_spread.go 176-178; one without is skipped here.) *)
Definition param_objs (ft : functype) : list oid :=
  flat_map (fun f => omap i_obj (f_names f)) (ft_params ft).

(** taint_spread.go 173-183, blockParams. *)
Definition blockParams (pk : package) (lit : fid) (st : tstate) : tstate :=
  match pk_funcs pk !! lit with
  | Some fn => block (param_objs (fn_type fn)) st
  | None => st
  end.

(** taint_spread.go 131-141, processAssignedExpr; [rec] is findSpread. *)
Definition processAssignedExpr (pk : package) (rec : ident -> tstate -> tstate) (expr : node) (st : tstate) : tstate :=
  let e := unparen expr in
  match as_ident e with
  | Some i =>
    match i_obj i with
    | Some o => if ob_is_var (obj_of pk o) then rec i st else add_expr e st
    | None => add_expr e st
    end
  | None => add_expr e st
  end.

(** taint_spread.go 145-167, findValueForIdentInValueSpec (152-166) followed by 90-92. *)
Fixpoint find_value (o : oid) (names : list ident) (i : nat) : option (nat * ident) :=
  match names with
  | [] => None
  | n :: names' => if decide (i_obj n = Some o) then Some (i, n) else find_value o names' (S i)
  end.
Definition spread_init (pk : package) (rec : ident -> tstate -> tstate) (o : oid) (st : tstate) : tstate :=
  match ob_decl (obj_of pk o) with
  | DValueSpec names values =>
    match values with
    | [] => st
    | v0 :: _ =>
      match find_value o names 0 with
      | None => st
      | Some (i, n) =>
        if decide (length values = length names)
        then match values !! i with
             | Some v => processAssignedExpr pk rec v st
             | None => st (* not reached: i < length names *)
             end
        else add_destruct (Destruct i n v0) st
      end
    end
  | _ => st
  end.

(** taint_spread.go 110-125: the entries of one assignment.  [i] is the index of the first of [lhs]. *)
Fixpoint spread_lhs (pk : package) (rec : ident -> tstate -> tstate) (o : oid) (same_length : bool) (rhs : list node)
    (i : nat) (lhs : list node) (st : tstate) : tstate :=
  match lhs with
  | [] => st
  | l :: lhs' =>
    let st' :=
      match as_ident (unparen l) with
      | Some li =>
        if decide (i_obj li = Some o) then
          if same_length
          then match rhs !! i with
               | Some r => processAssignedExpr pk rec r st
               | None => st (* not reached *)
               end
          else match rhs with
               | r :: _ => add_destruct (Destruct i li r) st
               | [] => st (* not reached: an assignment has a right hand side *)
               end
        else st
      | None => st
      end in
    spread_lhs pk rec o same_length rhs (S i) lhs' st'
  end.

(** taint_spread.go 94-128: what the callback does at one node. *)
Definition spread_node (pk : package) (rec : ident -> tstate -> tstate) (o : oid) (st : tstate) (n : node) : tstate :=
  match as_funclit n with
  | Some lit => blockParams pk lit st
  | None =>
    match as_assign n with
    | Some (lhs, rhs) => spread_lhs pk rec o (bool_decide (length lhs = length rhs)) rhs 0 lhs st
    | None => st
    end
  end.

(** taint_spread.go 68-129, findSpread.  [param] is ts.paramIdent; [fuel] bounds the depth of the recursion. *)
Fixpoint findSpread (pk : package) (fn : func) (param : option oid) (fuel : nat) (i : ident) (st : tstate) : tstate :=
  match fuel with
  | O => cut_off st
  | S n =>
    let blocked := match i_obj i with Some o => bool_decide (o ∈ ts_blocked st) | None => false end in
    let is_param := match param with Some p => bool_decide (i_obj i = Some p) | None => false end in
    if (blocked || isIdentOriginOutsideFunctionScope pk fn i) && negb is_param then add_oos i st   (* 69-75 *)
    else if decide (i_name i = nil_name) then st                                                    (* 78-80 *)
    else match i_obj i with
         | None => st (* not reached: an identifier without object is out of scope *)
         | Some o =>
           if decide (o ∈ ts_visited st) then st                                                    (* 83-85 *)
           else
             let rec := findSpread pk fn param n in
             let st1 := spread_init pk rec o (mark_visited o st) in                                 (* 86-92 *)
             match fn_body fn with
             | Some body => foldl (spread_node pk rec o) st1 (walk body)                            (* 94-128 *)
             | None => cut_off st1 (* nil dereference *)
             end
         end
  end.

(** Enough for any recursion: every level marks a new object of the table as visited. *)
Definition spread_fuel (pk : package) : nat := S (S (size (pk_objs pk))).

(** taint_spread.go 36-66: newTaintSpread and the three entry points (which differ in [visited] and [param]). *)
Definition taintSpread (pk : package) (fn : func) (param : option oid) (visited : gset oid) (i : ident) : tstate :=
  findSpread pk fn param (spread_fuel pk) i (TState [] [] [] visited ∅ true).
