(** * What a complete run of the analyzer consists of. *)
From stdpp Require Import base list gmap.
From Verif Require Import GoString ErrorCode Scc Engine CodeSet Annotation Constant GoAst Taint Extract Analyse Phase ErrorTypes Claims Interfaces
  Conversions Verify SpecMay SpecProgram.

(** The intermediate results of a run. *)
Record run := Run {
  r_types : facts;                       (* the facts after the error types have been tagged *)
  r_ifaces : gmap gostring iface;        (* the error interfaces *)
  r_funcs : list fid;                    (* the functions that return errors *)
  r_claims : gmap fid claim;             (* what the documented functions declare *)
  r_loop : est diag;                     (* the state after the functions have been checked *)
  r_end : est diag;                      (* the state after the conversions have been checked *)
  r_d1 : list diag; r_d2 : list diag; r_d3 : list diag; r_d4 : list diag   (* the diagnostics before the loop *)
}.

Section run.
Context (pk : package) (strict : bool) (ord : orders) (fa : facts) (r : run).
Notation lk := (collectFunctions pk).

(** The facts known while the functions are checked, and at the end. *)
Definition facts_during : facts :=
  exportErrorConstructorFacts pk (r_claims r) (or_claims ord 0 (dom (r_claims r)))
    (exportInterfaceFacts pk (or_methods ord) (omap (fun n => r_ifaces r !! n) (or_ifaces ord (dom (r_ifaces r)))) (r_types r)).
Definition facts_after : facts := exportErrorCodeFacts pk (r_claims r) (or_claims ord 2 (dom (r_claims r))) facts_during.
Definition run_depth : nat := run_fuel pk lk facts_during facts_after (or_tracked ord) (lookup_all lk).

(** The run reaches the loop over the functions, with these intermediate results. *)
Record prepared : Prop := {
  pr_types : findAndTagErrorTypes pk lk fa = Ok (r_types r, r_d1 r);
  pr_ifaces : findErrorReturningInterfaces pk (r_types r) (or_embedded ord) (or_embedding ord) = Ok (r_ifaces r, r_d2 r);
  pr_funcs : findErrorReturningFunctions pk (or_each ord) = Ok (r_funcs r, r_d3 r);
  pr_claims : findClaimedErrorCodes pk strict (r_funcs r) = Ok (r_claims r, r_d4 r)
}.
(** The run reaches the checks of the conversions. *)
Record looped : Prop := {
  lo_prepared : prepared;
  lo_loop : verify_claims pk (plan pk lk facts_during (or_tracked ord)) run_depth (r_claims r)
              (or_claims ord 1 (dom (r_claims r))) est_start = Ok (r_loop r)
}.
(** The run comes to an end, with these intermediate results. *)
Record completes : Prop := {
  co_types : findAndTagErrorTypes pk lk fa = Ok (r_types r, r_d1 r);
  co_ifaces : findErrorReturningInterfaces pk (r_types r) (or_embedded ord) (or_embedding ord) = Ok (r_ifaces r, r_d2 r);
  co_funcs : findErrorReturningFunctions pk (or_each ord) = Ok (r_funcs r, r_d3 r);
  co_claims : findClaimedErrorCodes pk strict (r_funcs r) = Ok (r_claims r, r_d4 r);
  co_loop : verify_claims pk (plan pk lk facts_during (or_tracked ord)) run_depth (r_claims r)
              (or_claims ord 1 (dom (r_claims r))) est_start = Ok (r_loop r);
  co_end : check_all pk lk facts_after (plan pk lk facts_after (or_tracked ord)) run_depth (or_checks ord)
             (all_conversions pk facts_after) (r_loop r) = Ok (r_end r)
}.
(** All diagnostics. *)
Definition r_diags : list diag := r_d1 r ++ r_d2 r ++ r_d3 r ++ r_d4 r ++ e_diags (r_end r).
End run.

(** No annotation subtracts code [c] in one of several returns of the same variable only. *)
Definition agree_everywhere (pk : package) (c : gostring) : Prop := forall g fn, pk_funcs pk !! g = Some fn -> agree pk fn c.
