(** * The analyzer: runVerify (analyse.go 123-163). *)
From Coq Require Import Ascii String.
From stdpp Require Import base list gmap.
From Verif Require Import GoString ErrorCode Scc Engine CodeSet Constant GoAst Taint Extract Analyse Termination Phase
  ErrorTypes Claims Interfaces Conversions.

(** The iteration orders of one run. *)
Record orders := Orders {
  or_each : list fid;                                   (* lookup.forEach *)
  or_claims : nat -> gset fid -> list fid;              (* funcClaims: 384 (0), 146 (1), 411 (2) *)
  or_tracked : gset oid -> list oid;                    (* analyse.go 845 *)
  or_embedding : gset gostring -> list gostring;        (* interfaces_collect.go 163 *)
  or_embedded : nid -> gset gostring -> list gostring;  (* interfaces_collect.go 213, 225 *)
  or_ifaces : gset gostring -> list gostring;           (* interfaces_collect.go 82 *)
  or_methods : gset gostring -> list gostring;          (* interfaces_collect.go 249 *)
  or_checks : nat -> gset gostring -> list gostring     (* interfaces_verify.go 498 *)
}.
(** Every element once. *)
Record orders_ok (lk : lookup_table) (o : orders) : Prop := {
  ok_each : or_each o ≡ₚ lookup_all lk;
  ok_claims : forall k s, or_claims o k s ≡ₚ elements s;
  ok_tracked : forall s, or_tracked o s ≡ₚ elements s;
  ok_embedding : forall s, or_embedding o s ≡ₚ elements s;
  ok_embedded : forall id s, or_embedded o id s ≡ₚ elements s;
  ok_ifaces : forall s, or_ifaces o s ≡ₚ elements s;
  ok_methods : forall s, or_methods o s ≡ₚ elements s;
  ok_checks : forall k s, or_checks o k s ≡ₚ elements s
}.

Section verify.
Context (pk : package).

(** analyse.go 146-153: the loop over the claims. *)
Definition mismatch_diag (claims : gmap fid claim) (f : fid) (found : codeset) : list diag :=
  match pk_funcs pk !! f, claims !! f with
  | Some fn, Some c =>
    match reportIfCodesDoNotMatch (func_name fn) (some_orders found (cl_codes c)) with
    | Some msg => [Diag (fn_pos fn) msg]
    | None => []
    end
  | _, _ => []
  end.
Fixpoint verify_claims (plan : fid -> eff diag) (fuel : nat) (claims : gmap fid claim) (todo : list fid) (st : est diag)
  : outcome (est diag) :=
  match todo with
  | [] => Ok st
  | f :: todo' =>
    let step :=
      match e_found st !! f with
      | Some codes => Ok (codes, st)
      | None => find_codes_in_func plan fuel f st
      end in
    match step with
    | Ok (codes, st1) =>
      verify_claims plan fuel claims todo'
        (Est (e_scc st1) (e_found st1) (e_diags st1 ++ mismatch_diag claims f codes) (e_comps st1))
    | Panicked => Panicked
    | OutOfFuel => OutOfFuel
    end
  end.

(** A bound for the depth of the recursion that is never reached (C21). *)
Definition run_fuel (lk : lookup_table) (fa fa' : facts) (tracked : gset oid -> list oid) (todo : list fid) : nat :=
  S (size (program_functions pk lk fa tracked todo) + size (program_functions pk lk fa' tracked todo)).

(** analyse.go 123-163, runVerify: the facts afterwards, and the diagnostics.  [fa] are the facts imported; [strict] is the flag. *)
Definition runVerify (strict : bool) (ord : orders) (fa : facts) : phase facts :=
  let lk := collectFunctions pk in                                                   (* 124 *)
  let* fa1 := findAndTagErrorTypes pk lk fa in                                       (* 127 *)
  let* ifaces := findErrorReturningInterfaces pk fa1 (or_embedded ord) (or_embedding ord) in   (* 129 *)
  let fa2 := exportInterfaceFacts pk (or_methods ord) (omap (fun n => ifaces !! n) (or_ifaces ord (dom ifaces))) fa1 in   (* 130 *)
  let* funcs := findErrorReturningFunctions pk (or_each ord) in                      (* 132 *)
  let* claims := findClaimedErrorCodes pk strict funcs in                            (* 136 *)
  let fa3 := exportErrorConstructorFacts pk claims (or_claims ord 0 (dom claims)) fa2 in       (* 137 *)
  let fa4 := exportErrorCodeFacts pk claims (or_claims ord 2 (dom claims)) fa3 in              (* 158 *)
  let todo := or_claims ord 1 (dom claims) in
  let fuel := run_fuel lk fa3 fa4 (or_tracked ord) (lookup_all lk) in
  match verify_claims (plan pk lk fa3 (or_tracked ord)) fuel claims todo est_start with        (* 144-153 *)
  | Ok st =>
    match check_all pk lk fa4 (plan pk lk fa4 (or_tracked ord)) fuel (or_checks ord) (all_conversions pk fa4) st with  (* 160 *)
    | Ok st' => Ok (fa4, e_diags st')
    | Panicked => Panicked
    | OutOfFuel => OutOfFuel
    end
  | Panicked => Panicked
  | OutOfFuel => OutOfFuel
  end.
End verify.
