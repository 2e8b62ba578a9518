(** * The inter-procedural engine (analyse.go 464-490, 523-544, 710-724, 760).

    What the analysis of one function does to the shared state (SCC state, cache of found codes,
    diagnostics) is a sequence of set operations, reports and calls to other functions.  It is
    modelled by an expression [eff], which Analyse.v computes from the syntax tree; this file models
    how findErrorCodesInFunc executes it. *)
From stdpp Require Import base list gmap.
From Verif Require Import GoString ErrorCode Scc.

Section engine.
Context {D : Type}.

Inductive eff :=
| EffSet (s : codeset)            (* a set computed without touching the shared state *)
| EffUnion (a b : eff)            (* Union(a, b), [a] evaluated first *)
| EffDiff (a : eff) (s : codeset) (* Difference(a, s) *)
| EffReport (d : D)               (* pass.Report...; nil/empty set *)
| EffCallEdge (g : fid)           (* analyse.go 710-718 *)
| EffCallDirect (g : fid)         (* analyse.go 760: findErrorCodesInFunc without HandleEdge/AfterRecurse *)
| EffPanic.                       (* panic(...), nil dereference, index out of range, failed type assertion *)

(** c.scc, lookup.foundCodes and the reported diagnostics (latest last); [e_comps] only records the components
    returned by EndVisit (it is not read by the code). *)
Record est := Est {
  e_scc : scc_state;
  e_found : gmap fid codeset;
  e_diags : list D;
  e_comps : list (list fid)
}.

Inductive outcome (A : Type) := Ok (a : A) | Panicked | OutOfFuel.
Global Arguments Ok {A} _.
Global Arguments Panicked {A}.
Global Arguments OutOfFuel {A}.

Definition set_scc (st : est) (s : scc_state) : est := Est s (e_found st) (e_diags st) (e_comps st).

(** The execution of [e] on behalf of function [f]; [rec] is findErrorCodesInFunc. *)
Fixpoint eval_eff (rec : fid -> est -> outcome (codeset * est)) (f : fid) (e : eff) (st : est)
  : outcome (codeset * est) :=
  match e with
  | EffSet s => Ok (s, st)
  | EffUnion a b =>
    match eval_eff rec f a st with
    | Ok (s1, st1) =>
      match eval_eff rec f b st1 with
      | Ok (s2, st2) => Ok (s1 ∪ s2, st2)
      | Panicked => Panicked
      | OutOfFuel => OutOfFuel
      end
    | Panicked => Panicked
    | OutOfFuel => OutOfFuel
    end
  | EffDiff a s =>
    match eval_eff rec f a st with
    | Ok (s1, st1) => Ok (s1 ∖ s, st1)
    | Panicked => Panicked
    | OutOfFuel => OutOfFuel
    end
  | EffReport d => Ok (∅, Est (e_scc st) (e_found st) (e_diags st ++ [d]) (e_comps st))
  | EffCallEdge g =>
    match scc_edge f g (e_scc st) with
    | None => Panicked
    | Some (true, s) =>                                        (* 712-715 *)
      match rec g (set_scc st s) with
      | Ok (codes, st1) =>
        match scc_after f g (e_scc st1) with
        | None => Panicked
        | Some s1 => Ok (codes, set_scc st1 s1)
        end
      | Panicked => Panicked
      | OutOfFuel => OutOfFuel
      end
    | Some (false, s) => Ok (default ∅ (e_found st !! g), set_scc st s)   (* 716-718 *)
    end
  | EffCallDirect g => rec g st
  | EffPanic => Panicked
  end.

(** analyse.go 525-544, unifyAnalysisResultForComponent. *)
Definition unify_component (found : gmap fid codeset) (component : list fid) : codeset * gmap fid codeset :=
  let result := foldl (fun r n => r ∪ default ∅ (found !! n)) ∅ component in
  (result, foldl (fun m n => <[ n := result ]> m) found component).

(** analyse.go 466-490, findErrorCodesInFunc.  [plan f] is what lines 470-480 do for [f]; the fuel
    bounds the recursion depth. *)
Fixpoint find_codes_in_func (plan : fid -> eff) (fuel : nat) (f : fid) (st : est)
  : outcome (codeset * est) :=
  match fuel with
  | O => OutOfFuel
  | S n =>
    match scc_visit f (e_scc st) with                          (* 469 *)
    | None => Panicked
    | Some s =>
      match eval_eff (find_codes_in_func plan n) f (plan f) (set_scc st s) with
      | Ok (result, st1) =>
        let found := <[ f := result ]> (e_found st1) in         (* 482 *)
        match scc_end f (e_scc st1) with                       (* 484 *)
        | None => Panicked
        | Some (Some component, s1) =>
          let '(u, found') := unify_component found component in
          Ok (u, Est s1 found' (e_diags st1) (e_comps st1 ++ [component]))
        | Some (None, s1) => Ok (result, Est s1 found (e_diags st1) (e_comps st1))
        end
      | Panicked => Panicked
      | OutOfFuel => OutOfFuel
      end
    end
  end.

(** analyse.go 146-151: analysing a list of functions in the given order, using the cache; the
    result for each.  ([todo] is the iteration order over the claims.) *)
Fixpoint analyse_all (plan : fid -> eff) (fuel : nat) (todo : list fid) (st : est)
  : outcome (list (fid * codeset) * est) :=
  match todo with
  | [] => Ok ([], st)
  | f :: todo' =>
    let step :=
      match e_found st !! f with
      | Some codes => Ok (codes, st)
      | None => find_codes_in_func plan fuel f st
      end in
    match step with
    | Ok (codes, st1) =>
      match analyse_all plan fuel todo' st1 with
      | Ok (rest, st2) => Ok ((f, codes) :: rest, st2)
      | Panicked => Panicked
      | OutOfFuel => OutOfFuel
      end
    | Panicked => Panicked
    | OutOfFuel => OutOfFuel
    end
  end.

Definition est_start : est := Est scc_start ∅ [] [].

End engine.
Global Arguments eff : clear implicits.
Global Arguments est : clear implicits.
