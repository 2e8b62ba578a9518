(** * The conversions of the package of Example.v (for C28 and C29). *)
From Coq Require Import Ascii String.
From stdpp Require Import base list gmap.
From Verif Require Import GoString ErrorCode Scc Engine CodeSet Annotation Constant GoAst Taint Extract Analyse Phase ErrorTypes Claims Interfaces
  Conversions Verify SpecMay SpecProgram SpecRun RunProofs SpecReports SpecSites PropSites Checkers ExampleBase Example.
Local Open Scope N_scope.

(** `var g Getter = impl{}` and `b = g` are checked. *)
Example ex_sites : match all_conversions ex (facts_after ex (some_run_orders (collectFunctions ex)) ex_run) with
  | [CSite (Site m1 t1 v1 p1); CSite (Site m2 t2 v2 p2)] =>
    Some (elements <$> m1 !! str "Get", t1, v1, elements <$> m2 !! str "Get", t2, v2)
  | _ => None end = Some (Some [str "one"], TNamed 3, TNamed 4, Some [str "one"], TNamed 5, TNamed 3).
Proof. vm_compute. reflexivity. Qed.
Theorem C29_example : exists w n pos m, occurs ex w n /\ converts ex w n (TNamed 3) (Some (TNamed 4)) pos /\
  interface_codes (facts_after ex (some_run_orders (collectFunctions ex)) ex_run) (TNamed 3) m.
Proof.
  assert (exists m pos, CSite (Site m (TNamed 3) (TNamed 4) pos) ∈ all_conversions ex (facts_after ex (some_run_orders (collectFunctions ex)) ex_run)) as (m&pos&H).
  { pose proof ex_sites as E. destruct (all_conversions _ _) as [|[[m1 t1 v1 p1]|] [|[[m2 t2 v2 p2]|] [|]]]; try done. injection E as _ -> -> _ _ _.
    exists m1, p1. by left. }
  apply C29_checked in H as (w&n&?&?&?). exists w, n, pos, m. done.
Qed.
