(** * A computable check for [no_literal_recursion], for packages whose function literals return the errors of calls. *)
From stdpp Require Import base list gmap.
From Verif Require Import GoString ErrorCode Scc CodeSet Annotation Constant GoAst Taint Extract Analyse Phase Claims SpecMay SpecProgram
  LookupProofs ProgramProofs Checkers SoundChecker.

Section check.
Context (pk : package).
Notation lk := (collectFunctions pk).
(** The functions the error of which a function may return: those it calls, or that are assigned to one of its variables. *)
Definition targets_of (e : node) : list fid := denoted pk lk (unparen e).
Definition callees_of (e : node) : list fid := match as_call (unparen e) with Some (f, _) => targets_of f | None => [] end.
Definition passed (fn : func) : list fid :=
  if calls_nothing pk fn then [] else (all_sources pk fn ≫= callees_of) ++ ((assigned_rhs fn ++ init_values pk) ≫= targets_of).
Definition passed_by (f : fid) : list fid := match pk_funcs pk !! f with Some fn => passed fn | None => [] end.
Definition reach_step (s : list fid) : list fid := remove_dups (s ++ (s ≫= passed_by)).
Definition closed (s : list fid) : bool := forallb (fun x => forallb (fun y => bool_decide (y ∈ s)) (passed_by x)) s.
Fixpoint reach_steps (n : nat) (s : list fid) : list fid :=
  match n with O => s | S n' => if closed s then s else reach_steps n' (reach_step s) end.
Definition reach (g : fid) : list fid := reach_steps (size (pk_funcs pk)) [g].
Definition assigned_in_fn (fn : func) : list fid := omap (fun e => as_funclit (unparen e)) (assigned_rhs fn ++ init_values pk).
Definition recursion_check : bool :=
  forallb (fun p : fid * func => forallb (fun g => let s := reach g in bool_decide (g ∈ s) && closed s && negb (bool_decide (p.1 ∈ s))) (assigned_in_fn p.2))
    (map_to_list (pk_funcs pk)).

Lemma denotes_funclit id g kids : denoted pk lk (Node id (KFuncLit g) kids) = [g].
Proof. done. Qed.
Lemma value_target_in fa e g : value_target pk lk fa (unparen e) g -> g ∈ targets_of e.
Proof.
  intros [id kids E|_ _ Hd]; unfold targets_of.
  - rewrite E. by left.
  - by apply denoted_spec.
Qed.
Lemma passes_on_in fa f g : passes_on pk lk fa f g -> g ∈ passed_by f.
Proof.
  intros (fn&e&Hf&He&Ht). unfold passed_by. rewrite Hf. unfold passed.
  destruct (calls_nothing pk fn) eqn:En; [by destruct (calls_nothing_spec pk fn e En)|].
  apply elem_of_app. destruct Ht as [_ _ Hd|i o e' _ _ _ _ Ha Hv].
  - left. destruct He as (e0&args&Hc&He0).
    assert (error_source pk fn e0) as Hs.
    { destruct He0 as [(s&?&?&?)|[(o&?&?)|(o&d&ps&rs&v&?&?&->&_)]]; [left; eauto|right; exists o; eauto|right; exists o; split; [done|]; right; eauto]. }
    destruct (error_source_in pk fn e0 Hs) as (e1&He1&Hu). apply elem_of_list_bind. exists e1. split; [|done].
    unfold callees_of. rewrite Hu, Hc. by apply denoted_spec.
  - right. destruct Ha as (e0&Ha&->&_). apply elem_of_list_bind. exists e0. split; [|by eapply assigned_in].
    rewrite unparen_idem in Hv. by eapply value_target_in.
Qed.
Lemma closed_reach fa s g f : closed s = true -> g ∈ s -> rtc (passes_on pk lk fa) g f -> f ∈ s.
Proof.
  unfold closed. rewrite forallb_forall. intros Hc Hg Hr. induction Hr as [|g h f Hp _ IH]; [done|]. apply IH.
  apply elem_of_list_In, Hc in Hg. rewrite forallb_forall in Hg. apply passes_on_in, elem_of_list_In, Hg, bool_decide_eq_true in Hp. done.
Qed.
Theorem recursion_check_spec fa : recursion_check = true -> no_literal_recursion pk lk fa.
Proof.
  unfold recursion_check. rewrite forallb_forall. intros H f fn e g Hf _ [i o e' id kids _ _ _ _ (e0&He&->&_) Hu] Hr.
  specialize (H (f, fn)). rewrite <-elem_of_list_In, elem_of_map_to_list in H. specialize (H Hf). cbn [fst snd] in H. rewrite forallb_forall in H.
  rewrite unparen_idem in Hu. assert (g ∈ assigned_in_fn fn) as Hg%elem_of_list_In.
  { apply elem_of_list_omap. exists e0. split; [by eapply assigned_in|]. by rewrite Hu. }
  apply H in Hg. cbv zeta in Hg. rewrite !andb_true_iff, negb_true_iff, bool_decide_eq_true, bool_decide_eq_false in Hg.
  destruct Hg as [[Hin Hcl] Hnot]. apply Hnot. by eapply closed_reach.
Qed.
End check.
