(** * Executions depend monotonically, and continuously, on the behaviour of the functions called (used for C41). *)
From Coq Require Import Ascii String.
From stdpp Require Import base list gmap.
From Verif Require Import GoString ErrorCode Scc Engine CodeSet Annotation Constant GoAst Taint Analyse
  SpecCodes SpecTaint SpecMay SpecEvents SpecExec ExecProofs.

Definition included (X Y : behaviour) : Prop := forall o h vals h' v, X o h vals h' v -> Y o h vals h' v.

Section mono.
Context (pk : package) (lk : lookup_table) (fa : facts) (X Y : behaviour) (HXY : included X Y).
Lemma mono_all :
  (forall fn en h e h' v, eval pk lk fa X fn en h e h' v -> eval pk lk fa Y fn en h e h' v) /\
  (forall h e h' v, apply pk lk fa X h e h' v -> apply pk lk fa Y h e h' v) /\
  (forall fn en h es h' vs, evals pk lk fa X fn en h es h' vs -> evals pk lk fa Y fn en h es h' vs) /\
  (forall fn en h r h' vs, several pk lk fa X fn en h r h' vs -> several pk lk fa Y fn en h r h' vs) /\
  (forall fn h0 vals en h, reached pk lk fa X fn h0 vals en h -> reached pk lk fa Y fn h0 vals en h) /\
  (forall h0 g vals h v, exec pk lk fa X h0 g vals h v -> exec pk lk fa Y h0 g vals h v).
Proof.
  apply exec_mutind; intros; try (econstructor; eassumption).
  - eapply ev_declared; try eassumption. by apply HXY.
  - eapply ap_declared; try eassumption. by apply HXY.
Qed.
End mono.

Section limit.
Context (pk : package) (lk : lookup_table) (fa : facts) (X : nat -> behaviour) (Hup : forall n, included (X n) (X (S n))).
Definition limit : behaviour := fun o h vals h' v => exists n, X n o h vals h' v.
Lemma chain n m : n <= m -> included (X n) (X m).
Proof. induction 1 as [|m _ IH]; [by intros o h vals h' v Hx|]. intros o h vals h' v Hx. by apply Hup, IH. Qed.
Lemma up_eval n m fn en h e h' v : n <= m -> eval pk lk fa (X n) fn en h e h' v -> eval pk lk fa (X m) fn en h e h' v.
Proof. intros Hn. apply (mono_all pk lk fa _ _ (chain n m Hn)). Qed.
Lemma up_evals n m fn en h es h' vs : n <= m -> evals pk lk fa (X n) fn en h es h' vs -> evals pk lk fa (X m) fn en h es h' vs.
Proof. intros Hn. apply (mono_all pk lk fa _ _ (chain n m Hn)). Qed.
Lemma up_several n m fn en h e h' vs : n <= m -> several pk lk fa (X n) fn en h e h' vs -> several pk lk fa (X m) fn en h e h' vs.
Proof. intros Hn. apply (mono_all pk lk fa _ _ (chain n m Hn)). Qed.
Lemma up_reached n m fn h0 vals en h : n <= m -> reached pk lk fa (X n) fn h0 vals en h -> reached pk lk fa (X m) fn h0 vals en h.
Proof. intros Hn. apply (mono_all pk lk fa _ _ (chain n m Hn)). Qed.
Lemma limit_all :
  (forall fn en h e h' v, eval pk lk fa limit fn en h e h' v -> exists n, eval pk lk fa (X n) fn en h e h' v) /\
  (forall h e h' v, apply pk lk fa limit h e h' v -> exists n, apply pk lk fa (X n) h e h' v) /\
  (forall fn en h es h' vs, evals pk lk fa limit fn en h es h' vs -> exists n, evals pk lk fa (X n) fn en h es h' vs) /\
  (forall fn en h r h' vs, several pk lk fa limit fn en h r h' vs -> exists n, several pk lk fa (X n) fn en h r h' vs) /\
  (forall fn h0 vals en h, reached pk lk fa limit fn h0 vals en h -> exists n, reached pk lk fa (X n) fn h0 vals en h) /\
  (forall h0 g vals h v, exec pk lk fa limit h0 g vals h v -> exists n, exec pk lk fa (X n) h0 g vals h v).
Proof.
  apply exec_mutind; intros;
    repeat match goal with H : exists n : nat, _ |- _ => destruct H as [? H] end;
    try match goal with H : limit _ _ _ _ _ |- _ => destruct H as [? H] end;
    try solve [match goal with x : nat |- _ => exists x end; econstructor; eassumption | exists 0; econstructor; eassumption].
  all: exists (x0 + x); econstructor; try eassumption;
    first [eapply up_eval; [|eassumption]; lia | eapply up_evals; [|eassumption]; lia | eapply up_several; [|eassumption]; lia | eapply up_reached; [|eassumption]; lia].
Qed.
End limit.
