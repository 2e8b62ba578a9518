(** * The phases before the analysis of the functions come to an end. *)
From stdpp Require Import base list gmap.
From Verif Require Import GoString ErrorCode Scc Engine DocParser CodeSet Constant GoAst Phase Claims Interfaces.

Definition ends {A} (m : phase A) : Prop := m <> OutOfFuel.
Lemma ends_ret {A} (a : A) : ends (pret a).
Proof. done. Qed.
Lemma ends_tell n msg : ends (ptell n msg).
Proof. done. Qed.
Lemma ends_panic {A} : ends (@ppanic A).
Proof. done. Qed.
Lemma ends_bind {A B} (m : phase A) (k : A -> phase B) : ends m -> (forall a, ends (k a)) -> ends (pbind m k).
Proof.
  unfold ends, pbind. intros Hm Hk. destruct m as [[a d]| |]; [|done|done]. specialize (Hk a). by destruct (k a) as [[b d']| |].
Qed.
Lemma ends_fold {A S} (f : S -> A -> phase S) s l : (forall s a, ends (f s a)) -> ends (pfold f s l).
Proof. intros H. revert s. induction l as [|a l IH]; intros s; [done|]. cbn [pfold]. by apply ends_bind. Qed.
Lemma ends_each {A} (f : A -> phase unit) l : (forall a, ends (f a)) -> ends (peach f l).
Proof. intros H. by apply ends_fold. Qed.
Lemma ends_eff e : ends (eff_result e).
Proof. induction e; cbn [eff_result]; repeat (apply ends_bind; [done|intros ?]); done. Qed.

Ltac ends_step :=
  match goal with
  | |- ends (pret _) => apply ends_ret
  | |- ends (ptell _ _) => apply ends_tell
  | |- ends ppanic => apply ends_panic
  | |- ends (eff_result _) => apply ends_eff
  | |- ends (pbind _ _) => apply ends_bind; [|intros ?]
  | |- ends (pfold _ _ _) => apply ends_fold; intros ? ?
  | |- ends (peach _ _) => apply ends_each; intros ?
  | |- ends (match ?x with _ => _ end) => destruct x
  | |- ends (let '(_, _) := ?x in _) => destruct x
  | H : _ |- ends _ => apply H
  end.
Ltac ends_auto := repeat ends_step.

Section ends.
Context (pk : package).
Lemma check_returns_ends ft : ends (checkFunctionReturnsError pk ft).
Proof. unfold checkFunctionReturnsError. ends_auto. Qed.
Lemma functions_ends each : ends (findErrorReturningFunctions pk each).
Proof. unfold findErrorReturningFunctions. pose proof check_returns_ends. ends_auto. Qed.
Lemma find_param_ends ft name : ends (findErrorCodeParamIdent pk ft name).
Proof. unfold findErrorCodeParamIdent. ends_auto. Qed.
Lemma claims_end strict funcs : ends (findClaimedErrorCodes pk strict funcs).
Proof. unfold findClaimedErrorCodes, claim_of. pose proof find_param_ends. ends_auto. Qed.
Lemma collect_ends : ends (collect_interfaces pk).
Proof.
  unfold collect_interfaces, collect_spec, checkIfErrorReturningInterface, collect_element, checkIfInterfaceMethodDeclaresErrors.
  pose proof check_returns_ends. ends_auto.
Qed.
End ends.
