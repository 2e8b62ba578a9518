(** * The loop over the claims (analyse.go 144-153) in terms of the engine. *)
From stdpp Require Import base list gmap.
From Verif Require Import GoString ErrorCode Scc Engine SpecEngine EngineProofs EngineTheorems CodeSet Constant GoAst Taint Extract
  Analyse Termination Phase ErrorTypes Claims Interfaces Conversions Verify.

(** ** The diagnostics reported so far have no influence *)
Section frame.
Context {D : Type}.
Definition pre (ds : list D) (st : est D) : est D := Est (e_scc st) (e_found st) (ds ++ e_diags st) (e_comps st).
Definition pre_out {A} (ds : list D) (r : outcome (A * est D)) : outcome (A * est D) :=
  match r with Ok (a, st) => Ok (a, pre ds st) | Panicked => Panicked | OutOfFuel => OutOfFuel end.
Definition bare (st : est D) : est D := Est (e_scc st) (e_found st) [] (e_comps st).
Lemma pre_bare st : pre (e_diags st) (bare st) = st.
Proof. destruct st. unfold pre, bare. cbn. by rewrite app_nil_r. Qed.
Lemma pre_pre d1 d2 st : pre d1 (pre d2 st) = pre (d1 ++ d2) st.
Proof. unfold pre. cbn. by rewrite app_assoc. Qed.
Lemma eval_frame rec ds f e st : (forall g st, rec g (pre ds st) = pre_out ds (rec g st)) ->
  eval_eff rec f e (pre ds st) = pre_out ds (eval_eff rec f e st).
Proof.
  intros Hrec. revert st. induction e as [s|a IHa b IHb|a IHa s|d|g|g|]; intros st; cbn [eval_eff].
  - done.
  - rewrite IHa. destruct (eval_eff rec f a st) as [[s1 st1]| |]; [|done|done]. cbn [pre_out]. rewrite IHb.
    by destruct (eval_eff rec f b st1) as [[s2 st2]| |].
  - rewrite IHa. by destruct (eval_eff rec f a st) as [[s1 st1]| |].
  - cbn. unfold pre. cbn. by rewrite app_assoc.
  - change (e_scc (pre ds st)) with (e_scc st). destruct (scc_edge f g (e_scc st)) as [[[|] s]|]; [| |done].
    + change (set_scc (pre ds st) s) with (pre ds (set_scc st s)). rewrite Hrec.
      destruct (rec g (set_scc st s)) as [[codes st1]| |]; [|done|done]. cbn [pre_out].
      change (e_scc (pre ds st1)) with (e_scc st1). by destruct (scc_after f g (e_scc st1)).
    + done.
  - apply Hrec.
  - done.
Qed.
Lemma find_frame plan fuel ds f st :
  find_codes_in_func plan fuel f (pre ds st) = pre_out ds (find_codes_in_func plan fuel f st).
Proof.
  revert f st. induction fuel as [|n IH]; intros f st; [done|]. cbn [find_codes_in_func].
  change (e_scc (pre ds st)) with (e_scc st). destruct (scc_visit f (e_scc st)) as [s|]; [|done].
  change (set_scc (pre ds st) s) with (pre ds (set_scc st s)). rewrite eval_frame by apply IH.
  destruct (eval_eff _ f (plan f) (set_scc st s)) as [[result st1]| |]; [|done|done]. cbn [pre_out].
  change (e_scc (pre ds st1)) with (e_scc st1). change (e_found (pre ds st1)) with (e_found st1).
  destruct (scc_end f (e_scc st1)) as [[[component|] s1]|]; [|done|done].
  by destruct (unify_component _ component) as [u found'].
Qed.
(** The codes of a function: cached or computed (analyse.go 147-150). *)
Definition query (plan : fid -> eff D) (fuel : nat) (f : fid) (st : est D) : outcome (codeset * est D) :=
  match e_found st !! f with Some codes => Ok (codes, st) | None => find_codes_in_func plan fuel f st end.
Lemma query_frame plan fuel ds f st : query plan fuel f (pre ds st) = pre_out ds (query plan fuel f st).
Proof.
  unfold query. change (e_found (pre ds st)) with (e_found st). destruct (e_found st !! f); [done|]. apply find_frame.
Qed.
Lemma analyse_frame plan fuel ds todo st :
  analyse_all plan fuel todo (pre ds st) = pre_out ds (analyse_all plan fuel todo st).
Proof.
  revert st. induction todo as [|f todo IH]; intros st; [done|]. cbn [analyse_all].
  fold (query plan fuel f (pre ds st)). fold (query plan fuel f st). rewrite query_frame.
  destruct (query plan fuel f st) as [[codes st1]| |]; [|done|done]. cbn [pre_out]. rewrite IH.
  by destruct (analyse_all plan fuel todo st1) as [[rest st2]| |].
Qed.
End frame.

(** ** The loop *)
Section loop.
Context (pk : package) (plan : fid -> eff diag) (fuel : nat) (claims : gmap fid claim).
Definition with_diags (ds : list diag) (st : est diag) : est diag := Est (e_scc st) (e_found st) ds (e_comps st).
Definition mismatches (res : list (fid * codeset)) : list diag := res ≫= fun p => mismatch_diag pk claims p.1 p.2.
Lemma verify_analyse ds todo st :
  match analyse_all plan fuel todo st with
  | Ok (res, st') => exists ds', verify_claims pk plan fuel claims todo (pre ds st) = Ok (with_diags ds' st') /\
                                 ds' ≡ₚ ds ++ e_diags st' ++ mismatches res
  | Panicked => verify_claims pk plan fuel claims todo (pre ds st) = Panicked
  | OutOfFuel => verify_claims pk plan fuel claims todo (pre ds st) = OutOfFuel
  end.
Proof.
  revert ds st. induction todo as [|f todo IH]; intros ds st; cbn [analyse_all verify_claims].
  { exists (ds ++ e_diags st). split; [done|]. cbn. by rewrite app_nil_r. }
  fold (query plan fuel f (pre ds st)). fold (query plan fuel f st). rewrite query_frame.
  destruct (query plan fuel f st) as [[codes st1]| |]; [|done|done]. cbn [pre_out].
  set (mm := mismatch_diag pk claims f codes).
  specialize (IH (ds ++ e_diags st1 ++ mm) (bare st1)).
  assert (analyse_all plan fuel todo st1 = pre_out (e_diags st1) (analyse_all plan fuel todo (bare st1))) as ->.
  { rewrite <-analyse_frame. by rewrite pre_bare. }
  assert (Est (e_scc (pre ds st1)) (e_found (pre ds st1)) (e_diags (pre ds st1) ++ mm) (e_comps (pre ds st1)) =
          pre (ds ++ e_diags st1 ++ mm) (bare st1)) as ->.
  { unfold pre, bare. cbn. f_equal. by rewrite app_nil_r, app_assoc. }
  destruct (analyse_all plan fuel todo (bare st1)) as [[rest st2]| |]; cbn [pre_out]; [|done|done].
  destruct IH as (ds'&->&Hd). exists ds'. split; [done|].
  rewrite Hd. unfold mismatches. cbn [mbind list_bind]. cbn [fst snd]. fold mm. unfold pre. cbn [e_diags].
  rewrite <-!app_assoc. apply Permutation_app_head. apply Permutation_app_head.
  rewrite !app_assoc. apply Permutation_app_tail. apply Permutation_app_comm.
Qed.
End loop.
