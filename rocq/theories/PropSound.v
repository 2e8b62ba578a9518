(** * C22: executions return only the codes that are found, and only declared codes if nothing is reported. *)
From Coq Require Import Ascii String.
From stdpp Require Import base list gmap relations sets.
From Verif Require Import GoString ErrorCode Scc Engine CodeSet CodeSetProofs Annotation Constant GoAst Taint Extract
  Analyse SpecCodes SpecTaint SpecMay SpecProgram SpecEvents SpecClaims Phase ErrorTypes Claims Interfaces Conversions Verify SpecRun SpecEnd SpecReports
  RunProofs PropRun PropEvents SpecExec SpecSound ExecProofs SoundProofs SoundCalls SoundHeap SoundMain.

Section run.
Context (pk : package) (strict : bool) (ord : orders) (fa : facts) (r : run).
Notation lk := (collectFunctions pk).
Context (Hord : orders_ok lk ord) (Hr : completes pk strict ord fa r).
Notation fd := (facts_during pk ord r).
Context (Hus : usable_functions pk fd) (Hlit : no_literal_recursion pk lk fd).
Context (Hag : forall c, agree_everywhere pk c).
Context (Hdi : forall g fn, pk_funcs pk !! g = Some fn -> disciplined pk fd fn).
Context (Hrs : forall g fn, pk_funcs pk !! g = Some fn -> resolved pk lk fd fn).
Notation found f := (e_found (r_loop r) !! f).
(** How functions with declared codes (of imported packages, and methods of error interfaces) behave: they return only these codes. *)
Context (ext : behaviour) (Hho : honest fd ext).

Lemma found_fresh f fn s h0 vals h v :
  pk_funcs pk !! f = Some fn -> found f = Some s ->
  (forall g gn d, rtc (passes_on pk lk fd) f g -> pk_funcs pk !! g = Some gn -> ~ function_event pk lk fd gn (Reported d)) ->
  exec pk lk fd ext h0 f vals h v ->
  promised h0 (fun c => c ∈ s \/ exists p, code_parameter pk fd fn p /\ vals !! p = Some (VStr c)) h v.
Proof.
  intros Hf Hs Hq Hx.
  assert (checked_function pk ord r f) as (d0&Hd0&Hdf) by (apply (C33_analysed pk strict ord fa r Hord Hr Hus Hlit); by rewrite Hs).
  pose proof (sound_all pk lk fd ext (rtc (passes_on pk lk fd) f) Hho Hdi Hrs) as Hall.
  destruct Hall as (_&_&_&_&_&Hexec).
  - intros g g' Hg Hgg. eapply rtc_r; eassumption.
  - intros g gn Hg Hgn [d|] Hev; [by apply (Hq g gn d)|].
    apply (C23_no_crash_events pk strict ord fa r Hord Hr Hus Hlit). apply (an_checked _ _ _ g gn); try done. exists d0. split; [done|by etrans].
  - destruct (frame_all pk lk fd ext Hho Hdi) as (_&_&_&_&_&Fx). destruct (Fx _ _ _ _ _ Hx) as [Hsub Hkn]. split; [done|]. intros a ->.
    destruct (Hexec h0 f vals h (VErr a) Hx (rtc_refl _ _) fn Hf a eq_refl) as (Hfr&cl'&Ha'&Hcc).
    split; [done|]. split; [by apply Hkn|]. intros c (a'&cl&[= <-]&Ha&Hc&Hne).
    assert (cl' = cl) as -> by congruence. destruct (Hcc c (conj Hc Hne)) as [Hm|Hp]; [|by right].
    left. by apply (C17_complete pk strict ord fa r Hord Hr Hus Hlit f).
Qed.
(** If nothing is reported about [f] and the functions whose errors it may return, then every error that an execution of [f] returns
    has only codes that were found (or were passed to [f], an error constructor, as error code). *)
Theorem C22_found f fn s h0 vals h v c :
  pk_funcs pk !! f = Some fn -> found f = Some s ->
  (forall g gn d, rtc (passes_on pk lk fd) f g -> pk_funcs pk !! g = Some gn -> ~ function_event pk lk fd gn (Reported d)) ->
  exec pk lk fd ext h0 f vals h v -> has_code h v c ->
  c ∈ s \/ exists p, code_parameter pk fd fn p /\ vals !! p = Some (VStr c).
Proof.
  intros Hf Hs Hq Hx Hc. destruct (found_fresh f fn s h0 vals h v Hf Hs Hq Hx) as [_ H].
  pose proof Hc as (a&cl&Hv&_). by apply (H a Hv).
Qed.

(** If the analyzer reports nothing, functions keep the promise that they make by their declaration, if those they call do. *)
Theorem C22_promise f fn codes param h0 vals h v :
  r_diags r = [] ->
  known_function pk f fn -> returns_error_last pk (fn_type fn) -> declares_codes pk fn codes param ->
  exec pk lk fd ext h0 f vals h v ->
  promised h0 (fun c => c ∈ codes \/ exists p, code_parameter pk fd fn p /\ vals !! p = Some (VStr c)) h v.
Proof.
  intros Hnil Hk Hret Hd Hx.
  assert (declared_function pk f) as Hdf by by exists fn, codes, param.
  assert (pk_funcs pk !! f = Some fn) as Hf by (destruct Hk as (?&?&_&?&_); done).
  assert (checked_function pk ord r f) as Hch by (exists f; split; [done|apply rtc_refl]).
  destruct (C20_reports pk strict ord fa r Hord Hr Hus Hlit) as (fs&ds&vs&fs2&sites&ws&_&Hfs&_&Hds&Hvs&_&_&_&_&rep1&rep2&Hp&Hr1&_).
  rewrite Hnil in Hp. apply Permutation_nil in Hp.
  apply app_nil in Hp as [_ Hp]. apply app_nil in Hp as [_ Hp]. apply app_nil in Hp as [_ Hp]. apply app_nil in Hp as [_ Hp].
  apply app_nil in Hp as [Hp1 Hp]. apply app_nil in Hp as [Hp2 _].
  assert (verdict pk ord r f []) as Hv.
  { apply Hds in Hdf. apply elem_of_list_lookup in Hdf as [k Hk']. destruct (Forall2_lookup_l _ _ _ _ _ Hvs Hk') as (w&Hw&Hver).
    assert (w = []) as ->; [|done]. apply elem_of_list_lookup_2, elem_of_list_In in Hw. destruct w as [|d w]; [done|].
    exfalso. assert (In d (concat vs)) as Hin by (apply in_concat; exists (d :: w); split; [done|by left]). by rewrite Hp2 in Hin. }
  remember [] as none eqn:En in Hv. destruct Hv as [fn' codes' param' s missing unused Hk' Hret' Hd' _ Hcomp Hmis Hunu].
  assert (fn' = fn) as -> by (destruct Hk as (?&?&_&?&_), Hk' as (?&?&_&?&_); congruence).
  assert (codes' = codes) as ->.
  { assert (r_claims r !! f = Some (Claim codes param)) as C1 by (apply (run_claims pk strict ord fa r Hr Hord); eauto).
    assert (r_claims r !! f = Some (Claim codes' param')) as C2 by (apply (run_claims pk strict ord fa r Hr Hord); eauto). congruence. }
  destruct missing as [|m ms]; [|by destruct unused].
  assert (s ⊆ codes) as Hsub. { destruct Hmis as (_&_&Hm). intros x Hx'. destruct (decide (x ∈ codes)) as [|Hn]; [done|]. specialize (Hm x). set_solver. }
  assert (is_Some (found f)) as [s' Hs'] by by apply (C33_analysed pk strict ord fa r Hord Hr Hus Hlit).
  destruct (found_fresh f fn s' h0 vals h v) as [Hsub' Hin]; try done.
  - intros g gn d Hg Hgn Hev. assert (g ∈ fs) as Hgf by (apply Hfs; by exists f).
    assert (d ∈ rep1 g) as Hdr by (apply Hr1; eauto). apply elem_of_list_In in Hdr. assert (In d (concat (rep1 <$> fs))) as Hin.
    { apply in_concat. exists (rep1 g). split; [|done]. apply elem_of_list_In, elem_of_list_fmap. by exists g. }
    by rewrite Hp1 in Hin.
  - split; [done|]. intros a Ha. destruct (Hin a Ha) as (?&?&Hin'). split; [done|]. split; [done|]. intros c Hc.
    destruct (Hin' c Hc) as [?|?]; [left|by right].
    apply Hsub, Hcomp; [done|]. by apply (C17_sound pk strict ord fa r Hord Hr Hus Hlit f s').
Qed.
(** If the analyzer reports nothing, functions return only errors with the codes they declare. *)
Theorem C22_sound f fn codes param h0 vals h v c :
  r_diags r = [] ->
  known_function pk f fn -> returns_error_last pk (fn_type fn) -> declares_codes pk fn codes param ->
  exec pk lk fd ext h0 f vals h v -> has_code h v c ->
  c ∈ codes \/ exists p, code_parameter pk fd fn p /\ vals !! p = Some (VStr c).
Proof.
  intros Hnil Hk Hret Hd Hx Hc. destruct (C22_promise f fn codes param h0 vals h v Hnil Hk Hret Hd Hx) as [_ H].
  pose proof Hc as (a&cl&Hv&_). by apply (H a Hv).
Qed.
End run.
