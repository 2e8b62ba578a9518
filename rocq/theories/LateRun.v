(** * Functions without declared codes that are analysed for the conversions: executions return only the codes found (used for C41). *)
From Coq Require Import Ascii String.
From stdpp Require Import base list gmap relations sets.
From Verif Require Import GoString ErrorCode Scc Engine CodeSet CodeSetProofs Annotation Constant GoAst Taint Extract
  Analyse SpecCodes SpecWhole SpecTaint SpecMay SpecProgram SpecEvents SpecClaims Phase ErrorTypes Claims Interfaces Conversions Verify SpecRun SpecEnd SpecReports
  SpecInterfaces OwnProofs ProgramProofs RunProofs RunChecks FactProofs PropFacts PropRun PropEvents SpecExec SpecSound ExecProofs SoundProofs SoundCalls SoundHeap SoundMain LateProofs.

Section run.
Context (pk : package) (strict : bool) (ord : orders) (fa : facts) (r : run).
Notation lk := (collectFunctions pk).
Context (Hord : orders_ok lk ord) (Hr : completes pk strict ord fa r).
Notation fd := (facts_during pk ord r).
Notation fe := (facts_after pk ord r).
Context (Hus : usable_functions pk fd) (Hlit : no_literal_recursion pk lk fd).
Context (Hag : forall c, agree_everywhere pk c).
Context (Hdi : forall g fn, pk_funcs pk !! g = Some fn -> disciplined pk fd fn).
Context (Hrs : forall g fn, pk_funcs pk !! g = Some fn -> resolved pk lk fd fn).
Context (Hok : interfaces_ok pk) (Hdist : distinct_definitions pk) (Hob : uses_resolved pk lk).
Context (Hkeep : forall o s, fa_codes fd !! o = Some s -> fa_codes fe !! o = Some s).
Context (Hnil : r_diags r = []).
Notation checked := (checked_function pk ord r).
Notation late := (late_function pk ord r).

(** Nothing is reported: functions with declared codes return no others. *)
Lemma declared_codes f fn codes param c : known_function pk f fn -> returns_error_last pk (fn_type fn) -> declares_codes pk fn codes param ->
  may_return pk lk fd f c -> c ∈ codes.
Proof.
  intros Hk Hret Hd Hm.
  assert (declared_function pk f) as Hdf by by exists fn, codes, param.
  destruct (C20_reports pk strict ord fa r Hord Hr Hus Hlit) as (fs&ds&vs&fs2&sites&ws&_&Hfs&_&Hds&Hvs&_&_&_&_&rep1&rep2&Hp&Hr1&_).
  rewrite Hnil in Hp. apply Permutation_nil in Hp.
  apply app_nil in Hp as [_ Hp]. apply app_nil in Hp as [_ Hp]. apply app_nil in Hp as [_ Hp]. apply app_nil in Hp as [_ Hp].
  apply app_nil in Hp as [Hp1 Hp]. apply app_nil in Hp as [Hp2 _].
  assert (verdict pk ord r f []) as Hv.
  { apply Hds in Hdf. apply elem_of_list_lookup in Hdf as [k Hk']. destruct (Forall2_lookup_l _ _ _ _ _ Hvs Hk') as (w&Hw&Hver).
    assert (w = []) as ->; [|done]. apply elem_of_list_lookup_2, elem_of_list_In in Hw. destruct w as [|d w]; [done|].
    exfalso. assert (In d (concat vs)) as Hin by (apply in_concat; exists (d :: w); split; [done|by left]). by rewrite Hp2 in Hin. }
  remember [] as none eqn:En in Hv. destruct Hv as [fn' codes' param' s missing unused Hk' Hret' Hd' _ Hcomp Hmis Hunu].
  assert (fn' = fn) as -> by (destruct Hk as (?&?&_&?&_), Hk' as (?&?&_&?&_); congruence).
  assert (codes' = codes) as ->.
  { assert (r_claims r !! f = Some (Claim codes param)) as C1 by (apply (run_claims pk strict ord fa r Hr Hord); eauto).
    assert (r_claims r !! f = Some (Claim codes' param')) as C2 by (apply (run_claims pk strict ord fa r Hr Hord); eauto). congruence. }
  destruct missing as [|m ms]; [|by destruct unused].
  assert (s ⊆ codes) as Hsub. { destruct Hmis as (_&_&Hmi). intros x Hx'. destruct (decide (x ∈ codes)) as [|Hn]; [done|]. specialize (Hmi x). set_solver. }
  apply Hsub, Hcomp; [apply Hag|done].
Qed.
(** The facts that are new when the conversions are checked are those of functions with declared codes. *)
Lemma new_facts o s : fa_codes fe !! o = Some s -> fa_codes fd !! o = None ->
  exists f fn param, known_function pk f fn /\ returns_error_last pk (fn_type fn) /\ declares_codes pk fn s param /\ object_of pk f o.
Proof.
  intros He Hd. assert (prepared pk strict ord fa r) as Hp by exact Hr.
  pose proof He as [Hdo|[Hn Hi]]%(C30_code_facts _ _ _ _ _ Hp Hord Hok Hdist).
  - destruct Hdo as [f fn o s param K1 K2 K3 K4|n id elems mid name doc ft o s K1 K2 K3 K4]; [by exists f, fn, param|].
    assert (fa_codes fd !! o = Some s) as E; [|congruence]. apply (during_codes _ _ _ _ _ Hp Hord Hok Hdist). left. by exists n, id, elems, mid, name, doc, ft.
  - assert (fa_codes fd !! o = Some s) as E; [|congruence]. apply (during_codes _ _ _ _ _ Hp Hord Hok Hdist). right. split; [|done].
    intros (n&id&elems&mid&name&doc&ft&codes&?&?&?&?). apply Hn. exists codes. by eapply do_method.
Qed.
Lemma new_functions o s : fa_codes fe !! o = Some s -> fa_codes fd !! o = None -> exists d, object_of pk d o /\ declared_function pk d.
Proof. intros H1 H2. destruct (new_facts o s H1 H2) as (f&fn&param&?&?&?&?). exists f. split; [done|]. by exists fn, s, param. Qed.
Lemma new_codes d o s c : object_of pk d o -> fa_codes fe !! o = Some s -> fa_codes fd !! o = None -> may_return pk lk fd d c -> c ∈ s.
Proof.
  intros Ho H1 H2 Hm. destruct (new_facts o s H1 H2) as (f&fn&param&?&?&?&Hf).
  assert (d = f) as -> by (eapply distinct_functions; [exact Hdist|done|done]). by eapply declared_codes.
Qed.
Lemma type_same : fa_type fd = fa_type fe.
Proof. symmetry. eapply after_fields. Qed.
Lemma ctor_same : fa_ctor fd = fa_ctor fe.
Proof. symmetry. eapply after_fields. Qed.

Lemma passes_new f g : passes_on pk lk fd f g -> passes_on pk lk fe f g \/ declared_function pk g.
Proof.
  intros (fn&e&Hf&He&Ht). destruct (call_target_new pk lk fd fe type_same (declared_function pk) new_functions Hob f fn Hf e g) as [H|H]; [by eapply error_call_source|done| |by right].
  left. by exists fn, e.
Qed.
Lemma checked_step f g : checked f -> passes_on pk lk fd f g -> checked g.
Proof. intros (d&?&?) Hp. exists d. split; [done|]. by eapply rtc_r. Qed.
Lemma declared_checked g : declared_function pk g -> checked g.
Proof. intros H. exists g. split; [done|apply rtc_refl]. Qed.
Lemma rtc_new f g : rtc (passes_on pk lk fd) f g -> checked g \/ rtc (passes_on pk lk fe) f g.
Proof.
  revert g. apply rtc_ind_r; [right; apply rtc_refl|]. intros g g' _ Hp [Hc|Hr']; [left; by eapply checked_step|].
  destruct (passes_new g g' Hp) as [H|H]; [right; by eapply rtc_r|left; by apply declared_checked].
Qed.
Lemma checked_rtc f g : checked f -> rtc (passes_on pk lk fd) f g -> checked g.
Proof. intros (d&?&?) Hp. exists d. split; [done|]. by etrans. Qed.

Lemma may_ends f c : may_return pk lk fd f c -> ends_with pk ord r f c.
Proof.
  intros H. apply (may_return_least pk lk fd (fun f c => may_return pk lk fd f c /\ ends_with pk ord r f c)); [| |exact H].
  - clear H f c. intros f fn c Hf Ho.
    assert (may_return pk lk fd f c) as Hm. { apply mr_own with fn; [done|]. eapply own_code_mono; [|exact Ho]. by intros g [? _]. }
    split; [done|]. destruct (checked_dec pk strict ord fa r Hord Hr Hus Hlit f) as [Hc|Hc]; [by apply ew_checked|].
    apply ew_own with fn; [done|done|].
    eapply (own_code_new pk lk fd fe Hkeep type_same ctor_same (declared_function pk) _ _ new_functions); [| |exact Hob|exact Hf|exact Ho].
    + intros d o s c' H1 H2 H3 [H4 _]. by eapply new_codes.
    + by intros g c' [_ ?].
  - clear H f c. intros f g c [H1 H2] [Hm He].
    assert (may_return pk lk fd f c) as Hmf by (by eapply mr_recursive). split; [done|].
    destruct (checked_dec pk strict ord fa r Hord Hr Hus Hlit f) as [Hc|Hc]; [by apply ew_checked|].
    apply ew_recursive with g; [done| |done]. split.
    + destruct (rtc_new f g H1) as [Hg|?]; [|done]. destruct Hc. by eapply checked_rtc.
    + by destruct (rtc_new g f H2) as [Hg|?].
Qed.

(** The functions analysed are closed under calls. *)
Notation analysed g := (checked g \/ late g).
Lemma analysed_step f g : analysed f -> passes_on pk lk fd f g -> analysed g.
Proof.
  intros [Hc|Hl] Hp; [left; by eapply checked_step|].
  destruct (passes_new f g Hp) as [H|H]; [|left; by apply declared_checked].
  destruct (checked_dec pk strict ord fa r Hord Hr Hus Hlit g) as [Hc|Hc]; [by left|right].
  destruct Hl as [_ (sites&s&m&o&f0&?&?&?&?&?&?&Hrt)]. split; [done|]. exists sites, s, m, o, f0. split_and!; try done. by eapply rtc_r.
Qed.
Lemma analysed_clean g gn : analysed g -> pk_funcs pk !! g = Some gn -> clean pk lk fd gn.
Proof.
  intros Hg Hgn ev Hev. assert (analysis_event pk ord r ev) as Ha.
  { destruct Hg as [Hc|Hl]; [by eapply an_checked|]. eapply an_late; [done|done|].
    eapply (function_event_new pk lk fd fe type_same ctor_same (declared_function pk) new_functions); [exact Hob|exact Hgn|exact Hev]. }
  destruct ev as [d|].
  - pose proof (C20_event_reported pk strict ord fa r Hord Hr Hus Hlit d Ha) as Hin. rewrite Hnil in Hin. by apply elem_of_nil in Hin.
  - by apply (C23_no_crash_events pk strict ord fa r Hord Hr Hus Hlit).
Qed.

(** Executions of functions that have been analysed, with or without declared codes, return only the codes found. *)
Lemma late_fresh ext f fn h0 vals h v : honest fd ext -> pk_funcs pk !! f = Some fn -> analysed f ->
  exec pk lk fd ext h0 f vals h v ->
  promised h0 (fun c => ends_with pk ord r f c \/ exists p, code_parameter pk fd fn p /\ vals !! p = Some (VStr c)) h v.
Proof.
  intros Hho Hf Ha Hx.
  pose proof (sound_all pk lk fd ext (fun g => analysed g) Hho Hdi Hrs) as Hall.
  destruct Hall as (_&_&_&_&_&Hexec).
  - apply analysed_step.
  - apply analysed_clean.
  - destruct (frame_all pk lk fd ext Hho Hdi) as (_&_&_&_&_&Fx). destruct (Fx _ _ _ _ _ Hx) as [Hsub Hkn]. split; [done|]. intros a ->.
    destruct (Hexec h0 f vals h (VErr a) Hx Ha fn Hf a eq_refl) as (Hfr&cl'&Ha'&Hcc).
    split; [done|]. split; [by apply Hkn|]. intros c (a'&cl&[= <-]&Ha''&Hc&Hne).
    assert (cl' = cl) as -> by congruence. destruct (Hcc c (conj Hc Hne)) as [Hm|Hp]; [|by right].
    left. by apply may_ends.
Qed.
End run.
