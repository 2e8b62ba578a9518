(** * C36 for whole runs: a function that only passes on the errors of functions with declared codes (of other packages, or methods of
    interfaces) has exactly the codes declared there, whatever these functions do. *)
From stdpp Require Import base list gmap relations sets.
From Verif Require Import GoString ErrorCode Scc Engine SpecEngine EngineProofs EngineTheorems CodeSet Annotation Constant GoAst Taint Extract
  Analyse SpecCodes SpecAnnotation SpecTaint SpecMay SpecProgram SpecLocal Termination Phase ErrorTypes Claims Interfaces Conversions Verify SpecRun SpecEnd
  RunProofs ReturnProofs OwnProofs PropLocal PropAnalyse.
Local Open Scope list_scope.

(** The statement returns the result of a call of [o] with [args]. *)
Definition forwards (pk : package) (fn : func) (stmt : node) (o : tobj) (args : list node) : Prop :=
  exists e f, returned fn stmt e /\ as_call (unparen e) = Some (f, args) /\ function_object pk f = Some o.
(** The declared codes of [o], and the code passed to it, if it is an error constructor. *)
Definition trusted_code (pk : package) (fa : facts) (o : tobj) (args : list node) (c : gostring) : Prop :=
  (exists s, fa_codes fa !! o = Some s /\ c ∈ s) \/
  exists p a, fa_ctor fa !! o = Some p /\ args !! p = Some a /\ constant_code pk a c.
(** Each return statement of the function forwards the error of a function with declared codes. *)
Definition forwarder (pk : package) (fa : facts) (fn : func) : Prop :=
  forall stmt, stmt ∈ return_stmts fn -> annotation_is pk stmt None /\
    exists o args, forwards pk fn stmt o args /\ is_Some (fa_codes fa !! o).

Lemma returned_unique fn stmt e e' : returned fn stmt e -> returned fn stmt e' -> e = e'.
Proof.
  intros [x H|fields fl i H1 H2 H3 H4] [y H'|fields' fl' i' H1' H2' H3' H4'].
  - congruence.
  - by rewrite H1' in H.
  - by rewrite H1 in H'.
  - rewrite H2 in H2'. injection H2' as <-. rewrite H3 in H3'. injection H3' as <-. congruence.
Qed.

Section run.
Context (pk : package) (strict : bool) (ord : orders) (fa : facts) (r : run).
Notation lk := (collectFunctions pk).
Context (Hord : orders_ok lk ord) (Hr : completes pk strict ord fa r).
Notation fd := (facts_during pk ord r).
Context (Hlit : no_literal_cycle pk lk).
Notation found f := (e_found (r_loop r) !! f).

Section forwarder.
Context (f : fid) (fn : func).
Context (Hf : pk_funcs pk !! f = Some fn) (Hu : usable pk fd fn) (Hb : fn_body fn <> None).
Context (Hfw : forwarder pk fd fn).

Lemma forwarded stmt e : stmt ∈ return_stmts fn -> returned fn stmt e ->
  exists o h args, as_call (unparen e) = Some (h, args) /\ function_object pk h = Some o /\ is_Some (fa_codes fd !! o).
Proof.
  intros Hs He. destruct (Hfw stmt Hs) as [_ (o&args&(e'&h&He'&Hc&Ho)&Hd)].
  assert (e' = e) as -> by by eapply returned_unique. by exists o, h, args.
Qed.
Lemma no_root e h args i : as_call (unparen e) = Some (h, args) -> ~ root pk e i.
Proof.
  intros Hc Hroot. destruct Hroot as [e i H|e x i (id&E&_) _|e x i H]; destruct (unparen e) as [? [] ?]; cbn in *; try discriminate.
Qed.
Lemma no_var stmt e o : stmt ∈ return_stmts fn -> returned fn stmt e -> ~ expr_var pk fn e o.
Proof.
  intros Hs He H. destruct (forwarded stmt e Hs He) as (o'&h&args&Hc&_).
  induction H as [i o Hroot _|? ? ? ? ? IH]; [by eapply no_root|done].
Qed.
Lemma no_error_var o : ~ error_var pk fn o.
Proof. intros (stmt&e&Hs&_&He&Hv). by eapply no_var. Qed.

Lemma passes_nothing g : ~ passes_on pk lk fd f g.
Proof.
  intros (fn'&h&Hf'&(e&args&Hc&Hsrc)&Ht). rewrite Hf in Hf'. injection Hf' as <-.
  destruct Hsrc as [(s&Hs&_&He)|[(o&Hv&_)|(o&_&_&_&_&Hv&_)]]; [|by apply no_error_var in Hv..].
  destruct (forwarded s e Hs He) as (o&h'&args'&Hc'&Ho&[t Ht']). rewrite Hc in Hc'. injection Hc' as <- <-.
  destruct Ht as [Hn _ _|? ? ? Hn]; apply (Hn t); by exists o.
Qed.
Lemma reaches_itself g : rtc (passes_on pk lk fd) f g -> g = f.
Proof. intros [->|(y&H&_)]%rtc_inv; [done|]. by apply passes_nothing in H. Qed.
Lemma forwarder_usable : usable_from pk lk fd f.
Proof. intros g gn ->%reaches_itself Hg. rewrite Hf in Hg. by injection Hg as <-. Qed.
Lemma forwarder_agree c : agree_from pk lk fd f c.
Proof.
  intros g gn ->%reaches_itself Hg. rewrite Hf in Hg. injection Hg as <-.
  intros o s s' e e' Hs _ _ _ He _ Hv. by apply (no_var s e o) in Hv.
Qed.

Lemma forwarded_code e h args o t c : as_call (unparen e) = Some (h, args) -> function_object pk h = Some o -> fa_codes fd !! o = Some t ->
  direct_code pk lk fd (may_return pk lk fd) fn e c <-> trusted_code pk fd o args c.
Proof.
  intros Hc Ho Ht. pose proof (C36_trusted pk lk fd fn (may_return pk lk fd) (unparen e) h args o t c Ho Ht) as E.
  assert (trusted_code pk fd o args c <-> c ∈ t \/ exists p a, fa_ctor fd !! o = Some p /\ args !! p = Some a /\ constant_code pk a c) as ->.
  { unfold trusted_code. split; (intros [H|H]; [left|by right]); [|by exists t]. destruct H as (s&Hs&?). congruence. }
  rewrite <-E. split; [|intros H; by eapply dc_call].
  destruct 1 as [h' args' Hc' H|x (id&Hx&_) _ _|id elts Hx _|id kids Hx _]; try (rewrite Hx in Hc; discriminate).
  rewrite Hc in Hc'. by injection Hc' as <- <-.
Qed.

Lemma own_of g c : may_return pk lk fd g c -> g = f -> own_code pk lk fd (may_return pk lk fd) fn c.
Proof.
  induction 1 as [g gn c Hg Hc|g1 g c [Ha _] _ IH]; intros ->; [rewrite Hf in Hg; by injection Hg as ->|].
  apply IH. by apply reaches_itself.
Qed.
Theorem C36_forwarder s : (forall i, ~ constructor_param pk fd fn i) -> found f = Some s ->
  forall c, c ∈ s <-> exists stmt o args, stmt ∈ return_stmts fn /\ forwards pk fn stmt o args /\ trusted_code pk fd o args c.
Proof.
  intros Hnc Hs c. split.
  - intros Hc. apply (C47_sound pk strict ord fa r Hord Hr Hlit f s c forwarder_usable Hs) in Hc.
    assert (may_return pk lk fd f c -> own_code pk lk fd (may_return pk lk fd) fn c) as Hown.
    { intros Hm. by apply (own_of f c). }
    apply Hown in Hc. destruct Hc as [stmt Hst Hret|i o e Hi _ _ _|o Ho _]; [|by apply Hnc in Hi|by apply no_error_var in Ho].
    destruct (Hfw stmt Hst) as [Hann (o&args&Hfo&t&Ht)].
    assert (exists e, returned fn stmt e /\ expr_code pk lk fd (may_return pk lk fd) fn e c) as (e&He&Hcode).
    { destruct Hret as [e Ha He Hx|cs Ha _|add sub Ha _|add sub e Ha _ _ _]; [by exists e|..];
        apply annotation_is_model in Ha, Hann; rewrite Ha in Hann; discriminate. }
    exists stmt, o, args. split; [done|]. split; [done|].
    destruct Hfo as (e'&h&He'&Hc'&Ho'). assert (e' = e) as -> by by eapply returned_unique.
    apply (forwarded_code e h args o t); try done.
    destruct Hcode as [Hd|o' e' Hv|o' Hv]; [done|exfalso; by eapply no_var..].
  - intros (stmt&o&args&Hst&Hfo&Hcode). destruct (Hfw stmt Hst) as [Hann (o'&args'&Hfo'&t&Ht)].
    destruct Hfo as (e&h&He&Hc&Ho), Hfo' as (e'&h'&He'&Hc'&Ho'). assert (e' = e) as -> by by eapply returned_unique.
    rewrite Hc in Hc'. injection Hc' as <- <-. rewrite Ho in Ho'. injection Ho' as <-.
    apply (C47_complete pk strict ord fa r Hord Hr Hlit f s c forwarder_usable (forwarder_agree c) Hs).
    apply (mr_own pk lk fd f fn c Hf). apply oc_return with stmt; [done|]. apply rc_plain with e; [done|done|].
    apply ec_direct. by apply (forwarded_code e h args o t).
Qed.
End forwarder.
End run.
