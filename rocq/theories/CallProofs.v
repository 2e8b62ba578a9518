(** * Proofs: the codes found for calls and for whole functions are those of the specification. *)
From Coq Require Import Ascii String.
From stdpp Require Import base list gmap sets.
From Verif Require Import LookupProofs GoString ErrorCode Scc Engine SpecEngine CodeSet Annotation Constant GoAst Taint Extract Analyse
  SpecCodes SpecTaint SpecMay GoStringProofs ErrorCodeProofs CodeSetProofs TaintProofs Termination ExprProofs MayProofs.

Section calls.
Context (pk : package) (lk : lookup_table) (fa : facts) (fn : func) (plan : fid -> eff diag).
Notation info := (pk_info pk).
Notation from := (from plan).
Notation M := (may plan).
Notation constant_code := (constant_code pk).
Notation declares := (declares fa).
Notation denotes := (denotes pk lk).
Notation function_value := (function_value pk lk fa M).
Notation call_code := (call_code pk lk fa M fn).
Notation value_code := (value_code pk fa).

Lemma declares_spec cal s : declares cal s <-> match cal with Some o => fa_codes fa !! o | None => None end = Some s.
Proof.
  unfold SpecMay.declares. destruct cal as [o|]; split.
  - by intros (?&[= <-]&?).
  - eauto.
  - by intros (?&?&_).
  - done.
Qed.
Lemma as_ident_node e i : as_ident e = Some i -> exists kids, e = Node (i_id i) (KIdent (i_name i) (i_obj i)) kids.
Proof. apply as_ident_spec. Qed.

(** What the called expression is, once facts and conversions have been looked at. *)
Lemma denotes_ident i e g : as_ident e = Some i -> denotes e g <->
  match i_obj i with None => lk_functions lk !! i_name i = Some g | Some o => ob_decl (obj_of pk o) = DFunc g end.
Proof.
  intros He. apply as_ident_node in He as [kids ->]. destruct i as [id nm ob]. cbn. split.
  - intros H. inversion H; subst; done.
  - destruct ob; intros H; by constructor.
Qed.
Lemma denotes_selector x sel e g : as_selector e = Some (x, sel) -> denotes e g <->
  (forall t, as_ident (unparen x) = Some t -> ti_pkgname info (i_id t) = None) /\
  exists o recv, ti_selection info (node_id e) = Some (o, recv) /\ searchMethod pk lk recv (i_name sel) = Some g.
Proof.
  intros He. split.
  - intros H. destruct H as [? ? ? ? ?|? ? ? ? ? ?|? ? ? o recv ? H1 H2 H3 H4|]; try done.
    rewrite He in H1. injection H1 as -> ->. apply searchMethod_spec in H4. split; [done|eauto].
  - intros (H1&o&recv&H2&H3%searchMethod_spec). by eapply den_method.
Qed.
Lemma selector_not_ident e x sel : as_selector e = Some (x, sel) -> as_ident e = None.
Proof. destruct e as [id [] kids]; done. Qed.
Lemma denotes_funclit e f g : as_funclit e = Some f -> denotes e g <-> g = f.
Proof.
  destruct e as [id k kids]. destruct k; try done. cbn. intros [= ->]. split.
  - inversion 1; subst; done.
  - intros ->. constructor.
Qed.
Lemma denotes_cases e g : denotes e g -> as_ident e <> None \/ as_selector e <> None \/ as_funclit e <> None.
Proof. destruct 1; [by left|by left| |by right; right]. right. left. congruence. Qed.
Lemma pkgname_spec x : (match as_ident (unparen x) with Some t => ti_pkgname info (i_id t) | None => None end) = None <->
  (forall t, as_ident (unparen x) = Some t -> ti_pkgname info (i_id t) = None).
Proof. destruct (as_ident (unparen x)) as [t|]; [|done]. split; [by intros ? ? [= <-]|auto]. Qed.

Ltac nothing := let H := fresh in split; [intros H|].
Ltac fr := rewrite ?from_union_iff, ?from_set_iff, ?from_call_iff.

Lemma from_call_function lambdas f call args c :
  (forall i, function_variable pk (unparen f) i -> from (lambdas i) c <->
     exists o e, tracked pk fn None ∅ i o /\ assigned_expr pk fn o e /\ function_value (unparen e) c) ->
  from (findErrorCodesFromFunctionCall pk lk fa lambdas fn f (callee pk f) (Some (call, args))) c <-> call_code call f args c.
Proof.
  intros Hl. unfold findErrorCodesFromFunctionCall. cbn [fmap option_fmap option_map snd].
  set (cal := callee pk f).
  assert (forall (P : Prop), P -> from (extractErrorCodeFromConstructorCall pk fa fn f cal (Some args)) c ->
    (P -> (exists s, declares cal s) \/ (exists g, denotes (unparen f) g) \/ method_call pk (unparen f)) -> call_code call f args c) as Hctor.
  { intros P HP (o&p&l&a&H1&H2&[= <-]&H3&H4)%from_ctor Hw. eapply (cc_constructor _ _ _ _ _ _ _ _ _ o p a); try done.
    apply Hw, HP. }
  assert (forall o p a, function_object pk f = Some o -> fa_ctor fa !! o = Some p -> args !! p = Some a -> constant_code a c ->
    from (extractErrorCodeFromConstructorCall pk fa fn f cal (Some args)) c) as Hctor2.
  { intros o p a ????. apply from_ctor. exists o, p, args, a. done. }
  destruct (match cal with Some o => fa_codes fa !! o | None => None end) as [codes|] eqn:Ec.
  { apply declares_spec in Ec as Hd. fr. split.
    - intros [H|H]; [apply (Hctor True); [done|done|]; eauto|by eapply cc_declared].
    - intros [s H1 H2|o p a H1 H2 H3 H4 H5|s H1 H2 H3|i o H1 H2 H3 H4|g H1 H2 H3|i o e H1 H2 H3 H4 H5].
      + right. apply declares_spec in H1. change (function_object pk f) with cal in H1. congruence.
      + left. by eapply Hctor2.
      + change (function_object pk f) with cal in H1. rewrite H1 in Ec. done.
      + by destruct (H1 codes).
      + by destruct (H1 codes).
      + by destruct (H1 codes). }
  assert (forall s, ~ declares cal s) as Hnd. { intros s H%declares_spec. congruence. }
  destruct (decide _) as [Hconv|Hconv].
  { assert (cal = None) as Hcal by (by destruct cal). rewrite Hcal in Hconv.
    apply conversion_spec in Hconv as Hs. destruct Hs as [s Hs].
    fr. rewrite Hcal at 2. rewrite (conversion_elem _ _ _ s c Hs). split.
    - intros [(?&?&?&?&?&_)%from_ctor|H]; [congruence|by eapply cc_conversion].
    - intros [s' H1 H2|o p a H1 H2 H3 H4 H5|s' H1 H2 H3|i o H1 H2 H3 H4|g H1 H2 H3|i o e H1 H2 H3 H4 H5].
      + by destruct (Hnd s').
      + change (function_object pk f) with cal in H1. congruence.
      + right. destruct H2 as (?&?&?&?&?&?&<-&?), Hs as (?&?&?&?&?&?&<-&?). congruence.
      + by destruct (H2 Hcal s).
      + by destruct (H2 Hcal s).
      + by destruct (H2 Hcal s). }
  assert (function_object pk f = None -> forall s, ~ conversion_codes pk fa f s) as Hnc.
  { intros Hcal s Hs. change (function_object pk f) with cal in Hcal. rewrite Hcal in Hconv. apply Hconv.
    apply conversion_spec. eauto. }
  clear Hconv.
  (* what remains, in all cases *)
  assert (call_code call f args c <->
    ((exists o p a, function_object pk f = Some o /\ fa_ctor fa !! o = Some p /\ args !! p = Some a /\ constant_code a c) /\
      ((exists g, denotes (unparen f) g) \/ method_call pk (unparen f))) \/
    (exists i o, as_ident (unparen f) = Some i /\ i_obj i = Some o /\ ob_decl (obj_of pk o) = DType /\ value_code call c) \/
    (exists g, denotes (unparen f) g /\ M g c) \/
    (exists i o e, function_variable pk (unparen f) i /\ tracked pk fn None ∅ i o /\ assigned_expr pk fn o e /\ function_value (unparen e) c)) as Hcc.
  { split.
    - intros [s' H1 H2|o p a H1 H2 H3 H4 H5|s' H1 H2 H3|i o H1 H2 H3 H4 H5|g H1 H2 H3|i o e H1 H2 H3 H4 H5].
      + by destruct (Hnd s').
      + left. split; [eauto 10|]. destruct H5 as [[s Hs]|?]; [by destruct (Hnd s)|done].
      + by destruct (Hnc H1 s').
      + right. left. eauto 10.
      + right. right. left. eauto.
      + right. right. right. eauto 10.
    - intros [((o&p&a&H1&H2&H3&H4)&H5)|[(i&o&H1&H2&H3&H4)|[(g&H1&H2)|(i&o&e&H1&H2&H3&H4)]]].
      + eapply (cc_constructor _ _ _ _ _ _ _ _ _ o p a); try done. by right.
      + eapply cc_conversion_value; try done. 
      + eapply cc_package; try done.
      + eapply cc_variable; try done. }
  rewrite Hcc. clear Hcc.
  assert ((exists o p a, function_object pk f = Some o /\ fa_ctor fa !! o = Some p /\ args !! p = Some a /\ constant_code a c) <->
    from (extractErrorCodeFromConstructorCall pk fa fn f cal (Some args)) c) as Hc.
  { rewrite from_ctor. split; [intros (o&p&a&?&?&?&?); exists o, p, args, a; done|]. intros (o&p&l&a&?&?&[= <-]&?&?). eauto 10. }
  rewrite Hc. clear Hctor Hctor2 Hc.
  destruct (as_ident (unparen f)) as [i|] eqn:Ei.
  { assert (as_selector (unparen f) = None) as Hnosel.
    { apply as_ident_node in Ei as [kids ->]. done. }
    assert (~ method_call pk (unparen f)) as Hnm. { intros (?&?&?&_). congruence. }
    destruct (i_obj i) as [o|] eqn:Eo.
    - assert (forall g, denotes (unparen f) g <-> ob_decl (obj_of pk o) = DFunc g) as Hden.
      { intros g. rewrite (denotes_ident i) by done. by rewrite Eo. }
      destruct (ob_decl (obj_of pk o)) as [g| | |] eqn:Ed.
      + fr. split.
        * intros [?|?]; [left; split; [done|]; left; exists g; by apply Hden|right; right; left; exists g; split; [by apply Hden|done]].
        * intros [[? _]|[(i'&o'&[= <-]&?&?&?)|[(g'&Hg&?)|(i'&?&?&(?&o'&Ho'&Hnf&_)&_)]]]; [by left|congruence| |].
          -- apply Hden in Hg. injection Hg as ->. by right.
          -- assert (i' = i) as -> by congruence. rewrite Eo in Ho'. injection Ho' as <-. by destruct (Hnf g).
      + fr. rewrite from_affector. split.
        * intros [?%from_dropped|?]; [done|]. right. left. eauto 10.
        * intros [[_ [(g&?%Hden)|?]]|[(i'&o'&[= <-]&?&?&?)|[(g'&?%Hden&?)|(i'&?&?&(?&o'&Ho'&_&Hnt)&_)]]]; try done; [by right|].
          assert (i' = i) as -> by congruence. rewrite Eo in Ho'. injection Ho' as <-. done.
      + assert (function_variable pk (unparen f) i) as Hfv.
        { split; [done|]. exists o. rewrite Ed. done. }
        fr. rewrite Hl by done. split.
        * intros [?%from_dropped|(o'&e&?&?&?)]; [done|]. right. right. right. eauto 10.
        * intros [[_ [(g&?%Hden)|?]]|[(i'&o'&[= <-]&?&?&?)|[(g'&?%Hden&?)|(i'&o'&e&[? _]&?&?&?)]]]; try done; [congruence|].
          assert (i' = i) as -> by congruence. right. eauto.
      + assert (function_variable pk (unparen f) i) as Hfv.
        { split; [done|]. exists o. rewrite Ed. done. }
        fr. rewrite Hl by done. split.
        * intros [?%from_dropped|(o'&e&?&?&?)]; [done|]. right. right. right. eauto 10.
        * intros [[_ [(g&?%Hden)|?]]|[(i'&o'&[= <-]&?&?&?)|[(g'&?%Hden&?)|(i'&o'&e&[? _]&?&?&?)]]]; try done; [congruence|].
          assert (i' = i) as -> by congruence. right. eauto.
    - assert (forall g, denotes (unparen f) g <-> lk_functions lk !! i_name i = Some g) as Hden.
      { intros g. rewrite (denotes_ident i) by done. by rewrite Eo. }
      destruct (lk_functions lk !! i_name i) as [g|].
      + fr. split.
        * intros [?|?]; [left; split; [done|]; left; exists g; by apply Hden|right; right; left; exists g; split; [by apply Hden|done]].
        * intros [[? _]|[(i'&o'&[= <-]&?&?&?)|[(g'&Hg&?)|(i'&?&?&(?&o'&Ho'&Hnf&_)&_)]]]; [by left|congruence| |].
          -- apply Hden in Hg. injection Hg as ->. by right.
          -- assert (i' = i) as -> by congruence. congruence.
      + fr. split.
        * intros [?%from_dropped|?%from_report_iff]; done.
        * intros [[_ [(g&?%Hden)|?]]|[(i'&o'&[= <-]&?&?&?)|[(g'&?%Hden&?)|(i'&?&?&(?&o'&Ho'&_&Hnt)&_)]]]; try done; [congruence|].
          assert (i' = i) as -> by congruence. congruence. }
  assert (forall (A B C : Prop), (A \/ (exists i o, None = Some i /\ i_obj i = Some o /\ ob_decl (obj_of pk o) = DType /\ value_code call c) \/ B \/
    (exists i o e, function_variable pk (unparen f) i /\ tracked pk fn None ∅ i o /\ assigned_expr pk fn o e /\ function_value (unparen e) c)) <-> A \/ B) as Hsimp.
  { intros A B _. split.
    - intros [?|[(?&?&?&_)|[?|(?&?&?&(?&_)&_)]]]; [by left|done|by right|congruence].
    - intros [?|?]; auto. }
  rewrite Hsimp by exact True. clear Hsimp.
  destruct (as_selector (unparen f)) as [[x sel]|] eqn:Es.
  { destruct (match as_ident (unparen x) with Some t => _ | None => None end) as [pkg|] eqn:Ep.
    - assert (~ (forall t, as_ident (unparen x) = Some t -> ti_pkgname info (i_id t) = None)) as Hp.
      { rewrite <-pkgname_spec. congruence. }
      fr. split; [intros [?%from_dropped|?%from_report_iff]; done|].
      intros [[_ [(g&Hg)|(?&?&Hx&?&_)]]|(g&Hg&_)].
      + apply (denotes_selector _ _ _ _ Es) in Hg as [? _]. done.
      + rewrite Es in Hx. injection Hx as <- <-. done.
      + apply (denotes_selector _ _ _ _ Es) in Hg as [? _]. done.
    - pose proof (proj1 (pkgname_spec x) Ep) as Epp. destruct (ti_selection info (node_id (unparen f))) as [[o recv]|] eqn:Esel.
      + assert (method_call pk (unparen f)) as Hmc. { exists x, sel. split_and!; [done|exact Epp|congruence]. }
        fr. unfold call_function. destruct (searchMethod pk lk recv (i_name sel)) as [g|] eqn:Esm.
        * rewrite from_call_iff. split.
          -- intros [?|?]; [left; auto|right]. exists g. split; [|done]. apply (denotes_selector _ _ _ _ Es). eauto.
          -- intros [[? _]|(g'&Hg&?)]; [by left|right]. apply (denotes_selector _ _ _ _ Es) in Hg as (_&o'&recv'&?&?). congruence.
        * split.
          -- intros [?|?%from_report_iff]; [left; auto|done].
          -- intros [[? _]|(g'&Hg&?)]; [by left|]. apply (denotes_selector _ _ _ _ Es) in Hg as (_&o'&recv'&?&?). congruence.
      + fr. split; [by intros [?%from_dropped|?%from_panic_iff]|]. intros [[_ [(g&Hg)|(?&?&Hx&_&?)]]|(g&Hg&_)]; [|done|].
        * apply (denotes_selector _ _ _ _ Es) in Hg as (_&?&?&?&_). congruence.
        * apply (denotes_selector _ _ _ _ Es) in Hg as (_&?&?&?&_). congruence. }
  assert (~ method_call pk (unparen f)) as Hnm. { intros (?&?&?&_). congruence. }
  destruct (as_funclit (unparen f)) as [g|] eqn:Ef.
  - fr. split.
    + intros [?|?]; [left; split; [done|]; left; exists g; by apply (denotes_funclit _ g)|].
      right. exists g. split; [by apply (denotes_funclit _ g)|done].
    + intros [[? _]|(g'&Hg&?)]; [by left|right]. apply (denotes_funclit _ g) in Hg; [|done]. by subst.
  - fr. split; [intros [?%from_dropped|?%from_report_iff]; done|].
    intros [[_ [(g&Hg)|?]]|(g&Hg&_)]; [|done|]; apply denotes_cases in Hg as [?|[?|?]]; congruence.
Qed.
End calls.
