(** * The doc parser implements the documented grammar. *)
From Coq Require Import Ascii String ZifyBool ZifyN ZifyNat.
From stdpp Require Import base list gmap.
From Verif Require Import GoString ErrorCode SpecCodes SpecDoc DocParser GoStringProofs ErrorCodeProofs.
Local Open Scope N_scope.

Lemma starts_prefix p l : has_prefix l p = true <-> starts p l.
Proof. apply has_prefix_spec. Qed.
Lemma starts_prefix_false p l : has_prefix l p = false <-> ~ starts p l.
Proof. apply has_prefix_false. Qed.
Lemma starts_dec p l : {starts p l} + {~ starts p l}.
Proof. destruct (has_prefix l p) eqn:E; [left; by apply starts_prefix|right; by apply starts_prefix_false]. Qed.

Lemma run_lines_app sm a b :
  run_lines sm (a ++ b) = match run_lines sm a with inl sm' => run_lines sm' b | inr e => inr e end.
Proof.
  revert sm. induction a as [|l a IH]; intros sm; [done|]. cbn. destruct (step sm l); [apply IH|done].
Qed.

(** ** Item lines *)
Lemma item_text_index l x : item_text l x ->
  index_of l (str " --") = Some (2 + length x)%nat /\ go_slice 2 (2 + length x) l = Some x /\
  has_prefix l (str "- ") = true /\ has_prefix l (str "Errors:") = false /\ l <> [].
Proof.
  intros (rest&->&Hmin). split_and!.
  - apply index_of_spec. exists (str "- " ++ x), rest. rewrite <-app_assoc. split_and!; [done|done|].
    intros a' b' Heq. by apply (Hmin a' b').
  - unfold go_slice. rewrite !app_length.
    replace ((2 <=? 2 + length x)%nat && (2 + length x <=? length (str "- ") + (length x + (length (str " --") + length rest)))%nat)
      with true.
    2: { symmetry. apply andb_true_intro. split; apply Nat.leb_le; cbn; lia. }
    f_equal. cbn. apply take_app.
  - done.
  - done.
  - done.
Qed.

Lemma index_item l e :
  starts (str "- ") l -> index_of l (str " --") = Some e ->
  (e = 1%nat /\ exists rest, l = str "- --" ++ rest) \/
  (2 <= e)%nat /\ item_text l (drop 2 (take e l)).
Proof.
  intros [t ->] Hi. apply index_of_spec in Hi as (a&b&Heq&<-&Hmin).
  destruct a as [|a0 [|a1 a]].
  - discriminate.
  - left. split; [done|]. cbn in Heq. injection Heq as <- ->. by exists b.
  - right. split; [cbn; lia|]. cbn in Heq. injection Heq as <- <- ->.
    assert (forall z, drop 2 (take (length (45 :: 32 :: a)) (str "- " ++ a ++ z)) = a) as Hx.
    { intros z. cbn. f_equal. apply take_app. }
    change (str "- " ++ a ++ 32 :: 45 :: 45 :: b) with (str "- " ++ a ++ str " --" ++ b) in *.
    rewrite Hx; cbv beta iota zeta. exists b. split; [done|]. intros a' b' Heq. by apply (Hmin a' b').
Qed.

Lemma item_text_fun l x y : item_text l x -> item_text l y -> x = y.
Proof.
  intros (r1&H1&M1) (r2&H2&M2).
  assert (length x = length y) as Hlen.
  { specialize (M1 (str "- " ++ y) r2). rewrite <-app_assoc in M1. specialize (M1 H2).
    specialize (M2 (str "- " ++ x) r1). rewrite <-app_assoc in M2. specialize (M2 H1).
    rewrite !app_length in *. cbn in *. lia. }
  rewrite H1 in H2. apply (app_inv_head (str "- ")) in H2.
  by apply app_inj_1 in H2 as [? _].
Qed.

(** What [step_parsing] does for every kind of line. *)
Definition sm_add (sm : doc_sm) (c : gostring) : doc_sm :=
  DocSM ({[ c ]} ∪ sm_seen sm) (sm_state sm) (sm_noCodesOk sm) (sm_param sm).
Definition sm_set_param (sm : doc_sm) (p : gostring) : doc_sm :=
  DocSM (sm_seen sm) (sm_state sm) (sm_noCodesOk sm) p.

Lemma step_parsing_skip sm l : block_line l None -> step_parsing sm l = inl sm.
Proof.
  intros H. inversion H as [? Hne Hi Hd| |]; subst. unfold step_parsing.
  rewrite decide_False by done. apply starts_prefix_false in Hi, Hd. by rewrite Hi, Hd.
Qed.
Lemma step_parsing_code sm l c : block_line l (Some (inl c)) -> step_parsing sm l = inl (sm_add sm c).
Proof.
  intros H. inversion H as [|? x ? Hit Htrim Hnp Hv|]; subst. unfold step_parsing.
  destruct (item_text_index _ _ Hit) as (Hi&Hx&Hd&He&Hne).
  rewrite decide_False by done. rewrite He, Hd, Hi.
  destruct (2 + length x <? 2)%nat eqn:Hlt; [apply Nat.ltb_lt in Hlt; lia|]. rewrite Hx; cbv beta iota zeta.
  rewrite decide_False by by apply valid_code_nonempty.
  apply starts_prefix_false in Hnp. rewrite Hnp.
  apply isErrorCodeValid_correct in Hv. by rewrite Hv.
Qed.
Lemma step_parsing_param sm l p : block_line l (Some (inr p)) ->
  step_parsing sm l = if decide (sm_param sm = []) then inl (sm_set_param sm p) else inr DocMultipleParams.
Proof.
  intros H. inversion H as [| |? x y ? Hit Htrim Hp Hne']; subst. unfold step_parsing.
  destruct (item_text_index _ _ Hit) as (Hi&Hx&Hd&He&Hne).
  rewrite decide_False by done. rewrite He, Hd, Hi.
  destruct (2 + length x <? 2)%nat eqn:Hlt; [apply Nat.ltb_lt in Hlt; lia|]. rewrite Hx; cbv beta iota zeta; rewrite Htrim.
  rewrite decide_False by done. rewrite has_prefix_app.
  rewrite drop_app. by rewrite decide_False by done.
Qed.
Lemma step_parsing_bad sm l e :
  bad_block_line (bool_decide (sm_param sm <> [])) l e -> step_parsing sm l = inr e.
Proof.
  intros H. unfold step_parsing. inversion H as [? ? Hs|? ? Hs Hno|? rest|? ? x Hit Ht|? ? x y Hit Ht Hp|? x y Hit Ht Hp Hb|? ? x Hit Hne Hnp Hv]; subst.
  - rewrite decide_False by (destruct Hs as [t ->]; done). apply starts_prefix in Hs. by rewrite Hs.
  - rewrite decide_False by (destruct Hs as [t ->]; done).
    assert (has_prefix l (str "Errors:") = false) as -> by (destruct Hs as [t ->]; done).
    apply starts_prefix in Hs. rewrite Hs. apply index_of_none in Hno. by rewrite Hno.
  - rewrite decide_False by done. done.
  - destruct (item_text_index _ _ Hit) as (Hi&Hx&Hd&He&Hne).
    rewrite decide_False by done. rewrite He, Hd, Hi.
    destruct (2 + length x <? 2)%nat eqn:Hlt; [done|]. rewrite Hx; cbv beta iota zeta; rewrite Ht. done.
  - destruct (item_text_index _ _ Hit) as (Hi&Hx&Hd&He&Hne).
    rewrite decide_False by done. rewrite He, Hd, Hi.
    destruct (2 + length x <? 2)%nat eqn:Hlt; [apply Nat.ltb_lt in Hlt; lia|]. rewrite Hx; cbv beta iota zeta; rewrite Ht.
    rewrite decide_False by done. rewrite has_prefix_app, drop_app, Hp. done.
  - destruct (item_text_index _ _ Hit) as (Hi&Hx&Hd&He&Hne).
    rewrite decide_False by done. rewrite He, Hd, Hi.
    destruct (2 + length x <? 2)%nat eqn:Hlt; [apply Nat.ltb_lt in Hlt; lia|]. rewrite Hx; cbv beta iota zeta; rewrite Ht.
    rewrite decide_False by done. rewrite has_prefix_app, drop_app.
    rewrite decide_False by done. symmetry in Hb. apply bool_decide_eq_true in Hb. by rewrite decide_False.
  - destruct (item_text_index _ _ Hit) as (Hi&Hx&Hd&He&Hne').
    rewrite decide_False by done. rewrite He, Hd, Hi.
    destruct (2 + length x <? 2)%nat eqn:Hlt; [apply Nat.ltb_lt in Hlt; lia|]. rewrite Hx; cbv beta iota zeta.
    rewrite decide_False by done. apply starts_prefix_false in Hnp. rewrite Hnp.
    destruct (isErrorCodeValid (trim_space x)) eqn:Hv'; [|done].
    apply isErrorCodeValid_correct in Hv'. done.
Qed.

Lemma block_line_cases sm l : l <> [] ->
  (exists e, bad_block_line (bool_decide (sm_param sm <> [])) l e) \/
  block_line l None \/ (exists c, block_line l (Some (inl c))) \/
  (sm_param sm = [] /\ exists p, block_line l (Some (inr p))).
Proof.
  intros Hne.
  destruct (starts_dec (str "Errors:") l) as [Hs|Hs]; [left; eexists; by constructor|].
  destruct (starts_dec (str "- ") l) as [Hd|Hd]; [|right; left; by constructor].
  destruct (index_of l (str " --")) as [e|] eqn:Hi.
  - destruct (index_item l e Hd Hi) as [[-> [rest ->]]|[Hle Hit]].
    { left. eexists. by constructor. }
    set (x := drop 2 (take e l)) in *.
    destruct (decide (trim_space x = [])) as [Hx|Hx]; [left; eexists; by eapply bad_empty|].
    destruct (starts_dec (str "param:") (trim_space x)) as [[y Hy]|Hnp].
    + destruct (decide (trim_space y = [])) as [Hp|Hp]; [left; eexists; by eapply bad_param_empty|].
      destruct (decide (sm_param sm = [])) as [Hsp|Hsp].
      * right; right; right. split; [done|]. eexists. by eapply line_param.
      * left. rewrite bool_decide_eq_true_2 by done. eexists. by eapply bad_param_repeated.
    + destruct (valid_code_dec (trim_space x)) as [Hv|Hv].
      * right; right; left. eexists. by eapply line_code.
      * left. eexists. by eapply bad_code.
  - left. eexists. eapply bad_no_dashes; [done|]. by apply index_of_none.
Qed.

(** ** After the declaration *)
Lemma run_done sm ls : sm_state sm = StateDone -> Forall plain_after ls -> run_lines sm ls = inl sm.
Proof.
  intros Hst. induction 1 as [|l ls Hl Hls IH]; [done|]. cbn. unfold step. rewrite Hst.
  unfold step_done. apply starts_prefix_false in Hl. by rewrite Hl.
Qed.
Lemma run_done_bad sm mid bad post :
  sm_state sm = StateDone -> Forall plain_after mid -> starts (str "Errors:") bad ->
  run_lines sm (mid ++ bad :: post) = inr DocRepeatedIndicator.
Proof.
  intros Hst Hmid Hb. rewrite run_lines_app, (run_done sm) by done. cbn. unfold step. rewrite Hst.
  unfold step_done. apply starts_prefix in Hb. by rewrite Hb.
Qed.
Lemma after_cases ls :
  Forall plain_after ls \/
  exists mid bad post, ls = mid ++ bad :: post /\ Forall plain_after mid /\ starts (str "Errors:") bad.
Proof.
  induction ls as [|l ls IH]; [by left|].
  destruct (starts_dec (str "Errors:") l) as [Hs|Hs].
  - right. by exists [], l, ls.
  - destruct IH as [IH|(mid&bad&post&->&Hm&Hb)]; [left; by constructor|].
    right. exists (l :: mid), bad, post. split_and!; [done|by constructor|done].
Qed.

(** ** Inside the block *)
Lemma run_block sm blk codes params :
  sm_state sm = StateParsing -> block_lines blk codes params ->
  (length params + (if decide (sm_param sm = []) then 0 else 1) <= 1)%nat ->
  run_lines sm blk = inl (DocSM (list_to_set codes ∪ sm_seen sm) StateParsing (sm_noCodesOk sm)
                                (default (sm_param sm) (head params))).
Proof.
  intros Hst Hb. revert sm Hst. induction Hb as [|l ls cs ps Hl Hls IH|l c ls cs ps Hl Hls IH|l p ls cs ps Hl Hls IH];
    intros sm Hst Hlen; cbn [run_lines].
  - f_equal. destruct sm; cbn in *. subst. f_equal. set_solver.
  - unfold step. rewrite Hst, step_parsing_skip by done. by apply IH.
  - unfold step. rewrite Hst, (step_parsing_code _ _ c) by done.
    rewrite IH; [|done|done]. cbn. f_equal. f_equal. set_solver.
  - unfold step. rewrite Hst, (step_parsing_param _ _ p) by done.
    destruct (decide (sm_param sm = [])) as [Hp|Hp]; [|cbn in Hlen; lia].
    cbn in Hlen. destruct ps as [|]; [|cbn in Hlen; lia].
    assert (p <> []) as Hpne by by inversion Hl.
    rewrite IH; [|done|cbn; destruct (decide (p = [])); [done|lia]]. done.
Qed.

Lemma block_cases sm ls : sm_state sm = StateParsing ->
  exists blk codes params rest, ls = blk ++ rest /\ block_lines blk codes params /\
    (length params + (if decide (sm_param sm = []) then 0 else 1) <= 1)%nat /\
    (rest = [] \/ (exists post, rest = [] :: post) \/
     exists bad post e, rest = bad :: post /\
       bad_block_line (bool_decide (default (sm_param sm) (head params) <> [])) bad e).
Proof.
  revert sm. induction ls as [|l ls IH]; intros sm Hst.
  { exists [], [], [], []. split_and!; [done|constructor|cbn; destruct (decide _); lia|by left]. }
  destruct (decide (l = [])) as [->|Hne].
  { exists [], [], [], ([] :: ls). split_and!; [done|constructor|cbn; destruct (decide _); lia|].
    right; left. by exists ls. }
  destruct (block_line_cases sm l Hne) as [[e Hbad]|[Hskip|[[c Hc]|[Hp [p Hpl]]]]].
  - exists [], [], [], (l :: ls). split_and!; [done|constructor|cbn; destruct (decide _); lia|].
    right; right. by exists l, ls, e.
  - destruct (IH sm Hst) as (blk&codes&params&rest&->&Hb&Hlen&Hr).
    exists (l :: blk), codes, params, rest. split_and!; [done|by constructor|done|done].
  - destruct (IH sm Hst) as (blk&codes&params&rest&->&Hb&Hlen&Hr).
    exists (l :: blk), (c :: codes), params, rest. split_and!; [done|by constructor|done|done].
  - assert (p <> []) as Hpne by by inversion Hpl.
    destruct (IH (sm_set_param sm p) Hst) as (blk&codes&params&rest&->&Hb&Hlen&Hr).
    cbn in Hlen. destruct (decide (p = [])); [done|]. destruct params; [|cbn in Hlen; lia].
    exists (l :: blk), codes, [p], rest. split_and!; [done|by constructor| |done].
    cbn. destruct (decide _); [lia|done].
Qed.

(** ** Before the declaration *)
Lemma run_before ls : Forall plain_before ls -> run_lines sm_start ls = inl sm_start.
Proof.
  induction 1 as [|l ls [Hb Hn] Hls IH]; [done|]. cbn [run_lines]. unfold step. cbn [sm_state sm_start].
  unfold step_init. rewrite decide_False by done. apply starts_prefix_false in Hn. rewrite Hn. apply IH.
Qed.
Lemma before_cases ls :
  Forall plain_before ls \/
  exists pre l post, ls = pre ++ l :: post /\ Forall plain_before pre /\ (opens_block l \/ opens_none l).
Proof.
  induction ls as [|l ls IH]; [by left|].
  destruct (decide (l = str "Errors:")) as [Hb|Hb].
  { right. exists [], l, ls. split_and!; [done|done|by left]. }
  destruct (starts_dec (str "Errors: none") l) as [Hs|Hs].
  { right. exists [], l, ls. split_and!; [done|done|by right]. }
  destruct IH as [IH|(pre&l'&post&->&Hp&Hl)].
  - left. constructor; [by split|done].
  - right. exists (l :: pre), l', post. split_and!; [done|by constructor; [split|]|done].
Qed.

Definition sm_result (sm : doc_sm) : doc_result := DocResult (sm_seen sm) (sm_param sm) (sm_noCodesOk sm).

Lemma step_open_block sm l : sm_state sm = StateInit -> opens_block l -> step sm l = inl (set_state sm StateNeedBlankLine).
Proof. intros Hst ->. unfold step. rewrite Hst. done. Qed.
Lemma step_open_none sm l : sm_state sm = StateInit -> opens_none l ->
  step sm l = inl (DocSM (sm_seen sm) StateDone true (sm_param sm)).
Proof.
  intros Hst Hn. unfold step. rewrite Hst. unfold step_init.
  rewrite decide_False by (destruct Hn as [t ->]; done).
  apply starts_prefix in Hn. by rewrite Hn.
Qed.

Lemma run_to_block pre l rest : Forall plain_before pre -> opens_block l ->
  run_lines sm_start (pre ++ l :: rest) = run_lines (set_state sm_start StateNeedBlankLine) rest.
Proof.
  intros Hp Hl. rewrite run_lines_app, run_before by done. cbn [run_lines].
  by rewrite (step_open_block sm_start).
Qed.
Definition sm_parsing : doc_sm := set_state sm_start StateParsing.
Lemma run_to_parsing pre l rest : Forall plain_before pre -> opens_block l ->
  run_lines sm_start (pre ++ l :: [] :: rest) = run_lines sm_parsing rest.
Proof. intros Hp Hl. by rewrite run_to_block. Qed.
Lemma run_to_none pre l rest : Forall plain_before pre -> opens_none l ->
  run_lines sm_start (pre ++ l :: rest) = run_lines (DocSM ∅ StateDone true []) rest.
Proof.
  intros Hp Hl. rewrite run_lines_app, run_before by done. cbn [run_lines].
  by rewrite (step_open_none sm_start).
Qed.

(** ** Completeness *)
Lemma declares_run ls r : doc_declares ls r ->
  exists sm, run_lines sm_start ls = inl sm /\ sm_result sm = r.
Proof.
  intros [ls' H|pre l post Hp Hl Hpost|pre l Hp Hl|pre l blk codes params post Hp Hl Hb Hlen Hpost].
  - exists sm_start. split; [by apply run_before|done].
  - rewrite run_to_none by done. eexists. split; [by apply run_done|done].
  - rewrite run_to_block by done. by eexists.
  - rewrite run_to_parsing by done. rewrite run_lines_app.
    rewrite (run_block sm_parsing blk codes params) by first [done | rewrite decide_True by done; lia].
    destruct Hpost as [->|(post'&->&Hpost)].
    + cbn. eexists. split; [done|]. unfold sm_result. cbn. f_equal. set_solver.
    + cbn [run_lines]. unfold step. cbn [sm_state]. unfold step_parsing. rewrite decide_True by done.
      eexists. split; [by apply run_done|]. unfold sm_result. cbn. f_equal. set_solver.
Qed.
Lemma head_params_ne ls cs ps : block_lines ls cs ps -> Forall (fun p => p <> []) ps.
Proof.
  induction 1 as [| | |l p ls cs ps Hl Hls IH]; [done|done|done|]. constructor; [by inversion Hl|done].
Qed.
Lemma bool_params ls cs ps : block_lines ls cs ps ->
  default [] (head ps) <> [] <-> ps <> [].
Proof.
  intros H. apply head_params_ne in H. destruct H as [|p ps Hp Hps]; [done|]. done.
Qed.
Lemma malformed_run ls e : doc_malformed ls e -> run_lines sm_start ls = inr e.
Proof.
  intros [pre l next post Hp Hl Hn|pre l blk codes params bad post e' Hp Hl Hb Hlen Hbad|
    pre l blk codes params mid bad post Hp Hl Hb Hlen Hmid Hbad|pre l mid bad post Hp Hl Hmid Hbad].
  - rewrite run_to_block by done. cbn. unfold step_need_blank. by rewrite decide_False.
  - rewrite run_to_parsing by done. rewrite run_lines_app.
    rewrite (run_block sm_parsing blk codes params) by first [done | rewrite decide_True by done; lia].
    cbn [run_lines]. unfold step. cbn [sm_state].
    erewrite step_parsing_bad; [done|].
    erewrite bool_decide_ext; [exact Hbad|]. exact (bool_params blk codes params Hb).
  - rewrite run_to_parsing by done. rewrite run_lines_app.
    rewrite (run_block sm_parsing blk codes params) by first [done | rewrite decide_True by done; lia].
    cbn [run_lines]. unfold step. cbn [sm_state]. unfold step_parsing. rewrite decide_True by done.
    by apply run_done_bad.
  - rewrite run_to_none by done. by apply run_done_bad.
Qed.

(** ** Every doc is classified *)
Lemma doc_classified ls : (exists r, doc_declares ls r) \/ (exists e, doc_malformed ls e).
Proof.
  destruct (before_cases ls) as [H|(pre&l&post&->&Hp&[Hl|Hl])].
  - left. eexists. by constructor.
  - destruct post as [|next post].
    { left. eexists. by constructor. }
    destruct (decide (next = [])) as [->|Hne].
    2:{ right. eexists. by constructor. }
    destruct (block_cases sm_parsing post eq_refl) as (blk&codes&params&rest&->&Hb&Hlen&Hr).
    rewrite decide_True in Hlen by done. assert (length params <= 1)%nat by lia.
    destruct Hr as [->|[[post' ->]|(bad&post'&e&->&Hbad)]].
    + left. eexists. eapply declares_block; eauto.
    + destruct (after_cases post') as [Ha|(mid&bad&post&->&Hm&Hbad)].
      * left. eexists. eapply declares_block; eauto.
      * right. eexists. eapply mal_repeated_after_block; eauto.
    + right. eexists. eapply mal_block; eauto.
      erewrite bool_decide_ext; [exact Hbad|]. symmetry. exact (bool_params blk codes params Hb).
  - destruct (after_cases post) as [Ha|(mid&bad&post'&->&Hm&Hbad)].
    + left. eexists. by constructor.
    + right. eexists. by eapply mal_repeated_after_none.
Qed.

Lemma run_docs_declares doc r : run_docs doc = inl r <-> doc_declares (doc_lines doc) r.
Proof.
  unfold run_docs, doc_lines. split.
  - intros Hrun. destruct (doc_classified (map trim_space (split_on 10 doc))) as [[r' Hd]|[e He]].
    + destruct (declares_run _ _ Hd) as (sm&Hr&Hres). change newline with 10 in Hrun. rewrite Hr in Hrun.
      injection Hrun as <-. unfold sm_result in Hres. by rewrite Hres.
    + apply malformed_run in He. change newline with 10 in Hrun. by rewrite He in Hrun.
  - intros Hd. destruct (declares_run _ _ Hd) as (sm&Hr&Hres). change newline with 10. rewrite Hr.
    unfold sm_result in Hres. by rewrite Hres.
Qed.
Lemma run_docs_malformed doc e : run_docs doc = inr e <-> doc_malformed (doc_lines doc) e.
Proof.
  unfold run_docs, doc_lines. change newline with 10. split.
  - intros Hrun. destruct (doc_classified (map trim_space (split_on 10 doc))) as [[r' Hd]|[e' He]].
    + destruct (declares_run _ _ Hd) as (sm&Hr&Hres). by rewrite Hr in Hrun.
    + pose proof He as He'. apply malformed_run in He. rewrite He in Hrun. by injection Hrun as <-.
  - intros He. apply malformed_run in He. by rewrite He.
Qed.
