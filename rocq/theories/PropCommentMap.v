(** * C43: annotations count for the return statement they stand at. *)
From Coq Require Import Ascii String.
From stdpp Require Import base list gmap.
From Verif Require Import GoString ErrorCode Scc GoAst CommentText CommentMap SpecLayout.
Local Open Scope N_scope.

(** ** The loops *)
Lemma place_before_app p q pg stack cs1 cs2 m : Forall (fun c => is_before c q = true) cs1 ->
  place_before p q pg stack (cs1 ++ cs2) m =
  match place_before p q pg stack cs1 m with
  | Some s => place_before p q (m_group s) (m_stack s) cs2 (m_map s)
  | None => None
  end.
Proof.
  intros H. revert pg stack m. induction H as [|c cs1 Hc _ IH]; intros pg stack m; [done|]. cbn [app place_before]. rewrite Hc.
  destruct (pop_ended _ _ _) as [top stack']. destruct (owner_of _ _ _ _); [apply IH|done].
Qed.
(** All comments are read. *)
Lemma place_before_rest p q pg stack cs m s : place_before p q pg stack cs m = Some s ->
  exists taken, cs = taken ++ m_rest s /\ (m_map s).*2 = m.*2 ++ taken /\ Forall (fun c => is_before c q = true) taken /\
    (forall c rest, m_rest s = c :: rest -> is_before c q = false).
Proof.
  revert pg stack m. induction cs as [|c cs IH]; intros pg stack m; cbn [place_before].
  - intros [= <-]. exists []. cbn. rewrite app_nil_r. split_and!; [done|done|constructor|done].
  - destruct (is_before c q) eqn:E.
    + destruct (pop_ended _ _ _) as [top stack']. destruct (owner_of _ _ _ _) as [n|]; [|done].
      intros (taken&E1&E2&E3&E4)%IH. exists (c :: taken). split_and!; [cbn; congruence| |by constructor|done].
      rewrite E2, fmap_app, <-app_assoc. done.
    + intros [= <-]. exists []. cbn. rewrite app_nil_r. split_and!; [done|done|constructor|]. intros c' rest [= <- <-]. done.
Qed.
Lemma place_before_total p q pg stack cs m : (p <> None \/ q <> None) -> place_before p q pg stack cs m <> None.
Proof.
  intros H. revert pg stack m. induction cs as [|c cs IH]; intros pg stack m; [done|]. cbn [place_before].
  destruct (is_before c q); [|done]. destruct (pop_ended _ _ _) as [top stack'].
  destruct (owner_of _ _ _ _) as [n|] eqn:E; [apply IH|]. exfalso. revert E. unfold owner_of.
  destruct p as [pn|], q as [qn|]; try (by destruct H); repeat case_match; try done; rewrite ?orb_true_r in *; done.
Qed.
Lemma place_comments_all p nodes s s' : place_comments p nodes s = Some s' -> m_rest s' = [] /\ (m_map s').*2 = (m_map s).*2 ++ m_rest s.
Proof.
  revert p s. induction nodes as [|q nodes IH]; intros p s; cbn [place_comments].
  - intros (taken&E1&E2&E3&E4)%place_before_rest. destruct (m_rest s') as [|c rest] eqn:E; [|by specialize (E4 c rest eq_refl)].
    split; [done|]. rewrite E2, E1, app_nil_r. done.
  - destruct (place_before _ _ _ _ _ _) as [s1|] eqn:E; [|done]. intros [H1 H2]%IH. cbn in *. split; [done|].
    apply place_before_rest in E as (taken&E1&E2&_). rewrite H2, E2, E1, app_assoc. done.
Qed.
Lemma place_comments_total p nodes s : (p <> None \/ nodes <> []) -> place_comments p nodes s <> None.
Proof.
  revert p s. induction nodes as [|q nodes IH]; intros p s H; cbn [place_comments].
  - apply place_before_total. by destruct H; [left|].
  - destruct (place_before _ _ _ _ _ _) as [s1|] eqn:E; [apply IH; by left|]. exfalso. revert E. apply place_before_total. by right.
Qed.
Lemma place_before_grows p q pg stack cs m s : place_before p q pg stack cs m = Some s -> m `prefix_of` m_map s.
Proof.
  revert pg stack m. induction cs as [|c cs IH]; intros pg stack m; cbn [place_before]; [by intros [= <-]|].
  destruct (is_before c q); [|by intros [= <-]]. destruct (pop_ended _ _ _) as [top stack']. destruct (owner_of _ _ _ _) as [n|]; [|done].
  intros H%IH. etrans; [|exact H]. by apply prefix_app_r.
Qed.
Lemma place_comments_grows p nodes s s' : place_comments p nodes s = Some s' -> m_map s `prefix_of` m_map s'.
Proof.
  revert p s. induction nodes as [|q nodes IH]; intros p s; cbn [place_comments]; [apply place_before_grows|].
  destruct (place_before _ _ _ _ _ _) as [s1|] eqn:E; [|done]. intros H%IH. cbn in H. etrans; [by eapply place_before_grows|done].
Qed.

(** Every comment belongs to one node. *)
Theorem C43_once f : layout f -> exists m, newCommentMap f = Some m /\ m.*2 = sf_comments f.
Proof.
  intros L. unfold newCommentMap. destruct (sf_comments f) as [|c cs] eqn:E; [by exists []|].
  destruct (place_comments None (sf_nodes f) (CMState None [] (c :: cs) [])) as [s|] eqn:Ep.
  - exists (m_map s). split; [done|]. apply place_comments_all in Ep as [_ ->]. done.
  - exfalso. revert Ep. apply place_comments_total. right. apply (lay_file _ L).
Qed.
Lemma comments_nodup f : layout f -> NoDup (sf_comments f).
Proof.
  intros L. apply NoDup_alt. intros i j c Hi Hj.
  assert (forall i j, (i < j)%nat -> sf_comments f !! i = Some c -> sf_comments f !! j = Some c -> False) as H.
  { clear i j Hi Hj. intros i j Hlt Hi Hj. pose proof (lay_comment _ L c (elem_of_list_lookup_2 _ _ _ Hi)) as Hc.
    apply take_drop_middle in Hi as E. rewrite <-E in Hj. rewrite lookup_app_r in Hj; rewrite take_length_le in * by (apply lookup_lt_Some in Hi; lia); [|lia].
    destruct (j - i)%nat as [|k] eqn:Ek; [lia|]. cbn in Hj. apply take_drop_middle in Hj as E2. rewrite <-E2 in E.
    pose proof (lay_comments _ L _ _ _ _ _ (eq_sym E)). lia. }
  destruct (Nat.lt_trichotomy i j) as [?|[?|?]]; [exfalso; eauto|done|exfalso; eauto].
Qed.
Global Instance snode_eq_dec : EqDecision snode.
Proof. assert (EqDecision place) by solve_decision. solve_decision. Defined.
Definition belongs (m : list (nid * cgroup)) (c : cgroup) (s : snode) : Prop := forall id, (id, c) ∈ m <-> id = sn_id s.
Lemma belongs_in f m c s : layout f -> newCommentMap f = Some m -> (sn_id s, c) ∈ m -> belongs m c s.
Proof.
  intros L Hm Hin id. split; [|by intros ->]. intros Hin'. destruct (C43_once f L) as (m'&Hm'&E). rewrite Hm in Hm'. injection Hm' as <-.
  pose proof (comments_nodup f L) as Hn. rewrite <-E in Hn.
  apply elem_of_list_lookup in Hin as [i Hi], Hin' as [j Hj].
  assert (i = j) as ->; [|congruence]. rewrite NoDup_alt in Hn. apply (Hn i j c); rewrite list_lookup_fmap; [by rewrite Hi|by rewrite Hj].
Qed.

(** ** The state in between *)
(** Stack and group are nodes that have been read. *)
Definition seen_nodes (done : list snode) (pg : option snode) (stack : list snode) : Prop :=
  (forall g, pg = Some g -> g ∈ done) /\ forall g, g ∈ stack -> g ∈ done /\ sn_group g = true.
Lemma pop_ended_cases pos top stack : 
  (pop_ended pos top stack).1 = top \/ exists g, (pop_ended pos top stack).1 = Some g /\ g ∈ stack.
Proof.
  revert top. induction stack as [|n stack IH]; intros top; cbn [pop_ended]; [by left|].
  destruct (_ <=? _); [|by left]. destruct (IH (Some n)) as [->|(g&->&?)]; right; [exists n|exists g]; (split; [done|set_solver]).
Qed.
Lemma pop_ended_suffix pos top stack : (pop_ended pos top stack).2 `suffix_of` stack.
Proof.
  revert top. induction stack as [|n stack IH]; intros top; cbn [pop_ended]; [done|].
  destruct (_ <=? _); [|done]. by apply suffix_cons_r.
Qed.
Lemma suffix_in {A} (l l' : list A) x : l `suffix_of` l' -> x ∈ l -> x ∈ l'.
Proof. intros [k ->] ?. apply elem_of_app. by right. Qed.
Lemma seen_pop done pg stack pos : seen_nodes done pg stack ->
  seen_nodes done (match (pop_ended pos None stack).1 with Some g => Some g | None => pg end) (pop_ended pos None stack).2.
Proof.
  intros [H1 H2]. split.
  - intros g. destruct (pop_ended_cases pos None stack) as [->|(g'&->&Hg)]; [apply H1|]. intros [= <-]. by apply H2.
  - intros g Hg. apply H2. by eapply suffix_in, Hg; apply pop_ended_suffix.
Qed.
Lemma seen_before done p q pg stack cs m s : place_before p q pg stack cs m = Some s -> seen_nodes done pg stack -> seen_nodes done (m_group s) (m_stack s).
Proof.
  revert pg stack m. induction cs as [|c cs IH]; intros pg stack m; cbn [place_before]; [by intros [= <-]|].
  destruct (is_before c q); [|by intros [= <-]]. pose proof (seen_pop done pg stack (p_off (cg_start c))) as Hp.
  destruct (pop_ended _ _ _) as [top stack']. cbn in Hp. destruct (owner_of _ _ _ _) as [n|]; [|done]. eauto.
Qed.
Lemma seen_more done x pg stack : seen_nodes done pg stack -> seen_nodes (done ++ [x]) pg stack.
Proof. intros [H1 H2]. split; [intros g Hg%H1; set_solver|]. intros g [? ?]%H2. split; [set_solver|done]. Qed.
Lemma seen_push done q pg stack : seen_nodes done pg stack ->
  seen_nodes (done ++ [q]) pg (if sn_group q then push_group q stack else stack).
Proof.
  intros H. destruct (sn_group q) eqn:E; [|by apply seen_more]. destruct (seen_more done q pg stack H) as [H1 H2]. split; [done|].
  unfold push_group. intros g [->|Hg]%elem_of_cons; [set_solver|]. apply H2. by eapply suffix_in, Hg; apply pop_ended_suffix.
Qed.

(** Reading the nodes [pre], none of which starts behind [c]: [c] stays among the comments to be read. *)
Lemma read_nodes pre nodes p done cs1 c cs2 pg stack m s' :
  (forall n, n ∈ pre -> p_off (sn_start n) < p_off (cg_end c)) -> seen_nodes done pg stack ->
  place_comments p (pre ++ nodes) (CMState pg stack (cs1 ++ c :: cs2) m) = Some s' ->
  exists p' cs1' pg' stack' m', place_comments p' nodes (CMState pg' stack' (cs1' ++ c :: cs2) m') = Some s' /\
    cs1' `suffix_of` cs1 /\ seen_nodes (done ++ pre) pg' stack' /\ p' = match last pre with Some n => Some n | None => p end.
Proof.
  revert p done cs1 pg stack m. induction pre as [|q pre IH]; intros p done cs1 pg stack m Hpre Hs E.
  { exists p, cs1, pg, stack, m. rewrite app_nil_r. done. }
  cbn [app place_comments m_group m_stack m_rest m_map] in E. destruct (place_before _ _ _ _ _ _) as [s1|] eqn:E1; [|done].
  pose proof (place_before_rest _ _ _ _ _ _ _ E1) as (taken&Ht&_&Hb&_). pose proof (seen_before done _ _ _ _ _ _ _ E1 Hs) as Hs1.
  assert (exists cs1', m_rest s1 = cs1' ++ c :: cs2 /\ cs1' `suffix_of` cs1) as (cs1'&Hr&Hsu).
  { clear -Hpre Ht Hb. revert cs1 Ht. induction taken as [|t taken IHt]; intros cs1 Ht; [by exists cs1|]. apply Forall_cons in Hb as [Hb Hb'].
    destruct cs1 as [|c1 cs1].
    - exfalso. injection Ht as <- _. cbn in Hb. apply N.leb_le in Hb. pose proof (Hpre q ltac:(by left)). lia.
    - injection Ht as <- Ht. destruct (IHt Hb' cs1 Ht) as (cs1'&?&?). exists cs1'. split; [done|]. by apply suffix_cons_r. }
  rewrite Hr in E. apply (IH _ (done ++ [q])) in E as (p'&cs1''&pg'&stack'&m'&E'&Hsu'&Hs'&Hp').
  - exists p', cs1'', pg', stack', m'. split_and!; [done|by etrans| |].
    + by rewrite <-app_assoc in Hs'.
    + rewrite Hp'. destruct pre as [|x pre]; [done|]. rewrite last_cons_cons. destruct (last (x :: pre)) eqn:El; [done|]. by apply last_None in El.
  - intros n Hn. apply Hpre. by right.
  - by apply seen_push.
Qed.

Lemma new_map f cs1 c cs2 : sf_comments f = cs1 ++ c :: cs2 ->
  newCommentMap f = m_map <$> place_comments None (sf_nodes f) (CMState None [] (cs1 ++ c :: cs2) []).
Proof. intros E. unfold newCommentMap. rewrite E. by destruct cs1. Qed.

(** ** Comments above *)
Theorem C43_above f m c s : layout f -> newCommentMap f = Some m -> c ∈ sf_comments f -> directly_above f c s -> belongs m c s.
Proof.
  intros L Hm Hc ((pre&post&En&Hle&Hpre)&Hown&Hline). apply (belongs_in f); [done|done|].
  pose proof (lay_comment _ L c Hc) as Hlt. apply elem_of_list_split in Hc as (cs1&cs2&Ec). rewrite (new_map f cs1 c cs2 Ec), En in Hm.
  destruct (place_comments None (pre ++ s :: post) (CMState None [] (cs1 ++ c :: cs2) [])) as [s'|] eqn:E; [|done].
  injection Hm as <-.
  apply (read_nodes pre (s :: post) None []) in E as (p&cs1'&pg&stack&m'&E&Hsu&Hs&Hp); [|done|by split; [|intros ? ?%elem_of_nil]].
  cbn [app] in Hs. cbn [place_comments m_group m_stack m_rest m_map] in E.
  rewrite place_before_app in E.
  2:{ apply Forall_forall. intros c' Hc'. eapply suffix_in in Hc'; [|exact Hsu]. apply elem_of_list_split in Hc' as (l1&l2&->).
      rewrite <-app_assoc in Ec. pose proof (lay_comments _ L _ _ _ _ _ Ec).
      cbn. apply N.leb_le. lia. }
  destruct (place_before _ _ _ _ cs1' _) as [s1|] eqn:E1; [|done]. pose proof (seen_before pre _ _ _ _ _ _ _ E1 Hs) as Hs1.
  cbn [place_before] in E. assert (is_before c (Some s) = true) as Hb by (cbn; by apply N.leb_le). rewrite Hb in E.
  pose proof (seen_pop pre (m_group s1) (m_stack s1) (p_off (cg_start c)) Hs1) as [Hg _].
  destruct (pop_ended _ _ (m_stack s1)) as [top stack'] eqn:Epop. cbn [fst] in Hg.
  assert (forall n, n ∈ pre -> follows n c (Some s) = false) as Hf.
  { intros n Hn. unfold follows, gap_after. apply orb_false_iff. split.
    - apply N.eqb_neq. apply Hown. rewrite En. set_solver.
    - apply andb_false_iff. right. apply N.ltb_ge. lia. }
  assert (owner_of p (match top with Some g => Some g | None => m_group s1 end) (Some s) c = Some s) as Ho.
  { unfold owner_of. assert (match p with Some n => if follows n c (Some s) || false then Some n else Some s | None => Some s end = Some s) as Hps.
    { destruct p as [n|]; [|done]. rewrite Hf; [done|]. destruct (last pre) eqn:El; [|done]. injection Hp as ->. by apply last_Some_elem_of. }
    destruct (match top with Some g => Some g | None => m_group s1 end) as [g|] eqn:Eg; [|exact Hps].
    rewrite (Hf g); [exact Hps|]. by apply Hg. }
  rewrite Ho in E. destruct (place_before _ _ _ _ cs2 _) as [s2|] eqn:E2; [|done].
  apply place_before_grows in E2. apply place_comments_grows in E. cbn in E. eapply elem_of_prefix; [|exact E].
  eapply elem_of_prefix; [|exact E2]. set_solver.
Qed.

(** ** Comments behind *)
(** [s] is on the stack, below only nodes that have ended before [c], and the node below it has not. *)
Definition waiting (c : cgroup) (s : snode) (stack : list snode) : Prop :=
  exists above below, stack = above ++ s :: below /\ (forall g, g ∈ above -> p_off (sn_end g) <= p_off (cg_start c)) /\
    (forall g l, below = g :: l -> p_off (cg_start c) < p_off (sn_end g)).
Lemma waiting_pop c s stack pos top : waiting c s stack -> pos < p_off (sn_end s) -> waiting c s (pop_ended pos top stack).2.
Proof.
  intros (above&below&->&Ha&Hb) Hpos. revert top. induction above as [|a above IH]; intros top; cbn [app pop_ended].
  - assert (p_off (sn_end s) <=? pos = false) as -> by (apply N.leb_gt; lia). exists [], below. split_and!; [done|by intros ? ?%elem_of_nil|done].
  - destruct (_ <=? _); [|by exists (a :: above), below]. apply IH. intros g Hg. apply Ha. by right.
Qed.
Lemma waiting_before c s p q cs pg stack m s1 : (forall c', c' ∈ cs -> p_off (cg_start c') < p_off (sn_end s)) -> waiting c s stack ->
  place_before p q pg stack cs m = Some s1 -> waiting c s (m_stack s1).
Proof.
  intros Hcs. revert pg stack m. induction cs as [|c' cs IH]; intros pg stack m Hw; cbn [place_before]; [by intros [= <-]|].
  destruct (is_before c' q); [|by intros [= <-]].
  pose proof (waiting_pop c s stack (p_off (cg_start c')) None Hw (Hcs c' ltac:(by left))) as Hw'.
  destruct (pop_ended _ _ _) as [top stack']. cbn in Hw'. destruct (owner_of _ _ _ _) as [n|]; [|done].
  apply IH; [|done]. intros c'' Hc. apply Hcs. by right.
Qed.
Lemma waiting_found c s stack : waiting c s stack -> p_off (sn_end s) <= p_off (cg_start c) -> (pop_ended (p_off (cg_start c)) None stack).1 = Some s.
Proof.
  intros (above&below&->&Ha&Hb) Hs. generalize (None : option snode). induction above as [|a above IH]; intros top; cbn [app pop_ended].
  - assert (p_off (sn_end s) <=? p_off (cg_start c) = true) as -> by (by apply N.leb_le).
    destruct below as [|g l]; [done|]. cbn [pop_ended].
    assert (p_off (sn_end g) <=? p_off (cg_start c) = false) as -> by (apply N.leb_gt; by eapply Hb). done.
  - assert (p_off (sn_end a) <=? p_off (cg_start c) = true) as -> by (apply N.leb_le, Ha; by left). apply IH. intros g Hg. apply Ha. by right.
Qed.
(** Reading the nodes behind [s] until the comment is read. *)
Lemma waiting_nodes c s cs1 cs2 nodes p pg stack m s' :
  p_off (sn_end s) <= p_off (cg_start c) -> p_line (sn_end s) = p_line (cg_start c) ->
  (forall n, n ∈ nodes -> sn_group n = true -> p_off (sn_start n) < p_off (cg_end c) -> p_off (sn_start n) < p_off (sn_end s) /\ p_off (sn_end n) <= p_off (cg_start c)) ->
  (forall c', c' ∈ cs1 -> p_off (cg_start c') < p_off (sn_end s) /\ p_off (cg_end c') <= p_off (cg_end c)) ->
  waiting c s stack -> place_comments p nodes (CMState pg stack (cs1 ++ c :: cs2) m) = Some s' -> (sn_id s, c) ∈ m_map s'.
Proof.
  intros Hend Hline. revert p cs1 pg stack m. induction nodes as [|q nodes IH]; intros p cs1 pg stack m Hnodes Hcs Hw E.
  - assert (forall q pg' s2, (forall c', c' ∈ cs1 -> is_before c' q = true) -> is_before c q = true ->
      place_before p q pg' stack (cs1 ++ c :: cs2) m = Some s2 -> (sn_id s, c) ∈ m_map s2) as Hplace.
    { intros q pg' s2 Hb Hbc E2. rewrite place_before_app in E2 by (by apply Forall_forall).
      destruct (place_before _ _ _ _ cs1 _) as [s1|] eqn:E1; [|done].
      apply (waiting_before c s) in E1; [|intros c' Hc'; by apply Hcs|done]. cbn [place_before] in E2. rewrite Hbc in E2.
      pose proof (waiting_found c s _ E1 Hend) as Ht. destruct (pop_ended _ _ (m_stack s1)) as [top stack']. cbn in Ht. subst top.
      assert (forall p, owner_of p (Some s) q c = Some s) as Ho.
      { intros p'. unfold owner_of, follows. rewrite Hline, N.eqb_refl. done. }
      rewrite Ho in E2. apply place_before_grows in E2. eapply elem_of_prefix; [|exact E2]. set_solver. }
    cbn [place_comments m_group m_stack m_rest m_map] in E. eapply (Hplace None); [done|done|exact E].
  - cbn [place_comments m_group m_stack m_rest m_map] in E.
    destruct (place_before _ _ _ _ _ _) as [s1|] eqn:E1; [|done].
    destruct (is_before c (Some q)) eqn:Hbc.
    + assert (forall c', c' ∈ cs1 -> is_before c' (Some q) = true) as Hb.
      { intros c' Hc'. cbn in *. apply N.leb_le in Hbc. apply N.leb_le. destruct (Hcs c' Hc'). lia. }
      rewrite place_before_app in E1 by (by apply Forall_forall).
      destruct (place_before _ _ _ _ cs1 _) as [s0|] eqn:E0; [|done].
      apply (waiting_before c s) in E0; [|intros c' Hc'; by apply Hcs|done]. cbn [place_before] in E1. rewrite Hbc in E1.
      pose proof (waiting_found c s _ E0 Hend) as Ht. destruct (pop_ended _ _ (m_stack s0)) as [top stack']. cbn in Ht. subst top.
      assert (owner_of p (Some s) (Some q) c = Some s) as Ho.
      { unfold owner_of, follows. rewrite Hline, N.eqb_refl. done. }
      rewrite Ho in E1. apply place_before_grows in E1. apply place_comments_grows in E. cbn in E. eapply elem_of_prefix; [|exact E].
      eapply elem_of_prefix; [|exact E1]. set_solver.
    + assert (exists taken cs1', cs1 = taken ++ cs1' /\ m_rest s1 = cs1' ++ c :: cs2 /\ waiting c s (m_stack s1)) as (taken&cs1'&->&Hr&Hw1).
      { pose proof (place_before_rest _ _ _ _ _ _ _ E1) as (taken&Ht&_&Hb&Hnb). 
        assert (exists cs1', cs1 = taken ++ cs1' /\ m_rest s1 = cs1' ++ c :: cs2) as (cs1'&->&Hr).
        { clear -Ht Hb Hbc. revert cs1 Ht. induction taken as [|t taken IHt]; intros cs1 Ht; [by exists cs1|]. apply Forall_cons in Hb as [Hb Hb'].
          destruct cs1 as [|c1 cs1]; [injection Ht as <- _; congruence|]. injection Ht as <- Ht.
          destruct (IHt Hb' cs1 Ht) as (cs1'&->&?). by exists cs1'. }
        exists taken, cs1'. split_and!; [done|done|].
        rewrite <-app_assoc, place_before_app in E1 by done. destruct (place_before _ _ _ _ taken _) as [s0|] eqn:E0; [|done].
        apply (waiting_before c s) in E0; [|intros c' Hc'; apply Hcs; set_solver|done].
        assert (m_stack s1 = m_stack s0) as ->; [|done].
        destruct cs1' as [|c1 cs1']; cbn [app place_before] in E1.
        - rewrite Hbc in E1. by injection E1 as <-.
        - rewrite (Hnb c1 (cs1' ++ c :: cs2) Hr) in E1. by injection E1 as <-. }
      rewrite Hr in E. eapply IH in E; [done|..].
      * intros n Hn. apply Hnodes. by right.
      * intros c' Hc'. apply Hcs. set_solver.
      * destruct (sn_group q) eqn:Eg; [|done]. cbn in Hbc. apply N.leb_gt in Hbc.
        destruct (Hnodes q ltac:(by left) Eg Hbc) as [H1 H2]. unfold push_group.
        destruct (waiting_pop c s (m_stack s1) (p_off (sn_start q)) None Hw1 H1) as (above&below&->&Ha&Hb).
        exists (q :: above), below. split_and!; [done| |done]. intros g [->|Hg]%elem_of_cons; [done|by apply Ha].
Qed.

Theorem C43_behind f m c s : layout f -> newCommentMap f = Some m -> c ∈ sf_comments f -> behind f c s -> outermost f c s -> belongs m c s.
Proof.
  intros L Hm Hc (Hin&Hgs&Hend&Hline&Hnodes&Hcs) Hout. apply (belongs_in f); [done|done|].
  pose proof (lay_comment _ L c Hc) as Hlt. pose proof (lay_extent _ L s Hin) as Hext.
  apply elem_of_list_split in Hc as (cs1&cs2&Ec). rewrite (new_map f cs1 c cs2 Ec) in Hm.
  pose proof Hin as (pre&post&En)%elem_of_list_split. rewrite En in Hm.
  destruct (place_comments None (pre ++ s :: post) (CMState None [] (cs1 ++ c :: cs2) [])) as [s'|] eqn:E; [|done].
  injection Hm as <-.
  apply (read_nodes pre (s :: post) None []) in E as (p&cs1'&pg&stack&m'&E&Hsu&Hs&Hp).
  2:{ intros n Hn. pose proof (lay_order _ L _ _ _ n En Hgs Hn). lia. }
  2:{ by split; [|intros ? ?%elem_of_nil]. }
  cbn [app] in Hs.
  assert (forall c', c' ∈ cs1 -> p_off (cg_start c') < p_off (sn_end s) /\ p_off (cg_end c') <= p_off (cg_end c)) as Hcs1.
  { intros c' Hc'. apply elem_of_list_split in Hc' as (l1&l2&->).
    rewrite <-app_assoc in Ec. pose proof (lay_comments _ L _ _ _ _ _ Ec) as Ho.
    assert (c' ∈ sf_comments f) as Hc' by (rewrite Ec; set_solver). pose proof (lay_comment _ L c' Hc').
    assert (c' <> c) as Hne by (intros ->; lia). pose proof (Hcs c' Hc' Hne). split; lia. }
  cbn [place_comments m_group m_stack m_rest m_map] in E. rewrite Hgs in E.
  destruct (place_before _ _ _ _ _ _) as [s1|] eqn:E1; [|done].
  assert (is_before c (Some s) = false) as Hbc by (cbn; apply N.leb_gt; lia).
  pose proof (place_before_rest _ _ _ _ _ _ _ E1) as (taken&Ht&_&Hb&_). pose proof (seen_before pre _ _ _ _ _ _ _ E1 Hs) as [_ Hs1].
  assert (exists cs1'', m_rest s1 = cs1'' ++ c :: cs2 /\ cs1'' `suffix_of` cs1') as (cs1''&Hr&Hsu').
  { clear -Ht Hb Hbc. revert cs1' Ht. induction taken as [|t taken IHt]; intros cs1 Ht; [by exists cs1|]. apply Forall_cons in Hb as [Hb Hb'].
    destruct cs1 as [|c1 cs1]; [injection Ht as <- _; congruence|]. injection Ht as <- Ht.
    destruct (IHt Hb' cs1 Ht) as (cs1'&?&?). exists cs1'. split; [done|]. by apply suffix_cons_r. }
  rewrite Hr in E. eapply (waiting_nodes c s) in E; [exact E|done|done| | |].
  - intros n Hn Hg Hst. destruct (decide (n = s)) as [->|Hne].
    { exfalso. pose proof (lay_ids _ L) as Hnd. rewrite En, fmap_app in Hnd. apply NoDup_app in Hnd as (_&_&Hnd). apply NoDup_cons in Hnd as [Hnd _].
      apply Hnd, elem_of_list_fmap. by exists s. }
    assert (n ∈ sf_nodes f) as Hnf by (rewrite En; set_solver). pose proof (Hnodes n Hnf Hg Hne) as Hno.
    assert (p_off (sn_start n) < p_off (sn_end s)) as H1 by lia. split; [done|].
    apply elem_of_list_split in Hn as (l1&l2&->). destruct (lay_nested _ L _ _ _ _ _ En Hgs Hg) as [?|?]; lia.
  - intros c' Hc'. apply Hcs1. eapply suffix_in; [exact Hsu|]. by eapply suffix_in.
  - unfold push_group. destruct (pop_ended (p_off (sn_start s)) None (m_stack s1)) as [top below] eqn:Ep. cbn [snd].
    exists [], below. split_and!; [done|by intros ? ?%elem_of_nil|]. intros g l ->.
    assert (p_off (sn_start s) < p_off (sn_end g)) as Hg.
    { clear -Ep. revert Ep. generalize (None : option snode). induction (m_stack s1) as [|x st IH]; intros t; cbn [pop_ended]; [done|].
      destruct (p_off (sn_end x) <=? p_off (sn_start s)) eqn:E; [apply IH|]. intros [= _ -> _]. by apply N.leb_gt in E. }
    assert (g ∈ m_stack s1) as Hgst.
    { pose proof (pop_ended_suffix (p_off (sn_start s)) None (m_stack s1)) as Hx. rewrite Ep in Hx. eapply suffix_in; [exact Hx|]. by left. }
    destruct (Hs1 g Hgst) as [Hgp Hgg]. apply elem_of_list_split in Hgp as (l1&l2&->). rewrite <-app_assoc in En. cbn in En.
    eapply Hout; [exact En|done|]. destruct (lay_nested _ L _ _ _ _ _ En Hgg Hgs); [done|lia].
Qed.

(** ** No other comments *)
Section only.
Context (f : source_file) (L : layout f).
Definition near (c : cgroup) (n : snode) : Prop :=
  next_node f c n \/ p_line (cg_start c) = p_line (sn_end n) \/ p_line (cg_start c) = p_line (sn_end n) + 1 \/
  last (sf_nodes f) = Some n.
Definition near_entry (e : nid * cgroup) : Prop := exists n, n ∈ sf_nodes f /\ sn_id n = e.1 /\ near e.2 n.
Lemma follows_near n c q : follows n c q = true -> near c n.
Proof.
  unfold follows. intros [H%N.eqb_eq|[H%N.eqb_eq _]%andb_prop]%orb_prop; [right; left|right; right; left]; congruence.
Qed.
Lemma near_before done post p q pg stack cs m s1 :
  sf_nodes f = done ++ match q with Some n => n :: post | None => [] end -> seen_nodes done pg stack -> p = last done ->
  (forall c x, c ∈ cs -> x ∈ done -> p_off (sn_start x) < p_off (cg_end c)) -> Forall near_entry m ->
  place_before p q pg stack cs m = Some s1 -> Forall near_entry (m_map s1).
Proof.
  intros En. revert pg stack m. induction cs as [|c cs IH]; intros pg stack m Hs Hp Hcs Hm; cbn [place_before]; [by intros [= <-]|].
  destruct (is_before c q) eqn:Eb; [|by intros [= <-]]. pose proof (seen_pop done pg stack (p_off (cg_start c)) Hs) as Hpop.
  destruct (pop_ended _ _ _) as [top stack']. cbn [fst snd] in Hpop. set (pg' := match top with Some g => Some g | None => pg end) in *.
  destruct (owner_of p pg' q c) as [n|] eqn:Eo; [|done]. apply IH; [done|done|intros; apply Hcs; [by right|done]|].
  apply Forall_app. split; [done|]. apply Forall_singleton. exists n. cbn [fst snd].
  assert (forall n, n ∈ done -> n ∈ sf_nodes f) as Hdone by (intros; rewrite En; set_solver).
  assert (q = Some n -> n ∈ sf_nodes f /\ near c n) as Hq.
  { intros ->. split; [rewrite En; set_solver|]. left. exists done, post. cbn in Eb. apply N.leb_le in Eb. split_and!; [done|done|].
    intros x Hx. apply Hcs; [by left|done]. }
  assert (p = Some n -> follows n c q || match q with None => true | _ => false end = true -> n ∈ sf_nodes f /\ near c n) as Hpn.
  { intros E Hf. split; [apply Hdone, last_Some_elem_of; congruence|]. apply orb_prop in Hf as [Hf|Hf]; [by eapply follows_near|]. destruct q; [done|]. right. right. right.
    rewrite En, app_nil_r. congruence. }
  assert (n ∈ sf_nodes f /\ near c n) as [? ?]; [|by split_and!].
  unfold owner_of in Eo. destruct pg' as [g|] eqn:Eg.
  - destruct (follows g c q) eqn:Ef.
    + injection Eo as <-. split; [apply Hdone, (proj1 Hpop g); first [done|congruence]|by eapply follows_near].
    + destruct p as [pn|]; [|auto]. destruct (follows pn c q || _) eqn:Ep; [injection Eo as <-|]; auto.
  - destruct p as [pn|]; [|auto]. destruct (follows pn c q || _) eqn:Ep; [injection Eo as <-|]; auto.
Qed.
Lemma near_comments done nodes p s s' :
  sf_nodes f = done ++ nodes -> (exists taken, sf_comments f = taken ++ m_rest s) -> seen_nodes done (m_group s) (m_stack s) -> p = last done ->
  (forall c x, c ∈ m_rest s -> x ∈ done -> p_off (sn_start x) < p_off (cg_end c)) -> Forall near_entry (m_map s) ->
  place_comments p nodes s = Some s' -> Forall near_entry (m_map s').
Proof.
  revert done p s. induction nodes as [|q nodes IH]; intros done p s En Ht Hs Hp Hcs Hm; cbn [place_comments].
  - by eapply (near_before done [] p None).
  - destruct (place_before _ _ _ _ _ _) as [s1|] eqn:E1; [|done].
    pose proof (near_before done nodes p (Some q) _ _ _ _ _ En Hs Hp Hcs Hm E1) as Hm1.
    pose proof (place_before_rest _ _ _ _ _ _ _ E1) as (taken&Er&_&_&Hnb). destruct Ht as [taken0 Et].
    assert (sf_comments f = (taken0 ++ taken) ++ m_rest s1) as Et1 by (by rewrite Et, Er, app_assoc).
    apply (IH (done ++ [q])); cbn.
    + by rewrite <-app_assoc.
    + by exists (taken0 ++ taken).
    + apply seen_push. by eapply seen_before.
    + by rewrite last_snoc.
    + intros c x Hc [Hx|Hx]%elem_of_app.
      * apply Hcs; [|done]. rewrite Er. set_solver.
      * apply elem_of_list_singleton in Hx as ->. destruct (m_rest s1) as [|c1 rest] eqn:Er1; [by apply elem_of_nil in Hc|].
        specialize (Hnb c1 rest eq_refl). cbn in Hnb. apply N.leb_gt in Hnb. apply elem_of_cons in Hc as [->|Hc]; [done|].
        apply elem_of_list_split in Hc as (l1&l2&->). pose proof (lay_comments _ L _ _ _ _ _ Et1).
        assert (c ∈ sf_comments f) as Hcf by (rewrite Et1; set_solver). pose proof (lay_comment _ L c Hcf). lia.
    + done.
Qed.
Lemma all_near m : newCommentMap f = Some m -> Forall near_entry m.
Proof.
  unfold newCommentMap. destruct (sf_comments f) as [|c cs] eqn:E; [by intros [= <-]|].
  destruct (place_comments _ _ _) as [s|] eqn:Ep; [|done]. intros [= <-]. eapply (near_comments [] (sf_nodes f)); [..|exact Ep]; cbn; try done.
  - by exists [].
  - split; [done|]. by intros ? ?%elem_of_nil.
  - by intros ? ? _ ?%elem_of_nil.
Qed.
(** A comment that is not near the statement does not belong to it. *)
Theorem C43_elsewhere m c s : newCommentMap f = Some m -> s ∈ sf_nodes f -> elsewhere f c s -> (sn_id s, c) ∉ m.
Proof.
  intros Hm Hs (H1&H2&H3&H4) Hin. pose proof (proj1 (Forall_forall _ _) (all_near m Hm) _ Hin) as (n&Hn&Hid&Hnear). cbn in Hid, Hnear.
  assert (n = s) as ->.
  { pose proof (lay_ids _ L) as Hnd. apply elem_of_list_lookup in Hs as [i Hi], Hn as [j Hj]. rewrite NoDup_alt in Hnd.
    assert (i = j) as ->; [|congruence]. apply (Hnd i j (sn_id s)); rewrite list_lookup_fmap; [by rewrite Hi|rewrite Hj; cbn; by rewrite Hid]. }
  destruct Hnear as [?|[?|[?|?]]]; done.
Qed.
End only.

(** ** The annotation of a statement *)
(** The nodes of different files are different. *)
Definition distinct_files (files : list source_file) : Prop :=
  forall pre f mid g post n n', files = pre ++ f :: mid ++ g :: post -> n ∈ sf_nodes f -> n' ∈ sf_nodes g -> sn_id n <> sn_id n'.
Lemma texts_other f m id : layout f -> newCommentMap f = Some m -> (forall n, n ∈ sf_nodes f -> sn_id n <> id) -> texts_of m id = [].
Proof.
  intros L Hm Hid. unfold texts_of. assert (filter (fun p => p.1 = id) m = []) as ->; [|done].
  pose proof (all_near f L m Hm) as H. clear Hm. induction H as [|e m (n&Hn&He&_) _ IH]; [done|].
  rewrite filter_cons_False; [done|]. rewrite <-He. by apply Hid.
Qed.
Lemma files_texts files id : (forall f, f ∈ files -> layout f) -> distinct_files files ->
  exists ts, createCommentMap files id = Some ts /\
    (forall f m, f ∈ files -> newCommentMap f = Some m -> (exists n, n ∈ sf_nodes f /\ sn_id n = id) -> ts = texts_of m id) /\
    ((forall f n, f ∈ files -> n ∈ sf_nodes f -> sn_id n <> id) -> ts = []).
Proof.
  induction files as [|f files IH]; intros HL Hd.
  { exists []. split_and!; [done| |done]. by intros f m ?%elem_of_nil. }
  destruct IH as (ts&Ets&H1&H2); [intros; apply HL; by right|intros pre f' mid g post n n' ->; by apply (Hd (f :: pre) f' mid g post)|].
  assert (layout f) as L by (apply HL; by left). destruct (C43_once f L) as (m&Hm&_). cbn [createCommentMap]. rewrite Hm, Ets. eexists. split; [done|].
  assert (forall n, n ∈ sf_nodes f -> forall g n', g ∈ files -> n' ∈ sf_nodes g -> sn_id n <> sn_id n') as Hdf.
  { intros n Hn g n' (l1&l2&->)%elem_of_list_split Hn'. by apply (Hd [] f l1 g l2). }
  split.
  - intros g m' [->|Hg]%elem_of_cons Hm' (n&Hn&Hid).
    + rewrite Hm in Hm'. injection Hm' as <-. rewrite H2; [done|]. intros g n' Hg Hn'. rewrite <-Hid. intros E. by eapply Hdf.
    + rewrite <-(H1 g m' Hg Hm') by eauto. destruct ts; [|done]. eapply texts_other; [done|done|]. intros n' Hn'. rewrite <-Hid. by eapply Hdf.
  - intros H. rewrite H2; [|intros; eapply H; [by right|done]]. eapply texts_other; [done|done|]. intros n Hn. eapply H; [by left|done].
Qed.

Lemma same_id f s s' : layout f -> s ∈ sf_nodes f -> s' ∈ sf_nodes f -> sn_id s = sn_id s' -> s = s'.
Proof.
  intros L Hs Hg Hid. pose proof (lay_ids _ L) as Hnd. apply elem_of_list_lookup in Hs as [i Hi], Hg as [j Hj]. rewrite NoDup_alt in Hnd.
  assert (i = j) as ->; [|congruence]. apply (Hnd i j (sn_id s)); rewrite list_lookup_fmap; [by rewrite Hi|rewrite Hj; cbn; by rewrite Hid].
Qed.
Lemma stands_belongs f m c s : layout f -> newCommentMap f = Some m -> c ∈ sf_comments f -> stands_at f c s -> belongs m c s.
Proof. intros L Hm Hc [?|[? ?]]; [by apply (C43_above f)|by apply (C43_behind f)]. Qed.
(** A comment that stands elsewhere, or at another node, is not one of the statement. *)
Theorem C43_not_at f m c s : layout f -> newCommentMap f = Some m -> c ∈ sf_comments f -> s ∈ sf_nodes f -> not_at f c s -> (sn_id s, c) ∉ m.
Proof.
  intros L Hm Hc Hs [He|(s'&Hs'&Hne&Hat)]; [by apply (C43_elsewhere f L)|]. intros Hin. apply Hne.
  apply (same_id f); [done..|]. symmetry. by apply (stands_belongs f m c s' L Hm Hc Hat).
Qed.

(** The comment directly above a return statement, or behind it, is what counts as its annotation, if the other comments are elsewhere. *)
Theorem C43_annotation files f c s : (forall f, f ∈ files -> layout f) -> distinct_files files -> f ∈ files -> s ∈ sf_nodes f -> c ∈ sf_comments f ->
  stands_at f c s -> (forall c', c' ∈ sf_comments f -> c' <> c -> not_at f c' s) ->
  createCommentMap files (sn_id s) = Some [comment_text (cg_comments c)].
Proof.
  intros HL Hd Hf Hs Hc Hat Hother. pose proof (HL f Hf) as L. destruct (C43_once f L) as (m&Hm&E).
  destruct (files_texts files (sn_id s) HL Hd) as (ts&->&H&_). rewrite (H f m Hf Hm ltac:(eauto)). f_equal.
  assert (belongs m c s) as Hb by (by apply (stands_belongs f)).
  assert (forall c', c' ∈ sf_comments f -> c' <> c -> (sn_id s, c') ∉ m) as Ho.
  { intros c' ? ?. apply (C43_not_at f); auto. }
  pose proof (proj2 (Hb (sn_id s)) eq_refl) as Hin. pose proof (comments_nodup f L) as Hnd. rewrite <-E in Hnd. rewrite <-E in Ho.
  clear -Hin Ho Hnd. unfold texts_of. assert (filter (fun p => p.1 = sn_id s) m = [(sn_id s, c)]) as ->; [|done].
  induction m as [|[id c'] m IH]; [by apply elem_of_nil in Hin|]. cbn [fmap list_fmap] in *. apply NoDup_cons in Hnd as [Hn Hnd].
  apply elem_of_cons in Hin as [[= <- <-]|Hin].
  - rewrite filter_cons_True by done. f_equal. assert (forall e, e ∈ m -> e.1 <> sn_id s) as Hm.
    { intros [i c'] He Hi. cbn in Hi. subst i. assert (c' ∈ m.*2) as Hc' by (apply elem_of_list_fmap; by exists (sn_id s, c')).
      apply (Ho c'); [by right| |by right]. intros ->. done. }
    clear -Hm. induction m as [|e m IH]; [done|]. rewrite filter_cons_False by (apply Hm; by left). apply IH. intros e' He. apply Hm. by right.
  - assert (c' <> c) as Hne. { intros ->. apply Hn, elem_of_list_fmap. by exists (sn_id s, c). }
    rewrite filter_cons_False.
    + apply IH; try done. intros c'' Hc'' Hne'' Hin''. apply (Ho c''); [by right|done|by right].
    + cbn. intros ->. apply (Ho c'); [by left|done|by left].
Qed.

(** The last statement of a clause (`case x: return err // Error Codes ...`): both end at the same place, and the comment belongs to the clause.  So the
    annotation behind such a statement is ignored. *)
Theorem C43_clause f m c s g : layout f -> newCommentMap f = Some m -> c ∈ sf_comments f ->
  behind f c g -> outermost f c g -> s ∈ sf_nodes f -> s <> g -> (sn_id s, c) ∉ m.
Proof.
  intros L Hm Hc Hb Ho Hs Hne. apply (C43_not_at f); try done. right. destruct Hb as (Hg&Hb). exists g. split_and!; [done|done|]. right. done.
Qed.

Print Assumptions C43_once.
Print Assumptions C43_above.
Print Assumptions C43_behind.
Print Assumptions C43_elsewhere.
Print Assumptions C43_not_at.
Print Assumptions C43_annotation.
Print Assumptions C43_clause.
