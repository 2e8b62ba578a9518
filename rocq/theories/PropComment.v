(** * C42: comment style does not matter. *)
From Coq Require Import Ascii String.
From stdpp Require Import base list gmap.
From Verif Require Import GoString ErrorCode DocParser SpecSpace SpecCodes SpecDoc SpecDocFormat
  GoStringProofs ErrorCodeProofs DocParserProofs DocFormatProofs CommentText SpecComment PropDoc.
Local Open Scope N_scope.

(** ** Trailing white space *)
Lemma is_whitespace_true b : is_whitespace b = true <-> b = 32 \/ b = 9 \/ b = 10 \/ b = 13.
Proof. unfold is_whitespace. rewrite !orb_true_iff, !N.eqb_eq. tauto. Qed.
Lemma strip_left_spec s : exists w, s = w ++ strip_left s /\ Forall (fun b => is_whitespace b = true) w /\
  (forall b t, strip_left s = b :: t -> is_whitespace b = false).
Proof.
  induction s as [|b s (w & E & Hw & Ht)]; cbn [strip_left].
  - exists []. split_and!; [done|constructor|done].
  - destruct (is_whitespace b) eqn:Eb.
    + exists (b :: w). split_and!; [cbn; by rewrite <- E|by constructor|done].
    + exists []. split_and!; [done|constructor|]. by intros ? ? [= <- <-].
Qed.
Lemma whitespace_white w : Forall (fun b => is_whitespace b = true) w -> white w.
Proof.
  induction 1 as [|b w Hb _ IH]; [apply white_nil|]. change (b :: w) with ([b] ++ w). apply white_cons; [|done].
  apply is_whitespace_true in Hb. unfold space_encodings. rewrite !elem_of_cons. naive_solver.
Qed.
Lemma strip_trailing_spec s : exists w, s = strip_trailing s ++ w /\ Forall (fun b => is_whitespace b = true) w.
Proof.
  destruct (strip_left_spec (reverse s)) as (w & E & Hw & _). exists (reverse w). split.
  - unfold strip_trailing. rewrite <- reverse_app, <- E. by rewrite reverse_involutive.
  - by apply Forall_reverse.
Qed.
Lemma trim_strip s : trim_space (strip_trailing s) = trim_space s.
Proof.
  destruct (strip_trailing_spec s) as (w & E & Hw). rewrite E at 2. rewrite trim_space_white_r; [done|by apply whitespace_white].
Qed.
Lemma strip_trailing_nil s : one_line s -> strip_trailing s = [] <-> empty_looking s.
Proof.
  intros Hs. split.
  - intros H. destruct (strip_trailing_spec s) as (w & E & Hw). rewrite H in E. cbn in E. subst w.
    unfold empty_looking. apply Forall_forall. intros b Hb. pose proof (proj1 (Forall_forall _ _) Hw b Hb) as Hx. cbn in Hx.
    apply is_whitespace_true in Hx. assert (b <> 10) by (intros ->; by apply Hs). cbn. lia.
  - intros H. unfold strip_trailing. assert (strip_left (reverse s) = []) as ->; [|done].
    assert (Forall (fun b => is_whitespace b = true) (reverse s)) as Hr.
    { apply Forall_reverse. eapply Forall_impl; [exact H|]. intros b Hb. apply is_whitespace_true. cbn in Hb. lia. }
    clear -Hr. induction Hr as [|b l Hb _ IH]; [done|]. cbn [strip_left]. by rewrite Hb.
Qed.
Lemma strip_one_line s : one_line s -> one_line (strip_trailing s).
Proof.
  intros Hs Hin. destruct (strip_trailing_spec s) as (w & E & _). apply Hs. rewrite E. apply elem_of_app. by left.
Qed.
Lemma strip_space s : one_line s -> strip_trailing (32 :: s) = [] <-> strip_trailing s = [].
Proof.
  intros Hs. rewrite !strip_trailing_nil; [|done|]. 
  - unfold empty_looking. rewrite Forall_cons. tauto.
  - unfold one_line in *. rewrite elem_of_cons. intros [?|?]; [lia|done].
Qed.

(** ** Directives *)
Lemma lower_digit_true b : lower_digit b = true <-> word_char b.
Proof. unfold lower_digit, word_char. rewrite orb_true_iff, !between_true. lia. Qed.
Lemma forallb_word l : forallb lower_digit l = true <-> Forall word_char l.
Proof.
  rewrite forallb_forall, Forall_forall. setoid_rewrite elem_of_list_In. split; intros H x Hx; apply lower_digit_true; auto.
Qed.
Lemma is_directive_spec t : is_directive t = true <-> directive t.
Proof.
  unfold is_directive, directive. destruct (has_prefix t (str "line ")) eqn:El.
  { apply starts_prefix in El. split; [by left|done]. }
  apply starts_prefix_false in El. change (str ":") with [58].
  assert (forall w r, t = w ++ [58] ++ r -> Forall word_char w -> index_of t [58] = Some (length w)) as Hidx.
  { intros w r Et Hw. apply index_of_spec. exists w, r. split_and!; [done|done|]. intros a' b' E'.
    destruct (decide (length w <= length a')%nat) as [|Hlt]; [done|]. exfalso.
    assert (t !! length a' = Some 58) as H1 by (rewrite E'; apply list_lookup_middle; done).
    assert (w !! length a' = Some 58) as H2 by (rewrite <- H1, Et; symmetry; apply lookup_app_l; lia). apply elem_of_list_lookup_2 in H2.
    pose proof (proj1 (Forall_forall _ _) Hw _ H2) as Hx. unfold word_char in Hx. lia. }
  split.
  - intros H. right. destruct (index_of t [58]) as [[|i]|] eqn:Ei; [done| |done].
    apply index_of_spec in Ei as (a & b & -> & Ha & _).
    destruct (Nat.leb_spec (length (a ++ [58] ++ b)) (S i + 1)%nat) as [|El2]; [done|].
    rewrite !app_length in El2. cbn in El2. destruct b as [|x b]; [cbn in El2; lia|].
    apply andb_prop in H as [Hw Hx]. rewrite <- Ha in Hw. rewrite take_app in Hw. apply forallb_word in Hw.
    replace (S i + 1)%nat with (length (a ++ [58])) in Hx by (rewrite app_length; cbn; lia).
    rewrite app_assoc, drop_app in Hx. cbn [take] in Hx. apply forallb_word in Hx. rewrite Forall_singleton in Hx.
    exists a, x, b. split_and!; [done|by intros ->|done|done].
  - intros [H|(w & x & rest & Et & Hne & Hw & Hx)]; [done|].
    rewrite (Hidx w (x :: rest) Et Hw). destruct w as [|c w]; [done|]. cbn [length].
    assert (length t <=? S (length w) + 1 = false)%nat as ->.
    { apply Nat.leb_gt. rewrite Et, !app_length. cbn. lia. }
    rewrite Et. replace (S (length w)) with (length (c :: w)) by done. rewrite take_app.
    replace (length (c :: w) + 1)%nat with (length ((c :: w) ++ [58])) by (rewrite app_length; cbn; lia).
    rewrite app_assoc, drop_app. cbn [take]. apply andb_true_intro. split; apply forallb_word; [done|by apply Forall_singleton].
Qed.
Lemma directive_head t : directive t -> exists b t', t = b :: t' /\ b <> 32.
Proof.
  intros [[t' ->]|(w & x & rest & -> & Hne & Hw & _)]; [by exists 108, (str "ine " ++ t')|].
  destruct w as [|b w]; [done|]. apply Forall_cons in Hw as [Hb _]. exists b, (w ++ str ":" ++ x :: rest). split; [done|].
  unfold word_char in Hb. lia.
Qed.

(** ** The lines of one comment *)
(** The same line up to white space. *)
Definition alike (l l' : gostring) : Prop := one_line l' /\ trim_space l' = trim_space l /\ (l' = [] <-> empty_looking l).
Lemma alike_strip l : one_line l -> alike l (strip_trailing l).
Proof. intros H. split_and!; [by apply strip_one_line|apply trim_strip|by apply strip_trailing_nil]. Qed.
Lemma lines_of_block (x : gostring) : lines_of_comment (str "/*" ++ x ++ str "*/") = map strip_trailing (split_on 10 x).
Proof.
  change (str "/*" ++ x ++ str "*/") with (47 :: 42 :: x ++ str "*/"). unfold lines_of_comment. cbn iota. f_equal. change newline with 10. f_equal.
  assert (length (x ++ str "*/") - 2 = length x)%nat as E by (rewrite app_length; change (length (str "*/")) with 2%nat; lia).
  etransitivity; [|apply (take_app x (str "*/"))]. f_equal. exact E.
Qed.
Lemma lines_of_comment_spec c ls : comment_says c ls -> Forall one_line ls /\ Forall2 alike ls (lines_of_comment c).
Proof.
  intros [t Ht Hd|t Hd|ls' Hne Hls].
  - unfold lines_of_comment. split; [by constructor|]. change (str "//" ++ t) with (47 :: 47 :: t). cbn iota.
    destruct (decide (head t = Some 32)) as [E|E].
    + destruct t as [|b t]; [done|]. injection E as ->. 
      assert (one_line t) as Ht' by (intros H; apply Ht; by right).
      rewrite split_on_nosep by done. cbn [map]. constructor; [|constructor]. split_and!.
      * by apply strip_one_line.
      * rewrite trim_strip. symmetry. change (32 :: t) with ([32] ++ t). apply trim_space_white_l.
        apply whitespace_white. repeat constructor.
      * rewrite strip_trailing_nil by done. unfold empty_looking. rewrite Forall_cons. tauto.
    + assert (match t with [] => split_on newline t | 32 :: t' => split_on newline t' | _ => if is_directive t then [] else split_on newline t end = [t]) as ->.
      { assert (is_directive t = false) as Hf.
        { destruct (is_directive t) eqn:Ed; [|done]. by apply is_directive_spec in Ed. }
        rewrite Hf, (split_on_nosep newline t) by done. destruct t as [|b t]; [done|].
        assert (b <> 32) by (intros ->; by apply E). repeat case_match; congruence || done. }
      cbn [map]. constructor; [by apply alike_strip|constructor].
  - unfold lines_of_comment. split; [constructor|]. change (str "//" ++ t) with (47 :: 47 :: t). cbn iota.
    destruct (directive_head t Hd) as (b & t' & -> & Hb). apply is_directive_spec in Hd. rewrite Hd.
    assert (match b with 32 => split_on newline t' | _ => [] end = ([] : list gostring)) as ->; [|constructor].
    repeat case_match; congruence || done.
  - split; [done|]. rewrite lines_of_block, split_on_join by done.
    clear Hne. induction Hls as [|l ls2 Hl _ IH]; [constructor|]. cbn [map]. constructor; [by apply alike_strip|done].
Qed.
Lemma lines_of_group g parts : Forall2 comment_says g parts ->
  Forall2 alike (concat parts) (concat (map lines_of_comment g)).
Proof.
  induction 1 as [|c ls g parts Hc _ IH]; [constructor|]. cbn [map concat]. apply Forall2_app; [|done].
  by apply lines_of_comment_spec.
Qed.

(** ** Keeping lines *)
Definition at_blank (last : option gostring) : bool := match last with Some l => bool_decide (l = []) | None => true end.
Lemma keep_tidied raw lines : Forall2 alike raw lines -> forall last ls,
  tidied (at_blank last) raw ls <-> map trim_space (keep_lines last lines) = ls.
Proof.
  induction 1 as [|l l' raw lines (H1 & H2 & H3) Hall IH]; intros last ls.
  - cbn. split; [by inversion 1|]. intros <-. constructor.
  - cbn [keep_lines]. destruct (decide (l' = [])) as [-> |Hne].
    + assert (empty_looking l) as He by (by apply H3). rewrite (bool_decide_eq_false_2 (([] : gostring) <> [])) by (by intros H; apply H).
      cbn [orb].
      assert (match last with Some l0 => bool_decide (l0 <> []) | None => false end = negb (at_blank last)) as ->.
      { destruct last as [l0|]; [|done]. cbn. destruct (decide (l0 = [])) as [-> |H0]; [done|].
        rewrite bool_decide_eq_true_2, bool_decide_eq_false_2 by done. done. }
      destruct (at_blank last) eqn:Eb; cbn [negb].
      * rewrite <- IH, Eb. split; [inversion 1; [by subst|done]|by constructor].
      * cbn [map]. change (trim_space []) with ([] : gostring). split.
        -- inversion 1 as [|? ? ? ? Hn| |]; subst; [done|]. f_equal. apply (IH (Some [])). done.
        -- intros <-. constructor; [done|]. apply (IH (Some [])). done.
    + assert (~ empty_looking l) as He by (intros Hx; by apply Hne, H3). rewrite bool_decide_eq_true_2 by done. cbn [orb map].
      assert (at_blank (Some l') = false) as Eb by (cbn; by rewrite bool_decide_eq_false_2).
      rewrite H2. split.
      * inversion 1; subst; try done. f_equal. apply IH. by rewrite Eb.
      * intros <-. constructor; [done|]. rewrite <- Eb. by apply IH.
Qed.
Lemma keep_one_line lines last : Forall one_line lines -> Forall one_line (keep_lines last lines).
Proof. intros H. revert last. induction H as [|l ls Hl _ IH]; intros last; cbn [keep_lines]; [constructor|]. case_match; [constructor; [done|apply IH]|apply IH]. Qed.

(** The doc lines of the text are those lines, up to an empty line at the end. *)
Lemma comment_text_lines g ls : doc_says g ls -> exists tail, (tail = [] \/ tail = [[]]) /\ doc_lines (comment_text g) = ls ++ tail.
Proof.
  intros (parts & Hg & Ht). apply lines_of_group in Hg. pose proof (proj1 (keep_tidied _ _ Hg None ls) Ht) as Hls.
  assert (Forall one_line (concat (map lines_of_comment g))) as Hone.
  { clear -Hg. induction Hg as [|l l' ? ? (H & _) _ IH]; [constructor|by constructor]. }
  apply (keep_one_line _ None) in Hone. unfold comment_text, doc_lines. cbv zeta.
  set (kept := keep_lines None (concat (map lines_of_comment g))) in *. clearbody kept. rewrite <- Hls. change newline with 10.
  destruct kept as [|k ks] using rev_ind.
  - exists [[]]. split; [by right|done].
  - rewrite last_snoc. destruct (decide (k = [])) as [-> |Hk].
    + exists []. split; [by left|]. rewrite !app_nil_r, split_on_join; [done|intros E; by apply app_eq_nil in E as [_ ?]|done].
    + exists [[]]. split; [by right|]. rewrite split_on_join; [by rewrite map_app|intros E; by apply app_eq_nil in E as [_ ?]|].
      apply Forall_app. split; [done|]. constructor; [|constructor]. unfold one_line. by apply not_elem_of_nil.
Qed.

(** An empty line at the end does not count. *)
Lemma final_blank ls tail : tail = [] \/ tail = [[]] ->
  match run_lines sm_start (ls ++ tail) with inl s => inl (sm_result s) | inr e => inr e end =
  match run_lines sm_start ls with inl s => inl (sm_result s) | inr e => inr e end.
Proof.
  intros [-> | ->]; [by rewrite app_nil_r|]. rewrite run_lines_app. destruct (run_lines sm_start ls) as [sm|e]; [|done].
  cbn [run_lines]. destruct sm as [seen [] none param]; cbn; try done.
Qed.
Lemma lines_declare ls r : match run_lines sm_start ls with inl s => inl (sm_result s) | inr e => inr e end = inl r <-> doc_declares ls r.
Proof.
  split.
  - intros Hrun. destruct (doc_classified ls) as [[r' Hd]|[e He]].
    + destruct (declares_run _ _ Hd) as (sm&Hr&Hres). rewrite Hr in Hrun. injection Hrun as <-. by rewrite Hres.
    + apply malformed_run in He. by rewrite He in Hrun.
  - intros Hd. destruct (declares_run _ _ Hd) as (sm&Hr&Hres). by rewrite Hr, Hres.
Qed.
Lemma lines_malformed ls e : match run_lines sm_start ls with inl s => inl (sm_result s) | inr e => inr e end = inr e <-> doc_malformed ls e.
Proof.
  split.
  - intros Hrun. destruct (doc_classified ls) as [[r' Hd]|[e' He]].
    + destruct (declares_run _ _ Hd) as (sm&Hr&Hres). by rewrite Hr in Hrun.
    + pose proof He as He'. apply malformed_run in He. rewrite He in Hrun. by injection Hrun as <-.
  - intros He. apply malformed_run in He. by rewrite He.
Qed.

(** ** C42 *)
(** A doc comment declares what its lines declare, and is malformed exactly if they are. *)
Theorem C42_declares g ls : doc_says g ls -> forall r, findErrorDocs (Some (comment_text g)) = inl r <-> doc_declares ls r.
Proof.
  intros H r. destruct (comment_text_lines g ls H) as (tail & Ht & E). cbn [findErrorDocs]. rewrite run_docs_sm, E, final_blank by done.
  apply lines_declare.
Qed.
Theorem C42_malformed g ls : doc_says g ls -> forall e, findErrorDocs (Some (comment_text g)) = inr e <-> doc_malformed ls e.
Proof.
  intros H e. destruct (comment_text_lines g ls H) as (tail & Ht & E). cbn [findErrorDocs]. rewrite run_docs_sm, E, final_blank by done.
  apply lines_malformed.
Qed.
(** The style of the comments does not matter. *)
Theorem C42_style g g' ls : doc_says g ls -> doc_says g' ls ->
  findErrorDocs (Some (comment_text g)) = findErrorDocs (Some (comment_text g')).
Proof.
  intros H H'. destruct (findErrorDocs (Some (comment_text g))) as [r|e] eqn:E.
  - symmetry. apply (C42_declares g' ls H'). by apply (C42_declares g ls H).
  - symmetry. apply (C42_malformed g' ls H'). by apply (C42_malformed g ls H).
Qed.

(** ** Every comment group says something *)
Lemma empty_looking_dec l : {empty_looking l} + {~ empty_looking l}.
Proof. apply Forall_dec. intros b. destruct (decide (b = 32)), (decide (b = 9)), (decide (b = 13)); (left; tauto) || (right; tauto). Qed.
Lemma tidied_total raw b : exists ls, tidied b raw ls.
Proof.
  revert b. induction raw as [|l raw IH]; intros b; [by exists []; constructor|].
  destruct (empty_looking_dec l) as [He|He].
  - destruct (IH true) as [ls Hls]. destruct b; eexists; by constructor.
  - destruct (IH false) as [ls Hls]. eexists. by constructor.
Qed.
(** A comment as the parser yields it. *)
Definition comment (c : gostring) : Prop :=
  (exists t, one_line t /\ c = str "//" ++ t) \/ (exists x, c = str "/*" ++ x ++ str "*/").
Theorem C42_every_comment g : Forall comment g -> exists ls, doc_says g ls.
Proof.
  intros Hg. assert (exists parts, Forall2 comment_says g parts) as [parts Hp].
  { induction Hg as [|c g Hc _ [parts IH]]; [exists []; constructor|]. destruct Hc as [(t & Ht & ->)|(x & ->)].
    - destruct (is_directive t) eqn:Ed.
      + apply is_directive_spec in Ed. exists ([] :: parts). constructor; [by constructor|done].
      + assert (~ directive t) as Hd by (intros H%is_directive_spec; congruence). exists ([t] :: parts). constructor; [by constructor|done].
    - exists (split_on 10 x :: parts). constructor; [|done].
      rewrite <- (join_split 10 x) at 1. constructor; [apply split_on_nonempty|]. apply split_on_no_sep. }
  destruct (tidied_total (concat parts) true) as [ls Hls]. exists ls, parts. done.
Qed.

(** ** Directives *)
Theorem C42_directives a d b ls : directive d -> doc_says (a ++ b) ls -> doc_says (a ++ (str "//" ++ d) :: b) ls.
Proof.
  intros Hd (parts & Hp & Ht). apply Forall2_app_inv_l in Hp as (pa & pb & Ha & Hb & ->).
  exists (pa ++ [] :: pb). split; [apply Forall2_app; [done|]; constructor; [by constructor|done]|].
  rewrite concat_app in *. done.
Qed.

(** ** Line comments and block comments *)
Lemma tidied_alike raw raw' : Forall2 (fun l l' => trim_space l = trim_space l' /\ (empty_looking l <-> empty_looking l')) raw raw' ->
  forall b ls, tidied b raw ls -> tidied b raw' ls.
Proof.
  induction 1 as [|l l' raw raw' (Ht & He) _ IH]; intros b ls; [done|].
  inversion 1; subst; [rewrite Ht|..]; constructor; (by apply He) || (by rewrite <- He) || by apply IH.
Qed.
(** How a line is written as a comment: after two slashes and a space or tab. *)
Definition line_comment (c l : gostring) : Prop := c = str "// " ++ l \/ c = str "//" ++ 9 :: l.
Lemma indent_says s l c : s = 32 \/ s = 9 -> one_line l -> c = str "//" ++ s :: l -> comment_says c [s :: l].
Proof.
  intros Hs Hl ->. apply says_line.
  - unfold one_line in *. rewrite elem_of_cons. intros [?|?]; [lia|done].
  - intros Hd. destruct (directive_head _ Hd) as (b & t' & [= <- <-] & Hb).
    destruct Hd as [[t E]|(w & x & rest & E & Hne & Hw & _)]; [injection E as ->; lia|].
    destruct w as [|b w]; [done|]. injection E as -> _. apply Forall_cons in Hw as [Hw _]. unfold word_char in Hw. lia.
Qed.
Lemma indent_alike s l : s = 32 \/ s = 9 -> trim_space l = trim_space (s :: l) /\ (empty_looking l <-> empty_looking (s :: l)).
Proof.
  intros Hs. split.
  - change (s :: l) with ([s] ++ l). rewrite trim_space_white_l; [done|]. apply whitespace_white.
    constructor; [apply is_whitespace_true; lia|constructor].
  - unfold empty_looking. rewrite Forall_cons. split; [|tauto]. intros H. split; [lia|done].
Qed.
Theorem C42_line_comments g raw ls : Forall one_line raw -> Forall2 line_comment g raw -> tidied true raw ls -> doc_says g ls.
Proof.
  intros Hone Hg Ht.
  assert (exists raw', Forall2 (fun l l' => trim_space l = trim_space l' /\ (empty_looking l <-> empty_looking l')) raw raw' /\
    Forall2 comment_says g (map (fun l => [l]) raw')) as (raw' & Ha & Hs).
  { clear Ht ls. revert Hone. induction Hg as [|c l g raw Hc _ IH]; intros Hone; [exists []; by split; constructor|].
    apply Forall_cons in Hone as [Hl Hone]. destruct (IH Hone) as (raw' & Ha & Hs).
    destruct Hc as [-> | ->]; [exists ((32 :: l) :: raw')|exists ((9 :: l) :: raw')]; (split; [constructor; [|done]|cbn [map]; constructor; [|done]]).
    - apply indent_alike. by left.
    - apply (indent_says 32 l); [by left|done|done].
    - apply indent_alike. by right.
    - apply (indent_says 9 l); [by right|done|done]. }
  exists (map (fun l => [l]) raw'). split; [done|].
  assert (concat (map (fun l => [l]) raw') = raw') as ->; [|by eapply tidied_alike].
  clear. induction raw' as [|l raw' IH]; [done|]. cbn. by f_equal.
Qed.
Theorem C42_block_comment raw ls : raw <> [] -> Forall one_line raw -> tidied true raw ls -> doc_says [str "/*" ++ join [10] raw ++ str "*/"] ls.
Proof. intros Hne Hone Ht. exists [raw]. split; [constructor; [by constructor|constructor]|]. cbn. by rewrite app_nil_r. Qed.
(** The same lines, as line comments or as a block comment, declare the same. *)
Theorem C42_line_or_block g raw : raw <> [] -> Forall one_line raw -> Forall2 line_comment g raw ->
  findErrorDocs (Some (comment_text g)) = findErrorDocs (Some (comment_text [str "/*" ++ join [10] raw ++ str "*/"])).
Proof.
  intros Hne Hone Hg. destruct (tidied_total raw true) as [ls Hls]. apply (C42_style _ _ ls).
  - by eapply C42_line_comments.
  - by apply C42_block_comment.
Qed.

(** ** Writing a declaration in a comment *)
Lemma tidied_app a c b ls : tidied b (a ++ c) ls -> exists la lc b', ls = la ++ lc /\ tidied b a la /\ tidied b' c lc /\
  (a = [] -> b' = b) /\ (forall a' l, a = a' ++ [l] -> (b' = true <-> empty_looking l)).
Proof.
  revert b ls. induction a as [|l a IH]; intros b ls; cbn [app].
  { intros H. exists [], ls, b. split_and!; [done|constructor|done|done|]. intros a' l E. by destruct a'. }
  assert (forall a' l0 b0 b', l :: a = a' ++ [l0] -> (a = [] -> b' = b0) -> (b0 = true <-> empty_looking l) ->
     (forall a' l, a = a' ++ [l] -> (b' = true <-> empty_looking l)) -> (b' = true <-> empty_looking l0)) as Hlast.
  { intros a' l0 b0 b' E Hnil Hb0 Hcons. destruct a' as [|x a']; cbn in E.
    - injection E as -> ->. by rewrite Hnil.
    - injection E as -> ->. by apply (Hcons a'). }
  inversion 1 as [|? ? ? ls0 Hn Ht|? ? ls0 He Ht|? ? ls0 He Ht]; subst; apply IH in Ht as (la & lc & b' & -> & H1 & H2 & H3 & H4).
  - exists (trim_space l :: la), lc, b'. split_and!; [done|by constructor|done|done|].
    intros a' l0 E. eapply Hlast; [exact E|exact H3| |exact H4]. split; [done|by intros ?].
  - exists ([] :: la), lc, b'. split_and!; [done|by constructor|done|done|].
    intros a' l0 E. eapply Hlast; [exact E|exact H3| |exact H4]. done.
  - exists la, lc, b'. split_and!; [done|by constructor|done|done|].
    intros a' l0 E. eapply Hlast; [exact E|exact H3| |exact H4]. done.
Qed.
Lemma tidied_cons_text b l raw ls : ~ empty_looking l -> tidied b (l :: raw) ls -> exists ls', ls = trim_space l :: ls' /\ tidied false raw ls'.
Proof. intros Hn. inversion 1; subst; [eauto|done..]. Qed.
Lemma tidied_texts raw b ls : Forall (fun l => ~ empty_looking l) raw -> tidied b raw ls -> ls = map trim_space raw.
Proof.
  intros H. revert b ls. induction H as [|l raw Hl _ IH]; intros b ls; inversion 1; subst; try done. cbn. f_equal. by eapply IH.
Qed.
Lemma tidied_empties raw ls : Forall empty_looking raw -> (tidied true raw ls -> ls = []) /\ (raw <> [] -> tidied false raw ls -> ls = [[]]).
Proof.
  intros H. assert (forall ls, tidied true raw ls -> ls = []) as Ht.
  { induction H as [|l raw Hl _ IH]; intros ls'; inversion 1; subst; try done. by apply IH. }
  split; [apply Ht|]. intros Hne Hf. destruct H as [|l raw Hl Hraw]; [done|]. inversion Hf as [|? ? ? ? Hn| ? ? ls0 ? Ht0|]; subst; [done|].
  f_equal. apply Ht. by constructor.
Qed.
Lemma tidied_keeps (P : gostring -> Prop) raw b ls : P [] -> Forall (fun l => P (trim_space l)) raw -> tidied b raw ls -> Forall P ls.
Proof.
  intros H0 H Ht. induction Ht as [|b l raw ls Hn Ht IH|l raw ls He Ht IH|l raw ls He Ht IH]; [constructor|..];
    apply Forall_cons in H as [H1 H2]; [by constructor; [|apply IH]|by constructor; [|apply IH]|by apply IH].
Qed.
Lemma empty_trim l : empty_looking l -> trim_space l = [].
Proof.
  intros H. apply trim_space_white. apply whitespace_white. eapply Forall_impl; [exact H|]. intros b Hb. cbn in Hb. apply is_whitespace_true. lia.
Qed.
Lemma block_lines_nonempty ls cs ps : block_lines ls cs ps -> Forall (fun l => l <> []) ls.
Proof.
  assert (forall l o, block_line l o -> l <> []) as Hne.
  { intros l o Hl. inversion Hl as [|? x ? (rest & -> & _)|? x ? ? (rest & -> & _)]; subst; done. }
  induction 1; constructor; eauto.
Qed.

(** A declaration written in line comments is read as it was meant, with any number of empty lines after the indicator and anywhere in the
    text around the declaration. *)
Theorem C42_round_trip pre w w' blanks items post g :
  Forall (fun l => one_line l /\ plain_before (trim_space l)) pre ->
  blank_text w -> blank_text w' -> blanks <> [] -> Forall empty_looking blanks ->
  items <> [] -> Forall item_ok items -> (length (concat (map item_params items)) <= 1)%nat ->
  (post = [] \/ exists b post', post = b :: post' /\ empty_looking b /\ Forall (fun l => one_line l /\ plain_after (trim_space l)) post') ->
  Forall2 line_comment g (pre ++ (w ++ str "Errors:" ++ w') :: blanks ++ map write_item items ++ post) ->
  findErrorDocs (Some (comment_text g)) =
    inl (DocResult (list_to_set (concat (map item_codes items))) (default [] (head (concat (map item_params items)))) false).
Proof.
  intros Hpre [Hw Hw10] [Hw' Hw10'] Hbne Hb Hine Hitems Hlen Hpost Hg.
  assert (forall l, empty_looking l -> one_line l) as Hempty.
  { intros l Hl Hin. pose proof (proj1 (Forall_forall _ _) Hl _ Hin) as Hx. cbn in Hx. lia. }
  assert (Forall one_line (pre ++ (w ++ str "Errors:" ++ w') :: blanks ++ map write_item items ++ post)) as Hone.
  { apply Forall_app. split; [eapply Forall_impl; [exact Hpre|]; by intros ? [? _]|].
    constructor; [repeat apply not10_app; try done; by (cbn; set_solver)|].
    apply Forall_app. split; [eapply Forall_impl; [exact Hb|done]|]. apply Forall_app. split.
    - clear -Hitems. induction Hitems; [constructor|]. constructor; [by apply write_item_one_line|done].
    - destruct Hpost as [->|(b&post'&->&Hb1&Hp)]; [constructor|]. constructor; [by apply Hempty|].
      eapply Forall_impl; [exact Hp|]. by intros ? [? _]. }
  set (raw := pre ++ _) in *. destruct (tidied_total raw true) as [ls Hls].
  pose proof (C42_line_comments g raw ls Hone Hg Hls) as Hsays. apply (C42_declares g ls Hsays).
  unfold raw in Hls. apply tidied_app in Hls as (l1 & l2 & b2 & -> & H1 & H2 & _ & _).
  assert (Forall plain_before l1) as Hp1.
  { eapply (tidied_keeps plain_before pre true l1); [split; [done|intros [t Ht]; discriminate]| |done].
    eapply Forall_impl; [exact Hpre|]. by intros ? [_ ?]. }
  pose proof (trim_errors w w' Hw Hw') as Et.
  assert (~ empty_looking (w ++ str "Errors:" ++ w')) as Hne.
  { intros H%empty_trim. rewrite Et in H. discriminate H. }
  apply tidied_cons_text in H2 as (l3 & -> & H3); [|done]. rewrite Et.
  apply tidied_app in H3 as (l4 & l5 & b5 & -> & H4 & H5 & _ & Hb5).
  apply (proj2 (tidied_empties blanks l4 Hb)) in H4; [|done]. subst l4.
  apply tidied_app in H5 as (l6 & l7 & b7 & -> & H6 & H7 & _ & Hb7).
  pose proof (block_lines_items items Hitems) as Hblk.
  assert (Forall (fun l => ~ empty_looking l) (map write_item items)) as Hitne.
  { pose proof (block_lines_nonempty _ _ _ Hblk) as Hbn. apply Forall_forall. intros l Hl Hel. apply empty_trim in Hel.
    pose proof (proj1 (Forall_forall _ _) Hbn (trim_space l)) as Hx. cbn in Hx. apply Hx; [|done]. by apply elem_of_list_fmap_1. }
  apply tidied_texts in H6; [|done]. subst l6.
  cbn [app]. apply declares_block with (codes := concat (map item_codes items)) (params := concat (map item_params items)); try done.
  assert (b7 = false) as ->.
  { destruct (exists_last Hine) as (its & it & ->). rewrite map_app in Hb7, Hitne. destruct b7; [|done].
    apply Forall_app in Hitne as [_ Hx]. apply Forall_cons in Hx as [Hx _]. destruct Hx. by apply (Hb7 (map write_item its) (write_item it)). }
  destruct Hpost as [->|(b & post' & -> & Hb1 & Hp)]; [inversion H7; by left|].
  inversion H7 as [|? ? ? ? Hx| ? ? l8 _ H8|]; subst; [done|]. right. exists l8. split; [done|].
  eapply (tidied_keeps plain_after post' true l8); [intros [t Ht]; discriminate| |done].
  eapply Forall_impl; [exact Hp|]. by intros ? [_ ?].
Qed.

Local Instance doc_result_eq_dec : EqDecision doc_result.
Proof. solve_decision. Defined.
Local Instance doc_error_eq_dec : EqDecision doc_error.
Proof. solve_decision. Defined.
(** A doc of two styles with a directive and several empty lines. *)
Definition example_group : list gostring :=
  [str "// Foo does things."; str "//go:noinline"; str "//"; str "//Errors:"; str "//  "; str "//"; str "// - not-found -- gone";
   str "/*  - x --" ++ [10] ++ [9] ++ [10; 10] ++ str "Bye. */"].
Theorem C42_example :
  findErrorDocs (Some (comment_text example_group)) = inl (DocResult {[ str "not-found"; str "x" ]} [] false) /\
  Forall comment example_group /\
  comment_text example_group =
    join [10] [str "Foo does things."; []; str "Errors:"; []; str "- not-found -- gone"; str "  - x --"; []; str "Bye."; []].
Proof.
  split_and!.
  - apply (bool_decide_unpack _). vm_compute. exact Logic.I.
  - assert (forall t, bool_decide (10 ∉ t) = true -> comment (str "//" ++ t)) as Hc.
    { intros t Ht%bool_decide_eq_true. left. eauto. }
    unfold example_group. repeat (apply Forall_cons; split; [first
      [ exact (Hc (str " Foo does things.") eq_refl) | exact (Hc (str "go:noinline") eq_refl) | exact (Hc [] eq_refl)
      | exact (Hc (str "Errors:") eq_refl) | exact (Hc (str "  ") eq_refl) | exact (Hc (str " - not-found -- gone") eq_refl)
      | right; exists (str "  - x --" ++ [10] ++ [9] ++ [10; 10] ++ str "Bye. "); reflexivity ]|]).
    constructor.
  - vm_compute. reflexivity.
Qed.
(** A declaration with two empty lines after the indicator meets the hypotheses of [C42_round_trip]. *)
Theorem C42_round_trip_example :
  findErrorDocs (Some (comment_text [str "// Foo."; str "// Errors:"; str "//  "; str "// "; str "//" ++ [9] ++ str "- x --"; str "// "; str "// "; str "// Bye."])) =
    inl (DocResult {[ str "x" ]} [] false).
Proof.
  assert (blank_text []) as Hb0 by exact blank_nil.
  assert (forall s, bool_decide (10 ∉ s) = true -> one_line s) as H1.
  { intros s Hs. by apply bool_decide_eq_true in Hs. }
  rewrite (C42_round_trip [str "Foo."] [] [] [str " "; []] [ItemCode [] [] (str "x") [] []] [[]; []; str "Bye."]).
  - f_equal. f_equal. apply (bool_decide_unpack _). vm_compute. exact Logic.I.
  - constructor; [|constructor]. split; [by apply H1|]. split; [intros H; vm_compute in H; discriminate|].
    intros [t Ht]; vm_compute in Ht; discriminate.
  - done.
  - done.
  - done.
  - constructor; [|constructor; [|constructor]]; repeat constructor.
  - done.
  - constructor; [|constructor]. cbn [item_ok]. split_and!; first [exact Hb0 | by apply H1 | by apply isErrorCodeValid_correct].
  - cbn. lia.
  - right. exists [], [[]; str "Bye."]. split_and!; [done|constructor|].
    repeat constructor; try (by apply H1); intros [t Ht]; vm_compute in Ht; discriminate.
  - constructor; [by left|]. constructor; [by left|]. constructor; [by left|]. constructor; [by left|].
    constructor; [by right|]. constructor; [by left|]. constructor; [by left|]. constructor; [by left|]. constructor.
Qed.
