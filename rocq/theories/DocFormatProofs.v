(** * Round trip, irrelevance and order theorems about docs. *)
From Coq Require Import Ascii String ZifyBool ZifyN ZifyNat.
From stdpp Require Import base list gmap.
From Verif Require Import GoString ErrorCode SpecCodes SpecDoc DocParser GoStringProofs ErrorCodeProofs
  DocParserProofs SpecDocFormat.
Local Open Scope N_scope.

(** No space directly followed by a dash. *)
Fixpoint no_adj (s : gostring) : Prop :=
  match s with
  | [] => True
  | a :: s' => (a = 32 -> head s' <> Some 45) /\ no_adj s'
  end.

Lemma no_adj_app a b : no_adj a -> no_adj b -> ~ (last a = Some 32 /\ head b = Some 45) -> no_adj (a ++ b).
Proof.
  induction a as [|x a IH]; intros Ha Hb Hj; [done|]. cbn in Ha. destruct Ha as [Hx Ha].
  cbn. split.
  - intros ->. destruct a as [|y a]; cbn; [|by apply Hx]. intros Hh. apply Hj. done.
  - apply IH; [done|done|]. intros [Hl Hh]. apply Hj. split; [|done].
    destruct a as [|y a]; [done|]. by rewrite last_cons_cons.
Qed.
Lemma no_adj_no32 s : 32 ∉ s -> no_adj s.
Proof.
  induction s as [|x s IH]; intros Hn; [done|]. cbn. split; [intros ->; destruct Hn; by left|].
  apply IH. intros H; apply Hn; by right.
Qed.
Lemma no_adj_no45 s : 45 ∉ s -> no_adj s.
Proof.
  induction s as [|x s IH]; intros Hn; [done|]. cbn. split.
  - intros _ Hh. apply Hn. right. by apply head_Some_elem_of.
  - apply IH. intros H; apply Hn; by right.
Qed.
Lemma no_adj_lookup s i : no_adj s -> s !! i = Some 32 -> s !! S i <> Some 45.
Proof.
  revert i. induction s as [|x s IH]; intros i Hs Hi; [done|]. cbn in Hs. destruct Hs as [Hx Hs].
  destruct i as [|i]; cbn in *.
  - injection Hi as ->. specialize (Hx eq_refl). destruct s; cbn in *; [done|congruence].
  - by apply IH.
Qed.

Lemma item_text_intro x rest : no_adj (32 :: x ++ [32]) -> item_text (str "- " ++ x ++ str " --" ++ rest) x.
Proof.
  intros Hna. exists rest. split; [done|]. intros a b Heq.
  destruct (decide (2 + length x <= length a)%nat) as [|Hlt]; [done|]. exfalso.
  assert (Hk : forall k c, str " --" !! k = Some c ->
            (str "- " ++ x ++ str " --" ++ rest) !! (length a + k)%nat = Some c).
  { intros k c Hc. rewrite Heq. rewrite lookup_app_r by lia.
    replace (length a + k - length a)%nat with k by lia.
    rewrite lookup_app_l; [done|]. by eapply lookup_lt_Some. }
  assert (Hshape : str "- " ++ x ++ str " --" ++ rest = 45 :: (32 :: x ++ [32]) ++ (45 :: 45 :: rest)).
  { cbn. rewrite <-app_assoc. done. }
  pose proof (Hk 0%nat 32 eq_refl) as H0. pose proof (Hk 1%nat 45 eq_refl) as H1.
  rewrite Hshape in H0, H1. destruct (length a) as [|n] eqn:Hla; [done|].
  replace (S n + 0)%nat with (S n) in H0 by lia. replace (S n + 1)%nat with (S (S n)) in H1 by lia.
  cbn [lookup list_lookup] in H0, H1.
  change (((32 :: x ++ [32]) ++ 45 :: 45 :: rest) !! n = Some 32) in H0.
  change (((32 :: x ++ [32]) ++ 45 :: 45 :: rest) !! S n = Some 45) in H1.
  assert (length (32%N :: x ++ [32%N]) = 2 + length x)%nat as Hlen by (cbn; rewrite app_length; cbn; lia).
  rewrite lookup_app_l in H0 by lia. rewrite lookup_app_l in H1 by lia.
  by apply (no_adj_lookup _ _ Hna H0).
Qed.

(** White space contains neither '-' nor any other non-space ASCII character. *)
Lemma white_no45 w : white w -> 45 ∉ w.
Proof.
  intros (l&Hl&->) Hin. induction Hl as [|e l He Hl IH]; [by apply elem_of_nil in Hin|].
  cbn in Hin. apply elem_of_app in Hin as [Hin|Hin]; [|by apply IH].
  apply elem_of_list_In in He. cbn [In space_encodings] in He.
  repeat (destruct He as [<-|He]; [repeat (apply elem_of_cons in Hin as [Hin|Hin]; [discriminate|]); by apply elem_of_nil in Hin|]).
  done.
Qed.

Lemma dash_nonspace : ascii_nonspace 45.
Proof. split; reflexivity. Qed.

Lemma trim_item w x d : white w ->
  exists d', trim_space (w ++ str "- " ++ x ++ str " --" ++ d) = str "- " ++ x ++ str " --" ++ d'.
Proof.
  intros Hw. rewrite trim_space_white_l by done. exists (trim_right d).
  cbn [str list_ascii_of_string map app]. rewrite trim_space_head by apply dash_nonspace.
  pose proof (trim_right_after (N_of_ascii " " :: x ++ [32;45]) 45 d dash_nonspace) as H.
  cbn [app] in H. rewrite <-!app_assoc in H. cbn in H. cbn. f_equal. exact H.
Qed.

Lemma valid_head c : valid_code c -> exists a c', c = a :: c' /\ letter a.
Proof. intros [a Ha|a m z Ha _ _]; eauto. Qed.
Lemma valid_no32 c : valid_code c -> 32 ∉ c.
Proof. intros H. apply valid_code_no_char; [done|]. unfold alnum, letter. lia. Qed.
Lemma valid_no10 c : valid_code c -> 10 ∉ c.
Proof. intros H. apply valid_code_no_char; [done|]. unfold alnum, letter. lia. Qed.

Lemma last_no32 s : 32 ∉ s -> last s <> Some 32.
Proof. intros Hn Hl. apply Hn. by apply last_Some_elem_of. Qed.

Lemma block_line_code_item w1 w2 c w3 d :
  item_ok (ItemCode w1 w2 c w3 d) ->
  block_line (trim_space (write_item (ItemCode w1 w2 c w3 d))) (Some (inl c)).
Proof.
  intros ([H1 _]&[H2 _]&[H3 _]&_&Hv). cbn [write_item].
  replace (w1 ++ str "- " ++ w2 ++ c ++ w3 ++ str " --" ++ d)
    with (w1 ++ str "- " ++ (w2 ++ c ++ w3) ++ str " --" ++ d) by (by rewrite <-!app_assoc).
  destruct (trim_item w1 (w2 ++ c ++ w3) d H1) as [d' ->].
  destruct (valid_head c Hv) as (a&c'&Hc&Ha).
  apply (line_code _ (w2 ++ c ++ w3)).
  - apply item_text_intro.
    change (32 :: (w2 ++ c ++ w3) ++ [32]) with ((32 :: w2 ++ c ++ w3) ++ [32]).
    change (32 :: w2 ++ c ++ w3) with ((32 :: w2) ++ c ++ w3).
    apply no_adj_app; [apply no_adj_app|done|intros [_ ?]; done].
    + apply no_adj_no45. apply not_elem_of_cons. split; [lia|by apply white_no45].
    + apply no_adj_app; [apply no_adj_no32, valid_no32, Hv|apply no_adj_no45, white_no45, H3|].
      intros [Hl _]. by apply (last_no32 c (valid_no32 c Hv)).
    + intros [_ Hh]. subst c. cbn in Hh. injection Hh as ->. unfold letter in Ha. lia.
  - rewrite trim_space_white_l by done. rewrite trim_space_white_r by done. by apply valid_code_trim.
  - intros [t ->]. assert (58 ∈ str "param:" ++ t) as Hin by (cbn; set_solver).
    revert Hin. apply valid_code_no_char; [done|]. unfold alnum, letter. lia.
  - done.
Qed.

Lemma block_line_param_item w1 w2 w4 p w3 d :
  item_ok (ItemParam w1 w2 w4 p w3 d) ->
  block_line (trim_space (write_item (ItemParam w1 w2 w4 p w3 d))) (Some (inr p)).
Proof.
  intros ([H1 _]&[H2 _]&[H4 _]&[H3 _]&_&(Hne&_&H32&Hdash&Hs&He)). cbn [write_item].
  replace (w1 ++ str "- " ++ w2 ++ str "param:" ++ w4 ++ p ++ w3 ++ str " --" ++ d)
    with (w1 ++ str "- " ++ (w2 ++ str "param:" ++ w4 ++ p ++ w3) ++ str " --" ++ d)
    by (rewrite <-!app_assoc; done).
  destruct (trim_item w1 (w2 ++ str "param:" ++ w4 ++ p ++ w3) d H1) as [d' ->].
  apply (line_param _ (w2 ++ str "param:" ++ w4 ++ p ++ w3) (w4 ++ p)).
  - apply item_text_intro.
    change (32 :: (w2 ++ str "param:" ++ w4 ++ p ++ w3) ++ [32])
      with (((32 :: w2) ++ str "param:" ++ w4 ++ p ++ w3) ++ [32]).
    apply no_adj_app; [|done|intros [_ ?]; done].
    apply no_adj_app; [apply no_adj_no45, not_elem_of_cons; split; [lia|by apply white_no45]| |].
    2:{ intros [_ Hh]. discriminate. }
    apply no_adj_app; [apply no_adj_no32; cbn; set_solver| |].
    2:{ intros [Hl _]. discriminate. }
    apply no_adj_app; [by apply no_adj_no45, white_no45| |].
    2:{ intros [_ Hh]. destruct p as [|p0 p]; [done|]. cbn in Hh. injection Hh as ->.
        apply Hdash. by exists p. }
    apply no_adj_app; [by apply no_adj_no32|by apply no_adj_no45, white_no45|].
    intros [Hl _]. by apply (last_no32 p H32).
  - rewrite trim_space_white_l by done.
    replace (str "param:" ++ w4 ++ p ++ w3) with ((str "param:" ++ w4 ++ p) ++ w3) by (by rewrite <-!app_assoc).
    rewrite trim_space_white_r by done. apply trim_space_id.
    + apply not_starts. first [split; [cbn; lia|reflexivity] | vm_compute; split; first [reflexivity|discriminate]].
    + intros (e&s'&He'&Heq). apply He.
      destruct (trim_right_spec p) as (w&Hw&Hpw&Hn).
      destruct (decide (length e <= length p)%nat) as [Hle|Hgt].
      * exists e, (take (length p - length e) p). split; [done|].
        assert (drop (length s') (str "param:" ++ w4 ++ p) = e) as Hd by (rewrite Heq; apply drop_app).
        assert (length s' + length e = length (str "param:") + (length w4 + length p))%nat as Hlen.
        { rewrite <-!app_length. by rewrite Heq. }
        rewrite app_assoc in Hd. rewrite drop_app_ge in Hd by (rewrite app_length; lia).
        rewrite app_length in Hd.
        replace (length s' - (length (str "param:") + length w4))%nat with (length p - length e)%nat in Hd by lia.
        rewrite <-Hd at 2. by rewrite take_drop.
      * (* the encoded space would overlap the start of p; but then p is made of continuation bytes
           that cannot follow *)
        exfalso.
        assert (length s' + length e = length (str "param:") + (length w4 + length p))%nat as Hlen.
        { rewrite <-!app_length. by rewrite Heq. }
        cbn [length str list_ascii_of_string map] in Hlen.
        destruct (space_enc_tail e He') as (b&e'&->&Hall). cbn in Hlen, Hgt.
        destruct (decide (w4 = [])) as [->|Hw4].
        -- (* preceding byte is ':' *)
           cbn in Hlen. cbn [app] in Heq.
           assert ((str "param:" ++ p) !! 5%nat = Some 58) as Hl by done.
           change (str "param:" ++ p = s' ++ b :: e') in Heq. rewrite Heq in Hl.
           assert (length p > 0)%nat by (destruct p; [done|cbn; lia]).
           rewrite lookup_app_r in Hl by lia.
           destruct (5 - length s')%nat as [|k] eqn:Hk; cbn in Hl.
           ++ injection Hl as ->. apply elem_of_list_In in He'. cbn [In space_encodings] in He'.
              repeat (destruct He' as [He'|He']; [discriminate|]). done.
           ++ rewrite Forall_lookup in Hall. specialize (Hall _ _ Hl). discriminate.
        -- destruct H4 as (l&Hl&->).
           destruct l as [|e4 l _] using rev_ind; [done|].
           apply Forall_app in Hl as [Hl He4]. apply Forall_cons in He4 as [He4 _].
           (* decode the last rune of "param:" ++ concat (l ++ [e4]) ++ p *)
           rewrite concat_app in *. cbn in *. rewrite app_nil_r in *.
           rewrite app_length in Hlen.
           pose proof (space_enc_nonempty e4 He4).
           assert (length e4 > 0)%nat by (destruct e4; [done|cbn; lia]).
           assert (length p > 0)%nat by (destruct p; [done|cbn; lia]).
           assert (exists pre, str "param:" ++ (concat l ++ e4) ++ p = pre ++ e4 ++ p /\
                    length pre = 6 + length (concat l))%nat as (pre&Hpre&Hprelen).
           { exists (str "param:" ++ concat l). rewrite <-!app_assoc. split; [done|]. by rewrite app_length. }
           change (str "param:" ++ (concat l ++ e4) ++ p = s' ++ b :: e') in Heq. rewrite Hpre in Heq.
           destruct (space_enc_tail e4 He4) as (b4&e4'&->&Hall4). 
           destruct (space_enc_head _ He4) as (b4h&e4h&[= <- <-]&Hb4).
           cbn in Hlen.
           destruct (decide (length s' <= length pre)%nat) as [Hle|Hgt'].
           ++ (* e covers e4 entirely, starts at or before it *)
              destruct (decide (length s' = length pre)) as [Heql|Hneq].
              ** apply app_inj_1 in Heq as [_ Heq]; [|done]. cbn in Heq. injection Heq as <- Heq.
                 (* e = b4 :: e', e4 = b4 :: e4', e' = e4' ++ p: both are encodings, one a strict prefix *)
                 destruct (decode_space_complete _ [] He') as (r1&Hd1&_).
                 destruct (decode_space_complete _ p He4) as (r2&Hd2&_).
                 rewrite app_nil_r in Hd1. cbn [app] in Hd2. rewrite Heq in Hd2. rewrite Hd1 in Hd2.
                 injection Hd2 as _ Hlen2. rewrite <-Heq in Hlen2. rewrite app_length in Hlen2. lia.
              ** assert ((pre ++ (b4 :: e4') ++ p) !! length pre = Some b4) as Hlk by (apply list_lookup_middle; done).
                 rewrite Heq in Hlk. rewrite lookup_app_r in Hlk by lia.
                 destruct (length pre - length s')%nat as [|k] eqn:Hk; [lia|]. cbn in Hlk.
                 rewrite Forall_lookup in Hall. specialize (Hall _ _ Hlk). cbn in Hall. congruence.
           ++ (* e starts inside e4 or at p *)
              destruct (space_enc_head _ He') as (bh&eh&[= <- <-]&Hbh).
              assert ((pre ++ (b4 :: e4') ++ p) !! length s' = Some b) as Hlk by (rewrite Heq; apply list_lookup_middle; done).
              rewrite lookup_app_r in Hlk by lia.
              destruct (length s' - length pre)%nat as [|k] eqn:Hk; [lia|].
              change ((e4' ++ p) !! k = Some b) in Hlk.
              rewrite lookup_app_l in Hlk by lia.
              rewrite Forall_lookup in Hall4. specialize (Hall4 _ _ Hlk). cbn in Hall4. congruence.
  - rewrite trim_space_white_l by done. by apply trim_space_id.
  - done.
Qed.

Lemma block_lines_items items : Forall item_ok items ->
  block_lines (map trim_space (map write_item items)) (concat (map item_codes items)) (concat (map item_params items)).
Proof.
  induction 1 as [|i items Hi Hitems IH]; [constructor|]. cbn [map concat].
  destruct i as [l|w1 w2 c w3 d|w1 w2 w4 p w3 d]; cbn [item_codes item_params app].
  - apply bl_skip; [|done]. by destruct Hi.
  - apply bl_code; [|done]. by apply block_line_code_item.
  - apply bl_param; [|done]. by apply block_line_param_item.
Qed.

Lemma not10_app a b : 10 ∉ a -> 10 ∉ b -> 10 ∉ a ++ b.
Proof. intros. rewrite elem_of_app. tauto. Qed.

Lemma write_item_one_line i : item_ok i -> one_line (write_item i).
Proof.
  unfold one_line. destruct i as [l|w1 w2 c w3 d|w1 w2 w4 p w3 d]; cbn [item_ok write_item].
  - by intros [? _].
  - intros ([_ H1]&[_ H2]&[_ H3]&H4&Hv). repeat apply not10_app; try done; try by (cbn; set_solver).
    by apply valid_no10.
  - intros ([_ H1]&[_ H2]&[_ H3]&[_ H4]&H5&(_&Hp&_)). repeat apply not10_app; try done; by (cbn; set_solver).
Qed.

Lemma trim_errors w w' : white w -> white w' -> trim_space (w ++ str "Errors:" ++ w') = str "Errors:".
Proof.
  intros Hw Hw'. apply trim_space_unique; [done|done| |].
  - apply not_starts. split; reflexivity.
  - apply (not_ends 58 (str "Errors")). split; reflexivity.
Qed.

Lemma doc_round_trip_lemma pre w w' blank items post :
  Forall (fun l => one_line l /\ plain_before (trim_space l)) pre ->
  blank_text w -> blank_text w' -> blank_text blank ->
  Forall item_ok items -> (length (concat (map item_params items)) <= 1)%nat -> post_ok post ->
  run_docs (write_doc pre w w' blank items post) =
    inl (DocResult (list_to_set (concat (map item_codes items)))
                   (default [] (head (concat (map item_params items)))) false).
Proof.
  intros Hpre [Hw Hw10] [Hw' Hw10'] [Hb Hb10] Hitems Hlen Hpost. apply run_docs_declares.
  unfold write_doc, doc_lines. rewrite split_on_join.
  2:{ intros E. by destruct pre. }
  - rewrite map_app. cbn [map]. rewrite map_app. rewrite trim_errors by done. rewrite (trim_space_white blank) by done.
    apply declares_block with (codes := concat (map item_codes items)) (params := concat (map item_params items)).
    + clear -Hpre. induction Hpre as [|l ls [_ Hl] Hls IH]; [constructor|]. by constructor.
    + done.
    + by apply block_lines_items.
    + done.
    + destruct Hpost as [->|(b&post'&->&[Hb1 _]&Hp)]; [by left|right].
      exists (map trim_space post'). split; [cbn; by rewrite trim_space_white|].
      clear -Hp. induction Hp as [|l ls [_ Hl] Hls IH]; [constructor|]. by constructor.
  - apply Forall_app. split; [eapply Forall_impl; [exact Hpre|]; by intros ? [? _]|].
    constructor; [|constructor; [done|]].
    + repeat apply not10_app; try done. by (cbn; set_solver).
    + apply Forall_app. split.
      * clear -Hitems. induction Hitems; [constructor|]. constructor; [by apply write_item_one_line|done].
      * destruct Hpost as [->|(b&post'&->&[_ Hb1]&Hp)]; [constructor|]. constructor; [done|].
        eapply Forall_impl; [exact Hp|]. by intros ? [? _].
Qed.

(** ** C04 *)
Lemma block_lines_valid ls cs ps : block_lines ls cs ps ->
  Forall valid_code cs /\ Forall (fun p => p <> [] /\ trim_space p = p) ps.
Proof.
  induction 1 as [|l ls cs ps Hl Hls [IH1 IH2]|l c ls cs ps Hl Hls [IH1 IH2]|l p ls cs ps Hl Hls [IH1 IH2]].
  - done.
  - done.
  - split; [|done]. constructor; [by inversion Hl|done].
  - split; [done|]. constructor; [|done]. inversion Hl; subst. split; [done|]. apply trim_space_idemp.
Qed.
Lemma run_docs_valid doc r : run_docs doc = inl r ->
  (forall c, c ∈ dr_codes r -> valid_code c) /\ trim_space (dr_param r) = dr_param r.
Proof.
  intros H. apply run_docs_declares in H.
  inversion H as [? ? E1 E2|? ? ? ? ? ? E1 E2|? ? ? ? E1 E2|pre l blk codes params post Hp Hl Hb Hlen Hpost E1 E2];
    subst; cbn.
  - split; [intros c Hc; set_solver|done].
  - split; [intros c Hc; set_solver|done].
  - split; [intros c Hc; set_solver|done].
  - apply block_lines_valid in Hb as [Hc Hps]. split.
    + intros c Hin. apply elem_of_list_to_set in Hin. rewrite Forall_forall in Hc. auto.
    + destruct Hps as [|p ps [_ Hp'] _]; done.
Qed.

(** ** C07 *)
Lemma run_docs_none doc r : run_docs doc = inl r ->
  (dr_none r = true <-> exists pre l post, doc_lines doc = pre ++ l :: post /\ Forall plain_before pre /\ opens_none l)
  /\ (dr_none r = true -> dr_codes r = ∅ /\ dr_param r = []).
Proof.
  intros H. apply run_docs_declares in H.
  assert (Huniq : forall pre l post pre' l' post', pre ++ l :: post = pre' ++ l' :: post' ->
    Forall plain_before pre -> Forall plain_before pre' -> (opens_block l \/ opens_none l) ->
    (opens_block l' \/ opens_none l') -> l = l').
  { induction pre as [|x pre IH]; intros l post pre' l' post' Heq Hp Hp' Ho Ho'; destruct pre' as [|x' pre'].
    - by injection Heq.
    - cbn in Heq. injection Heq as -> ->. apply Forall_cons in Hp' as [[? ?] _]. tauto.
    - cbn in Heq. injection Heq as <- <-. apply Forall_cons in Hp as [[? ?] _]. tauto.
    - cbn in Heq. injection Heq as -> Heq. apply Forall_cons in Hp as [_ Hp]. apply Forall_cons in Hp' as [_ Hp'].
      eapply IH; eauto. }
  assert (Hdisj : forall l, opens_block l -> opens_none l -> False).
  { intros l -> [t Ht]. done. }
  inversion H as [? HF E1 E2|pre l post Hp Hl Hpost E1 E2|pre l Hp Hl E1 E2|pre l blk codes params post Hp Hl Hb Hlen Hpost E1 E2];
    cbn.
  - split; [|done]. split; [done|]. intros (pre&l&post&Heq&_&Hn). rewrite Heq in HF.
    apply Forall_app in HF as [_ HF]. apply Forall_cons in HF as [[_ ?] _]. done.
  - split; [|done]. split; [|done]. intros _. exists pre, l, post. done.
  - split; [|done]. split; [done|]. intros (pre'&l'&post'&Heq&Hp'&Hn).
    assert (l = l') as -> by (eapply Huniq; eauto). by destruct (Hdisj l').
  - split; [|done]. split; [done|]. intros (pre'&l'&post'&Heq&Hp'&Hn).
    assert (l = l') as -> by (eapply Huniq; eauto). by destruct (Hdisj l').
Qed.

Lemma run_docs_undeclared doc : Forall plain_before (doc_lines doc) -> run_docs doc = inl (DocResult ∅ [] false).
Proof. intros H. apply run_docs_declares. by constructor. Qed.

(** ** C05: irrelevant parts *)
Lemma step_parsing_item sm l x : item_text l x ->
  step_parsing sm l =
    if decide (trim_space x = []) then inr DocEmptyCode
    else if has_prefix (trim_space x) (str "param:") then
      let param := trim_space (drop (length (str "param:")) (trim_space x)) in
      if decide (param = []) then inr DocEmptyParam
      else if decide (sm_param sm = []) then inl (sm_set_param sm param) else inr DocMultipleParams
    else if isErrorCodeValid (trim_space x) then inl (sm_add sm (trim_space x)) else inr DocInvalidCode.
Proof.
  intros Hit. unfold step_parsing. destruct (item_text_index _ _ Hit) as (Hi&Hx&Hd&He&Hne).
  rewrite decide_False by done. rewrite He, Hd, Hi.
  destruct (2 + length x <? 2)%nat eqn:Hlt; [apply Nat.ltb_lt in Hlt; lia|]. rewrite Hx. done.
Qed.

Lemma same_items_run a b sm : same_items a b -> sm_state sm = StateParsing -> run_lines sm a = run_lines sm b.
Proof.
  intros Hs. revert sm. induction Hs as [|l a b Hl Hs IH|l a b Hl Hs IH|l l' x x' a b Hx Hx' Ht Hs IH]; intros sm Hst.
  - done.
  - cbn. unfold step. rewrite Hst, step_parsing_skip by done. by apply IH.
  - cbn. unfold step. rewrite Hst, step_parsing_skip by done. by apply IH.
  - cbn. unfold step. rewrite Hst, (step_parsing_item _ _ _ Hx), (step_parsing_item _ _ _ Hx'), Ht.
    match goal with |- match ?X with _ => _ end = _ => destruct X as [s|e] eqn:E end; [|done].
    apply IH. cbv zeta in E. repeat case_match; simplify_eq; try exact Hst.
Qed.
Lemma run_state sm blk sm' : sm_state sm = StateParsing -> ([] : gostring) ∉ blk -> run_lines sm blk = inl sm' ->
  sm_state sm' = StateParsing.
Proof.
  revert sm. induction blk as [|l blk IH]; intros sm Hst Hn; cbn; [by intros [= <-]|].
  unfold step. rewrite Hst. unfold step_parsing. rewrite decide_False by (intros ->; apply Hn; by left).
  assert (([] : gostring) ∉ blk) by (intros ?; apply Hn; by right).
  match goal with |- match ?X with _ => _ end = _ -> _ => destruct X as [s|e] eqn:E end; [|done].
  apply IH; [|done]. cbv zeta in E. repeat case_match; simplify_eq; exact Hst.
Qed.
Lemma run_end sm blk post post' :
  ([] : gostring) ∉ blk -> sm_state sm = StateParsing ->
  (post = [] \/ exists p, post = [] :: p /\ Forall plain_after p) ->
  (post' = [] \/ exists p, post' = [] :: p /\ Forall plain_after p) ->
  match run_lines sm (blk ++ post) with inl s => inl (sm_result s) | inr e => inr e end =
  match run_lines sm (blk ++ post') with inl s => inl (sm_result s) | inr e => inr e end.
Proof.
  intros Hn Hst Hp Hp'. rewrite !run_lines_app. destruct (run_lines sm blk) as [s|e] eqn:Hr; [|done].
  assert (sm_state s = StateParsing) as Hs by by eapply run_state.
  assert (forall q, (q = [] \/ exists p, q = [] :: p /\ Forall plain_after p) ->
    match run_lines s q with inl s => inl (sm_result s) | inr e => inr e end = (inl (sm_result s) : doc_result + doc_error)) as Hq.
  { intros q [->|(p&->&Hpl)]; [done|]. cbn. unfold step. rewrite Hs. unfold step_parsing.
    rewrite decide_True by done. rewrite run_done by done. done. }
  by rewrite (Hq post), (Hq post').
Qed.
Lemma same_items_ne a b : same_items a b -> ([] : gostring) ∉ a /\ ([] : gostring) ∉ b.
Proof.
  induction 1 as [|l a b Hl Hs [IH1 IH2]|l a b Hl Hs [IH1 IH2]|l l' x x' a b Hx Hx' Ht Hs [IH1 IH2]].
  - split; apply not_elem_of_nil.
  - split; [|done]. inversion Hl; subst. apply not_elem_of_cons. split; [congruence|done].
  - split; [done|]. inversion Hl; subst. apply not_elem_of_cons. split; [congruence|done].
  - destruct (item_text_index _ _ Hx) as (_&_&_&_&?). destruct (item_text_index _ _ Hx') as (_&_&_&_&?).
    split; apply not_elem_of_cons; split; congruence.
Qed.
Lemma run_docs_sm doc : run_docs doc = match run_lines sm_start (doc_lines doc) with inl s => inl (sm_result s) | inr e => inr e end.
Proof. unfold run_docs, doc_lines. change newline with 10. done. Qed.

Lemma irrelevant_parts d d' pre pre' blk blk' post post' :
  doc_lines d = pre ++ str "Errors:" :: [] :: blk ++ post ->
  doc_lines d' = pre' ++ str "Errors:" :: [] :: blk' ++ post' ->
  Forall plain_before pre -> Forall plain_before pre' -> same_items blk blk' ->
  (post = [] \/ exists p, post = [] :: p /\ Forall plain_after p) ->
  (post' = [] \/ exists p, post' = [] :: p /\ Forall plain_after p) ->
  run_docs d = run_docs d'.
Proof.
  intros Hd Hd' Hpre Hpre' Hs Hpost Hpost'. rewrite !run_docs_sm, Hd, Hd'.
  rewrite !run_to_parsing by done. destruct (same_items_ne _ _ Hs) as [Hn Hn'].
  rewrite (run_end sm_parsing blk post []) by (done || by left).
  rewrite (run_end sm_parsing blk' post' []) by (done || by left).
  rewrite !app_nil_r. by rewrite (same_items_run blk blk').
Qed.

Lemma indentation_irrelevant ls ls' :
  Forall2 (fun l l' => exists a b a' b' t, white a /\ white b /\ white a' /\ white b' /\
              l = a ++ t ++ b /\ l' = a' ++ t ++ b') ls ls' ->
  Forall one_line ls -> Forall one_line ls' -> ls <> [] ->
  run_docs (join [10] ls) = run_docs (join [10] ls').
Proof.
  intros HF H1 H2 Hne. rewrite !run_docs_sm. unfold doc_lines.
  rewrite split_on_join by done. rewrite split_on_join; [|by inversion HF; subst|done].
  assert (map trim_space ls = map trim_space ls') as ->; [|done].
  clear -HF. induction HF as [|l l' ls ls' (a&b&a'&b'&t&Ha&Hb&Ha'&Hb'&->&->) HF IH]; [done|].
  cbn. rewrite IH. f_equal. rewrite (trim_space_white_l a), (trim_space_white_r b), (trim_space_white_l a'), (trim_space_white_r b') by done. done.
Qed.

(** ** C06: order and duplicates *)
Definition line_codes (o : option (gostring + gostring)) : list gostring :=
  match o with Some (inl c) => [c] | _ => [] end.
Definition line_params (o : option (gostring + gostring)) : list gostring :=
  match o with Some (inr p) => [p] | _ => [] end.
Lemma block_lines_cons l o ls cs ps : block_line l o -> block_lines ls cs ps ->
  block_lines (l :: ls) (line_codes o ++ cs) (line_params o ++ ps).
Proof. destruct o as [[c|p]|]; cbn; [apply bl_code|apply bl_param|apply bl_skip]. Qed.
Lemma block_lines_cons_inv l ls cs ps : block_lines (l :: ls) cs ps ->
  exists o cs' ps', block_line l o /\ block_lines ls cs' ps' /\ cs = line_codes o ++ cs' /\ ps = line_params o ++ ps'.
Proof. inversion 1; subst; eexists _, _, _; split_and!; try eassumption; done. Qed.
Lemma block_lines_perm a b cs ps : Permutation a b -> block_lines a cs ps ->
  exists cs' ps', block_lines b cs' ps' /\ Permutation cs cs' /\ Permutation ps ps'.
Proof.
  intros Hp. revert cs ps. induction Hp as [|x a b Hp IH|x y a|a b c Hab IH1 Hbc IH2]; intros cs ps Hb.
  - eauto.
  - apply block_lines_cons_inv in Hb as (o&cs'&ps'&Hl&Hls&->&->).
    destruct (IH _ _ Hls) as (cs2&ps2&Hb2&H1&H2).
    eexists _, _. split_and!; [by apply block_lines_cons|by rewrite H1|by rewrite H2].
  - apply block_lines_cons_inv in Hb as (o&cs'&ps'&Hl&Hls&->&->).
    apply block_lines_cons_inv in Hls as (o2&cs2&ps2&Hl2&Hls&->&->).
    eexists _, _. split_and!; [by apply block_lines_cons; [|apply block_lines_cons]| |]; rewrite !app_assoc;
      apply Permutation_app_tail, Permutation_app_comm.
  - destruct (IH1 _ _ Hb) as (cs1&ps1&Hb1&H1&H2). destruct (IH2 _ _ Hb1) as (cs2&ps2&Hb2&H3&H4).
    exists cs2, ps2. split_and!; [done|by etrans|by etrans].
Qed.
Lemma item_text_starts l x : item_text l x -> starts (str "- ") l.
Proof. intros (rest&->&_). eexists. done. Qed.
Lemma block_line_fun l o o' : block_line l o -> block_line l o' -> o = o'.
Proof.
  intros [l1 Hne1 Hi1 Hd1|l1 x1 c1 Hx1 Ht1 Hnp1 Hv1|l1 x1 y1 p1 Hx1 Ht1 Hp1 Hne1] H';
  inversion H' as [l2 Hne2 Hi2 Hd2 E1 E2|l2 x2 c2 Hx2 Ht2 Hnp2 Hv2 E1 E2|l2 x2 y2 p2 Hx2 Ht2 Hp2 Hne2 E1 E2];
    try (subst; done).
  - destruct Hd1. by eapply item_text_starts.
  - destruct Hd1. by eapply item_text_starts.
  - destruct Hd2. by eapply item_text_starts.
  - assert (x1 = x2) as -> by by eapply item_text_fun. congruence.
  - assert (x1 = x2) as -> by by eapply item_text_fun. subst c1. destruct Hnp1. by exists y2.
  - destruct Hd2. by eapply item_text_starts.
  - assert (x1 = x2) as -> by by eapply item_text_fun. subst c2. destruct Hnp2. by exists y1.
  - assert (x1 = x2) as -> by by eapply item_text_fun. rewrite Ht1 in Ht2. apply app_inv_head in Ht2. congruence.
Qed.

Lemma accepted_block d pre blk post r :
  doc_lines d = pre ++ str "Errors:" :: [] :: blk ++ post ->
  Forall plain_before pre -> ([] : gostring) ∉ blk ->
  (post = [] \/ exists p, post = [] :: p /\ Forall plain_after p) ->
  run_docs d = inl r ->
  exists cs ps, block_lines blk cs ps /\ (length ps <= 1)%nat /\
    r = DocResult (list_to_set cs) (default [] (head ps)) false.
Proof.
  intros Hd Hpre Hn Hpost Hrun.
  destruct (block_cases sm_parsing blk eq_refl) as (b1&cs&ps&rest&Hblk&Hb&Hlen&Hrest).
  rewrite decide_True in Hlen by done.
  assert (rest = []) as ->.
  { destruct Hrest as [->|[[p ->]|(bad&p&e&->&Hbad)]]; [done| |].
    - destruct Hn. rewrite Hblk. apply elem_of_app. right. by left.
    - exfalso. assert (run_docs d = inr e) as He; [|congruence]. apply run_docs_malformed.
      rewrite Hd, Hblk. rewrite <-app_assoc. cbn [app]. eapply mal_block; try done; [lia|].
      erewrite bool_decide_ext; [exact Hbad|]. symmetry. exact (bool_params _ _ _ Hb). }
  rewrite app_nil_r in Hblk. subst b1. exists cs, ps. split_and!; [done|lia|].
  assert (run_docs d = inl (DocResult (list_to_set cs) (default [] (head ps)) false)) as He; [|congruence].
  apply run_docs_declares. rewrite Hd. eapply declares_block; try done. lia.
Qed.

Lemma order_irrelevant d d' pre pre' blk blk' post post' r :
  doc_lines d = pre ++ str "Errors:" :: [] :: blk ++ post ->
  doc_lines d' = pre' ++ str "Errors:" :: [] :: blk' ++ post' ->
  Forall plain_before pre -> Forall plain_before pre' ->
  (post = [] \/ exists p, post = [] :: p /\ Forall plain_after p) ->
  (post' = [] \/ exists p, post' = [] :: p /\ Forall plain_after p) ->
  ([] : gostring) ∉ blk -> Permutation blk blk' ->
  run_docs d = inl r -> run_docs d' = inl r.
Proof.
  intros Hd Hd' Hpre Hpre' Hpost Hpost' Hn Hperm Hrun.
  destruct (accepted_block d pre blk post r) as (cs&ps&Hb&Hlen&->); try done.
  destruct (block_lines_perm _ _ _ _ Hperm Hb) as (cs'&ps'&Hb'&Hcs&Hps).
  apply run_docs_declares. rewrite Hd'.
  replace (DocResult (list_to_set cs) (default [] (head ps)) false)
    with (DocResult (list_to_set cs') (default [] (head ps')) false).
  { eapply declares_block; try done. by rewrite <-Hps. }
  f_equal.
  - apply set_eq. intros c. rewrite !elem_of_list_to_set. by rewrite Hcs.
  - destruct ps as [|p [|]]; [by apply Permutation_nil in Hps as ->| |cbn in Hlen; lia].
    by apply Permutation_length_1_inv in Hps as ->.
Qed.

Lemma block_lines_member l blk cs ps c : block_lines blk cs ps -> l ∈ blk ->
  block_line l (Some (inl c)) -> c ∈ cs.
Proof.
  induction 1 as [|l' ls cs ps Hl Hls IH|l' c' ls cs ps Hl Hls IH|l' p ls cs ps Hl Hls IH]; intros Hin Hc.
  - by apply elem_of_nil in Hin.
  - apply elem_of_cons in Hin as [->|Hin]; [by pose proof (block_line_fun _ _ _ Hl Hc)|auto].
  - apply elem_of_cons in Hin as [->|Hin]; [|right; auto].
    pose proof (block_line_fun _ _ _ Hl Hc) as [= ->]. by left.
  - apply elem_of_cons in Hin as [->|Hin]; [by pose proof (block_line_fun _ _ _ Hl Hc)|auto].
Qed.

Lemma duplicate_irrelevant d d' pre pre' blk blk' post post' r l c :
  doc_lines d = pre ++ str "Errors:" :: [] :: blk ++ post ->
  doc_lines d' = pre' ++ str "Errors:" :: [] :: blk' ++ post' ->
  Forall plain_before pre -> Forall plain_before pre' ->
  (post = [] \/ exists p, post = [] :: p /\ Forall plain_after p) ->
  (post' = [] \/ exists p, post' = [] :: p /\ Forall plain_after p) ->
  ([] : gostring) ∉ blk -> l ∈ blk -> block_line l (Some (inl c)) -> Permutation (l :: blk) blk' ->
  run_docs d = inl r -> run_docs d' = inl r.
Proof.
  intros Hd Hd' Hpre Hpre' Hpost Hpost' Hn Hl Hc Hperm Hrun.
  destruct (accepted_block d pre blk post r) as (cs&ps&Hb&Hlen&->); try done.
  pose proof (block_lines_member _ _ _ _ _ Hb Hl Hc) as Hcin.
  assert (block_lines (l :: blk) (c :: cs) ps) as Hb2 by by constructor.
  destruct (block_lines_perm _ _ _ _ Hperm Hb2) as (cs'&ps'&Hb'&Hcs&Hps).
  apply run_docs_declares. rewrite Hd'.
  replace (DocResult (list_to_set cs) (default [] (head ps)) false)
    with (DocResult (list_to_set cs') (default [] (head ps')) false).
  { eapply declares_block; try done. by rewrite <-Hps. }
  f_equal.
  - apply set_eq. intros c'. rewrite !elem_of_list_to_set. rewrite <-Hcs. set_solver.
  - destruct ps as [|p [|]]; [by apply Permutation_nil in Hps as ->| |cbn in Hlen; lia].
    by apply Permutation_length_1_inv in Hps as ->.
Qed.
