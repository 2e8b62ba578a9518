(** * Facts about the Go string functions. *)
From Coq Require Import Ascii String ZifyBool ZifyN ZifyNat.
From stdpp Require Import base list sorting gmap.
From Verif Require Import GoString.
From Verif Require Export SpecSpace.
Local Open Scope N_scope.

Lemma between_true lo b hi : between lo b hi = true <-> lo <= b <= hi.
Proof. unfold between. lia. Qed.
Lemma between_false lo b hi : between lo b hi = false <-> (b < lo \/ hi < b).
Proof. unfold between. lia. Qed.

(** ** Decoding *)

Lemma decode_rune_ascii b s : b < 128 -> decode_rune (b :: s) = (b, 1%nat).
Proof. intros H. cbn. destruct (N.ltb_spec b 128); [done|lia]. Qed.

Lemma decode_rune_pos b s : (1 <= snd (decode_rune (b :: s)))%nat.
Proof.
  cbn. repeat (case_match; cbn; try lia).
Qed.

(** A rune below 128 can only come from the same byte. *)
Lemma decode_rune_small b s :
  fst (decode_rune (b :: s)) < 128 -> fst (decode_rune (b :: s)) = b /\ b < 128.
Proof.
  unfold decode_rune, rune_error.
  destruct (N.ltb_spec b 128) as [Hb|Hb]; [cbn; auto|].
  repeat case_match; cbn [fst snd]; intros Hlt; exfalso;
    repeat match goal with
    | H : between _ _ _ = true |- _ => apply between_true in H
    | H : between _ _ _ = false |- _ => apply between_false in H
    | H : (_ && _) = true |- _ => apply andb_prop in H as [? ?]
    | H : (_ =? _) = true |- _ => apply N.eqb_eq in H
    | H : (_ =? _) = false |- _ => apply N.eqb_neq in H
    end; lia.
Qed.

Lemma runes_ascii s : Forall (fun b => b < 128) s -> runes s = s.
Proof.
  unfold runes. induction 1 as [|b s Hb Hs IH]; [done|].
  cbn [runes_from]. rewrite decode_rune_ascii by done. cbn. by rewrite IH.
Qed.

Lemma runes_small s : Forall (fun r => r < 128) (runes s) -> runes s = s /\ Forall (fun b => b < 128) s.
Proof.
  unfold runes. induction s as [|b s IH]; [done|].
  cbn [runes_from]. destruct (decode_rune (b :: s)) as [r w] eqn:Hd.
  intros [Hr Hrest]%Forall_cons.
  assert (fst (decode_rune (b :: s)) < 128) as Hsmall by (rewrite Hd; done).
  apply decode_rune_small in Hsmall as [Heq Hb]. rewrite decode_rune_ascii in Hd by done.
  injection Hd as <- <-. cbn in *. destruct (IH Hrest) as [-> HF]. split; [done|]. by constructor.
Qed.

(** ** White space *)

Ltac bsolve :=
  repeat match goal with
    | H : between _ _ _ = true |- _ => apply between_true in H
    | H : between _ _ _ = false |- _ => apply between_false in H
    | H : (_ && _) = true |- _ => apply andb_prop in H as [? ?]
    | H : (_ =? _) = true |- _ => apply N.eqb_eq in H
    | H : (_ =? _) = false |- _ => apply N.eqb_neq in H
    | H : (_ <? _) = true |- _ => apply N.ltb_lt in H
    | H : (_ <? _) = false |- _ => apply N.ltb_ge in H
    end.

Lemma is_space_cases r : is_space r = true ->
  In r [9;10;11;12;13;32;133;160;5760;8192;8193;8194;8195;8196;8197;8198;8199;8200;8201;8202;
        8232;8233;8239;8287;12288].
Proof. unfold is_space, between. intros H. cbn [In]. lia. Qed.

Lemma dec2 b0 b1 r : 192 <= b0 -> 128 <= b1 <= 191 -> (b0 - 192) * 64 + (b1 - 128) = r ->
  b0 = 192 + r / 64 /\ b1 = 128 + r mod 64.
Proof.
  intros H0 H1 <-.
  assert (b1 - 128 < 64) as Hlt by lia.
  rewrite N.div_add_l by lia. rewrite (N.div_small (b1 - 128)) by done.
  rewrite (N.add_comm ((b0 - 192) * 64)), N.mod_add by lia. rewrite N.mod_small by done. lia.
Qed.
Lemma dec3 b0 b1 b2 r : 224 <= b0 -> 128 <= b1 <= 191 -> 128 <= b2 <= 191 ->
  (b0 - 224) * 4096 + (b1 - 128) * 64 + (b2 - 128) = r ->
  b0 = 224 + r / 64 / 64 /\ b1 = 128 + (r / 64) mod 64 /\ b2 = 128 + r mod 64.
Proof.
  intros H0 H1 H2 <-.
  replace ((b0 - 224) * 4096 + (b1 - 128) * 64 + (b2 - 128))
    with (((b0 - 224) * 64 + (b1 - 128)) * 64 + (b2 - 128)) by lia.
  assert (b2 - 128 < 64) as Hlt by lia. assert (b1 - 128 < 64) as Hlt1 by lia.
  rewrite N.div_add_l by lia. rewrite (N.div_small (b2 - 128)), N.add_0_r by done.
  rewrite (N.add_comm (((b0 - 224) * 64 + (b1 - 128)) * 64)), (N.mod_add (b2 - 128)), (N.mod_small (b2 - 128)) by (done || lia).
  rewrite N.div_add_l by lia. rewrite (N.div_small (b1 - 128)), N.add_0_r by done.
  rewrite (N.add_comm ((b0 - 224) * 64)), N.mod_add, (N.mod_small (b1 - 128)) by (done || lia).
  lia.
Qed.

Ltac in_list := apply elem_of_list_In; cbn [In space_encodings]; tauto.

Lemma rune_error_not_space : is_space rune_error = false.
Proof. reflexivity. Qed.

Lemma space_rune_1 b : is_space b = true -> b < 128 -> [b] ∈ space_encodings.
Proof.
  intros H Hb. apply is_space_cases in H. cbn [In] in H.
  repeat destruct H as [<-|H]; try (exfalso; lia); try in_list.
Qed.
Lemma space_rune_2 b0 b1 : 194 <= b0 <= 223 -> 128 <= b1 <= 191 ->
  is_space ((b0 - 192) * 64 + (b1 - 128)) = true -> [b0; b1] ∈ space_encodings.
Proof.
  intros H0 H1 H. apply is_space_cases in H.
  destruct (dec2 b0 b1 _ ltac:(lia) H1 eq_refl) as [E0 E1].
  set (r := (b0 - 192) * 64 + (b1 - 128)) in *. clearbody r. cbn [In] in H.
  repeat destruct H as [<-|H]; try done; vm_compute in E0, E1; subst; try (exfalso; lia); in_list.
Qed.
Lemma space_rune_3 b0 b1 b2 : 224 <= b0 <= 239 -> 128 <= b1 <= 191 -> (b0 = 224 -> 160 <= b1) ->
  128 <= b2 <= 191 ->
  is_space ((b0 - 224) * 4096 + (b1 - 128) * 64 + (b2 - 128)) = true -> [b0; b1; b2] ∈ space_encodings.
Proof.
  intros H0 H1 H1' H2 H. apply is_space_cases in H.
  destruct (dec3 b0 b1 b2 _ ltac:(lia) H1 H2 eq_refl) as (E0&E1&E2).
  set (r := (b0 - 224) * 4096 + (b1 - 128) * 64 + (b2 - 128)) in *. clearbody r. cbn [In] in H.
  repeat destruct H as [<-|H]; try done; vm_compute in E0, E1, E2; subst;
    try (exfalso; lia); in_list.
Qed.

Lemma space_small r : is_space r = true -> r <= 12288.
Proof. unfold is_space, between. lia. Qed.

Lemma decode_space_sound s r w :
  decode_rune s = (r, w) -> is_space r = true ->
  exists e s', e ∈ space_encodings /\ s = e ++ s' /\ w = length e.
Proof.
  assert (forall P : Prop, (rune_error, 1%nat) = (r, w) -> is_space r = true -> P) as Herr.
  { intros P [= <- <-] H. rewrite rune_error_not_space in H. discriminate. }
  destruct s as [|b0 s1].
  { cbn. intros [= <- <-] H. rewrite rune_error_not_space in H. discriminate. }
  unfold decode_rune.
  destruct (b0 <? 128) eqn:H0.
  { intros [= <- <-] Hs. bsolve. exists [b0], s1. split; [by apply space_rune_1|done]. }
  destruct (between 194 b0 223) eqn:H2.
  { destruct s1 as [|b1 s2]; [apply Herr|].
    destruct (between 128 b1 191) eqn:H1; [|apply Herr].
    intros [= <- <-] Hs. bsolve. exists [b0; b1], s2. split; [by apply space_rune_2|done]. }
  destruct (between 224 b0 239) eqn:H3.
  { destruct s1 as [|b1 [|b2 s3]]; [apply Herr..|].
    destruct (_ && between 128 b2 191) eqn:H1; [|apply Herr].
    intros [= <- <-] Hs. bsolve. exists [b0; b1; b2], s3. split; [|done].
    apply space_rune_3; [done| | |done|done].
    - destruct (b0 =? 224); destruct (b0 =? 237); lia.
    - intros ->. rewrite N.eqb_refl in *. lia. }
  destruct (between 240 b0 244) eqn:H4.
  { destruct s1 as [|b1 [|b2 [|b3 s4]]]; [apply Herr..|].
    destruct (_ && between 128 b3 191) eqn:H1; [|apply Herr].
    intros [= <- <-] Hs. apply space_small in Hs. bsolve. exfalso.
    destruct (N.eqb_spec b0 240) as [->|Hne]; [lia|]. lia. }
  apply Herr.
Qed.

Lemma decode_space_complete e s' :
  e ∈ space_encodings -> exists r, decode_rune (e ++ s') = (r, length e) /\ is_space r = true.
Proof.
  intros He. apply elem_of_list_In in He. cbn [In space_encodings] in He.
  repeat (destruct He as [<-|He]; [eexists; split; reflexivity|]). done.
Qed.

Lemma decode_last_space_sound rs r w :
  decode_last_rune rs = (r, w) -> is_space r = true ->
  exists e rs', e ∈ space_encodings /\ rs = rev e ++ rs' /\ w = length e.
Proof.
  destruct rs as [|b0 r1]; [cbn; intros [= <- <-] H; vm_compute in H; discriminate|].
  unfold decode_last_rune.
  destruct (b0 <? 128) eqn:H0.
  { intros [= <- <-] Hs. bsolve. apply is_space_cases in Hs.
    exists [b0], r1. split; [|done].
    cbn [In] in Hs. repeat destruct Hs as [Hs|Hs]; try lia; subst; vm_compute; repeat constructor. }
  assert (forall P : Prop, (rune_error, 1%nat) = (r, w) -> is_space r = true -> P) as Herr.
  { intros P [= <- <-] H. vm_compute in H. discriminate. }
  destruct r1 as [|b1 r2]; [apply Herr|].
  destruct (rune_start b1).
  { destruct (decode_rune [b1; b0]) as [r' w'] eqn:Hd.
    destruct (w' =? 2)%nat eqn:Hw; [|apply Herr]. intros [= -> ->] Hs.
    destruct (decode_space_sound _ _ _ Hd Hs) as (e&s'&He&Heq&Hlen).
    apply Nat.eqb_eq in Hw. exists e, r2. split_and!; [done| |done].
    destruct e as [|x [|y [|]]]; cbn in Hlen; try lia. cbn in Heq. injection Heq as -> -> _. done. }
  destruct r2 as [|b2 r3]; [apply Herr|].
  destruct (rune_start b2).
  { destruct (decode_rune [b2; b1; b0]) as [r' w'] eqn:Hd.
    destruct (w' =? 3)%nat eqn:Hw; [|apply Herr]. intros [= -> ->] Hs.
    destruct (decode_space_sound _ _ _ Hd Hs) as (e&s'&He&Heq&Hlen).
    apply Nat.eqb_eq in Hw. exists e, r3. split_and!; [done| |done].
    destruct e as [|x [|y [|z [|]]]]; cbn in Hlen; try lia. cbn in Heq. injection Heq as -> -> -> _. done. }
  destruct r3 as [|b3 r4]; [apply Herr|].
  destruct (rune_start b3); [|apply Herr].
  { destruct (decode_rune [b3; b2; b1; b0]) as [r' w'] eqn:Hd.
    destruct (w' =? 4)%nat eqn:Hw; [|apply Herr]. intros [= -> ->] Hs.
    destruct (decode_space_sound _ _ _ Hd Hs) as (e&s'&He&Heq&Hlen).
    apply Nat.eqb_eq in Hw. exists e, r4. split_and!; [done| |done].
    destruct e as [|x [|y [|z [|u [|]]]]]; cbn in Hlen; try lia. cbn in Heq. injection Heq as -> -> -> -> _. done. }
Qed.

Lemma decode_last_space_complete e rs' :
  e ∈ space_encodings ->
  exists r, decode_last_rune (rev e ++ rs') = (r, length e) /\ is_space r = true.
Proof.
  intros He. apply elem_of_list_In in He. cbn [In space_encodings] in He.
  repeat (destruct He as [<-|He]; [eexists; split; reflexivity|]). done.
Qed.

Lemma space_enc_nonempty e : e ∈ space_encodings -> e <> [].
Proof.
  intros He ->. apply elem_of_list_In in He. cbn [In space_encodings] in He.
  repeat (destruct He as [He|He]; [discriminate|]). done.
Qed.

Lemma white_nil : white [].
Proof. exists []. done. Qed.
Lemma white_cons e s : e ∈ space_encodings -> white s -> white (e ++ s).
Proof. intros He (l&Hl&->). exists (e :: l). split; [by constructor|done]. Qed.
Lemma white_app a b : white a -> white b -> white (a ++ b).
Proof.
  intros (l1&H1&->) (l2&H2&->). exists (l1 ++ l2). split; [by apply Forall_app|]. by rewrite concat_app.
Qed.
Lemma white_enc e : e ∈ space_encodings -> white e.
Proof. intros He. rewrite <-(app_nil_r e). apply white_cons; [done|apply white_nil]. Qed.

Lemma trim_left_from_skip k s : trim_left_from k s = trim_left_from 0 (drop k s).
Proof.
  revert k. induction s as [|b s IH]; intros k; [by destruct k|].
  destruct k as [|k]; [done|]. cbn [trim_left_from drop]. apply IH.
Qed.
Lemma trim_right_rev_skip k s : trim_right_rev k s = trim_right_rev 0 (drop k s).
Proof.
  revert k. induction s as [|b s IH]; intros k; [by destruct k|].
  destruct k as [|k]; [done|]. cbn [trim_right_rev drop]. apply IH.
Qed.

Lemma trim_left_space e s : e ∈ space_encodings -> trim_left (e ++ s) = trim_left s.
Proof.
  intros He. unfold trim_left.
  destruct (decode_space_complete e s He) as (r&Hd&Hs).
  pose proof (space_enc_nonempty e He) as Hne. destruct e as [|b e]; [done|].
  cbn [app] in *. cbn [trim_left_from]. rewrite Hd, Hs.
  rewrite trim_left_from_skip. f_equal. cbn [length].
  replace (S (length e) - 1)%nat with (length e) by lia. apply drop_app.
Qed.
Lemma trim_left_nospace s : ~ starts_with_space s -> trim_left s = s.
Proof.
  intros Hn. unfold trim_left. destruct s as [|b s]; [done|]. cbn [trim_left_from].
  destruct (decode_rune (b :: s)) as [r w] eqn:Hd. destruct (is_space r) eqn:Hs; [|done].
  destruct Hn. destruct (decode_space_sound _ _ _ Hd Hs) as (e&s'&?&?&?). by exists e, s'.
Qed.

Lemma trim_right_space e s : e ∈ space_encodings -> trim_right (s ++ e) = trim_right s.
Proof.
  intros He. unfold trim_right. rewrite rev_app_distr. f_equal.
  destruct (decode_last_space_complete e (rev s) He) as (r&Hd&Hs).
  pose proof (space_enc_nonempty e He) as Hne.
  assert (length (rev e) = length e) as Hlen by apply rev_length.
  destruct (rev e) as [|b re] eqn:Hre.
  { cbn in Hlen. destruct e; [done|cbn in Hlen; lia]. }
  cbn [app] in *. cbn [trim_right_rev]. rewrite Hd, Hs.
  rewrite trim_right_rev_skip. f_equal. rewrite <-Hlen. cbn [length].
  replace (S (length re) - 1)%nat with (length re) by lia. apply drop_app.
Qed.
Lemma trim_right_nospace s : ~ ends_with_space s -> trim_right s = s.
Proof.
  intros Hn. unfold trim_right. destruct (rev s) as [|b rs] eqn:Hr.
  { cbn. by rewrite <-(rev_involutive s), Hr. }
  cbn [trim_right_rev].
  destruct (decode_last_rune (b :: rs)) as [r w] eqn:Hd. destruct (is_space r) eqn:Hs.
  - destruct Hn. destruct (decode_last_space_sound _ _ _ Hd Hs) as (e&s'&He&Heq&?).
    exists e, (rev s'). split; [done|].
    rewrite <-(rev_involutive s), Hr, Heq, rev_app_distr, rev_involutive. done.
  - by rewrite <-Hr, rev_involutive.
Qed.

Lemma starts_with_space_dec s : starts_with_space s \/ ~ starts_with_space s.
Proof.
  destruct s as [|b s].
  - right. intros (e&s'&He&Heq). destruct e; [by eapply space_enc_nonempty|done].
  - destruct (decode_rune (b :: s)) as [r w] eqn:Hd. destruct (is_space r) eqn:Hs.
    + left. destruct (decode_space_sound _ _ _ Hd Hs) as (e&s'&?&?&?). by exists e, s'.
    + right. intros (e&s'&He&Heq). destruct (decode_space_complete e s' He) as (r'&Hd'&Hs').
      rewrite <-Heq, Hd in Hd'. congruence.
Qed.
Lemma ends_with_space_dec s : ends_with_space s \/ ~ ends_with_space s.
Proof.
  destruct (decode_last_rune (rev s)) as [r w] eqn:Hd. destruct (is_space r) eqn:Hs.
  - left. destruct (decode_last_space_sound _ _ _ Hd Hs) as (e&s'&?&Heq&?). exists e, (rev s').
    split; [done|]. by rewrite <-(rev_involutive s), Heq, rev_app_distr, rev_involutive.
  - right. intros (e&s'&He&Heq). subst s. rewrite rev_app_distr in Hd.
    destruct (decode_last_space_complete e (rev s') He) as (r'&Hd'&Hs'). congruence.
Qed.


Lemma length_ind (P : gostring -> Prop) :
  (forall s, (forall s', (length s' < length s)%nat -> P s') -> P s) -> forall s, P s.
Proof. intros H s. apply (induction_ltof1 _ (@length N)). exact H. Qed.

Lemma trim_left_spec s : exists w, white w /\ s = w ++ trim_left s /\ ~ starts_with_space (trim_left s).
Proof.
  induction s as [s IH] using length_ind.
  destruct (starts_with_space_dec s) as [(e&s'&He&->)|Hn].
  - rewrite trim_left_space by done. destruct (IH s') as (w&Hw&Heq&Hn).
    { rewrite app_length. pose proof (space_enc_nonempty e He). destruct e; [done|cbn; lia]. }
    exists (e ++ w). split_and!; [by apply white_cons| |done]. by rewrite <-app_assoc, <-Heq.
  - rewrite trim_left_nospace by done. exists []. split_and!; [apply white_nil|done|done].
Qed.
Lemma trim_right_spec s : exists w, white w /\ s = trim_right s ++ w /\ ~ ends_with_space (trim_right s).
Proof.
  induction s as [s IH] using length_ind.
  destruct (ends_with_space_dec s) as [(e&s'&He&->)|Hn].
  - rewrite trim_right_space by done. destruct (IH s') as (w&Hw&Heq&Hn).
    { rewrite app_length. pose proof (space_enc_nonempty e He). destruct e; [done|cbn; lia]. }
    exists (w ++ e). split_and!; [by apply white_app, white_enc| |done]. by rewrite app_assoc, <-Heq.
  - rewrite trim_right_nospace by done. exists []. split_and!; [apply white_nil|by rewrite app_nil_r|done].
Qed.

Lemma trim_left_white w s : white w -> trim_left (w ++ s) = trim_left s.
Proof.
  intros (l&Hl&->). induction Hl as [|e l He Hl IH]; [done|].
  cbn [concat]. rewrite <-app_assoc, trim_left_space by done. exact IH.
Qed.
Lemma trim_right_white w s : white w -> trim_right (s ++ w) = trim_right s.
Proof.
  intros (l&Hl&->). revert s. induction Hl as [|e l He Hl IH]; intros s; [by rewrite app_nil_r|].
  cbn [concat]. rewrite app_assoc, IH. by apply trim_right_space.
Qed.

(** The first byte of every encoding determines it up to its length, and is never a
    continuation byte. *)
Lemma space_enc_head e : e ∈ space_encodings -> exists b e', e = b :: e' /\ between 128 b 191 = false.
Proof.
  intros He. apply elem_of_list_In in He. cbn [In space_encodings] in He.
  repeat (destruct He as [<-|He]; [eexists _, _; split; reflexivity|]). done.
Qed.
Lemma space_enc_tail e : e ∈ space_encodings ->
  exists b e', e = b :: e' /\ Forall (fun c => between 128 c 191 = true) e'.
Proof.
  intros He. apply elem_of_list_In in He. cbn [In space_encodings] in He.
  repeat (destruct He as [<-|He]; [eexists _, _; split; [reflexivity|repeat constructor]|]). done.
Qed.

(** Dropping trailing white space does not create a leading space. *)
Lemma starts_with_space_app t w : white w -> t <> [] -> starts_with_space (t ++ w) -> starts_with_space t.
Proof.
  intros (l&Hl&->) Hne (e&s'&He&Heq).
  destruct (decide (length e <= length t)%nat) as [Hle|Hgt].
  - exists e, (drop (length e) t). split; [done|].
    assert (take (length e) (t ++ concat l) = e) as Ht by (rewrite Heq; apply take_app).
    rewrite take_app_le in Ht by lia. rewrite <-Ht at 1. by rewrite take_drop.
  - destruct l as [|e2 l]; cbn [concat] in Heq.
    + rewrite app_nil_r in Heq. subst t. rewrite app_length in Hgt. lia.
    + apply Forall_cons in Hl as [He2 _].
      destruct (space_enc_head e2 He2) as (b&e2'&->&Hb).
      destruct (space_enc_tail e He) as (b'&e'&->&Hall).
      destruct t as [|t0 t]; [done|]. cbn in Heq. injection Heq as -> Heq. cbn in Hgt.
      assert (e' !! length t = Some b) as Hlook.
      { rewrite <-(lookup_app_l e' s') by lia. rewrite <-Heq.
        rewrite lookup_app_r by lia.
        by replace (length t - length t)%nat with 0%nat by lia. }
      rewrite Forall_lookup in Hall. specialize (Hall _ _ Hlook). cbn in Hall. congruence.
Qed.

(** The defining property of TrimSpace. *)
Lemma trim_space_spec s :
  exists l r, white l /\ white r /\ s = l ++ trim_space s ++ r /\
    ~ starts_with_space (trim_space s) /\ ~ ends_with_space (trim_space s).
Proof.
  unfold trim_space.
  destruct (trim_left_spec s) as (l&Hl&Heq&Hn).
  destruct (trim_right_spec (trim_left s)) as (r&Hr&Heq'&Hn').
  exists l, r. split_and!; [done|done|by rewrite <-Heq'| |done].
  intros Hst. apply Hn. rewrite Heq'. destruct Hst as (e&s'&He&Heq2). exists e, (s' ++ r).
  split; [done|]. rewrite Heq2. by rewrite app_assoc.
Qed.

Lemma starts_with_space_nil : ~ starts_with_space [].
Proof. intros (e&s'&He&Heq). destruct e; [by eapply space_enc_nonempty|done]. Qed.
Lemma ends_with_space_nil : ~ ends_with_space [].
Proof. intros (e&s'&He&Heq). destruct e; [by eapply space_enc_nonempty|by destruct s']. Qed.

Lemma trim_space_unique l t r :
  white l -> white r -> ~ starts_with_space t -> ~ ends_with_space t ->
  trim_space (l ++ t ++ r) = t.
Proof.
  intros Hl Hr Hs He. unfold trim_space. rewrite trim_left_white by done.
  destruct t as [|t0 t].
  - cbn. destruct Hr as (lr&Hlr&->).
    induction Hlr as [|e lr' He' Hlr IH]; [done|]. cbn [concat]. by rewrite trim_left_space.
  - rewrite trim_left_nospace. 2:{ intros Hst. apply Hs. by eapply starts_with_space_app. }
    rewrite trim_right_white by done. by apply trim_right_nospace.
Qed.

Lemma trim_space_id t : ~ starts_with_space t -> ~ ends_with_space t -> trim_space t = t.
Proof.
  intros. pose proof (trim_space_unique [] t [] white_nil white_nil) as H1.
  cbn in H1. rewrite app_nil_r in H1. auto.
Qed.
Lemma trim_space_idemp s : trim_space (trim_space s) = trim_space s.
Proof. destruct (trim_space_spec s) as (l&r&_&_&_&H1&H2). by apply trim_space_id. Qed.

Lemma trim_space_white_l w s : white w -> trim_space (w ++ s) = trim_space s.
Proof. intros. unfold trim_space. by rewrite trim_left_white. Qed.
Lemma trim_space_white_r w s : white w -> trim_space (s ++ w) = trim_space s.
Proof.
  intros Hw. destruct (trim_space_spec s) as (l&r&Hl&Hr&Heq&H1&H2).
  rewrite Heq at 1. rewrite <-!app_assoc. apply trim_space_unique; [done|by apply white_app|done|done].
Qed.
Lemma trim_space_white w : white w -> trim_space w = [].
Proof.
  intros Hw. pose proof (trim_space_unique w [] [] Hw white_nil) as H.
  cbn in H. rewrite !app_nil_r in H. apply H; [apply starts_with_space_nil|apply ends_with_space_nil].
Qed.
Lemma trim_space_nil_inv s : trim_space s = [] -> white s.
Proof.
  intros H. destruct (trim_space_spec s) as (l&r&Hl&Hr&Heq&_). rewrite H in Heq. cbn in Heq.
  rewrite Heq. by apply white_app.
Qed.

(** A byte that neither occurs as first nor as last byte of an encoded space. *)
Definition ascii_nonspace (b : N) : Prop := b < 128 /\ is_space b = false.

Lemma not_starts b s : ascii_nonspace b -> ~ starts_with_space (b :: s).
Proof.
  intros [Hb Hs] (e&s'&He&Heq). destruct (decode_space_complete e s' He) as (r&Hd&Hr).
  rewrite <-Heq, decode_rune_ascii in Hd by done. injection Hd as <- _. congruence.
Qed.
Lemma not_ends b s : ascii_nonspace b -> ~ ends_with_space (s ++ [b]).
Proof.
  intros [Hb Hs] (e&s'&He&Heq).
  destruct (decode_last_space_complete e (rev s') He) as (r&Hd&Hr).
  rewrite <-rev_app_distr, <-Heq, rev_app_distr in Hd. cbn in Hd.
  destruct (N.ltb_spec b 128); [|lia]. injection Hd as <- _. congruence.
Qed.

(** Appending after an ASCII non-space byte: the right end is trimmed independently. *)
Lemma trim_right_after a b s : ascii_nonspace b -> trim_right ((a ++ [b]) ++ s) = (a ++ [b]) ++ trim_right s.
Proof.
  intros Hb. destruct (trim_right_spec s) as (w&Hw&Heq&Hn).
  rewrite Heq at 1. rewrite app_assoc, trim_right_white by done.
  apply trim_right_nospace. intros (e&s'&He&Heq2).
  destruct (decide (length e <= length (trim_right s))%nat) as [Hle|Hgt].
  - apply Hn. exists e, (take (length (trim_right s) - length e)%nat (trim_right s)). split; [done|].
    assert (drop (length s') ((a ++ [b]) ++ trim_right s) = e) as Hd by (rewrite Heq2; apply drop_app).
    assert (length s' + length e = length (a ++ [b]) + length (trim_right s))%nat as Hlen.
    { rewrite <-!app_length. by rewrite Heq2. }
    rewrite drop_app_ge in Hd by lia.
    replace (length s' - length (a ++ [b]))%nat with (length (trim_right s) - length e)%nat in Hd by lia.
    rewrite <-Hd at 2. by rewrite take_drop.
  - destruct (decide (trim_right s = [])) as [Hnil|Hnil].
    { rewrite Hnil, app_nil_r in Heq2. apply (not_ends b a Hb). by exists e, s'. }
    destruct (space_enc_tail e He) as (b'&e'&->&Hall).
    assert (length s' + S (length e') = length (a ++ [b]) + length (trim_right s))%nat as Hlen.
    { change (S (length e')) with (length (b' :: e')). rewrite <-!app_length. by rewrite Heq2. }
    rewrite app_length in Hlen. cbn in Hlen, Hgt.
    assert (((a ++ [b]) ++ trim_right s) !! length a = Some b) as Hl1.
    { rewrite <-app_assoc. apply list_lookup_middle. done. }
    rewrite Heq2 in Hl1. rewrite lookup_app_r in Hl1 by lia.
    assert (length (trim_right s) > 0)%nat by (destruct (trim_right s); [done|cbn; lia]).
    destruct (length a - length s')%nat as [|k] eqn:Hk; cbn in Hl1.
    + injection Hl1 as ->. destruct Hb as [Hb _].
      destruct (decode_space_complete _ [] He) as (r&Hd&_).
      rewrite app_nil_r, decode_rune_ascii in Hd by done. injection Hd as _ Hw'.
      destruct e'; cbn in *; [lia|discriminate].
    + rewrite Forall_lookup in Hall. specialize (Hall _ _ Hl1). cbn in Hall.
      apply between_true in Hall. destruct Hb. lia.
Qed.

Lemma trim_space_head b s : ascii_nonspace b -> trim_space (b :: s) = b :: trim_right s.
Proof.
  intros Hb. unfold trim_space. rewrite trim_left_nospace by by apply not_starts.
  apply (trim_right_after [] b s Hb).
Qed.

(** ** Prefixes *)
Lemma has_prefix_spec s p : has_prefix s p = true <-> exists t, s = p ++ t.
Proof.
  revert s. induction p as [|c p IH]; intros s; cbn.
  - split; [by exists s|done].
  - destruct s as [|b s]; [split; [done|by intros [t ?]]|].
    rewrite andb_true_iff, N.eqb_eq, IH. split.
    + intros [-> [t ->]]. by exists t.
    + intros [t [= -> ->]]. split; [done|by exists t].
Qed.
Lemma has_prefix_app p t : has_prefix (p ++ t) p = true.
Proof. apply has_prefix_spec. by exists t. Qed.
Lemma has_prefix_false s p : has_prefix s p = false <-> ~ exists t, s = p ++ t.
Proof. rewrite <-has_prefix_spec. destruct (has_prefix s p); split; congruence. Qed.

Lemma trim_prefix_app p t : trim_prefix (p ++ t) p = t.
Proof. unfold trim_prefix. rewrite has_prefix_app. apply drop_app. Qed.

(** strings.Index returns the first occurrence. *)
Lemma index_of_spec s sub i :
  index_of s sub = Some i <->
  (exists a b, s = a ++ sub ++ b /\ length a = i /\
     forall a' b', s = a' ++ sub ++ b' -> (i <= length a')%nat).
Proof.
  revert i. induction s as [|c s IH]; intros i.
  - cbn. destruct (has_prefix [] sub) eqn:Hp.
    + apply has_prefix_spec in Hp as [t Ht].
      destruct sub; [|done]. cbn in Ht. split.
      * intros [= <-]. exists [], []. split_and!; [done|done|intros; lia].
      * intros (a&b&Ha&<-&_). destruct a; done.
    + split; [done|]. intros (a&b&Ha&_). destruct a; [|done].
      apply has_prefix_false in Hp. destruct Hp. by exists b.
  - cbn [index_of]. destruct (has_prefix (c :: s) sub) eqn:Hp.
    + apply has_prefix_spec in Hp as [t Ht]. split.
      * intros [= <-]. exists [], t. split_and!; [done|done|intros; lia].
      * intros (a&b&Ha&<-&Hmin). specialize (Hmin [] t Ht). destruct a; [done|cbn in Hmin; lia].
    + apply has_prefix_false in Hp. destruct (index_of s sub) as [j|] eqn:Hj.
      * split.
        -- intros [= <-]. destruct (proj1 (IH j) eq_refl) as (a&b&Ha&<-&Hmin).
           exists (c :: a), b. split_and!; [by rewrite Ha|done|].
           intros [|c' a'] b' Heq; [destruct Hp; by exists b'|].
           cbn in Heq. injection Heq as _ Heq. cbn. specialize (Hmin _ _ Heq). lia.
        -- intros (a&b&Ha&<-&Hmin). destruct a as [|c' a]; [destruct Hp; by exists b|].
           cbn in Ha. injection Ha as <- Ha. cbn. f_equal. 
           enough (Some j = Some (length a)) by congruence. apply IH.
           exists a, b. split_and!; [done|done|]. intros a' b' Heq.
           specialize (Hmin (c :: a') b'). cbn in Hmin. rewrite Heq in Hmin. specialize (Hmin eq_refl). lia.
      * split; [done|]. intros (a&b&Ha&<-&Hmin). destruct a as [|c' a]; [destruct Hp; by exists b|].
        cbn in Ha. injection Ha as <- Ha.
        enough (None = Some (length a)) by done. apply IH.
        exists a, b. split_and!; [done|done|]. intros a' b' Heq.
        specialize (Hmin (c :: a') b'). cbn in Hmin. rewrite Heq in Hmin. specialize (Hmin eq_refl). lia.
Qed.
Lemma index_of_none s sub : index_of s sub = None <-> ~ exists a b, s = a ++ sub ++ b.
Proof.
  induction s as [|c s IH].
  - cbn. destruct (has_prefix [] sub) eqn:Hp.
    + apply has_prefix_spec in Hp as [t Ht]. split; [done|]. intros H. destruct H. by exists [], t.
    + split; [|done]. intros _ (a&b&Ha). apply has_prefix_false in Hp. destruct Hp. destruct a; [by exists b|done].
  - cbn [index_of]. destruct (has_prefix (c :: s) sub) eqn:Hp.
    + apply has_prefix_spec in Hp as [t Ht]. split; [done|]. intros H. destruct H. by exists [], t.
    + apply has_prefix_false in Hp. destruct (index_of s sub) as [j|] eqn:Hj.
      * split; [done|]. intros H. apply index_of_spec in Hj as (a&b&Ha&_). destruct H.
        exists (c :: a), b. by rewrite Ha.
      * split; [|done]. intros _ ([|c' a]&b&Ha); [destruct Hp; by exists b|].
        cbn in Ha. injection Ha as <- Ha. destruct IH as [IH _]. destruct (IH eq_refl). by exists a, b.
Qed.

(** ** Split and join *)
Lemma split_on_nonempty sep s : split_on sep s <> [].
Proof. destruct s as [|b s]; cbn; [done|]. destruct (b =? sep); [done|]. by case_match. Qed.

Lemma split_on_nosep sep s : sep ∉ s -> split_on sep s = [s].
Proof.
  induction s as [|b s IH]; intros Hn; [done|]. cbn.
  destruct (N.eqb_spec b sep) as [->|Hne]; [destruct Hn; by left|].
  rewrite IH; [done|]. intros H; apply Hn; by right.
Qed.
Lemma split_on_cons sep seg s : sep ∉ seg -> split_on sep (seg ++ sep :: s) = seg :: split_on sep s.
Proof.
  induction seg as [|b seg IH]; intros Hn; cbn.
  - by rewrite N.eqb_refl.
  - destruct (N.eqb_spec b sep) as [->|Hne]; [destruct Hn; by left|].
    rewrite IH; [done|]. intros H; apply Hn; by right.
Qed.
Lemma split_on_join sep l : l <> [] -> Forall (fun s => sep ∉ s) l -> split_on sep (join [sep] l) = l.
Proof.
  intros Hne HF. induction HF as [|s l Hs Hl IH]; [done|].
  destruct l as [|s' l]; [by apply split_on_nosep|].
  change (join [sep] (s :: s' :: l)) with (s ++ sep :: join [sep] (s' :: l)).
  rewrite split_on_cons by done. rewrite IH by done. done.
Qed.
Lemma split_on_no_sep sep s : Forall (fun seg => sep ∉ seg) (split_on sep s).
Proof.
  induction s as [|b s IH]; cbn; [repeat constructor; by apply not_elem_of_nil|].
  destruct (N.eqb_spec b sep) as [->|Hne]; [constructor; [apply not_elem_of_nil|done]|].
  destruct (split_on sep s) as [|seg segs]; [repeat constructor; set_solver|].
  apply Forall_cons in IH as [H1 H2]. constructor; [|done]. set_solver.
Qed.
Lemma join_split sep s : join [sep] (split_on sep s) = s.
Proof.
  induction s as [|b s IH]; [done|]. cbn [split_on].
  destruct (N.eqb_spec b sep) as [->|Hne].
  - destruct (split_on sep s) as [|x l] eqn:E; [by destruct (split_on_nonempty sep s)|].
    change (join [sep] ([] :: x :: l)) with (sep :: join [sep] (x :: l)). by rewrite IH.
  - destruct (split_on sep s) as [|x l] eqn:E; [by destruct (split_on_nonempty sep s)|].
    destruct l as [|y l]; [cbn in *; by rewrite IH|].
    change (join [sep] ((b :: x) :: y :: l)) with (b :: join [sep] (x :: y :: l)). by rewrite IH.
Qed.
