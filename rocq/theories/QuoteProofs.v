(** * Facts about the text of string constants (Quote.v). *)
From Coq Require Import Ascii String.
From stdpp Require Import base list gmap.
From Verif Require Import GoString ErrorCode Constant GoStringProofs Quote.
Local Open Scope N_scope.

Ltac bools :=
  repeat match goal with
  | H : (_ && _) = true |- _ => apply andb_prop in H as [? ?]
  | H : (_ || _) = false |- _ => apply orb_false_elim in H as [? ?]
  | H : between _ _ _ = true |- _ => apply between_true in H
  | H : between _ _ _ = false |- _ => apply between_false in H
  | H : (_ <? _) = true |- _ => apply N.ltb_lt in H
  | H : (_ <? _) = false |- _ => apply N.ltb_ge in H
  | H : (_ =? _) = true |- _ => apply N.eqb_eq in H
  | H : (_ =? _) = false |- _ => apply N.eqb_neq in H
  end.

(** A rune that has an encoding of its own. *)
Definition good_rune (r : N) : Prop := r <= 1114111 /\ ~ (55296 <= r <= 57343).

Lemma encode_decode r rest : good_rune r -> decode_rune (encode_rune r ++ rest) = (r, length (encode_rune r)).
Proof.
  intros [Hr Hs]. unfold encode_rune.
  pose proof (N.div_mod r 64 ltac:(lia)) as D0. pose proof (N.mod_lt r 64 ltac:(lia)) as M0.
  pose proof (N.div_mod (r/64) 64 ltac:(lia)) as D1. pose proof (N.mod_lt (r/64) 64 ltac:(lia)) as M1.
  pose proof (N.div_mod (r/4096) 64 ltac:(lia)) as D2. pose proof (N.mod_lt (r/4096) 64 ltac:(lia)) as M2.
  assert (r / 64 / 64 = r / 4096) as E1 by (rewrite N.div_div by lia; reflexivity).
  assert (r / 4096 / 64 = r / 262144) as E2 by (rewrite N.div_div by lia; reflexivity).
  rewrite E1 in D1. rewrite E2 in D2.
  generalize dependent (r / 262144); intros d3. generalize dependent (r/4096 mod 64); intros m2. generalize dependent (r/4096); intros d2.
  generalize dependent (r/64 mod 64); intros m1. generalize dependent (r/64); intros d1.
  generalize dependent (r mod 64); intros m0. intros.
  destruct (r <? 128) eqn:E; bools; [cbn; by rewrite (proj2 (N.ltb_lt _ _)) by done|].
  destruct (r <? 2048) eqn:E'; bools.
  { cbn [app length decode_rune].
    rewrite (proj2 (N.ltb_ge _ _)) by lia. rewrite (proj2 (between_true _ _ _)) by lia.
    rewrite (proj2 (between_true _ _ _)) by lia. f_equal. lia. }
  rewrite (proj2 (N.ltb_ge _ _)) by lia. rewrite (proj2 (between_false 55296 _ _)) by lia. cbn [orb].
  destruct (r <? 65536) eqn:E3; bools.
  { cbn [app length decode_rune].
    rewrite (proj2 (N.ltb_ge _ _)) by lia. rewrite (proj2 (between_false 194 _ _)) by lia.
    rewrite (proj2 (between_true 224 _ _)) by lia.
    rewrite (proj2 (between_true _ (128 + m1) _)) by (destruct (224 + d2 =? 224) eqn:?, (224 + d2 =? 237) eqn:?; bools; lia).
    rewrite (proj2 (between_true _ _ _)) by lia. cbn [andb]. f_equal. lia. }
  cbn [app length decode_rune].
  rewrite (proj2 (N.ltb_ge _ _)) by lia. rewrite (proj2 (between_false 194 _ _)) by lia.
  rewrite (proj2 (between_false 224 _ _)) by lia. rewrite (proj2 (between_true 240 _ _)) by lia.
  rewrite (proj2 (between_true _ (128 + m2) _)) by (destruct (240 + d3 =? 240) eqn:?, (240 + d3 =? 244) eqn:?; bools; lia).
  rewrite !(proj2 (between_true _ _ _)) by lia. cbn [andb]. f_equal. lia.
Qed.

Lemma div_mod_unique a b q r : r < b -> a = b * q + r -> a / b = q /\ a mod b = r.
Proof. intros ? ->. split; [symmetry; by eapply N.div_unique|symmetry; by eapply N.mod_unique]. Qed.

(** What is decoded is either one byte that is not the start of an encoding, or the encoding of a rune. *)
Lemma decode_cases b s r w :
  decode_rune (b :: s) = (r, w) ->
  (r = rune_error /\ w = 1%nat /\ 128 <= b) \/
  (good_rune r /\ ~ (r = rune_error /\ w = 1%nat) /\ w = length (encode_rune r) /\ exists rest, b :: s = encode_rune r ++ rest).
Proof.
  intros Hd. destruct (b <? 128) eqn:E0; bools.
  { rewrite decode_rune_ascii in Hd by done. injection Hd as <- <-. right.
    unfold encode_rune, rune_error. rewrite (proj2 (N.ltb_lt _ _)) by done.
    split_and!; [split; lia|lia|done|by exists s]. }
  unfold decode_rune in Hd. rewrite (proj2 (N.ltb_ge _ _)) in Hd by lia.
  destruct (between 194 b 223) eqn:E1; bools.
  { destruct s as [|b1 s]; [left; by injection Hd as <- <-|].
    destruct (between 128 b1 191) eqn:E2; bools; [|left; by injection Hd as <- <-].
    injection Hd as <- <-. right. set (r := (b - 192) * 64 + (b1 - 128)).
    destruct (div_mod_unique r 64 (b - 192) (b1 - 128)) as [D M]; [lia|unfold r; lia|].
    assert (encode_rune r = [b; b1]) as ->.
    { unfold encode_rune. rewrite (proj2 (N.ltb_ge _ _)) by (unfold r; lia). rewrite (proj2 (N.ltb_lt _ _)) by (unfold r; lia).
      rewrite D, M. f_equal; [lia|f_equal; lia]. }
    unfold good_rune, r. split_and!; [lia|lia|intros [_ ?]; done|done|by exists s]. }
  destruct (between 224 b 239) eqn:E2; bools.
  { destruct s as [|b1 [|b2 s]]; try (left; by injection Hd as <- <-).
    match type of Hd with (if ?c then _ else _) = _ => destruct c eqn:E3 end; bools; [|left; by injection Hd as <- <-].
    injection Hd as <- <-. right. set (r := (b - 224) * 4096 + (b1 - 128) * 64 + (b2 - 128)).
    assert (128 <= b1 <= 191 /\ 2048 <= r /\ ~ (55296 <= r <= 57343)) as (Hb1 & Hlo & Hsur).
    { unfold r. destruct (b =? 224) eqn:?, (b =? 237) eqn:?; bools; lia. }
    destruct (div_mod_unique r 64 ((b - 224) * 64 + (b1 - 128)) (b2 - 128)) as [D M]; [lia|unfold r; lia|].
    destruct (div_mod_unique r 4096 (b - 224) ((b1 - 128) * 64 + (b2 - 128))) as [D' _]; [lia|unfold r; lia|].
    destruct (div_mod_unique ((b - 224) * 64 + (b1 - 128)) 64 (b - 224) (b1 - 128)) as [_ M']; [lia|lia|].
    assert (encode_rune r = [b; b1; b2]) as ->.
    { unfold encode_rune. rewrite (proj2 (N.ltb_ge _ 128)) by lia. rewrite (proj2 (N.ltb_ge _ 2048)) by lia.
      rewrite (proj2 (N.ltb_ge _ r)) by (unfold r; lia). rewrite (proj2 (between_false _ _ _)) by lia. cbn [orb].
      rewrite (proj2 (N.ltb_lt _ 65536)) by (unfold r; lia).
      rewrite D', D, M, M'. f_equal; [lia|f_equal; [lia|f_equal; lia]]. }
    unfold good_rune. split_and!; [unfold r; lia|lia|intros [_ ?]; done|done|by exists s]. }
  destruct (between 240 b 244) eqn:E3; bools; [|left; by injection Hd as <- <-].
  destruct s as [|b1 [|b2 [|b3 s]]]; try (left; by injection Hd as <- <-).
  match type of Hd with (if ?c then _ else _) = _ => destruct c eqn:E4 end; bools; [|left; by injection Hd as <- <-].
  injection Hd as <- <-. right. set (r := (b - 240) * 262144 + (b1 - 128) * 4096 + (b2 - 128) * 64 + (b3 - 128)).
  assert (128 <= b1 <= 191 /\ 65536 <= r <= 1114111) as (Hb1 & Hlo).
  { unfold r. destruct (b =? 240) eqn:?, (b =? 244) eqn:?; bools; lia. }
  destruct (div_mod_unique r 64 ((b - 240) * 4096 + (b1 - 128) * 64 + (b2 - 128)) (b3 - 128)) as [D M]; [lia|unfold r; lia|].
  destruct (div_mod_unique r 4096 ((b - 240) * 64 + (b1 - 128)) ((b2 - 128) * 64 + (b3 - 128))) as [D1 _]; [lia|unfold r; lia|].
  destruct (div_mod_unique r 262144 (b - 240) ((b1 - 128) * 4096 + (b2 - 128) * 64 + (b3 - 128))) as [D2 _]; [lia|unfold r; lia|].
  destruct (div_mod_unique ((b - 240) * 4096 + (b1 - 128) * 64 + (b2 - 128)) 64 ((b - 240) * 64 + (b1 - 128)) (b2 - 128)) as [_ M1]; [lia|lia|].
  destruct (div_mod_unique ((b - 240) * 64 + (b1 - 128)) 64 (b - 240) (b1 - 128)) as [_ M2]; [lia|lia|].
  assert (encode_rune r = [b; b1; b2; b3]) as ->.
  { unfold encode_rune. rewrite (proj2 (N.ltb_ge _ 128)) by lia. rewrite (proj2 (N.ltb_ge _ 2048)) by lia.
    rewrite (proj2 (N.ltb_ge _ r)) by lia. rewrite (proj2 (between_false _ _ _)) by lia. cbn [orb].
    rewrite (proj2 (N.ltb_ge _ 65536)) by lia.
    rewrite D2, D1, D, M, M1, M2. f_equal; [lia|f_equal; [lia|f_equal; [lia|f_equal; lia]]]. }
  unfold good_rune. split_and!; [lia|lia|intros [_ ?]; done|done|by exists s].
Qed.

Lemma decode_width b s r w : decode_rune (b :: s) = (r, w) -> (1 <= w <= length (b :: s))%nat.
Proof.
  intros Hd. split; [pose proof (decode_rune_pos b s) as H; by rewrite Hd in H|].
  destruct (decode_cases _ _ _ _ Hd) as [(_ & -> & _)|(_ & _ & -> & rest & ->)]; [cbn; lia|]. rewrite app_length. lia.
Qed.

(** Induction along the runes of a string. *)


Lemma rune_ind (P : list N -> Prop) :
  P [] ->
  (forall b s r w, decode_rune (b :: s) = (r, w) -> P (drop w (b :: s)) -> P (b :: s)) ->
  forall s : list N, P s.
Proof.
  intros H0 H1.
  assert (forall n s, (length s <= n)%nat -> P s) as H; [|intros s; by apply (H (length s))].
  induction n as [|n IH]; intros [|b s] Hl; cbn [length] in Hl; [done|lia|done|].
  destruct (decode_rune (b :: s)) as [r w] eqn:Hd. pose proof (decode_width _ _ _ _ Hd).
  apply (H1 b s r w Hd). apply IH. rewrite drop_length. cbn [length]. lia.
Qed.

Lemma runes_from_drop k s : runes_from k s = runes_from 0 (drop k s).
Proof. revert s; induction k as [|k IH]; intros [|b s]; try done. cbn [runes_from drop]. apply IH. Qed.
Lemma runes_step b s r w : decode_rune (b :: s) = (r, w) -> runes (b :: s) = r :: runes (drop w (b :: s)).
Proof.
  intros Hd. pose proof (decode_width _ _ _ _ Hd). unfold runes. cbn [runes_from]. rewrite Hd. rewrite runes_from_drop.
  destruct w as [|w]; [lia|]. cbn [drop]. by rewrite Nat.sub_succ, Nat.sub_0_r.
Qed.
Lemma quote_from_drop ip k s : quote_from ip k s = quote_from ip 0 (drop k s).
Proof. revert s; induction k as [|k IH]; intros [|b s]; try done. cbn [quote_from drop]. apply IH. Qed.
Lemma quote_step ip b s r w :
  decode_rune (b :: s) = (r, w) -> quote_from ip 0 (b :: s) = quote_piece ip b r w ++ quote_from ip 0 (drop w (b :: s)).
Proof.
  intros Hd. pose proof (decode_width _ _ _ _ Hd). cbn [quote_from]. rewrite Hd. rewrite quote_from_drop.
  destruct w as [|w]; [lia|]. cbn [drop]. by rewrite Nat.sub_succ, Nat.sub_0_r.
Qed.
Lemma quoted_runes_drop ip k s : quoted_runes_from ip k s = quoted_runes_from ip 0 (drop k s).
Proof. revert s; induction k as [|k IH]; intros [|b s]; try done. cbn [quoted_runes_from drop]. apply IH. Qed.
Lemma quoted_runes_step ip b s r w :
  decode_rune (b :: s) = (r, w) ->
  quoted_runes_from ip 0 (b :: s) = (quoted_width ip r w + quoted_runes_from ip 0 (drop w (b :: s)))%nat.
Proof.
  intros Hd. pose proof (decode_width _ _ _ _ Hd). cbn [quoted_runes_from]. rewrite Hd. rewrite quoted_runes_drop.
  destruct w as [|w]; [lia|]. cbn [drop]. by rewrite Nat.sub_succ, Nat.sub_0_r.
Qed.
Lemma valid_utf8_drop k s : valid_utf8_from k s = valid_utf8_from 0 (drop k s).
Proof. revert s; induction k as [|k IH]; intros [|b s]; try done. cbn [valid_utf8_from drop]. apply IH. Qed.
Lemma valid_step b s r w :
  decode_rune (b :: s) = (r, w) ->
  valid_utf8 (b :: s) = negb ((r =? rune_error) && (w =? 1)%nat) && valid_utf8 (drop w (b :: s)).
Proof.
  intros Hd. pose proof (decode_width _ _ _ _ Hd). unfold valid_utf8. cbn [valid_utf8_from]. rewrite Hd. rewrite valid_utf8_drop.
  destruct w as [|w]; [lia|]. cbn [drop]. by rewrite Nat.sub_succ, Nat.sub_0_r.
Qed.

(** ** Hexadecimal digits *)
Lemma unhex_digit n : n < 16 -> unhex (hex_digit n) = Some n.
Proof.
  intros Hn. unfold hex_digit, unhex. destruct (n <? 10) eqn:E; bools.
  - rewrite (proj2 (between_true _ _ _)) by lia. f_equal. lia.
  - rewrite (proj2 (between_false 48 _ _)) by lia. rewrite (proj2 (between_true 97 _ _)) by lia. f_equal. lia.
Qed.
Lemma hex_digit_ascii n : n < 16 -> 48 <= hex_digit n < 128 /\ hex_digit n <> 34 /\ hex_digit n <> backslash.
Proof. unfold hex_digit, backslash. intros. destruct (n <? 10) eqn:?; bools; lia. Qed.
Lemma unhexes_app k j v s : 
  unhexes (k + j) v s = match unhexes k v s with Some (v', s') => unhexes j v' s' | None => None end.
Proof.
  revert v s; induction k as [|k IH]; intros v s; [done|]. cbn [Nat.add unhexes].
  destruct s as [|b s]; [done|]. destruct (unhex b); [apply IH|done].
Qed.
Lemma unhexes_hexes k r v rest :
  r < 16 ^ N.of_nat k -> unhexes k v (hexes k r ++ rest) = Some (v * 16 ^ N.of_nat k + r, rest).
Proof.
  revert r v rest; induction k as [|k IH]; intros r v rest Hr.
  - cbn in *. f_equal. f_equal. lia.
  - rewrite Nat2N.inj_succ, N.pow_succ_r' in *. cbn [hexes]. rewrite <- app_assoc.
    assert (r / 16 < 16 ^ N.of_nat k) by (apply N.div_lt_upper_bound; lia).
    replace (S k) with (k + 1)%nat by lia. rewrite unhexes_app, IH by done. cbn [app unhexes].
    pose proof (N.mod_lt r 16 ltac:(lia)). rewrite unhex_digit by done. f_equal. f_equal.
    pose proof (N.div_mod r 16 ltac:(lia)). lia.
Qed.
Lemma hexes_length k r : length (hexes k r) = k.
Proof. revert r; induction k as [|k IH]; intros r; [done|]. cbn [hexes]. rewrite app_length, IH. cbn. lia. Qed.
Lemma hexes_ascii k r : Forall (fun b => 48 <= b < 128 /\ b <> 34 /\ b <> backslash) (hexes k r).
Proof.
  revert r; induction k as [|k IH]; intros r; [constructor|]. cbn [hexes]. apply Forall_app. split; [apply IH|].
  constructor; [|constructor]. apply hex_digit_ascii. apply N.mod_lt. lia.
Qed.
Lemma unhexes_short k v h rest : (length h < k)%nat -> unhexes k v (h ++ 46 :: rest) = None.
Proof.
  revert v h; induction k as [|k IH]; intros v h Hl; [lia|]. destruct h as [|b h]; cbn [app unhexes]; [done|].
  destruct (unhex b); [|done]. apply IH. cbn in Hl. lia.
Qed.

(** ** The pieces of a quoted text *)
(** The bytes strconv.unquote writes for one rune. *)
Definition emitted (v : N) (multibyte : bool) : gostring := if (v <? 128) || negb multibyte then [v] else encode_rune v.
Definition escape (p bytes : gostring) : Prop :=
  (exists e, p = backslash :: e) /\ Forall (fun c => c < 128) p /\
  (forall rest, exists v mb, unquote_char (p ++ rest) = Some (v, mb, rest) /\ emitted v mb = bytes) /\
  (forall n rest, (1 <= n < length p)%nat -> unquote_char (take n p ++ 46 :: rest) = None).

Lemma escape_letter l v rest0 : 
  (forall rest, unquote_char (backslash :: l :: rest) = Some (v, false, rest)) -> l < 128 -> rest0 = [v] ->
  escape [backslash; l] rest0.
Proof.
  intros Hu Hl ->. split; [eexists; done|]. split; [constructor; [done|constructor; [done|constructor]]|]. split.
  - intros rest. exists v, false. split; [apply Hu|]. unfold emitted. by rewrite orb_true_r.
  - intros n rest Hn. cbn in Hn. assert (n = 1%nat) as -> by lia. reflexivity.
Qed.
Lemma escape_hexes l k r mb bytes :
  l < 128 -> r < 16 ^ N.of_nat k ->
  (forall s2, unquote_char (backslash :: l :: s2) = 
     match unhexes k 0 s2 with Some (v, s3) => if 1114111 <? v then None else Some (v, mb, s3) | None => None end) ->
  r <= 1114111 -> emitted r mb = bytes ->
  escape (backslash :: l :: hexes k r) bytes.
Proof.
  intros Hl Hr Hu Hmax He. split; [eexists; done|]. split.
  { constructor; [done|]. constructor; [done|]. eapply Forall_impl; [apply hexes_ascii|]. cbn. lia. }
  split.
  - intros rest. exists r, mb. split; [|done]. cbn [app]. rewrite Hu, unhexes_hexes by done.
    rewrite N.mul_0_l, N.add_0_l. by rewrite (proj2 (N.ltb_ge _ _)) by done.
  - intros n rest Hn. cbn [length] in Hn. rewrite hexes_length in Hn.
    destruct n as [|[|n]]; [lia|reflexivity|]. cbn [take app]. rewrite Hu, unhexes_short; [done|].
    rewrite take_length, hexes_length. lia.
Qed.

Lemma encode_take b s r w : w = length (encode_rune r) -> (exists rest, b :: s = encode_rune r ++ rest) -> take w (b :: s) = encode_rune r.
Proof. intros -> [rest ->]. apply take_app. Qed.
Lemma encode_ascii r : r < 128 -> encode_rune r = [r].
Proof. intros H. unfold encode_rune. by rewrite (proj2 (N.ltb_lt _ _)) by done. Qed.

Lemma piece_cases ip b s r w :
  b < 256 -> decode_rune (b :: s) = (r, w) ->
  (quote_piece ip b r w = encode_rune r /\ take w (b :: s) = encode_rune r /\ good_rune r /\ quoted_width ip r w = 1%nat /\
   r <> 34 /\ r <> backslash /\ r <> 10) \/
  (escape (quote_piece ip b r w) (take w (b :: s)) /\ quoted_width ip r w = length (quote_piece ip b r w)).
Proof.
  intros Hb Hd. unfold quote_piece, quoted_width.
  destruct (decode_cases _ _ _ _ Hd) as [(-> & -> & Hb')|(Hgood & Hne & Hw & Hrest)].
  { right. cbn [N.eqb Pos.eqb andb Nat.eqb rune_error].
    split; [|cbn [length app str]; change (str "x") with [120]; cbn [app length]; by rewrite hexes_length].
    change (str "x") with [120]. cbn [app take].
    apply (escape_hexes 120 2 b false); [done|exact Hb| |lia|].
    - intros s2. cbn [unquote_char N.leb N.eqb negb backslash]. destruct (unhexes 2 0 s2) as [[v s3]|] eqn:E; [|done].
      assert (v < 256) as Hv.
      { destruct s2 as [|c1 [|c2 s2]]; cbn in E; try (destruct (unhex c1); discriminate); [done|].
        assert (forall c x, unhex c = Some x -> x < 16) as Hx.
        { intros c x. unfold unhex. destruct (between 48 c 57) eqn:?; [|destruct (between 97 c 102) eqn:?; [|destruct (between 65 c 70) eqn:?]];
            bools; intros [=]; lia. }
        destruct (unhex c1) as [x1|] eqn:E1; [|done]. destruct (unhex c2) as [x2|] eqn:E2; [|done].
        apply Hx in E1, E2. injection E as <- <-. lia. }
      by rewrite (proj2 (N.ltb_ge _ _)) by lia.
    - unfold emitted. by rewrite orb_true_r. }
  assert (((r =? rune_error) && (w =? 1)%nat) = false) as ->.
  { destruct (r =? rune_error) eqn:E1; [|done]. destruct (w =? 1)%nat eqn:E2; [|done]. bools. apply Nat.eqb_eq in E2. destruct Hne. done. }
  rewrite (encode_take _ _ _ _ Hw Hrest).
  destruct ((r =? 34) || (r =? backslash)) eqn:E1.
  { right. assert (r = 34 \/ r = backslash) as Hr by (unfold backslash in *; lia).
    change ((r =? 34) || (r =? 92)) with ((r =? 34) || (r =? backslash)). rewrite E1.
    split; [|done]. destruct Hr as [-> | ->].
    - apply (escape_letter 34 34); [done|done|by rewrite encode_ascii].
    - apply (escape_letter backslash backslash); [done|done|by rewrite encode_ascii]. }
  change ((r =? 34) || (r =? 92)) with ((r =? 34) || (r =? backslash)). rewrite E1. bools.
  destruct (if r <? 128 then between 32 r 126 else ip r) eqn:E2.
  { left. split_and!; try done. destruct (r <? 128) eqn:E3; bools; lia. }
  right.
  destruct (between 7 r 13) eqn:E3.
  { bools. assert (r = 7 \/ r = 8 \/ r = 9 \/ r = 10 \/ r = 11 \/ r = 12 \/ r = 13) as Hr by lia.
    destruct Hr as [-> |[-> |[-> |[-> |[-> |[-> | ->]]]]]]; (split; [|reflexivity]);
      (eapply escape_letter; [intros; reflexivity|reflexivity|by rewrite encode_ascii]). }
  bools.
  rewrite (proj2 (N.eqb_neq r 7)), (proj2 (N.eqb_neq r 8)), (proj2 (N.eqb_neq r 12)), (proj2 (N.eqb_neq r 10)),
    (proj2 (N.eqb_neq r 13)), (proj2 (N.eqb_neq r 9)), (proj2 (N.eqb_neq r 11)) by lia.
  destruct ((r <? 32) || (r =? 127)) eqn:E4.
  { assert (r < 128) as Hr by (apply orb_true_elim in E4 as [?|?]; bools; lia).
    change (str "x") with [120]. cbn [app]. split; [|cbn [length]; by rewrite hexes_length].
    rewrite encode_ascii by done.
    apply (escape_hexes 120 2 r false); [done|change (16 ^ N.of_nat 2) with 256; lia| |lia|].
    - intros s2. cbn [unquote_char N.leb N.eqb negb backslash]. destruct (unhexes 2 0 s2) as [[v s3]|] eqn:E; [|done].
      assert (v < 256) as Hv.
      { destruct s2 as [|c1 [|c2 s2]]; cbn in E; try (destruct (unhex c1); discriminate); [done|].
        assert (forall c x, unhex c = Some x -> x < 16) as Hx.
        { intros c x. unfold unhex. destruct (between 48 c 57) eqn:?; [|destruct (between 97 c 102) eqn:?; [|destruct (between 65 c 70) eqn:?]];
            bools; intros [=]; lia. }
        destruct (unhex c1) as [x1|] eqn:E6; [|done]. destruct (unhex c2) as [x2|] eqn:E7; [|done].
        apply Hx in E6, E7. injection E as <- <-. lia. }
      by rewrite (proj2 (N.ltb_ge _ _)) by lia.
    - unfold emitted. by rewrite orb_true_r. }
  bools. destruct Hgood as [Hmax Hsur].
  assert (128 <= r) as H128.
  { destruct (r <? 128) eqn:E5; bools; lia. }
  assert (emitted r true = encode_rune r) as He by (unfold emitted; by rewrite (proj2 (N.ltb_ge _ _)) by done).
  destruct (r <? 65536) eqn:E5; bools.
  - change (str "u") with [117]. cbn [app]. split; [|cbn [length]; by rewrite hexes_length].
    apply (escape_hexes 117 4 r true); [done|change (16 ^ N.of_nat 4) with 65536; lia|reflexivity|done|done].
  - change (str "U") with [85]. cbn [app]. split; [|cbn [length]; by rewrite hexes_length].
    apply (escape_hexes 85 8 r true); [done|change (16 ^ N.of_nat 8) with 4294967296; lia|reflexivity|done|done].
Qed.

(** ** Counting and cutting at runes *)
Lemma runes_ascii_app p rest : Forall (fun c => c < 128) p -> length (runes (p ++ rest)) = (length p + length (runes rest))%nat.
Proof.
  induction 1 as [|c p Hc _ IH]; [done|]. cbn [app]. rewrite (runes_step c _ c 1) by (by rewrite decode_rune_ascii).
  cbn [drop length]. rewrite drop_0, IH. lia.
Qed.
Lemma encode_nonempty r : exists b e, encode_rune r = b :: e.
Proof. unfold encode_rune. repeat (case_match; [by do 2 eexists|]). by do 2 eexists. Qed.
Lemma runes_encode r rest : good_rune r -> length (runes (encode_rune r ++ rest)) = S (length (runes rest)).
Proof.
  intros Hg. pose proof (encode_decode r rest Hg) as Hd. destruct (encode_nonempty r) as (b & e & E). rewrite E in *.
  cbn [app] in *. rewrite (runes_step _ _ _ _ Hd). cbn [length]. f_equal. f_equal. 
  change (drop (length (b :: e)) ((b :: e) ++ rest)) with (drop (length (b :: e)) ((b :: e) ++ rest)). f_equal. apply drop_app.
Qed.
Lemma take_runes_ascii p n rest : Forall (fun c => c < 128) p -> (n <= length p)%nat -> take_runes n (p ++ rest) = take n p.
Proof.
  revert n. induction p as [|c p IH]; intros n Hp Hn; cbn [length] in Hn.
  - assert (n = 0%nat) as -> by lia. done.
  - destruct n as [|n]; [done|]. apply Forall_cons in Hp as [Hc Hp]. cbn [app take_runes take]. rewrite decode_rune_ascii by done.
    cbn [take drop app]. rewrite drop_0. f_equal. apply IH; [done|lia].
Qed.
Lemma take_runes_ascii_more p n rest :
  Forall (fun c => c < 128) p -> take_runes (length p + n) (p ++ rest) = p ++ take_runes n rest.
Proof.
  induction 1 as [|c p Hc _ IH]; [done|]. cbn [app length Nat.add take_runes]. rewrite decode_rune_ascii by done.
  cbn [take drop app]. rewrite drop_0. f_equal. apply IH.
Qed.
Lemma take_runes_encode r n rest : good_rune r -> take_runes (S n) (encode_rune r ++ rest) = encode_rune r ++ take_runes n rest.
Proof. intros Hg. cbn [take_runes]. rewrite encode_decode by done. by rewrite take_app, drop_app. Qed.

Lemma Forall_drop_bytes w (s : gostring) : Forall (fun b => b < 256) s -> Forall (fun b => b < 256) (drop w s).
Proof. apply Forall_drop. Qed.

(** The number of runes does not need bytes below 256. *)
Lemma piece_count ip b s r w : decode_rune (b :: s) = (r, w) ->
  (quote_piece ip b r w = encode_rune r /\ good_rune r /\ quoted_width ip r w = 1%nat) \/
  (Forall (fun c => c < 128) (quote_piece ip b r w) /\ quoted_width ip r w = length (quote_piece ip b r w)).
Proof.
  intros Hd. destruct (decide (b < 256)) as [Hb|Hb].
  { destruct (piece_cases ip b s r w Hb Hd) as [(? & _ & ? & ? & _)|((_ & ? & _) & ?)]; [by left|by right]. }
  destruct (decode_cases _ _ _ _ Hd) as [(-> & -> & _)|(_ & _ & _ & rest & E)].
  - right. unfold quote_piece, quoted_width. cbn [N.eqb Pos.eqb andb Nat.eqb rune_error]. change (str "x") with [120]. cbn [app].
    split; [|cbn [length]; by rewrite hexes_length]. constructor; [done|]. constructor; [done|].
    eapply Forall_impl; [apply hexes_ascii|]. cbn. lia.
  - exfalso. apply Hb. clear -E. pose proof (N.mod_lt r 64 ltac:(lia)). unfold encode_rune in E.
    destruct (r <? 128) eqn:E1; [injection E as -> _; bools; lia|]. 
    destruct (r <? 2048) eqn:E2; [injection E as -> _; bools; pose proof (N.div_lt_upper_bound r 64 32 ltac:(lia)); lia|].
    destruct ((1114111 <? r) || between 55296 r 57343) eqn:E3; [injection E as -> _; lia|].
    destruct (r <? 65536) eqn:E4; [injection E as -> _; bools; pose proof (N.div_lt_upper_bound r 4096 16 ltac:(lia)); lia|].
    injection E as -> _. bools. pose proof (N.div_lt_upper_bound r 262144 5 ltac:(lia)). lia.
Qed.
Lemma quote_runes ip (s : list N) :
  forall rest, length (runes (quote_from ip 0 s ++ rest)) = (quoted_runes_from ip 0 s + length (runes rest))%nat.
Proof.
  induction s as [|b s r w Hd IH] using rune_ind; intros rest; [done|].
  rewrite (quote_step _ _ _ _ _ Hd), (quoted_runes_step _ _ _ _ _ Hd), <- app_assoc. specialize (IH rest).
  destruct (piece_count ip _ _ _ _ Hd) as [(-> & Hg & ->)|(Ha & ->)].
  - rewrite runes_encode by done. rewrite IH. lia.
  - rewrite runes_ascii_app by done. rewrite IH. lia.
Qed.

(** ** Unquoting *)
(** A literal rune is read back. *)
Lemma unquote_literal r rest :
  good_rune r -> r <> 34 -> r <> backslash ->
  exists v mb, unquote_char (encode_rune r ++ rest) = Some (v, mb, rest) /\ emitted v mb = encode_rune r.
Proof.
  intros Hg H34 Hbs. destruct (r <? 128) eqn:E; bools.
  - rewrite encode_ascii by done. exists r, false. split; [|unfold emitted; by rewrite orb_true_r].
    cbn [app unquote_char]. rewrite (proj2 (N.eqb_neq _ _) H34), (proj2 (N.leb_gt _ _) E), (proj2 (N.eqb_neq _ _) Hbs). done.
  - exists r, true. split; [|unfold emitted; by rewrite (proj2 (N.ltb_ge _ _)) by done].
    pose proof (encode_decode r rest Hg) as Hd.
    assert (exists b e, encode_rune r = b :: e /\ 128 <= b) as (b & e & Ee & Hb).
    { unfold encode_rune. rewrite (proj2 (N.ltb_ge _ _)) by done. repeat (case_match; [do 2 eexists; split; [done|lia]|]).
      do 2 eexists; split; [done|lia]. }
    rewrite Ee in *. cbn [app] in *. cbn [unquote_char]. rewrite (proj2 (N.eqb_neq b 34)) by lia. rewrite (proj2 (N.leb_le _ _)) by done.
    rewrite Hd. do 2 f_equal. apply (drop_app (b :: e) rest).
Qed.
Lemma unquote_head p rest v mb bytes :
  unquote_char (p ++ rest) = Some (v, mb, rest) -> emitted v mb = bytes ->
  (exists c e, p ++ rest = c :: e /\ c <> 34 /\ c <> 10) ->
  forall n, unquote_loop (S n) (p ++ rest) =
    match unquote_loop n rest with Some (t, x) => Some (bytes ++ t, x) | None => None end.
Proof.
  intros Hu <- (c & e & E & H34 & H10) n. rewrite E in *. cbn [unquote_loop].
  rewrite (proj2 (N.eqb_neq _ _) H34), (proj2 (N.eqb_neq _ _) H10), Hu. reflexivity.
Qed.
Lemma encode_head r rest : r <> 34 -> r <> 10 -> exists c e, encode_rune r ++ rest = c :: e /\ c <> 34 /\ c <> 10.
Proof.
  intros H1 H2. unfold encode_rune.
  repeat (case_match; [cbn [app]; do 2 eexists; split; [done|bools; lia]|]).
  cbn [app]. do 2 eexists; split; [done|]; bools. lia.
Qed.
Lemma escape_head p bytes rest : escape p bytes -> exists c e, p ++ rest = c :: e /\ c <> 34 /\ c <> 10.
Proof. intros ((e & ->) & _). by exists backslash, (e ++ rest). Qed.

(** One piece is read back, whatever follows. *)
Lemma unquote_piece ip b s r w :
  b < 256 -> decode_rune (b :: s) = (r, w) ->
  forall n rest, unquote_loop (S n) (quote_piece ip b r w ++ rest) =
    match unquote_loop n rest with Some (t, x) => Some (take w (b :: s) ++ t, x) | None => None end.
Proof.
  intros Hb Hd n rest.
  destruct (piece_cases ip _ _ _ _ Hb Hd) as [(-> & -> & Hg & _ & H34 & Hbs & H10)|(Hesc & _)].
  - destruct (unquote_literal r rest Hg H34 Hbs) as (v & mb & Hu & He).
    exact (unquote_head _ _ _ _ _ Hu He (encode_head r rest H34 H10) n).
  - destruct (proj1 (proj2 (proj2 Hesc)) rest) as (v & mb & Hu & He).
    exact (unquote_head _ _ _ _ _ Hu He (escape_head _ _ rest Hesc) n).
Qed.

Lemma unquote_loop_quote ip (s : list N) : Forall (fun b => b < 256) s ->
  forall n, (length (quote_from ip 0 s) < n)%nat -> unquote_loop n (quote_from ip 0 s ++ [34]) = Some (s, []).
Proof.
  induction s as [|b s r w Hd IH] using rune_ind; intros Hs n Hn.
  { destruct n; [cbn in Hn; lia|]. done. }
  destruct n as [|n]; [lia|]. rewrite (quote_step _ _ _ _ _ Hd), <- app_assoc.
  specialize (IH (Forall_drop_bytes _ _ Hs) n). apply Forall_cons in Hs as [Hb Hs].
  rewrite (unquote_piece ip _ _ _ _ Hb Hd). rewrite IH; [by rewrite take_drop|].
  rewrite (quote_step _ _ _ _ _ Hd), app_length in Hn.
  assert (1 <= length (quote_piece ip b r w))%nat; [|lia].
  destruct (piece_cases ip _ _ _ _ Hb Hd) as [(-> & _)|(((e & ->) & _) & _)]; [|cbn; lia].
  destruct (encode_nonempty r) as (? & ? & ->). cbn. lia.
Qed.

(** A cut text cannot be read. *)
Lemma dots n : unquote_loop n (str "...") = None.
Proof. do 4 (destruct n as [|n]; [done|]). done. Qed.
Lemma unquote_loop_cut ip (s : list N) : Forall (fun b => b < 256) s ->
  forall m n, (n <= quoted_runes_from ip 0 s)%nat ->
  unquote_loop m (take_runes n (quote_from ip 0 s ++ [34]) ++ str "...") = None.
Proof.
  induction s as [|b s r w Hd IH] using rune_ind; intros Hs m n Hn.
  { cbn in Hn. assert (n = 0%nat) as -> by lia. apply dots. }
  destruct n as [|n]; [apply dots|]. destruct m as [|m]; [done|].
  rewrite (quoted_runes_step _ _ _ _ _ Hd) in Hn. rewrite (quote_step _ _ _ _ _ Hd), <- app_assoc.
  specialize (IH (Forall_drop_bytes _ _ Hs) m). apply Forall_cons in Hs as [Hb Hs].
  pose proof (unquote_piece ip _ _ _ _ Hb Hd) as Hstep.
  destruct (piece_cases ip _ _ _ _ Hb Hd) as [(Ep & _ & Hg & Ew & _)|(Hesc & Ew)].
  - rewrite Ep, Ew in *. rewrite take_runes_encode by done. rewrite <- app_assoc, Hstep, IH; [done|lia].
  - rewrite Ew in *. set (p := quote_piece ip b r w) in *.
    destruct (decide (length p <= S n)%nat) as [Hle|Hgt].
    + replace (S n) with (length p + (S n - length p))%nat by lia.
      rewrite take_runes_ascii_more by apply Hesc. rewrite <- app_assoc, Hstep, IH; [done|lia].
    + rewrite take_runes_ascii; [|apply Hesc|lia].
      pose proof (proj2 (proj2 (proj2 Hesc)) (S n) (str "..") ltac:(lia)) as Hbad.
      change (46 :: str "..") with (str "...") in Hbad.
      destruct Hesc as ((e & Ee) & _). rewrite Ee in *. cbn [take app] in *. cbn [unquote_loop].
      change (backslash =? 34) with false. change (backslash =? 10) with false. cbn iota. by rewrite Hbad.
Qed.

(** The shortcut of strconv.unquote gives what its loop gives. *)
Lemma upto_quote_app s t rest : upto_quote s = Some (t, rest) -> s = t ++ 34 :: rest /\ 34 ∉ t.
Proof.
  revert t; induction s as [|c s IH]; intros t; cbn [upto_quote]; [done|]. destruct (c =? 34) eqn:E; bools.
  - intros [= <- <-]. subst. split; [done|]. by apply not_elem_of_nil.
  - destruct (upto_quote s) as [[t' rest']|]; [|done]. intros [= <- <-]. destruct (IH _ eq_refl) as [-> ?]. split; [done|].
    rewrite elem_of_cons. intros [? | ?]; [lia|done].
Qed.
Lemma shortcut (t rest : list N) : 34 ∉ t -> backslash ∉ t -> 10 ∉ t -> valid_utf8 t = true ->
  forall n, (length t < n)%nat -> unquote_loop n (t ++ 34 :: rest) = Some (t, rest).
Proof.
  induction t as [|b t r w Hd IH] using rune_ind; intros H34 Hbs H10 Hv n Hn.
  { destruct n; [cbn in Hn; lia|]. done. }
  destruct n as [|n]; [lia|]. rewrite (valid_step _ _ _ _ Hd) in Hv. apply andb_prop in Hv as [Hok Hv].
  pose proof (decode_width _ _ _ _ Hd) as Hw.
  assert (forall x, x ∉ b :: t -> x ∉ drop w (b :: t)) as Hsub.
  { intros x Hx Hin. apply Hx. rewrite <- (take_drop w (b :: t)). apply elem_of_app. by right. }
  specialize (IH (Hsub _ H34) (Hsub _ Hbs) (Hsub _ H10) Hv n). feed specialize IH.
  { rewrite drop_length. cbn [length] in *. lia. }
  destruct (decode_cases _ _ _ _ Hd) as [(-> & -> & _)|(Hg & _ & Ew & Hrest)]; [done|].
  pose proof (encode_take _ _ _ _ Ew Hrest) as Et.
  rewrite <- (take_drop w (b :: t)), <- app_assoc, Et.
  assert (forall x, x < 128 -> x ∉ b :: t -> r <> x) as Hne.
  { intros x Hx Hnot ->. apply Hnot. destruct Hrest as [q ->]. rewrite encode_ascii by done. left. }
  assert (r <> 34) as K1 by (by apply Hne). assert (r <> backslash) as K2 by (by apply Hne). assert (r <> 10) as K3 by (by apply Hne).
  destruct (unquote_literal r (drop w (b :: t) ++ 34 :: rest) Hg K1 K2) as (v & mb & Hu & He).
  rewrite (unquote_head _ _ _ _ _ Hu He (encode_head _ _ K1 K3) n), IH. done.
Qed.

Lemma unquote_by_loop s : 
  unquote (34 :: s) =
  match upto_quote s with
  | None => None
  | Some _ => match unquote_loop (S (length s)) s with Some (t, []) => Some t | _ => None end
  end.
Proof.
  unfold unquote. cbn [N.eqb Pos.eqb negb]. destruct (upto_quote s) as [[t rest]|] eqn:E; [|done].
  destruct (bool_decide (backslash ∉ t) && bool_decide (10 ∉ t) && valid_utf8 t) eqn:Ec; [|done].
  apply andb_prop in Ec as [[Hbs%bool_decide_eq_true H10%bool_decide_eq_true]%andb_prop Hv].
  apply upto_quote_app in E as [-> H34]. rewrite shortcut; [done..|]. rewrite app_length. lia.
Qed.
Lemma upto_quote_last s : exists x, upto_quote (s ++ [34]) = Some x.
Proof. induction s as [|c s [[t r] IH]]; cbn [app upto_quote]; [by eexists|]. case_match; [by eexists|]. rewrite IH. by eexists. Qed.

(** unquoting the text of a constant *)
Lemma unquote_quote ip s : Forall (fun b => b < 256) s -> unquote (quote ip s) = Some s.
Proof.
  intros Hs. unfold quote. rewrite unquote_by_loop. destruct (upto_quote_last (quote_from ip 0 s)) as [x ->].
  rewrite unquote_loop_quote; [done|done|]. rewrite app_length. lia.
Qed.
Lemma length_quote ip s : length (runes (quote ip s)) = (2 + quoted_runes_from ip 0 s)%nat.
Proof.
  unfold quote. rewrite (runes_step _ _ 34 1) by reflexivity. cbn [drop length]. rewrite drop_0, quote_runes.
  change (length (runes [34])) with 1%nat. lia.
Qed.
Lemma unquote_cut ip s : Forall (fun b => b < 256) s -> (68 <= quoted_runes_from ip 0 s)%nat ->
  unquote (take_runes 69 (quote ip s) ++ str "...") = None.
Proof.
  intros Hs Hl. unfold quote.
  change (take_runes 69 (34 :: quote_from ip 0 s ++ [34])) with (34 :: take_runes 68 (quote_from ip 0 s ++ [34])).
  cbn [app]. rewrite unquote_by_loop. rewrite unquote_loop_cut by done. by case_match.
Qed.
Lemma unquote_text ip s : Forall (fun b => b < 256) s -> unquote (constant_text ip s) = unquote_of_String ip s.
Proof.
  intros Hs. unfold constant_text, unquote_of_String. rewrite length_quote.
  destruct (72 <? 2 + quoted_runes_from ip 0 s)%nat eqn:E; [|by apply unquote_quote].
  apply Nat.ltb_lt in E. apply unquote_cut; [done|lia].
Qed.
