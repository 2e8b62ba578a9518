From Coq Require Import Ascii String ZifyBool ZifyN ZifyNat.
From stdpp Require Import base list gmap.
From Verif Require Import GoString ErrorCode SpecCodes GoStringProofs.
Local Open Scope N_scope.

Lemma code_rune_ok_spec c : code_rune_ok c = true <-> alnum c \/ c = 45.
Proof. unfold code_rune_ok, alnum, letter, between. lia. Qed.

Lemma code_rune_ok_ascii c : code_rune_ok c = true -> c < 128.
Proof. unfold code_rune_ok, between. lia. Qed.

Lemma runes_ok_bytes s :
  forallb code_rune_ok (runes s) = true <-> Forall (fun c => alnum c \/ c = 45) s.
Proof.
  split.
  - intros H. rewrite forallb_forall in H.
    assert (Forall (fun r => r < 128) (runes s)) as HF.
    { apply Forall_forall. intros r Hr. apply code_rune_ok_ascii, H, elem_of_list_In, Hr. }
    apply runes_small in HF as [Heq _]. rewrite Heq in H.
    apply Forall_forall. intros c Hc. apply code_rune_ok_spec, H, elem_of_list_In, Hc.
  - intros H. rewrite runes_ascii.
    + apply forallb_forall. intros c Hc. rewrite Forall_forall in H.
      apply code_rune_ok_spec, H. by apply elem_of_list_In.
    + eapply Forall_impl; [exact H|]. intros c Hc. apply code_rune_ok_ascii, code_rune_ok_spec, Hc.
Qed.

Lemma isErrorCodeValid_correct code : isErrorCodeValid code = true <-> valid_code code.
Proof.
  unfold isErrorCodeValid. split.
  - destruct code as [|a rest]; [done|].
    destruct ((a =? 45) || between 48 a 57) eqn:Ha; [done|].
    destruct (default 0 (last (a :: rest)) =? 45) eqn:Hl; [done|].
    intros H. apply runes_ok_bytes in H. apply Forall_cons in H as [Ha' Hrest].
    assert (letter a) as Hlet.
    { unfold alnum, letter, between in *. lia. }
    destruct rest as [|z m _] using rev_ind; [by constructor|].
    apply Forall_app in Hrest as [Hm Hz]. apply Forall_cons in Hz as [Hz _].
    constructor; [done|done|]. change (a :: m ++ [z]) with ((a :: m) ++ [z]) in Hl. rewrite last_snoc in Hl. cbn in Hl.
    destruct Hz as [Hz| ->]; [done|lia].
  - intros [a Ha|a m z Ha Hm Hz].
    + destruct ((a =? 45) || between 48 a 57) eqn:E; [unfold letter, between in *; lia|].
      change (default 0 (last [a])) with a. destruct (a =? 45) eqn:E2; [unfold letter in *; lia|].
      apply runes_ok_bytes. constructor; [left; by left|done].
    + destruct ((a =? 45) || between 48 a 57) eqn:E; [unfold letter, between in *; lia|].
      change (a :: m ++ [z]) with ((a :: m) ++ [z]). rewrite last_snoc. change (default 0 (Some z)) with z.
      destruct (z =? 45) eqn:E2; [unfold alnum, letter in *; lia|].
      apply runes_ok_bytes. apply Forall_app. split; [|constructor; [by left|done]].
      constructor; [left; by left|done].
Qed.

Lemma valid_code_dec s : {valid_code s} + {~ valid_code s}.
Proof.
  destruct (isErrorCodeValid s) eqn:E; [left|right]; rewrite <-isErrorCodeValid_correct; congruence.
Qed.

Lemma valid_code_nonempty s : valid_code s -> s <> [].
Proof. by intros [|]. Qed.

Lemma valid_code_chars s : valid_code s -> Forall (fun c => alnum c \/ c = 45) s.
Proof.
  intros [a Ha|a m z Ha Hm Hz].
  - constructor; [left; by left|done].
  - constructor; [left; by left|]. apply Forall_app. split; [done|]. constructor; [by left|done].
Qed.

Lemma alnum_nonspace c : alnum c \/ c = 45 -> ascii_nonspace c.
Proof. unfold ascii_nonspace, alnum, letter, is_space, between. lia. Qed.

Lemma valid_code_trim s : valid_code s -> trim_space s = s.
Proof.
  intros Hv. pose proof (valid_code_chars s Hv) as HF. pose proof (valid_code_nonempty s Hv).
  apply trim_space_id.
  - destruct s as [|b s]; [done|]. apply not_starts, alnum_nonspace. by apply Forall_cons in HF as [? _].
  - destruct s as [|b s _] using rev_ind; [done|]. apply not_ends, alnum_nonspace.
    apply Forall_app in HF as [_ HF]. by apply Forall_cons in HF as [? _].
Qed.

(** A valid code contains no space, comma, newline or colon. *)
Lemma valid_code_no_char s c : valid_code s -> ~ (alnum c \/ c = 45) -> c ∉ s.
Proof. intros Hv Hn Hc. apply Hn. pose proof (valid_code_chars s Hv) as HF. rewrite Forall_forall in HF. auto. Qed.
