(** * C34 (text): reading a constant through the text of go/constant.

    getErrorCodeFromConstant (extract_error_code.go 175-196) does not read the constant itself but the text go/constant shows for it,
    and undoes the quoting.  Constant.v says in one line what comes out; here that is proved from the definitions of the library
    functions, for all strings of bytes. *)
From Coq Require Import Ascii String.
From stdpp Require Import base list gmap.
From Verif Require Import GoString ErrorCode Constant GoStringProofs Quote QuoteProofs SpecCodes ErrorCodeProofs EventProofs.
Local Open Scope N_scope.

(** Values of Go's type byte. *)
Definition byte_string (s : gostring) : Prop := Forall (fun b => b < 256) s.

(** extract_error_code.go 175-196, getErrorCodeFromConstant, with the library functions it calls. *)
Definition getErrorCodeFromConstantText (is_print : N -> bool) (value : constval) : gostring + gostring :=
  match value with
  | COther => inr (str "error code has to be of type string")                        (* 176-181 *)
  | CString s =>
    match unquote (constant_text is_print s) with                                    (* 183 *)
    | None => inr (str "problem unquoting string constant value: invalid syntax")   (* 184-187 *)
    | Some result =>
      if decide (result = []) then inl result                                        (* 189, 195 *)
      else if isErrorCodeValid result then inl result
      else inr (str "error code has invalid format: should match [a-zA-Z][a-zA-Z0-9\-]*[a-zA-Z0-9]")  (* 190-192 *)
    end
  end.

(** Quoting is undone, whatever the bytes and whatever runes count as printable. *)
Theorem C34_unquote is_print s : byte_string s -> unquote (quote is_print s) = Some s.
Proof. apply unquote_quote. Qed.
(** The text of a constant can be read back exactly if the quoted string has at most 72 runes; otherwise it is cut and cannot be read. *)
Theorem C34_text is_print s : byte_string s ->
  unquote (constant_text is_print s) = if decide (length (runes (quote is_print s)) <= 72)%nat then Some s else None.
Proof.
  intros Hs. rewrite unquote_text by done. unfold unquote_of_String. rewrite length_quote.
  case_decide; [by rewrite (proj2 (Nat.ltb_ge _ _))|rewrite (proj2 (Nat.ltb_lt _ _)); [done|lia]].
Qed.
(** The length used by the other theorems is that of the text between the quotes. *)
Theorem C34_written is_print s : quoted_runes_from is_print 0 s = (length (runes (quote is_print s)) - 2)%nat.
Proof. rewrite length_quote. lia. Qed.
(** What the model of the analysis uses is the same function. *)
Theorem C34_same is_print v : (forall s, v = CString s -> byte_string s) ->
  getErrorCodeFromConstantText is_print v = getErrorCodeFromConstant is_print v.
Proof. intros H. destruct v as [s|]; [|done]. cbn. by rewrite unquote_text by (by apply H). Qed.
(** A code written as a constant is understood exactly if it is valid, or empty, and its quoted form is not cut. *)
Theorem C34_understood is_print s c : byte_string s ->
  getErrorCodeFromConstantText is_print (CString s) = inl c <->
  c = s /\ (s = [] \/ valid_code s) /\ (length (runes (quote is_print s)) <= 72)%nat.
Proof.
  intros Hs. cbn [getErrorCodeFromConstantText]. rewrite C34_text by done. destruct (decide _) as [Hl|Hl].
  - destruct (decide (s = [])) as [-> |Hne]; [naive_solver|].
    destruct (isErrorCodeValid s) eqn:E.
    + apply isErrorCodeValid_correct in E. naive_solver.
    + assert (~ valid_code s) by (intros H%isErrorCodeValid_correct; congruence). naive_solver.
  - naive_solver.
Qed.

(** The quoted forms of some strings: an umlaut, an invalid byte, a control character, a quote, a rune outside the basic plane. *)
Theorem C34_text_example :
  quote (fun r => r =? 228) [97; 195; 164; 255; 10; 34; 0; 240; 144; 128; 128] =
    str """a" ++ [195; 164] ++ str "\xff\n\""\x00\U00010000""" /\
  unquote (quote (fun r => r =? 228) [97; 195; 164; 255; 10; 34; 0; 240; 144; 128; 128]) = Some [97; 195; 164; 255; 10; 34; 0; 240; 144; 128; 128] /\
  constant_text (fun _ => true) (repeat 97 71) = 34 :: repeat 97 68 ++ str "..." /\
  unquote (constant_text (fun _ => true) (repeat 97 71)) = None /\
  unquote (constant_text (fun _ => true) (repeat 97 70)) = Some (repeat 97 70).
Proof. split_and!; vm_compute; reflexivity. Qed.

(** ** %q of an identifier *)
(** Texts that strconv.Quote only puts in quotes: valid UTF-8 of printable characters other than the quote and the backslash, as Go identifiers are (they
    consist of letters, digits and underscores).  This justifies [quoted] in GoAst.v. *)
Theorem quote_identifier ip s : valid_utf8 s = true ->
  Forall (fun r => r <> 34 /\ r <> 92 /\ (if r <? 128 then 32 <= r <= 126 else ip r = true)) (runes s) -> quote ip s = GoAst.quoted s.
Proof.
  intros Hv Hr. unfold quote, GoAst.quoted. assert (quote_from ip 0 s = s) as ->; [|done]. revert Hv Hr.
  induction s as [|b s r w Hd IH] using rune_ind; [done|]. rewrite (valid_step _ _ _ _ Hd), (runes_step _ _ _ _ Hd), (quote_step _ _ _ _ _ Hd).
  intros [Hv1 Hv2]%andb_true_iff [(H1&H2&H3) Hr]%Forall_cons. apply negb_true_iff in Hv1. rewrite IH by done.
  assert (quote_piece ip b r w = take w (b :: s)) as ->; [|apply take_drop].
  unfold quote_piece. rewrite Hv1.
  rewrite (proj2 (N.eqb_neq _ _) H1). rewrite (proj2 (N.eqb_neq r backslash) H2). cbn [orb].
  assert ((if r <? 128 then between 32 r 126 else ip r) = true) as ->.
  { destruct (r <? 128); [|done]. apply between_true. lia. }
  destruct (decode_cases _ _ _ _ Hd) as [(E1&E2&_)|(_&_&Hw&Hrest)].
  - exfalso. rewrite E1, E2 in Hv1. cbn in Hv1. discriminate.
  - symmetry. by apply encode_take.
Qed.
