(** * C40: the texts of facts are determined by the facts and (but for the codes of interface methods) determine them. *)
From Coq Require Import Ascii String Decimal DecimalNat.
From stdpp Require Import base list gmap sorting sets.
From Verif Require Import GoString ErrorCode SpecCodes ErrorCodeProofs GoStringProofs CodeSet CodeSetProofs PropCodeSet GoAst FactText.
Local Open Scope N_scope.

(** A text without spaces that is not empty: a word.  Codes and identifiers are words. *)
Definition word (s : gostring) : Prop := s <> [] /\ 32 ∉ s.
Lemma code_is_word c : valid_code c -> word c.
Proof.
  intros [a [?|?]|a m z Ha Hm Hz]; (split; [done|]); intros Hin.
  - apply elem_of_list_singleton in Hin. lia.
  - apply elem_of_list_singleton in Hin. lia.
  - apply elem_of_cons in Hin as [<-|Hin]; [destruct Ha; lia|]. apply elem_of_app in Hin as [Hin|Hin].
    + rewrite Forall_forall in Hm. destruct (Hm _ Hin) as [[[?|?]|?]|?]; lia.
    + apply elem_of_list_singleton in Hin. destruct Hz as [[?|?]|?]; lia.
Qed.
Lemma join_words l1 l2 : Forall word l1 -> Forall word l2 -> join (str " ") l1 = join (str " ") l2 -> l1 = l2.
Proof.
  change (str " ") with [32]. intros H1 H2 E.
  assert (forall l, Forall word l -> join [32] l = [] -> l = []) as Hnil.
  { intros [|s l] Hl; [done|]. inversion Hl as [|?? [Hs _] _]; subst. destruct l; cbn; [done|]. by destruct s. }
  assert (forall l, Forall word l -> Forall (fun s => 32 ∉ s) l) as Hns.
  { intros l Hl. eapply Forall_impl; [exact Hl|]. by intros s [_ ?]. }
  destruct (decide (l1 = [])) as [->|N1]; [symmetry; by apply Hnil|].
  destruct (decide (l2 = [])) as [->|N2]; [by apply Hnil|].
  rewrite <-(split_on_join 32 l1 N1 (Hns _ H1)), <-(split_on_join 32 l2 N2 (Hns _ H2)). by rewrite E.
Qed.
Lemma words_no_char l c : c <> 32 -> Forall (fun s => c ∉ s) l -> c ∉ join (str " ") l.
Proof.
  change (str " ") with [32]. intros Hc. induction l as [|s l IH]; [intros _; apply not_elem_of_nil|].
  intros Hl. inversion Hl as [|?? Hs Hl']; subst. destruct l; cbn [join]; [done|].
  rewrite elem_of_app, elem_of_app. intros [?|[Hin|?]]; [done| |by apply IH]. apply elem_of_list_singleton in Hin. done.
Qed.
Lemma listing_same l1 l2 s1 s2 : listing l1 s1 -> listing l2 s2 -> l1 = l2 <-> s1 = s2.
Proof.
  intros H1 H2. split.
  - intros ->. apply set_eq. intros v. destruct H1 as (_&_&<-), H2 as (_&_&<-). done.
  - intros ->. by eapply listing_unique.
Qed.
Lemma listing_words l s : listing l s -> (forall c, c ∈ s -> word c) -> Forall word l.
Proof. intros (_&_&H) Hw. apply Forall_forall. intros c Hc. by apply Hw, H. Qed.
Lemma digits_inj u v : digits u = digits v -> u = v.
Proof.
  revert v. induction u as [|u IH|u IH|u IH|u IH|u IH|u IH|u IH|u IH|u IH|u IH]; intros []; cbn [digits]; intros E; try discriminate E; try reflexivity;
    injection E as E; by rewrite (IH _ E).
Qed.
Lemma decimal_inj n m : decimal n = decimal m -> n = m.
Proof. intros E%digits_inj. by apply Unsigned.to_uint_inj. Qed.
Lemma decimal_digits n c : c ∈ decimal n -> 48 <= c <= 57.
Proof.
  unfold decimal. induction (Nat.to_uint n) as [|u IH|u IH|u IH|u IH|u IH|u IH|u IH|u IH|u IH|u IH]; cbn [digits]; intros H; [by apply elem_of_nil in H| | | | | | | | | |];
    (apply elem_of_cons in H as [->|H]; [lia|by apply IH]).
Qed.

(** The text of an ErrorCodes fact lists the codes in increasing order, for every iteration order. *)
Theorem C40_codes_text s o : order_of s o -> exists l, listing l s /\ text_of_codes o = str "ErrorCodes: " ++ join (str " ") l.
Proof. intros H. exists (sort_strings (code_slice o)). split; [by apply listing_exists|reflexivity]. Qed.
(** Two such facts have the same text iff they have the same codes. *)
Theorem C40_codes s1 s2 o1 o2 : order_of s1 o1 -> order_of s2 o2 ->
  (forall c, c ∈ s1 -> valid_code c) -> (forall c, c ∈ s2 -> valid_code c) ->
  text_of_codes o1 = text_of_codes o2 <-> s1 = s2.
Proof.
  intros H1 H2 V1 V2. pose proof (listing_exists _ _ H1) as L1. pose proof (listing_exists _ _ H2) as L2.
  rewrite <-(listing_same _ _ _ _ L1 L2). unfold text_of_codes. split; [|by intros ->].
  intros E%app_inv_head. revert E. apply join_words; [apply (listing_words _ _ L1)|apply (listing_words _ _ L2)]; intros c Hc; apply code_is_word; [by apply V1|by apply V2].
Qed.

(** ErrorConstructor facts have the same text iff they have the same position. *)
Theorem C40_constructor p1 p2 : text_of_constructor p1 = text_of_constructor p2 <-> p1 = p2.
Proof.
  split; [|by intros ->]. unfold text_of_constructor. intros E%app_inv_head. by apply app_inv_tail, decimal_inj in E.
Qed.

(** ErrorInterface facts: the text lists the names of the methods, and is determined by them. *)
Theorem C40_interface_text (m : gmap gostring codeset) o : order_of (dom m) o -> exists l, listing l (dom m) /\ text_of_interface o = str "ErrorInterface: " ++ join (str " ") l.
Proof. intros H. exists (sort_strings (code_slice o)). split; [by apply listing_exists|reflexivity]. Qed.
Theorem C40_interface (m1 m2 : gmap gostring codeset) o1 o2 : order_of (dom m1) o1 -> order_of (dom m2) o2 ->
  (forall n, n ∈ dom m1 -> word n) -> (forall n, n ∈ dom m2 -> word n) ->
  text_of_interface o1 = text_of_interface o2 <-> dom m1 = dom m2.
Proof.
  intros H1 H2 V1 V2. pose proof (listing_exists _ _ H1) as L1. pose proof (listing_exists _ _ H2) as L2.
  rewrite <-(listing_same _ _ _ _ L1 L2). unfold text_of_interface, code_slice. split; [|by intros ->].
  intros E%app_inv_head. revert E. apply join_words; eapply listing_words; eassumption.
Qed.

(** ErrorType facts: the codes in increasing order and the field; the text determines the fact.  (A name has no double quote.) *)
Definition field_text (f : option (gostring * nat)) : gostring :=
  match f with None => str "<nil>" | Some (n, p) => str "{Name:""" ++ n ++ str """, Position:" ++ decimal p ++ str "}" end.
Theorem C40_type_text s o f : order_of s o -> exists l, listing l s /\
  text_of_type (code_slice o) f = str "ErrorType{Field:" ++ field_text f ++ str ", Codes:" ++ join (str " ") l ++ str "}".
Proof.
  intros H. exists (sort_strings (code_slice o)). split; [by apply listing_exists|]. unfold text_of_type. do 2 f_equal.
  destruct f as [[n p]|]; [|reflexivity]. unfold text_of_field, field_text, quoted. by rewrite !app_assoc_reverse.
Qed.
Theorem C40_type e1 e2 o1 o2 : order_of (et_codes e1) o1 -> order_of (et_codes e2) o2 ->
  (forall c, c ∈ et_codes e1 -> valid_code c) -> (forall c, c ∈ et_codes e2 -> valid_code c) ->
  (forall n p, et_field e1 = Some (n, p) -> 34 ∉ n) -> (forall n p, et_field e2 = Some (n, p) -> 34 ∉ n) ->
  text_of_type (code_slice o1) (et_field e1) = text_of_type (code_slice o2) (et_field e2) <-> e1 = e2.
Proof.
  destruct e1 as [s1 f1], e2 as [s2 f2]. cbn [et_codes et_field]. intros H1 H2 V1 V2 Q1 Q2.
  destruct (C40_type_text _ _ f1 H1) as (l1&L1&->). destruct (C40_type_text _ _ f2 H2) as (l2&L2&->).
  split; [|intros [= -> ->]; by rewrite (listing_unique _ _ _ L1 L2)].
  intros E%app_inv_head.
  assert (forall f g r r', (forall n p, f = Some (n, p) -> 34 ∉ n) -> (forall n p, g = Some (n, p) -> 34 ∉ n) ->
    field_text f ++ r = field_text g ++ r' -> f = g /\ r = r') as Hf.
  { intros [[n p]|] [[n' p']|] r r' Hn Hn' Ef; unfold field_text in Ef.
    - rewrite <-!app_assoc in Ef. apply app_inv_head in Ef.
      change (str """, Position:") with (34 :: str ", Position:") in Ef. cbn [app] in Ef.
      apply app_sep_unique in Ef as [-> Ef]; [|by eapply Hn|by eapply Hn'].
      apply app_inv_head in Ef. change (str "}" ++ r) with (125 :: r) in Ef. change (str "}" ++ r') with (125 :: r') in Ef.
      apply app_sep_unique in Ef as [Ep ->]; [by apply decimal_inj in Ep as ->| |]; intros Hc%decimal_digits; lia.
    - discriminate Ef.
    - discriminate Ef.
    - by apply app_inv_head in Ef. }
  apply Hf in E as [-> E]; [|done|done]. apply app_inv_head, app_inv_tail in E.
  f_equal. apply (listing_same _ _ _ _ L1 L2). revert E. apply join_words; [apply (listing_words _ _ L1)|apply (listing_words _ _ L2)]; intros c Hc; apply code_is_word; [by apply V1|by apply V2].
Qed.

(** The text of a set itself lists the codes in the iteration order; it still tells which set it is. *)
Theorem C40_set_text s o : order_of s o -> NoDup o /\ (forall c, c ∈ o <-> c ∈ s) /\ text_of_set o = str "set[" ++ join (str " ") o ++ str "]".
Proof. intros H. unfold text_of_set. rewrite code_slice_eq. split; [by eapply order_of_nodup|]. split; [|reflexivity]. intros c. by apply order_of_elem. Qed.
Theorem C40_set s1 s2 o1 o2 : order_of s1 o1 -> order_of s2 o2 -> (forall c, c ∈ s1 -> valid_code c) -> (forall c, c ∈ s2 -> valid_code c) ->
  text_of_set o1 = text_of_set o2 -> s1 = s2.
Proof.
  intros H1 H2 V1 V2. unfold text_of_set. rewrite !code_slice_eq. intros E%app_inv_head%app_inv_tail.
  assert (o1 = o2) as ->.
  { revert E. apply join_words; apply Forall_forall; intros c Hc; apply code_is_word; [apply V1, (order_of_elem _ _ _ H1), Hc|apply V2, (order_of_elem _ _ _ H2), Hc]. }
  apply set_eq. intros c. by rewrite <-(order_of_elem _ _ c H1), <-(order_of_elem _ _ c H2).
Qed.
(** The text of a set itself depends on the iteration order. *)
Theorem C40_refuted_set : exists s o1 o2, order_of s o1 /\ order_of s o2 /\ text_of_set o1 <> text_of_set o2.
Proof.
  exists {[ str "a"; str "b" ]}, [str "a"; str "b"], [str "b"; str "a"].
  assert (order_of {[ str "a"; str "b" ]} [str "a"; str "b"]) as H.
  { unfold order_of. symmetry. rewrite elements_union_singleton by (apply not_elem_of_singleton; discriminate). by rewrite elements_singleton. }
  split; [exact H|]. split; [|vm_compute; discriminate].
  unfold order_of in *. rewrite <-H. apply perm_swap.
Qed.
(** The hypotheses hold, e.g. of the facts of an error type with a code and a field. *)
Example C40_example : text_of_type [str "b"; str "a-1"] (Some (str "TheCode", 12%nat)) = str "ErrorType{Field:{Name:""TheCode"", Position:12}, Codes:a-1 b}"
  /\ valid_code (str "a-1") /\ 34 ∉ str "TheCode" /\ word (str "Do").
Proof.
  split; [reflexivity|]. split; [apply (valid_long 97 [45] 49); [by left|by repeat constructor; right|right; lia]|]. split.
  - intros H. repeat (apply elem_of_cons in H as [H|H]; [discriminate|]). by apply elem_of_nil in H.
  - split; [done|]. intros H. repeat (apply elem_of_cons in H as [H|H]; [discriminate|]). by apply elem_of_nil in H.
Qed.
