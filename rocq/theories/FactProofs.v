(** * Proofs about the exported facts. *)
From Coq Require Import Ascii String.
From stdpp Require Import base list gmap.
From Verif Require Import GoString ErrorCode Scc Engine DocParser CodeSet Constant GoAst Taint Extract Analyse Phase Claims
  SpecCodes SpecDoc SpecClaims.

Section facts.
Context (pk : package).

Lemma decl_obj_spec f o : decl_obj pk f = Some o <-> object_of pk f o.
Proof.
  unfold decl_obj, object_of. split.
  - destruct (pk_funcs pk !! f) as [fn|]; [|done]. destruct (fn_decl fn) as [d|] eqn:Ed; [|done]. eauto 10.
  - by intros (fn&d&->&->&?).
Qed.

(** A loop that writes one entry per element. *)
Lemma foldl_insert {K A B} `{Countable K} (key : A -> option (K * B)) (l : list A) (m : gmap K B) :
  (forall a b k v w, a ∈ l -> b ∈ l -> key a = Some (k, v) -> key b = Some (k, w) -> v = w) ->
  forall k v, foldl (fun m a => match key a with Some (k, v) => <[ k := v ]> m | None => m end) m l !! k = Some v <->
    (exists a, a ∈ l /\ key a = Some (k, v)) \/ (~ exists a w, a ∈ l /\ key a = Some (k, w)) /\ m !! k = Some v.
Proof.
  revert m. induction l as [|a l IH]; intros m Hinj k v; cbn [foldl].
  { split; [intros ?; right|intros [(?&?%elem_of_nil&_)|[_ ?]]; done]. split; [|done]. by intros (?&?&?%elem_of_nil&_). }
  rewrite IH by (intros a' b' k' v' w' ? ?; apply Hinj; by right).
  set (P := exists a w, a ∈ l /\ key a = Some (k, w)).
  assert ((exists a, a ∈ l /\ key a = Some (k, v)) -> P) as HP by (intros (a'&?&?); exists a', v; done).
  split.
  - intros [(b&?&?)|[Hn Hm]].
    + left. exists b. split; [by right|done].
    + destruct (key a) as [[k' v']|] eqn:Ea.
      * destruct (decide (k' = k)) as [->|Hne].
        -- rewrite lookup_insert in Hm. injection Hm as ->. left. exists a. split; [by left|done].
        -- rewrite lookup_insert_ne in Hm by done. right. split; [|done]. intros (b&w&[->|Hb]%elem_of_cons&Hk); [congruence|]. apply Hn. by exists b, w.
      * right. split; [|done]. intros (b&w&[->|Hb]%elem_of_cons&Hk); [congruence|]. apply Hn. by exists b, w.
  - intros [(b&[->|Hb]%elem_of_cons&Hk)|[Hn Hm]].
    + destruct (key a) as [[k' v']|] eqn:Ea; [|done]. injection Hk as -> ->.
      destruct (decide (k ∈ omap (fun b => fst <$> key b) l)) as [Hd|Hd].
      * left. apply elem_of_list_omap in Hd as (b&Hb&Hkb). destruct (key b) as [[k' w]|] eqn:Eb; [|done]. injection Hkb as ->.
        exists b. split; [done|]. rewrite Eb. repeat f_equal. eapply (Hinj b a); [by right|by left|done|done].
      * right. split; [|by rewrite lookup_insert]. intros (b&w&Hb&Hk). apply Hd. apply elem_of_list_omap. exists b. by rewrite Hk.
    + left. eauto.
    + right. split.
      * intros (b&w&Hb&Hk). apply Hn. exists b, w. split; [by right|done].
      * destruct (key a) as [[k' v']|] eqn:Ea; [|done]. rewrite lookup_insert_ne; [done|]. intros ->. apply Hn. exists a, v'. split; [by left|done].
Qed.

Definition codes_key (claims : gmap fid claim) (f : fid) : option (tobj * codeset) :=
  match claims !! f with Some c => match decl_obj pk f with Some o => Some (o, cl_codes c) | None => None end | None => None end.
Definition ctor_key (claims : gmap fid claim) (f : fid) : option (tobj * nat) :=
  match claims !! f with
  | Some c => match cl_param c, decl_obj pk f with Some (_, p), Some o => Some (o, p) | _, _ => None end
  | None => None
  end.
Lemma export_codes_fields claims l fa :
  exportErrorCodeFacts pk claims l fa =
  Facts (foldl (fun m f => match codes_key claims f with Some (k, v) => <[ k := v ]> m | None => m end) (fa_codes fa) l)
    (fa_ctor fa) (fa_type fa) (fa_iface fa).
Proof.
  unfold exportErrorCodeFacts. revert fa. induction l as [|f l IH]; intros fa; cbn [foldl]; [by destruct fa|].
  rewrite IH. pose proof (eq_refl (codes_key claims f)) as E. unfold codes_key in E at 2.
  destruct (claims !! f) as [c|]; [|by rewrite E]. by destruct (decl_obj pk f); rewrite E.
Qed.
Lemma export_ctor_fields claims l fa :
  exportErrorConstructorFacts pk claims l fa =
  Facts (fa_codes fa) (foldl (fun m f => match ctor_key claims f with Some (k, v) => <[ k := v ]> m | None => m end) (fa_ctor fa) l)
    (fa_type fa) (fa_iface fa).
Proof.
  unfold exportErrorConstructorFacts. revert fa. induction l as [|f l IH]; intros fa; cbn [foldl]; [by destruct fa|].
  rewrite IH. pose proof (eq_refl (ctor_key claims f)) as E. unfold ctor_key in E at 2.
  destruct (claims !! f) as [c|]; [|by rewrite E]. destruct (cl_param c) as [[i p]|]; [|by rewrite E]. by destruct (decl_obj pk f); rewrite E.
Qed.
Lemma codes_key_spec claims f o s : codes_key claims f = Some (o, s) <-> exists c, claims !! f = Some c /\ object_of pk f o /\ s = cl_codes c.
Proof.
  unfold codes_key. split.
  - destruct (claims !! f) as [c|]; [|done]. destruct (decl_obj pk f) as [o'|] eqn:E; [|done]. intros [= -> <-]. apply decl_obj_spec in E. eauto.
  - intros (c&->&Ho&->). apply decl_obj_spec in Ho. by rewrite Ho.
Qed.
Lemma ctor_key_spec claims f o p : ctor_key claims f = Some (o, p) <->
  exists c i, claims !! f = Some c /\ object_of pk f o /\ cl_param c = Some (i, p).
Proof.
  unfold ctor_key. split.
  - destruct (claims !! f) as [c|]; [|done]. destruct (cl_param c) as [[i p']|] eqn:Ep; [|done]. destruct (decl_obj pk f) as [o'|] eqn:E; [|done].
    intros [= -> <-]. apply decl_obj_spec in E. eauto.
  - intros (c&i&->&Ho&->). apply decl_obj_spec in Ho. by rewrite Ho.
Qed.
Context (Hd : distinct_objects pk).
Lemma export_codes_lookup claims (l : list fid) fa o s : (forall f, f ∈ l <-> is_Some (claims !! f)) ->
  fa_codes (exportErrorCodeFacts pk claims l fa) !! o = Some s <->
  (exists f c, claims !! f = Some c /\ object_of pk f o /\ s = cl_codes c) \/
  (~ exists f c, claims !! f = Some c /\ object_of pk f o) /\ fa_codes fa !! o = Some s.
Proof.
  intros Hl. rewrite export_codes_fields. cbn [fa_codes]. rewrite foldl_insert.
  2:{ intros f g k v w _ _ (c&Hc&Ho&->)%codes_key_spec (c'&Hc'&Ho'&->)%codes_key_spec. assert (f = g) as <- by (by eapply Hd). congruence. }
  setoid_rewrite codes_key_spec. split.
  - intros [(f&_&c&?&?&->)|[Hn ?]]; [left; eauto|]. right. split; [|done]. intros (f&c&Hc&Ho). apply Hn. exists f, (cl_codes c).
    split; [apply Hl; eauto|eauto].
  - intros [(f&c&Hc&Ho&->)|[Hn ?]]; [left|right].
    + exists f. split; [apply Hl; eauto|eauto].
    + split; [|done]. intros (f&w&_&c&Hc&Ho&_). apply Hn. eauto.
Qed.
Lemma export_ctor_lookup claims (l : list fid) fa o p : (forall f, f ∈ l <-> is_Some (claims !! f)) ->
  fa_ctor (exportErrorConstructorFacts pk claims l fa) !! o = Some p <->
  (exists f c i, claims !! f = Some c /\ object_of pk f o /\ cl_param c = Some (i, p)) \/
  (~ exists f c i q, claims !! f = Some c /\ object_of pk f o /\ cl_param c = Some (i, q)) /\ fa_ctor fa !! o = Some p.
Proof.
  intros Hl. rewrite export_ctor_fields. cbn [fa_ctor]. rewrite foldl_insert.
  2:{ intros f g k v w _ _ (c&i&Hc&Ho&Hp)%ctor_key_spec (c'&i'&Hc'&Ho'&Hp')%ctor_key_spec. assert (f = g) as <- by (by eapply Hd). congruence. }
  setoid_rewrite ctor_key_spec. split.
  - intros [(f&_&c&i&?&?&?)|[Hn ?]]; [left; eauto 10|]. right. split; [|done]. intros (f&c&i&q&Hc&Ho&Hp). apply Hn. exists f, q.
    split; [apply Hl; eauto|eauto].
  - intros [(f&c&i&Hc&Ho&Hp)|[Hn ?]]; [left|right].
    + exists f. split; [apply Hl; eauto|eauto].
    + split; [|done]. intros (f&q&_&c&i&Hc&Ho&Hp). apply Hn. eauto 10.
Qed.
End facts.
