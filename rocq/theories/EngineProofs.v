(** * Correctness of the engine (Tarjan's algorithm combined with the collection of codes). *)
From stdpp Require Import base list gmap relations sets.
From Verif Require Import GoString ErrorCode Scc Engine SpecEngine.

Section proofs.
Context {D : Type} (plan : fid -> eff D) (roots : fid -> Prop) (base : gset fid) (comps0 : list (list fid)).

Notation est := (est D).
Notation calls := (calls plan).
Notation reaches := (reaches plan).
Notation mutual := (mutual plan).
Notation may := (may plan).
Notation from := (from plan).

Definition vs (st : est) := sc_vertices (e_scc st).
Definition stk (st : est) := sc_stack (e_scc st).
Definition visited (st : est) (n : fid) : Prop := is_Some (vs st !! n).
Definition idx (st : est) (n : fid) : nat := match vs st !! n with Some v => v_index v | None => 0 end.
Definition lw (st : est) (n : fid) : nat := match vs st !! n with Some v => v_low v | None => 0 end.
Definition popped (st : est) (n : fid) : Prop := visited st n /\ n ∉ stk st.

Record inv (st : est) (path : list fid) : Prop := Inv {
  i_bound : forall n v, vs st !! n = Some v -> v_index v < sc_index (e_scc st);
  i_inj : forall n m, visited st n -> visited st m -> idx st n = idx st m -> n = m;
  i_on : forall n, n ∈ stk st <-> exists v, vs st !! n = Some v /\ v_on v = true;
  i_sorted : forall l1 l2, stk st = l1 ++ l2 -> forall a b, a ∈ l1 -> b ∈ l2 -> idx st b < idx st a;
  i_path : forall p, p ∈ path -> p ∈ stk st;
  i_down : forall p y, p ∈ path -> y ∈ stk st -> idx st p <= idx st y -> reaches p y;
  i_up : forall y, y ∈ stk st -> exists p, p ∈ path /\ idx st p <= idx st y /\ reaches y p;
  i_low : forall y, y ∈ stk st -> lw st y <= idx st y /\
      exists z, z ∈ stk st /\ idx st z = lw st y /\ reaches y z;
  i_closed : forall n g, popped st n -> calls n g -> popped st g;
  i_exact : forall n, popped st n -> exists s, e_found st !! n = Some s /\ forall c, c ∈ s <-> may n c;
  i_found : forall n, is_Some (e_found st !! n) <-> visited st n /\ n ∉ path;
  i_origin : forall n, visited st n -> roots n \/ exists f, visited st f /\ calls f n;
  i_sound : forall n s c, e_found st !! n = Some s -> c ∈ s -> may n c;
  i_order : forall l1 p l2, path = l1 ++ p :: l2 -> forall q, q ∈ l2 -> idx st q < idx st p;
  i_base : forall n, n ∈ base -> popped st n;
  i_comps : exists cs, e_comps st = comps0 ++ cs /\
      (forall n, popped st n <-> n ∈ base \/ exists C, C ∈ cs /\ n ∈ C) /\
      NoDup (concat cs) /\ (forall C x, C ∈ cs -> x ∈ C -> x ∉ base /\ forall y, y ∈ C <-> mutual x y) /\
      (forall cs1 C cs2, cs = cs1 ++ C :: cs2 -> C <> [] /\ forall x y, x ∈ C -> reaches x y -> y ∈ base \/ y ∈ concat cs1 \/ y ∈ C)
}.

(** Codes that [e] yields if calls yield [Q]. *)
Fixpoint fromQ (Q : fid -> gostring -> Prop) (e : eff D) (c : gostring) : Prop :=
  match e with
  | EffSet s => c ∈ s
  | EffUnion a b => fromQ Q a c \/ fromQ Q b c
  | EffDiff a s => fromQ Q a c /\ c ∉ s
  | EffReport _ => False
  | EffCallEdge g | EffCallDirect g => Q g c
  | EffPanic => False
  end.

Definition cover (st : est) (e : eff D) (s : codeset) : Prop :=
  forall Q : fid -> gostring -> Prop,
    (forall g c s', popped st g -> e_found st !! g = Some s' -> Q g c -> c ∈ s') ->
    forall c, fromQ Q e c -> c ∈ s \/ exists g, g ∈ call_list e /\ g ∈ stk st /\ Q g c.

Definition sec_ok (st : est) (k : nat) (ys : list fid) : Prop :=
  forall y, y ∈ ys ->
    (forall g, calls y g -> visited st g /\ (g ∈ stk st -> k <= idx st g)) /\
    exists s, e_found st !! y = Some s /\ cover st (plan y) s /\ forall c, c ∈ s -> may y c.

Definition new_reports (st st' : est) (rs : list D) : Prop :=
  exists nv, NoDup nv /\ (forall n, n ∈ nv <-> visited st' n /\ ~ visited st n) /\
    e_diags st' ≡ₚ e_diags st ++ rs ++ (nv ≫= fun n => reports (plan n)).

Definition provenance (st st' : est) (direct : list fid) : Prop :=
  forall n, visited st' n -> ~ visited st n ->
    (n ∈ direct \/ exists f, visited st' f /\ ~ visited st f /\ calls f n) /\
    exists d, d ∈ direct /\ reaches d n.

(** ** Elementary facts *)
Lemma stk_visited st path n : inv st path -> n ∈ stk st -> visited st n.
Proof. intros HI Hn. apply (i_on _ _ HI) in Hn as (v&Hv&_). by exists v. Qed.
Lemma stk_nodup st path : inv st path -> NoDup (stk st).
Proof.
  intros HI. pose proof (i_sorted _ _ HI) as Hs. revert Hs. generalize (stk st). intros l Hs.
  assert (forall l2 l1, l = l1 ++ l2 -> NoDup l2) as H; [|by apply (H l [])].
  induction l2 as [|a l2 IH]; intros l1 Heq; constructor.
  - intros Hin. assert (idx st a < idx st a); [|lia].
    apply (Hs (l1 ++ [a]) l2); [by rewrite <-app_assoc|set_solver|done].
  - apply (IH (l1 ++ [a])). by rewrite <-app_assoc.
Qed.
Lemma idx_eq st st' n : vs st' !! n = vs st !! n -> idx st' n = idx st n.
Proof. unfold idx. by intros ->. Qed.
Lemma lw_eq st st' n : vs st' !! n = vs st !! n -> lw st' n = lw st n.
Proof. unfold lw. by intros ->. Qed.
Lemma visited_eq st st' n : vs st' !! n = vs st !! n -> visited st n -> visited st' n.
Proof. unfold visited. by intros ->. Qed.

Lemma from_fromQ (P : fid -> gostring -> Prop) (Q : fid -> gostring -> Prop) :
  (forall f c, fromQ Q (plan f) c -> P f c) ->
  (forall f g c, mutual f g -> P g c -> P f c) ->
  (forall g c, may g c -> P g c -> Q g c) ->
  (forall f c, may f c -> P f c) /\ (forall e c, from e c -> fromQ Q e c).
Proof.
  intros H1 H2 H3. apply may_from_ind; cbn; intros; eauto; naive_solver.
Qed.
Lemma fromQ_from (Q : fid -> gostring -> Prop) e c :
  (forall g c, Q g c -> may g c) -> fromQ Q e c -> from e c.
Proof.
  intros HQ. induction e; cbn; intros H; try done.
  - by constructor.
  - destruct H; [by apply from_union_l; auto|by apply from_union_r; auto].
  - destruct H. constructor; auto.
  - constructor; auto.
  - constructor; auto.
Qed.

(** ** Updating a low index *)
Definition with_vs (st : est) (m : gmap fid vertex) : est :=
  set_scc st (SccState (sc_index (e_scc st)) m (sc_stack (e_scc st))).

Lemma inv_set_low st path f v k : inv st path -> vs st !! f = Some v -> f ∈ stk st ->
  k < v_low v -> (exists z, z ∈ stk st /\ idx st z = k /\ reaches f z) ->
  inv (with_vs st (<[ f := Vertex (v_index v) k (v_on v) ]> (vs st))) path.
Proof.
  intros HI Hf Hon Hk (z&Hz&Hzk&Hfz).
  set (st' := with_vs st _).
  assert (forall n, idx st' n = idx st n) as Hidx.
  { intros n. unfold idx, st', with_vs, vs at 1. cbn. destruct (decide (n = f)) as [->|Hne].
    - rewrite lookup_insert. by rewrite Hf.
    - by rewrite lookup_insert_ne. }
  assert (forall n, visited st' n <-> visited st n) as Hvis.
  { intros n. unfold visited, st', with_vs, vs at 1. cbn. destruct (decide (n = f)) as [->|Hne].
    - rewrite lookup_insert. split; eauto.
    - by rewrite lookup_insert_ne. }
  assert (forall n, popped st' n <-> popped st n) as Hpop.
  { intros n. unfold popped. rewrite Hvis. done. }
  assert (stk st' = stk st) as Hstk by done.
  constructor.
  - intros n w. unfold st', with_vs, vs at 1. cbn. destruct (decide (n = f)) as [->|Hne].
    + rewrite lookup_insert. intros [= <-]. cbn. by apply (i_bound _ _ HI f).
    + rewrite lookup_insert_ne by done. apply (i_bound _ _ HI).
  - intros n m. rewrite !Hvis, !Hidx. apply (i_inj _ _ HI).
  - intros n. rewrite Hstk, (i_on _ _ HI). unfold st', with_vs, vs. cbn.
    destruct (decide (n = f)) as [->|Hne].
    + rewrite lookup_insert. fold (vs st). split.
      * intros (w&Hw&Hw'). rewrite Hf in Hw. injection Hw as ->. eexists. split; [done|]. done.
      * intros (w&[= <-]&Hw'). eexists. split; [done|]. done.
    + by rewrite lookup_insert_ne.
  - intros l1 l2 Heq a b Ha Hb. rewrite !Hidx. by apply (i_sorted _ _ HI l1 l2).
  - apply (i_path _ _ HI).
  - intros p y. rewrite !Hidx. apply (i_down _ _ HI).
  - intros y Hy. destruct (i_up _ _ HI y Hy) as (p&?&?&?). exists p. by rewrite !Hidx.
  - intros y Hy. destruct (i_low _ _ HI y Hy) as (H1&z'&H2&H3&H4). rewrite Hidx.
    destruct (decide (y = f)) as [->|Hne].
    + assert (lw st' f = k) as -> by (unfold lw, st', with_vs, vs; cbn; by rewrite lookup_insert).
      split.
      * assert (lw st f = v_low v) as E by (unfold lw; by rewrite Hf). lia.
      * exists z. by rewrite Hidx.
    + assert (lw st' y = lw st y) as -> by (unfold lw, st', with_vs, vs; cbn; by rewrite lookup_insert_ne).
      split; [done|]. exists z'. by rewrite Hidx.
  - intros n g. rewrite !Hpop. apply (i_closed _ _ HI).
  - intros n. rewrite Hpop. apply (i_exact _ _ HI).
  - intros n. rewrite Hvis. apply (i_found _ _ HI).
  - intros n. rewrite Hvis. intros Hn. destruct (i_origin _ _ HI n Hn) as [?|(f'&?&?)]; [by left|right].
    exists f'. by rewrite Hvis.
  - apply (i_sound _ _ HI).
  - intros l1 p l2 Heq q Hq. rewrite !Hidx. by apply (i_order _ _ HI l1 p l2).
  - intros n Hn. apply Hpop. by apply (i_base _ _ HI).
  - destruct (i_comps _ _ HI) as (cs&H1&H2&H3). exists cs. split; [done|]. split; [|done].
    intros n. rewrite Hpop. apply H2.
Qed.

(** ** Visiting *)
Lemma inv_visit st path x s : inv st path -> scc_visit x (e_scc st) = Some s ->
  (roots x \/ exists f, visited st f /\ calls f x) ->
  (forall p, p ∈ path -> reaches p x) ->
  let st' := set_scc st s in
  inv st' (x :: path) /\ stk st' = x :: stk st /\ ~ visited st x /\
  vs st' !! x = Some (Vertex (sc_index (e_scc st)) (sc_index (e_scc st)) true) /\
  (forall n, n <> x -> vs st' !! n = vs st !! n).
Proof.
  intros HI Hv Horig Hreach. unfold scc_visit in Hv.
  destruct (sc_vertices (e_scc st) !! x) eqn:Hx; [done|]. injection Hv as <-. cbn zeta.
  set (st' := set_scc st _).
  assert (~ visited st x) as Hnv by (unfold visited, vs; rewrite Hx; by intros [? ?]).
  assert (stk st' = x :: stk st) as Hstk by done.
  assert (vs st' !! x = Some (Vertex (sc_index (e_scc st)) (sc_index (e_scc st)) true)) as Hvx.
  { unfold st', vs. cbn. by rewrite lookup_insert. }
  assert (forall n, n <> x -> vs st' !! n = vs st !! n) as Hvn.
  { intros n Hne. unfold st', vs. cbn. by rewrite lookup_insert_ne. }
  split_and!; try done.
  assert (forall n, visited st n -> idx st' n = idx st n) as Hidx.
  { intros n Hn. apply idx_eq, Hvn. by intros ->. }
  assert (idx st' x = sc_index (e_scc st)) as Hidxx by (unfold idx; by rewrite Hvx).
  assert (forall n, visited st n -> idx st n < sc_index (e_scc st)) as Hlt.
  { intros n [v Hn]. unfold idx. rewrite Hn. by apply (i_bound _ _ HI n). }
  assert (forall n, n ∈ stk st -> visited st n) as Hsv by (intros; by eapply stk_visited).
  assert (forall n, visited st' n <-> n = x \/ visited st n) as Hvis.
  { intros n. unfold visited. destruct (decide (n = x)) as [->|Hne].
    - rewrite Hvx. split; [by left|by eexists].
    - rewrite Hvn by done. split; [by right|]. by intros [?|?]. }
  assert (forall n, popped st' n <-> popped st n) as Hpop.
  { intros n. unfold popped. rewrite Hvis, Hstk, not_elem_of_cons. split.
    - intros ([->|?]&?&?); [done|]. done.
    - intros (?&?). split_and!; [by right|by intros ->|done]. }
  constructor.
  - intros n v. destruct (decide (n = x)) as [->|Hne].
    + rewrite Hvx. intros [= <-]. cbn. lia.
    + rewrite Hvn by done. intros Hn. apply (i_bound _ _ HI) in Hn. cbn. lia.
  - intros n m Hn Hm. apply Hvis in Hn as [->|Hn]; apply Hvis in Hm as [->|Hm]; [done| | |].
    + rewrite Hidxx, Hidx by done. intros E. specialize (Hlt m Hm). lia.
    + rewrite Hidxx, Hidx by done. intros E. specialize (Hlt n Hn). lia.
    + rewrite !Hidx by done. by apply (i_inj _ _ HI).
  - intros n. rewrite Hstk, elem_of_cons. destruct (decide (n = x)) as [->|Hne].
    + rewrite Hvx. split; [eauto|by left].
    + rewrite Hvn by done. rewrite <-(i_on _ _ HI). tauto.
  - intros l1 l2 Heq a b Ha Hb. rewrite Hstk in Heq. destruct l1 as [|x' l1]; [by apply elem_of_nil in Ha|].
    injection Heq as <- Heq. assert (b ∈ stk st) as Hbs by (rewrite Heq; set_solver).
    rewrite (Hidx b) by auto. apply elem_of_cons in Ha as [->|Ha].
    + rewrite Hidxx. auto.
    + assert (a ∈ stk st) as Has by (rewrite Heq; set_solver). rewrite (Hidx a) by auto.
      by apply (i_sorted _ _ HI l1 l2).
  - intros p. rewrite Hstk, !elem_of_cons. intros [->|Hp]; [by left|right; by apply (i_path _ _ HI)].
  - intros p y. rewrite Hstk, !elem_of_cons. intros [->|Hp] [->|Hy] Hle.
    + apply rtc_refl.
    + exfalso. rewrite Hidxx, Hidx in Hle by auto. specialize (Hlt y (Hsv y Hy)). lia.
    + auto.
    + pose proof (i_path _ _ HI p Hp). rewrite !Hidx in Hle by auto. by apply (i_down _ _ HI).
  - intros y. rewrite Hstk, elem_of_cons. intros [->|Hy].
    + exists x. split_and!; [by left|done|apply rtc_refl].
    + destruct (i_up _ _ HI y Hy) as (p&Hp&Hle&Hr). exists p. pose proof (i_path _ _ HI p Hp).
      split_and!; [by right|by rewrite !Hidx by auto|done].
  - intros y. rewrite Hstk, elem_of_cons. intros [->|Hy].
    + assert (lw st' x = sc_index (e_scc st)) as -> by (unfold lw; by rewrite Hvx). rewrite Hidxx.
      split; [done|]. exists x. split_and!; [by left|done|apply rtc_refl].
    + destruct (i_low _ _ HI y Hy) as (H1&z&H2&H3&H4).
      rewrite Hidx by auto. rewrite (lw_eq st st' y) by (apply Hvn; intros ->; by apply Hnv, Hsv).
      split; [done|]. exists z. split_and!; [by right|by rewrite Hidx by auto|done].
  - intros n g. rewrite !Hpop. apply (i_closed _ _ HI).
  - intros n. rewrite Hpop. apply (i_exact _ _ HI).
  - intros n. rewrite Hvis, not_elem_of_cons.
    change (e_found st') with (e_found st). rewrite (i_found _ _ HI). split.
    + intros [? ?]. split_and!; [by right|by intros ->|done].
    + intros ([->|?]&?&?); done.
  - intros n. rewrite Hvis. intros [->|Hn].
    + destruct Horig as [?|(f&?&?)]; [by left|right]. exists f. rewrite Hvis. eauto.
    + destruct (i_origin _ _ HI n Hn) as [?|(f'&?&?)]; [by left|right]. exists f'. rewrite Hvis. eauto.
  - apply (i_sound _ _ HI).
  - intros l1 p l2 Heq q Hq. destruct l1 as [|x' l1]; injection Heq as <- Heq.
    + subst l2. pose proof (i_path _ _ HI q Hq). rewrite Hidxx, Hidx by auto. auto.
    + assert (q ∈ path /\ p ∈ path) as [Hqp Hpp] by (rewrite Heq; set_solver).
      pose proof (i_path _ _ HI q Hqp). pose proof (i_path _ _ HI p Hpp). rewrite !Hidx by auto.
      by apply (i_order _ _ HI l1 p l2).
  - intros n Hn. apply Hpop. by apply (i_base _ _ HI).
  - destruct (i_comps _ _ HI) as (cs&H1&H2&H3). exists cs. split; [done|]. split; [|done].
    intros n. rewrite Hpop. apply H2.
Qed.

(** ** Ending a visit *)
Definition with_found (st : est) (m : gmap fid codeset) : est := Est (e_scc st) m (e_diags st) (e_comps st).

Lemma end_nonroot st path x s :
  inv st (x :: path) -> x ∉ path -> idx st x <> lw st x -> (forall c, c ∈ s -> may x c) ->
  inv (with_found st (<[ x := s ]> (e_found st))) path.
Proof.
  intros HI Hxp Hne Hsnd. set (st' := with_found st _).
  assert (x ∈ stk st) as Hx by (apply (i_path _ _ HI); by left).
  constructor; try apply HI.
  - intros p Hp. apply (i_path _ _ HI). by right.
  - intros p y Hp. apply (i_down _ _ HI). by right.
  - intros y Hy. destruct (i_up _ _ HI y Hy) as (p&Hp&Hle&Hr). apply elem_of_cons in Hp as [->|Hp]; [|by exists p].
    destruct (i_low _ _ HI x Hx) as (Hlx&z&Hz&Hzi&Hxz).
    destruct (i_up _ _ HI z Hz) as (p&Hp&Hle'&Hr').
    apply elem_of_cons in Hp as [->|Hp]; [lia|]. exists p. split_and!; [done| |].
    + change (idx st' p) with (idx st p). change (idx st' y) with (idx st y). lia.
    + etrans; [exact Hr|]. etrans; [exact Hxz|done].
  - intros n Hn. destruct (i_exact _ _ HI n Hn) as (s'&Hs'&Hc). exists s'. split; [|done].
    unfold st', with_found. cbn. rewrite lookup_insert_ne; [done|]. intros ->. by destruct Hn.
  - intros n. unfold st', with_found. cbn. destruct (decide (n = x)) as [->|Hn].
    + rewrite lookup_insert. split; [|by eexists]. intros _. split; [|done]. exact (stk_visited _ _ _ HI Hx).
    + rewrite lookup_insert_ne by done. rewrite (i_found _ _ HI), not_elem_of_cons.
      change (visited (with_found st (<[x:=s]> (e_found st))) n) with (visited st n). tauto.
  - intros n s' c. unfold st', with_found. cbn. destruct (decide (n = x)) as [->|Hn].
    + rewrite lookup_insert. intros [= <-]. apply Hsnd.
    + rewrite lookup_insert_ne by done. apply (i_sound _ _ HI).
  - intros l1 p l2 Heq. apply (i_order _ _ HI (x :: l1) p l2). by rewrite Heq.
Qed.

Lemma pop_until_app x l1 l2 : x ∉ l1 -> pop_until x (l1 ++ x :: l2) = Some (l1 ++ [x], l2).
Proof.
  induction l1 as [|a l1 IH]; cbn; intros Hn.
  - by rewrite decide_True.
  - rewrite decide_False by set_solver. rewrite IH by set_solver. done.
Qed.
Lemma off_stack_lookup l m n :
  foldl off_stack m l !! n =
    if decide (n ∈ l) then (fun v => Vertex (v_index v) (v_low v) false) <$> m !! n else m !! n.
Proof.
  revert m. induction l as [|a l IH]; intros m; cbn.
  - rewrite decide_False; [done|apply not_elem_of_nil].
  - rewrite IH. unfold off_stack. destruct (decide (n = a)) as [->|Hne].
    + rewrite !lookup_alter. rewrite (decide_True (P := a ∈ a :: l)) by left.
      case_decide; [|done]. by destruct (m !! a).
    + rewrite lookup_alter_ne by done. destruct (decide (n ∈ l)).
      * rewrite decide_True by by (right). done.
      * rewrite decide_False; [done|]. by apply not_elem_of_cons.
Qed.
Lemma unify_union (found : gmap fid codeset) (l : list fid) (r : codeset) c :
  c ∈ foldl (fun r n => r ∪ default ∅ (found !! n)) r l <->
  c ∈ r \/ exists n s, n ∈ l /\ found !! n = Some s /\ c ∈ (s : codeset).
Proof.
  revert r. induction l as [|a l IH]; intros r; cbn.
  - split; [by left|]. intros [?|(n&s&Hn&_)]; [done|by apply elem_of_nil in Hn].
  - rewrite IH, elem_of_union. split.
    + intros [[?|Hd]|(n&s&?&?&?)]; [by left| |right; exists n, s; set_solver].
      right. destruct (found !! a) as [s|] eqn:E; cbn in Hd; [|by apply elem_of_empty in Hd].
      exists a, s. split_and!; [by left|done|done].
    + intros [?|(n&s&Hn&Hs&Hc)]; [by left; left|]. apply elem_of_cons in Hn as [->|Hn].
      * left; right. by rewrite Hs.
      * right. eauto.
Qed.
Lemma unify_found (found : gmap fid codeset) (u : codeset) l n :
  foldl (fun m n => <[ n := u ]> m) found l !! n = if decide (n ∈ l) then Some u else found !! n.
Proof.
  revert found. induction l as [|a l IH]; intros found; cbn.
  - rewrite decide_False; [done|apply not_elem_of_nil].
  - rewrite IH. destruct (decide (n = a)) as [->|Hne].
    + rewrite lookup_insert. rewrite (decide_True (P := a ∈ a :: l)) by left. by case_decide.
    + rewrite lookup_insert_ne by done. destruct (decide (n ∈ l)).
      * rewrite decide_True by by (right). done.
      * rewrite decide_False; [done|]. by apply not_elem_of_cons.
Qed.

(** The component popped when [x] is a root. *)
Lemma end_root st path x new rest :
  inv st (x :: path) -> x ∉ path ->
  stk st = new ++ x :: rest -> idx st x = lw st x ->
  forall s, sec_ok (with_found st (<[ x := s ]> (e_found st))) (lw st x) (new ++ [x]) ->
  let found := <[ x := s ]> (e_found st) in
  let comp := reverse (new ++ [x]) in
  let st' := Est (SccState (sc_index (e_scc st)) (foldl off_stack (vs st) (new ++ [x])) rest)
                 (unify_component found comp).2 (e_diags st) (e_comps st ++ [comp]) in
  inv st' path /\ (forall c, c ∈ (unify_component found comp).1 <-> may x c) /\
  e_found st' !! x = Some (unify_component found comp).1 /\
  (forall n, n ∈ new ++ [x] -> idx st x <= idx st n) /\
  (forall n, n ∉ new ++ [x] -> vs st' !! n = vs st !! n /\ e_found st' !! n = e_found st !! n) /\
  (forall n, n ∈ new ++ [x] -> visited st' n) /\
  vs st' !! x = Some (Vertex (idx st x) (idx st x) false).
Proof.
  intros HI Hxp Hstk Hroot s Hsec found comp st'.
  set (C := new ++ [x]).
  assert (stk st = C ++ rest) as HstkC by (unfold C; by rewrite Hstk, <-app_assoc).
  assert (x ∈ stk st) as Hx by (rewrite Hstk; set_solver).
  assert (x ∈ C) as HxC by (unfold C; set_solver).
  pose proof (stk_nodup _ _ HI) as Hnd.
  assert (forall n, n ∈ stk st -> visited st n) as Hsv by (intros; by eapply stk_visited).
  assert (forall n, n ∈ C <-> n ∈ stk st /\ idx st x <= idx st n) as HC.
  { intros n. split.
    - intros Hn. split; [rewrite HstkC; set_solver|]. unfold C in Hn. apply elem_of_app in Hn as [Hn|Hn].
      + apply Nat.lt_le_incl. apply (i_sorted _ _ HI new (x :: rest)); [done|done|by left].
      + apply elem_of_list_singleton in Hn as ->. lia.
    - intros [Hn Hle]. rewrite HstkC in Hn. apply elem_of_app in Hn as [?|Hn]; [done|].
      assert (idx st n < idx st x); [|lia]. apply (i_sorted _ _ HI C rest); done. }
  assert (forall n, n ∈ rest <-> n ∈ stk st /\ idx st n < idx st x) as Hrest.
  { intros n. split.
    - intros Hn. split; [rewrite HstkC; set_solver|]. apply (i_sorted _ _ HI C rest); done.
    - intros [Hn Hlt]. rewrite HstkC in Hn. apply elem_of_app in Hn as [Hn|Hn]; [|done].
      apply HC in Hn as [_ ?]. lia. }
  assert (forall n, n ∈ C -> n ∉ rest) as HCr.
  { intros n H1 H2. apply HC in H1 as [_ ?]. apply Hrest in H2 as [_ ?]. lia. }
  assert (forall n, n ∈ comp <-> n ∈ C) as Hcomp by (intros n; unfold comp, C; apply elem_of_reverse).
  assert (forall p, p ∈ path -> idx st p < idx st x) as Hbelow.
  { intros p Hp. by apply (i_order _ _ HI [] x path). }
  (* the new state *)
  assert (forall n, vs st' !! n = if decide (n ∈ C) then (fun v => Vertex (v_index v) (v_low v) false) <$> vs st !! n else vs st !! n) as Hvs.
  { intros n. unfold st', vs at 1. cbn. rewrite off_stack_lookup. fold (vs st) C. done. }
  assert (forall n, idx st' n = idx st n) as Hidx.
  { intros n. unfold idx. rewrite Hvs. case_decide; [|done]. by destruct (vs st !! n). }
  assert (forall n, lw st' n = lw st n) as Hlw.
  { intros n. unfold lw. rewrite Hvs. case_decide; [|done]. by destruct (vs st !! n). }
  assert (forall n, visited st' n <-> visited st n) as Hvis.
  { intros n. unfold visited. rewrite Hvs. case_decide; [|done]. apply fmap_is_Some. }
  assert (stk st' = rest) as Hstk' by done.
  assert (forall n, popped st' n <-> popped st n \/ n ∈ C) as Hpop.
  { intros n. unfold popped. rewrite Hvis, Hstk', HstkC, not_elem_of_app. split.
    - intros [? ?]. destruct (decide (n ∈ C)); [by right|left; done].
    - intros [(?&?&?)|Hn]; [done|]. split; [|by apply HCr]. apply Hsv. rewrite HstkC. set_solver. }
  set (u := (unify_component found comp).1).
  assert (forall n, e_found st' !! n = if decide (n ∈ C) then Some u else found !! n) as Hfnd.
  { intros n. unfold st', unify_component. cbn -[reverse]. rewrite unify_found.
    destruct (decide (n ∈ comp)) as [Hd|Hd]; destruct (decide (n ∈ C)) as [Hd'|Hd']; try done;
      rewrite Hcomp in Hd; done. }
  assert (forall c, c ∈ u <-> exists n s', n ∈ C /\ found !! n = Some s' /\ c ∈ s') as Hu.
  { intros c. unfold u, unify_component. cbn -[reverse]. rewrite unify_union. split.
    - intros [Hc|(n&s'&Hn&?&?)]; [by apply elem_of_empty in Hc|]. exists n, s'. rewrite <-Hcomp. done.
    - intros (n&s'&Hn&?&?). right. exists n, s'. rewrite Hcomp. done. }
  (* reachability inside C *)
  assert (forall y, y ∈ C -> reaches x y) as Hxy.
  { intros y Hy. apply HC in Hy as [? ?]. apply (i_down _ _ HI); [by left|done|done]. }
  assert (forall y, y ∈ C -> reaches y x) as Hyx.
  { intros y Hy. apply HC in Hy as [Hy ?]. destruct (i_up _ _ HI y Hy) as (p&Hp&Hle&Hr).
    apply elem_of_cons in Hp as [->|Hp]; [done|].
    etrans; [exact Hr|]. apply (i_down _ _ HI); [by right|done|].
    specialize (Hbelow p Hp). lia. }
  assert (forall y g, y ∈ C -> calls y g -> popped st g \/ g ∈ C) as Hcl.
  { intros y g Hy Hg. destruct (Hsec y Hy) as [He _]. destruct (He g Hg) as [Hvg Hig].
    destruct (decide (g ∈ stk st)) as [Hgs|Hgs]; [|left; done].
    right. apply HC. split; [done|]. rewrite Hroot. by apply Hig. }
  assert (forall n g, popped st' n -> calls n g -> popped st' g) as Hclosed'.
  { intros n g Hn Hg. rewrite Hpop in *. destruct Hn as [Hn|Hn]; [|by eapply Hcl].
    left. by apply (i_closed _ _ HI n). }
  assert (forall a b, reaches a b -> popped st a -> popped st b) as Hrp.
  { induction 1; intros; [done|]. eauto using i_closed. }
  assert (forall a b, reaches a b -> popped st' a -> popped st' b) as Hrp'.
  { induction 1; intros; [done|]. eauto. }
  assert (forall a b, a ∈ C -> reaches a b -> reaches b a -> b ∈ C) as Hmax.
  { intros a b Ha Hab Hba. assert (popped st' b) as Hb by (apply (Hrp' a); [done|]; apply Hpop; by right).
    apply Hpop in Hb as [Hb|Hb]; [|done]. exfalso.
    assert (popped st a) as [_ Hn] by by apply (Hrp b). apply Hn. rewrite HstkC. set_solver. }
  assert (forall n, n ∈ C -> forall c, c ∈ u <-> may n c) as Hexact.
  { assert (forall n, popped st n -> found !! n = e_found st !! n) as Hfp.
    { intros n [_ Hn]. unfold found. rewrite lookup_insert_ne; [done|]. by intros <-. }
    intros n Hn c. split.
    - rewrite Hu. intros (y&s'&Hy&Hs'&Hc). destruct (Hsec y Hy) as (_&s2&Hs2&_&Hs2m). cbn in Hs2. fold found in Hs2.
      rewrite Hs' in Hs2. injection Hs2 as <-. apply (may_recursive _ n y); [|auto].
      split; (etrans; [by apply Hyx|by apply Hxy]).
    - pose (Q := fun g c => may g c /\ (g ∈ C -> c ∈ u)).
      assert ((forall f c, may f c -> f ∈ C -> c ∈ u) /\ (forall e c, from e c -> fromQ Q e c)) as [Hm _].
      { apply (from_fromQ (fun f c => f ∈ C -> c ∈ u)).
        - intros f c' Hf HfC. destruct (Hsec f HfC) as (He&s2&Hs2&Hcov&_). cbn in Hs2. fold found in Hs2.
          destruct (Hcov Q) with (c := c') as [Hin|(g&Hg&Hgs&HQ)].
          + intros g c2 s' Hg Hs' [Hmay _]. cbn in Hs'. fold found in Hs'.
            change (popped st g) in Hg. rewrite Hfp in Hs' by done.
            destruct (i_exact _ _ HI g Hg) as (s3&Hs3&Hex). rewrite Hs' in Hs3. injection Hs3 as <-. by apply Hex.
          + done.
          + apply Hu. exists f, s2. done.
          + change (g ∈ stk st) in Hgs. destruct HQ as [_ HQ]. apply HQ.
            destruct (Hcl f g HfC Hg) as [[_ ?]|?]; done.
        - intros f g c' [H1 H2] IH HfC. apply IH. by eapply Hmax.
        - intros g c' Hmay IH. split; done. }
      intros Hmay. by apply (Hm n). }
  split; [|split_and!].
  2:{ by apply Hexact. }
  2:{ rewrite Hfnd. by rewrite decide_True. }
  2:{ intros n Hn. by apply HC. }
  2:{ intros n Hn. rewrite Hvs, Hfnd. rewrite !(decide_False (P := n ∈ C)) by done. split; [done|].
      unfold found. rewrite lookup_insert_ne; [done|]. by intros <-. }
  2:{ intros n Hn. apply Hvis, Hsv. rewrite HstkC. set_solver. }
  2:{ rewrite Hvs. rewrite decide_True by done. unfold lw in Hroot. unfold idx in *.
      destruct (Hsv x Hx) as [v Hv]. rewrite Hv in *. cbn. by rewrite <-Hroot. }
  constructor.
  - intros n v. rewrite Hvs. case_decide; [|apply (i_bound _ _ HI)].
    destruct (vs st !! n) as [w|] eqn:E; cbn; [|done]. intros [= <-]. cbn. by apply (i_bound _ _ HI n).
  - intros n m. rewrite !Hvis, !Hidx. apply (i_inj _ _ HI).
  - intros n. rewrite Hstk', Hvs. case_decide as HnC.
    + split; [by intros ?%(HCr n HnC)|]. intros (v&Hv&Hon). destruct (vs st !! n); cbn in Hv; [|done].
      injection Hv as <-. done.
    + rewrite <-(i_on _ _ HI), HstkC, elem_of_app. tauto.
  - intros l1 l2 Heq a b Ha Hb. rewrite !Hidx. apply (i_sorted _ _ HI (C ++ l1) l2); [|set_solver|done].
    rewrite HstkC, <-app_assoc. by rewrite Hstk' in Heq; rewrite Heq.
  - intros p Hp. rewrite Hstk'. assert (p ∈ stk st) as Hps by (apply (i_path _ _ HI); by right).
    (* a path member other than x is below x *)
    apply Hrest. split; [done|]. by apply Hbelow.
  - intros p y Hp Hy. rewrite !Hidx. apply (i_down _ _ HI); [by right|]. rewrite Hstk' in Hy. by apply Hrest.
  - intros y Hy. rewrite Hstk' in Hy. apply Hrest in Hy as [Hy Hlt].
    destruct (i_up _ _ HI y Hy) as (p&Hp&Hle&Hr). apply elem_of_cons in Hp as [->|Hp]; [lia|].
    exists p. by rewrite !Hidx.
  - intros y Hy. rewrite Hstk' in Hy. apply Hrest in Hy as [Hy Hlt].
    destruct (i_low _ _ HI y Hy) as (H1&z&H2&H3&H4). rewrite Hlw, Hidx. split; [done|].
    exists z. rewrite Hidx, Hstk'. split_and!; [|done|done]. apply Hrest. split; [done|]. lia.
  - done.
  - intros n Hn. rewrite Hfnd. apply Hpop in Hn. case_decide as HnC.
    + exists u. split; [done|]. by apply Hexact.
    + destruct Hn as [Hn|?]; [|done]. destruct (i_exact _ _ HI n Hn) as (s3&Hs3&Hex). exists s3. split; [|done].
      unfold found. rewrite lookup_insert_ne; [done|]. by intros <-.
  - intros n. rewrite Hfnd, Hvis. case_decide as HnC.
    + split; [|by eexists]. intros _. split; [apply Hsv; rewrite HstkC; set_solver|].
      intros Hnp. apply HC in HnC as [_ HnC]. specialize (Hbelow n Hnp). lia.
    + unfold found. rewrite lookup_insert_ne by (by intros <-). rewrite (i_found _ _ HI), not_elem_of_cons.
      split; [tauto|]. intros [? ?]. split_and!; [done| |done]. by intros ->.
  - intros n. rewrite Hvis. intros Hn. destruct (i_origin _ _ HI n Hn) as [?|(f'&?&?)]; [by left|right].
    exists f'. by rewrite Hvis.
  - intros n s' c. rewrite Hfnd. case_decide as HnC.
    + intros [= <-]. by apply Hexact.
    + unfold found. rewrite lookup_insert_ne by (by intros <-). apply (i_sound _ _ HI).
  - intros l1 p l2 Heq q Hq. rewrite !Hidx. apply (i_order _ _ HI (x :: l1) p l2); [by rewrite Heq|done].
  - intros n Hn. apply Hpop. left. by apply (i_base _ _ HI).
  - destruct (i_comps _ _ HI) as (cs&H1&H2&H3&H4&H5). exists (cs ++ [comp]). split_and!.
    + unfold st'. cbn -[reverse]. by rewrite H1, <-app_assoc.
    + intros n. rewrite Hpop, H2. split.
      * intros [[?|(C'&?&?)]|?]; [by left|right; exists C'; set_solver|].
        right. exists comp. split; [set_solver|]. by apply Hcomp.
      * intros [?|(C'&HC'&Hn)]; [by left; left|]. apply elem_of_app in HC' as [?|HC'].
        -- left. right. eauto.
        -- apply elem_of_list_singleton in HC' as ->. right. by apply Hcomp.
    + rewrite concat_app. cbn -[reverse]. rewrite app_nil_r. apply NoDup_app. split_and!; [done| |].
      * intros n Hn Hn'. apply Hcomp in Hn'. apply elem_of_list_In, in_concat in Hn as (C'&HC'%elem_of_list_In&Hn%elem_of_list_In).
        assert (popped st n) as [_ Hns] by (apply H2; right; eauto).
        apply Hns. rewrite HstkC. set_solver.
      * unfold comp. rewrite reverse_Permutation. rewrite HstkC in Hnd. by apply NoDup_app in Hnd as (?&_&_).
    + intros C' y HC' Hy. apply elem_of_app in HC' as [HC'|HC'%elem_of_list_singleton]; [by apply H4|subst C'].
      apply Hcomp in Hy. split.
      { intros Hb. destruct (i_base _ _ HI y Hb) as [_ Hn]. apply Hn. rewrite HstkC. set_solver. }
      intros z. rewrite Hcomp. split.
      * intros Hz. split; (etrans; [by apply Hyx|by apply Hxy]).
      * intros [? ?]. by eapply Hmax.
    + intros cs1 C' cs2 Heq.
      destruct cs2 as [|C2 cs2 _] using rev_ind.
      * apply app_inj_tail in Heq as [<- <-]. split.
        { intros E. assert (x ∈ comp) as Hin by by apply Hcomp. rewrite E in Hin. by apply elem_of_nil in Hin. }
        intros y z Hy Hyz. apply Hcomp in Hy.
        assert (popped st' z) as Hz by (apply (Hrp' y); [done|]; apply Hpop; by right).
        apply Hpop in Hz as [Hz|Hz].
        -- apply H2 in Hz as [?|(C''&HC''&Hz)]; [by left|]. right. left.
           apply elem_of_list_In, in_concat. exists C''. split; by apply elem_of_list_In.
        -- right. right. by apply Hcomp.
      * rewrite app_comm_cons, app_assoc in Heq. apply app_inj_tail in Heq as [Heq _]. by apply (H5 cs1 C' cs2).
Qed.

(** ** The main induction *)
Record ext (st st' : est) : Prop := Ext {
  x_vis : forall n, visited st n -> visited st' n;
  x_idx : forall n, visited st n -> idx st' n = idx st n;
  x_found : forall n, visited st n -> e_found st' !! n = e_found st !! n;
  x_old : forall n, visited st n -> (n ∈ stk st' <-> n ∈ stk st)
}.
Lemma ext_refl st : ext st st.
Proof. by constructor. Qed.
Lemma ext_trans st1 st2 st3 : ext st1 st2 -> ext st2 st3 -> ext st1 st3.
Proof.
  intros [a1 a2 a3 a4] [b1 b2 b3 b4]. constructor; intros n Hn; auto.
  - rewrite b2, a2; auto.
  - rewrite b3, a3; auto.
  - rewrite b4, a4; auto.
Qed.
Lemma ext_popped st st' n : ext st st' -> popped st n -> popped st' n.
Proof. intros E [H1 H2]. split; [by apply E|]. by rewrite (x_old _ _ E). Qed.
Lemma cover_ext st st' path e s : inv st path -> ext st st' ->
  cover st e s -> cover st' e s.
Proof.
  intros HI E Hc Q HQ c Hf. destruct (Hc Q) with (c := c) as [?|(g&?&Hg&?)]; [|done|by left|].
  - intros g c' s' Hg Hs' Hq. apply (HQ g c' s'); [by eapply ext_popped| |done].
    rewrite (x_found _ _ E); [done|apply Hg].
  - right. exists g. split_and!; [done| |done]. apply (x_old _ _ E); [by eapply stk_visited|done].
Qed.
Lemma sec_ok_ext st st' path k k' ys : inv st path -> ext st st' -> k' <= k ->
  (forall y, y ∈ ys -> visited st y) -> sec_ok st k ys -> sec_ok st' k' ys.
Proof.
  intros HI E Hk Hvis Hs y Hy. destruct (Hs y Hy) as (H1&s&H2&H3&H4). split.
  - intros g Hg. destruct (H1 g Hg) as [Hv Hi]. split; [by apply E|].
    rewrite (x_old _ _ E), (x_idx _ _ E) by done. intros ?. specialize (Hi ltac:(done)). lia.
  - exists s. split_and!; [|by eapply cover_ext|done]. rewrite (x_found _ _ E); auto.
Qed.

Record eval_post (f : fid) (path : list fid) (e : eff D) (st : est) (S : codeset) (st' : est) : Prop := EvalPost {
  p_inv : inv st' path;
  p_new : exists new, stk st' = new ++ stk st /\ (forall n, n ∈ new -> ~ visited st n) /\ sec_ok st' (lw st' f) new;
  p_old : forall n, visited st n -> n <> f -> vs st' !! n = vs st !! n;
  p_self : exists v v', vs st !! f = Some v /\ vs st' !! f = Some v' /\ v_index v' = v_index v /\ v_low v' <= v_low v;
  p_fnd : forall n, visited st n -> e_found st' !! n = e_found st !! n;
  p_calls : forall g, g ∈ call_list e -> visited st' g /\ (g ∈ stk st' -> lw st' f <= idx st' g);
  p_cover : cover st' e S;
  p_sound : forall c, c ∈ S -> from e c;
  p_prov : provenance st st' (call_list e);
  p_reports : new_reports st st' (reports e)
}.
Record visit_post (x : fid) (path : list fid) (st : est) (S : codeset) (st' : est) : Prop := VisitPost {
  q_inv : inv st' path;
  q_new : exists new, stk st' = new ++ stk st /\ (forall n, n ∈ new -> ~ visited st n) /\
            sec_ok st' (lw st' x) new /\ (x ∉ stk st' -> new = []);
  q_old : forall n, visited st n -> vs st' !! n = vs st !! n /\ e_found st' !! n = e_found st !! n;
  q_self : visited st' x /\ ~ visited st x /\ e_found st' !! x = Some S;
  q_idx : idx st' x = sc_index (e_scc st);
  q_pop : x ∉ stk st' -> lw st' x = idx st' x;
  q_sound : forall c, c ∈ S -> may x c;
  q_prov : provenance st st' [x];
  q_reports : new_reports st st' []
}.

Lemma eval_ext f path e st S st' : eval_post f path e st S st' -> ext st st'.
Proof.
  intros P. destruct (p_new _ _ _ _ _ _ P) as (new&Hstk&Hnew&_).
  destruct (p_self _ _ _ _ _ _ P) as (v&v'&Hv&Hv'&Hi&_).
  constructor; intros n Hn.
  - destruct (decide (n = f)) as [->|Hne]; [by exists v'|].
    apply (visited_eq st); [by apply (p_old _ _ _ _ _ _ P)|done].
  - destruct (decide (n = f)) as [->|Hne]; [unfold idx; by rewrite Hv, Hv'|].
    apply idx_eq. by apply (p_old _ _ _ _ _ _ P).
  - by apply (p_fnd _ _ _ _ _ _ P).
  - rewrite Hstk, elem_of_app. split; [|by right]. intros [?|?]; [|done]. exfalso. by eapply Hnew.
Qed.
Lemma visit_ext x path st S st' : visit_post x path st S st' -> ext st st'.
Proof.
  intros P. destruct (q_new _ _ _ _ _ P) as (new&Hstk&Hnew&_).
  constructor; intros n Hn; destruct (q_old _ _ _ _ _ P n Hn) as [H1 H2].
  - by apply (visited_eq st).
  - by apply idx_eq.
  - done.
  - rewrite Hstk, elem_of_app. split; [|by right]. intros [?|?]; [|done]. exfalso. by eapply Hnew.
Qed.

Definition unvisited (U : gset fid) (st : est) : nat := size (U ∖ dom (vs st)).
Lemma unvisited_ext U st st' : ext st st' -> unvisited U st' <= unvisited U st.
Proof.
  intros E. unfold unvisited. apply subseteq_size. intros n. rewrite !elem_of_difference, !elem_of_dom.
  intros [? Hn]. split; [done|]. intros Hv. apply Hn. by apply (x_vis _ _ E).
Qed.

Lemma provenance_trans st1 st2 st3 d1 d2 : (forall n, visited st1 n -> visited st2 n) ->
  (forall n, visited st2 n -> visited st3 n) ->
  provenance st1 st2 d1 -> provenance st2 st3 d2 -> provenance st1 st3 (d1 ++ d2).
Proof.
  intros M1 M2 P1 P2 n Hn Hn1. rewrite elem_of_app.
  destruct (decide (n ∈ dom (vs st2))) as [H2%elem_of_dom|H2].
  - destruct (P1 n H2 Hn1) as [Hor (d&?&?)]. split; [|exists d; set_solver].
    destruct Hor as [?|(f&?&?&?)]; [by left; left|]. right. exists f. eauto.
  - assert (~ visited st2 n) as H2' by (intros ?; by apply H2, elem_of_dom).
    destruct (P2 n Hn H2') as [Hor (d&?&?)]. split; [|exists d; set_solver].
    destruct Hor as [?|(f&?&Hf&?)]; [by left; right|]. right. exists f. split_and!; eauto.
Qed.
Lemma new_reports_trans st1 st2 st3 r1 r2 : (forall n, visited st1 n -> visited st2 n) ->
  (forall n, visited st2 n -> visited st3 n) ->
  new_reports st1 st2 r1 -> new_reports st2 st3 r2 -> new_reports st1 st3 (r1 ++ r2).
Proof.
  intros M1 M2 (n1&D1&V1&P1) (n2&D2&V2&P2). exists (n1 ++ n2). split_and!.
  - apply NoDup_app. split_and!; [done| |done]. intros n H1%V1 H2%V2. tauto.
  - intros n. rewrite elem_of_app, V1, V2. split; [naive_solver|]. intros [H3 H1].
    destruct (decide (n ∈ dom (vs st2))) as [H2%elem_of_dom|H2]; [by left|].
    right. split; [done|]. intros ?. by apply H2, elem_of_dom.
  - rewrite P2, P1, bind_app, <-!(assoc_L (++)). do 2 f_equiv. apply Permutation_app_swap_app.
Qed.

Hypothesis Hback : direct_back plan.
Notation once := (direct_ok plan roots).
Context (U : gset fid) (U_closed : forall f g, f ∈ U -> calls f g -> g ∈ U).

(** [e] is (a part of) the plan of [f] whose literals are not yet analysed. *)
Definition eval_pre (f : fid) (e : eff D) (st : est) : Prop :=
  (forall g, g ∈ call_list e -> calls f g) /\
  (forall g, g ∈ direct_list e -> ~ reaches g f) /\
  (once -> forall g, g ∈ direct_list e -> ~ visited st g /\ (forall f', calls f' g -> f' = f) /\
    forall l1 l2, call_list e = l1 ++ g :: l2 -> g ∉ l1 ++ l2).

Lemma direct_call e g : g ∈ direct_list e -> g ∈ call_list (D := D) e.
Proof.
  induction e; cbn; rewrite ?elem_of_app; intros H; try (by apply elem_of_nil in H); tauto.
Qed.

Definition rec_ok (fuel : nat) (rec : fid -> est -> outcome (codeset * est)) : Prop :=
  forall x path st, inv st path -> x ∈ U -> unvisited U st <= fuel ->
    (roots x \/ exists f, visited st f /\ calls f x) ->
    (forall p, p ∈ path -> reaches p x) ->
    match rec x st with
    | Ok (cs, st') => visit_post x path st cs st'
    | Panicked => (exists f, reaches x f /\ ~ no_panic (plan f)) \/ visited st x \/ ~ once
    | OutOfFuel => visited st x \/ ~ once
    end.

Lemma path_reaches st f path p : inv st (f :: path) -> p ∈ f :: path -> reaches p f.
Proof.
  intros HI Hp. apply elem_of_cons in Hp as [->|Hp]; [apply rtc_refl|].
  apply (i_down _ _ HI); [by right|apply (i_path _ _ HI); by left|].
  apply Nat.lt_le_incl, (i_order _ _ HI [] f path); done.
Qed.

Lemma lw_ext f st st' v v' : vs st !! f = Some v -> vs st' !! f = Some v' -> v_low v' <= v_low v -> lw st' f <= lw st f.
Proof. unfold lw. by intros -> ->. Qed.

(** Lowering the low index of [f] (or not). *)
Lemma set_low_ok st path f k : inv st path -> f ∈ stk st ->
  (lw st f <= k \/ exists z, z ∈ stk st /\ idx st z = k /\ reaches f z) ->
  exists m, set_low (sc_vertices (e_scc st)) f k = Some m /\
    inv (with_vs st m) path /\ lw (with_vs st m) f = Nat.min (lw st f) k /\
    (forall n, idx (with_vs st m) n = idx st n) /\ (forall n, visited (with_vs st m) n <-> visited st n) /\
    (forall n, n <> f -> m !! n = vs st !! n) /\
    exists v v', vs st !! f = Some v /\ m !! f = Some v' /\ v_index v' = v_index v /\ v_low v' <= v_low v.
Proof.
  intros HI Hf Hk. destruct (stk_visited _ _ _ HI Hf) as [v Hv].
  unfold set_low. fold (vs st). rewrite Hv.
  set (m := <[f := Vertex (v_index v) (Nat.min (v_low v) k) (v_on v)]> (vs st)).
  exists m. split; [done|].
  assert (lw st f = v_low v) as Hl by (unfold lw; by rewrite Hv).
  assert (forall n, n <> f -> m !! n = vs st !! n) as Hne by (intros n Hn; unfold m; by rewrite lookup_insert_ne).
  assert (m !! f = Some (Vertex (v_index v) (Nat.min (v_low v) k) (v_on v))) as Hmf by (unfold m; by rewrite lookup_insert).
  assert (forall n, idx (with_vs st m) n = idx st n) as Hidx.
  { intros n. unfold idx, with_vs, vs at 1. cbn. destruct (decide (n = f)) as [->|Hn].
    - by rewrite Hmf, Hv.
    - by rewrite Hne. }
  assert (forall n, visited (with_vs st m) n <-> visited st n) as Hvis.
  { intros n. unfold visited, with_vs, vs at 1. cbn. destruct (decide (n = f)) as [->|Hn].
    - rewrite Hmf. split; eauto.
    - by rewrite Hne. }
  split; [|split_and!; try done].
  - destruct (decide (v_low v <= k)) as [Hle|Hgt].
    + assert (m = vs st) as E.
      { unfold m. apply insert_id. rewrite Hv. f_equal. rewrite Nat.min_l by lia. by destruct v. }
      rewrite E. destruct HI. by constructor.
    + unfold m. rewrite Nat.min_r by lia. apply inv_set_low; [done|done|done|lia|].
      destruct Hk as [?|?]; [lia|done].
  - unfold lw, with_vs, vs at 1. cbn. by rewrite Hmf, Hv.
  - exists v, (Vertex (v_index v) (Nat.min (v_low v) k) (v_on v)). split_and!; [done..|cbn; lia].
Qed.

Lemma eval_ok fuel rec f path e st : rec_ok fuel rec -> inv st (f :: path) -> f ∈ U ->
  eval_pre f e st -> unvisited U st <= fuel ->
  match eval_eff rec f e st with
  | Ok (cs, st') => eval_post f (f :: path) e st cs st'
  | Panicked => ~ no_panic e \/ (exists g f', g ∈ call_list e /\ reaches g f' /\ ~ no_panic (plan f')) \/ ~ once
  | OutOfFuel => ~ once
  end.
Proof.
  intros Hrec. revert st. induction e as [s|a IHa b IHb|a IHa s|d|g|g|]; intros st HI HfU Hpre Hfuel; cbn [eval_eff].
  - (* EffSet *)
    assert (f ∈ stk st) as Hf by (apply (i_path _ _ HI); by left).
    destruct (stk_visited _ _ _ HI Hf) as [v Hv].
    constructor; [done| |done|by exists v, v|done| | | | |].
    + exists []. split_and!; [done| |]; intros ? ?%elem_of_nil; done.
    + cbn. intros g Hg. by apply elem_of_nil in Hg.
    + intros Q HQ c Hc. by left.
    + intros c Hc. by constructor.
    + intros n ? ?. done.
    + exists []. split_and!; [constructor| |cbn; by rewrite app_nil_r].
      intros n. split; [intros Hn; by apply elem_of_nil in Hn|naive_solver].
  - (* EffUnion *)
    destruct Hpre as (Hc&Hb&Hd). cbn in Hc, Hb, Hd.
    assert (eval_pre f a st) as Hpa.
    { split_and!; [intros g Hg; apply Hc; set_solver|intros g Hg; apply Hb; set_solver|].
      intros Ho g Hg. destruct (Hd Ho g) as (H1&H2&H4); [set_solver|].
      split_and!; [done..|]. intros l1 l2 Heq. specialize (H4 l1 (l2 ++ call_list b)).
      rewrite Heq, <-app_assoc in H4. specialize (H4 eq_refl). set_solver. }
    specialize (IHa st HI HfU Hpa Hfuel).
    destruct (eval_eff rec f a st) as [[s1 st1]| |] eqn:Ea; [| |done].
    2:{ cbn. destruct IHa as [?|[(g&f'&?&?&?)|?]].
        - left. naive_solver.
        - right. left. exists g, f'. set_solver.
        - by right; right. }
    rename IHa into P1.
    pose proof (eval_ext _ _ _ _ _ _ P1) as E1.
    assert (eval_pre f b st1) as Hpre1.
    { split_and!; [intros g Hg; apply Hc; set_solver|intros g Hg; apply Hb; set_solver|].
      intros Ho g Hg. destruct (Hd Ho g) as (H1&H2&H4); [set_solver|].
      assert (g ∉ call_list a) as Hga.
      { pose proof (direct_call _ _ Hg) as Hgc. apply elem_of_list_split in Hgc as (l1&l2&Heq).
        specialize (H4 (call_list a ++ l1) l2). rewrite Heq, <-app_assoc in H4. specialize (H4 eq_refl). set_solver. }
      split_and!; [|done|].
      - intros Hv. destruct (p_prov _ _ _ _ _ _ P1 g Hv H1) as [ [?|(f'&?&Hf'&Hcall)] _]; [done|].
        apply H2 in Hcall as ->. apply Hf'. apply (stk_visited _ _ _ HI). apply (i_path _ _ HI). by left.
      - intros l1 l2 Heq. specialize (H4 (call_list a ++ l1) l2). rewrite Heq, <-app_assoc in H4.
        specialize (H4 eq_refl). set_solver. }
    specialize (IHb st1 (p_inv _ _ _ _ _ _ P1) HfU Hpre1).
    assert (unvisited U st1 <= fuel) as Hfuel1 by (pose proof (unvisited_ext U _ _ E1); lia).
    specialize (IHb Hfuel1).
    destruct (eval_eff rec f b st1) as [[s2 st2]| |] eqn:Eb; cbn.
    2:{ destruct IHb as [?|[(g&f'&?&?&?)|?]]; [left; naive_solver|right; left; exists g, f'; set_solver|by right; right]. }
    2:{ done. }
    pose proof IHb as P2. clear IHb. pose proof (eval_ext _ _ _ _ _ _ P2) as E2.
    pose proof (ext_trans _ _ _ E1 E2) as E.
    destruct (p_new _ _ _ _ _ _ P1) as (new1&Hs1&Hn1&Hk1).
    destruct (p_new _ _ _ _ _ _ P2) as (new2&Hs2&Hn2&Hk2).
    destruct (p_self _ _ _ _ _ _ P1) as (v&v1&Hv&Hv1&Hi1&Hl1).
    destruct (p_self _ _ _ _ _ _ P2) as (v1'&v2&Hv1'&Hv2&Hi2&Hl2).
    rewrite Hv1 in Hv1'. injection Hv1' as <-.
    pose proof (lw_ext f _ _ _ _ Hv1 Hv2 Hl2) as Hlw.
    pose proof (p_inv _ _ _ _ _ _ P1) as HI1.
    constructor.
    + apply P2.
    + exists (new2 ++ new1). split_and!.
      * by rewrite Hs2, Hs1, app_assoc.
      * intros n. rewrite elem_of_app. intros [Hn|Hn]; [|by apply Hn1]. intros Hv'. apply (Hn2 n Hn). by apply E1.
      * intros y. rewrite elem_of_app. intros [Hy|Hy]; [by apply Hk2|].
        eapply (sec_ok_ext st1 st2 (f :: path) _ _ new1); [done|done|exact Hlw| |done|done].
        intros z Hz. eapply stk_visited; [done|]. rewrite Hs1. set_solver.
    + intros n Hn Hne. rewrite (p_old _ _ _ _ _ _ P2); [|by apply E1|done]. by apply (p_old _ _ _ _ _ _ P1).
    + exists v, v2. split_and!; [done|done|congruence|lia].
    + apply E.
    + cbn. intros g. rewrite elem_of_app. intros [Hg|Hg]; [|by apply (p_calls _ _ _ _ _ _ P2)].
      destruct (p_calls _ _ _ _ _ _ P1 g Hg) as [Hvg Hlg]. split; [by apply E2|].
      rewrite (x_old _ _ E2), (x_idx _ _ E2) by done. intros Hgs. specialize (Hlg Hgs). lia.
    + intros Q HQ c [Hf|Hf].
      * destruct (cover_ext _ _ _ _ _ HI1 E2 (p_cover _ _ _ _ _ _ P1) Q HQ c Hf) as [?|(g&?&?&?)].
        -- left. set_solver.
        -- right. exists g. set_solver.
      * destruct (p_cover _ _ _ _ _ _ P2 Q HQ c Hf) as [?|(g&?&?&?)].
        -- left. set_solver.
        -- right. exists g. set_solver.
    + intros c. rewrite elem_of_union. intros [Hcc|Hcc].
      * apply from_union_l. by apply (p_sound _ _ _ _ _ _ P1).
      * apply from_union_r. by apply (p_sound _ _ _ _ _ _ P2).
    + eapply provenance_trans; [apply E1|apply E2|apply P1|apply P2].
    + eapply new_reports_trans; [apply E1|apply E2|apply P1|apply P2].
  - (* EffDiff *)
    specialize (IHa st HI HfU Hpre Hfuel). destruct (eval_eff rec f a st) as [[s1 st1]| |] eqn:Ea; [|done|done].
    destruct IHa as [H1 H2 H3 H4 H5 H6 H7 H8 H9 H10]. constructor; try done.
    + intros Q HQ c [Hf Hc]. destruct (H7 Q HQ c Hf) as [?|?]; [left; set_solver|by right].
    + intros c. rewrite elem_of_difference. intros [? ?]. constructor; auto.
  - (* EffReport *)
    assert (f ∈ stk st) as Hf by (apply (i_path _ _ HI); by left).
    destruct (stk_visited _ _ _ HI Hf) as [v Hv].
    constructor; [|exists []|done|by exists v, v|done| | | | |].
    + destruct HI. by constructor.
    + split_and!; [done| |]; intros ? ?%elem_of_nil; done.
    + cbn. intros g Hg. by apply elem_of_nil in Hg.
    + intros Q HQ c Hc. done.
    + intros c Hc. by apply elem_of_empty in Hc.
    + intros n ? ?. done.
    + exists []. split_and!; [constructor| |cbn; done].
      intros n. split; [intros Hn; by apply elem_of_nil in Hn|intros [H1 H2]; by destruct H2].
  - (* EffCallEdge *)
    assert (f ∈ stk st) as Hf by (apply (i_path _ _ HI); by left).
    assert (calls f g) as Hfg by (apply Hpre; cbn; by left).
    unfold scc_edge. fold (vs st). destruct (vs st !! g) as [t|] eqn:Hg.
    + (* g is visited *)
      assert (visited st g) as Hvg by by exists t.
      assert (forall st', stk st' = stk st -> e_found st' = e_found st -> (forall n, visited st' n <-> visited st n) ->
                e_diags st' = e_diags st -> inv st' (f :: path) -> (forall n, idx st' n = idx st n) ->
                (forall n, n <> f -> vs st' !! n = vs st !! n) ->
                (exists v v', vs st !! f = Some v /\ vs st' !! f = Some v' /\ v_index v' = v_index v /\ v_low v' <= v_low v) ->
                (g ∈ stk st -> lw st' f <= idx st g) ->
                eval_post f (f :: path) (EffCallEdge g) st (default ∅ (e_found st !! g)) st') as Hgen.
      { intros st' Hs Hfd Hvis Hdg HI' Hidx Hvs Hself Hlow. constructor.
        - done.
        - exists []. split_and!; [done| |]; intros ? ?%elem_of_nil; done.
        - intros n _ Hn. auto.
        - done.
        - intros n _. by rewrite Hfd.
        - cbn. intros g' ->%elem_of_list_singleton. split; [by apply Hvis|]. by rewrite Hs, Hidx.
        - intros Q HQ c Hq. cbn in Hq. destruct (decide (g ∈ stk st)) as [Hgs|Hgs].
          + right. exists g. rewrite Hs. split_and!; [by left|done|done].
          + left. destruct (i_exact _ _ HI g) as (s&Hsf&_); [done|]. rewrite Hsf. cbn.
            apply (HQ g c s); [|by rewrite Hfd|done]. split; [by apply Hvis|by rewrite Hs].
        - intros c Hc. constructor. destruct (e_found st !! g) as [s|] eqn:Es; cbn in Hc; [|by apply elem_of_empty in Hc].
          by apply (i_sound _ _ HI g s).
        - intros n Hn Hn'. rewrite Hvis in Hn. done.
        - exists []. split_and!; [constructor| |].
          + intros n. rewrite Hvis. split; [intros Hn; by apply elem_of_nil in Hn|intros [H1 H2]; by destruct H2].
          + rewrite Hdg. cbn. by rewrite app_nil_r. }
      destruct (v_on t) eqn:Ht.
      * assert (g ∈ stk st) as Hgs by (apply (i_on _ _ HI); eauto).
        assert (idx st g = v_index t) as Hgi by (unfold idx; by rewrite Hg).
        destruct (set_low_ok st (f :: path) f (v_index t) HI Hf) as (m&Hm&HI'&Hlw&Hidx&Hvis&Hne&Hself).
        { right. exists g. split_and!; [done|done|]. by apply rtc_once. }
        unfold set_scc. fold (vs st) in Hm. rewrite Hm. cbn [e_scc e_found e_diags e_comps].
        apply (Hgen (with_vs st m)); try done.
        intros _. rewrite Hlw, Hgi. lia.
      * assert (g ∉ stk st) as Hgs by (intros (t'&Ht'&?)%(i_on _ _ HI); congruence).
        apply Hgen; try done.
        -- destruct HI. by constructor.
        -- destruct (stk_visited _ _ _ HI Hf) as [v Hv]. by exists v, v.
    + (* g is not visited *)
      assert (~ visited st g) as Hvg by (unfold visited; rewrite Hg; by intros [? ?]).
      assert (set_scc st (e_scc st) = st) as -> by by destruct st.
      assert (Hr := Hrec g (f :: path) st HI (U_closed f g HfU Hfg) Hfuel).
      feed specialize Hr.
      { right. exists f. split; [by eapply stk_visited|done]. }
      { intros p Hp. eapply rtc_r; [by eapply path_reaches|done]. }
      clear Hrec. destruct (rec g st) as [[s1 st1]| |].
      2:{ right. destruct Hr as [(f'&?&?)|[?|?]]; [|done|by right].
          left. exists g, f'. cbn. split_and!; [by left|done|done]. }
      2:{ destruct Hr as [?|?]; done. }
      rename Hr into P. pose proof (visit_ext _ _ _ _ _ P) as E.
      pose proof (q_inv _ _ _ _ _ P) as HI1.
      destruct (q_self _ _ _ _ _ P) as (Hvg1&_&Hfg1).
      destruct (q_new _ _ _ _ _ P) as (new&Hs&Hn&Hk&Hpn).
      pose proof (stk_visited _ _ _ HI Hf) as Hvf. destruct Hvf as [v Hv].
      assert (vs st1 !! f = Some v) as Hv1 by (rewrite <-Hv; apply (q_old _ _ _ _ _ P); by exists v).
      assert (f ∈ stk st1) as Hf1 by (apply (i_path _ _ HI1); by left).
      assert (idx st1 f < idx st1 g) as Hlt.
      { rewrite (q_idx _ _ _ _ _ P). unfold idx. rewrite Hv1. by apply (i_bound _ _ HI f). }
      unfold scc_after. fold (vs st1). destruct Hvg1 as [t Ht]. rewrite Ht.
      assert (lw st1 g = v_low t) as Hlg by (unfold lw; by rewrite Ht).
      destruct (set_low_ok st1 (f :: path) f (v_low t) HI1 Hf1) as (m&Hm&HI'&Hlw&Hidx&Hvis&Hne&Hself).
      { destruct (decide (g ∈ stk st1)) as [Hgs|Hgs].
        - right. destruct (i_low _ _ HI1 g Hgs) as (_&z&?&?&?). exists z. split_and!; [done|congruence|].
          eapply rtc_l; done.
        - left. rewrite <-Hlg, (q_pop _ _ _ _ _ P Hgs). pose proof (proj1 (i_low _ _ HI1 f Hf1)). lia. }
      fold (vs st1) in Hm. rewrite Hm. fold (stk st1).
      change (eval_post f (f :: path) (EffCallEdge g) st s1 (with_vs st1 m)).
      set (st2 := with_vs st1 m) in *.
      assert (ext st1 st2) as E2.
      { constructor; [|done|done|done]. intros n Hn'. by apply Hvis. }
      pose proof (ext_trans _ _ _ E E2) as E3.
      assert (g ∈ stk st1 -> lw st2 f <= idx st1 g) as Hlow.
      { intros Hgs. rewrite Hlw. pose proof (proj1 (i_low _ _ HI1 g Hgs)). lia. }
      constructor.
      * done.
      * exists new. split_and!; [done|done|]. eapply (sec_ok_ext st1); [done|done| | |done].
        -- rewrite Hlg, Hlw. lia.
        -- intros y Hy. eapply stk_visited; [done|]. rewrite Hs. set_solver.
      * intros n Hn' Hne'. change (vs st2) with m. rewrite Hne by done. by apply (q_old _ _ _ _ _ P).
      * destruct Hself as (w&w'&Hw&Hw'&Hwi&Hwl). exists v, w'. rewrite Hv1 in Hw. injection Hw as <-. done.
      * apply E3.
      * cbn. intros g' ->%elem_of_list_singleton. split; [apply Hvis; by exists t|]. rewrite Hidx. done.
      * intros Q HQ c Hq. cbn in Hq. destruct (decide (g ∈ stk st1)) as [Hgs|Hgs].
        -- right. exists g. split_and!; [cbn; by left|done|done].
        -- left. apply (HQ g c s1); [|done|done]. split; [apply Hvis; by exists t|done].
      * intros c Hc. constructor. by apply (q_sound _ _ _ _ _ P).
      * intros n Hn1 Hn2. apply Hvis in Hn1. destruct (q_prov _ _ _ _ _ P n Hn1 Hn2) as [Hor Hd]. split; [|done].
        destruct Hor as [?|(f'&?&?&?)]; [by left|].
        right. exists f'. split_and!; [by apply Hvis|done|done].
      * destruct (q_reports _ _ _ _ _ P) as (nv&H1&H2&H3). exists nv. split_and!; [done| |done].
        intros n. by rewrite Hvis.
  - (* EffCallDirect *)
    assert (f ∈ stk st) as Hf by (apply (i_path _ _ HI); by left).
    destruct Hpre as (Hc&Hb&Hd). assert (calls f g) as Hfg by (apply Hc; cbn; by left).
    assert (~ reaches g f) as Hnb by (apply Hb; cbn; by left).
    assert (visited st g -> ~ once) as Hvg.
    { intros Hv Ho. destruct (Hd Ho g) as (Hn&_); [cbn; by left|]. done. }
    assert (Hr := Hrec g (f :: path) st HI (U_closed f g HfU Hfg) Hfuel).
    feed specialize Hr.
    { right. exists f. split; [by eapply stk_visited|done]. }
    { intros p Hp. eapply rtc_r; [by eapply path_reaches|done]. }
    clear Hrec. destruct (rec g st) as [[s1 st1]| |].
    2:{ right. destruct Hr as [(f'&?&?)|[?|?]]; [|right; auto|by right].
        left. exists g, f'. cbn. split_and!; [by left|done|done]. }
    2:{ destruct Hr as [?|?]; auto. }
    rename Hr into P. pose proof (visit_ext _ _ _ _ _ P) as E.
    pose proof (q_inv _ _ _ _ _ P) as HI1.
    destruct (q_self _ _ _ _ _ P) as (Hvg1&_&Hfg1).
    destruct (q_new _ _ _ _ _ P) as (new&Hs&Hn&Hk&Hpn).
    destruct (stk_visited _ _ _ HI Hf) as [v Hv].
    assert (g ∉ stk st1) as Hgs.
    { intros Hgs. destruct (i_up _ _ HI1 g Hgs) as (p&Hp&_&Hr). apply Hnb. etrans; [exact Hr|].
      by eapply path_reaches. }
    specialize (Hpn Hgs). subst new.
    constructor.
    + done.
    + exists []. split_and!; [done|done|]. intros ? ?%elem_of_nil; done.
    + intros n Hn' _. by apply (q_old _ _ _ _ _ P).
    + exists v, v. split_and!; [done| |done|done]. rewrite <-Hv. apply (q_old _ _ _ _ _ P). by exists v.
    + apply E.
    + cbn. intros g' ->%elem_of_list_singleton. done.
    + intros Q HQ c Hq. cbn in Hq. left. by apply (HQ g c s1).
    + intros c Hc'. constructor. by apply (q_sound _ _ _ _ _ P).
    + apply P.
    + apply P.
  - left. by intros [].
Qed.

Lemma app_cons_unique {A} (l1 l2 l1' l2' : list A) a : a ∉ l1 ++ l2 ->
  l1 ++ a :: l2 = l1' ++ a :: l2' -> l1 = l1' /\ l2 = l2'.
Proof.
  revert l1'. induction l1 as [|b l1 IH]; intros [|b' l1'] Hn Heq; cbn in *.
  - by injection Heq as ->.
  - injection Heq as <- ->. set_solver.
  - injection Heq as -> <-. set_solver.
  - injection Heq as <- Heq. destruct (IH l1') as [-> ->]; [set_solver|done|done].
Qed.

Lemma find_ok fuel : rec_ok fuel (find_codes_in_func plan fuel).
Proof.
  induction fuel as [|fuel IH]; intros x path st HI HxU Hfuel Horig Hreach.
  { left. destruct (decide (x ∈ dom (vs st))) as [Hx%elem_of_dom|Hvx]; [done|]. exfalso.
    assert (x ∈ U ∖ dom (vs st)) as Hx by (by apply elem_of_difference).
    unfold unvisited in Hfuel. assert (size (U ∖ dom (vs st)) = 0) as H0 by lia.
    apply size_empty_inv in H0. set_solver. }
  cbn [find_codes_in_func].
  destruct (scc_visit x (e_scc st)) as [s|] eqn:Hvisit.
  2:{ right. left. unfold scc_visit in Hvisit. destruct (sc_vertices (e_scc st) !! x) eqn:E; [|done]. by eexists. }
  destruct (inv_visit st path x s HI Hvisit Horig Hreach) as (HI1&Hs1&Hvx&Hv1&Hne1).
  set (st1 := set_scc st s) in *.
  assert (x ∉ path) as Hxp by (intros Hp; by apply Hvx, (stk_visited _ _ _ HI), (i_path _ _ HI)).
  assert (forall n, visited st n -> visited st1 n) as Hvis1.
  { intros n Hn. apply (visited_eq st); [|done]. apply Hne1. by intros ->. }
  assert (eval_pre x (plan x) st1) as Hpre.
  { split_and!; [done|intros g Hg; by apply Hback|]. intros Ho g Hg. destruct (Ho x g Hg) as (H1&H2&H3&l1&l2&H4&H5). split_and!; [|done|].
    - intros Hv. destruct (decide (g = x)) as [->|Hgx]; [by apply H3, rtc_refl|].
      assert (visited st g) as Hv' by (unfold visited; by rewrite <-Hne1).
      destruct (i_origin _ _ HI g Hv') as [?|(f'&Hf'&Hc)]; [done|]. apply H2 in Hc as ->. done.
    - intros l1' l2' Heq. rewrite H4 in Heq. by destruct (app_cons_unique _ _ _ _ _ H5 Heq) as [<- <-]. }
  assert (unvisited U st1 <= fuel) as Hfuel1.
  { assert (unvisited U st1 < unvisited U st); [|lia]. unfold unvisited. apply subset_size. split.
    - intros n. rewrite !elem_of_difference, !elem_of_dom. intros [? Hn]. split; [done|]. intros ?. apply Hn. by apply Hvis1.
    - intros Hsub. assert (x ∈ U ∖ dom (vs st1)) as Hx.
      { apply Hsub. apply elem_of_difference. split; [done|]. by rewrite elem_of_dom. }
      apply elem_of_difference in Hx as [_ Hx]. apply Hx, elem_of_dom. by rewrite Hv1. }
  pose proof (eval_ok fuel _ x path (plan x) st1 IH HI1 HxU Hpre Hfuel1) as Hev.
  destruct (eval_eff (find_codes_in_func plan fuel) x (plan x) st1) as [ [cs st2]| |] eqn:Eev; [| |by right].
  2:{ destruct Hev as [?|[(g&f'&Hg&Hr&?)|?]]; [left|left|by right; right].
      - exists x. split; [apply rtc_refl|done].
      - exists f'. split; [|done]. eapply rtc_l; done. }
  pose proof (p_inv _ _ _ _ _ _ Hev) as HI2. pose proof (eval_ext _ _ _ _ _ _ Hev) as E2.
  destruct (p_new _ _ _ _ _ _ Hev) as (new&Hs2&Hn2&Hk2). rewrite Hs1 in Hs2.
  destruct (p_self _ _ _ _ _ _ Hev) as (v&v'&Hv&Hv'&Hi&Hl). rewrite Hv1 in Hv. injection Hv as <-. cbn in Hi, Hl.
  assert (visited st1 x) as Hvx1 by (by eexists).
  assert (x ∉ new) as Hxnew by (intros Hx; by apply (Hn2 x)).
  assert (x ∈ stk st2) as Hx2 by (rewrite Hs2; set_solver).
  assert (forall c, c ∈ cs -> may x c) as Hsound.
  { intros c Hc. apply may_own. by apply (p_sound _ _ _ _ _ _ Hev). }
  assert (forall n, visited st n -> vs st2 !! n = vs st !! n /\ e_found st2 !! n = e_found st !! n) as Hold.
  { intros n Hn. assert (n <> x) by (by intros ->). split.
    - rewrite (p_old _ _ _ _ _ _ Hev) by auto. by apply Hne1.
    - rewrite (p_fnd _ _ _ _ _ _ Hev) by auto. done. }
  assert (idx st2 x = sc_index (e_scc st)) as Hidx2 by (unfold idx; by rewrite Hv').
  assert (forall n, n ∈ new ++ [x] -> ~ visited st n) as Hnew.
  { intros n. rewrite elem_of_app, elem_of_list_singleton. intros [Hn| ->]; [|done]. intros Hv. apply (Hn2 n Hn). auto. }
  set (found := <[x:=cs]> (e_found st2)).
  assert (sec_ok (with_found st2 found) (lw st2 x) (new ++ [x])) as Hsec.
  { assert (forall e s', cover st2 e s' -> cover (with_found st2 found) e s') as Hcov.
    { intros e s' Hc Q HQ c Hq. apply (Hc Q); [|done]. intros g c' s'' Hg Hs' Hq'. apply (HQ g c' s''); [done| |done].
      cbn. unfold found. rewrite lookup_insert_ne; [done|]. intros <-. by destruct Hg. }
    intros y. rewrite elem_of_app, elem_of_list_singleton. intros [Hy| ->].
    - destruct (Hk2 y Hy) as (H1&s'&H2&H3&H4). split; [done|]. exists s'. split_and!; [|by apply Hcov|done].
      cbn. unfold found. rewrite lookup_insert_ne; [done|]. by intros <-.
    - split.
      + intros g Hg. apply (p_calls _ _ _ _ _ _ Hev g Hg).
      + exists cs. split_and!; [cbn; unfold found; by rewrite lookup_insert|apply Hcov, (p_cover _ _ _ _ _ _ Hev)|done]. }
  assert (provenance st st2 [x]) as Hprov.
  { intros n Hn Hn'. destruct (decide (n = x)) as [->|Hnx].
    { split; [left; by left|]. exists x. split; [by left|apply rtc_refl]. }
    assert (~ visited st1 n) as Hn1 by (unfold visited; by rewrite Hne1).
    destruct (p_prov _ _ _ _ _ _ Hev n Hn Hn1) as [Hor (d&Hd&Hdn)].
    split; [|exists x; split; [by left|]; by eapply rtc_l].
    destruct Hor as [?|(f'&?&Hf'&?)]; right.
    - exists x. split_and!; [by apply E2|done|done].
    - exists f'. split_and!; [done| |done]. intros ?. auto. }
  assert (new_reports st st2 []) as Hrep.
  { destruct (p_reports _ _ _ _ _ _ Hev) as (nv&H1&H2&H3). exists (x :: nv). split_and!.
    - constructor; [|done]. intros Hx%H2. by destruct Hx.
    - intros n. rewrite elem_of_cons, H2. destruct (decide (n = x)) as [->|Hnx].
      + split; [|by left]. intros _. split; [by apply E2|done].
      + assert (visited st1 n <-> visited st n) as -> by (unfold visited; by rewrite Hne1). naive_solver.
    - rewrite H3. cbn. done. }
  unfold scc_end. fold (vs st2). rewrite Hv'. destruct (negb (v_index v' =? v_low v')) eqn:Eroot.
  - (* not a root *)
    apply negb_true_iff, Nat.eqb_neq in Eroot.
    change (visit_post x path st cs (with_found st2 found)).
    assert (idx st2 x <> lw st2 x) as Hne by (unfold idx, lw; by rewrite Hv').
    pose proof (end_nonroot st2 path x cs HI2 Hxp Hne Hsound) as HI3.
    constructor.
    + done.
    + exists (new ++ [x]). split_and!; [by rewrite <-app_assoc|done|done|]. intros Hx. by destruct Hx.
    + intros n Hn. destruct (Hold n Hn) as [H1 H2]. split; [done|]. cbn. unfold found. rewrite lookup_insert_ne; [done|]. by intros <-.
    + split_and!; [by apply E2|done|]. cbn. unfold found. by rewrite lookup_insert.
    + done.
    + intros Hx. by destruct Hx.
    + done.
    + done.
    + done.
  - (* a root *)
    apply negb_false_iff, Nat.eqb_eq in Eroot.
    assert (idx st2 x = lw st2 x) as Heq by (unfold idx, lw; by rewrite Hv').
    fold (stk st2). rewrite Hs2. rewrite (pop_until_app x new (stk st)) by done.
    destruct (end_root st2 path x new (stk st) HI2 Hxp Hs2 Heq cs Hsec) as (HI3&Hex&Hfx&Hle&Hout&Hvn&Hvx3).
    fold found in HI3, Hex, Hfx, Hout, Hvn, Hvx3.
    destruct (unify_component found (reverse (new ++ [x]))) as [u found'] eqn:Eu.
    cbn [fst snd] in *.
    set (st3 := Est _ found' _ _) in *.
    assert (forall n, visited st3 n <-> visited st2 n) as Hvis3.
    { intros n. destruct (decide (n ∈ new ++ [x])) as [Hn|Hn].
      - split; [|by auto]. intros _. apply (stk_visited _ _ _ HI2). rewrite Hs2. set_solver.
      - unfold visited. destruct (Hout n Hn) as [-> _]. done. }
    assert (stk st3 = stk st) as Hs3 by done.
    constructor.
    + done.
    + exists []. split_and!; [done| | |done]; intros ? ?%elem_of_nil; done.
    + intros n Hn. destruct (Hold n Hn) as [H1 H2].
      assert (n ∉ new ++ [x]) as Hn' by (intros ?%Hnew; done).
      destruct (Hout n Hn') as [-> ->]. done.
    + split_and!; [by apply Hvis3, E2|done|done].
    + unfold idx at 1. rewrite Hvx3. done.
    + intros _. unfold lw, idx. rewrite Hvx3. done.
    + intros c. apply Hex.
    + intros n Hn Hn'. rewrite Hvis3 in Hn. destruct (Hprov n Hn Hn') as [Hor Hd]. split; [|done].
      destruct Hor as [?|(f'&?&?&?)]; [by left|].
      right. exists f'. by rewrite Hvis3.
    + destruct Hrep as (nv&H1&H2&H3). exists nv. split_and!; [done| |done]. intros n. by rewrite Hvis3.
Qed.

(** ** Analysing a list of functions *)
Lemma empty_path st : inv st [] -> stk st = [].
Proof.
  intros HI. destruct (stk st) as [|y l] eqn:E; [done|]. destruct (i_up _ _ HI y) as (p&Hp&_).
  - rewrite E. by left.
  - by apply elem_of_nil in Hp.
Qed.

Record all_post (todo : list fid) (st : est) (res : list (fid * codeset)) (st' : est) : Prop := AllPost {
  a_inv : inv st' [];
  a_names : res.*1 = todo;
  a_exact : forall f s, (f, s) ∈ res -> forall c, c ∈ s <-> may f c;
  a_visited : forall n, visited st' n <-> visited st n \/ exists f, f ∈ todo /\ reaches f n;
  a_found : forall n, visited st n -> e_found st' !! n = e_found st !! n;
  a_reports : new_reports st st' []
}.

Lemma analyse_all_ok fuel todo st : inv st [] -> (forall f, f ∈ todo -> f ∈ U /\ roots f) ->
  unvisited U st <= fuel ->
  match analyse_all plan fuel todo st with
  | Ok (res, st') => all_post todo st res st'
  | Panicked => (exists f f', f ∈ todo /\ reaches f f' /\ ~ no_panic (plan f')) \/ ~ once
  | OutOfFuel => ~ once
  end.
Proof.
  revert st. induction todo as [|f todo IH]; intros st HI Htodo Hfuel; cbn.
  { constructor; try done.
    - intros f s Hf. by apply elem_of_nil in Hf.
    - intros n. split; [by left|]. intros [?|(f&Hf&_)]; [done|by apply elem_of_nil in Hf].
    - exists []. split_and!; [constructor| |cbn; by rewrite app_nil_r].
      intros n. split; [intros Hn; by apply elem_of_nil in Hn|intros [H1 H2]; by destruct H2]. }
  set (step := match e_found st !! f with Some codes => Ok (codes, st) | None => find_codes_in_func plan fuel f st end).
  assert (match step with
    | Ok (s, st1) => inv st1 [] /\ ext st st1 /\ visited st1 f /\ e_found st1 !! f = Some s /\ new_reports st st1 [] /\ provenance st st1 [f]
    | Panicked => (exists f', reaches f f' /\ ~ no_panic (plan f')) \/ ~ once
    | OutOfFuel => ~ once end) as Hstep.
  { unfold step. destruct (e_found st !! f) as [s|] eqn:Ef.
    - assert (visited st f) as Hv by (apply (i_found _ _ HI); by rewrite Ef).
      split_and!; [done|apply ext_refl|done|done| |].
      + exists []. split_and!; [constructor| |cbn; by rewrite app_nil_r].
        intros n. split; [intros Hn; by apply elem_of_nil in Hn|intros [H1 H2]; by destruct H2].
      + intros n ? ?. done.
    - assert (~ visited st f) as Hv.
      { intros Hv. assert (is_Some (e_found st !! f)) as [? ?]; [|congruence].
        apply (i_found _ _ HI). split; [done|apply not_elem_of_nil]. }
      destruct (Htodo f) as [HfU Hroot]; [by left|].
      pose proof (find_ok fuel f [] st HI HfU Hfuel (or_introl Hroot)) as Hf.
      feed specialize Hf. { intros p Hp. by apply elem_of_nil in Hp. }
      destruct (find_codes_in_func plan fuel f st) as [[s st1]| |].
      + rename Hf into P. destruct (q_self _ _ _ _ _ P) as (?&?&?).
        split_and!; [apply P|by eapply visit_ext|done|done|apply P|apply P].
      + destruct Hf as [?|[?|?]]; [by left|done|by right].
      + by destruct Hf as [?|?]. }
  destruct step as [[s st1]| |]; [| |done].
  2:{ destruct Hstep as [(f'&?&?)|?]; [left|by right]. exists f, f'. split_and!; [by left|done|done]. }
  destruct Hstep as (HI1&E1&Hvf&Hff&Hr1&Hp1).
  specialize (IH st1 HI1). pose proof (unvisited_ext U _ _ E1).
  destruct (analyse_all plan fuel todo st1) as [[res st2]| |].
  2:{ destruct IH as [(g&f'&?&?&?)|?]; [intros; apply Htodo; by right|lia|left|by right]. exists g, f'. split_and!; [by right|done|done]. }
  2:{ apply IH; [intros; apply Htodo; by right|lia]. }
  destruct IH as [a1 a2 a3 a4 a5 a6]; [intros; apply Htodo; by right|lia|].
  assert (forall n, visited st1 n -> visited st2 n) as Hm by (intros n Hn; apply a4; by left).
  constructor.
  - done.
  - cbn. by rewrite a2.
  - intros f' s'. rewrite elem_of_cons. intros [[= -> ->]|Hin]; [|by apply a3].
    destruct (i_exact _ _ HI1 f) as (s2&Hs2&He); [split; [done|by rewrite (empty_path _ HI1); apply not_elem_of_nil]|].
    rewrite Hff in Hs2. by injection Hs2 as <-.
  - intros n. rewrite a4. split.
    + intros [Hn|(f'&?&?)]; [|right; exists f'; set_solver].
      destruct (decide (n ∈ dom (vs st))) as [Hd%elem_of_dom|Hd]; [by left|].
      assert (~ visited st n) as Hn' by (intros ?; by apply Hd, elem_of_dom).
      destruct (Hp1 n Hn Hn') as [_ (d&->%elem_of_list_singleton&?)]. right. exists f. split; [by left|done].
    + intros [Hn|(f'&Hf'&Hr)]; [left; by apply E1|]. apply elem_of_cons in Hf' as [->|Hf'].
      * left. assert (popped st1 f) as Hpf by (split; [done|rewrite (empty_path _ HI1); apply not_elem_of_nil]).
        assert (forall a b, reaches a b -> popped st1 a -> popped st1 b) as Hrp.
        { induction 1; intros; [done|]. eauto using i_closed. }
        apply (Hrp f n Hr Hpf).
      * right. eauto.
  - intros n Hn. rewrite a5 by by apply E1. by apply E1.
  - eapply (new_reports_trans st st1 st2 [] []); [apply E1|done|done|done].
Qed.

End proofs.

(** ** The initial state *)
Lemma start_unvisited {D} n : ~ visited (@est_start D) n.
Proof. intros [v Hv]. unfold vs in Hv. cbn in Hv. by rewrite lookup_empty in Hv. Qed.
Lemma inv_start {D} (plan : fid -> eff D) roots : inv plan roots ∅ [] est_start [].
Proof.
  constructor.
  - intros n v Hv. destruct (start_unvisited (D := D) n). by exists v.
  - intros n m Hn. by destruct (start_unvisited (D := D) n).
  - intros n. split; [intros H; by apply elem_of_nil in H|]. intros (v&Hv&_).
    destruct (start_unvisited (D := D) n). by exists v.
  - intros l1 l2 Heq a b Ha. destruct l1; [by apply elem_of_nil in Ha|done].
  - intros p Hp. by apply elem_of_nil in Hp.
  - intros y p Hp. by apply elem_of_nil in Hp.
  - intros y Hp. by apply elem_of_nil in Hp.
  - intros y Hp. by apply elem_of_nil in Hp.
  - intros n g [Hn _]. by destruct (start_unvisited (D := D) n).
  - intros n [Hn _]. by destruct (start_unvisited (D := D) n).
  - intros n. cbn. rewrite lookup_empty. split; [by intros [? ?]|]. intros [Hn _]. by destruct (start_unvisited (D := D) n).
  - intros n Hn. by destruct (start_unvisited (D := D) n).
  - intros n s c. cbn. by rewrite lookup_empty.
  - intros l1 p l2 Heq. by destruct l1.
  - intros n Hn. by apply elem_of_empty in Hn.
  - exists []. split_and!; [done| |constructor| |].
    + intros n. split; [intros [Hn _]; by destruct (start_unvisited (D := D) n)|].
      intros [Hn|(C&HC&_)]; [by apply elem_of_empty in Hn|by apply elem_of_nil in HC].
    + intros C x HC. by apply elem_of_nil in HC.
    + intros cs1 C cs2 Heq. by destruct cs1.
Qed.
