(** * C46: code sets behave like values, although they are shared references. *)
From Coq Require Import Ascii String.
From stdpp Require Import base list gmap.
From Verif Require Import GoString ErrorCode CodeSet CodeSetProofs SetHeap SetHeapProofs SetProgram.

(** Set and SliceToSet make a new set with these values; no set that exists changes. *)
Theorem C46_slice_to_set (h : gmap N codeset) l slice : l ∉ dom h ->
  heap_slice_to_set l slice h = Some (<[ l := list_to_set slice ]> h).
Proof. intros _. apply slice_to_set_spec. Qed.
(** Union makes a new set, whatever orders the loops run in, also if both sets are the same or nil; no set that exists changes. *)
Theorem C46_union (h : gmap N codeset) l set other o1 o2 : l ∉ dom h -> order_of (contents h set) o1 -> order_of (contents h other) o2 ->
  heap_union l o1 o2 h = Some (<[ l := contents h set ∪ contents h other ]> h).
Proof. intros _ H1 H2. by rewrite union_spec, (order_set _ _ H1), (order_set _ _ H2). Qed.
(** Difference likewise (neither set may be a dangling reference, which Go excludes). *)
Theorem C46_difference (h : gmap N codeset) l set subtrahend o : l ∉ dom h -> order_of (contents h set) o -> (forall l', subtrahend = Some l' -> l' ∈ dom h) ->
  heap_difference l subtrahend o h = Some (<[ l := contents h set ∖ contents h subtrahend ]> h).
Proof. intros Hl H Hs. rewrite difference_spec, (order_set _ _ H); [done|]. intros ->. by apply Hl, Hs. Qed.
(** Add changes its receiver and nothing else; adding to a nil set panics. *)
Theorem C46_add (h : gmap N codeset) l v : heap_add (Some l) v h = Some (<[ l := {[ v ]} ∪ contents h (Some l) ]> h) /\ heap_add None v h = None.
Proof. done. Qed.

(** A call of a function with some sets as arguments; [m] are the sets kept outside of local variables. *)
Definition calls (P : setprog) (h : gmap N codeset) (m : gmap N (option N)) (f : string) (args : list (option N)) (evs : list event)
  (h' : gmap N codeset) (m' : gmap N (option N)) (r : result) : Prop :=
  exists fn, P !! f = Some fn /\ runs P h m (list_to_map (zip (sf_params fn) args)) (sf_body fn) evs h' m' r.
(** Every reference points to a set that exists. *)
Definition no_dangling (h : gmap N codeset) (m : gmap N (option N)) (args : list (option N)) : Prop :=
  (forall p l, m !! p = Some (Some l) -> l ∈ dom h) /\ (forall l, Some l ∈ args -> l ∈ dom h).

Section general.
Context (P : setprog) (HP : check_prog P = true).
Lemma call_inv h m args fn : no_dangling h m args -> inv (fun _ => False) h m (list_to_map (zip (sf_params fn) args)) ∅.
Proof.
  intros [Hm Ha]. split; [| |by intros ? ? ? ?|by intros ? ? ? ?|by intros ? ?|set_solver..].
  - intros x l Hx. apply Ha. by eapply var_args.
  - intros p l Hp. unfold held in Hp. destruct (m !! p) as [r|] eqn:E; [|done]. cbn in Hp. subst. by apply (Hm p).
Qed.
Lemma call_ok h m f args evs h' m' r : no_dangling h m args -> calls P h m f args evs h' m' r ->
  (forall l s, h !! l = Some s -> h' !! l = Some s) /\ r <> Crashes /\
  forall vm, mem_rel h m vm -> exists fn vm' vr, P !! f = Some fn /\ means P vm (list_to_map (zip (sf_params fn) (contents h <$> args))) (sf_body fn) evs vm' vr /\
    mem_rel h' m' vm' /\ res_rel h' r vr.
Proof.
  intros Hd (fn&Hf&Hr). destruct (body_checked P HP f fn Hf) as [o Ho].
  destruct (runs_ok P HP _ _ _ _ _ _ _ _ Hr _ ∅ o Ho (call_inv h m args fn Hd)) as [[Sd Ss Sn Sr Sc] Hsim].
  split_and!; [|done|].
  - intros l s Hl. rewrite Ss; [done|by eapply elem_of_dom_2|]. intros (x&Hx&_). set_solver.
  - intros vm Hm. assert (env_rel h (list_to_map (zip (sf_params fn) args)) (list_to_map (zip (sf_params fn) (contents h <$> args)))) as He.
    { clear. generalize (sf_params fn) as ps. revert args. induction args as [|a args IH]; intros [|p ps]; cbn; [done..|]. by apply env_rel_insert. }
    destruct (Hsim vm _ Hm He) as (vm'&vr&?&?&?). by exists fn, vm', vr.
Qed.
End general.

(** No function of the analyzer changes a set that existed when it was called: not the arguments, nor what is cached for a function, claimed by one, or recorded in a fact -
    even though all of these may be one and the same map. *)
Theorem C46_unchanged h m f args evs h' m' r : no_dangling h m args -> calls analyzer_sets h m f args evs h' m' r ->
  forall l s, h !! l = Some s -> h' !! l = Some s.
Proof. intros Hd Hc. by destruct (call_ok analyzer_sets analyzer_checked h m f args evs h' m' r Hd Hc) as (?&_&_). Qed.
(** It never adds to a nil set. *)
Theorem C46_no_nil_panic h m f args evs h' m' r : no_dangling h m args -> calls analyzer_sets h m f args evs h' m' r -> r <> Crashes.
Proof. intros Hd Hc. by destruct (call_ok analyzer_sets analyzer_checked h m f args evs h' m' r Hd Hc) as (_&?&_). Qed.

(** What a place contains. *)
Definition kept (h : gmap N codeset) (m : gmap N (option N)) (p : N) : codeset := contents h (default None (m !! p)).
(** It computes what it would compute if sets were values: whatever it reads, keeps and returns is the same. *)
Theorem C46_values h m f args evs h' m' r vm : no_dangling h m args -> calls analyzer_sets h m f args evs h' m' r ->
  (forall p, default ∅ (vm !! p) = kept h m p) ->
  exists fn vm' vr, analyzer_sets !! f = Some fn /\
    means analyzer_sets vm (list_to_map (zip (sf_params fn) (contents h <$> args))) (sf_body fn) evs vm' vr /\
    (forall p, default ∅ (vm' !! p) = kept h' m' p) /\
    (forall v, r = Returns v -> vr = VReturns (contents h' v)).
Proof.
  intros Hd Hc Hvm. destruct (call_ok analyzer_sets analyzer_checked h m f args evs h' m' r Hd Hc) as (_&_&H).
  destruct (H vm Hvm) as (fn&vm'&vr&Hf&Hm&Hmr&Hrr). exists fn, vm', vr. split_and!; [done..|]. intros v ->. destruct vr as [?|s]; [done|]. cbn in Hrr. by subst.
Qed.

(** As values, what a function computes is determined by what it starts with and the events: there is nothing else in which the two semantics could differ. *)
Lemma means_determined P vm ve s evs vm' vr : means P vm ve s evs vm' vr -> forall evs2 rest rest2 vm2 vr2,
  means P vm ve s evs2 vm2 vr2 -> evs ++ rest = evs2 ++ rest2 -> evs = evs2 /\ vm' = vm2 /\ vr = vr2.
Proof.
  induction 1 as [m e|m e x values|m e x|m e x y z|m e x y z|m e x y|m e x v|m e x|m e x p|m e x p|m e x f args fn evs m' r Hf Hrun IH|m e x
    |m e s t evs1 m1 e1 evs' m2 r H1 IH1 H2 IH2|m e s t evs m' v H1 IH1|m e s t b evs m' r H1 IH1|m e keep s|m e keep s evs1 m1 e1 evs' m2 r H1 IH1 H2 IH2|m e keep s evs m' v H1 IH1];
  intros evs2 rest rest2 vm2 vr2 Hm Heq; inversion Hm; subst; try (cbn in Heq; simplify_eq; done).
  - match goal with H : _ !! f = Some ?g |- _ => assert (fn = g) as <- by congruence end.
    match goal with H : means _ _ _ (sf_body fn) evs2 _ _ |- _ => destruct (IH _ _ _ _ _ H Heq) as (->&->&->) end. done.
  - rewrite <- !app_assoc in Heq. match goal with A : means P m e s _ _ _, B : means P _ _ t _ _ _ |- _ => destruct (IH1 _ _ _ _ _ A Heq) as (->&->&E); injection E as ->;
      apply app_inv_head in Heq; destruct (IH2 _ _ _ _ _ B Heq) as (->&->&->) end. done.
  - rewrite <- app_assoc in Heq. match goal with A : means P m e s _ _ _ |- _ => destruct (IH1 _ _ _ _ _ A Heq) as (_&_&[=]) end.
  - rewrite <- app_assoc in Heq. match goal with A : means P m e s _ _ _ |- _ => destruct (IH1 _ _ _ _ _ A Heq) as (_&_&[=]) end.
  - match goal with A : means P m e s _ _ _ |- _ => destruct (IH1 _ _ _ _ _ A Heq) as (->&->&->) end. done.
  - cbn in Heq. injection Heq as -> Heq. match goal with A : means P m e (if _ then s else t) _ _ _ |- _ => destruct (IH1 _ _ _ _ _ A Heq) as (->&->&->) end. done.
  - cbn in Heq. injection Heq as Heq. rewrite <- !app_assoc in Heq.
    match goal with A : means P m e s _ _ _, B : means P _ _ (SLoop keep s) _ _ _ |- _ => destruct (IH1 _ _ _ _ _ A Heq) as (->&->&E); injection E as ->;
      apply app_inv_head in Heq; destruct (IH2 _ _ _ _ _ B Heq) as (->&->&->) end. done.
  - cbn in Heq. injection Heq as Heq. rewrite <- app_assoc in Heq. match goal with A : means P m e s _ _ _ |- _ => destruct (IH1 _ _ _ _ _ A Heq) as (_&_&[=]) end.
  - cbn in Heq. injection Heq as Heq. rewrite <- app_assoc in Heq. match goal with A : means P m e s _ _ _ |- _ => destruct (IH1 _ _ _ _ _ A Heq) as (_&_&[=]) end.
  - cbn in Heq. injection Heq as Heq. match goal with A : means P m e s _ _ _ |- _ => destruct (IH1 _ _ _ _ _ A Heq) as (->&->&->) end. done.
Qed.
Theorem C46_values_determined P vm ve s evs vm1 vr1 vm2 vr2 : means P vm ve s evs vm1 vr1 -> means P vm ve s evs vm2 vr2 -> vm1 = vm2 /\ vr1 = vr2.
Proof. intros H1 H2. by destruct (means_determined _ _ _ _ _ _ _ H1 _ [] [] _ _ H2 eq_refl) as (_&?&?). Qed.
