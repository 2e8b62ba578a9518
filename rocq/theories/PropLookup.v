(** * C39: calls are resolved to the right declaration. *)
From Coq Require Import Ascii String.
From stdpp Require Import base list gmap.
From Verif Require Import GoString ErrorCode Scc Engine Constant GoAst Taint Extract Analyse SpecLookup LookupProofs.

Section lookup.
Context (pk : package).
Notation info := (pk_info pk).
Notation lk := (collectFunctions pk).

Lemma isMethod_spec fn : isMethod fn = true <-> exists d, fn_decl fn = Some d /\ has_receiver d.
Proof.
  unfold isMethod, has_receiver. destruct (fn_decl fn) as [d|]; [|split; [done|by intros (?&?&_)]].
  destruct (dc_recv d) as [[|r [|r' l]]|] eqn:E; split; try done.
  - by intros (d'&[= <-]&r&?); congruence.
  - intros _. exists d. split; [done|]. by exists r.
  - by intros (d'&[= <-]&r1&?); congruence.
  - by intros (d'&[= <-]&r1&?); congruence.
Qed.
Lemma declares_method_spec f name :
  declares_method pk f name <-> exists fn, pk_funcs pk !! f = Some fn /\ isMethod fn = true /\ func_name fn = name.
Proof.
  unfold declares_method, func_name. split.
  - intros (fn&d&Hf&Hd&Hr&<-). exists fn. split; [done|]. split; [|by rewrite Hd]. apply isMethod_spec. eauto.
  - intros (fn&Hf&(d&Hd&Hr)%isMethod_spec&Hn). rewrite Hd in Hn. exists fn, d. done.
Qed.
Lemma declares_function_spec f name :
  declares_function pk f name <-> exists fn, pk_funcs pk !! f = Some fn /\ isMethod fn = false /\ func_name fn = name.
Proof.
  unfold declares_function, func_name. split; intros (fn&Hf&H); exists fn; (split; [done|]).
  - destruct (isMethod fn) eqn:Em.
    + apply isMethod_spec in Em as (d&Hd&Hr). rewrite Hd in H. by destruct H.
    + destruct (fn_decl fn); [by destruct H|done].
  - destruct H as [Hm Hn]. destruct (fn_decl fn) as [d|] eqn:Ed; [|done]. split; [|done]. intros Hr.
    assert (isMethod fn = true) by (apply isMethod_spec; eauto). congruence.
Qed.

Lemma method_cases f name :
  {declares_method pk f name} + {~ declares_method pk f name}.
Proof.
  destruct (pk_funcs pk !! f) as [fn|] eqn:Ef.
  - destruct (decide (isMethod fn = true /\ func_name fn = name)) as [H|H].
    + left. apply declares_method_spec. eauto.
    + right. intros (fn'&?&?&?)%declares_method_spec. simplify_eq. by apply H.
  - right. intros (fn'&?&?&?)%declares_method_spec. congruence.
Qed.
Lemma function_cases f name :
  {declares_function pk f name} + {~ declares_function pk f name}.
Proof.
  destruct (pk_funcs pk !! f) as [fn|] eqn:Ef.
  - destruct (decide (isMethod fn = false /\ func_name fn = name)) as [H|H].
    + left. apply declares_function_spec. eauto.
    + right. intros (fn'&?&?&?)%declares_function_spec. simplify_eq. by apply H.
  - right. intros (fn'&?&?&?)%declares_function_spec. congruence.
Qed.

Lemma functions_collected ds t name g :
  lk_functions (foldl (collect_one pk) t ds) !! name = Some g <->
  (exists pre post, ds = pre ++ g :: post /\ declares_function pk g name /\ forall f, f ∈ post -> ~ declares_function pk f name) \/
  (lk_functions t !! name = Some g /\ forall f, f ∈ ds -> ~ declares_function pk f name).
Proof.
  revert t. induction ds as [|f ds IH]; intros t; cbn [foldl].
  { split; [intros H; right; split; [done|]; intros f Hf; by apply not_elem_of_nil in Hf|].
    intros [(pre&post&H&_)|[H _]]; [by destruct pre|done]. }
  rewrite IH. clear IH.
  assert (lk_functions (collect_one pk t f) !! name = Some g <->
    (f = g /\ declares_function pk g name) \/ (lk_functions t !! name = Some g /\ ~ declares_function pk f name)) as Hone.
  { unfold collect_one. destruct (pk_funcs pk !! f) as [fn|] eqn:Ef.
    2: { split; [intros H; right; split; [done|]; intros (?&?&_)%declares_function_spec; congruence|].
         intros [[-> (?&?&_)%declares_function_spec]|[? _]]; [congruence|done]. }
    destruct (isMethod fn) eqn:Em; cbn [lk_functions].
    { split; [intros H; right; split; [done|]; intros (?&?&?&_)%declares_function_spec; congruence|].
      intros [[-> (?&?&?&_)%declares_function_spec]|[? _]]; [congruence|done]. }
    destruct (decide (func_name fn = name)) as [Hn|Hn].
    - rewrite <-Hn, lookup_insert. split.
      + intros [= <-]. left. split; [done|]. apply declares_function_spec. eauto.
      + intros [[-> _]|[_ H]]; [done|]. destruct H. apply declares_function_spec. eauto.
    - rewrite lookup_insert_ne by done. split.
      + intros H. right. split; [done|]. intros (?&?&?&?)%declares_function_spec. congruence.
      + intros [[-> (?&?&?&?)%declares_function_spec]|[? _]]; [congruence|done]. }
  split.
  - intros [(pre&post&->&Hd&Hl)|[[[-> Hd]|[Ht Hf]]%Hone Hds]].
    + left. exists (f :: pre), post. done.
    + left. exists [], ds. done.
    + right. split; [done|]. intros f' [->|Hf']%elem_of_cons; [done|by apply Hds].
  - intros [(pre&post&Heq&Hd&Hl)|[Ht Hds]].
    + destruct pre as [|f' pre]; injection Heq as -> ->.
      * right. split; [|done]. apply Hone. by left.
      * left. exists pre, post. done.
    + right. split; [apply Hone; right; split; [done|]; apply Hds; by left|]. intros f' Hf'. apply Hds. by right.
Qed.
Theorem C39_function name g : lk_functions lk !! name = Some g <-> function_named pk name g.
Proof.
  unfold collectFunctions, function_named. rewrite functions_collected. cbn [lk_functions]. rewrite lookup_empty.
  split; [by intros [?|[? _]]|by left].
Qed.

Lemma methods_collected ds t name :
  default [] (lk_methods (foldl (collect_one pk) t ds) !! name) =
  default [] (lk_methods t !! name) ++ filter (fun f => bool_decide (is_Some (pk_funcs pk !! f ≫= fun fn =>
    if decide (isMethod fn = true /\ func_name fn = name) then Some tt else None)) = true) ds.
Proof.
  revert t. induction ds as [|f ds IH]; intros t; cbn [foldl]; [by rewrite app_nil_r|].
  rewrite IH. rewrite filter_cons. unfold collect_one at 1. destruct (pk_funcs pk !! f) as [fn|] eqn:Ef; cbn [mbind option_bind].
  2: { rewrite decide_False; [done|]. rewrite bool_decide_eq_true. by intros [? ?]. }
  destruct (isMethod fn) eqn:Em; cbn [lk_methods].
  2: { rewrite (decide_False (P := false = true /\ _)) by by intros [? _]. rewrite decide_False; [done|].
       rewrite bool_decide_eq_true. by intros [? ?]. }
  destruct (decide (func_name fn = name)) as [Hn|Hn].
  - rewrite (decide_True (P := true = true /\ _)) by done. rewrite decide_True by by (apply bool_decide_eq_true; eauto).
    rewrite <-Hn, lookup_insert. cbn [default from_option id]. by rewrite <-app_assoc.
  - rewrite lookup_insert_ne by done. rewrite (decide_False (P := true = true /\ _)) by by intros [_ ?].
    rewrite decide_False; [done|]. rewrite bool_decide_eq_true. by intros [? ?].
Qed.
Definition named_method (name : gostring) (f : fid) : Prop := bool_decide (is_Some (pk_funcs pk !! f ≫= fun fn =>
    if decide (isMethod fn = true /\ func_name fn = name) then Some tt else None)) = true.
Global Instance named_method_dec name f : Decision (named_method name f).
Proof. unfold named_method. apply _. Defined.
Lemma named_method_spec name f : named_method name f <-> declares_method pk f name.
Proof.
  unfold named_method. rewrite bool_decide_eq_true, declares_method_spec.
  destruct (pk_funcs pk !! f) as [fn|]; cbn [mbind option_bind].
  - case_decide as H; (split; [|eauto]); [intros _; eauto|by intros [? ?]|]. intros (?&[= <-]&?&?). by destruct H.
  - split; [by intros [? ?]|]. by intros (?&?&_).
Qed.

Theorem C39_method_object t name o : searchMethodType pk t name = Some o <-> has_method pk t name o.
Proof. apply searchMethodType_spec. Qed.

Lemma filter_split {A} (P : A -> Prop) `{forall x, Decision (P x)} (l pre post : list A) x :
  filter P l = pre ++ x :: post -> exists pre' post', l = pre' ++ x :: post' /\ filter P pre' = pre /\ P x.
Proof.
  revert pre. induction l as [|y l IH]; intros pre Heq; [by destruct pre|].
  rewrite filter_cons in Heq. destruct (decide (P y)) as [Hy|Hy].
  - destruct pre as [|z pre]; injection Heq as -> Heq.
    + exists [], l. done.
    + destruct (IH _ Heq) as (pre'&post'&->&Hf&Hx). exists (z :: pre'), post'. split; [done|]. rewrite filter_cons, decide_True by done.
      by rewrite Hf.
  - destruct (IH _ Heq) as (pre'&post'&->&Hf&Hx). exists (y :: pre'), post'. split; [done|]. rewrite filter_cons, decide_False by done. done.
Qed.

Theorem C39_method t name g : searchMethod pk lk t name = Some g <-> method_declared pk t name g.
Proof.
  unfold searchMethod, method_declared.
  assert (default [] (lk_methods lk !! name) = filter (named_method name) (pk_decls pk)) as Hm.
  { unfold collectFunctions. rewrite methods_collected. cbn [lk_methods]. by rewrite lookup_empty. }
  assert (searchMethod pk lk t name = match searchMethodType pk t name with
    | None => None
    | Some o => list_find (fun f => decl_obj pk f = Some o) (filter (named_method name) (pk_decls pk)) ≫= fun p => Some p.2 end) as Hs.
  { unfold searchMethod. destruct (lk_methods lk !! name) as [l|]; cbn [default from_option id] in Hm.
    - by rewrite <-Hm.
    - rewrite <-Hm. by destruct (searchMethodType pk t name). }
  unfold searchMethod in Hs. rewrite Hs. clear Hs Hm. split.
  - destruct (searchMethodType pk t name) as [o|] eqn:Eo; [|done]. apply C39_method_object in Eo.
    intros (p&Hp&[= <-])%bind_Some. assert (exists i, list_find (fun f => decl_obj pk f = Some o) (filter (named_method name) (pk_decls pk)) = Some (i, p.2)) as H
      by (exists p.1; by destruct p).
    apply list_find_split in H as (pre&post&Heq&Hd&Hf). apply filter_split in Heq as (pre'&post'&Heq&Hpre&Hx).
    exists o, pre', post'. split_and!; [done|done|by apply named_method_spec|by apply declares_object_spec|].
    intros f Hin Hme Ho%declares_object_spec. apply (Hf f); [|done]. rewrite <-Hpre. apply elem_of_list_filter. split; [by apply named_method_spec|done].
  - intros (o&pre&post&Ho&Heq&Hme&Hob&Hf). apply C39_method_object in Ho. rewrite Ho. apply bind_Some.
    assert (exists i, list_find (fun f => decl_obj pk f = Some o) (filter (named_method name) (pk_decls pk)) = Some (i, g)) as (i&Hi).
    { apply list_find_split. exists (filter (named_method name) pre), (filter (named_method name) post). split; [|split].
      - rewrite Heq, filter_app, filter_cons, decide_True by by apply named_method_spec. done.
      - by apply declares_object_spec.
      - intros f [Hn Hin]%elem_of_list_filter Hd. apply (Hf f); [done|by apply named_method_spec|by apply declares_object_spec]. }
    exists (i, g). done.
Qed.
End lookup.

(** ** A concrete case *)
Definition ex_info : typeinfo := {|
  ti_type := fun _ => None; ti_value := fun _ => None; ti_uses := fun _ => None;
  ti_defs := fun n => if decide (n = 11)%N then Some 111%N else if decide (n = 12)%N then Some 112%N else None;
  ti_selection := fun _ => None; ti_is_typename := fun _ => false; ti_pkgname := fun _ => None; ti_objname := fun _ => [];
  ti_objtype := fun _ => TUntypedNil; ti_underlying := fun _ => TUntypedNil;
  ti_methods := fun t m => if decide (t = TPointer (TNamed 5%N) /\ m = str "Get") then Some 112%N else None;
  ti_implements_error := fun _ => false; ti_implements_ree := fun _ => false; ti_implements_cause := fun _ => false;
  ti_implements := fun _ _ => false; ti_named_methods := fun _ => []; ti_is_print := fun _ => false; ti_is_upper := fun _ => false; ti_compound := fun _ => false |}.
Definition ex_func (id : nid) (name : gostring) (method : bool) : func :=
  Func id (Some (DeclInfo (Ident id name None) (if method then Some [Field 0%N [] 0%N] else None) None))
    (FuncType 0%N [] None 0%N) None 0%N 0%N.
(** Two methods Get (of different types) and a function of the same name. *)
Definition ex_package : package := Package
  {[ 1%N := ex_func 11%N (str "Get") true; 2%N := ex_func 12%N (str "Get") true; 3%N := ex_func 13%N (str "Get") false ]}
  [1; 2; 3]%N [] [] ∅ (fun _ => []) ex_info.
Example C39_witness :
  searchMethod ex_package (collectFunctions ex_package) (TNamed 5%N) (str "Get") = Some 2%N /\
  lk_functions (collectFunctions ex_package) !! str "Get" = Some 3%N /\
  method_declared ex_package (TNamed 5%N) (str "Get") 2%N /\ function_named ex_package (str "Get") 3%N.
Proof.
  assert (searchMethod ex_package (collectFunctions ex_package) (TNamed 5%N) (str "Get") = Some 2%N) as H1 by reflexivity.
  assert (lk_functions (collectFunctions ex_package) !! str "Get" = Some 3%N) as H2 by reflexivity.
  split; [done|]. split; [done|]. split; [by apply C39_method|by apply C39_function].
Qed.

Print Assumptions C39_function.
Print Assumptions C39_method.
Print Assumptions C39_method_object.
