(** * Tools for concrete executions: lemmas whose premises can be computed. *)
From Coq Require Import Ascii String.
From stdpp Require Import base list gmap.
From Verif Require Import GoString ErrorCode Scc Engine CodeSet Annotation Constant GoAst Taint Extract Analyse Phase ErrorTypes Claims Interfaces
  Conversions Verify SpecTaint SpecMay SpecProgram SpecEvents SpecClaims SpecRun SpecEnd ReturnProofs RunProofs ProgramProofs Checkers ExampleBase SpecExec SpecSound SoundChecker.
Local Open Scope N_scope.

Definition nothing : env := fun _ => VNil.
Lemma in_list {A} `{EqDecision A} (x : A) (l : list A) : bool_decide (x ∈ l) = true -> x ∈ l.
Proof. apply bool_decide_eq_true. Qed.
Ltac member := apply in_list; vm_compute; reflexivity.

Section tools.
Context (pk : package) (fa : facts) (fn : func).
Notation lk := (collectFunctions pk). Notation info := (pk_info pk).
Notation reached := (reached pk lk fa nobody fn ∅ []). Notation eval := (eval pk lk fa nobody fn). Notation store := (store pk fa fn).

Lemma no_struct_var o : is_struct_var pk fa fn o = false -> ~ struct_var pk fa fn o.
Proof. intros H Hs%is_struct_var_spec. congruence. Qed.
Lemma some_struct_var o : is_struct_var pk fa fn o = true -> struct_var pk fa fn o.
Proof. apply is_struct_var_true. Qed.
Lemma x_start : parameters (fn_type fn) = [] -> reached nothing ∅.
Proof. intros H. apply re_start. split; [done|]. split; [done|]. intros p i o Hp. by rewrite H in Hp. Qed.

(** Assignments. *)
Lemma x_assign en h n l r h1 v en' h' : reached en h -> n ∈ body_nodes fn -> as_assign n = Some ([l], [r]) -> ti_compound info (node_id n) = false ->
  eval en h r h1 v -> store en l v en h1 en' h' -> reached en' h'.
Proof.
  intros Hr Hn Ha Hc He Hs. eapply (re_assign pk lk fa nobody fn ∅ [] en h [l] [r] h1 [v]); [done|by apply (wr_assign _ _ n)|done| |].
  - eapply es_cons; [exact He|apply es_nil].
  - eapply ss_cons; [exact Hs|apply ss_nil].
Qed.
Lemma x_open en h lhs vs en' h' : reached en h -> open_targets pk fn lhs -> (forall k w a, vs !! k = Some w -> w <> VErr a) ->
  stores pk fa fn en lhs vs en h en' h' -> reached en' h'.
Proof. intros Hr Ho Hv Hs. eapply (re_open pk lk fa nobody fn ∅ [] en h lhs h vs); try done. intros k w a Hw Ha. by destruct (Hv k w a Hw). Qed.
Lemma x_var en0 l v en h i o : as_ident (unparen l) = Some i -> i_obj i = Some o -> is_struct_var pk fa fn o = false ->
  store en0 l v en h (set_var en o v) h.
Proof. intros Hi Ho Hs. eapply st_var; [exact Hi|exact Ho|]. intros H. by destruct (no_struct_var o Hs). Qed.
Lemma x_field en0 l s en h x i o a cl h' : h' = <[a := Cell (ce_consts cl) s]> h -> field_of pk fa l = Some x -> as_ident (unparen x) = Some i -> i_obj i = Some o -> en0 o = VErr a -> h !! a = Some cl ->
  store en0 l (VStr s) en h en h'.
Proof. intros -> Hf Hi Ho Ha Hc. eapply st_field; try done. by apply field_of_spec. Qed.

(** Expressions. *)
Lemma x_use en h e i o v : en o = v -> as_ident (unparen e) = Some i -> i_obj i = Some o -> match ob_decl (obj_of pk o) with DFunc _ | DType => False | _ => True end -> ob_is_var (obj_of pk o) = true ->
  is_struct_var pk fa fn o = false -> eval en h e h v.
Proof.
  intros <- Hi Ho Hd Hv Hs. eapply ev_var; [split_and!; [done|done|intros g E; by rewrite E in Hd|intros E; by rewrite E in Hd]|by rewrite Hv|]. intros H. by destruct (no_struct_var o Hs).
Qed.
Lemma x_string en h e s : ti_value info (node_id e) = Some (CString s) -> eval en h e h (VStr s).
Proof. intros H. by apply ev_string, sv_const. Qed.
Lemma x_literal en h e id v rest et name s a : unparen e = Node id KComposite (v :: rest) \/ (exists id', unparen e = Node id' (KUnary true) [Node id KComposite (v :: rest)]) ->
  error_type_of pk fa (unparen e) = Some et -> et_field et = Some (name, 0%nat) -> as_keyvalue v = None ->
  ti_value info (node_id v) = Some (CString s) -> h !! a = None ->
  eval en h e (<[a := Cell (et_codes et) s]> h) (VErr a).
Proof.
  intros He Ht Hf Hk Hs Ha. apply (ev_new _ _ _ _ _ _ _ _ et s).
  - destruct He as [->|[id' ->]]; by constructor.
  - by apply error_type_of_spec.
  - left. destruct He as [->|[id' ->]]; repeat constructor.
  - unfold field_content. rewrite Hf. left. exists v. split; [|by apply sv_const].
    assert (field_init name 0 (Node id KComposite (v :: rest)) v) as H by by apply (fi_position _ _ _ _ v).
    destruct He as [->|[id' ->]]; [done|by constructor].
  - by constructor.
Qed.

(** Results. *)
Lemma x_return g en h stmt e h' v : pk_funcs pk !! g = Some fn -> reached en h -> stmt ∈ return_stmts fn -> last (node_kids stmt) = Some e ->
  annotation_of pk stmt = None -> eval en h e h' v -> exec pk lk fa nobody ∅ g [] h' v.
Proof.
  intros Hg Hr Hs Hk Ha He. eapply (ex_return pk lk fa nobody ∅ g fn [] en h stmt e); try done; [by apply ret_last|]. intros q Hq. by destruct (no_request pk stmt q Ha).
Qed.
Lemma x_code h a cl c : h !! a = Some cl -> (c ∈ ce_consts cl \/ c = ce_field cl) -> c <> [] -> has_code h (VErr a) c.
Proof. intros. by exists a, cl. Qed.
End tools.

(** ** Unsound answers *)

(** All presuppositions of C22_sound but [disciplined] hold of the run of the analyzer with facts [fa], nothing is reported; but an
    execution of a function returns an error with a code that the function does not declare. *)
Definition unsound (pk : package) (fa : facts) : Prop :=
  exists ord r, orders_ok (collectFunctions pk) ord /\ completes pk false ord fa r /\
  usable_functions pk (facts_during pk ord r) /\ no_literal_recursion pk (collectFunctions pk) (facts_during pk ord r) /\ (forall c, agree_everywhere pk c) /\
  (forall g fn, pk_funcs pk !! g = Some fn -> resolved pk (collectFunctions pk) (facts_during pk ord r) fn) /\
  r_diags r = [] /\
  exists f fn codes h v c, known_function pk f fn /\ returns_error_last pk (fn_type fn) /\ declares_codes pk fn codes None /\
    exec pk (collectFunctions pk) (facts_during pk ord r) nobody ∅ f [] h v /\ has_code h v c /\ c ∉ codes.

Definition unsound_check (pk : package) (fa : facts) (f : fid) (c : gostring) : bool :=
  let r := run_of pk false (some_run_orders (collectFunctions pk)) fa in
  let fd := facts_during pk (some_run_orders (collectFunctions pk)) r in
  is_ok (runVerify pk false (some_run_orders (collectFunctions pk)) fa) && package_ok pk && agree_b pk && forallb (fun p : fid * func => resolved_b pk (collectFunctions pk) fd p.2) (map_to_list (pk_funcs pk)) &&
  bool_decide (r_diags r = []) &&
  match r_claims r !! f with Some (Claim codes None) => bool_decide (c ∉ codes) | _ => false end.

Lemma unsound_intro pk fa f c h v : unsound_check pk fa f c = true ->
  exec pk (collectFunctions pk) (facts_during pk (some_run_orders (collectFunctions pk)) (run_of pk false (some_run_orders (collectFunctions pk)) fa)) nobody ∅ f [] h v ->
  has_code h v c -> unsound pk fa.
Proof.
  unfold unsound_check. set (ord := some_run_orders (collectFunctions pk)). set (r := run_of pk false ord fa). cbv zeta.
  rewrite !andb_true_iff, bool_decide_eq_true. intros (((((Hok&Hp)&Hag)&Hrs)&Hd)&Hc) Hx Hh.
  assert (completes pk false ord fa r) as Hr by by apply run_of_ok. assert (orders_ok (collectFunctions pk) ord) as Ho by apply some_run_orders_ok.
  clearbody r ord. exists ord, r. destruct (package_ok_spec pk (facts_during pk ord r) Hp) as [Hus Hlit].
  split; [exact Ho|]. split; [exact Hr|]. split; [exact Hus|]. split; [by apply no_literal_calls_recursion|]. split; [intros c' g fn Hg; by eapply agree_spec|]. split; [|split; [exact Hd|]].
  - intros g fn Hg. rewrite forallb_forall in Hrs. apply resolved_spec. apply (Hrs (g, fn)). by apply elem_of_list_In, elem_of_map_to_list.
  - destruct (r_claims r !! f) as [[codes [|]]|] eqn:Ec; try discriminate. apply bool_decide_eq_true in Hc.
    apply (run_claims pk false ord fa r Hr Ho) in Ec as (fn&K1&K2&K3). exists f, fn, codes, h, v, c. done.
Qed.
