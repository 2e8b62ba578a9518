(** * The presuppositions of PropEdit.v are satisfiable: the package of ExampleLocal.v after the body of one function has been rewritten. *)
From Coq Require Import Ascii String.
From stdpp Require Import base list gmap relations.
From Verif Require Import GoString ErrorCode Scc Engine CodeSet Annotation Constant Taint Extract Analyse Phase ErrorTypes Claims Interfaces Conversions Verify
  SpecCodes SpecTaint SpecMay SpecLocal SpecClaims SpecInterfaces SpecCodeMethod SpecRun SpecEnd Checkers LocalChecker InterfaceChecker ExampleBase PropLocal
  PropRedoc SpecEdit PropFacts PropEdit ExampleRedoc ExampleLocal GoAst.
Local Open Scope list_scope.
Local Open Scope N_scope.

(** ** Checks of the presuppositions, for an edit of one function without receiver *)
Section checks.
Context (pk : package) (e : fid) (fn' : func).
Notation funcs' := (<[ e := fn' ]> (pk_funcs pk)).
Notation lk := (collectFunctions pk).
Definition not_literal : bool := forallb (fun p : fid * func => forallb (fun n => negb (bool_decide (as_funclit n = Some e))) (body_nodes p.2)) (map_to_list (pk_funcs pk)).
Lemma not_literal_spec : not_literal = true -> forall f, f <> e -> untouched pk funcs' f.
Proof.
  unfold not_literal. rewrite forallb_forall. intros H f Hf. split; [by rewrite lookup_insert_ne|].
  intros fn n g Hfn Hn Hg. assert (In (f, fn) (map_to_list (pk_funcs pk))) as Hin by (apply elem_of_list_In; by apply elem_of_map_to_list).
  apply H in Hin. cbn [snd] in Hin. rewrite forallb_forall in Hin. apply elem_of_list_In, Hin, negb_true_iff, bool_decide_eq_false in Hn.
  rewrite lookup_insert_ne; [done|]. intros ->. done.
Qed.
Lemma headers_spec fn : pk_funcs pk !! e = Some fn -> same_header fn fn' -> forallb (fun f => bool_decide (is_Some (pk_funcs pk !! f))) (pk_decls pk) = true ->
  same_headers pk funcs'.
Proof.
  intros He Hs. rewrite forallb_forall. intros H f Hf. destruct (decide (f = e)) as [->|Hn].
  - exists fn, fn'. by rewrite lookup_insert.
  - apply elem_of_list_In, H, bool_decide_eq_true in Hf as [gn Hg]. exists gn, gn. by rewrite lookup_insert_ne.
Qed.
Lemma signatures_spec fn : pk_funcs pk !! e = Some fn -> same_signature fn fn' -> forallb (fun f => bool_decide (is_Some (pk_funcs pk !! f))) (pk_decls pk) = true ->
  same_signatures pk funcs'.
Proof.
  intros He Hs. rewrite forallb_forall. intros H f Hf. destruct (decide (f = e)) as [->|Hn].
  - exists fn, fn'. by rewrite lookup_insert.
  - apply elem_of_list_In, H, bool_decide_eq_true in Hf as [gn Hg]. exists gn, gn. by rewrite lookup_insert_ne.
Qed.
Lemma methods_spec fn d : pk_funcs pk !! e = Some fn -> fn_decl fn = Some d -> dc_recv d = None -> not_literal = true ->
  forall f, error_method pk f -> untouched pk funcs' f.
Proof.
  intros He Hd Hr Hn f (g&ts&err&_&_&_&(x&t&(fn1&d1&H1&H2&H3)&_)). apply not_literal_spec; [done|]. intros ->. congruence.
Qed.
Definition unaffected_b (f : fid) : bool :=
  let t := mention_table pk in let s := all_from t (size t) [f] in
  forallb (fun p : fid * func => vars_ok pk p.2) (map_to_list (pk_funcs pk)) && bool_decide (f ∈ s) && closed_in t s && negb (bool_decide (e ∈ s)).
Lemma unaffected_spec f : not_literal = true -> unaffected_b f = true -> unaffected pk funcs' f.
Proof.
  intros Hn. unfold unaffected_b. cbv zeta. rewrite !andb_true_iff, negb_true_iff, bool_decide_eq_true, bool_decide_eq_false, forallb_forall. intros [[[Hv Hf] Hc] He] g Hg.
  apply not_literal_spec; [done|]. intros ->. apply He. eapply (closed_mentions pk); [|exact Hc|exact Hf|exact Hg].
  intros x xn Hx. assert (In (x, xn) (map_to_list (pk_funcs pk))) as Hin by (apply elem_of_list_In; by apply elem_of_map_to_list). exact (Hv _ Hin).
Qed.
End checks.

(** ** Twice is rewritten: `return &Error{"local-open"}` *)
Definition new_twice : func := Func (fn_pos t_local_f4) (fn_decl t_local_f4) (fn_type t_local_f4) (fn_body t_local_f3) (fn_body_pos t_local_f4) (fn_body_end t_local_f4).
Definition e_funcs : gmap fid func := <[ 4%N := new_twice ]> (pk_funcs t_local).
Definition e_local : package := with_bodies e_funcs (pk_top t_local) t_local.
Definition e_ord : orders := some_run_orders (collectFunctions e_local).
Definition e_run : run := run_of e_local true e_ord no_facts.
Lemma e_orders : orders_ok (collectFunctions e_local) e_ord.
Proof. apply some_run_orders_ok. Qed.
Lemma e_completes : completes e_local true e_ord no_facts e_run.
Proof. apply run_of_ok. vm_compute. reflexivity. Qed.
Lemma e_cycle : no_literal_cycle e_local (collectFunctions e_local).
Proof. apply cycle_check_spec. vm_compute. reflexivity. Qed.
Lemma e_not_literal : not_literal t_local 4%N = true.
Proof. vm_compute. reflexivity. Qed.
Lemma e_headers : same_headers t_local e_funcs.
Proof. apply (headers_spec t_local 4%N new_twice t_local_f4); [vm_compute; reflexivity|unfold same_header; split_and!; reflexivity|vm_compute; reflexivity]. Qed.
Lemma e_methods f : error_method t_local f -> untouched t_local e_funcs f.
Proof.
  eapply (methods_spec t_local 4%N new_twice t_local_f4); [vm_compute; reflexivity|reflexivity|reflexivity|exact e_not_literal].
Qed.
Lemma e_interfaces : interfaces_ok t_local.
Proof. apply (interfaces_check_spec t_local t_local_rank). vm_compute. reflexivity. Qed.
Lemma e_definitions : distinct_definitions t_local.
Proof. apply definitions_check_spec. vm_compute. reflexivity. Qed.

(** Error types are not changed, and there are some. *)
Example e_some_method : error_method t_local 7%N.
Proof.
  exists (GenDecl 96 [(Some (TypeSpec (Ident 98 (str "Error") (Some 14)) (XStruct [[(Ident 102 (str "TheCode") None)]])))]).
  exists (TypeSpec (Ident 98 (str "Error") (Some 14)) (XStruct [[(Ident 102 (str "TheCode") None)]])), (TPointer (TNamed 51)). split_and!.
  - apply elem_of_list_In. vm_compute. right. left. reflexivity.
  - left.
  - exists 51%N. split; [vm_compute; reflexivity|]. right. split_and!; vm_compute; reflexivity.
  - destruct (fn_decl t_local_f7) as [d|] eqn:Ed; [|vm_compute in Ed; discriminate]. destruct (dc_recv d) as [[|x [|]]|] eqn:Er; try (vm_compute in Ed; injection Ed as <-; vm_compute in Er; discriminate).
    exists x, (TPointer (TNamed 51)). split_and!; [exists t_local_f7, d; split_and!; [vm_compute; reflexivity|exact Ed|exact Er]| |left; reflexivity].
    vm_compute in Ed. injection Ed as <-. vm_compute in Er. injection Er as <-. vm_compute. reflexivity.
Qed.
(** Open and Retry do not mention Twice; Wrong does. *)
Lemma e_unaffected f : f ∈ [1%N; 3%N] -> unaffected t_local e_funcs f.
Proof.
  intros H. apply unaffected_spec; [exact e_not_literal|]. revert H. rewrite !elem_of_cons, elem_of_nil. intros [->|[->|[]]]; vm_compute; reflexivity.
Qed.
Lemma e_declared f : f ∈ [1%N; 3%N; 4%N; 6%N] -> declared_function t_local f.
Proof.
  intros H. apply (declared_todo t_local true l_ord no_facts l_run l_orders l_completes). revert H. rewrite !elem_of_cons, elem_of_nil. intros [->|[->|[->|[->|[]]]]]; apply (bool_decide_unpack _); vm_compute; exact Logic.I.
Qed.
(** The theorems apply: the same facts, and the same codes for Open and Retry - although the reports about the package have changed. *)
Theorem e_facts : facts_after e_local e_ord e_run = facts_after t_local l_ord l_run.
Proof.
  apply (C48_facts t_local e_funcs (pk_top t_local) true l_ord e_ord no_facts (facts_after t_local l_ord l_run) (r_diags l_run) _ (r_diags e_run) e_headers e_methods l_orders e_orders e_interfaces e_definitions).
  - apply RunProofs.runVerify_completes. exists l_run. split_and!; [exact l_completes|reflexivity|reflexivity].
  - apply RunProofs.runVerify_completes. exists e_run. split_and!; [exact e_completes|reflexivity|reflexivity].
Qed.
Lemma e_definitions' : distinct_definitions e_local.
Proof. apply definitions_check_spec. vm_compute. reflexivity. Qed.
Lemma e_positions o p : declares_position t_local o p <-> declares_position e_local o p.
Proof. split; intros H; exfalso; revert H; apply no_positions; vm_compute; reflexivity. Qed.
Lemma e_signatures : same_signatures t_local e_funcs.
Proof. exact (headers_signatures t_local e_funcs e_headers). Qed.
Theorem e_found : forall f, f ∈ [1%N; 3%N] -> exists s, Engine.e_found (r_loop l_run) !! f = Some s /\ Engine.e_found (r_loop e_run) !! f = Some s.
Proof.
  intros f Hf. apply (C48_found t_local e_funcs (pk_top t_local) true l_ord e_ord no_facts l_run e_run e_signatures e_methods l_orders e_orders e_interfaces e_definitions
    e_definitions' e_positions l_completes e_completes l_cycle e_cycle).
  - apply e_declared. revert Hf. rewrite !elem_of_cons, elem_of_nil. intuition.
  - apply e_unaffected. exact Hf.
Qed.
Theorem e_changed : r_diags e_run <> r_diags l_run /\ Engine.e_found (r_loop e_run) !! 4%N <> Engine.e_found (r_loop l_run) !! 4%N.
Proof. split; [vm_compute; discriminate|]. apply (bool_decide_unpack _). vm_compute. exact Logic.I. Qed.

(** ** The same edit, and the documentation of Twice declares what it returns now *)
Definition twice_doc : gostring := str "Errors:" ++ [10] ++ [10] ++ str "- local-open -- x".
Definition new_twice_doc : func := Func (fn_pos t_local_f4) (match fn_decl t_local_f4 with Some d => Some (DeclInfo (dc_name d) (dc_recv d) (Some twice_doc)) | None => None end)
  (fn_type t_local_f4) (fn_body t_local_f3) (fn_body_pos t_local_f4) (fn_body_end t_local_f4).
Definition d_funcs : gmap fid func := <[ 4%N := new_twice_doc ]> (pk_funcs t_local).
Definition d_local : package := with_bodies d_funcs (pk_top t_local) t_local.
Definition d_ord : orders := some_run_orders (collectFunctions d_local).
Definition d_run : run := run_of d_local true d_ord no_facts.
Lemma d_orders : orders_ok (collectFunctions d_local) d_ord.
Proof. apply some_run_orders_ok. Qed.
Lemma d_completes : completes d_local true d_ord no_facts d_run.
Proof. apply run_of_ok. vm_compute. reflexivity. Qed.
Lemma d_cycle : no_literal_cycle d_local (collectFunctions d_local).
Proof. apply cycle_check_spec. vm_compute. reflexivity. Qed.
Lemma d_signatures : same_signatures t_local d_funcs.
Proof. apply (signatures_spec t_local 4%N new_twice_doc t_local_f4); [vm_compute; reflexivity|unfold same_signature; split_and!; reflexivity|vm_compute; reflexivity]. Qed.
Lemma d_methods f : error_method t_local f -> untouched t_local d_funcs f.
Proof. eapply (methods_spec t_local 4%N new_twice_doc t_local_f4); [vm_compute; reflexivity|reflexivity|reflexivity|exact e_not_literal]. Qed.
Lemma d_definitions : distinct_definitions d_local.
Proof. apply definitions_check_spec. vm_compute. reflexivity. Qed.
Lemma d_positions o p : declares_position t_local o p <-> declares_position d_local o p.
Proof. split; intros H; exfalso; revert H; apply no_positions; vm_compute; reflexivity. Qed.
Lemma d_nodup : NoDup (pk_decls t_local).
Proof. apply (bool_decide_unpack _). vm_compute. exact Logic.I. Qed.
(** Only what is exported for Twice changes. *)
Theorem d_facts : fa_codes (facts_after d_local d_ord d_run) <> fa_codes (facts_after t_local l_ord l_run) /\
  fa_type (facts_after d_local d_ord d_run) = fa_type (facts_after t_local l_ord l_run) /\
  forall f o, f ∈ pk_decls t_local -> f <> 4%N -> object_of t_local f o ->
    fa_codes (facts_after d_local d_ord d_run) !! o = fa_codes (facts_after t_local l_ord l_run) !! o.
Proof.
  split; [apply (bool_decide_unpack _); vm_compute; exact Logic.I|].
  destruct (C48_facts_documentation t_local d_funcs (pk_top t_local) true l_ord d_ord no_facts (facts_after t_local l_ord l_run) (r_diags l_run) (facts_after d_local d_ord d_run) (r_diags d_run)
    d_signatures d_methods l_orders d_orders e_interfaces e_definitions d_definitions d_positions) as (_&H&_&Hc).
  - apply RunProofs.runVerify_completes. exists l_run. split_and!; [exact l_completes|reflexivity|reflexivity].
  - apply RunProofs.runVerify_completes. exists d_run. split_and!; [exact d_completes|reflexivity|reflexivity].
  - split; [exact H|]. intros f o Hf Hn Ho. apply (Hc f o); [exact Hf| |exact Ho]. apply not_literal_spec; [exact e_not_literal|exact Hn].
Qed.
Theorem d_found : forall f, f ∈ [1%N; 3%N] -> exists s, Engine.e_found (r_loop l_run) !! f = Some s /\ Engine.e_found (r_loop d_run) !! f = Some s.
Proof.
  intros f Hf. apply (C48_found t_local d_funcs (pk_top t_local) true l_ord d_ord no_facts l_run d_run d_signatures d_methods l_orders d_orders e_interfaces e_definitions
    d_definitions d_positions l_completes d_completes l_cycle d_cycle).
  - apply e_declared. revert Hf. rewrite !elem_of_cons, elem_of_nil. intuition.
  - apply unaffected_spec; [exact e_not_literal|]. revert Hf. rewrite !elem_of_cons, elem_of_nil. intros [->|[->|[]]]; vm_compute; reflexivity.
Qed.
