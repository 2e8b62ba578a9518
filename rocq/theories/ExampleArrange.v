(** * The hypotheses of C44 are satisfiable: the declarations of the package of Example.v in the opposite order. *)
From stdpp Require Import base list gmap.
From Verif Require SpecLookup.
From Verif Require Import GoString ErrorCode Scc Engine CodeSet Annotation Constant Taint Extract Analyse Phase ErrorTypes Claims Interfaces
  Conversions Verify SpecMay SpecProgram SpecRun SpecInterfaces SpecSites SpecLiterals ProgramProofs RunProofs Checkers FormChecker InterfaceChecker ExampleBase Example
  PropCrash PropOrder ExampleOrder SpecArrange ArrangeProofs PropArrange GoAst.

Definition backwards (pk : package) : package := with_lists pk (reverse (pk_decls pk)) (reverse (pk_gendecls pk)) (reverse (pk_top pk)).

(** ** A checker *)
Definition function_key (pk : package) (f : fid) : option gostring :=
  match pk_funcs pk !! f with
  | Some fn => match fn_decl fn with
    | Some d => match dc_recv d with Some [_] => None | _ => Some (i_name (dc_name d)) end
    | None => Some []
    end
  | None => None
  end.
Definition method_key (pk : package) (f : fid) : option (gostring * tobj) :=
  match pk_funcs pk !! f ≫= fn_decl with
  | Some d => match dc_recv d with
    | Some [r] => match ti_type (pk_info pk) (f_type r) ≫= getNamedType with Some n => Some (i_name (dc_name d), n) | None => None end
    | _ => None
    end
  | None => None
  end.
Definition type_keys (pk : package) : list (tobj * typespec) :=
  pk_gendecls pk ≫= fun g => gd_specs g ≫= fun s =>
    match s with
    | Some ts => match ti_defs (pk_info pk) (i_id (tsp_name ts)) with
      | Some o => if ti_implements_ree (pk_info pk) (ti_objtype (pk_info pk) o) || ti_implements_ree (pk_info pk) (TPointer (ti_objtype (pk_info pk) o))
                  then match getNamedType (ti_objtype (pk_info pk) o) with Some n => [(n, ts)] | None => [] end else []
      | None => []
      end
    | None => []
    end.
Definition differ {A} `{EqDecision A} (key : fid -> option A) (l : list fid) : bool :=
  forallb (fun f => forallb (fun g => bool_decide (f = g) || match key f, key g with Some a, Some b => negb (bool_decide (a = b)) | _, _ => true end) l) l.
Definition once_check (pk : package) : bool :=
  bool_decide (NoDup (pk_decls pk)) && differ (method_key pk) (pk_decls pk) && differ (function_key pk) (pk_decls pk) && bool_decide (NoDup ((type_keys pk).*1)).
Lemma differ_spec {A} `{EqDecision A} (key : fid -> option A) l f g a : differ key l = true -> f ∈ l -> g ∈ l -> key f = Some a -> key g = Some a -> f = g.
Proof.
  intros H Hf Hg Ka Kb. unfold differ in H. rewrite forallb_forall in H. specialize (H f (proj1 (elem_of_list_In _ _) Hf)).
  rewrite forallb_forall in H. specialize (H g (proj1 (elem_of_list_In _ _) Hg)). cbv beta in H. rewrite Ka, Kb in H.
  apply orb_true_iff in H as [H|H]; [by apply bool_decide_eq_true in H|]. apply negb_true_iff, bool_decide_eq_false in H. done.
Qed.
Lemma function_key_spec pk f name : SpecLookup.declares_function pk f name -> function_key pk f = Some name.
Proof.
  intros (fn&Hf&H). unfold function_key. rewrite Hf. destruct (fn_decl fn) as [d|]; [|by subst]. destruct H as [H <-].
  destruct (dc_recv d) as [[|r [|]]|] eqn:E; try done. destruct H. by exists r.
Qed.
Lemma method_key_spec pk f name n : SpecLookup.declares_method pk f name -> method_of_type pk f n -> method_key pk f = Some (name, n).
Proof.
  intros (fn&d&Hf&Hd&(r&Hr)&<-) (fn'&d'&r'&rs&t&Hf'&Hd'&Hr'&Ht&Hn). unfold method_key. rewrite Hf. cbn. rewrite Hd, Hr.
  assert (r' = r) as -> by congruence. by rewrite Ht; cbn; rewrite Hn.
Qed.
Lemma type_keys_spec pk ts n : declares_error_type pk ts n -> (n, ts) ∈ type_keys pk.
Proof.
  intros (g&o&Hg&Hs&Ho&Hi&Hn). unfold type_keys. apply elem_of_list_bind. exists g. split; [|done]. apply elem_of_list_bind. exists (Some ts). split; [|done].
  rewrite Ho, Hn. replace (_ || _) with true; [by left|]. symmetry. by apply orb_true_iff.
Qed.
Lemma once_check_spec pk : once_check pk = true -> declared_once pk /\
  forall f g name, f ∈ pk_decls pk -> g ∈ pk_decls pk -> SpecLookup.declares_function pk f name -> SpecLookup.declares_function pk g name -> f = g.
Proof.
  unfold once_check. rewrite !andb_true_iff, !bool_decide_eq_true. intros [[[H1 H2] H3] H4]. split.
  - split; [done| |].
    + intros f g name n Hf Hg D1 D2 M1 M2. exact (differ_spec _ _ _ _ _ H2 Hf Hg (method_key_spec _ _ _ _ D1 M1) (method_key_spec _ _ _ _ D2 M2)).
    + intros ts ts' n D1%type_keys_spec D2%type_keys_spec. apply (elem_of_list_to_map (M := gmap tobj) _ _ _ H4) in D1.
      apply (elem_of_list_to_map (M := gmap tobj) _ _ _ H4) in D2. congruence.
  - intros f g name Hf Hg D1 D2. exact (differ_spec _ _ _ _ _ H3 Hf Hg (function_key_spec _ _ _ D1) (function_key_spec _ _ _ D2)).
Qed.
(** Where no two functions have the same name, every order is a rearrangement. *)
Lemma named_once (pk : package) name g : NoDup (pk_decls pk) ->
  (forall f g name, f ∈ pk_decls pk -> g ∈ pk_decls pk -> SpecLookup.declares_function pk f name -> SpecLookup.declares_function pk g name -> f = g) ->
  SpecLookup.function_named pk name g <-> g ∈ pk_decls pk /\ SpecLookup.declares_function pk g name.
Proof.
  intros Hnd Hu. split.
  - intros (pre&post&E&Hd&_). split; [|done]. rewrite E. apply elem_of_app. right. by left.
  - intros [Hg Hd]. apply elem_of_list_split in Hg as (pre&post&E). exists pre, post. split; [done|]. split; [done|].
    intros f Hf Hd'. assert (f = g) as ->.
    { apply (Hu _ _ name); [|rewrite E; apply elem_of_app; right; by left|done|done]. rewrite E. apply elem_of_app. right. by right. }
    rewrite E in Hnd. apply NoDup_app in Hnd as (_&_&Hnd). apply NoDup_cons in Hnd as [Hnd _]. done.
Qed.
Lemma backwards_rearranged pk : once_check pk = true -> rearranged pk (backwards pk).
Proof.
  intros [Ho Hu]%once_check_spec. split; try done; [apply reverse_Permutation..|].
  intros name g. rewrite (named_once pk) by (done || apply Ho). rewrite (named_once (backwards pk)).
  - assert (g ∈ pk_decls (backwards pk) <-> g ∈ pk_decls pk) as -> by (apply elem_of_reverse). done.
  - change (NoDup (reverse (pk_decls pk))). rewrite reverse_Permutation. apply Ho.
  - intros f h n Hf Hg D1 D2. exact (Hu f h n (proj1 (elem_of_reverse _ _) Hf) (proj1 (elem_of_reverse _ _) Hg) D1 D2).
Qed.

(** ** The example *)
Theorem C44_example : rearranged ex (backwards ex) /\ declared_once ex /\ order_hypotheses ex /\ (2 < length (pk_decls ex))%nat /\ (1 < length (pk_gendecls ex))%nat /\
  rearranged eo (backwards eo) /\ declared_once eo /\ order_hypotheses eo.
Proof.
  assert (once_check ex = true) as H1 by (vm_compute; reflexivity). assert (once_check eo = true) as H2 by (vm_compute; reflexivity).
  split; [exact (backwards_rearranged ex H1)|]. split; [exact (proj1 (once_check_spec ex H1))|]. split; [exact (proj1 C18_example)|].
  split; [apply Nat.ltb_lt; vm_compute; reflexivity|]. split; [apply Nat.ltb_lt; vm_compute; reflexivity|].
  split; [exact (backwards_rearranged eo H2)|]. split; [exact (proj1 (once_check_spec eo H2))|]. exact (proj2 C18_example).
Qed.
(** The diagnostics of the rearranged package. *)
Example C44_result : answer (backwards eo) (some_run_orders (collectFunctions (backwards eo))) = Ok (eo_diags eo_d1 eo_d2).
Proof. vm_compute. reflexivity. Qed.
