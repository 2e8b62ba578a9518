From Coq Require Import Ascii String.
From stdpp Require Import base list gmap relations.
From Verif Require Import GoString ErrorCode Scc Engine CodeSet Annotation Constant GoAst Taint Extract Analyse Phase ErrorTypes Claims Interfaces Conversions Verify
  SpecCodes SpecTaint SpecMay SpecLocal SpecClaims SpecInterfaces SpecCodeMethod SpecRun SpecEnd Checkers LocalChecker InterfaceChecker ExampleBase
  SpecLookup SpecReports SpecEdit PropEdit SpecSettled PropSettled ExampleEdit GoAst.
Local Open Scope list_scope.
Local Open Scope N_scope.

(** First gets the body of Second: it returns the same code, but does not call Get any more. *)
Definition new_first : func := Func (fn_pos t_edit_f3) (fn_decl t_edit_f3) (fn_type t_edit_f3) (fn_body t_edit_f4) (fn_body_pos t_edit_f3) (fn_body_end t_edit_f3).
Definition b_funcs : gmap fid func := <[ 3%N := new_first ]> (pk_funcs t_edit).
Definition b_edit : package := with_bodies b_funcs (pk_top t_edit) t_edit.
Definition b_run : run := run_of t_edit false (some_run_orders (collectFunctions t_edit)) no_facts.
Definition b_run' : run := run_of b_edit false (some_run_orders (collectFunctions b_edit)) no_facts.
Definition b_excess : diag := Diag 90 (str "cannot use expression as ""Getter"" value: method ""Get"" declares the following error codes which were not part of the interface: [edit-b]").
Lemma b_not_literal : not_literal t_edit 3%N = true.
Proof. vm_compute. reflexivity. Qed.

(** Only the body of First is edited; Get (function 1), load (2) and Convert (5), where a value is converted, do not mention First.  Nevertheless the
    report about the conversion disappears: Get declares no codes; as long as First mentions it, it is analysed together with First, and
    returns what load really returns; otherwise it is analysed at the conversion, when load counts with the codes it declares - wrongly,
    which is reported both times. *)
Theorem C48_refuted_conversions :
  same_headers t_edit b_funcs /\ (forall f, error_method t_edit f -> untouched t_edit b_funcs f) /\
  orders_ok (collectFunctions t_edit) (some_run_orders (collectFunctions t_edit)) /\ orders_ok (collectFunctions b_edit) (some_run_orders (collectFunctions b_edit)) /\
  completes t_edit false (some_run_orders (collectFunctions t_edit)) no_facts b_run /\
  completes b_edit false (some_run_orders (collectFunctions b_edit)) no_facts b_run' /\
  no_literal_cycle t_edit (collectFunctions t_edit) /\ no_literal_cycle b_edit (collectFunctions b_edit) /\
  interfaces_ok t_edit /\ distinct_definitions t_edit /\
  (forall f, f ∈ [1%N; 2%N; 5%N] -> unaffected t_edit b_funcs f) /\
  b_excess ∈ r_diags b_run /\ b_excess ∉ r_diags b_run'.
Proof.
  split_and!.
  - apply (headers_spec t_edit 3%N new_first t_edit_f3); [vm_compute; reflexivity|unfold same_header; split_and!; reflexivity|vm_compute; reflexivity].
  - eapply (methods_spec t_edit 3%N new_first t_edit_f3); [vm_compute; reflexivity|reflexivity|reflexivity|exact b_not_literal].
  - apply some_run_orders_ok.
  - apply some_run_orders_ok.
  - apply run_of_ok. vm_compute. reflexivity.
  - apply run_of_ok. vm_compute. reflexivity.
  - apply cycle_check_spec. vm_compute. reflexivity.
  - apply cycle_check_spec. vm_compute. reflexivity.
  - apply (interfaces_check_spec t_edit t_edit_rank). vm_compute. reflexivity.
  - apply definitions_check_spec. vm_compute. reflexivity.
  - intros f H. apply unaffected_spec; [exact b_not_literal|]. revert H. rewrite !elem_of_cons, elem_of_nil. intros [->|[->|[->|[]]]]; vm_compute; reflexivity.
  - assert (r_diags b_run !! 1%nat = Some b_excess) as H by (vm_compute; reflexivity). exact (elem_of_list_lookup_2 _ _ _ H).
  - assert (length (r_diags b_run') = 2%nat) as H1 by (vm_compute; reflexivity).
    assert (d_at <$> (r_diags b_run' !! 0%nat) = Some 35) as H2 by (vm_compute; reflexivity).
    assert (d_at <$> (r_diags b_run' !! 1%nat) = Some 221) as H3 by (vm_compute; reflexivity).
    intros H. apply elem_of_list_lookup in H as [[|[|i]] Hi].
    + rewrite Hi in H2. cbn in H2. discriminate H2.
    + rewrite Hi in H3. cbn in H3. discriminate H3.
    + apply lookup_lt_Some in Hi. rewrite H1 in Hi. exfalso. clear -Hi. lia.
Qed.

(** But the method of the other type declares its codes: the report about its conversion, in ConvertSaid (12), remains. *)
Definition b_known : diag := Diag 221 (str "cannot use expression as ""Getter"" value: method ""Get"" declares the following error codes which were not part of the interface: [edit-b]").
Definition b_facts : facts := facts_after t_edit (some_run_orders (collectFunctions t_edit)) b_run.
Definition parts (c : conv) : option (gmap gostring codeset * gotype * gotype * nid) :=
  match c with CSite s => Some (s_iface s, s_target s, s_value s, s_pos s) | CPanic => None end.
Definition b_site (value : gotype) (pos : nid) : site := Site {[ str "Get" := {[ str "edit-a" ]} ]} (TNamed 47) value pos.
Definition fn_body_of (funcs : gmap fid func) (f : fid) : option node := match funcs !! f with Some fn => fn_body fn | None => None end.
Theorem b_conversions :
  (exists said said' sites sites' rest rest',
    e_diags (r_end b_run) ≡ₚ e_diags (r_loop b_run) ++ (pk_top t_edit ≫= said) ++ rest /\
    e_diags (r_end b_run') ≡ₚ e_diags (r_loop b_run') ++ (pk_top b_edit ≫= said') ++ rest' /\
    said' (TopFunc 12) = said (TopFunc 12) /\ conversion_sites t_edit (some_run_orders (collectFunctions t_edit)) b_run sites /\
    conversion_sites b_edit (some_run_orders (collectFunctions b_edit)) b_run' sites') /\
  TopFunc 12 ∈ pk_top t_edit /\ untouched_decl t_edit b_funcs (TopFunc 12) /\ untouched_decl t_edit b_funcs (TopFunc 5) /\ ~ untouched_decl t_edit b_funcs (TopFunc 3) /\
  parts <$> top_conversions t_edit b_facts (TopFunc 12) = [parts (CSite (b_site (TNamed 60) 221))] /\
  compared (b_site (TNamed 60) 221) (str "Get") /\ settled t_edit b_facts (b_site (TNamed 60) 221) (str "Get") {[ str "edit-b" ]} /\
  parts <$> top_conversions t_edit b_facts (TopFunc 5) = [parts (CSite (b_site (TNamed 48) 90))] /\
  (forall codes, ~ settled t_edit b_facts (b_site (TNamed 48) 90) (str "Get") codes) /\
  b_known ∈ r_diags b_run /\ b_known ∈ r_diags b_run'.
Proof.
  destruct C48_refuted_conversions as (H1&H2&H3&H4&H5&H6&H7&H8&H9&H10&_).
  split_and!.
  - destruct (C48_conversions t_edit b_funcs (pk_top t_edit) false _ _ no_facts b_run b_run' H1 H2 H3 H4 H9 H10 H5 H6) as (said&said'&sites&sites'&rest&rest'&G1&G2&_&_&G5&G6&_&G8&_).
    exists said, said', sites, sites', rest, rest'. split_and!; [exact G1|exact G2| |exact G6|exact G8]. apply G5. apply not_literal_spec; [exact b_not_literal|discriminate].
  - apply elem_of_list_In. vm_compute. tauto.
  - apply not_literal_spec; [exact b_not_literal|discriminate].
  - apply not_literal_spec; [exact b_not_literal|discriminate].
  - intros [H _]. assert (fn_body_of b_funcs 3%N <> fn_body_of (pk_funcs t_edit) 3%N) as E2 by (vm_compute; discriminate). apply E2. unfold fn_body_of. rewrite H. reflexivity.
  - apply (bool_decide_unpack _). vm_compute. exact Logic.I.
  - unfold compared. split_and!; [discriminate|discriminate|]. exists {[ str "edit-a" ]}. apply (bool_decide_unpack _). vm_compute. exact Logic.I.
  - apply settled_spec. exists 61%N. split; [vm_compute; reflexivity|]. apply (bool_decide_unpack _). vm_compute. exact Logic.I.
  - apply (bool_decide_unpack _). vm_compute. exact Logic.I.
  - intros codes (o&Ho&Hc)%settled_spec. assert (searchMethodType t_edit (TNamed 48) (str "Get") = Some 49%N) as E by (vm_compute; reflexivity). cbn [b_site s_value] in Ho.
    rewrite E in Ho. injection Ho as <-. assert (fa_codes b_facts !! 49%N = None) as E2 by (apply (bool_decide_unpack _); vm_compute; exact Logic.I). pose proof (eq_trans (eq_sym Hc) E2) as X. discriminate X.
  - assert (r_diags b_run !! 2%nat = Some b_known) as H by (vm_compute; reflexivity). exact (elem_of_list_lookup_2 _ _ _ H).
  - assert (r_diags b_run' !! 1%nat = Some b_known) as H by (vm_compute; reflexivity). exact (elem_of_list_lookup_2 _ _ _ H).
Qed.
