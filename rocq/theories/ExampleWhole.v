(** * Concrete programs for C41: the presuppositions are satisfiable, and [declared_methods] is needed. *)
From Coq Require Import Ascii String.
From stdpp Require Import base list gmap.
From Verif Require Import GoString ErrorCode Scc Engine CodeSet Annotation Constant GoAst Taint Extract Analyse Phase ErrorTypes Claims Interfaces
  Conversions Verify SpecTaint SpecMay SpecProgram SpecEvents SpecClaims SpecRun SpecEnd SpecInterfaces SpecSites ReturnProofs RunProofs Checkers InterfaceChecker ExampleBase SpecExec SpecSound SoundChecker
  ExecTools SpecWhole LinkProofs PropWhole ChainChecker WholeWitness.
From Verif Require Import GoAst.
Local Open Scope N_scope.

#[local] Instance claim_eq_dec : EqDecision claim.
Proof. solve_decision. Defined.
(** The type Error is known. *)
Definition error_facts : facts := Facts ∅ ∅ {[ 2 := ErrorType ∅ (Some (str "TheCode", 0%nat)) ]} ∅.
Definition no_rank : gostring -> nat := fun _ => 0%nat.
(** All presuppositions of C41_sound but [declared_methods]. *)
Definition presupposed (P : program) : Prop := (forall m, m ∈ members P -> accepted m) /\ well_linked P /\ honest_world P nobody.
(** A function of the program declares [codes], and returns an error with the code [c]. *)
Definition returns_code (P : program) (codes : codeset) (c : gostring) : Prop :=
  exists m f fn h v, m ∈ members P /\ known_function (m_pk m) f fn /\ returns_error_last (m_pk m) (fn_type fn) /\ declares_codes (m_pk m) fn codes None /\
    exec (m_pk m) (m_lk m) (m_known m) (runs P nobody) ∅ f [] h v /\ has_code h v c.

Lemma lookup_method_in l t n o : lookup_method l t n = Some o -> (t, n, o) ∈ l.
Proof.
  unfold lookup_method. induction l as [|[[t' n'] o'] l IH]; cbn; [done|]. case_decide as E; [|intros H; right; by apply IH].
  destruct E as [-> ->]. intros [= ->]. by left.
Qed.
Lemma nobody_world P : honest_world P nobody.
Proof. by intros m o s h vals h' v _ _ _ ?. Qed.
Lemma claim_function m f codes : accepted m -> r_claims (m_run m) !! f = Some (Claim codes None) ->
  exists fn, known_function (m_pk m) f fn /\ returns_error_last (m_pk m) (fn_type fn) /\ declares_codes (m_pk m) fn codes None.
Proof. intros A Hc. apply (run_claims _ _ _ _ _ (ac_completes _ A) (ac_orders _ A)) in Hc as (fn&?&?&?). by exists fn. Qed.

(** Programs in which the only interface type is the type Getter (3) of the first package, with one method (31). *)
Definition getter_of (pk : package) (meth : gostring) : Prop := forall nm t, defines pk (DIface nm) t -> t = 3 /\ exists id elems mid name doc ft,
  interface_decl pk nm id elems /\ IMethod mid name doc ft ∈ elems /\ i_name name = meth /\ ti_defs (pk_info pk) (i_id name) = Some 31.
Definition getter_methods (ms : list member) (meth : gostring) : Prop :=
  forall m n o, m ∈ ms -> ti_methods (pk_info (m_pk m)) (TNamed 3) n = Some o -> n = meth /\ o = 31.
Lemma presupposed_intro lib ms meth : (forall m, m ∈ lib :: ms -> accepted m) -> chain_check (lib :: ms) = true -> getter_of (m_pk lib) meth ->
  getter_methods (lib :: ms) meth -> presupposed (chain_program (lib :: ms)).
Proof.
  intros Ha Hc Hg Hm. split; [exact Ha|]. split; [|apply nobody_world]. apply chain_linked; [exact Hc|].
  intros m l nm t me o Hin Hl Hd Hme. destruct (chain_parts _ Hc) as (_&_&_&Hi).
  apply elem_of_list_lookup in Hl as [i Hl]. rewrite (Hi i l nm t Hl Hd) in Hl. injection Hl as <-.
  destruct (Hg nm t Hd) as (->&id&elems&mid&name&doc&ft&H1&H2&<-&H4). destruct (Hm m me o Hin Hme) as [-> ->].
  eapply ca_own; [by left|done|done|done].
Qed.
(** The methods that implement it. *)
Lemma converted_intro lib ms meth m o o' : chain_check (lib :: ms) = true -> getter_of (m_pk lib) meth -> getter_methods (lib :: ms) meth ->
  converted (chain_program (lib :: ms)) m o o' -> m ∈ lib :: ms /\ o = 31 /\ exists v, v <> TNamed 3 /\ ti_methods (pk_info (m_pk m)) v meth = Some o'.
Proof.
  intros Hc Hg Hme (v&me&w&n&t&pos&l&nm&Hm&_&_&Hv&_&Hl&Hd&Ho&Ho'). destruct (chain_parts _ Hc) as (_&_&_&Hi).
  apply elem_of_list_lookup in Hl as [i Hl]. rewrite (Hi i l nm t Hl Hd) in Hl. injection Hl as <-.
  destruct (Hg nm t Hd) as (->&_). destruct (Hme m me o Hm Ho) as [-> ->]. eauto.
Qed.

(** ** The first program *)
Definition lib : member := member_of wp_lib error_facts.
Definition app : member := member_of wp_app (m_exports lib).
Definition prog : program := chain_program [lib; app].
Lemma lib_accepted : accepted lib.
Proof. apply (member_check_spec wp_lib error_facts (m_known lib) no_rank); [vm_compute|]; reflexivity. Qed.
Lemma app_accepted : accepted app.
Proof. apply (member_check_spec wp_app (m_exports lib) (m_known app) no_rank); [vm_compute|]; reflexivity. Qed.
Ltac calc := vm_compute; reflexivity.
Ltac dcalc := apply (bool_decide_unpack _); vm_compute; exact Logic.I.
Ltac getter_tac := intros nm t (id&elems&Hd&Ht); pose proof Hd as Hin; apply all_interfaces_spec in Hin; vm_compute in Hin;
  apply elem_of_list_singleton in Hin; injection Hin as -> -> ->; vm_compute in Ht; injection Ht as <-; split; [reflexivity|];
  eexists _, _, _, _, _, _; split; [exact Hd|]; split; [by left|]; split; reflexivity.
Ltac members H := repeat first [apply elem_of_nil in H; destruct H | apply elem_of_cons in H; destruct H as [->|H]].
Ltac in_table H := apply lookup_method_in in H; members_table H
with members_table H := repeat first [apply elem_of_nil in H; destruct H | apply elem_of_cons in H; destruct H as [H|H]; [try discriminate H|]].
Lemma lib_getter : getter_of wp_lib (str "Get").
Proof. getter_tac. Qed.
Lemma prog_methods : getter_methods [lib; app] (str "Get").
Proof. intros m n o Hm Hn. members Hm; apply lookup_method_in in Hn; vm_compute in Hn; members_table Hn; by injection Hn as -> ->. Qed.
Lemma prog_check : chain_check [lib; app] = true.
Proof. vm_compute. reflexivity. Qed.
Lemma prog_presupposed : presupposed prog.
Proof. apply (presupposed_intro lib [app] (str "Get")); [|exact prog_check|exact lib_getter|exact prog_methods]. intros m Hm. members Hm; [exact lib_accepted|exact app_accepted]. Qed.
Lemma prog_declared : declared_methods prog.
Proof.
  intros m v0 meth0 o o' Hc0. assert (converted prog m o o') as Hc by by exists v0, meth0. destruct (converted_intro lib [app] (str "Get") m o o' prog_check lib_getter prog_methods Hc) as (Hm&->&v&Hv&Ho').
  members Hm; apply lookup_method_in in Ho'; vm_compute in Ho'; members_table Ho'; injection Ho' as -> ->; try by destruct Hv.
  split; [left; exists {[ str "a" ]}|]; dcalc.
Qed.
(** F calls lib.Use, which calls the method Get of Impl. *)
Definition mem : heap := {[ 0 := Cell ∅ (str "a") ]}.
Lemma runs_get : runs prog nobody 24 ∅ [] mem (VErr 0).
Proof.
  apply C41_runs. right. left. exists app, 1. split; [right; by left|]. split; [eexists _, _; split; [calc|split; [reflexivity|calc]]|].
  eapply (ex_return _ _ _ _ _ 1 wp_app_f1 [] nothing ∅ (Node 14 KReturn [Node 13 (KUnary true) [Node 12 KComposite [Node 11 KBasicLit []]]])); [calc| |member|by apply ret_last| |].
  - apply re_start. split; [done|]. split; [done|]. by intros [|p] i o Hp.
  - eapply (ev_new _ _ _ _ _ _ _ _ (ErrorType ∅ (Some (str "TheCode", 0%nat))) (str "a")).
    + by constructor.
    + apply error_type_of_spec. calc.
    + left. repeat constructor.
    + left. exists (Node 11 KBasicLit []). split; [constructor; by eapply fi_position|apply sv_const; calc].
    + exact (made_intro ∅ (Cell ∅ (str "a")) 0 eq_refl).
  - intros q Hq. exfalso. revert Hq. apply no_request. vm_compute. reflexivity.
Qed.
Lemma app_converts : converted prog app 31 24.
Proof.
  exists (TNamed 4), (str "Get"), (Some (fn_type wp_app_f2)), (Node 28 KCall [Node 26 KSelector [Node 24 (KIdent (str "lib") None) []; Node 25 (KIdent (str "Use") None) []]; Node 27 KComposite []]), 3, 27, lib.
  destruct (all_defined wp_lib) as [|] eqn:E; [vm_compute in E; discriminate|]. clear E.
  assert (exists nm, defines wp_lib (DIface nm) 3) as [nm Hnm].
  { eexists _, _, _. split; [apply all_interfaces_spec; vm_compute; by left|calc]. }
  exists nm. split; [right; by left|]. split; [|split; [|split; [discriminate|split; [discriminate|]]]].
  - eapply (occurs_func _ _ _ 2 wp_app_f2); [right; by left|calc|reflexivity|].
    eapply below_kid; [by left|done|]. eapply below_kid; [by left|done|]. apply below_self.
  - eapply (cv_argument _ _ _ _ _ _ _ _ _ _ _ _ _ 0%nat); [reflexivity|calc|reflexivity|split; [calc|reflexivity]].
  - split; [by left|]. split; [exact Hnm|]. split; calc.
Qed.
Lemma runs_use : runs prog nobody 41 ∅ [VOther] mem (VErr 0).
Proof.
  apply C41_runs. right. left. exists lib, 1. split; [by left|]. split; [eexists _, _; split; [calc|split; [reflexivity|calc]]|].
  eapply (ex_return _ _ _ _ _ 1 wp_lib_f1 [VOther] (set_var nothing 1 VOther) ∅ (Node 24 KReturn [Node 23 KCall [Node 22 KSelector [Node 20 (KIdent (str "g") (Some 1)) []; Node 21 (KIdent (str "Get") None) []]]])); [calc| |member|by apply ret_last| |].
  - apply re_start. split; [|split].
    + intros o a. unfold set_var. by case_decide.
    + intros o (Ho&_) _. unfold set_var. case_decide as E; [|done]. subst o. vm_compute in Ho. discriminate.
    + intros [|p] i o Hp Ho; [|by destruct p]. vm_compute in Hp. injection Hp as <-. vm_compute in Ho. injection Ho as <-. reflexivity.
  - eapply (ev_declared _ _ _ _ _ _ _ _ (Node 22 KSelector [Node 20 (KIdent (str "g") (Some 1)) []; Node 21 (KIdent (str "Get") None) []]) [] 31 {[ str "a" ]} []); [calc|reflexivity|calc|dcalc| |].
    + by intros p a s Hp.
    + apply C41_runs. right. right. exists app, 24. split; [exact app_converts|exact runs_get].
  - intros q Hq. exfalso. revert Hq. apply no_request. vm_compute. reflexivity.
Qed.
Theorem C41_example : presupposed prog /\ declared_methods prog /\ returns_code prog {[ str "a" ]} (str "a").
Proof.
  split; [exact prog_presupposed|]. split; [exact prog_declared|].
  assert (r_claims (m_run app) !! 2 = Some (Claim {[ str "a" ]} None)) as Hc by dcalc.
  destruct (claim_function app 2 _ app_accepted Hc) as (fn&Hk&Hret&Hd).
  exists app, 2, fn, mem, (VErr 0). split; [right; by left|]. split; [exact Hk|]. split; [exact Hret|]. split; [exact Hd|]. split.
  - eapply (ex_return _ _ _ _ _ 2 wp_app_f2 [] nothing ∅ (Node 29 KReturn [Node 28 KCall [Node 26 KSelector [Node 24 (KIdent (str "lib") None) []; Node 25 (KIdent (str "Use") None) []]; Node 27 KComposite []]])); [calc| |member|by apply ret_last| |].
    + apply re_start. split; [done|]. split; [done|]. by intros [|p] i o Hp.
    + eapply (ev_declared _ _ _ _ _ _ _ _ (Node 26 KSelector [Node 24 (KIdent (str "lib") None) []; Node 25 (KIdent (str "Use") None) []]) [Node 27 KComposite []] 41 {[ str "a" ]} [VOther]);
        [calc|reflexivity|calc|dcalc| |exact runs_use]. by intros [|[|p]] a s Hp.
    + intros q Hq. exfalso. revert Hq. apply no_request. vm_compute. reflexivity.
  - exists 0, (Cell ∅ (str "a")). split; [reflexivity|]. split; [reflexivity|]. split; [by right|discriminate].
Qed.

(** ** Error constructors
    The check of a conversion compares the declared codes only: a method whose parameter is declared to be a code may implement a method
    that declares none.  wc_app.F declares no codes, and returns the error that is made by (Impl).Make("b"). *)
Definition ctor_lib : member := member_of wc_lib error_facts.
Definition ctor_app : member := member_of wc_app (m_exports ctor_lib).
Definition ctor_prog : program := chain_program [ctor_lib; ctor_app].
Lemma ctor_lib_accepted : accepted ctor_lib.
Proof. apply (member_check_spec wc_lib error_facts (m_known ctor_lib) no_rank); [vm_compute|]; reflexivity. Qed.
Lemma ctor_app_accepted : accepted ctor_app.
Proof. apply (member_check_spec wc_app (m_exports ctor_lib) (m_known ctor_app) no_rank); [vm_compute|]; reflexivity. Qed.
Lemma ctor_getter : getter_of wc_lib (str "Make").
Proof. getter_tac. Qed.
Lemma ctor_methods : getter_methods [ctor_lib; ctor_app] (str "Make").
Proof. intros m n o Hm Hn. members Hm; apply lookup_method_in in Hn; vm_compute in Hn; members_table Hn; by injection Hn as -> ->. Qed.
Lemma ctor_check : chain_check [ctor_lib; ctor_app] = true.
Proof. vm_compute. reflexivity. Qed.
Lemma ctor_presupposed : presupposed ctor_prog.
Proof. apply (presupposed_intro ctor_lib [ctor_app] (str "Make")); [|exact ctor_check|exact ctor_getter|exact ctor_methods]. intros m Hm. members Hm; [exact ctor_lib_accepted|exact ctor_app_accepted]. Qed.
Lemma ctor_declared m o o' : converted ctor_prog m o o' -> m ∈ [ctor_app] /\ o' = 24.
Proof.
  intros Hc. destruct (converted_intro ctor_lib [ctor_app] (str "Make") m o o' ctor_check ctor_getter ctor_methods Hc) as (Hm&->&v&Hv&Ho').
  apply elem_of_cons in Hm as [->|Hm]; [apply lookup_method_in in Ho'; vm_compute in Ho'; members_table Ho'; injection Ho' as -> ->; by destruct Hv|].
  split; [exact Hm|]. members Hm; apply lookup_method_in in Ho'; vm_compute in Ho'; members_table Ho'; injection Ho' as -> ->; try by destruct Hv.
  all: reflexivity.
Qed.
Definition mem_b : heap := {[ 0 := Cell ∅ (str "b") ]}.
Lemma ctor_runs_impl : runs ctor_prog nobody 24 ∅ [VStr (str "b")] mem_b (VErr 0).
Proof.
  apply C41_runs. right. left. exists ctor_app, 1. split; [right; by left|]. split; [eexists _, _; split; [calc|split; [reflexivity|calc]]|].
  eapply (ex_return _ _ _ _ _ 1 wc_app_f1 [VStr (str "b")] (set_var nothing 1 (VStr (str "b"))) ∅ (Node 18 KReturn [Node 17 (KUnary true) [Node 16 KComposite [Node 15 (KIdent (str "code") (Some 1)) []]]])); [calc| |member|by apply ret_last| |].
  - apply re_start. split; [|split].
    + intros o a. unfold set_var. by case_decide.
    + intros o (Ho&_) _. unfold set_var. case_decide as E; [|done]. subst o. vm_compute in Ho. discriminate.
    + intros [|p] i o Hp Ho; [|by destruct p]. vm_compute in Hp. injection Hp as <-. vm_compute in Ho. injection Ho as <-. reflexivity.
  - eapply (ev_new _ _ _ _ _ _ _ _ (ErrorType ∅ (Some (str "TheCode", 0%nat))) (str "b")).
    + by constructor.
    + apply error_type_of_spec. calc.
    + left. repeat constructor.
    + left. exists (Node 15 (KIdent (str "code") (Some 1)) []). split; [constructor; by eapply fi_position|eapply sv_var; [calc|reflexivity|reflexivity|reflexivity]].
    + exact (made_intro ∅ (Cell ∅ (str "b")) 0 eq_refl).
  - intros q Hq. exfalso. revert Hq. apply no_request. vm_compute. reflexivity.
Qed.
Lemma ctor_converts : converted ctor_prog ctor_app 31 24.
Proof.
  exists (TNamed 4), (str "Make"), (Some (fn_type wc_app_f2)), (Node 32 KCall [(Node 30 KSelector [Node 28 (KIdent (str "lib") None) []; Node 29 (KIdent (str "Use") None) []]); Node 31 KComposite []]), 3, 31, ctor_lib.
  assert (exists nm, defines wc_lib (DIface nm) 3) as [nm Hnm].
  { eexists _, _, _. split; [apply all_interfaces_spec; vm_compute; by left|calc]. }
  exists nm. split; [right; by left|]. split; [|split; [|split; [discriminate|split; [discriminate|]]]].
  - eapply (occurs_func _ _ _ 2 wc_app_f2); [right; by left|calc|reflexivity|].
    eapply below_kid; [by left|done|]. eapply below_kid; [by left|done|]. apply below_self.
  - eapply (cv_argument _ _ _ _ _ _ _ _ _ _ _ _ _ 0%nat); [reflexivity|calc|reflexivity|split; [calc|reflexivity]].
  - split; [by left|]. split; [exact Hnm|]. split; calc.
Qed.
Lemma ctor_runs_use : runs ctor_prog nobody 41 ∅ [VOther] mem_b (VErr 0).
Proof.
  apply C41_runs. right. left. exists ctor_lib, 1. split; [by left|]. split; [eexists _, _; split; [calc|split; [reflexivity|calc]]|].
  eapply (ex_return _ _ _ _ _ 1 wc_lib_f1 [VOther] (set_var nothing 2 VOther) ∅ (Node 29 KReturn [Node 28 KCall [(Node 26 KSelector [Node 24 (KIdent (str "g") (Some 2)) []; Node 25 (KIdent (str "Make") None) []]); Node 27 KBasicLit []]])); [calc| |member|by apply ret_last| |].
  - apply re_start. split; [|split].
    + intros o a. unfold set_var. by case_decide.
    + intros o (Ho&_) _. unfold set_var. case_decide as E; [|done]. subst o. vm_compute in Ho. discriminate.
    + intros [|p] i o Hp Ho; [|by destruct p]. vm_compute in Hp. injection Hp as <-. vm_compute in Ho. injection Ho as <-. reflexivity.
  - eapply (ev_declared _ _ _ _ _ _ _ _ (Node 26 KSelector [Node 24 (KIdent (str "g") (Some 2)) []; Node 25 (KIdent (str "Make") None) []]) [Node 27 KBasicLit []] 31 ∅ [VStr (str "b")]); [calc|reflexivity|calc|dcalc| |].
    + intros [|p] a s Hp Hv; [|destruct p; discriminate]. cbn in Hp, Hv. injection Hp as <-. injection Hv as <-. apply sv_const. calc.
    + apply C41_runs. right. right. exists ctor_app, 24. split; [exact ctor_converts|exact ctor_runs_impl].
  - intros q Hq. exfalso. revert Hq. apply no_request. vm_compute. reflexivity.
Qed.
Theorem C41_refuted_constructor : presupposed ctor_prog /\ (forall m o o', converted ctor_prog m o o' -> exists s, fa_codes (m_exports m) !! o' = Some s) /\
  returns_code ctor_prog ∅ (str "b").
Proof.
  split; [exact ctor_presupposed|]. split.
  { intros m o o' Hc. destruct (ctor_declared m o o' Hc) as [Hm ->]. members Hm. exists ∅. dcalc. }
  assert (r_claims (m_run ctor_app) !! 2 = Some (Claim ∅ None)) as Hc by dcalc.
  destruct (claim_function ctor_app 2 _ ctor_app_accepted Hc) as (fn&Hk&Hret&Hd).
  exists ctor_app, 2, fn, mem_b, (VErr 0). split; [right; by left|]. split; [exact Hk|]. split; [exact Hret|]. split; [exact Hd|]. split.
  - eapply (ex_return _ _ _ _ _ 2 wc_app_f2 [] nothing ∅ (Node 33 KReturn [(Node 32 KCall [(Node 30 KSelector [Node 28 (KIdent (str "lib") None) []; Node 29 (KIdent (str "Use") None) []]); Node 31 KComposite []])])); [calc| |member|by apply ret_last| |].
    + apply re_start. split; [done|]. split; [done|]. by intros [|p] i o Hp.
    + eapply (ev_declared _ _ _ _ _ _ _ _ (Node 30 KSelector [Node 28 (KIdent (str "lib") None) []; Node 29 (KIdent (str "Use") None) []]) [Node 31 KComposite []] 41 ∅ [VOther]);
        [calc|reflexivity|calc|dcalc| |exact ctor_runs_use]. by intros [|[|p]] a s Hp.
    + intros q Hq. exfalso. revert Hq. apply no_request. vm_compute. reflexivity.
  - exists 0, (Cell ∅ (str "b")). split; [reflexivity|]. split; [reflexivity|]. split; [by right|discriminate].
Qed.

(** ** Methods without a declaration
    Facts are exported for declared functions only, and a conversion whose type has a method without a fact is not reported.
    wu_app.F declares the code a and returns b: that is what the method of other.Impl, used as lib.Getter, returns. *)
Definition und_lib : member := member_of wp_lib error_facts.
Definition und_other : member := member_of wu_other (m_exports und_lib).
Definition und_app : member := member_of wu_app (m_exports und_other).
Definition und_prog : program := chain_program [und_lib; und_other; und_app].
Lemma und_lib_accepted : accepted und_lib.
Proof. apply (member_check_spec wp_lib error_facts (m_known und_lib) no_rank); [vm_compute|]; reflexivity. Qed.
Lemma und_other_accepted : accepted und_other.
Proof. apply (member_check_spec wu_other (m_exports und_lib) (m_known und_other) no_rank); [vm_compute|]; reflexivity. Qed.
Lemma und_app_accepted : accepted und_app.
Proof. apply (member_check_spec wu_app (m_exports und_other) (m_known und_app) no_rank); [vm_compute|]; reflexivity. Qed.
Lemma und_getter : getter_of wp_lib (str "Get").
Proof. getter_tac. Qed.
Lemma und_methods : getter_methods [und_lib; und_other; und_app] (str "Get").
Proof. intros m n o Hm Hn. members Hm; apply lookup_method_in in Hn; vm_compute in Hn; members_table Hn; by injection Hn as -> ->. Qed.
Lemma und_check : chain_check [und_lib; und_other; und_app] = true.
Proof. vm_compute. reflexivity. Qed.
Lemma und_presupposed : presupposed und_prog.
Proof. apply (presupposed_intro und_lib [und_other; und_app] (str "Get")); [|exact und_check|exact und_getter|exact und_methods]. intros m Hm. members Hm; [exact und_lib_accepted|exact und_other_accepted|exact und_app_accepted]. Qed.
Lemma und_declared m o o' : converted und_prog m o o' -> m ∈ [und_other; und_app] /\ o' = 24.
Proof.
  intros Hc. destruct (converted_intro und_lib [und_other; und_app] (str "Get") m o o' und_check und_getter und_methods Hc) as (Hm&->&v&Hv&Ho').
  apply elem_of_cons in Hm as [->|Hm]; [apply lookup_method_in in Ho'; vm_compute in Ho'; members_table Ho'; injection Ho' as -> ->; by destruct Hv|].
  split; [exact Hm|]. members Hm; apply lookup_method_in in Ho'; vm_compute in Ho'; members_table Ho'; injection Ho' as -> ->; try by destruct Hv.
  all: reflexivity.
Qed.
Lemma und_runs_impl : runs und_prog nobody 24 ∅ [] mem_b (VErr 0).
Proof.
  apply C41_runs. right. left. exists und_other, 1. split; [right; by left|]. split; [eexists _, _; split; [calc|split; [reflexivity|calc]]|].
  eapply (ex_return _ _ _ _ _ 1 wu_other_f1 [] nothing ∅ (Node 14 KReturn [Node 13 (KUnary true) [Node 12 KComposite [Node 11 KBasicLit []]]])); [calc| |member|by apply ret_last| |].
  - apply re_start. split; [done|]. split; [done|]. by intros [|p] i o Hp.
  - eapply (ev_new _ _ _ _ _ _ _ _ (ErrorType ∅ (Some (str "TheCode", 0%nat))) (str "b")).
    + by constructor.
    + apply error_type_of_spec. calc.
    + left. repeat constructor.
    + left. exists (Node 11 KBasicLit []). split; [constructor; by eapply fi_position|apply sv_const; calc].
    + exact (made_intro ∅ (Cell ∅ (str "b")) 0 eq_refl).
  - intros q Hq. exfalso. revert Hq. apply no_request. vm_compute. reflexivity.
Qed.
Lemma und_converts : converted und_prog und_app 31 24.
Proof.
  exists (TNamed 4), (str "Get"), (Some (fn_type wu_app_f1)), (Node 11 KCall [(Node 9 KSelector [Node 7 (KIdent (str "lib") None) []; Node 8 (KIdent (str "Use") None) []]); Node 10 KComposite []]), 3, 10, und_lib.
  assert (exists nm, defines wp_lib (DIface nm) 3) as [nm Hnm].
  { eexists _, _, _. split; [apply all_interfaces_spec; vm_compute; by left|calc]. }
  exists nm. split; [right; right; by left|]. split; [|split; [|split; [discriminate|split; [discriminate|]]]].
  - eapply (occurs_func _ _ _ 1 wu_app_f1); [by left|calc|reflexivity|].
    eapply below_kid; [by left|done|]. eapply below_kid; [by left|done|]. apply below_self.
  - eapply (cv_argument _ _ _ _ _ _ _ _ _ _ _ _ _ 0%nat); [reflexivity|calc|reflexivity|split; [calc|reflexivity]].
  - split; [by left|]. split; [exact Hnm|]. split; calc.
Qed.
Lemma und_runs_use : runs und_prog nobody 41 ∅ [VOther] mem_b (VErr 0).
Proof.
  apply C41_runs. right. left. exists und_lib, 1. split; [by left|]. split; [eexists _, _; split; [calc|split; [reflexivity|calc]]|].
  eapply (ex_return _ _ _ _ _ 1 wp_lib_f1 [VOther] (set_var nothing 1 VOther) ∅ (Node 24 KReturn [Node 23 KCall [(Node 22 KSelector [Node 20 (KIdent (str "g") (Some 1)) []; Node 21 (KIdent (str "Get") None) []])]])); [calc| |member|by apply ret_last| |].
  - apply re_start. split; [|split].
    + intros o a. unfold set_var. by case_decide.
    + intros o (Ho&_) _. unfold set_var. case_decide as E; [|done]. subst o. vm_compute in Ho. discriminate.
    + intros [|p] i o Hp Ho; [|by destruct p]. vm_compute in Hp. injection Hp as <-. vm_compute in Ho. injection Ho as <-. reflexivity.
  - eapply (ev_declared _ _ _ _ _ _ _ _ (Node 22 KSelector [Node 20 (KIdent (str "g") (Some 1)) []; Node 21 (KIdent (str "Get") None) []]) [] 31 {[ str "a" ]} []); [calc|reflexivity|calc|dcalc| |].
    + by intros p a s Hp.
    + apply C41_runs. right. right. exists und_app, 24. split; [exact und_converts|exact und_runs_impl].
  - intros q Hq. exfalso. revert Hq. apply no_request. vm_compute. reflexivity.
Qed.
Theorem C41_refuted_undeclared : presupposed und_prog /\ (forall m o o', converted und_prog m o o' -> fa_ctor (m_exports m) !! o' = None) /\
  returns_code und_prog {[ str "a" ]} (str "b").
Proof.
  split; [exact und_presupposed|]. split.
  { intros m o o' Hc. destruct (und_declared m o o' Hc) as [Hm ->]. members Hm; dcalc. }
  assert (r_claims (m_run und_app) !! 1 = Some (Claim {[ str "a" ]} None)) as Hc by dcalc.
  destruct (claim_function und_app 1 _ und_app_accepted Hc) as (fn&Hk&Hret&Hd).
  exists und_app, 1, fn, mem_b, (VErr 0). split; [right; right; by left|]. split; [exact Hk|]. split; [exact Hret|]. split; [exact Hd|]. split.
  - eapply (ex_return _ _ _ _ _ 1 wu_app_f1 [] nothing ∅ (Node 12 KReturn [(Node 11 KCall [(Node 9 KSelector [Node 7 (KIdent (str "lib") None) []; Node 8 (KIdent (str "Use") None) []]); Node 10 KComposite []])])); [calc| |member|by apply ret_last| |].
    + apply re_start. split; [done|]. split; [done|]. by intros [|p] i o Hp.
    + eapply (ev_declared _ _ _ _ _ _ _ _ (Node 9 KSelector [Node 7 (KIdent (str "lib") None) []; Node 8 (KIdent (str "Use") None) []]) [Node 10 KComposite []] 41 {[ str "a" ]} [VOther]);
        [calc|reflexivity|calc|dcalc| |exact und_runs_use]. by intros [|[|p]] a s Hp.
    + intros q Hq. exfalso. revert Hq. apply no_request. vm_compute. reflexivity.
  - exists 0, (Cell ∅ (str "b")). split; [reflexivity|]. split; [reflexivity|]. split; [by right|discriminate].
Qed.

(** ** Methods without a declaration in the package that converts
    wo_app.F is like wp_app.F; the method of Impl declares nothing, it is analysed when the conversion is checked. *)
Definition own_app : member := member_of wo_app (m_exports lib).
Definition own_prog : program := chain_program [lib; own_app].
Lemma own_app_accepted : accepted own_app.
Proof. apply (member_check_spec wo_app (m_exports lib) (m_known own_app) no_rank); [vm_compute|]; reflexivity. Qed.
Lemma own_methods : getter_methods [lib; own_app] (str "Get").
Proof. intros m n o Hm Hn. members Hm; apply lookup_method_in in Hn; vm_compute in Hn; members_table Hn; by injection Hn as -> ->. Qed.
Lemma own_check : chain_check [lib; own_app] = true.
Proof. vm_compute. reflexivity. Qed.
Lemma own_presupposed : presupposed own_prog.
Proof. apply (presupposed_intro lib [own_app] (str "Get")); [|exact own_check|exact lib_getter|exact own_methods]. intros m Hm. members Hm; [exact lib_accepted|exact own_app_accepted]. Qed.
Lemma own_declared : declared_methods own_prog.
Proof.
  intros m v0 meth0 o o' Hc0. pose proof Hc0 as (w&n&t&pos&l&nm&Hm0&_&_&_&_&Hl&Hd&Hme&_).
  assert (converted own_prog m o o') as Hc by by exists v0, meth0.
  destruct (converted_intro lib [own_app] (str "Get") m o o' own_check lib_getter own_methods Hc) as (Hm&->&v&Hv&Ho').
  assert (meth0 = str "Get") as ->.
  { destruct (chain_parts _ own_check) as (_&_&_&Hi). apply elem_of_list_lookup in Hl as [i Hl]. rewrite (Hi i l nm t Hl Hd) in Hl. injection Hl as <-.
    destruct (lib_getter nm t Hd) as (->&_). by destruct (own_methods m meth0 31 Hm0 Hme). }
  members Hm; apply lookup_method_in in Ho'; vm_compute in Ho'; members_table Ho'; injection Ho' as -> ->; try by destruct Hv.
  split; [right|dcalc]. exists 1, wo_app_f1. eexists _, _. split; [by left|]. split; [calc|]. split; [reflexivity|]. split; [reflexivity|]. split; [reflexivity|calc].
Qed.
(** There is no fact about this method. *)
Lemma own_undeclared : converted own_prog own_app 31 24 /\ fa_codes (m_exports own_app) !! 24 = None.
Proof.
  split; [|dcalc].
  exists (TNamed 4), (str "Get"), (Some (fn_type wo_app_f2)), (Node 28 KCall [Node 26 KSelector [Node 24 (KIdent (str "lib") None) []; Node 25 (KIdent (str "Use") None) []]; Node 27 KComposite []]), 3, 27, lib.
  assert (exists nm, defines wp_lib (DIface nm) 3) as [nm Hnm].
  { eexists _, _, _. split; [apply all_interfaces_spec; vm_compute; by left|calc]. }
  exists nm. split; [right; by left|]. split; [|split; [|split; [discriminate|split; [discriminate|]]]].
  - eapply (occurs_func _ _ _ 2 wo_app_f2); [right; by left|calc|reflexivity|].
    eapply below_kid; [by left|done|]. eapply below_kid; [by left|done|]. apply below_self.
  - eapply (cv_argument _ _ _ _ _ _ _ _ _ _ _ _ _ 0%nat); [reflexivity|calc|reflexivity|split; [calc|reflexivity]].
  - split; [by left|]. split; [exact Hnm|]. split; calc.
Qed.
Lemma own_runs_get : runs own_prog nobody 24 ∅ [] mem (VErr 0).
Proof.
  apply C41_runs. right. left. exists own_app, 1. split; [right; by left|]. split; [eexists _, _; split; [calc|split; [reflexivity|calc]]|].
  eapply (ex_return _ _ _ _ _ 1 wo_app_f1 [] nothing ∅ (Node 14 KReturn [Node 13 KCall [Node 12 (KIdent (str "mk") (Some 1)) []]])); [calc| |member|by apply ret_last| |].
  - apply re_start. split; [done|]. split; [done|]. by intros [|p] i o Hp.
  - eapply (ev_call _ _ _ _ _ _ _ _ (Node 12 (KIdent (str "mk") (Some 1)) []) [] 3 []); [calc|reflexivity| |by apply den_func| |].
    + split; [|intros Hn; vm_compute in Hn; discriminate Hn]. intros s (o&Ho&Hs). vm_compute in Ho. injection Ho as <-. vm_compute in Hs. discriminate.
    + by intros p a s Hp.
    + eapply (ex_return _ _ _ _ _ 3 wo_app_f3 [] nothing ∅ (Node 42 KReturn [Node 41 (KUnary true) [Node 40 KComposite [Node 39 KBasicLit []]]])); [calc| |member|by apply ret_last| |].
      * apply re_start. split; [done|]. split; [done|]. by intros [|p] i o Hp.
      * eapply (ev_new _ _ _ _ _ _ _ _ (ErrorType ∅ (Some (str "TheCode", 0%nat))) (str "a")).
        -- by constructor.
        -- apply error_type_of_spec. calc.
        -- left. repeat constructor.
        -- left. exists (Node 39 KBasicLit []). split; [constructor; by eapply fi_position|apply sv_const; calc].
        -- exact (made_intro ∅ (Cell ∅ (str "a")) 0 eq_refl).
      * intros q Hq. exfalso. revert Hq. apply no_request. vm_compute. reflexivity.
  - intros q Hq. exfalso. revert Hq. apply no_request. vm_compute. reflexivity.
Qed.
Theorem C41_example_undeclared : presupposed own_prog /\ declared_methods own_prog /\
  (exists o o', converted own_prog own_app o o' /\ fa_codes (m_exports own_app) !! o' = None /\ runs own_prog nobody o ∅ [] mem (VErr 0)).
Proof.
  split; [exact own_presupposed|]. split; [exact own_declared|]. exists 31, 24. destruct own_undeclared as [Hc Hn]. split; [exact Hc|]. split; [exact Hn|].
  apply C41_runs. right. right. exists own_app, 24. split; [exact Hc|exact own_runs_get].
Qed.
