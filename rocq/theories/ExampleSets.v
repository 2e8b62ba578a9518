(** * Executions with shared code sets (examples for C46). *)
From Coq Require Import Ascii String.
From stdpp Require Import base list gmap.
From Verif Require Import GoString ErrorCode CodeSet CodeSetProofs SetHeap SetHeapProofs SetProgram PropSets.
Local Open Scope string_scope. Local Open Scope list_scope.

(** An interpreter: [script] decides the branches, values and places; the trace contains what is read as well. *)
Definition answer5 : Type := gmap N codeset * gmap N (option N) * result * list event * list event.
Fixpoint interp (fuel : nat) (P : setprog) (h : gmap N codeset) (m : gmap N (option N)) (e : gmap string (option N)) (s : stmt) (script : list event) : option answer5 :=
  match fuel with
  | O => None
  | S fuel =>
    let l := fresh (dom h) in
    match s, script with
    | SSkip, _ => Some (h, m, Goes e, [], script)
    | SSet x, ESet values :: script' =>
      match heap_slice_to_set l values h with Some h' => Some (h', m, Goes (<[ x := Some l ]> e), [ESet values], script') | None => None end
    | SNil x, _ => Some (h, m, Goes (<[ x := None ]> e), [], script)
    | SUnion x y z, _ =>
      match heap_union l (elements (contents h (var e y))) (elements (contents h (var e z))) h with
      | Some h' => Some (h', m, Goes (<[ x := Some l ]> e), [], script) | None => None end
    | SDifference x y z, _ =>
      match heap_difference l (var e z) (elements (contents h (var e y))) h with
      | Some h' => Some (h', m, Goes (<[ x := Some l ]> e), [], script) | None => None end
    | SCopy x y, _ => Some (h, m, Goes (<[ x := var e y ]> e), [], script)
    | SAdd x, EAdd v :: script' =>
      match heap_add (var e x) v h with
      | Some h' => Some (h', m, Goes e, [EAdd v], script')
      | None => Some (h, m, Crashes, [EAdd v], script')
      end
    | SRead x, _ => Some (h, m, Goes e, [ERead (contents h (var e x))], script)
    | SLoad x, ELoad p :: script' => Some (h, m, Goes (<[ x := held m p ]> e), [ELoad p], script')
    | SStore x, EStore p :: script' => Some (h, <[ p := var e x ]> m, Goes e, [EStore p], script')
    | SCall x f args, _ =>
      match P !! f with
      | Some fn =>
        match interp fuel P h m (list_to_map (zip (sf_params fn) (var e <$> args))) (sf_body fn) script with
        | Some (h', m', r, t, rest) =>
          Some (h', m', match r with Returns v => Goes (<[ x := v ]> e) | Goes _ => Goes (<[ x := None ]> e) | Crashes => Crashes end, t, rest)
        | None => None
        end
      | None => None
      end
    | SReturn x, _ => Some (h, m, Returns (var e x), [], script)
    | SSeq s1 s2, _ =>
      match interp fuel P h m e s1 script with
      | Some (h1, m1, Goes e1, t1, rest1) =>
        match interp fuel P h1 m1 e1 s2 rest1 with
        | Some (h2, m2, r, t2, rest) => Some (h2, m2, r, t1 ++ t2, rest)
        | None => None
        end
      | a => a
      end
    | SIf s1 s2, EBranch b :: script' =>
      match interp fuel P h m e (if b then s1 else s2) script' with
      | Some (h', m', r, t, rest) => Some (h', m', r, EBranch b :: t, rest)
      | None => None
      end
    | SLoop own s1, EBranch false :: script' => Some (h, m, Goes e, [EBranch false], script')
    | SLoop own s1, EBranch true :: script' =>
      match interp fuel P h m e s1 script' with
      | Some (h1, m1, Goes e1, t1, rest1) =>
        match interp fuel P h1 m1 e1 s rest1 with
        | Some (h2, m2, r, t2, rest) => Some (h2, m2, r, EBranch true :: t1 ++ t2, rest)
        | None => None
        end
      | Some (h', m', r, t, rest) => Some (h', m', r, EBranch true :: t, rest)
      | None => None
      end
    | _, _ => None
    end
  end.
Lemma interp_runs P : forall fuel h m e s script h' m' r t rest, interp fuel P h m e s script = Some (h', m', r, t, rest) -> runs P h m e s t h' m' r.
Proof.
  induction fuel as [|fuel IH]; intros h m e s script h' m' r t rest H; [done|].
  assert (fresh (dom h) ∉ dom h) as Hl by apply is_fresh.
  destruct s as [|x|x|x y z|x y z|x y|x|x|x|x|x f args|x|s1 s2|s1 s2|own s1]; cbn [interp] in H.
  - simplify_eq. constructor.
  - destruct script as [|[] script']; try done. destruct (heap_slice_to_set _ _ _) eqn:E; [|done]. simplify_eq. by econstructor.
  - simplify_eq. constructor.
  - destruct (heap_union _ _ _ _) eqn:E; [|done]. simplify_eq. econstructor; [done|unfold order_of; reflexivity|unfold order_of; reflexivity|done].
  - destruct (heap_difference _ _ _ _) eqn:E; [|done]. simplify_eq. econstructor; [done|unfold order_of; reflexivity|done].
  - simplify_eq. constructor.
  - destruct script as [|[] script']; try done. destruct (heap_add _ _ _) eqn:E; simplify_eq; by constructor.
  - simplify_eq. constructor.
  - destruct script as [|[] script']; try done. simplify_eq. constructor.
  - destruct script as [|[] script']; try done. simplify_eq. constructor.
  - destruct (P !! f) as [fn|] eqn:Ef; [|done]. destruct (interp _ _ _ _ _ _ _) as [[[[[h1 m1] r1] t1] rest1]|] eqn:E; [|done]. simplify_eq. by econstructor; [|eapply IH].
  - simplify_eq. constructor.
  - destruct (interp fuel P h m e s1 script) as [[[[[h1 m1] [e1|v|]] t1] rest1]|] eqn:E; [| | |done].
    + destruct (interp fuel P h1 m1 e1 s2 rest1) as [[[[[h2 m2] r2] t2] rest2]|] eqn:E2; [|done]. simplify_eq. by eapply run_seq; [eapply IH|eapply IH].
    + simplify_eq. apply run_seq_stop; [by eapply IH|done].
    + simplify_eq. apply run_seq_stop; [by eapply IH|done].
  - destruct script as [|[] script']; try done. destruct (interp _ _ _ _ _ _ _) as [[[[[h1 m1] r1] t1] rest1]|] eqn:E; [|done]. simplify_eq. apply run_if. by eapply IH.
  - destruct script as [|[[] | | | | |] script']; try done; [|simplify_eq; constructor].
    destruct (interp fuel P h m e s1 script') as [[[[[h1 m1] [e1|v|]] t1] rest1]|] eqn:E; [| | |done].
    + destruct (interp fuel P h1 m1 e1 (SLoop own s1) rest1) as [[[[[h2 m2] r2] t2] rest2]|] eqn:E2; [|done]. simplify_eq. by eapply run_loop; [eapply IH|eapply IH].
    + simplify_eq. apply run_loop_stop; [by eapply IH|done].
    + simplify_eq. apply run_loop_stop; [by eapply IH|done].
Qed.

(** The cache holds the set {a-error} for two functions of one component (places 1 and 2 hold the same reference), and a fact holds it too (place 3).  A constructor with
    the code "b-error" that calls one of the functions is analysed: findErrorCodesFromFunctionCall adds "b-error" to a set of its own. *)
Definition a_code : gostring := str "a-error".
Definition b_code : gostring := str "b-error".
Definition ex_heap : gmap N codeset := {[ 0%N := {[ a_code ]} ]}.
Definition ex_memory : gmap N (option N) := list_to_map [(1%N, Some 0%N); (2%N, Some 0%N); (3%N, Some 0%N)].
Definition ex_script : list event :=
  [ESet []; EBranch true; EAdd b_code; EBranch false; EBranch false; EBranch false; EBranch true; EBranch false; ELoad 1%N].
Notation ex_answer := (interp 100 analyzer_sets ex_heap ex_memory (list_to_map (zip (sf_params p_findErrorCodesFromFunctionCall) [])) (sf_body p_findErrorCodesFromFunctionCall) ex_script).
Definition final_heap (a : option answer5) : gmap N codeset := match a with Some (h, _, _, _, _) => h | None => ∅ end.
Lemma ex_facts : ex_answer = Some (final_heap ex_answer, ex_memory, Returns (Some 2%N), ex_script, []).
Proof. vm_compute. reflexivity. Qed.
Lemma ex_result : contents (final_heap ex_answer) (Some 2%N) = {[ a_code; b_code ]}.
Proof. apply (bool_decide_unpack _). vm_compute. exact Logic.I. Qed.
Lemma ex_kept1 : kept (final_heap ex_answer) ex_memory 1 = {[ a_code ]}.
Proof. apply (bool_decide_unpack _). vm_compute. exact Logic.I. Qed.
Lemma ex_kept3 : kept (final_heap ex_answer) ex_memory 3 = {[ a_code ]}.
Proof. apply (bool_decide_unpack _). vm_compute. exact Logic.I. Qed.
Lemma ex_call : calls analyzer_sets ex_heap ex_memory "findErrorCodesFromFunctionCall" [] ex_script (final_heap ex_answer) ex_memory (Returns (Some 2%N)).
Proof.
  assert (analyzer_sets !! "findErrorCodesFromFunctionCall" = Some p_findErrorCodesFromFunctionCall) as Hf by (vm_compute; reflexivity).
  exists p_findErrorCodesFromFunctionCall. split; [exact Hf|].
  exact (interp_runs analyzer_sets 100 ex_heap ex_memory (list_to_map (zip (sf_params p_findErrorCodesFromFunctionCall) [])) (sf_body p_findErrorCodesFromFunctionCall) ex_script
    (final_heap ex_answer) ex_memory (Returns (Some 2%N)) ex_script [] ex_facts).
Qed.
Lemma ex_no_dangling : no_dangling ex_heap ex_memory [].
Proof.
  split; [|by intros ? ?%elem_of_nil]. intros p l' Hp. apply elem_of_list_to_map_2 in Hp.
  rewrite !elem_of_cons in Hp. assert (l' = 0%N) as -> by (destruct Hp as [Hp|[Hp|[Hp|Hp%elem_of_nil]]]; [injection Hp; done..|done]). unfold ex_heap. rewrite dom_singleton. set_solver.
Qed.
Theorem C46_example : exists h' r l,
  no_dangling ex_heap ex_memory [] /\ calls analyzer_sets ex_heap ex_memory "findErrorCodesFromFunctionCall" [] ex_script h' ex_memory r /\
  r = Returns (Some l) /\ contents h' (Some l) = {[ a_code; b_code ]} /\ kept h' ex_memory 1 = {[ a_code ]} /\ kept h' ex_memory 3 = {[ a_code ]}.
Proof.
  exists (final_heap ex_answer), (Returns (Some 2%N)), 2%N. exact (conj ex_no_dangling (conj ex_call (conj eq_refl (conj ex_result (conj ex_kept1 ex_kept3))))).
Qed.

(** The check is needed: were the cached set itself used as the result, as `result = cachedResult` instead of a Union and an Add afterwards would, the set cached for both
    functions and recorded in the fact would change.  The check rejects it. *)
Definition careless : setprog := <[ "f" := SetFunc [] (SLoad "result" ;;; SAdd "result" ;;; SReturn "result") ]> ∅.
Definition careless_body : stmt := SLoad "result" ;;; SAdd "result" ;;; SReturn "result".
Notation careless_answer := (interp 10 careless ex_heap ex_memory ∅ careless_body [ELoad 1%N; EAdd b_code]).
Lemma careless_facts : careless_answer = Some (final_heap careless_answer, ex_memory, Returns (Some 0%N), [ELoad 1%N; EAdd b_code], []).
Proof. vm_compute. reflexivity. Qed.
Lemma careless_kept : kept (final_heap careless_answer) ex_memory 3 = {[ a_code; b_code ]}.
Proof. apply (bool_decide_unpack _). vm_compute. exact Logic.I. Qed.
Theorem C46_careless : check_prog careless = false /\ exists h' r,
  calls careless ex_heap ex_memory "f" [] [ELoad 1%N; EAdd b_code] h' ex_memory r /\ kept h' ex_memory 3 = {[ a_code; b_code ]}.
Proof.
  split; [vm_compute; reflexivity|]. exists (final_heap careless_answer), (Returns (Some 0%N)). split; [|exact careless_kept].
  exists (SetFunc [] careless_body). split; [exact (lookup_insert (∅ : setprog) "f" (SetFunc [] careless_body))|].
  exact (interp_runs careless 10 ex_heap ex_memory ∅ careless_body [ELoad 1%N; EAdd b_code] _ _ _ _ _ careless_facts).
Qed.
