(** * Specification: which functions are analysed and what they declare.

    In terms of the source: no loops, no iteration order. *)
From Coq Require Import Ascii String.
From stdpp Require Import base list gmap.
From Verif Require Import GoString ErrorCode Scc CodeSet DocParser Constant Quote GoAst Claims SpecCodes SpecDoc SpecMessages.

Section spec.
Context (pk : package).
Notation info := (pk_info pk).

(** The type of the result is an error type. *)
Definition error_result (r : field) : Prop :=
  exists t, ti_type info (f_type r) = Some t /\ ti_implements_error info t = true.
Global Instance error_result_dec r : Decision (error_result r).
Proof.
  unfold error_result. destruct (ti_type info (f_type r)) as [t|].
  - destruct (ti_implements_error info t) eqn:E; [left; eauto|right; by intros (?&[= <-]&?); congruence].
  - right. by intros (?&?&_).
Defined.
Definition returns_error_last (ft : functype) : Prop :=
  exists l r, ft_results ft = Some l /\ last l = Some r /\ error_result r.

Definition is_method (fn : func) : Prop := exists d r, fn_decl fn = Some d /\ dc_recv d = Some [r].
Definition name_of (fn : func) : gostring := match fn_decl fn with Some d => i_name (dc_name d) | None => [] end.
(** The functions the analyzer knows by name: all methods, and all functions, where of several functions of the
    same name (possible for init and _ only) the last counts. *)
Definition known_function (f : fid) (fn : func) : Prop :=
  exists before after, pk_decls pk = before ++ f :: after /\ pk_funcs pk !! f = Some fn /\
    (is_method fn \/ forall g gn, g ∈ after -> pk_funcs pk !! g = Some gn -> ~ is_method gn -> name_of gn <> name_of fn).

(** The documentation and its meaning (SpecDoc). *)
Definition documented (fn : func) (doc : option gostring) : Prop :=
  match fn_decl fn with Some d => dc_doc d = doc | None => doc = None end.
Inductive doc_means : option gostring -> doc_result -> Prop :=
| means_none : doc_means None (DocResult ∅ [] false)
| means_some doc r : doc_declares (doc_lines doc) r -> doc_means (Some doc) r.
Definition doc_odd (doc : option gostring) (e : doc_error) : Prop := exists d, doc = Some d /\ doc_malformed (doc_lines d) e.

(** The parameters of a function, and the first one of the given name. *)
Definition param_list (ft : functype) : list ident := concat (map f_names (ft_params ft)).
Definition param_named (ft : functype) (name : gostring) (p : nat) (i : ident) : Prop :=
  param_list ft !! p = Some i /\ i_name i = name /\ forall q j, q < p -> param_list ft !! q = Some j -> i_name j <> name.
Definition string_typed (i : ident) : Prop := ti_type info (i_id i) = Some (TBasic (str "string")).

(** What a function declares: codes and the error code parameter with its position. *)
Definition declared_param (ft : functype) (name : gostring) (param : option (ident * nat)) : Prop :=
  match param with
  | None => name = []
  | Some (i, p) => name <> [] /\ param_named ft name p i /\ string_typed i
  end.
Definition declares_codes (fn : func) (codes : codeset) (param : option (ident * nat)) : Prop :=
  exists doc r, documented fn doc /\ doc_means doc r /\ codes = dr_codes r /\ declared_param (fn_type fn) (dr_param r) param /\
    (codes <> ∅ \/ dr_none r = true \/ param <> None).

(** The method Cause of an error type. *)
Definition cause_method (fn : func) : Prop :=
  exists d r t, fn_decl fn = Some d /\ dc_recv d = Some [r] /\ ti_type info (f_type r) = Some t /\
    ti_implements_cause info t = true /\ i_name (dc_name d) = str "Cause".

(** ** Diagnostics *)

(** Errors among the results of a function whose last result is not an error. *)
Definition misplaced_errors (ft : functype) (ds : list diag) : Prop :=
  (returns_error_last ft -> ds = []) /\
  (~ returns_error_last ft ->
   ds = (fun r => Diag (f_id r) (str "error should be returned as the last argument")) <$> filter error_result (default [] (ft_results ft))).

(** A documentation that is malformed, or declares a parameter that does not exist or is not a string. *)
Inductive doc_report (fn : func) : diag -> Prop :=
| rep_odd doc e : documented fn doc -> doc_odd doc e ->
    doc_report fn (Diag (fn_pos fn) (str "function " ++ quoted (name_of fn) ++ str " has odd docstring: " ++ doc_error_text e))
| rep_no_param doc r : documented fn doc -> doc_means doc r -> dr_param r <> [] ->
    (forall i p, ~ param_named (fn_type fn) (dr_param r) p i) ->
    doc_report fn (Diag (ft_id (fn_type fn)) (str "declared error code parameter " ++ quote (ti_is_print info) (dr_param r) ++ str " could not be found in parameter list"))
| rep_no_string doc r i p : documented fn doc -> doc_means doc r -> dr_param r <> [] ->
    param_named (fn_type fn) (dr_param r) p i -> ~ string_typed i ->
    doc_report fn (Diag (i_id i) (str "error code parameter " ++ quote (ti_is_print info) (dr_param r) ++ str " has to be of type string")).
(** Go's exported names: they start with an upper case letter. *)
Definition exported_name (name : gostring) : Prop :=
  exists r rest, runes name = r :: rest /\
    (r ∈ str "ABCDEFGHIJKLMNOPQRSTUVWXYZ" \/ (128 <= r)%N /\ ti_is_upper info r = true).
(** The flag: exported, declares nothing. *)
Inductive strict_report (fn : func) : diag -> Prop :=
| rep_strict doc r : documented fn doc -> doc_means doc r -> dr_codes r = ∅ -> dr_none r = false -> dr_param r = [] ->
    exported_name (name_of fn) -> ~ cause_method fn ->
    strict_report fn (Diag (fn_pos fn) (str "function " ++ quoted (name_of fn) ++ str " is exported, but does not declare any error codes")).
(** [l] is the one diagnostic that [P] asks for, or none. *)
Definition exactly (P : diag -> Prop) (l : list diag) : Prop :=
  match l with
  | [] => forall d, ~ P d
  | [d] => forall d', P d' <-> d' = d
  | _ => False
  end.

(** The object of a declared function. *)
Definition object_of (f : fid) (o : tobj) : Prop :=
  exists fn d, pk_funcs pk !! f = Some fn /\ fn_decl fn = Some d /\ ti_defs info (i_id (dc_name d)) = Some o.
(** Different functions have different objects (Go guarantees it). *)
Definition distinct_objects : Prop := forall f g o, object_of f o -> object_of g o -> f = g.
End spec.
