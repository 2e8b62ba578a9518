(** * Specification: the programs for which the analysis is sound with respect to execution.

    [disciplined] collects how a function has to be written: the analyzer accepts programs that violate these conditions and return
    undeclared codes (PropExecRefuted).  [resolved] holds of every Go program: it says that the results of the parser and the
    type checker fit together. *)
From Coq Require Import Ascii String.
From stdpp Require Import base list gmap.
From Verif Require Import GoString ErrorCode Scc CodeSet Annotation Constant GoAst Taint Analyse
  SpecCodes SpecTaint SpecMay SpecProgram SpecEvents SpecExec.

Section spec.
Context (pk : package) (lk : lookup_table) (fa : facts) (fn : func).
Notation info := (pk_info pk).

(** What is assigned to in the function. *)
Definition targets (lhs : list node) : Prop := (exists rhs, writes pk fn lhs rhs) \/ open_targets pk fn lhs.
Definition names_var (l : node) (o : oid) : Prop := exists i, as_ident (unparen l) = Some i /\ i_obj i = Some o.
(** The error that variable [o] holds is changed in place. *)
Inductive updated (o : oid) : Prop :=
| up_struct lhs l : struct_var pk fa fn o -> targets lhs -> l ∈ lhs -> names_var l o -> updated o
| up_field lhs l x : targets lhs -> l ∈ lhs -> code_field pk fa l x -> names_var x o -> updated o.
(** nil, or a composite literal of an error type. *)
Definition new_error (r : node) : Prop :=
  (exists i, as_ident (unparen r) = Some i /\ i_obj i = None /\ i_name i = str "nil") \/
  (composite (unparen r) /\ exists et, error_type pk fa (unparen r) et).

(** The variables the analyzer follows: those a returned error, a called function, the code of a constructor may come from. *)
Inductive followed (o : oid) : Prop :=
| fo_error : error_var pk fn o -> followed o
| fo_called f i : error_call pk fn f -> plain_call pk fa f -> function_variable pk (unparen f) i -> tracked pk fn None ∅ i o -> followed o
| fo_code i : constructor_param pk fa fn i -> tracked pk fn (i_obj i) ∅ i o -> followed o.

(** Expressions used as functions: called, or assigned to something. *)
Inductive function_use : node -> Prop :=
| fu_called n f args : n ∈ body_nodes fn -> as_call n = Some (f, args) -> function_use (unparen f)
| fu_assigned lhs rhs r : writes pk fn lhs rhs -> r ∈ rhs -> function_use (unparen r).

(** How the function has to be written. *)
Record disciplined : Prop := {
  (** Code fields are only assigned to as `x.Field = ...`, where x is a variable, and not inside a function literal that is
      itself assigned, nor in a range clause, nor by += ..., nor as a promoted field, nor through a pointer to the field. *)
  di_fields lhs rhs l x : writes pk fn lhs rhs -> l ∈ lhs -> code_field pk fa l x ->
    (exists body, fn_body fn = Some body /\ outer_assignment body lhs rhs) /\ unparen l = l /\
    exists i o, as_ident x = Some i /\ i_obj i = Some o;
  di_open_fields lhs l x : open_targets pk fn lhs -> l ∈ lhs -> ~ code_field pk fa l x;
  di_promoted lhs l : targets lhs -> l ∈ lhs -> ~ promoted_field pk fa l;
  di_field_pointer : ~ field_exposed pk fa fn;
  (** No error is overwritten through a pointer, a field or an element (`*p = MyError{...}`). *)
  di_places lhs l et : targets lhs -> l ∈ lhs -> as_ident (unparen l) = None -> ~ struct_typed pk fa (node_id l) et;
  (** Variables whose error is changed in place are local. *)
  di_local o : updated o -> declared_inside pk fn o /\ ~ literal_param pk fn o;
  (** If they are pointers, they are assigned only new errors (and one at a time): the error is not shared. *)
  di_unshared o lhs rhs l : updated o -> ~ struct_var pk fa fn o -> writes pk fn lhs rhs -> l ∈ lhs -> names_var l o ->
    exists r, lhs = [l] /\ rhs = [r] /\ new_error r;
  di_unshared_open o lhs l : updated o -> ~ struct_var pk fa fn o -> open_targets pk fn lhs -> l ∈ lhs -> ~ names_var l o;
  (** No zero value of a type with constant codes is returned. *)
  di_zero o et : zero_declared pk fa fn o et -> error_var pk fn o -> et_codes et = ∅;
  di_assert lhs rhs r id t x et l o : writes pk fn lhs rhs -> length lhs <> length rhs -> rhs !! 0 = Some r ->
    unparen r = Node id (KTypeAssert (Some t)) [x] -> struct_typed pk fa t et -> lhs !! 0 = Some l -> names_var l o ->
    error_var pk fn o -> et_codes et = ∅;
  (** The key and the value of a range clause are neither returned nor called, and neither are the targets of += ... *)
  di_open lhs l o : open_targets pk fn lhs -> l ∈ lhs -> names_var l o -> ~ followed o;
  (** The address of a variable that is followed, or holds an error that is changed, is not taken, unless it is a struct variable. *)
  di_exposed o : exposed pk fa fn o -> ~ followed o /\ ~ updated o;
  (** The last result is not both named and subject to deferred calls. *)
  di_defer o : defers fn -> ~ named_result fn o;
  (** With deferred calls, the result has no struct type with constant codes. *)
  di_recover fields fl et : defers fn -> ft_results (fn_type fn) = Some fields -> last fields = Some fl ->
    struct_typed pk fa (f_type fl) et -> et_codes et = ∅;
  (** Conversions to an error type with constant codes and a code field do not occur. *)
  di_conversion n f args et : n ∈ body_nodes fn -> as_call n = Some (f, args) -> function_object pk f = None ->
    error_type pk fa f et -> et_codes et <> ∅ -> et_field et = None;
  (** No variable and no field is called nil. *)
  di_nil i : mentions fn i \/ (exists p, parameters (fn_type fn) !! p = Some (Some i)) -> i_name i = str "nil" -> i_obj i = None;
  di_nil_field n x sel : n ∈ body_nodes fn -> as_selector n = Some (x, sel) -> i_name sel <> str "nil"
}.

(** What holds of every Go function. *)
Record resolved : Prop := {
  rs_selector n x sel : n ∈ body_nodes fn -> as_selector n = Some (x, sel) -> i_obj sel = None;
  rs_declared id names t values k l o : Node id (KValueSpec names t) values ∈ body_nodes fn -> values <> [] ->
    names !! k = Some l -> i_obj l = Some o ->
    ob_decl (obj_of pk o) = DValueSpec names values /\ forall k' l', k' < k -> names !! k' = Some l' -> i_obj l' <> Some o;
  rs_parens n : n ∈ body_nodes fn -> ti_value info (node_id n) = ti_value info (node_id (unparen n));
  rs_variable i : mentions fn i -> is_variable pk i -> ti_value info (i_id i) = None;
  rs_param i o : constructor_param pk fa fn i -> i_obj i = Some o -> ~ literal_param pk fn o;
  rs_conversion n f args : n ∈ body_nodes fn -> as_call n = Some (f, args) ->
    (exists i o, as_ident (unparen f) = Some i /\ i_obj i = Some o /\ ob_decl (obj_of pk o) = DType) \/
    (function_object pk f = None /\ exists et, error_type pk fa f et) ->
    function_object pk f = None /\ ti_type info (node_id n) = ti_type info (node_id f) /\
    (forall g, ~ denotes pk lk (unparen f) g) /\ (forall i o, ~ names_value pk (unparen f) i o);
  rs_function e g gn d o : function_use e -> denotes pk lk e g -> pk_funcs pk !! g = Some gn -> fn_decl gn = Some d ->
    ti_defs info (i_id (dc_name d)) = Some o -> value_object pk e = Some o /\ ti_is_typename info o = false
}.
End spec.
