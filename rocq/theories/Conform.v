(** * The project's own tests, run on the model.

    tools/conform.py parses and type checks the packages of /repo/analysis/testdata (tools/goparse.py, tools/gocheck.py stand for go/parser and
    go/types) and writes them as terms; the files Conform*.v state what the model answers, and the script compares these answers with the
    expectations ("want" comments) in the test data.  This validates the model, it proves no property of it. *)
From Coq Require Import Ascii String.
From stdpp Require Import base list gmap.
From Verif Require Import GoString ErrorCode Scc Engine CodeSet Constant GoAst CommentText CommentMap Phase Claims Analyse Verify FactText.
Local Open Scope N_scope.

Fixpoint lookup_obj (l : list (gotype * gostring * tobj)) (t : gotype) (m : gostring) : option tobj :=
  match l with
  | [] => None
  | (t', m', o) :: l' => if decide (m' = m) then if decide (t' = t) then Some o else lookup_obj l' t m else lookup_obj l' t m
  end.
Definition map_info (types : gmap N gotype) (values : gmap N constval) (uses defs : gmap N tobj) (sels : gmap N (tobj * gotype))
  (typenames : gset N) (pkgnames objnames : gmap N gostring) (objtypes underlying : gmap N gotype)
  (methods : list (gotype * gostring * tobj)) (impl_error impl_ree impl_cause : list gotype) (impl : list (gotype * gotype))
  (named_methods : gmap N (list gostring)) : typeinfo := {|
  ti_type := fun n => types !! n; ti_value := fun n => values !! n; ti_uses := fun n => uses !! n; ti_defs := fun n => defs !! n;
  ti_selection := fun n => sels !! n; ti_is_typename := fun o => bool_decide (o ∈ typenames); ti_pkgname := fun n => pkgnames !! n;
  ti_objname := fun o => default [] (objnames !! o); ti_objtype := fun o => default TUntypedNil (objtypes !! o);
  ti_underlying := fun o => default TUntypedNil (underlying !! o); ti_methods := lookup_obj methods;
  ti_implements_error := fun t => bool_decide (t ∈ impl_error); ti_implements_ree := fun t => bool_decide (t ∈ impl_ree);
  ti_implements_cause := fun t => bool_decide (t ∈ impl_cause); ti_implements := fun t i => bool_decide ((t, i) ∈ impl);
  ti_named_methods := fun o => default [] (named_methods !! o); ti_is_print := fun _ => true; ti_is_upper := fun _ => false; ti_compound := fun _ => false |}.

(** The texts of the facts about the given objects. *)
Definition fact_texts (fa : facts) (objs : list tobj) : list (tobj * gostring) :=
  flat_map (fun o =>
    (match fa_codes fa !! o with Some s => [(o, text_of_codes (elements s))] | None => [] end) ++
    (match fa_ctor fa !! o with Some p => [(o, text_of_constructor p)] | None => [] end) ++
    (match fa_type fa !! o with Some t => [(o, text_of_type (elements (et_codes t)) (et_field t))] | None => [] end) ++
    (match fa_iface fa !! o with Some m => [(o, text_of_interface (elements (dom m)))] | None => [] end)) objs.

(** One possible choice of iteration orders, and the opposite one. *)
Definition ascending (lk : lookup_table) : orders :=
  Orders (lookup_all lk) (fun _ s => elements s) elements elements (fun _ s => elements s) elements elements (fun _ s => elements s).
Definition descending (lk : lookup_table) : orders :=
  Orders (reverse (lookup_all lk)) (fun _ s => reverse (elements s)) (fun s => reverse (elements s)) (fun s => reverse (elements s))
    (fun _ s => reverse (elements s)) (fun s => reverse (elements s)) (fun s => reverse (elements s)) (fun _ s => reverse (elements s)).

(** The tests run in strict mode (analyse_test.go 11). *)
Definition run_test (pk : package) (ord : lookup_table -> orders) (fa : facts) : phase facts := runVerify pk true (ord (collectFunctions pk)) fa.
Definition facts_after_test (m : phase facts) : facts := match m with Ok (fa, _) => fa | _ => Facts ∅ ∅ ∅ ∅ end.
Definition diags_of_test (m : phase facts) : option (list diag) := match m with Ok (_, l) => Some l | _ => None end.
Definition report (m : phase facts) : option (list (nid * gostring)) := map (fun d => (d_at d, d_msg d)) <$> diags_of_test m.
From Verif Require Import SpecLayout ExampleLayout.
Lemma layouts_spec l : forallb layoutb l = true -> Forall layout l.
Proof. rewrite forallb_forall, Forall_forall. intros H f Hf. apply layoutb_spec, H. by apply elem_of_list_In. Qed.
