(** * Specification: the same package with other documentation of its functions. *)
From stdpp Require Import base list gmap.
From Verif Require Import GoString ErrorCode Scc Engine CodeSet Constant GoAst SpecCodes SpecMessages SpecClaims Verify SpecRun SpecEnd PropCodeSet.

(** Only the documentation comment is replaced.  (In a file the code after it moves; here diagnostics and objects keep their places, so the
    results can be compared directly.) *)
Definition redoc (doc : option gostring) (fn : func) : func :=
  Func (fn_pos fn) (match fn_decl fn with Some d => Some (DeclInfo (dc_name d) (dc_recv d) doc) | None => None end)
    (fn_type fn) (fn_body fn) (fn_body_pos fn) (fn_body_end fn).
Definition with_docs (docs : fid -> option gostring) (pk : package) : package :=
  Package (map_imap (fun f fn => Some (redoc (docs f) fn)) (pk_funcs pk)) (pk_decls pk) (pk_gendecls pk) (pk_top pk) (pk_objs pk) (pk_comments pk) (pk_info pk).

(** What is said about [f] when its documentation is compared with the codes [found f]: nothing if they are the same. *)
Inductive judged (pk : package) (found : fid -> codeset) (f : fid) : list diag -> Prop :=
| judged_intro fn codes param missing unused :
    known_function pk f fn -> returns_error_last pk (fn_type fn) -> declares_codes pk fn codes param ->
    listing missing (found f ∖ codes) -> listing unused (codes ∖ found f) ->
    judged pk found f (match missing, unused with [], [] => [] | _, _ => [Diag (fn_pos fn) (expected_message (name_of fn) missing unused)] end).
(** The diagnostics of the comparison of documentation and code: everything said about the functions that were analysed, [says], and the
    judgement about each function that declares codes. *)
Definition explains (pk : package) (ord : orders) (r : run) (found : fid -> codeset) (says : fid -> list diag) : Prop :=
  exists fs ds vs, NoDup fs /\ (forall g, g ∈ fs <-> checked_function pk ord r g) /\
    NoDup ds /\ (forall f, f ∈ ds <-> declared_function pk f) /\ Forall2 (judged pk found) ds vs /\
    e_diags (r_loop r) ≡ₚ (fs ≫= says) ++ concat vs.
