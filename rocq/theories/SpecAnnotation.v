(** * Specification: annotations of return statements.
    The documented forms (annotation.go 22-34, README):
      Error Codes = a, b      Error Codes += a, b      Error Codes -= a, b      Error Codes -a +b *)
From Coq Require Import Ascii String.
From stdpp Require Import base list gmap.
From Verif Require Import GoString ErrorCode SpecSpace SpecCodes Annotation.
Local Open Scope N_scope.

(** [c] with white space around it. *)
Definition padded (p c : gostring) : Prop :=
  exists w w', white w /\ white w' /\ p = w ++ c ++ w'.

(** A comma separated list of codes, or nothing at all. *)
Inductive code_list : gostring -> list gostring -> Prop :=
| code_list_empty s : white s -> code_list s []
| code_list_some parts cs :
    cs <> [] -> Forall2 (fun p c => valid_code c /\ padded p c /\ 44 ∉ p) parts cs ->
    code_list (join [44] parts) cs.

(** A list of codes with sign ([true] is '+'), separated by spaces. *)
Definition signed (m : bool * gostring) : gostring := (if m.1 then 43 else 45) :: m.2.
Inductive mod_parts : list gostring -> list (bool * gostring) -> Prop :=
| mod_nil : mod_parts [] []
| mod_blank p ps ms : white p -> 32 ∉ p -> mod_parts ps ms -> mod_parts (p :: ps) ms
| mod_item p m ps ms : valid_code m.2 -> padded p (signed m) -> 32 ∉ p -> mod_parts ps ms ->
    mod_parts (p :: ps) (m :: ms).
Definition mod_list (s : gostring) (ms : list (bool * gostring)) : Prop :=
  exists parts, s = join [32] parts /\ mod_parts parts ms.

(** What an annotation asks for. *)
Inductive request := Overwrite (cs : codeset) | Modify (add sub : codeset).

Definition codes_signed (b : bool) (ms : list (bool * gostring)) : codeset :=
  list_to_set (map snd (filter (fun m => m.1 = b) ms)).

(** The text after "Error Codes". *)
Inductive annotation_text : gostring -> request -> Prop :=
| ann_set s cs : code_list s cs -> annotation_text (str "=" ++ s) (Overwrite (list_to_set cs))
| ann_add s cs : code_list s cs -> annotation_text (str "+=" ++ s) (Modify (list_to_set cs) ∅)
| ann_sub s cs : code_list s cs -> annotation_text (str "-=" ++ s) (Modify ∅ (list_to_set cs))
| ann_mod s ms : mod_list s ms -> (exists t, s = str "+" ++ t \/ s = str "-" ++ t) ->
    annotation_text s (Modify (codes_signed true ms) (codes_signed false ms)).

(** A comment line carrying an annotation, with the text after the indicator. *)
Definition annotation_line (line text : gostring) : Prop :=
  exists w t, white w /\ line = w ++ str "Error Codes" ++ t /\
    padded t text /\ ~ starts_with_space text /\ ~ ends_with_space text.
Definition plain_comment (line : gostring) : Prop := ~ exists text, annotation_line line text.

Inductive annotation_lines : list gostring -> list gostring -> Prop :=
| al_nil : annotation_lines [] []
| al_plain l ls ts : plain_comment l -> annotation_lines ls ts -> annotation_lines (l :: ls) ts
| al_text l t ls ts : annotation_line l t -> annotation_lines ls ts -> annotation_lines (l :: ls) (t :: ts).

(** The lines of the comment groups attached to a statement. *)
Definition comment_lines (groups : list gostring) : list gostring := split_on 10 (join [10] groups).

(** ** What is wrong with a malformed annotation (the kinds of reports are those of [Annotation]) *)

(** An item of a list of signed codes, with the white space around it removed. *)
Definition item_of (p item : gostring) : Prop :=
  padded p item /\ item <> [] /\ ~ starts_with_space item /\ ~ ends_with_space item.
(** The first bad item of a list of signed codes. *)
Inductive wrong_item : gostring -> annotation_diag -> Prop :=
| wi_no_sign b s : b <> 43 -> b <> 45 -> wrong_item (b :: s) AnnMissingSign
| wi_code b s : b = 43 \/ b = 45 -> ~ valid_code s -> wrong_item (b :: s) AnnInvalidCode.

(** The text after "Error Codes" is malformed, and this is reported. *)
Inductive wrong_text : gostring -> annotation_diag -> Prop :=
| wt_nothing : wrong_text [] AnnExpectedOperator
| wt_operator b s : b <> 61 -> b <> 43 -> b <> 45 -> wrong_text (b :: s) AnnExpectedOperator
| wt_codes op s : op = str "=" \/ op = str "+=" \/ op = str "-=" -> (~ exists cs, code_list s cs) ->
    wrong_text (op ++ s) AnnInvalidCode
| wt_item text good ms p item rest d :
    (exists t, text = str "+" ++ t \/ text = str "-" ++ t) ->
    ~ (exists t, text = str "+=" ++ t \/ text = str "-=" ++ t) ->
    text = join [32] (good ++ p :: rest) -> Forall (fun p => 32 ∉ p) (good ++ p :: rest) ->
    mod_parts good ms -> item_of p item -> wrong_item item d -> wrong_text text d.

(** The annotation lines of a statement are read in order: every line but the first is reported, the last one counts,
    the first malformed one ends the reading and no annotation is in effect.  (An empty text is reported as such only.) *)
Inductive reading (ts : list gostring) : option request -> list annotation_diag -> Prop :=
| rd_all qs : Forall2 annotation_text ts qs -> reading ts (last qs) (repeat AnnMultiple (length ts - 1))
| rd_stop good qs bad rest d : ts = good ++ bad :: rest -> Forall2 annotation_text good qs -> wrong_text bad d ->
    reading ts None (repeat AnnMultiple (length good - (if decide (bad = []) then 1 else 0)) ++ [d]).

(** What the comment groups attached to a statement say, and the reports about them. *)
Definition annotated (groups : list gostring) (q : option request) (ds : list annotation_diag) : Prop :=
  exists ts, annotation_lines (comment_lines groups) ts /\ reading ts q ds.
