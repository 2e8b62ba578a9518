(** * Specification: what a doc comment declares.

    The documented declaration format (find_error_docs.go 17-40, README), stated over the list of
    the doc's lines with surrounding white space removed.  There is no state machine here. *)
From Coq Require Import Ascii String.
From stdpp Require Import base list gmap.
From Verif Require Import GoString ErrorCode SpecCodes DocParser.
Local Open Scope N_scope.

Definition starts (p l : gostring) : Prop := exists t, l = p ++ t.

(** The lines that open a declaration. *)
Definition opens_block (l : gostring) : Prop := l = str "Errors:".
Definition opens_none (l : gostring) : Prop := starts (str "Errors: none") l.
(** A line before any declaration. *)
Definition plain_before (l : gostring) : Prop := ~ opens_block l /\ ~ opens_none l.
(** A line after the declaration. *)
Definition plain_after (l : gostring) : Prop := ~ starts (str "Errors:") l.

(** "- x -- anything": [x] is the text between the leading "- " and the first " --". *)
Definition item_text (l x : gostring) : Prop :=
  exists rest, l = str "- " ++ x ++ str " --" ++ rest /\
    forall a b, l = a ++ str " --" ++ b -> (2 + length x <= length a)%nat.

(** What one line inside the block means. *)
Inductive block_line : gostring -> option (gostring + gostring) -> Prop :=
| line_skipped l :                       (* any other text: skipped *)
    l <> [] -> ~ starts (str "Errors:") l -> ~ starts (str "- ") l -> block_line l None
| line_code l x c :                      (* "- code --" *)
    item_text l x -> trim_space x = c -> ~ starts (str "param:") c -> valid_code c ->
    block_line l (Some (inl c))
| line_param l x y p :                   (* "- param: p --" *)
    item_text l x -> trim_space x = str "param:" ++ y -> trim_space y = p -> p <> [] ->
    block_line l (Some (inr p)).

Inductive block_lines : list gostring -> list gostring -> list gostring -> Prop :=
| bl_nil : block_lines [] [] []
| bl_skip l ls cs ps : block_line l None -> block_lines ls cs ps -> block_lines (l :: ls) cs ps
| bl_code l c ls cs ps :
    block_line l (Some (inl c)) -> block_lines ls cs ps -> block_lines (l :: ls) (c :: cs) ps
| bl_param l p ls cs ps :
    block_line l (Some (inr p)) -> block_lines ls cs ps -> block_lines (l :: ls) cs (p :: ps).

(** The meaning of the whole doc: declared codes, constructor parameter, declared-none flag. *)
Inductive doc_declares : list gostring -> doc_result -> Prop :=
| declares_nothing ls :
    Forall plain_before ls -> doc_declares ls (DocResult ∅ [] false)
| declares_none pre l post :
    Forall plain_before pre -> opens_none l -> Forall plain_after post ->
    doc_declares (pre ++ l :: post) (DocResult ∅ [] true)
| declares_truncated pre l :   (* the doc ends with the indicator line: nothing is declared *)
    Forall plain_before pre -> opens_block l ->
    doc_declares (pre ++ [l]) (DocResult ∅ [] false)
| declares_block pre l blk codes params post :
    Forall plain_before pre -> opens_block l -> block_lines blk codes params ->
    (length params <= 1)%nat ->
    (post = [] \/ exists post', post = [] :: post' /\ Forall plain_after post') ->
    doc_declares (pre ++ l :: [] :: blk ++ post)
      (DocResult (list_to_set codes) (default [] (head params)) false).

(** The ways a doc can be malformed. *)
Inductive bad_block_line : (* parameter seen before? *) bool -> gostring -> doc_error -> Prop :=
| bad_indicator b l : starts (str "Errors:") l -> bad_block_line b l DocRepeatedIndicator
| bad_no_dashes b l : starts (str "- ") l -> (~ exists u v, l = u ++ str " --" ++ v) ->
    bad_block_line b l DocNoDashDash
| bad_empty_overlap b rest : bad_block_line b (str "- --" ++ rest) DocEmptyCode
| bad_empty b l x : item_text l x -> trim_space x = [] -> bad_block_line b l DocEmptyCode
| bad_param_empty b l x y : item_text l x -> trim_space x = str "param:" ++ y ->
    trim_space y = [] -> bad_block_line b l DocEmptyParam
| bad_param_repeated l x y : item_text l x -> trim_space x = str "param:" ++ y ->
    trim_space y <> [] -> bad_block_line true l DocMultipleParams
| bad_code b l x : item_text l x -> trim_space x <> [] -> ~ starts (str "param:") (trim_space x) ->
    ~ valid_code (trim_space x) -> bad_block_line b l DocInvalidCode.

Inductive doc_malformed : list gostring -> doc_error -> Prop :=
| mal_no_blank pre l next post :
    Forall plain_before pre -> opens_block l -> next <> [] ->
    doc_malformed (pre ++ l :: next :: post) DocNeedBlankLine
| mal_block pre l blk codes params bad post e :
    Forall plain_before pre -> opens_block l -> block_lines blk codes params ->
    (length params <= 1)%nat ->
    bad_block_line (bool_decide (params <> [])) bad e ->
    doc_malformed (pre ++ l :: [] :: blk ++ bad :: post) e
| mal_repeated_after_block pre l blk codes params mid bad post :
    Forall plain_before pre -> opens_block l -> block_lines blk codes params ->
    (length params <= 1)%nat -> Forall plain_after mid -> starts (str "Errors:") bad ->
    doc_malformed (pre ++ l :: [] :: blk ++ [] :: mid ++ bad :: post) DocRepeatedIndicator
| mal_repeated_after_none pre l mid bad post :
    Forall plain_before pre -> opens_none l -> Forall plain_after mid -> starts (str "Errors:") bad ->
    doc_malformed (pre ++ l :: mid ++ bad :: post) DocRepeatedIndicator.

(** The lines of a doc string, without surrounding white space. *)
Definition doc_lines (doc : gostring) : list gostring := map trim_space (split_on 10 doc).
