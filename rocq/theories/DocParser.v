(** * The documentation parser (find_error_docs.go). *)
From Coq Require Import Ascii String.
From stdpp Require Import base list gmap.
From Verif Require Import GoString ErrorCode.
Local Open Scope N_scope.

Definition newline : N := 10.

(** The errors returned by the state machine, one per fmt.Errorf call. *)
Inductive doc_error :=
| DocNeedBlankLine      (* 92 *)
| DocRepeatedIndicator  (* 101, 144 *)
| DocNoDashDash         (* 105 *)
| DocEmptyCode          (* 109, 114 *)
| DocEmptyParam         (* 122 *)
| DocMultipleParams     (* 124 *)
| DocInvalidCode        (* 132 *)
| DocPanic.             (* not an error value: the run time panic of the slice expression of 111 *)

(** The Go slice expression s[lo:hi], [None] if it panics. *)
Definition go_slice (lo hi : nat) (s : gostring) : option gostring :=
  if (lo <=? hi)%nat && (hi <=? length s)%nat then Some (drop lo (take hi s)) else None.

(** find_error_docs.go 70-75. *)
Inductive doc_state := StateInit | StateNeedBlankLine | StateParsing | StateDone.

(** find_error_docs.go 41-46. *)
Record doc_sm := DocSM {
  sm_seen : codeset;
  sm_state : doc_state;
  sm_noCodesOk : bool;
  sm_param : gostring
}.

Definition set_state (sm : doc_sm) (s : doc_state) : doc_sm :=
  DocSM (sm_seen sm) s (sm_noCodesOk sm) (sm_param sm).

(** find_error_docs.go 77-85, stateInit.step. *)
Definition step_init (sm : doc_sm) (line : gostring) : doc_sm + doc_error :=
  if decide (line = str "Errors:") then inl (set_state sm StateNeedBlankLine)
  else if has_prefix line (str "Errors: none")
       then inl (DocSM (sm_seen sm) StateDone true (sm_param sm))
       else inl sm.

(** find_error_docs.go 87-94, stateNeedBlankLine.step. *)
Definition step_need_blank (sm : doc_sm) (line : gostring) : doc_sm + doc_error :=
  if decide (line = []) then inl (set_state sm StateParsing) else inr DocNeedBlankLine.

(** find_error_docs.go 96-140, stateParsing.step. *)
Definition step_parsing (sm : doc_sm) (line : gostring) : doc_sm + doc_error :=
  if decide (line = []) then inl (set_state sm StateDone)
  else if has_prefix line (str "Errors:") then inr DocRepeatedIndicator
  else if has_prefix line (str "- ") then
    match index_of line (str " --") with
    | None => inr DocNoDashDash
    | Some end_ =>
      if (end_ <? 2)%nat then inr DocEmptyCode
      else
        match go_slice 2 end_ line with   (* line[2:end] *)
        | None => inr DocPanic
        | Some part =>
        let code := trim_space part in
        if decide (code = []) then inr DocEmptyCode
        else if has_prefix code (str "param:") then
          let param := trim_space (drop (length (str "param:")) code) in
          if decide (param = []) then inr DocEmptyParam
          else if decide (sm_param sm = []) then
            inl (DocSM (sm_seen sm) (sm_state sm) (sm_noCodesOk sm) param)
          else inr DocMultipleParams
        else if isErrorCodeValid code
             then inl (DocSM ({[ code ]} ∪ sm_seen sm) (sm_state sm) (sm_noCodesOk sm) (sm_param sm))
             else inr DocInvalidCode
        end
    end
  else inl sm.

(** find_error_docs.go 142-147, stateDone.step. *)
Definition step_done (sm : doc_sm) (line : gostring) : doc_sm + doc_error :=
  if has_prefix line (str "Errors:") then inr DocRepeatedIndicator else inl sm.

(** The dynamic dispatch `sm.state.step(&sm, line)`, find_error_docs.go 61. *)
Definition step (sm : doc_sm) (line : gostring) : doc_sm + doc_error :=
  match sm_state sm with
  | StateInit => step_init sm line
  | StateNeedBlankLine => step_need_blank sm line
  | StateParsing => step_parsing sm line
  | StateDone => step_done sm line
  end.

(** The loop of find_error_docs.go 59-65 over already trimmed lines. *)
Fixpoint run_lines (sm : doc_sm) (lines : list gostring) : doc_sm + doc_error :=
  match lines with
  | [] => inl sm
  | l :: ls => match step sm l with
               | inl sm' => run_lines sm' ls
               | inr e => inr e
               end
  end.

(** find_error_docs.go 54-57. *)
Definition sm_start : doc_sm := DocSM ∅ StateInit false [].

(** The successful result: codes, constructor parameter (empty string: none), "Errors: none". *)
Record doc_result := DocResult {
  dr_codes : codeset;
  dr_param : gostring;
  dr_none : bool
}.

(** find_error_docs.go 53-68, findErrorDocsSM.run. *)
Definition run_docs (doc : gostring) : doc_result + doc_error :=
  match run_lines sm_start (map trim_space (split_on newline doc)) with
  | inl sm => inl (DocResult (sm_seen sm) (sm_param sm) (sm_noCodesOk sm))
  | inr e => inr e
  end.

(** analyse.go 260-265, findErrorDocs.  [comments] is the text of the comment group, [None] if
    there is no doc comment (ast.CommentGroup.Text: CommentText.v). *)
Definition findErrorDocs (comments : option gostring) : doc_result + doc_error :=
  match comments with
  | None => inl (DocResult ∅ [] false)
  | Some doc => run_docs doc
  end.
