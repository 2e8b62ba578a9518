(** * Annotations of return statements (annotation.go). *)
From Coq Require Import Ascii String.
From stdpp Require Import base list gmap.
From Verif Require Import GoString ErrorCode DocParser.
Local Open Scope N_scope.

(** annotation.go 14-19. *)
Record annotation := Annotation {
  an_shouldOverwrite : bool;
  an_overwrite : codeset;
  an_addCodes : codeset;
  an_subCodes : codeset
}.

(** The diagnostics reported for a return statement's annotation. *)
Inductive annotation_diag :=
| AnnExpectedOperator   (* 61, 87 *)
| AnnMultiple           (* 66 *)
| AnnInvalidCode        (* 110, 134 *)
| AnnMissingSign.       (* 130 *)

(** annotation.go 10. *)
Definition annotation_indicator : gostring := str "Error Codes".

Definition comma : N := 44.
Definition space : N := 32.

(** annotation.go 107-114, the loop of extractCodesFromStringAnnotation. *)
Fixpoint extract_codes_loop (result : codeset) (parts : list gostring) : codeset + annotation_diag :=
  match parts with
  | [] => inl result
  | part :: parts' =>
    let code := trim_space part in
    if isErrorCodeValid code then extract_codes_loop ({[ code ]} ∪ result) parts'
    else inr AnnInvalidCode
  end.

(** annotation.go 100-117, extractCodesFromStringAnnotation. *)
Definition extractCodesFromStringAnnotation (ann : gostring) : codeset + annotation_diag :=
  if decide (trim_space ann = []) then inl ∅
  else extract_codes_loop ∅ (split_on comma ann).

(** annotation.go 123-143, the loop of extractCodeModificationsFromStringAnnotation. *)
Fixpoint extract_mods_loop (result : annotation) (parts : list gostring) : annotation + annotation_diag :=
  match parts with
  | [] => inl result
  | part :: parts' =>
    match trim_space part with
    | [] => extract_mods_loop result parts'                     (* 125-127 *)
    | sign :: code =>
      if negb (sign =? 43) && negb (sign =? 45) then inr AnnMissingSign   (* 129-131: '+', '-' *)
      else if isErrorCodeValid code then
        if sign =? 43
        then extract_mods_loop
               (Annotation (an_shouldOverwrite result) (an_overwrite result)
                           ({[ code ]} ∪ an_addCodes result) (an_subCodes result)) parts'
        else extract_mods_loop
               (Annotation (an_shouldOverwrite result) (an_overwrite result)
                           (an_addCodes result) ({[ code ]} ∪ an_subCodes result)) parts'
      else inr AnnInvalidCode
    end
  end.

(** annotation.go 122-146. *)
Definition extractCodeModificationsFromStringAnnotation (result : annotation) (ann : gostring)
  : annotation + annotation_diag :=
  extract_mods_loop result (split_on space ann).

(** annotation.go 68: `&annotationReturnStmt{false, Set(), Set(), Set()}`. *)
Definition empty_annotation : annotation := Annotation false ∅ ∅ ∅.

(** annotation.go 70-88: the switch on line[0] for a non-empty, trimmed line. *)
Definition parse_annotation_line (line : gostring) : annotation + annotation_diag :=
  match line with
  | [] => inr AnnExpectedOperator (* not reached: 60-63 returns before *)
  | c :: rest =>
    if c =? 61 then (* '=' *)
      match extractCodesFromStringAnnotation rest with
      | inl s => inl (Annotation true s ∅ ∅)
      | inr e => inr e
      end
    else if c =? 43 then (* '+' *)
      match rest with
      | c1 :: rest' =>
        if c1 =? 61 then
          match extractCodesFromStringAnnotation rest' with
          | inl s => inl (Annotation false ∅ s ∅)
          | inr e => inr e
          end
        else extractCodeModificationsFromStringAnnotation empty_annotation line
      | [] => extractCodeModificationsFromStringAnnotation empty_annotation line
      end
    else if c =? 45 then (* '-' *)
      match rest with
      | c1 :: rest' =>
        if c1 =? 61 then
          match extractCodesFromStringAnnotation rest' with
          | inl s => inl (Annotation false ∅ ∅ s)
          | inr e => inr e
          end
        else extractCodeModificationsFromStringAnnotation empty_annotation line
      | [] => extractCodeModificationsFromStringAnnotation empty_annotation line
      end
    else inr AnnExpectedOperator
  end.

(** annotation.go 51-94: the loop over the comment lines.  Returns the annotation (nil is [None])
    and the diagnostics reported, in order. *)
Fixpoint annotation_loop (result : option annotation) (lines : list gostring)
  : option annotation * list annotation_diag :=
  match lines with
  | [] => (result, [])
  | l :: lines' =>
    let line := trim_space l in
    if negb (has_prefix line annotation_indicator) then annotation_loop result lines'  (* 53-55 *)
    else
      let line := trim_space (trim_prefix line annotation_indicator) in
      if decide (line = []) then (None, [AnnExpectedOperator])                         (* 60-63 *)
      else
        let multiple := match result with Some _ => [AnnMultiple] | None => [] end in  (* 65-67 *)
        match parse_annotation_line line with
        | inr e => (None, multiple ++ [e])                                             (* 90-93 *)
        | inl a => let '(r, ds) := annotation_loop (Some a) lines' in (r, multiple ++ ds)
        end
  end.

(** annotation.go 35-97, getReturnStmtAnnotations.  [groups] are the texts of the comment groups
    attached to the statement (c.comments[stmt]; CommentMap.v says which these are, CommentText.v what Text returns). *)
Definition getReturnStmtAnnotations (groups : list gostring) : option annotation * list annotation_diag :=
  match groups with
  | [] => (None, [])                                                                   (* 39-41 *)
  | _ => annotation_loop None (split_on newline (join (str (String "010" EmptyString)) groups))
  end.
