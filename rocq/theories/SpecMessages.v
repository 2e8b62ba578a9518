(** * Specification: the texts of the reports about malformed documentations and annotations. *)
From Coq Require Import Ascii String.
From stdpp Require Import base list.
From Verif Require Import GoString DocParser Annotation.

(** What is wrong with the documentation of a function, or of a method in an interface (C03). *)
Definition doc_error_text (e : doc_error) : gostring :=
  match e with
  | DocNeedBlankLine => str "need a blank line after the 'Errors:' block indicator"
  | DocRepeatedIndicator => str "repeated 'Errors:' block indicator"
  | DocNoDashDash => str "mid block, a line leading with '- ' didnt contain a '--' to mark the end of the code name"
  | DocEmptyCode => str "an error code can't be purely whitespace"
  | DocEmptyParam => str "an error code parameter can't be purely whitespace"
  | DocMultipleParams => str "cannot define more than one error code parameter (found multiple 'param:' inidicators)"
  | DocInvalidCode => str "declared error code has invalid format: should match [a-zA-Z][a-zA-Z0-9\-]*[a-zA-Z0-9]"
  | DocPanic => []   (* never: C03_no_panic *)
  end.
(** What is wrong with the annotation of a return statement (C09). *)
Definition annotation_error_text (d : annotation_diag) : gostring :=
  match d with
  | AnnExpectedOperator => str "error in annotation: expected '=', '+=', '-=', '+code', or '-code' after 'Error Codes' indicator"
  | AnnMultiple => str "found multiple annotations for the same return statement: only one is allowed"
  | AnnInvalidCode => str "invalid error code in annotation: should match [a-zA-Z][a-zA-Z0-9\-]*[a-zA-Z0-9]"
  | AnnMissingSign => str "invalid error code in annotation: code has to start with '+' or '-'"
  end.
