(** * The text of a comment group: go/ast, CommentGroup.Text (Go 1.17), which findErrorDocs calls (analyse.go 264). *)
From Coq Require Import Ascii String.
From stdpp Require Import base list gmap.
From Verif Require Import GoString ErrorCode DocParser.
Local Open Scope N_scope.

(** go/ast, isWhitespace. *)
Definition is_whitespace (b : N) : bool := (b =? 32) || (b =? 9) || (b =? 10) || (b =? 13).
(** go/ast, stripTrailingWhitespace. *)
Fixpoint strip_left (s : gostring) : gostring :=
  match s with b :: s' => if is_whitespace b then strip_left s' else s | [] => [] end.
Definition strip_trailing (s : gostring) : gostring := reverse (strip_left (reverse s)).

(** go/ast, isDirective: "line " or [a-z0-9]+:[a-z0-9]; the comment marker has been removed. *)
Definition lower_digit (b : N) : bool := between 97 b 122 || between 48 b 57.
Definition is_directive (c : gostring) : bool :=
  if has_prefix c (str "line ") then true
  else match index_of c (str ":") with
       | None | Some O => false
       | Some colon =>
         if (length c <=? colon + 1)%nat then false
         else forallb lower_digit (take colon c) && forallb lower_digit (take 1 (drop (colon + 1) c))
       end.

(** go/ast, CommentGroup.Text: the lines of one comment, white space at the end of each removed.  The parser yields comments that start
    with two slashes, or with a slash and an asterisk and end the same way. *)
Definition lines_of_comment (c : gostring) : list gostring :=
  map strip_trailing
    match c with
    | 47 :: 47 :: t =>
      match t with
      | [] => split_on newline t
      | 32 :: t' => split_on newline t'
      | _ => if is_directive t then [] else split_on newline t
      end
    | 47 :: 42 :: t => split_on newline (take (length t - 2) t)
    | _ => split_on newline c (* not produced by the parser *)
    end.
(** The loop that removes blank lines at the start and all but the first of consecutive blank lines; [n] lines of the slice have been
    kept, [last] is the last of them (lines[n-1]), if there is one. *)
Fixpoint keep_lines (last : option gostring) (lines : list gostring) : list gostring :=
  match lines with
  | [] => []
  | line :: rest =>
    if bool_decide (line <> []) || match last with Some l => bool_decide (l <> []) | None => false end
    then line :: keep_lines (Some line) rest
    else keep_lines last rest
  end.
(** go/ast, CommentGroup.Text. *)
Definition comment_text (group : list gostring) : gostring :=
  let lines := keep_lines None (concat (map lines_of_comment group)) in
  join [newline] (lines ++ match last lines with Some l => if decide (l = []) then [] else [[]] | None => [] end).
