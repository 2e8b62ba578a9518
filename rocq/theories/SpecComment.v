(** * Specification: the lines of a doc comment.

    What is written in a group of comments, whatever their style.  A doc comment consists of comments of the two Go styles; directives
    such as //go:generate are not part of it. *)
From Coq Require Import Ascii String.
From stdpp Require Import base list gmap.
From Verif Require Import GoString SpecSpace SpecCodes SpecDoc SpecDocFormat DocParser.
Local Open Scope N_scope.

(** "line ..." or "word:x...", directly after the two slashes. *)
Definition word_char (b : N) : Prop := 97 <= b <= 122 \/ 48 <= b <= 57.
Definition directive (t : gostring) : Prop :=
  starts (str "line ") t \/
  exists w x rest, t = w ++ str ":" ++ x :: rest /\ w <> [] /\ Forall word_char w /\ word_char x.

(** What a comment says. *)
Inductive comment_says : gostring -> list gostring -> Prop :=
| says_line t : one_line t -> ~ directive t -> comment_says (str "//" ++ t) [t]
| says_directive t : directive t -> comment_says (str "//" ++ t) []
| says_block ls : ls <> [] -> Forall one_line ls -> comment_says (str "/*" ++ join [10] ls ++ str "*/") ls.

(** A line that looks empty (tabs, spaces, carriage returns). *)
Definition empty_looking (l : gostring) : Prop := Forall (fun b => b = 32 \/ b = 9 \/ b = 13) l.

(** The doc as the declaration format sees it: white space around lines does not count, nor do empty lines at the start, and consecutive
    empty lines count as one.  ([b]: at the start or after an empty line.) *)
Inductive tidied : bool -> list gostring -> list gostring -> Prop :=
| td_nil b : tidied b [] []
| td_text b l ls ls' : ~ empty_looking l -> tidied false ls ls' -> tidied b (l :: ls) (trim_space l :: ls')
| td_empty l ls ls' : empty_looking l -> tidied true ls ls' -> tidied false (l :: ls) ([] :: ls')
| td_more l ls ls' : empty_looking l -> tidied true ls ls' -> tidied true (l :: ls) ls'.

(** The comments say these lines. *)
Definition doc_says (group : list gostring) (ls : list gostring) : Prop :=
  exists parts, Forall2 comment_says group parts /\ tidied true (concat parts) ls.
