(** * Specification: writing a declaration block.

    How a user documents codes, following the format of find_error_docs.go 17-40: the inverse of
    the parser, for every layout. *)
From Coq Require Import Ascii String.
From stdpp Require Import base list gmap.
From Verif Require Import GoString SpecSpace SpecCodes SpecDoc DocParser.
Local Open Scope N_scope.

(** White space that can stand inside a line ([white] is any sequence of encoded Unicode spaces). *)
Definition blank_text (w : gostring) : Prop := white w /\ 10 ∉ w.
Definition one_line (s : gostring) : Prop := 10 ∉ s.

(** A name for the constructor parameter: non-empty, without spaces, not starting with '-'. *)
Definition param_name (p : gostring) : Prop :=
  p <> [] /\ one_line p /\ 32 ∉ p /\ ~ starts (str "-") p /\ ~ starts_with_space p /\ ~ ends_with_space p.

Inductive doc_item :=
| ItemText (line : gostring)                                   (* continuation/description line *)
| ItemCode (indent gap code align description : gostring)      (* indent "- " gap code align " --" description *)
| ItemParam (indent gap gap2 name align description : gostring). (* indent "- " gap "param:" gap2 name align " --" description *)

Definition item_ok (i : doc_item) : Prop :=
  match i with
  | ItemText l => one_line l /\ block_line (trim_space l) None
  | ItemCode w1 w2 c w3 d =>
      blank_text w1 /\ blank_text w2 /\ blank_text w3 /\ one_line d /\ valid_code c
  | ItemParam w1 w2 w4 p w3 d =>
      blank_text w1 /\ blank_text w2 /\ blank_text w4 /\ blank_text w3 /\ one_line d /\ param_name p
  end.

Definition write_item (i : doc_item) : gostring :=
  match i with
  | ItemText l => l
  | ItemCode w1 w2 c w3 d => w1 ++ str "- " ++ w2 ++ c ++ w3 ++ str " --" ++ d
  | ItemParam w1 w2 w4 p w3 d => w1 ++ str "- " ++ w2 ++ str "param:" ++ w4 ++ p ++ w3 ++ str " --" ++ d
  end.

Definition item_codes (i : doc_item) : list gostring :=
  match i with ItemCode _ _ c _ _ => [c] | _ => [] end.
Definition item_params (i : doc_item) : list gostring :=
  match i with ItemParam _ _ _ p _ _ => [p] | _ => [] end.

(** The whole doc: [pre] lines of free text, the indicator, a blank line, the items, and
    either the end of the doc or a blank line and more free text. *)
Definition write_doc (pre : list gostring) (w w' blank : gostring) (items : list doc_item)
    (post : list gostring) : gostring :=
  join [10] (pre ++ (w ++ str "Errors:" ++ w') :: blank :: map write_item items ++ post).

Definition post_ok (post : list gostring) : Prop :=
  post = [] \/ exists b post', post = b :: post' /\ blank_text b /\
                 Forall (fun l => one_line l /\ plain_after (trim_space l)) post'.

(** Two blocks with the same items (text between "- " and " --", up to surrounding white space)
    in the same order; other text lines and descriptions differ arbitrarily. *)
Inductive same_items : list gostring -> list gostring -> Prop :=
| si_nil : same_items [] []
| si_skip_l l a b : block_line l None -> same_items a b -> same_items (l :: a) b
| si_skip_r l a b : block_line l None -> same_items a b -> same_items a (l :: b)
| si_item l l' x x' a b : item_text l x -> item_text l' x' -> trim_space x = trim_space x' ->
    same_items a b -> same_items (l :: a) (l' :: b).
