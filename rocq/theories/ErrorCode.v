(** * Error code validity (analyse.go 180-211). *)
From stdpp Require Import base list gmap.
From Verif Require Import GoString.
Local Open Scope N_scope.

(** One rune of the pattern, analyse.go 198:
    `c == '-' || (c >= 'a' && c <= 'z') || (c >= 'A' && c <= 'Z') || (c >= '0' && c <= '9')`. *)
Definition code_rune_ok (c : N) : bool :=
  (c =? 45) || between 97 c 122 || between 65 c 90 || between 48 c 57.

(** analyse.go 183-204, func isErrorCodeValid. *)
Definition isErrorCodeValid (code : gostring) : bool :=
  match code with
  | [] => false                                     (* 184-186 *)
  | c0 :: _ =>
    if (c0 =? 45) || between 48 c0 57 then false    (* 189-191 *)
    else if default 0 (last code) =? 45 then false  (* 192-194: code[len(code)-1]; code is non-empty here *)
    else forallb code_rune_ok (runes code)          (* 197-201 *)
  end.

(** CodeSet (set_operations.go 8): a finite set of strings. *)
Definition codeset := gset gostring.
