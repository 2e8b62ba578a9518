(** * Go strings and the parts of the Go standard library the analyzer uses on them.

    A Go string is a sequence of bytes; it is modelled as a [list N] whose elements are the byte
    values.  (Values >= 256 cannot occur in Go; the definitions treat them like invalid bytes.)
    The functions below model the Go standard library (strings, unicode/utf8, sort), which
    /repo/analysis calls; each comment names the call sites. *)
From Coq Require Import Ascii String.
From stdpp Require Import base list sorting gmap.
Local Open Scope N_scope.

Definition gostring := list N.

(** String literals of the Go source. *)
Definition str (s : string) : gostring :=
  map N_of_ascii (list_ascii_of_string s).

(** ** unicode/utf8 *)

(** utf8.RuneError, U+FFFD. *)
Definition rune_error : N := 65533.

Definition between (lo b hi : N) : bool := (lo <=? b) && (b <=? hi).

(** utf8.DecodeRuneInString: the rune at the start of the string and its width in bytes;
    [(RuneError, 1)] for an invalid or truncated sequence, [(RuneError, 0)] for the empty string.
    Used by `for _, c := range code` (analyse.go 197) and by strings.TrimSpace. *)
Definition decode_rune (s : gostring) : N * nat :=
  match s with
  | [] => (rune_error, 0%nat)
  | b0 :: s1 =>
    if b0 <? 128 then (b0, 1%nat)
    else if between 194 b0 223 then
      match s1 with
      | b1 :: _ =>
        if between 128 b1 191 then ((b0 - 192) * 64 + (b1 - 128), 2%nat) else (rune_error, 1%nat)
      | _ => (rune_error, 1%nat)
      end
    else if between 224 b0 239 then
      match s1 with
      | b1 :: b2 :: _ =>
        let lo := if b0 =? 224 then 160 else 128 in
        let hi := if b0 =? 237 then 159 else 191 in
        if between lo b1 hi && between 128 b2 191
        then ((b0 - 224) * 4096 + (b1 - 128) * 64 + (b2 - 128), 3%nat)
        else (rune_error, 1%nat)
      | _ => (rune_error, 1%nat)
      end
    else if between 240 b0 244 then
      match s1 with
      | b1 :: b2 :: b3 :: _ =>
        let lo := if b0 =? 240 then 144 else 128 in
        let hi := if b0 =? 244 then 143 else 191 in
        if between lo b1 hi && between 128 b2 191 && between 128 b3 191
        then ((b0 - 240) * 262144 + (b1 - 128) * 4096 + (b2 - 128) * 64 + (b3 - 128), 4%nat)
        else (rune_error, 1%nat)
      | _ => (rune_error, 1%nat)
      end
    else (rune_error, 1%nat)
  end.

(** The runes a `for _, c := range s` loop sees (analyse.go 197).
    [skip] counts the remaining bytes of the rune just yielded. *)
Fixpoint runes_from (skip : nat) (s : gostring) : list N :=
  match s with
  | [] => []
  | _ :: s' =>
    match skip with
    | S k => runes_from k s'
    | O => let '(r, w) := decode_rune s in r :: runes_from (w - 1)%nat s'
    end
  end.
Definition runes (s : gostring) : list N := runes_from 0 s.

(** utf8.RuneStart. *)
Definition rune_start (b : N) : bool := negb (between 128 b 191).

(** utf8.DecodeLastRuneInString, on the reversed string [rs].
    The loop of the Go code looks for the nearest rune start within the last four bytes, decodes
    there and accepts the result only if it ends exactly at the end of the string. *)
Definition decode_last_rune (rs : gostring) : N * nat :=
  match rs with
  | [] => (rune_error, 0%nat)
  | b0 :: r1 =>
    if b0 <? 128 then (b0, 1%nat) else
    match r1 with
    | [] => (rune_error, 1%nat)
    | b1 :: r2 =>
      if rune_start b1 then
        let '(r, w) := decode_rune [b1; b0] in
        if (w =? 2)%nat then (r, w) else (rune_error, 1%nat)
      else match r2 with
      | [] => (rune_error, 1%nat)
      | b2 :: r3 =>
        if rune_start b2 then
          let '(r, w) := decode_rune [b2; b1; b0] in
          if (w =? 3)%nat then (r, w) else (rune_error, 1%nat)
        else match r3 with
        | [] => (rune_error, 1%nat)
        | b3 :: _ =>
          if rune_start b3 then
            let '(r, w) := decode_rune [b3; b2; b1; b0] in
            if (w =? 4)%nat then (r, w) else (rune_error, 1%nat)
          else (rune_error, 1%nat)
        end
      end
    end
  end.

(** unicode.IsSpace. *)
Definition is_space (r : N) : bool :=
  between 9 r 13 || (r =? 32) || (r =? 133) || (r =? 160) || (r =? 5760)
  || between 8192 r 8202 || (r =? 8232) || (r =? 8233) || (r =? 8239) || (r =? 8287)
  || (r =? 12288).

(** ** strings *)

(** strings.TrimLeftFunc(s, unicode.IsSpace); [skip] as in [runes_from]. *)
Fixpoint trim_left_from (skip : nat) (s : gostring) : gostring :=
  match s with
  | [] => []
  | _ :: s' =>
    match skip with
    | S k => trim_left_from k s'
    | O => let '(r, w) := decode_rune s in
           if is_space r then trim_left_from (w - 1)%nat s' else s
    end
  end.
Definition trim_left (s : gostring) : gostring := trim_left_from 0 s.

(** strings.TrimRightFunc(s, unicode.IsSpace) on the reversed string: drops the last rune while
    it is a space. *)
Fixpoint trim_right_rev (skip : nat) (rs : gostring) : gostring :=
  match rs with
  | [] => []
  | _ :: rs' =>
    match skip with
    | S k => trim_right_rev k rs'
    | O => let '(r, w) := decode_last_rune rs in
           if is_space r then trim_right_rev (w - 1)%nat rs' else rs
    end
  end.
Definition trim_right (s : gostring) : gostring := rev (trim_right_rev 0 (rev s)).

(** strings.TrimSpace (find_error_docs.go 60, 112, 119; annotation.go 52, 59, 103, 108, 124).
    The ASCII fast path of the Go implementation computes the same function. *)
Definition trim_space (s : gostring) : gostring := trim_right (trim_left s).

(** strings.Split(s, sep) for a one-byte separator (find_error_docs.go 59; annotation.go 51,
    107, 123).  Always returns at least one segment. *)
Fixpoint split_on (sep : N) (s : gostring) : list gostring :=
  match s with
  | [] => [[]]
  | b :: s' =>
    if b =? sep then [] :: split_on sep s'
    else match split_on sep s' with
         | seg :: segs => (b :: seg) :: segs
         | [] => [[b]] (* unreachable: split_on never returns [] *)
         end
  end.

(** strings.HasPrefix (find_error_docs.go 80, 100, 102, 117, 143; annotation.go 53). *)
Fixpoint has_prefix (s p : gostring) {struct p} : bool :=
  match p, s with
  | [], _ => true
  | c :: p', b :: s' => (b =? c) && has_prefix s' p'
  | _ :: _, [] => false
  end.

(** strings.TrimPrefix (annotation.go 56). *)
Definition trim_prefix (s p : gostring) : gostring :=
  if has_prefix s p then drop (length p) s else s.

(** strings.Index (find_error_docs.go 103); [None] is -1. *)
Fixpoint index_of (s sub : gostring) : option nat :=
  if has_prefix s sub then Some 0%nat
  else match s with
       | [] => None
       | _ :: s' => match index_of s' sub with Some i => Some (S i) | None => None end
       end.

(** strings.Join (annotation.go 49, analyse.go 452). *)
Fixpoint join (sep : gostring) (l : list gostring) : gostring :=
  match l with
  | [] => []
  | [s] => s
  | s :: l' => s ++ sep ++ join sep l'
  end.

(** ** sort.Strings (analyse.go 61, 442, 447; interfaces_verify.go 523) *)

(** Go's string comparison a <= b: bytewise lexicographic. *)
Fixpoint str_leb (a b : gostring) : bool :=
  match a, b with
  | [], _ => true
  | _ :: _, [] => false
  | x :: a', y :: b' => (x <? y) || ((x =? y) && str_leb a' b')
  end.
Definition str_le (a b : gostring) : Prop := str_leb a b = true.
Global Instance str_le_dec : RelDecision str_le.
Proof. intros a b. unfold str_le. apply _. Defined.

(** sort.Strings: any sorting algorithm gives the same list, see [sort_strings_unique] in
    CodeSetProofs.v. *)
Definition sort_strings (l : list gostring) : list gostring := merge_sort str_le l.
