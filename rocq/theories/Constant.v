(** * Constant error codes (extract_error_code.go 175-196). *)
From Coq Require Import Ascii String.
From stdpp Require Import base list gmap.
From Verif Require Import GoString ErrorCode.
Local Open Scope N_scope.

(** go/constant.Value: a string, or a constant of another kind. *)
Inductive constval := CString (s : gostring) | COther.

(** The number of runes strconv.Quote writes for one rune [r] of width [w] (strconv.appendEscapedRune):
    a double quote and a backslash get a backslash; printable runes are copied; the control characters
    \a \b \t \n \v \f \r are written with two runes; other control characters and invalid bytes as \xHH;
    the rest as \uHHHH or \UHHHHHHHH.  [is_print] is strconv.IsPrint for runes outside ASCII. *)
Definition quoted_width (is_print : N -> bool) (r : N) (w : nat) : nat :=
  if (r =? rune_error) && (w =? 1)%nat then 4%nat
  else if (r =? 34) || (r =? 92) then 2%nat
  else if (if r <? 128 then between 32 r 126 else is_print r) then 1%nat
  else if between 7 r 13 then 2%nat
  else if (r <? 32) || (r =? 127) then 4%nat
  else if r <? 65536 then 6%nat else 10%nat.

(** utf8.RuneCountInString of the text between the quotes of strconv.Quote(s); [skip] as in [runes_from]. *)
Fixpoint quoted_runes_from (is_print : N -> bool) (skip : nat) (s : gostring) : nat :=
  match s with
  | [] => 0%nat
  | _ :: s' =>
    match skip with
    | S k => quoted_runes_from is_print k s'
    | O => let '(r, w) := decode_rune s in
           (quoted_width is_print r w + quoted_runes_from is_print (w - 1)%nat s')%nat
    end
  end.

(** go/constant, stringVal.String: strconv.Quote(s), cut to 69 runes followed by "..." if it has more
    than 72 runes.  The model keeps apart only what the caller can observe through strconv.Unquote:
    [None] for a cut string (it does not end in a quote, so Unquote fails), and otherwise the string
    itself (Unquote inverts Quote, see package strconv). *)
Definition unquote_of_String (is_print : N -> bool) (s : gostring) : option gostring :=
  if (72 <? 2 + quoted_runes_from is_print 0 s)%nat then None else Some s.

(** extract_error_code.go 175-196, getErrorCodeFromConstant: the code, or the text of the error. *)
Definition getErrorCodeFromConstant (is_print : N -> bool) (value : constval) : gostring + gostring :=
  match value with
  | COther => inr (str "error code has to be of type string")                        (* 176-181 *)
  | CString s =>
    match unquote_of_String is_print s with
    | None => inr (str "problem unquoting string constant value: invalid syntax")   (* 183-187 *)
    | Some result =>
      if decide (result = []) then inl result                                          (* 189, 195 *)
      else if isErrorCodeValid result then inl result
      else inr (str "error code has invalid format: should match [a-zA-Z][a-zA-Z0-9\-]*[a-zA-Z0-9]")  (* 190-192 *)
    end
  end.
