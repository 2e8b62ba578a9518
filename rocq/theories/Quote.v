(** * The text of string constants: strconv.Quote, strconv.Unquote, go/constant (Go 1.17), as they are used by
    getErrorCodeFromConstant (extract_error_code.go 183).

    Constant.v describes only what getErrorCodeFromConstant can observe of these library functions; here they are modelled, and
    PropQuote.v proves that the description is right. *)
From Coq Require Import Ascii String.
From stdpp Require Import base list gmap.
From Verif Require Import GoString ErrorCode Constant.
Local Open Scope N_scope.

(** utf8.EncodeRune. *)
Definition encode_rune (r : N) : gostring :=
  if r <? 128 then [r]
  else if r <? 2048 then [192 + r / 64; 128 + r mod 64]
  else if (1114111 <? r) || between 55296 r 57343 then [239; 191; 189]
  else if r <? 65536 then [224 + r / 4096; 128 + (r / 64) mod 64; 128 + r mod 64]
  else [240 + r / 262144; 128 + (r / 4096) mod 64; 128 + (r / 64) mod 64; 128 + r mod 64].

(** strconv: lowerhex; the last [k] hexadecimal digits of [r]. *)
Definition hex_digit (n : N) : N := if n <? 10 then 48 + n else 87 + n.
Fixpoint hexes (k : nat) (r : N) : gostring :=
  match k with
  | O => []
  | S k => hexes k (r / 16) ++ [hex_digit (r mod 16)]
  end.

Definition backslash : N := 92.
(** strconv.appendEscapedRune, and the case of an invalid byte [b] in strconv.appendQuotedWith; quote is the double quote. *)
Definition quote_piece (is_print : N -> bool) (b r : N) (w : nat) : gostring :=
  if (r =? rune_error) && (w =? 1)%nat then backslash :: str "x" ++ hexes 2 b
  else if (r =? 34) || (r =? backslash) then [backslash; r]
  else if (if r <? 128 then between 32 r 126 else is_print r) then encode_rune r
  else if r =? 7 then backslash :: str "a"
  else if r =? 8 then backslash :: str "b"
  else if r =? 12 then backslash :: str "f"
  else if r =? 10 then backslash :: str "n"
  else if r =? 13 then backslash :: str "r"
  else if r =? 9 then backslash :: str "t"
  else if r =? 11 then backslash :: str "v"
  else if (r <? 32) || (r =? 127) then backslash :: str "x" ++ hexes 2 r
  else if r <? 65536 then backslash :: str "u" ++ hexes 4 r
  else backslash :: str "U" ++ hexes 8 r.
(** [skip] as in [runes_from]. *)
Fixpoint quote_from (is_print : N -> bool) (skip : nat) (s : gostring) : gostring :=
  match s with
  | [] => []
  | b :: s' =>
    match skip with
    | S k => quote_from is_print k s'
    | O => let '(r, w) := decode_rune s in quote_piece is_print b r w ++ quote_from is_print (w - 1)%nat s'
    end
  end.
(** strconv.Quote. *)
Definition quote (is_print : N -> bool) (s : gostring) : gostring := 34 :: quote_from is_print 0 s ++ [34].

(** The first [n] runes of a string, go/constant/value.go: the loop of stringVal.String. *)
Fixpoint take_runes (n : nat) (s : gostring) : gostring :=
  match n with
  | O => []
  | S n => let '(_, w) := decode_rune s in take w s ++ take_runes n (drop w s)
  end.
(** go/constant, stringVal.String. *)
Definition constant_text (is_print : N -> bool) (s : gostring) : gostring :=
  let q := quote is_print s in
  if (72 <? length (runes q))%nat then take_runes 69 q ++ str "..." else q.

(** strconv.unhex. *)
Definition unhex (b : N) : option N :=
  if between 48 b 57 then Some (b - 48)
  else if between 97 b 102 then Some (b - 87)
  else if between 65 b 70 then Some (b - 55)
  else None.
(** The loop of strconv.UnquoteChar that reads [n] hexadecimal digits. *)
Fixpoint unhexes (n : nat) (v : N) (s : gostring) : option (N * gostring) :=
  match n with
  | O => Some (v, s)
  | S n => match s with
           | [] => None
           | b :: s' => match unhex b with Some x => unhexes n (v * 16 + x) s' | None => None end
           end
  end.
(** strconv.UnquoteChar with quote the double quote: the rune, whether it is to be encoded, and the rest. *)
Definition unquote_char (s : gostring) : option (N * bool * gostring) :=
  match s with
  | [] => None
  | c :: s1 =>
    if c =? 34 then None
    else if 128 <=? c then let '(r, w) := decode_rune s in Some (r, true, drop w s)
    else if negb (c =? backslash) then Some (c, false, s1)
    else match s1 with
    | [] => None
    | c :: s2 =>
      if c =? 97 then Some (7, false, s2)
      else if c =? 98 then Some (8, false, s2)
      else if c =? 102 then Some (12, false, s2)
      else if c =? 110 then Some (10, false, s2)
      else if c =? 114 then Some (13, false, s2)
      else if c =? 116 then Some (9, false, s2)
      else if c =? 118 then Some (11, false, s2)
      else if c =? 120 then
        match unhexes 2 0 s2 with Some (v, s3) => Some (v, false, s3) | None => None end
      else if c =? 117 then
        match unhexes 4 0 s2 with Some (v, s3) => if 1114111 <? v then None else Some (v, true, s3) | None => None end
      else if c =? 85 then
        match unhexes 8 0 s2 with Some (v, s3) => if 1114111 <? v then None else Some (v, true, s3) | None => None end
      else if between 48 c 55 then
        match s2 with
        | d :: e :: s3 =>
          if between 48 d 55 && between 48 e 55 then
            let v := ((c - 48) * 8 + (d - 48)) * 8 + (e - 48) in
            if 255 <? v then None else Some (v, false, s3)
          else None
        | _ => None
        end
      else if c =? backslash then Some (backslash, false, s2)
      else if c =? 34 then Some (34, false, s2)
      else None
    end
  end.
(** The loop of strconv.unquote: the text up to the closing quote, and what follows it. *)
Fixpoint unquote_loop (fuel : nat) (s : gostring) : option (gostring * gostring) :=
  match fuel with
  | O => None (* not reached: every step shortens the string *)
  | S n =>
    match s with
    | [] => None                                    (* no terminating quote *)
    | c :: rest =>
      if c =? 34 then Some ([], rest)
      else if c =? 10 then None
      else match unquote_char s with
           | None => None
           | Some (r, multibyte, s') =>
             match unquote_loop n s' with
             | Some (t, rest) => Some ((if (r <? 128) || negb multibyte then [r] else encode_rune r) ++ t, rest)
             | None => None
             end
           end
    end
  end.
(** utf8.ValidString. *)
Fixpoint valid_utf8_from (skip : nat) (s : gostring) : bool :=
  match s with
  | [] => true
  | _ :: s' =>
    match skip with
    | S k => valid_utf8_from k s'
    | O => let '(r, w) := decode_rune s in
           negb ((r =? rune_error) && (w =? 1)%nat) && valid_utf8_from (w - 1)%nat s'
    end
  end.
Definition valid_utf8 (s : gostring) : bool := valid_utf8_from 0 s.
(** The text before the first double quote, and what follows it. *)
Fixpoint upto_quote (s : gostring) : option (gostring * gostring) :=
  match s with
  | [] => None
  | c :: s' => if c =? 34 then Some ([], s')
               else match upto_quote s' with Some (t, rest) => Some (c :: t, rest) | None => None end
  end.
(** strconv.Unquote, for a string that starts with a double quote. *)
Definition unquote (s : gostring) : option gostring :=
  match s with
  | c :: s1 =>
    if negb (c =? 34) then None (* another kind of literal: not reached *)
    else match upto_quote s1 with
    | None => None
    | Some (t, rest) =>
      let r := if bool_decide (backslash ∉ t) && bool_decide (10 ∉ t) && valid_utf8 t then Some (t, rest)
               else unquote_loop (S (length s1)) s1 in
      match r with
      | Some (t, []) => Some t
      | _ => None
      end
    end
  | [] => None
  end.
