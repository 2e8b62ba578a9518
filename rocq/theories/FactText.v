(** * The texts of the facts (analyse.go 59-69, interfaces_collect.go 28-35, tag_error_types.go 33-40,
    set_operations.go 10-12). *)
From Coq Require Import Ascii String Decimal.
From stdpp Require Import base list gmap.
From Verif Require Import GoString ErrorCode CodeSet GoAst.
Local Open Scope N_scope.

(** fmt's %d of an int that is not negative: the decimal digits. *)
Fixpoint digits (u : Decimal.uint) : gostring :=
  match u with
  | Nil => []
  | D0 u => 48 :: digits u | D1 u => 49 :: digits u | D2 u => 50 :: digits u | D3 u => 51 :: digits u | D4 u => 52 :: digits u
  | D5 u => 53 :: digits u | D6 u => 54 :: digits u | D7 u => 55 :: digits u | D8 u => 56 :: digits u | D9 u => 57 :: digits u
  end.
Definition decimal (n : nat) : gostring := digits (Nat.to_uint n).

(** analyse.go 59-63, ErrorCodes.String; [o] is the iteration order over the codes. *)
Definition text_of_codes (o : list gostring) : gostring := str "ErrorCodes: " ++ join (str " ") (sort_strings (code_slice o)).

(** analyse.go 67-69, ErrorConstructor.String. *)
Definition text_of_constructor (position : nat) : gostring :=
  str "ErrorConstructor: {CodeParamPosition:" ++ decimal position ++ str "}".

(** interfaces_collect.go 28-35, ErrorInterface.String; [o] is the iteration order over the names of the methods. *)
Definition text_of_interface (o : list gostring) : gostring :=
  let methods := foldl (fun methods method => methods ++ [method]) [] o in
  str "ErrorInterface: " ++ join (str " ") (sort_strings methods).

(** tag_error_types.go 38-40, ErrorCodeField.String; fmt's %v of a nil pointer is <nil> (fmt recovers from the panic of the method). *)
Definition text_of_field (f : option (gostring * nat)) : gostring :=
  match f with
  | None => str "<nil>"
  | Some (name, position) => str "{Name:" ++ quoted name ++ str ", Position:" ++ decimal position ++ str "}"
  end.
(** tag_error_types.go 33-36, ErrorType.String; [codes] is the slice (CodeSet.Slice() in some order; it is sorted in place, which
    does not change the set). *)
Definition text_of_type (codes : list gostring) (f : option (gostring * nat)) : gostring :=
  str "ErrorType{Field:" ++ text_of_field f ++ str ", Codes:" ++ join (str " ") (sort_strings codes) ++ str "}".

(** set_operations.go 10-12, CodeSet.String: not sorted. *)
Definition text_of_set (o : list gostring) : gostring := str "set[" ++ join (str " ") (code_slice o) ++ str "]".
