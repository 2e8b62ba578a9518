(** * Code sets (set_operations.go) and the mismatch message (analyse.go 434-462).

    A Go map[string]struct{} used as a set is a finite set of strings.  `for value := range set`
    visits the elements in an order the runtime chooses anew for every loop: the order is a
    parameter of every function that contains such a loop, constrained by [order_of]. *)
From Coq Require Import Ascii String.
From stdpp Require Import base list gmap sorting.
From Verif Require Import GoString ErrorCode.

(** The elements of the set in some order, each once (what a range loop over the map visits). *)
Definition order_of (s : codeset) (o : list gostring) : Prop := o ≡ₚ elements s.

(** set_operations.go 40-42, Add; also `set[value] = struct{}{}` (24, 50, 54, 68). *)
Definition code_add (s : codeset) (value : gostring) : codeset := {[ value ]} ∪ s.

(** set_operations.go 21-27, SliceToSet (and 15-17, Set). *)
Definition slice_to_set (slice : list gostring) : codeset := foldl code_add ∅ slice.

(** set_operations.go 31-37, Slice; [o] is the iteration order. *)
Definition code_slice (o : list gostring) : list gostring :=
  foldl (fun slice value => slice ++ [value]) [] o.

(** set_operations.go 46-59, Union; [o1], [o2] are the iteration orders over the two sets. *)
Definition code_union (o1 o2 : list gostring) : codeset :=
  foldl code_add (foldl code_add ∅ o1) o2.

(** set_operations.go 64-72, Difference; [o] is the iteration order over [set]. *)
Definition code_difference (o : list gostring) (subtrahend : codeset) : codeset :=
  foldl (fun diff value => if decide (value ∈ subtrahend) then diff else code_add diff value) ∅ o.

(** The map iteration orders of one call of checkIfErrorCodesMatch: over the found and the claimed codes
    (in Difference), and over the two differences (in Slice). *)
Record match_orders := MatchOrders {
  o_found : list gostring; o_claimed : list gostring;
  o_missing : list gostring; o_unused : list gostring
}.
Definition match_orders_ok (found claimed : codeset) (o : match_orders) : Prop :=
  order_of found (o_found o) /\ order_of claimed (o_claimed o) /\
  order_of (code_difference (o_found o) claimed) (o_missing o) /\
  order_of (code_difference (o_claimed o) found) (o_unused o).

(** fmt's %v of a []string. *)
Definition format_strings (l : list gostring) : gostring := str "[" ++ join (str " ") l ++ str "]".

(** analyse.go 436-454, checkIfErrorCodesMatch. *)
Definition checkIfErrorCodesMatch (o : match_orders) : bool * gostring :=
  let missing := code_slice (o_missing o) in
  let unused := code_slice (o_unused o) in
  let m1 := if decide (missing = []) then []
            else [str "missing codes: " ++ format_strings (sort_strings missing)] in
  let m2 := if decide (unused = []) then []
            else [str "unused codes: " ++ format_strings (sort_strings unused)] in
  (bool_decide (m1 ++ m2 = []), join (str " ") (m1 ++ m2)).

(** analyse.go 457-462, reportIfCodesDoNotMatch: the message reported for the function, if any.
    %q of an identifier is the identifier in double quotes (identifiers consist of letters, digits
    and underscores, which strconv.Quote leaves alone). *)
Definition reportIfCodesDoNotMatch (name : gostring) (o : match_orders) : option gostring :=
  let '(ok, msg) := checkIfErrorCodesMatch o in
  if ok then None
  else Some (str "function """ ++ name ++ str """ has a mismatch of declared and actual error codes: " ++ msg).

(** Some iteration orders.  Every other choice gives the same result: C12_report_order_independent. *)
Definition some_orders (found claimed : codeset) : match_orders :=
  MatchOrders (elements found) (elements claimed)
    (elements (code_difference (elements found) claimed)) (elements (code_difference (elements claimed) found)).
