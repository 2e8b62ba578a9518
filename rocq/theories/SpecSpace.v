(** * Specification: white space.
    What strings.TrimSpace removes: the code points of unicode.IsSpace, UTF-8 encoded. *)
From stdpp Require Import base list.
From Verif Require Import GoString.
Local Open Scope N_scope.

(** The UTF-8 encodings of the code points with unicode.IsSpace. *)
Definition space_encodings : list gostring :=
  [[9]; [10]; [11]; [12]; [13]; [32]; [194;133]; [194;160]; [225;154;128];
   [226;128;128]; [226;128;129]; [226;128;130]; [226;128;131]; [226;128;132]; [226;128;133];
   [226;128;134]; [226;128;135]; [226;128;136]; [226;128;137]; [226;128;138];
   [226;128;168]; [226;128;169]; [226;128;175]; [226;129;159]; [227;128;128]].

(** A white space string: a concatenation of encoded spaces. *)
Definition white (s : gostring) : Prop := exists l, Forall (.∈ space_encodings) l /\ s = concat l.

Definition starts_with_space (s : gostring) : Prop := exists e s', e ∈ space_encodings /\ s = e ++ s'.
Definition ends_with_space (s : gostring) : Prop := exists e s', e ∈ space_encodings /\ s = s' ++ e.
