(** * Specification: valid error codes.
    The documented patterns ^[a-zA-Z][a-zA-Z0-9\-]*[a-zA-Z0-9]$ and ^[a-zA-Z]$
    (README, USERGUIDE, analyse.go 182), written without reference to the checking code. *)
From Coq Require Import Ascii String.
From stdpp Require Import base list.
From Verif Require Import GoString.
Local Open Scope N_scope.

Definition letter (c : N) : Prop := 97 <= c <= 122 \/ 65 <= c <= 90.
Definition alnum (c : N) : Prop := letter c \/ 48 <= c <= 57.

Inductive valid_code : gostring -> Prop :=
| valid_single a : letter a -> valid_code [a]
| valid_long a m z :
    letter a -> Forall (fun c => alnum c \/ c = 45) m -> alnum z -> valid_code (a :: m ++ [z]).
