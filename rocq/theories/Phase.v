(** * Code that reports diagnostics and may panic, outside of the inter-procedural engine. *)
From stdpp Require Import base list gmap.
From Verif Require Import GoString ErrorCode Scc Engine GoAst.

(** The result and the diagnostics reported, in order. *)
Definition phase (A : Type) : Type := outcome (A * list diag).
Definition pret {A} (a : A) : phase A := Ok (a, []).
Definition ptell (at_ : nid) (msg : gostring) : phase unit := Ok (tt, [Diag at_ msg]).
Definition ppanic {A} : phase A := Panicked.
Definition pbind {A B} (m : phase A) (k : A -> phase B) : phase B :=
  match m with
  | Ok (a, d1) => match k a with
                  | Ok (b, d2) => Ok (b, d1 ++ d2)
                  | Panicked => Panicked
                  | OutOfFuel => OutOfFuel
                  end
  | Panicked => Panicked
  | OutOfFuel => OutOfFuel
  end.
Notation "'let*' x := m 'in' k" := (pbind m (fun x => k)) (at level 200, x pattern, right associativity).

(** for _, a := range l { s = f(s, a) } *)
Fixpoint pfold {A S} (f : S -> A -> phase S) (s : S) (l : list A) : phase S :=
  match l with
  | [] => pret s
  | a :: l' => let* s' := f s a in pfold f s' l'
  end.
(** for _, a := range l { f(a) } *)
Definition peach {A} (f : A -> phase unit) (l : list A) : phase unit := pfold (fun _ a => f a) tt l.

(** The execution of an effect that calls no functions. *)
Fixpoint eff_result (e : eff diag) : phase codeset :=
  match e with
  | EffSet s => pret s
  | EffUnion a b => let* s := eff_result a in let* t := eff_result b in pret (s ∪ t)
  | EffDiff a s => let* t := eff_result a in pret (t ∖ s)
  | EffReport d => Ok (∅, [d])
  | EffCallEdge _ | EffCallDirect _ => Panicked (* not used *)
  | EffPanic => Panicked
  end.
