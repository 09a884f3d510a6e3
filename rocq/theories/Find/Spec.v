(** Specification vocabulary for the component and name lists. *)
From Coq Require Import String Sorting.Sorted QArith Qcanon Relations.
From stdpp Require Import prelude strings.
From Verif.Names Require Import Spec.
From Verif.Find Require Import Model.

(** Names in strictly increasing byte order; in particular without repetition. *)
Definition sorted (l : list string) : Prop := StronglySorted before l.

(** The names a reactant holds: of a gas phase or solid solution, the elements of the formulas of
    the components present in non-zero amount. *)
Inductive holds : part -> string -> Prop :=
| holds_totals l n : n ∈ l -> holds (Totals l) n
| holds_phases cs formula m n : (formula, m) ∈ cs -> m <> Q2Qc 0 -> n ∈ formula -> holds (Phases cs) n.

(** Two solid-solution components belong together when a chain of solid solutions, each sharing a
    component with the next, connects them. *)
Definition together (s : ssets) (c d : string) : Prop := exists x, x ∈ s /\ c ∈ x.2 /\ d ∈ x.2.
Definition linked (s : ssets) : string -> string -> Prop := clos_refl_trans string (together s).

(** The value paired last with a key. *)
Definition last_for (k : string) (l : list (string * string)) : option string :=
  fold_left (fun acc p => if decide (p.1 = k) then Some p.2 else acc) l None.
