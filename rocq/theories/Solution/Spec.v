(** Specification vocabulary for mixtures. *)
From Coq Require Import String QArith Qcanon.
From stdpp Require Import prelude strings gmap.
From Verif.Names Require Import Spec.
From Verif.Solution Require Import Model.
Local Open Scope Qc_scope.

(** Factor-weighted sum of a quantity over the parts of a mixture. *)
Fixpoint weighted (g : sol -> Qc) (parts : list (sol * Qc)) : Qc :=
  match parts with [] => 0 | (s, f) :: parts' => f * g s + weighted g parts' end.

(** The amount listed under a name, 0 if there is none. *)
Fixpoint listed (l : list (string * Qc)) (n : string) : Qc :=
  match l with
  | [] => 0
  | (m, v) :: l' => if decide (m = n) then v + listed l' n else listed l' n
  end.

(** Quantities that add up when solutions are put together. *)
Definition extensive : list (sol -> Qc) := [s_h; s_o; s_cb; s_mw; s_vol; s_alk].
(** Quantities that average, weighted by mass of water. *)
Definition intensive : list (sol -> Qc) :=
  [s_tc; s_ph; s_pe; s_mu; s_ah2o; s_dens; s_visc; s_visc0; s_patm].

(** A sensible mixture: no negative factor, a positive mass of water in every part that is used,
    and something in it. *)
Definition proper (parts : list (sol * Qc)) : Prop :=
  (forall s f, (s, f) ∈ parts -> 0 <= f /\ (f <> 0 -> 0 < s_mw s)) /\
  (exists s f, (s, f) ∈ parts /\ f <> 0).

Definition tidy (s : sol) : Prop := ordered (s_totals s).
