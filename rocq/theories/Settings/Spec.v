(** Specification vocabulary for settings. *)
From Coq Require Import ZArith.
From stdpp Require Import prelude.
From Verif.Settings Require Import Model.

(** The documented options (PhreeqcRM.h): solution units 1 mg/L, 2 mol/L, 3 mass fraction; all
    other units 0 mol per litre of cell, 1 mol per litre of water, 2 mol per litre of rock. *)
Definition documented (k : units) : list Z :=
  match k with USolution => [1; 2; 3]%Z | _ => [0; 1; 2]%Z end.

(** A cell mapping: each chemistry cell has at least one grid cell, all are in range, and no grid
    cell belongs to two. *)
Definition mapping_ok (nxyz : nat) (back : list (list nat)) : Prop :=
  (forall j b, back !! j = Some b -> b <> [] /\ forall i, i ∈ b -> i < nxyz) /\
  (forall j j' b b' i, back !! j = Some b -> back !! j' = Some b' -> i ∈ b -> i ∈ b' -> j = j').
