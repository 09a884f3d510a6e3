(** Specification of CreateMapping in terms of the array alone. *)
From stdpp Require Import prelude.
Local Open Scope Z_scope.

(** The documented well-formedness: one entry per grid cell, the non-negative
    entries are exactly 0..count-1 for some count >= 1, at least one cell per
    thread. *)
Definition well_formed_mapping (nxyz nthreads count : Z) (g : list Z) : Prop :=
  Z.of_nat (length g) = nxyz /\ 1 <= count /\ nthreads <= count /\
  (forall k, 0 <= k -> (k ∈ g <-> k < count)).

(** The grid cells of chemistry cell k, in increasing order. *)
Definition cells_of (g : list Z) (k : Z) : list Z :=
  filter (fun i => g !! Z.to_nat i = Some k) (Z.of_nat <$> seq 0 (length g)).

(** Forward mapping: grid cell i is the representative of its chemistry cell
    iff no smaller grid cell has the same number. *)
Definition forward_spec (g : list Z) (i : nat) : option Z :=
  match g !! i with
  | None => None
  | Some k => if decide (k < 0) then Some k
              else if decide (k ∈ take i g) then Some (-1) else Some k
  end.
