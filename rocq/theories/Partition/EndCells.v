(** Distribution of chemistry cells over threads: initial split. *)
From stdpp Require Import prelude.
From Verif.Base Require Import Result.
Local Open Scope Z_scope.

(** SetEndCells: src/PhreeqcRM.cpp 11626-11653 (OpenMP build: ntasks =
    nthreads).  [cells] is the vector of range sizes, lines 11636-11644. *)
Definition end_cells_sizes (count ntasks : Z) : list Z :=
  let n := count / ntasks in
  let extra := count - n * ntasks in
  replicate (Z.to_nat extra) (n + 1) ++ replicate (Z.to_nat (ntasks - extra)) n.

(** Lines 11645-11653: consecutive ranges of the given sizes. *)
Fixpoint ranges_from (cell0 : Z) (cells : list Z) : list Z * list Z :=
  match cells with
  | [] => ([], [])
  | c :: r =>
      let '(ss, es) := ranges_from (cell0 + c) r in
      (cell0 :: ss, cell0 + c - 1 :: es)
  end.

(** Integer division by zero (ntasks = 0) is undefined behaviour. *)
Definition set_end_cells (count ntasks : Z) : outcome (list Z * list Z) :=
  if decide (ntasks = 0) then UB
  else Ret (ranges_from 0 (end_cells_sizes count ntasks)).
