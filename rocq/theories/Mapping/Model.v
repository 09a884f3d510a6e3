(** Grid-to-chemistry mapping: PhreeqcRM::CreateMapping. *)
From stdpp Require Import prelude.
From Verif.Base Require Import Result.
From Verif.Partition Require Import EndCells.
Local Open Scope Z_scope.

(** The members of PhreeqcRM that CreateMapping reads and writes
    (src/PhreeqcRM.h: nxyz, nthreads, count_chemistry, backward_mapping,
    forward_mapping_root, start_cell, end_cell). *)
Record mapping_state := MS {
  nxyz : Z;
  nthreads : Z;
  count_chemistry : Z;
  backward : list (list Z);
  forward : list Z;
  start_cell : list Z;
  end_cell : list Z;
}.

(** src/PhreeqcRM.cpp 1707-1716: count_chemistry = max(0, max entries) + 1. *)
Definition find_count (g : list Z) : Z :=
  foldl (fun c x => if decide (x > c) then x else c) 0 g + 1.

(** src/PhreeqcRM.cpp 1745-1765: the scan that fills both mappings.  [None]:
    "cell out of range" (lines 1748-1751). *)
Fixpoint scan (count : Z) (g : list Z) (i : Z) (bwd : list (list Z)) : option (list (list Z)) :=
  match g with
  | [] => Some bwd
  | n :: r =>
      if decide (n >= count) then None
      else scan count r (i + 1)
             (if decide (n >= 0) then alter (fun l => l ++ [i]) (Z.to_nat n) bwd else bwd)
  end.

(** src/PhreeqcRM.cpp 1768-1779: all but the first grid cell of each chemistry
    cell get forward mapping -1. *)
Definition blank_duplicates (bwd : list (list Z)) (fwd : list Z) : list Z :=
  foldl (fun f l => foldl (fun f n => <[Z.to_nat n := -1]> f) f (tail l)) fwd bwd.

(** src/PhreeqcRM.cpp 1677-1801.  Every exception inside the try block ends in
    IRM_FAIL (line 1797); whatever was assigned before stays assigned. *)
Definition create_mapping (s : mapping_state) (g : list Z) : mapping_state * irm_result :=
  if decide (Z.of_nat (length g) <> nxyz s) then (s, IRM_FAIL)           (* 1686-1689 *)
  else
    let count := find_count g in
    let s1 := MS (nxyz s) (nthreads s) count [] [] (start_cell s) (end_cell s) in
    if decide (nthreads s > count) then (s1, IRM_FAIL)                    (* 1730-1736 *)
    else
      let bwd0 := replicate (Z.to_nat count) [] in                        (* 1740-1744 *)
      match scan count g 0 bwd0 with
      | None => (s1, IRM_FAIL)   (* not reached: see Proofs, [scan_total] *)
      | Some bwd =>
          let fwd := blank_duplicates bwd g in
          let s2 := MS (nxyz s) (nthreads s) count bwd fwd (start_cell s) (end_cell s) in
          if decide (Exists (fun l => l = []) bwd) then (s2, IRM_FAIL)    (* 1781-1792 *)
          else
            match set_end_cells count (nthreads s) with
            | Ret (ss, es) =>
                (MS (nxyz s) (nthreads s) count bwd fwd ss es, IRM_OK)
            | _ => (s2, IRM_FAIL)   (* nthreads = 0 only; excluded by construction *)
            end
      end.

(** Construction with one-to-one mapping: src/PhreeqcRM.cpp 297-300 (thread
    clipping), 335-360 (mapping), SetEndCells.  [requested]: thread argument,
    [nproc]: processors found. *)
Definition construct (nx requested nproc : Z) : outcome mapping_state :=
  let t := if decide (requested > 0) then requested else nproc in
  let nt := if decide (t < nx) then t else nx in
  let ids := Z.of_nat <$> seq 0 (Z.to_nat nx) in
  match set_end_cells nx nt with
  | Ret (ss, es) => Ret (MS nx nt nx ((fun i => [i]) <$> ids) ids ss es)
  | _ => UB
  end.
