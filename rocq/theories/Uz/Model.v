(** Moving reactants between the saturated and the unsaturated part of a cell.

    Source: src/PhreeqcRM.cpp 7542-7692 (PartitionUZ), 9894-9899 (RunCells), 10208-10232
    (RunCellsThread).  Arithmetic is exact (Qc). *)
From Coq Require Import String QArith Qcanon.
From stdpp Require Import prelude strings gmap.
From Verif.Base Require Import Result.
From Verif.Names Require Import Model.
From Verif.Solution Require Import Model.
From Verif.Reactant Require Import Model.
Local Open Scope Qc_scope.

(** The reactants of a worker (or of its uz_bin) that PartitionUZ looks at, by cell number. *)
Record store := Store {
  st_ex : gmap Z exch; st_pp : gmap Z pp; st_gas : gmap Z gas;
  st_ss : gmap Z ssas; st_kin : gmap Z kin; st_surf : gmap Z surf }.

Definition tol8 : Qc := Q2Qc (1 # 100000000).     (* 1e-8 *)
Definition dry6 : Qc := Q2Qc (1 # 1000000).       (* 1e-6 *)
Definition Qc_abs (x : Qc) : Qc := if Qc_ltb x 0 then - x else x.
Definition Qc_leb (x y : Qc) : bool := negb (Qc_ltb y x).

(** Lines 7565-7596: the shares (s1, s2, uz1, uz2). *)
Definition shares (old new : Qc) : Qc * Qc * Qc * Qc :=
  if Qc_leb 1 new then (1, 1, 0, 0)
  else if Qc_leb new dry6 then (0, 0, 1, 1)
  else if Qc_ltb old new then
    let uz2 := (1 - new) / (1 - old) in (1, 1 - uz2, 0, uz2)
  else
    let s1 := new / old in (s1, 0, 1 - s1, 1).

(** Lines 7597-7601: szmix and uzmix; cxxMix::Add into an empty map. *)
Definition two_mix (a b : Qc) : mixmap := mix_add 1%Z b (mix_add 0%Z a []).

(** One of the six blocks, e.g. 7611-7620: only if the saturated part has the reactant.  The
    temporary bin holds it as number 0 and, if it exists, the unsaturated one as number 1
    (Set_X(n, NULL) stores nothing, StorageBin.cxx 449-761). *)
Definition temp_bin {A} (a : A) (b : option A) : gmap Z A :=
  match b with Some b => <[1%Z := b]> (<[0%Z := a]> ∅) | None => <[0%Z := a]> ∅ end.
Definition part_one {A} (mixf : gmap Z A -> mixmap -> A) (szmix uzmix : mixmap) (n : Z)
    (w u : gmap Z A) : gmap Z A * gmap Z A :=
  match w !! n with
  | None => (w, u)
  | Some a =>
      let t := temp_bin a (u !! n) in
      (<[n := mixf t szmix]> w, <[n := mixf t uzmix]> u)
  end.

(** cxxStorageBin::Remove, restricted to the six types *)
Definition store_remove (n : Z) (u : store) : store :=
  Store (delete n (st_ex u)) (delete n (st_pp u)) (delete n (st_gas u)) (delete n (st_ss u))
        (delete n (st_kin u)) (delete n (st_surf u)).

(** The six blocks and the removal, 7606-7686.  Put_cell_in_storage_bin and
    Get_cell_from_storage_bin copy the reactants of cell [n] to and from the worker. *)
Definition repartition (n : Z) (old new : Qc) (w u : store) : store * store :=
  let '(s1, s2, uz1, uz2) := shares old new in
  let szmix := two_mix s1 s2 in
  let uzmix := two_mix uz1 uz2 in
  let ex := part_one exch_mix szmix uzmix n (st_ex w) (st_ex u) in
  let ppa := part_one pp_mix szmix uzmix n (st_pp w) (st_pp u) in
  let g := part_one gas_mix szmix uzmix n (st_gas w) (st_gas u) in
  let s := part_one ssas_mix szmix uzmix n (st_ss w) (st_ss u) in
  let k := part_one kin_mix szmix uzmix n (st_kin w) (st_kin u) in
  let su := part_one surf_mix szmix uzmix n (st_surf w) (st_surf u) in
  let u' := Store ex.2 ppa.2 g.2 s.2 k.2 su.2 in
  (Store ex.1 ppa.1 g.1 s.1 k.1 su.1,
   if Qc_leb 1 new then store_remove n u' else u').

(** PhreeqcRM::PartitionUZ(n, iphrq, ihst, new_frac), 7542-7692, for one worker; [old] is
    old_saturation_root. *)
Definition partition_uz (iphrq : Z) (ihst : nat) (new : Qc) (w u : store) (old : list Qc)
  : outcome (store * store * list Qc) :=
  match old !! ihst with
  | None => UB
  | Some o =>
      if Qc_ltb (Qc_abs (o - new)) tol8 then Ret (w, u, old)
      else let '(w', u') := repartition iphrq o new w u in Ret (w', u', <[ihst := new]> old)
  end.

(** RunCellsThread 10218-10231: the cells first..last of the worker in turn; [rep i] is
    backward_mapping[i][0], [sat] is saturation_root. *)
Fixpoint partition_cells (rep : Z -> nat) (sat : list Qc) (cells : list Z) (w u : store)
    (old : list Qc) : outcome (store * store * list Qc) :=
  match cells with
  | [] => Ret (w, u, old)
  | i :: cells' =>
      match sat !! rep i with
      | None => UB
      | Some x =>
          obind (partition_uz i (rep i) x w u old)
            (fun r => partition_cells rep sat cells' r.1.1 r.1.2 r.2)
      end
  end.

(** A RunCells call without the reactions: partition, then 9896-9899
    [old_saturation_root = saturation_root]. *)
Definition partition_run (rep : Z -> nat) (cells : list Z) (sat : list Qc) (w u : store)
    (old : list Qc) : outcome (store * store * list Qc) :=
  obind (partition_cells rep sat cells w u old) (fun r => Ret (r.1.1, r.1.2, sat)).

(** A sequence of such calls, the saturations being set before each. *)
Fixpoint partition_runs (rep : Z -> nat) (cells : list Z) (sats : list (list Qc)) (w u : store)
    (old : list Qc) : outcome (store * store * list Qc) :=
  match sats with
  | [] => Ret (w, u, old)
  | sat :: sats' =>
      obind (partition_run rep cells sat w u old)
        (fun r => partition_runs rep cells sats' r.1.1 r.1.2 r.2)
  end.

(** SetPartitionUZSolids, 11919-11924: old_saturation_root gets 1 for the cells it lacks. *)
Definition set_partition (tf : bool) (nxyz : nat) (old : list Qc) : list Qc :=
  if tf then take nxyz old ++ replicate (nxyz - length old) 1 else old.
