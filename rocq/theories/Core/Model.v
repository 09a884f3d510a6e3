(** The module as a whole: ranges, worker contents, saved states, reaction step. *)
From stdpp Require Import prelude gmap.
From Verif.Base Require Import Result Arith.
From Verif.Bin Require Import Model.
From Verif.Partition Require Import Rebalance.
From Verif.Core Require Import Move Threads.
Local Open Scope Z_scope.

Section model.
  (** [E]: reactant content, [R]: selected-output row, [D]: saturation values,
      [P]: everything a reaction step reads besides cell contents (times, ...). *)
  Context {E R D P : Type}.
  Notation cellc := (gmap rtype E).

  (** src/IPhreeqcPhast/IPhreeqcPhast.h: class State. *)
  Record saved := Sv { sv_rx : bin E; sv_uz : bin E; sv_ss : list Z; sv_es : list Z }.

  Record module := Mod {
    md_count : Z;                        (* count_chemistry *)
    md_rep : Z -> Z;                     (* backward_mapping[i][0] *)
    md_ss : list Z; md_es : list Z;      (* start_cell, end_cell *)
    md_ws : list (store E);              (* workers[0..nthreads-1] *)
    md_states : list (gmap Z saved);     (* state_map of each worker *)
    md_pz : bool;                        (* partition_uz_solids *)
    md_sat : Z -> D; md_old : Z -> D;    (* saturation_root, old_saturation_root *)
    md_par : P;
    md_rows : list (list (option R));    (* selected output of each worker *)
  }.

  Context (react : P -> Z -> cellc -> bool * cellc * R)
          (part : D -> D -> cellc -> cellc -> cellc * cellc)
          (dry : D -> bool).

  (** What RunCellsThread computes for chemistry cell i (10226-10231, 10333-10344);
      PartitionUZ(n, i, j, sat) with old_saturation_root[j] (7555). *)
  Definition m_part (m : module) (i : Z) : cellc -> cellc -> cellc * cellc :=
    part (md_old m (md_rep m i)) (md_sat m (md_rep m i)).
  Definition m_dry (m : module) (i : Z) : bool := dry (md_sat m (md_rep m i)).

  Definition m_threads (m : module) : list (thread (worker E R)) :=
    start_threads (react (md_par m)) (m_part m) (m_dry m) (md_pz m) (md_ss m) (md_es m) (md_ws m).

  (** src/PhreeqcRM.cpp 9867-9928, the part of RunCells between the checks and the
      caches, for a schedule [sched] of the threads and measured times [tt], [ct];
      [A], [by_cell], [f]: rebalancing method and fraction.
      (CheckCells and the SetIth... staging are modelled in Conc/.) *)
  Definition run_cells (A : arith) (by_cell : bool) (f : num A) (sched : list nat)
      (tt ct : list (num A)) (m : module) : outcome (module * irm_result) :=
    let ts := run_schedule sched (m_threads m) in
    let ws1 := (fun t => wk_st (th_w t)) <$> ts in
    let rows := (fun t => wk_rows (th_w t)) <$> ts in
    let old' := if md_pz m then md_sat m else md_old m in
    let m1 := Mod (md_count m) (md_rep m) (md_ss m) (md_es m) ws1 (md_states m) (md_pz m)
                (md_sat m) old' (md_par m) rows in
    if forallb th_ok ts then
      match rebalance A by_cell f (md_count m) (md_ss m) (md_es m) tt ct with
      | Ret (ss', es') =>
          match move_cells (md_pz m) (md_count m) (md_es m) es' ws1 with
          | Ret ws2 => Ret (Mod (md_count m) (md_rep m) ss' es' ws2 (md_states m) (md_pz m)
                              (md_sat m) old' (md_par m) rows, IRM_OK)
          | Throw => Throw
          | UB => UB
          end
      | Throw => Ret (m1, IRM_FAIL)
      | UB => UB
      end
    else Ret (m1, IRM_FAIL).

  Definition with_ws (m : module) ws : module :=
    Mod (md_count m) (md_rep m) (md_ss m) (md_es m) ws (md_states m) (md_pz m) (md_sat m) (md_old m)
      (md_par m) (md_rows m).
  Definition with_states (m : module) st : module :=
    Mod (md_count m) (md_rep m) (md_ss m) (md_es m) (md_ws m) st (md_pz m) (md_sat m) (md_old m)
      (md_par m) (md_rows m).
  Definition with_env (m : module) sat par : module :=
    Mod (md_count m) (md_rep m) (md_ss m) (md_es m) (md_ws m) (md_states m) (md_pz m) sat (md_old m)
      par (md_rows m).

  (** src/PhreeqcRM.cpp 12751-12778: StateSave.  The bin is filled by
      phreeqc2cxxStorageBin, i.e. under the number each reactant carries. *)
  Definition state_save (k : Z) (m : module) : module * irm_result :=
    (with_states m
       (zip_with (fun w st => <[k := Sv (phreeqc2bin (rx w) ∅) (uz w) (md_ss m) (md_es m)]> st)
          (md_ws m) (md_states m)), IRM_OK).

  (** src/PhreeqcRM.cpp 12779-12821: StateApply.  [UB]: a worker without the state
      (operator[] would insert an empty one and start_cell[i] read out of range). *)
  Fixpoint apply_all (k : Z) (sts : list (gmap Z saved)) : option (list (store E)) :=
    match sts with
    | [] => Some []
    | st :: r =>
        match st !! k, apply_all k r with
        | Some v, Some l => Some (St (sv_rx v) (sv_uz v) :: l)
        | _, _ => None
        end
    end.
  Definition state_apply (k : Z) (m : module) : outcome (module * irm_result) :=
    match md_states m with
    | [] => UB
    | st0 :: _ =>
        match st0 !! k with
        | None => Ret (m, IRM_INVALIDARG)
        | Some v0 =>
            match apply_all k (md_states m) with
            | Some ws =>
                Ret (Mod (md_count m) (md_rep m) (sv_ss v0) (sv_es v0) ws (md_states m) (md_pz m)
                       (md_sat m) (md_old m) (md_par m) (md_rows m), IRM_OK)
            | None => UB
            end
        end
    end.

  (** src/PhreeqcRM.cpp 12822-12847: StateDelete. *)
  Definition state_delete (k : Z) (m : module) : outcome (module * irm_result) :=
    match md_states m with
    | [] => UB
    | st0 :: _ =>
        match st0 !! k with
        | None => Ret (m, IRM_INVALIDARG)
        | Some _ => Ret (with_states m (delete k <$> md_states m), IRM_OK)
        end
    end.

  (** InitialPhreeqc2Module, successful: CellInitialize stores the new reactants
      [new i] of each chemistry cell i in worker 0 (src/PhreeqcRM.cpp 694-696,
      modelled in CellInit/), then the cells are distributed (6366-6389). *)
  Definition init_cell (new : Z -> cellc) (b : bin E) (i : Z) : bin E :=
    foldl (fun b t => match new i !! t with Some x => <[(t, i) := Ent i i x]> b | None => b end)
      b cell_types.
  Definition init_worker0 (new : Z -> cellc) (count : Z) (ws : list (store E)) : list (store E) :=
    match ws with
    | [] => []
    | w :: r => St (foldl (init_cell new) (rx w) (cells_upto count)) (uz w) :: r
    end.
  Definition initial_module (new : Z -> cellc) (m : module) : module :=
    with_ws m (distribute_initial (md_ss m) (md_es m) (init_worker0 new (md_count m) (md_ws m))).
  (** The same when some reactant is missing: ErrorHandler throws at line 6364,
      before the distribution. *)
  Definition initial_module_failed (new : Z -> cellc) (m : module) : module :=
    with_ws m (init_worker0 new (md_count m) (md_ws m)).

  (** Setters that change reactants of one type in place on the owning workers
      (SetConcentrations 11072: soln_ptr->Update; SetTemperature, SetPressure,
      SetGasCompMoles and SetGasPhaseVolume of existing gas phases): for each
      worker n and each i in start_cell[n]..end_cell[n], if the reactant exists. *)
  Definition modify_worker (t : rtype) (g : Z -> E -> E) (se : Z * Z) (w : store E) : store E :=
    St (foldl (fun b i => alter (fun e => Ent (e_n e) (e_end e) (g i (e_body e))) (t, i) b)
          (rx w) (range se.1 se.2)) (uz w).
  Definition modify_cells (t : rtype) (g : Z -> E -> E) (m : module) : module :=
    with_ws m (zip_with (modify_worker t g) (zip (md_ss m) (md_es m)) (md_ws m)).

  (** A second CreateMapping (src/PhreeqcRM.cpp 1677-1801, Mapping/): count, mapping
      and, through SetEndCells, the ranges are replaced; neither the contents of the
      workers nor the saved states are touched. *)
  Definition remap (count : Z) (rep : Z -> Z) (ss es : list Z) (m : module) : module :=
    Mod count rep ss es (md_ws m) (md_states m) (md_pz m) (md_sat m) (md_old m) (md_par m) (md_rows m).

  (** SetGasCompMoles for a cell without gas phase (src/PhreeqcRM.cpp 11401-11420): a
      default-constructed cxxGasPhase (number 1, NumKeyword.cxx) is stored under
      the cell number. *)
  Definition create_gas (x : E) (i : Z) (w : store E) : store E :=
    St (match rx w !! (RGas, i) with
        | Some _ => rx w
        | None => <[(RGas, i) := Ent 1 1 x]> (rx w)
        end) (uz w).
End model.
Arguments saved : clear implicits.
Arguments module : clear implicits.
