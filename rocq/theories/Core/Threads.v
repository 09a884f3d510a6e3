(** Execution of the worker threads of RunCells. *)
From stdpp Require Import prelude gmap.
From Verif.Bin Require Import Model.
From Verif.Core Require Import Move.
Local Open Scope Z_scope.

(** ** Interleavings
    Each OpenMP thread works on its own worker instance
    (src/PhreeqcRM.cpp 9888-9896: iteration n calls RunCellsThread(n), which uses
    workers[n] only); everything shared is only read, except
    old_saturation_root, where PartitionUZ writes the entry of its own cell.
    A thread is its worker plus the list of actions it has still to perform.
    An action may fail; then the thread stops (RunCellsThread 10375: throw). *)
Section interleave.
  Context {W : Type}.
  Definition action := W -> W * bool.

  Record thread := Th { th_w : W; th_rest : list action; th_ok : bool }.

  Definition thread_step (t : thread) : thread :=
    match th_rest t with
    | [] => t
    | a :: r => let '(w, ok) := a (th_w t) in if ok then Th w r (th_ok t) else Th w [] false
    end.

  (** A schedule is the sequence of threads that make the next step. *)
  Definition run_schedule (sched : list nat) (ts : list thread) : list thread :=
    foldl (fun ts n => alter thread_step n ts) ts sched.

  Definition finished (ts : list thread) : Prop := Forall (fun t => th_rest t = []) ts.

  (** One thread alone, from start to end. *)
  Fixpoint run_actions (acts : list action) (w : W) : W * bool :=
    match acts with
    | [] => (w, true)
    | a :: r => let '(w', ok) := a w in if ok then run_actions r w' else (w', false)
    end.
End interleave.
Arguments action : clear implicits.
Arguments thread : clear implicits.

(** ** What RunCellsThread does to its worker *)
Section run_cells.
  Context {E R : Type}.
  (** Content of a cell: the bodies of its reactants. *)
  Notation cellc := (gmap rtype E).

  Definition cell_of (b : bin E) (i : Z) : cellc :=
    foldr (fun t c => match b !! (t, i) with Some e => <[t := e_body e]> c | None => c end) ∅ all_types.

  (** Storing a reacted or repartitioned cell: the solver and
      Get_cell_from_storage_bin store reactants under, and numbered with, the
      cell number.  Types that are not in [c] are removed. *)
  Definition put_cell (i : Z) (c : cellc) (b : bin E) : bin E :=
    foldl (fun b t => match c !! t with
                      | Some x => <[(t, i) := Ent i i x]> b
                      | None => delete (t, i) b
                      end) b all_types.

  (** A worker with the selected-output rows recorded so far ([None]: empty row). *)
  Record worker := Wk { wk_st : store E; wk_rows : list (option R) }.

  (** [react c]: RUN_CELLS on a cell with content [c]: success flag, new content,
      selected-output row.  [part i c u]: PartitionUZ of chemistry cell i with
      saturated content c and unsaturated content u.  [dry i]: saturation of the
      cell <= 1e-6.  All are arbitrary functions in the theorems; they may depend
      on the cell number (through porosity, saturation, temperature, ...). *)
  Context (react : Z -> cellc -> bool * cellc * R) (part : Z -> cellc -> cellc -> cellc * cellc)
          (dry : Z -> bool).

  (** src/PhreeqcRM.cpp 10206-10233 *)
  Definition part_action (i : Z) : action worker := fun w =>
    let s := wk_st w in
    let '(c, u) := part i (cell_of (rx s) i) (cell_of (uz s) i) in
    (Wk (St (put_cell i c (rx s)) (put_cell i u (uz s))) (wk_rows w), true).

  (** src/PhreeqcRM.cpp 10318-10462: one cell. *)
  Definition react_action (i : Z) : action worker := fun w =>
    let s := wk_st w in
    if dry i then (Wk s (wk_rows w ++ [None]), true)
    else
      let '(ok, c, row) := react i (cell_of (rx s) i) in
      let s' := St (put_cell i c (rx s)) (uz s) in
      if ok then (Wk s' (wk_rows w ++ [Some row]), true) else (Wk s' (wk_rows w), false).

  (** The actions of the thread with cells [ks]; [pz]: partition_uz_solids. *)
  Definition thread_actions (pz : bool) (ks : list Z) : list (action worker) :=
    (if pz then part_action <$> ks else []) ++ (react_action <$> ks).

  Definition start_threads (pz : bool) (ss es : list Z) (ws : list (store E)) : list (thread worker) :=
    zip_with (fun se w => Th (Wk w []) (thread_actions pz (range se.1 se.2)) true) (zip ss es) ws.
End run_cells.
Arguments worker : clear implicits.
