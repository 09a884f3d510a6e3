(** The output and the error reports of RunCells.

    Source: src/PhreeqcRM.cpp 2777-2794 (ErrorMessage), 5404-5498 (HandleErrorsInternal), 7545 (PartitionUZ),
    9633-9662 (ReturnHandler), 9720-9823 (RunCells, MPI build), 9868-9942 (RunCells, thread build), 10192-10510
    (RunCellsThread); src/IPhreeqcPhast/IPhreeqc/IPhreeqc.cpp 327-335 (GetOutputString).

    [run i]: what RunString reports for chemistry cell [i]: success, the output and the error text. A cell is run
    at most once in a RunCells, and by C08 its results do not depend on where it is. Selected output (SelOut) and
    the rebalancing that follows are left out, as is the screen, which gets what the log gets. The output and log
    files are open. Printed numbers of the time are a parameter. *)
From Coq Require Import ZArith String Ascii.
From stdpp Require Import prelude strings pretty.
From Verif.Init Require Import Model.
Open Scope Z_scope.
Open Scope list_scope.

Definition nl : string := String "010" "".
Fixpoint texts (l : list string) : string := match l with [] => "" | s :: r => (s +:+ texts r)%string end.

(** The error string of the module, and its output and log file *)
Record sink := Sink { k_err : string; k_out : string; k_log : string }.
Definition say (s : string) (k : sink) : sink := Sink (k_err k +:+ s) (k_out k +:+ s) (k_log k +:+ s).
Definition clear_err (k : sink) : sink := Sink "" (k_out k) (k_log k).
(** OutputMessage, 7535-7539 *)
Definition put (s : string) (k : sink) : sink := Sink (k_err k) (k_out k +:+ s) (k_log k).
(** ErrorMessage, 2777-2794, with and without the prefix *)
Definition error_line (s : string) : string := ("ERROR: " +:+ s +:+ nl)%string.
Definition plain_line (s : string) : string := (s +:+ nl)%string.

Section Print.
(** backward_mapping; the print mask and the saturation of grid cells, [dry]: at most 1e-6; the time as printed *)
Context {D : Type} (dry : D -> bool) (d0 : D) (back : list (list Z)) (mask : list Z) (sat : list D) (time : string)
  (run : Z -> bool * string * string).

Definition grid_cells (i : Z) : list Z := default [] (back !! Z.to_nat i).
(** [backward_mapping\[i\]\[0\]], 10341 *)
Definition first_cell (i : Z) : Z := default 0 (grid_cells i !! 0%nat).
Definition mask_root (i : Z) : Z := default 0 (mask !! Z.to_nat (first_cell i)).
Definition sat_root (i : Z) : D := default d0 (sat !! Z.to_nat (first_cell i)).

(** 10396-10405 and 10438-10445 *)
Definition heading (i : Z) : string :=
  ("Time:                   " +:+ time +:+ nl +:+ "Chemistry cell:         " +:+ pretty i +:+ nl +:+
   "Grid cell(s) (0-based): " +:+ texts (map (fun j => (pretty j +:+ " ")%string) (grid_cells i)))%string.
(** GetOutputString after SetOutputStringOn([on]) and a run with output [t] *)
Definition output_string (on : bool) (t : string) : string :=
  if on then t else ("GetOutputString: OutputStringOn not set." +:+ nl)%string.

(** RunCellsThread, 10332-10475: the text of the worker, and the error text if a cell stops it. [mode]: the error
    handler mode; [pr]: print_chemistry_on; [m i], [s i]: mask and saturation of cell [i]. *)
Fixpoint cell_loop (mode : Z) (pr : bool) (m : Z -> Z) (s : Z -> D) (cells : list Z) : string * option string :=
  match cells with
  | [] => (""%string, None)
  | i :: r =>
      let on := pr && bool_decide (m i <> 0) in
      let next (t : string) := let q := cell_loop mode pr m s r in ((t +:+ q.1)%string, q.2) in
      if dry (s i) then next (if on then (heading i +:+ nl +:+ "Cell is dry." +:+ nl)%string else ""%string)
      else
        match run i with
        | (true, t, _) => next (if on then (heading i +:+ nl +:+ output_string on t)%string else ""%string)
        | (false, t, e) =>
            if decide (mode < 3) then (output_string on t, Some e)
            else next (if on then (heading i +:+ nl +:+ "Calculation failure." +:+ nl)%string else ""%string)
        end
  end.

(** What a worker does to the error string and the files while it runs: PartitionUZ clears the error string once
    for every cell (10218-10231, 7545), a failed cell ends with ErrorMessage (10382), which is a critical section. *)
Inductive act := AClear | ASay (s : string).
Definition do_act (a : act) (k : sink) : sink := match a with AClear => clear_err k | ASay s => say s k end.
Definition worker_acts (uz : bool) (cells : list Z) (failed : option string) : list act :=
  (if uz then replicate (length cells) AClear else []) ++
  match failed with Some e => [ASay (error_line e)] | None => [] end.

(** Threads take turns in any order. *)
Inductive turns : list (list act) -> list act -> Prop :=
  | turns_end ls : Forall (eq []) ls -> turns ls []
  | turns_step ls n a r l : ls !! n = Some (a :: r) -> turns (<[n := r]> ls) l -> turns ls (a :: l).

(** ReturnHandler of IRM_FAIL with the name of the method: DecodeError 1970-1972, 9640-9643 *)
Definition return_failed (k : sink) : sink :=
  say (plain_line nl) (say (error_line "PhreeqcRM::RunCells") (say (error_line "PhreeqcRM failed.") k)).
(** The end of both builds: GetConcentrations clears the error string, 3460, 3572 *)
Definition finish (failed : bool) (k : sink) : sink * Z :=
  let k1 := clear_err k in if failed then (return_failed k1, -7) else (k1, 0).

(** ** Thread build, 9868-9942; [trace]: the actions in the order in which they happen *)
Definition workers_threads (mode : Z) (pr : bool) (rs : list (Z * Z)) : list (string * option string) :=
  map (fun r => cell_loop mode pr mask_root sat_root (range r)) rs.
Definition thread_acts (uz : bool) (mode : Z) (pr : bool) (rs : list (Z * Z)) : list (list act) :=
  map (fun r => worker_acts uz (range r) (cell_loop mode pr mask_root sat_root (range r)).2) rs.
(** HandleErrorsInternal, 5486-5495 *)
Definition errors_threads (ws : list (string * option string)) (k : sink) : sink :=
  fold_left (fun k w => match w.2 with Some e => say (plain_line e) k | None => k end) ws k.
Definition any_failed (ws : list (string * option string)) : bool :=
  existsb (fun w => match w.2 with Some _ => true | None => false end) ws.
Definition run_threads (mode : Z) (pr : bool) (rs : list (Z * Z)) (trace : list act) (k : sink) : sink * Z :=
  let ws := workers_threads mode pr rs in
  let k1 := fold_left (fun k a => do_act a k) trace (clear_err k) in
  let k2 := if pr then fold_left (fun k w => put w.1 k) ws k1 else k1 in
  finish (any_failed ws) (errors_threads ws k2).

(** ** MPI build, 9720-9823; process 0 is the root, the sink is its sink. ScatterNchem, 10920-11010: the values of a
    process are those of the first grid cells of its chemistry cells. *)
Definition scatter {A} (f : Z -> A) (r : Z * Z) : list A := map f (range r).
Definition worker_mpi (mode : Z) (pr : bool) (r : Z * Z) : string * option string :=
  let ml := scatter mask_root r in let sl := scatter sat_root r in
  cell_loop mode pr (fun i => default 0 (ml !! Z.to_nat (i - r.1))) (fun i => default d0 (sl !! Z.to_nat (i - r.1)))
    (range r).
(** HandleErrorsInternal, 5428-5471. The text of another process arrives with a NUL after it, which ends it in
    [estr.str().c_str()]: the line is not ended. *)
Definition process_head (n : nat) : string := error_line ("Process " +:+ pretty n +:+ nl)%string.
Fixpoint errors_mpi (n : nat) (ws : list (string * option string)) (k : sink) : sink :=
  match ws with
  | [] => k
  | (_, None) :: r => errors_mpi (S n) r k
  | (_, Some e) :: r =>
      errors_mpi (S n) r (say (if decide (n = 0%nat) then plain_line e else e) (say (process_head n) k))
  end.
Definition run_mpi (uz : bool) (mode : Z) (pr : bool) (rs : list (Z * Z)) (k : sink) : sink * Z :=
  let ws := map (worker_mpi mode pr) rs in
  let acts := match rs, ws with r :: _, w :: _ => worker_acts uz (range r) w.2 | _, _ => [] end in
  let k1 := fold_left (fun k a => do_act a k) acts (clear_err k) in
  let k2 := if pr then fold_left (fun k w => put w.1 k) ws k1 else k1 in
  finish (any_failed ws) (errors_mpi 0 ws k2).
End Print.
