(** The error handler mode over a program, and how RunCells ends in it.

    Source: src/PhreeqcRM.cpp 164 (the mode at construction), 11721-11762 (SetErrorHandlerMode), 10380
    (RunCellsThread looks at the mode), 9820 and 9941 (RunCells ends by ReturnHandler), 9633-9662 (ReturnHandler).
    What RunCells writes is that of [Verif.Print.Model], ReturnHandler and SetErrorHandlerMode of the thread build
    are those of [Verif.Settings.Model]. No other call changes the mode, so a program is the list of modes that it
    has asked for. The MPI build is one without OpenMP. *)
From Coq Require Import ZArith String.
From stdpp Require Import prelude strings.
From Verif.Base Require Import Result.
From Verif.Settings Require Import Model.
From Verif.Print Require Import Model.
Local Open Scope Z_scope.

(** SetErrorHandlerMode on the root of the MPI build: 11728-11733, nothing is done if the mode is the present one *)
Definition set_mode_mpi {D} (i : Z) (s : settings D) : settings D * reply :=
  if decide (s_mode s = i) then (s, Returned IRM_OK) else set_error_mode false i s.

(** The settings and the replies after a list of requests *)
Fixpoint ask {D} (set : Z -> settings D -> settings D * reply) (l : list Z) (s : settings D) : settings D * list reply :=
  match l with
  | [] => (s, [])
  | i :: r => let q := set i s in let t := ask set r q.1 in (t.1, q.2 :: t.2)
  end.

Section RunCells.
Context {D : Type} (dry : D -> bool) (d0 : D) (back : list (list Z)) (mask : list Z) (sat : list D) (time : string)
  (run : Z -> bool * string * string).
(** IRM_FAIL or IRM_OK, as at the end of RunCells *)
Definition code_result (c : Z) : irm_result := if decide (c = 0) then IRM_OK else IRM_FAIL.
(** RunCells of the thread build, 9868-9942, and on the root of the MPI build, 9720-9821 *)
Definition run_cells (mode : Z) (pr : bool) (rs : list (Z * Z)) (trace : list act) (k : sink) : sink * reply :=
  let q := run_threads dry d0 back mask sat time run mode pr rs trace k in (q.1, return_handler mode (code_result q.2)).
Definition run_cells_mpi (uz : bool) (mode : Z) (pr : bool) (rs : list (Z * Z)) (k : sink) : sink * reply :=
  let q := run_mpi dry d0 back mask sat time run uz mode pr rs k in (q.1, return_handler mode (code_result q.2)).
End RunCells.
