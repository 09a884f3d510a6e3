(** The time that RunCells gives to the cells: the RUN_CELLS text written per cell, how it is read, and the
    loop of the engine that runs the cells (ReadClass.cxx). Doubles are exact rationals; a number read is the
    decimal that was written. *)
From Coq Require Import ZArith QArith Qround Qcanon String.
From stdpp Require Import prelude strings.
Open Scope Z_scope.
Open Scope list_scope.

(** ** A double in a text *)

(** [ostream << double] with the default format and precision 6, as in RunCellsThread, PhreeqcRM.cpp
    10372-10377 (nothing in PhreeqcRM.cpp sets another precision): six significant decimal digits, the last
    one rounded, ties to even. Here is the number that is written, not its characters. *)
Definition pow10 (e : Z) : Q := Qpower 10 e.
(** The place of the first digit: the exponent [e] with [10^e <= v < 10^(e+1)], searched upwards. *)
Fixpoint climb (fuel : nat) (e : Z) (v : Q) : Z :=
  match fuel with
  | O => e
  | S f => if Qle_bool (pow10 (e + 1)) v then climb f (e + 1) v else e
  end.
Definition exponent (v : Q) : Z :=
  let low := - (Z.log2 (Zpos (Qden v)) + 1) in
  climb (Z.to_nat (Z.log2 (Qnum v) + 1 - low)) low v.
Definition half_even (x : Q) : Z :=
  let q := Qfloor x in
  match Qcompare (x - inject_Z q) (1 # 2) with
  | Lt => q
  | Gt => q + 1
  | Eq => if Z.even q then q else q + 1
  end.
Definition write_pos (v : Q) : Q :=
  let unit := pow10 (exponent v - 5) in (inject_Z (half_even (v / unit)) * unit)%Q.
Definition write_q (v : Q) : Q :=
  match Qnum v with
  | Z0 => 0
  | Zpos _ => write_pos v
  | Zneg _ => (- write_pos (- v))%Q
  end.
Definition written (v : Qc) : Qc := Q2Qc (write_q (this v)).

(** ** RUN_CELLS *)

(** NA.h 1 *)
Definition na : Qc := Q2Qc (-987654321 # 10000000).

(** The lines of a RUN_CELLS block, option names resolved (see [Verif.Raw] for the resolution) *)
Inductive line := StartTime (t : Qc) | TimeStep (t : Qc) | Cells (first last : Z).
(** PhreeqcRM.cpp 10372-10377; [i] is the cell *)
Definition run_cells_lines (time step : Qc) (i : Z) : list line :=
  [StartTime (written (time - step)); TimeStep (written step); Cells i i].

(** runner.h 27-30: the members; the set of cells in ascending order *)
Record runner := Runner { r_step : Qc; r_start : Qc; r_cells : list Z; r_defined : bool }.
(** StorageBinListItem::Augment, StorageBinList.cpp 42-82, for a range written with its ends in order *)
Definition augment (cells : list Z) (first last : Z) : list Z :=
  let new := (fun k => first + Z.of_nat k) <$> seq 0 (Z.to_nat (last - first + 1)) in
  (filter (fun i => i < first) cells) ++ new ++ (filter (fun i => last < i) cells).
(** runner::Read, runner.cpp 35-146, on a new runner (20-31). A unit after a time is not read, as none is
    written. *)
Definition read_line (r : runner) (l : line) : runner :=
  match l with
  | StartTime t => Runner (r_step r) t (r_cells r) (r_defined r)
  | TimeStep t => Runner t (r_start r) (r_cells r) (r_defined r)
  | Cells a b => Runner (r_step r) (r_start r) (augment (r_cells r) a b) (r_defined r)
  end.
Definition read_run_cells (ls : list line) : runner := fold_left read_line ls (Runner na na [] true).

(** ** The engine's loop *)

(** cxxKinetics.h 62-68, as far as it concerns steps *)
Record kin := Kin { k_steps : list Qc; k_count : Z; k_equal : bool }.
(** cxxKinetics.cxx 475-483 *)
Definition reaction_steps (k : kin) : Z := if k_equal k then k_count k else Z.of_nat (length (k_steps k)).
(** cxxKinetics.cxx 484-543; [q1 n] is [(LDBLE) n] *)
Definition q1 (n : Z) : Qc := Q2Qc (inject_Z n).
Definition nth_step (l : list Qc) (i : Z) : Qc := List.nth (Z.to_nat i) l (q1 0).
Definition current_step (incremental : bool) (k : kin) (step : Z) : Qc :=
  match k_steps k with
  | [] => q1 1
  | s0 :: _ =>
    let n := Z.of_nat (length (k_steps k)) in
    if k_equal k then
      if k_count k <? step then (if incremental then q1 0 else s0)
      else if incremental then s0 / q1 (k_count k) else q1 step * s0 / q1 (k_count k)
    else if n <? step then nth_step (k_steps k) (n - 1) else nth_step (k_steps k) (step - 1)
  end%Qc.

(** What a cell has: is there a solution, a mix; the kinetics; and the numbers of steps of its REACTION,
    REACTION_TEMPERATURE and REACTION_PRESSURE *)
Record cell := Cell { c_sol : bool; c_mix : bool; c_kin : option kin; c_rxn : option Z; c_temp : option Z; c_press : option Z }.
Definition more (count : Z) (n : option Z) : Z :=
  match n with Some n => if count <? n then n else count | None => count end.
(** ReadClass.cxx 721-752; [one] is run_cells_one_step *)
Definition count_steps (one : bool) (c : cell) : Z :=
  if one then 1 else more (more (more (more 1 (c_rxn c)) (reaction_steps <$> c_kin c)) (c_temp c)) (c_press c).

(** One call of run_reactions (829) with what it is given, and what is left when it and the punching are
    done: the cell, reaction_step, initial_total_time, rate_sim_time_start before, kin_time, use_mix, and
    rate_sim_time after (830-838). *)
Record event := Event {
  ev_cell : Z; ev_no : Z; ev_base : Qc; ev_start : Qc; ev_kin : Qc; ev_mix : bool; ev_after : Qc
}.
(** 788-813 *)
Definition kin_time (incremental : bool) (r : runner) (c : cell) (count no : Z) : Qc :=
  match c_kin c with
  | None => q1 0
  | Some k =>
    if decide (r_step r = na) then current_step incremental k no
    else if incremental then r_step r / q1 count else q1 no * r_step r / q1 count
  end%Qc.
(** 767-851, from [reaction_step = no], [left] more to go; the result is the calls, rate_sim_time_start is
    carried. *)
Fixpoint steps_from (incremental : bool) (r : runner) (i : Z) (c : cell) (base : Qc) (count : Z) (left : nat) (no : Z)
    (start : Qc) : list event :=
  match left with
  | O => []
  | S f =>
    let t := kin_time incremental r c count no in
    let start' := if incremental then (start + t)%Qc else start in
    Event i no base start t (negb incremental || (no =? 1)) (if incremental then start' else t)
      :: steps_from incremental r i c base count f (no + 1) start'
  end.
Definition run_cell (incremental one : bool) (r : runner) (i : Z) (c : cell) (base : Qc) : list event :=
  let n := count_steps one c in steps_from incremental r i c base n (Z.to_nat n) 1 (q1 0).

(** run_as_cells, 677-864: [total] is initial_total_time, [rate] what rate_sim_time was before. The result:
    the calls, and initial_total_time afterwards. Errors that stop a run are left out. *)
Definition runnable (cells : Z -> cell) (i : Z) : bool :=
  (0 <=? i) && (c_sol (cells i) || c_mix (cells i)).
Definition last_rate (rate : Qc) (es : list event) : Qc := match List.rev es with [] => rate | e :: _ => ev_after e end.
Definition run_as_cells (incremental one : bool) (cells : Z -> cell) (r : runner) (total rate : Qc) : list event * Qc :=
  if r_defined r then
    match r_cells r with
    | [] => ([], total)
    | _ =>
      let base := if decide (r_start r = na) then total else r_start r in
      let run := filter (fun i => runnable cells i = true) (r_cells r) in
      let es := concat (map (fun i => run_cell incremental one r i (cells i) base) run) in
      let base' := match run with [] => total | _ => base end in
      (es, (base' + last_rate rate es)%Qc)
    end
  else ([], total).

(** RunCells for one active cell: PhreeqcRM.cpp 9873 (one step) and 10372-10377. INCREMENTAL_REACTIONS is
    what the user set in the worker. *)
Definition run_cells (incremental : bool) (cells : Z -> cell) (time step : Qc) (i : Z) (total rate : Qc) : list event * Qc :=
  run_as_cells incremental true cells (read_run_cells (run_cells_lines time step i)) total rate.

(** ** What is reported after a call *)

(** TOTAL_TIME of BASIC, PBasic.cpp 4695-4720; the state is REACTION (ReadClass.cxx 685) *)
Definition total_time (c : cell) (e : event) : Qc :=
  match c_kin c with None => q1 0 | Some _ => ev_base e + ev_after e end%Qc.
(** Column "time" of selected output, print.cpp 3030-3067; kin_time_x is what run_reactions was given
    (kinetics.cpp 2001) *)
Definition step_at (l : list Qc) (i : nat) : Qc := match l !! i with Some s => s | None => List.last l (q1 0) end.
Definition time_column (incremental : bool) (c : cell) (e : event) : Qc :=
  match c_kin c with
  | Some k =>
    if incremental then
      if k_equal k then
        if k_count k <? ev_no e then nth_step (k_steps k) 0
        else q1 (ev_no e) * nth_step (k_steps k) 0 / q1 (k_count k)
      else foldr Qcplus (q1 0) (step_at (k_steps k) <$> seq 0 (Z.to_nat (ev_no e)))
    else ev_kin e
  | None => ev_kin e
  end%Qc.
