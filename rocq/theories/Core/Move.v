(** Moving cells between worker instances. *)
From stdpp Require Import prelude gmap.
From Verif.Base Require Import Result.
From Verif.Bin Require Import Model.
Local Open Scope Z_scope.

Section move.
  Context {E : Type}.
  Local Notation bin := (bin E).

  (** One worker: the reactant maps of its Phreeqc instance and its uz_bin
      (src/IPhreeqcPhast/IPhreeqcPhast.h). *)
  Record store := St { rx : bin; uz : bin }.

  (** src/PhreeqcRM.cpp 8650-8675 (threads, averages) and 9584-9607 (by cell): cell
      [k] goes from worker [o] to worker [n], o <> n; [pz]: partition_uz_solids.
      The DELETE run on the old worker is taken to succeed. *)
  Definition move_cell (pz : bool) (ws : list store) (k : Z) (o n : nat) : outcome (list store) :=
    match ws !! o, ws !! n with
    | Some wo, Some wn =>
        let temp := phreeqc2bin_n (rx wo) ∅ k in
        let wn' := St (bin2phreeqc_n temp (rx wn) k) (if pz then bin_add (uz wo) k (uz wn) else uz wn) in
        let wo' := St (delete_cell k (rx wo)) (if pz then bin_remove k (uz wo) else uz wo) in
        Ret (<[o := wo']> (<[n := wn']> ws))
    | _, _ => UB
    end.

  (** 8642-8649: while (k > ends[i]) i++;  running off the array is undefined
      behaviour ([None]). *)
  Fixpoint advance (k : Z) (ends : list Z) (i : nat) : option nat :=
    match ends with
    | [] => None
    | e :: r => if decide (k > e) then advance k r (S i) else Some i
    end.

  (** 8636-8678: the loop over all cells; [ks]: cells still to be treated, [old],
      [nnew]: current values of the two counters. *)
  Fixpoint move_loop (pz : bool) (es es' : list Z) (ks : list Z) (old nnew : nat)
      (ws : list store) : outcome (list store) :=
    match ks with
    | [] => Ret ws
    | k :: r =>
        match advance k (drop old es) old, advance k (drop nnew es') nnew with
        | Some o, Some n =>
            if decide (o = n) then move_loop pz es es' r o n ws
            else obind (move_cell pz ws k o n) (move_loop pz es es' r o n)
        | _, _ => UB
        end
    end.

  Definition cells_upto (count : Z) : list Z := Z.of_nat <$> seq 0 (Z.to_nat count).

  Definition move_cells (pz : bool) (count : Z) (es es' : list Z) (ws : list store) : outcome (list store) :=
    move_loop pz es es' (cells_upto count) 0 0 ws.

  (** ** Distribution of initial conditions: src/PhreeqcRM.cpp 6366-6389: the cells of worker [n] >= 1 are copied from
      worker 0 and deleted there ("DELETE; -cells" with the list of the cells; an
      empty list would delete everything, which cannot happen for a non-empty range). *)
  Definition give_cell (n : nat) (ws : list store) (k : Z) : list store :=
    match ws !! 0%nat, ws !! n with
    | Some w0, Some wn =>
        <[n := St (bin2phreeqc_n (phreeqc2bin_n (rx w0) ∅ k) (rx wn) k) (uz wn)]> ws
    | _, _ => ws
    end.
  Definition delete_cells0 (ks : list Z) (ws : list store) : list store :=
    match ws with
    | [] => []
    | w0 :: r => St (match ks with [] => ∅ | _ => foldl (fun w k => delete_cell k w) (rx w0) ks end) (uz w0) :: r
    end.
  Definition range (s e : Z) : list Z := (fun i => s + Z.of_nat i) <$> seq 0 (Z.to_nat (e - s + 1)).

  Fixpoint distribute (n : nat) (ss es : list Z) (ws : list store) : list store :=
    match ss, es with
    | s :: ss', e :: es' =>
        distribute (S n) ss' es' (delete_cells0 (range s e) (foldl (give_cell n) ws (range s e)))
    | _, _ => ws
    end.
  (** [tail]: the loop starts with n = 1. *)
  Definition distribute_initial (ss es : list Z) (ws : list store) : list store :=
    distribute 1 (tail ss) (tail es) ws.
End move.
Arguments store : clear implicits.
