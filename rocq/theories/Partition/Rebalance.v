(** Load balancing between threads: the computation of the new ranges
    (src/PhreeqcRM.cpp 8453-8636 and 9416-9569), over any arithmetic. *)
From stdpp Require Import prelude.
From Verif.Base Require Import Result Arith.
From Verif.Partition Require Import EndCells.
Local Open Scope Z_scope.

Section rebalance.
  Context (A : arith).
  Notation num := (num A).

  (** [start_cell_new] from [end_cell_new]: the first is 0, every other one is
      its predecessor's end + 1 (src/PhreeqcRM.cpp 8621, 9567; 9503, 9535). *)
  Definition starts_of (ends : list Z) : list Z :=
    0 :: ((fun e => e + 1) <$> take (pred (length ends)) ends).

  (** Move each end, except the last one, part of the way from the old to the
      new position: src/PhreeqcRM.cpp 8615-8622 and 9556-9568.  [icells] gives
      the number of cells for a difference; [None] is an undefined
      double-to-int conversion. *)
  Fixpoint shift (icells : Z -> option Z) (old new : list Z) : option (list Z) :=
    match old, new with
    | e :: (_ :: _) as old', n :: new' =>
        match icells (n - e), shift icells (tail old) new' with
        | Some x, Some r => Some (e + x :: r)
        | _, _ => None
        end
    | _, _ => Some new
    end.

  (** src/PhreeqcRM.cpp 8619: (int) ((end_cell_new[i] - end_cell[i]) * fraction). *)
  Definition icells_avg (f : num) (d : Z) : option Z := to_int A (fmul A (of_int A d) f).

  (** src/PhreeqcRM.cpp 9560-9565: the same, but the whole difference if that
      truncates to 0. *)
  Definition icells_cell (f : num) (d : Z) : option Z :=
    match to_int A (fmul A (of_int A d) f) with
    | Some x => Some (if decide (x = 0) then d else x)
    | None => None
    end.

  (** ** By thread averages *)

  Definition fsum (l : list num) : num := foldl (fadd A) (of_int A 0) l.

  (** 8483-8501: time per cell of each thread; a zero time counts as a quarter
      of the average. *)
  Definition time_per_cell (avg : num) (t : num) (cells : Z) : num :=
    fdiv A (if feqb A t (of_int A 0) then fmul A (quarter A) avg else t) (of_int A cells).

  Definition per_cell_times (times : list num) (sizes : list Z) : list num :=
    let avg := fdiv A (fsum times) (of_int A (Z.of_nat (length times))) in
    zip_with (time_per_cell avg) times sizes.

  (** 8519-8526: cells per thread, rounded down, at least 1. *)
  Fixpoint floor_cells (new_n r0 : num) (r : list num) : option (list Z) :=
    match r with
    | [] => Some []
    | x :: r' =>
        match floor_to_int A (fdiv A (fmul A new_n r0) x), floor_cells new_n r0 r' with
        | Some n, Some l => Some ((if decide (n < 1) then 1 else n) :: l)
        | _, _ => None
        end
    end.

  (** 8536-8545: index of the smallest (cells+1)*time, first one on ties;
      [i]: index of the head of the list, [m],[mt]: best so far. *)
  Fixpoint argmin (i m : nat) (mt : num) (cells : list Z) (r : list num) : nat :=
    match cells, r with
    | c :: cells', x :: r' =>
        let t := fmul A (of_int A (c + 1)) x in
        if fltb A t mt then argmin (S i) i t cells' r' else argmin (S i) m mt cells' r'
    | _, _ => m
    end.

  Definition add_one (cells : list Z) (r : list num) : list Z :=
    match cells, r with
    | c :: cells', x :: r' =>
        alter (fun c => c + 1) (argmin 1 0 (fmul A (of_int A (c + 1)) x) cells' r') cells
    | _, _ => cells
    end.

  (** 8553-8566: index of the largest (cells-1)*time among threads with more
      than one cell; [None]: no such thread (max_cell = -1). *)
  Fixpoint argmax (i : nat) (m : option nat) (mt : num) (cells : list Z) (r : list num) : option nat :=
    match cells, r with
    | c :: cells', x :: r' =>
        let t := fmul A (of_int A (c - 1)) x in
        if decide (c > 1) then
          if fltb A mt t then argmax (S i) (Some i) t cells' r' else argmax (S i) m mt cells' r'
        else argmax (S i) m mt cells' r'
    | _, _ => m
    end.

  (** 8551-8568; writing cells_v[-1] is undefined behaviour. *)
  Fixpoint remove_cells (k : nat) (cells : list Z) (r : list num) : outcome (list Z) :=
    match k with
    | O => Ret cells
    | S k' =>
        match argmax 0 None (of_int A 0) cells r with
        | Some i => remove_cells k' (alter (fun c => c - 1) i cells) r
        | None => UB
        end
    end.

  Fixpoint add_cells (k : nat) (cells : list Z) (r : list num) : list Z :=
    match k with
    | O => cells
    | S k' => add_cells k' (add_one cells r) r
    end.

  Definition total_cells (l : list Z) : Z := foldr Z.add 0 l.

  (** 8530-8570 *)
  Definition adjust_cells (count : Z) (cells : list Z) (r : list num) : outcome (list Z) :=
    let diff := count - total_cells cells in
    if decide (diff > 0) then Ret (add_cells (Z.to_nat diff) cells r)
    else remove_cells (Z.to_nat (- diff)) cells r.

  Definition fmax (a b : num) : num := if fltb A b a then a else b.

  (** 8594-8605: largest estimated thread time. *)
  Definition max_time (cells : list Z) (r : list num) : num :=
    foldl (fun m t => fmax t m) (of_int A 0) (zip_with (fun c x => fmul A (of_int A c) x) cells r).

  Definition range_sizes (ss es : list Z) : list Z := zip_with (fun s e => e - s + 1) ss es.

  (** 8472-8622: new ranges from the measured thread times.  [Throw]: "Failed
      to redistribute cells". *)
  Definition rebalance_avg (f : num) (count : Z) (ss es : list Z) (times : list num)
      : outcome (list Z * list Z) :=
    let r := per_cell_times times (range_sizes ss es) in
    match r with
    | [] => Ret (ss, es)
    | r0 :: _ =>
        let total := fsum ((fun x => fdiv A r0 x) <$> r) in
        let new_n := fdiv A (of_int A count) total in
        match floor_cells new_n r0 r with
        | None => UB
        | Some cells0 =>
            match adjust_cells count cells0 r with
            | Ret cells =>
                let '(ssn, esn) := ranges_from 0 cells in
                if decide (last esn = Some (count - 1)) then
                  let max_new := max_time cells r in
                  let max_old := max_time (range_sizes ss es) r in
                  if fltb A (fdiv A (fsub A max_old max_new) max_old) (c005 A) then Ret (ss, es)
                  else
                    match shift (icells_avg f) es esn with
                    | Some e => Ret (starts_of e, e)
                    | None => UB
                    end
                else Throw
            | Throw => Throw
            | UB => UB
            end
        end
    end.

  (** ** By cell *)

  (** 9505-9527: the inner while loop of thread i.  [start]: start_cell_new[i],
      [j]: current cell, [temp]: temp_sum_work, [left]: nthreads - i, [frac]:
      task_fraction[i], [times]: normalized_cell_times from cell j on (reading
      past the end is undefined behaviour).  Returns (end_cell_new[i], j,
      remaining times). *)
  Fixpoint split_one (count total_threads_left start j : Z) (temp total frac : num)
      (times : list num) : outcome (Z * Z * list num) :=
    match times with
    | [] => UB
    | t :: times' =>
        let temp' := fadd A temp (fdiv A t total) in
        if fltb A temp' frac && bool_decide (count - j > total_threads_left)
        then split_one count total_threads_left start (j + 1) temp' total frac times'
        else if decide (j = start) then Ret (j, j + 1, times')
        else Ret (j - 1, j, times)
    end.

  (** 9497-9528: all threads but the last one; [left]: nthreads - i. *)
  Fixpoint split_all (k : nat) (count left j : Z) (total frac : num) (times : list num)
      : outcome (list Z) :=
    match k with
    | O => Ret []
    | S k' =>
        match split_one count left j j (of_int A 0) total frac times with
        | Ret (e, j', times') =>
            match split_all k' count (left - 1) j' total frac times' with
            | Ret es => Ret (e :: es)
            | Throw => Throw
            | UB => UB
            end
        | Throw => Throw
        | UB => UB
        end
    end.

  (** 9470-9480: per-thread sums of the measured cell times; 9483-9488: the
      efficiency. *)
  Fixpoint task_times (sizes : list Z) (times : list num) : list num :=
    match sizes with
    | [] => []
    | c :: sizes' =>
        fsum (take (Z.to_nat c) times) :: task_times sizes' (drop (Z.to_nat c) times)
    end.

  Definition efficiency (tt : list num) (frac : num) : num :=
    let m := foldl (fun m t => fmax t m) (of_int A 0) tt in
    fsum ((fun t => fmul A (fdiv A t m) frac) <$> tt).

  (** 9416-9568.  [times]: recv_cell_times, one per chemistry cell in order of
      the threads; standard_time is 1.0 for every thread, so the normalized
      times are t/1.0 and task_fraction = (1/1)/nthreads (9425-9436). *)
  Definition rebalance_cell (f : num) (count : Z) (ss es : list Z) (times : list num)
      : outcome (list Z * list Z) :=
    let nt := length es in
    let one := of_int A 1 in
    let tasks_total := fsum (replicate nt (fdiv A one one)) in
    let frac := fdiv A (fdiv A one one) tasks_total in
    let norm := (fun t => fdiv A t one) <$> times in
    let total := fsum norm in
    let eff := efficiency (task_times (range_sizes ss es) times) frac in
    match split_all (pred nt) count (Z.of_nat nt) 0 total frac norm with
    | Ret en =>
        let esn := en ++ [count - 1] in
        if fltb A (c095 A) eff then Ret (ss, es)
        else
          match shift (icells_cell f) es esn with
          | Some e => Ret (starts_of e, e)
          | None => UB
          end
    | Throw => Throw
    | UB => UB
    end.

  (** 8453-8472 and 9420-9421: when anything is done at all. *)
  Definition rebalance (by_cell : bool) (f : num) (count : Z) (ss es : list Z)
      (thread_times cell_times : list num) : outcome (list Z * list Z) :=
    let nt := Z.of_nat (length es) in
    if decide (nt <= 1) then Ret (ss, es)
    else if fleb A f (of_int A 0) then Ret (ss, es)
    else if decide (nt > count) then Ret (ss, es)
    else if by_cell then rebalance_cell f count ss es cell_times
    else rebalance_avg f count ss es thread_times.
End rebalance.
