(** Load balancing between processes: the new ranges that the root of the MPI build computes.

    Source: src/PhreeqcRM.cpp 7698-7866 (RebalanceLoad) and 8704-8868 (RebalanceLoadPerCell), up to the broadcast of
    the ranges; the builds without SERIALIZE, 8099-8265 and 9084-9248, have the same text. The moving of cells that
    follows is that of [Verif.Transfer.Model]. Steps that are the same as in the thread build are those of
    [Verif.Partition.Rebalance]. Over any arithmetic; measured times are arbitrary. *)
From stdpp Require Import prelude.
From Verif.Base Require Import Result Arith.
From Verif.Partition Require Import EndCells Rebalance.
Local Open Scope Z_scope.

(** The times of cells at the root, 8714, 8736-8758: room for all cells, the times of the root inserted in front, those
    of process [i] received at its first cell. [n] times are sent from the front of a vector: undefined if it has
    fewer. [sizes] and [starts] are those of processes from 1 on. *)
Fixpoint receive {T} (recv : list T) (starts sizes : list Z) (sent : list (list T)) : outcome (list T) :=
  match starts, sizes, sent with
  | s :: starts', n :: sizes', l :: sent' =>
      if decide (n <= Z.of_nat (length l) /\ s + n <= Z.of_nat (length recv)) then
        let k := Z.to_nat s in let m := Z.to_nat n in
        receive (take k recv ++ take m l ++ drop (k + m) recv) starts' sizes' sent'
      else UB
  | _, _, _ => Ret recv
  end.
Definition collect {T} (zero : T) (count : Z) (ss es : list Z) (times : list (list T)) : outcome (list T) :=
  receive (default [] (times !! 0%nat) ++ replicate (Z.to_nat count) zero)
    (drop 1 ss) (drop 1 (range_sizes ss es)) (drop 1 times).

Section balance.
  Context (A : arith).
  Notation num := (num A).

  (** ** By averages of processes *)

  (** 7731-7760: every process divides its time by its number of cells; a time per cell of zero is then a quarter of
      the average (in the thread build the times are averaged before they are divided) *)
  Definition process_times (times : list num) (sizes : list Z) : list num :=
    let r := zip_with (fun t c => fdiv A t (of_int A c)) times sizes in
    let avg := fdiv A (fsum A r) (of_int A (Z.of_nat (length times))) in
    (fun x => if feqb A x (of_int A 0) then fmul A (quarter A) avg else x) <$> r.

  (** 7757-7859 *)
  Definition balance_avg (f : num) (count : Z) (ss es : list Z) (times : list num) : outcome (list Z * list Z) :=
    let r := process_times times (range_sizes ss es) in
    match r with
    | [] => Ret (ss, es)
    | r0 :: _ =>
        let total := fsum A ((fun x => fdiv A r0 x) <$> r) in
        match floor_cells A (fdiv A (of_int A count) total) r0 r with
        | None => UB
        | Some cells0 =>
            match adjust_cells A count cells0 r with
            | Ret cells =>
                let '(ssn, esn) := ranges_from 0 cells in
                if decide (last esn = Some (count - 1)) then
                  let max_new := max_time A cells r in
                  let max_old := max_time A (range_sizes ss es) r in
                  if fltb A (fdiv A (fsub A max_old max_new) max_old) (c005 A) then Ret (ss, es)
                  else match shift (icells_avg A f) es esn with
                       | Some e => Ret (starts_of e, e)
                       | None => UB
                       end
                else Throw
            | Throw => Throw
            | UB => UB
            end
        end
    end.

  (** ** By cell *)

  (** 8719-8733: the parts of the work that the processes are to do, from their standard times *)
  Definition task_fractions (std : list num) : list num :=
    let total := fsum A ((fun s => fdiv A (of_int A 1) s) <$> std) in
    (fun s => fdiv A (fdiv A (of_int A 1) s) total) <$> std.

  (** 8778-8782: times of cells divided by the standard time of the process that ran them *)
  Fixpoint normalized (sizes : list Z) (std times : list num) : list num :=
    match sizes, std with
    | c :: sizes', s :: std' =>
        ((fun t => fdiv A t s) <$> take (Z.to_nat c) times) ++ normalized sizes' std' (drop (Z.to_nat c) times)
    | _, _ => []
    end.

  (** 8788-8792 *)
  Definition process_efficiency (tt fracs : list num) : num :=
    let m := foldl (fun m t => fmax A t m) (of_int A 0) tt in
    fsum A (zip_with (fun t frac => fmul A (fdiv A t m) frac) tt fracs).

  (** 8807-8841: all processes but the last one, each with its own part *)
  Fixpoint split_fractions (fracs : list num) (count left j : Z) (total : num) (times : list num) : outcome (list Z) :=
    match fracs with
    | [] => Ret []
    | frac :: fracs' =>
        match split_one A count left j j (of_int A 0) total frac times with
        | Ret (e, j', times') =>
            match split_fractions fracs' count (left - 1) j' total times' with
            | Ret es => Ret (e :: es)
            | Throw => Throw
            | UB => UB
            end
        | Throw => Throw
        | UB => UB
        end
    end.

  (** 8764-8868; [times]: recv_cell_times, [std]: standard_task_vector *)
  Definition balance_cell (f : num) (count : Z) (ss es : list Z) (std times : list num) : outcome (list Z * list Z) :=
    let nt := length es in
    let fracs := task_fractions std in
    let norm := normalized (range_sizes ss es) std times in
    let eff := process_efficiency (task_times A (range_sizes ss es) times) fracs in
    match split_fractions (take (pred nt) fracs) count (Z.of_nat nt) 0 (fsum A norm) norm with
    | Ret en =>
        if fltb A (c095 A) eff then Ret (ss, es)
        else match shift (icells_cell A f) es (en ++ [count - 1]) with
             | Some e => Ret (starts_of e, e)
             | None => UB
             end
    | Throw => Throw
    | UB => UB
    end.

  (** 7701-7715, 8708-8709. [task_time]: time of each process, [cell_times]: times of the cells of each process *)
  Definition balance (by_cell : bool) (f : num) (count : Z) (ss es : list Z) (std task_time : list num)
      (cell_times : list (list num)) : outcome (list Z * list Z) :=
    let nt := Z.of_nat (length es) in
    if decide (nt <= 1) then Ret (ss, es)
    else if decide (nt > count) then Ret (ss, es)
    else if fleb A f (of_int A 0) then Ret (ss, es)
    else if by_cell then
      obind (collect (of_int A 0) count ss es cell_times) (fun times => balance_cell f count ss es std times)
    else balance_avg f count ss es task_time.
End balance.
