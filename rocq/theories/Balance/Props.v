(** Load balancing between the processes of the MPI build *)
From Coq Require Import ZArith Reals Lra Lia.
From Flocq Require Import Core BinarySingleNaN.
From stdpp Require Import prelude.
From Verif.Base Require Import Result Arith FloatStep B64.
From Verif.Partition Require Import EndCells Spec EndCellsProofs Rebalance RebalanceProofs RebalanceB64 Props.
From Verif.Balance Require Import Model Spec Proofs B64Proofs.
Local Open Scope Z_scope.

(** * C109 *)

(** The root reads the times of all cells in their order, whatever follows them in its vector. *)
Theorem balance_collects : forall T (zero : T) count ss es times,
  valid_split count ss es -> measured ss es times ->
  exists rest, collect zero count ss es times = Ret (concat times ++ rest).
Proof. intros. by apply collect_spec. Qed.

(** By cell, with doubles: for fractions in [1/2,1] every balancing completes and gives every cell to one process,
    whatever the times of cells and the standard times of processes are (zero, infinite and NaN as well). *)
Theorem balance_cell_partition : forall f count ss es std tt ct,
  fraction_in (1/2) 1 f -> count <= 2 ^ 26 ->
  valid_split count ss es -> measured ss es ct -> length std = length es ->
  exists ss' es', balance B64 true f count ss es std tt ct = Ret (ss', es') /\
    valid_split count ss' es' /\ exactly_one_owner count ss' es' /\ length es' = length es.
Proof.
  intros f count ss es std tt ct [Hff Hf] Hc V M Ls. unfold balance.
  pose proof (valid_split_one_owner _ _ _ V).
  case_decide; [eauto 10|]. case_decide; [eauto 10|]. destruct (fleb B64 f (of_int B64 0)); [eauto 10|].
  rewrite balance_cell_collected by done.
  destruct (balance_cell_spec B64 f count ss es std ct V ltac:(lia) M Ls (icells_cell_ok_b64 _ _ Hff Hf Hc))
    as (ss' & es' & -> & V' & L').
  eexists _, _. split; [done|]. split; [done|]. split; [by apply valid_split_one_owner|done].
Qed.

(** By averages, with doubles: for fractions in (0,1] a balancing that completes gives every cell to one process, and
    none throws. *)
Theorem balance_avg_partition : forall f count ss es std tt ct,
  is_finite f = true -> (0 < B2R f <= 1)%R -> count <= 2 ^ 26 ->
  valid_split count ss es -> length tt = length es ->
  match balance B64 false f count ss es std tt ct with
  | Ret (ss', es') => valid_split count ss' es' /\ exactly_one_owner count ss' es' /\ length es' = length es
  | Throw => False
  | UB => True
  end.
Proof.
  intros f count ss es std tt ct Hff Hf Hc V Lt. unfold balance.
  pose proof (valid_split_one_owner _ _ _ V).
  case_decide; [done|]. case_decide; [done|]. destruct (fleb B64 f (of_int B64 0)); [done|].
  destruct (balance_avg_spec B64 f count ss es tt V Lt (icells_avg_ok_b64 _ _ Hff Hf Hc))
    as [(ss' & es' & -> & V' & L')| ->]; [|done].
  split; [done|]. split; [by apply valid_split_one_owner|done].
Qed.

(** By averages, with doubles: it completes if every time is zero or from 2^-100 to 2^100, and not all are zero. *)
Theorem balance_avg_completes : forall f count ss es std tt ct,
  is_finite f = true -> (0 < B2R f <= 1)%R -> count <= 2 ^ 26 ->
  valid_split count ss es -> length tt = length es ->
  Forall ordinary_time tt -> Exists (pin (-100) 100) tt ->
  exists ss' es', balance B64 false f count ss es std tt ct = Ret (ss', es').
Proof.
  intros f count ss es std tt ct Hff Hf Hc V Lt HF HE. unfold balance.
  case_decide; [eauto|]. case_decide; [eauto|]. destruct (fleb B64 f (of_int B64 0)); [eauto|].
  destruct (balance_avg_spec B64 f count ss es tt V Lt (icells_avg_ok_b64 _ _ Hff Hf Hc))
    as [(ss' & es' & -> & V' & L')| E]; [eauto|].
  exfalso. revert E. apply balance_avg_defined; try done; lia.
Qed.

(** On processes of equal speed the ranges by cell are those that the thread build computes from the same times, in
    any arithmetic. *)
Theorem balance_as_threads : forall (A : arith) f count ss es tt tt' ct,
  valid_split count ss es -> measured ss es ct ->
  balance A true f count ss es (replicate (length es) (of_int A 1)) tt ct =
    rebalance A true f count ss es tt' (concat ct).
Proof.
  intros A f count ss es tt tt' ct V M. unfold balance, rebalance.
  case_decide; [done|]. destruct (fleb A f (of_int A 0)); case_decide; [done..| |]; [done|].
  rewrite balance_cell_collected by done. by apply balance_cell_same.
Qed.

Lemma split_9 : valid_split 9 [0; 3; 6] [2; 5; 8].
Proof.
  split; try done.
  - intros [|[|[|t]]] s e; simpl; intros [= <-] [= <-]; lia.
  - intros [|[|[|t]]] e s; simpl; intros [= <-] [= <-]; lia.
Qed.

(** Three processes, nine cells; the cells of the first process took longest. If it is a slow process they are taken
    to be less work. *)
Example balance_nontrivial :
  let z := b64_of_Z in
  let t := [[z 6; z 6; z 6]; [z 1; z 1; z 1]; [z 1; z 1; z 1]] in
  measured [0; 3; 6] [2; 5; 8] t /\
  balance B64 true (z 1) 9 [0; 3; 6] [2; 5; 8] [z 1; z 1; z 1] [] t = Ret ([0; 1; 2], [0; 1; 8]) /\
  balance B64 true (z 1) 9 [0; 3; 6] [2; 5; 8] [z 3; z 1; z 1] [] t = Ret ([0; 1; 4], [0; 3; 8]) /\
  balance B64 false (z 1) 9 [0; 3; 6] [2; 5; 8] [] [z 9; z 3; z 3] [] = Ret ([0; 1; 5], [0; 4; 8]).
Proof.
  cbv zeta. split.
  { split; [done|]. intros [|[|[|p]]] s e l; simpl; intros [= <-] [= <-] [= <-]; done. }
  split; [vm_compute; reflexivity|]. split; vm_compute; reflexivity.
Qed.

(** One process measured nothing; the hypotheses of [balance_avg_completes] hold. *)
Example balance_avg_nontrivial :
  let z := b64_of_Z in
  let t := [z 9; z 0; z 3] in
  Forall ordinary_time t /\ Exists (pin (-100) 100) t /\
  balance B64 false (z 1) 9 [0; 3; 6] [2; 5; 8] [] t [] = Ret ([0; 1; 7], [0; 6; 8]).
Proof.
  cbv zeta.
  assert (P : forall n, 1 <= n <= 2 ^ 26 -> pin (-100) 100 (b64_of_Z n)).
  { intros n Hn. eapply pin_weaken; [| |apply (pin_of_Z n 26); lia]; lia. }
  split; [|split].
  - constructor; [right; apply P; lia|]. constructor; [left|].
    { destruct (b64_of_Z_correct 0 ltac:(lia)) as [E F]. by split. }
    constructor; [right; apply P; lia|constructor].
  - constructor. apply P. lia.
  - vm_compute. reflexivity.
Qed.

(** By averages, if no time was measured: NaN is converted to int. *)
Theorem balance_zero_times_refuted :
  exists f count ss es tt, is_finite f = true /\ (0 < B2R f <= 1)%R /\ valid_split count ss es /\
    length tt = length es /\ Forall (fun t => t = of_int B64 0) tt /\ balance B64 false f count ss es [] tt [] = UB.
Proof.
  exists (b64_of_Z 1), 9, [0; 3; 6], [2; 5; 8], [b64_of_Z 0; b64_of_Z 0; b64_of_Z 0].
  destruct (b64_of_Z_correct 1 ltac:(lia)) as [E F]. split; [done|]. split; [rewrite E; lra|].
  split; [apply split_9|]. split; [done|]. split; [repeat constructor|]. vm_compute. reflexivity.
Qed.

(** By averages the two builds differ: a time of zero is replaced by a quarter of the average time per cell here, and
    by a quarter of the average time of a thread there. *)
Theorem balance_avg_threads_refuted :
  exists f count ss es tt, valid_split count ss es /\ length tt = length es /\
    exists r r', balance B64 false f count ss es [] tt [] = Ret r /\ rebalance B64 false f count ss es tt [] = Ret r' /\
      r <> r'.
Proof.
  exists (b64_of_Z 1), 20, [0; 1; 10], [0; 9; 19], [b64_of_Z 1; b64_of_Z 0; b64_of_Z 30].
  split.
  { split; try done.
    - intros [|[|[|t]]] s e; simpl; intros [= <-] [= <-]; lia.
    - intros [|[|[|t]]] e s; simpl; intros [= <-] [= <-]; lia. }
  split; [done|]. exists ([0; 5; 19], [4; 18; 19]), ([0; 4; 19], [3; 18; 19]).
  split; [vm_compute; reflexivity|]. split; [vm_compute; reflexivity|]. discriminate.
Qed.
Print Assumptions balance_collects.
Print Assumptions balance_cell_partition.
Print Assumptions balance_avg_partition.
Print Assumptions balance_avg_completes.
Print Assumptions balance_as_threads.
Print Assumptions balance_zero_times_refuted.
Print Assumptions balance_avg_threads_refuted.
