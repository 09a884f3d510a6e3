From Coq Require Import ZArith Reals Lra Lia.
From Flocq Require Import Core BinarySingleNaN.
From stdpp Require Import prelude.
From Verif.Base Require Import Result Arith FloatStep B64.
From Verif.Partition Require Import EndCells Spec EndCellsProofs Rebalance RebalanceProofs RebalanceB64.
Local Open Scope Z_scope.

(** A fraction the user may pass: a finite double in (0,1]. *)
Definition fraction_in (lo hi : R) (f : b64) : Prop :=
  is_finite f = true /\ (lo <= B2R f <= hi)%R.

(** C05. By thread averages: for every valid distribution over up to 2^26
    cells, every fraction in (0,1] and every vector of measured times (also
    zero, negative, infinite or NaN), a rebalancing that completes gives a
    valid distribution over the same number of threads; and it never throws. *)
Theorem rebalance_avg_partition : forall f count ss es tt ct,
  is_finite f = true -> (0 < B2R f <= 1)%R -> count <= 2 ^ 26 ->
  valid_split count ss es -> length tt = length es ->
  match rebalance B64 false f count ss es tt ct with
  | Ret (ss', es') => valid_split count ss' es' /\ exactly_one_owner count ss' es' /\
                      length es' = length es
  | Throw => False
  | UB => True
  end.
Proof.
  intros f count ss es tt ct Hff Hf Hc V Lt. unfold rebalance.
  pose proof (valid_split_one_owner _ _ _ V).
  case_decide; [done|]. destruct (fleb B64 f (of_int B64 0)); [done|]. case_decide; [done|].
  destruct (rebalance_avg_spec B64 f count ss es tt V Lt (icells_avg_ok_b64 _ _ Hff Hf Hc))
    as [(ss' & es' & -> & V' & L')| ->]; [|done].
  split; [done|]. split; [by apply valid_split_one_owner|done].
Qed.
Print Assumptions rebalance_avg_partition.

(** C05. It completes whenever the measured times are ordinary: each one zero or
    between 2^-100 and 2^100, and at least one not zero. *)
Theorem rebalance_avg_completes : forall f count ss es tt ct,
  is_finite f = true -> (0 < B2R f <= 1)%R -> count <= 2 ^ 26 ->
  valid_split count ss es -> length tt = length es ->
  Forall ordinary_time tt -> Exists (pin (-100) 100) tt ->
  exists ss' es', rebalance B64 false f count ss es tt ct = Ret (ss', es').
Proof.
  intros f count ss es tt ct Hff Hf Hc V Lt HF HE. unfold rebalance.
  case_decide; [eauto|]. destruct (fleb B64 f (of_int B64 0)); [eauto|]. case_decide; [eauto|].
  destruct (rebalance_avg_spec B64 f count ss es tt V Lt (icells_avg_ok_b64 _ _ Hff Hf Hc))
    as [(ss' & es' & -> & V' & L')| E]; [eauto|].
  exfalso. revert E. apply rebalance_avg_defined; try done; lia.
Qed.
Print Assumptions rebalance_avg_completes.

(** C05. When all measured times are zero the code converts NaN to int. *)
Theorem rebalance_avg_zero_times_refuted :
  exists f count ss es tt,
    is_finite f = true /\ (0 < B2R f <= 1)%R /\ valid_split count ss es /\
    length tt = length es /\ Forall (fun t => t = of_int B64 0) tt /\
    rebalance B64 false f count ss es tt [] = UB.
Proof.
  exists (b64_of_Z 1), 4, [0; 2], [1; 3], [b64_of_Z 0; b64_of_Z 0].
  destruct (b64_of_Z_correct 1 ltac:(lia)) as [E F]. split; [done|].
  split; [rewrite E; lra|]. split.
  - split; try done.
    + intros [|[|t]] s e; simpl; intros [= <-] [= <-]; lia.
    + intros [|[|t]] e s; simpl; intros [= <-] [= <-]; lia.
  - split; [done|]. split; [repeat constructor|]. vm_compute. reflexivity.
Qed.
Print Assumptions rebalance_avg_zero_times_refuted.

(** C05/C06. A fraction <= 0, one thread, or fewer cells than threads: nothing
    moves -- in any arithmetic. *)
Theorem rebalance_off : forall (A : arith) by_cell f count ss es tt ct,
  fleb A f (of_int A 0) = true \/ (length es <= 1)%nat \/ count < Z.of_nat (length es) ->
  rebalance A by_cell f count ss es tt ct = Ret (ss, es).
Proof.
  intros A b f count ss es tt ct H. unfold rebalance.
  case_decide; [done|]. destruct (fleb A f (of_int A 0)); [done|]. case_decide; [done|].
  destruct H as [?|[?|?]]; [done|lia|lia].
Qed.
Print Assumptions rebalance_off.

(** C06. By cell: for fractions in [1/2,1] rebalancing always completes with a
    valid distribution, whatever the per-cell times are. *)
Theorem rebalance_cell_partition : forall f count ss es tt ct,
  fraction_in (1/2) 1 f -> count <= 2 ^ 26 ->
  valid_split count ss es -> Z.of_nat (length ct) = count ->
  exists ss' es', rebalance B64 true f count ss es tt ct = Ret (ss', es') /\
    valid_split count ss' es' /\ exactly_one_owner count ss' es' /\ length es' = length es.
Proof.
  intros f count ss es tt ct [Hff Hf] Hc V Lt. unfold rebalance.
  pose proof (valid_split_one_owner _ _ _ V).
  case_decide; [eauto 10|]. destruct (fleb B64 f (of_int B64 0)); [eauto 10|]. case_decide; [eauto 10|].
  destruct (rebalance_cell_spec B64 f count ss es ct V ltac:(lia) Lt (icells_cell_ok_b64 _ _ Hff Hf Hc))
    as (ss' & es' & -> & V' & L').
  eexists _, _. split; [done|]. split; [done|]. split; [by apply valid_split_one_owner|done].
Qed.
Print Assumptions rebalance_cell_partition.

(** C05/C06, independent of the floating-point format: the result is valid in
    every arithmetic in which truncating d*f is a step function of d. *)
Theorem rebalance_partition_any_arith : forall (A : arith) (by_cell : bool) f count ss es tt ct,
  icells_ok count (if by_cell then icells_cell A f else icells_avg A f) ->
  valid_split count ss es -> length tt = length es -> Z.of_nat (length ct) = count ->
  match rebalance A by_cell f count ss es tt ct with
  | Ret (ss', es') => valid_split count ss' es' /\ length es' = length es
  | Throw => False
  | UB => by_cell = false
  end.
Proof.
  intros A b f count ss es tt ct Hic V Lt Lc. unfold rebalance.
  case_decide; [done|]. destruct (fleb A f (of_int A 0)); [done|]. case_decide; [done|].
  destruct b.
  - destruct (rebalance_cell_spec A f count ss es ct V ltac:(lia) Lc Hic)
      as (ss' & es' & -> & V' & L'). done.
  - destruct (rebalance_avg_spec A f count ss es tt V Lt Hic)
      as [(ss' & es' & -> & V' & L')| ->]; done.
Qed.
Print Assumptions rebalance_partition_any_arith.

(** A non-trivial case: three threads, nine cells, unequal times, default
    fraction 0.5 -- cells do move in both modes. *)
Example rebalance_nontrivial :
  let z := b64_of_Z in
  valid_split 9 [0; 3; 6] [2; 5; 8] /\ fraction_in (1/2) 1 (b64_lit 1 2) /\
  rebalance B64 false (b64_lit 1 2) 9 [0; 3; 6] [2; 5; 8] [z 9; z 3; z 3] [] =
    Ret ([0; 2; 6], [1; 5; 8]) /\
  rebalance B64 false (b64_of_Z 1) 9 [0; 3; 6] [2; 5; 8] [z 9; z 3; z 3] [] =
    Ret ([0; 1; 5], [0; 4; 8]) /\
  rebalance B64 true (b64_lit 1 2) 9 [0; 3; 6] [2; 5; 8] []
    [z 1; z 1; z 1; z 1; z 1; z 1; z 1; z 1; z 20] = Ret ([0; 4; 7], [3; 6; 8]).
Proof.
  cbv zeta. split.
  { split; try done.
    - intros [|[|[|t]]] s e; simpl; intros [= <-] [= <-]; lia.
    - intros [|[|[|t]]] e s; simpl; intros [= <-] [= <-]; lia. }
  split.
  { unfold b64_lit. destruct (b64_of_Z_correct 1 ltac:(lia)) as [E1 F1].
    destruct (b64_of_Z_correct 2 ltac:(lia)) as [E2 F2].
    assert (Hh : (1 / 2 = bpow radix2 (-1))%R) by (simpl; lra).
    destruct (b64_div_correct (b64_of_Z 1) (b64_of_Z 2) F1) as [E F].
    - rewrite E2. lra.
    - rewrite E1, E2, Hh, Rabs_pos_eq by (apply bpow_ge_0). apply bpow_le. lia.
    - split; [exact F|]. rewrite E, E1, E2, Hh, rnd_bpow by lia. simpl. lra. }
  vm_compute. repeat split.
Qed.

(** C06 is false for fractions below 1/2, which the documentation allows:
    with fraction 0.15, four threads and 20 cells, thread 1 ends up with no
    cell at all (its range is 11..10). *)
Theorem rebalance_cell_empty_refuted :
  exists f count ss es ct ss' es',
    is_finite f = true /\ (0 < B2R f < 1/2)%R /\ valid_split count ss es /\
    Z.of_nat (length ct) = count /\
    rebalance B64 true f count ss es [] ct = Ret (ss', es') /\
    ~ valid_split count ss' es' /\ (exists t s e, ss' !! t = Some s /\ es' !! t = Some e /\ e < s).
Proof.
  set (z := b64_of_Z).
  exists (b64_lit 15 100), 20, [0; 5; 10; 15], [4; 9; 14; 19],
    (replicate 11 (z 2) ++ [z 10] ++ replicate 5 (z 1) ++ replicate 3 (z 21)),
    [0; 11; 11; 18], [10; 10; 17; 19].
  split; [vm_compute; reflexivity|]. split.
  { unfold b64_lit. destruct (b64_of_Z_correct 15 ltac:(lia)) as [E1 F1].
    destruct (b64_of_Z_correct 100 ltac:(lia)) as [E2 F2].
    assert (Hb : (bpow radix2 (-3) <= 15 / 100 <= bpow radix2 (-2))%R) by (simpl; lra).
    destruct (b64_div_correct (b64_of_Z 15) (b64_of_Z 100) F1) as [E F].
    - rewrite E2. lra.
    - rewrite E1, E2, Rabs_pos_eq by lra. pose proof (bpow_le radix2 (-2) 1000 ltac:(lia)). lra.
    - rewrite E, E1, E2. pose proof (rnd_in (-3) (-2) _ ltac:(lia) ltac:(lia) Hb) as Hr.
      simpl in Hr. lra. }
  split.
  { split; try done.
    - intros [|[|[|[|t]]]] s e; simpl; intros [= <-] [= <-]; lia.
    - intros [|[|[|[|t]]]] e s; simpl; intros [= <-] [= <-]; lia. }
  split; [reflexivity|]. split; [vm_compute; reflexivity|]. split.
  - intros V. pose proof (vs_nonempty _ _ _ V 1 11 10 eq_refl eq_refl). lia.
  - exists 1%nat, 11, 10. done.
Qed.
Print Assumptions rebalance_cell_empty_refuted.

(** ... and with fraction 1/8, five threads and 25 cells, cell 11 belongs to
    both thread 0 and thread 2. *)
Theorem rebalance_cell_overlap_refuted :
  exists f count ss es ct ss' es',
    is_finite f = true /\ (0 < B2R f < 1/2)%R /\ valid_split count ss es /\
    Z.of_nat (length ct) = count /\
    rebalance B64 true f count ss es [] ct = Ret (ss', es') /\
    owns ss' es' 0 11 /\ owns ss' es' 2 11.
Proof.
  set (z := b64_of_Z).
  exists (b64_lit 1 8), 25, [0; 5; 10; 15; 20], [4; 9; 14; 19; 24],
    (replicate 12 (b64_lit 3 2) ++ [z 5] ++ replicate 5 (z 1) ++ [z 15; z 10; z 15] ++ replicate 4 (z 8)),
    [0; 12; 11; 19; 20], [11; 10; 18; 19; 24].
  split; [vm_compute; reflexivity|]. split.
  { unfold b64_lit. destruct (b64_of_Z_correct 1 ltac:(lia)) as [E1 F1].
    destruct (b64_of_Z_correct 8 ltac:(lia)) as [E2 F2].
    assert (Hb : (bpow radix2 (-3) <= 1 / 8 <= bpow radix2 (-2))%R) by (simpl; lra).
    destruct (b64_div_correct (b64_of_Z 1) (b64_of_Z 8) F1) as [E F].
    - rewrite E2. lra.
    - rewrite E1, E2, Rabs_pos_eq by lra. pose proof (bpow_le radix2 (-2) 1000 ltac:(lia)). lra.
    - rewrite E, E1, E2. pose proof (rnd_in (-3) (-2) _ ltac:(lia) ltac:(lia) Hb) as Hr.
      simpl in Hr. lra. }
  split.
  { split; try done.
    - intros [|[|[|[|[|t]]]]] s e; simpl; intros [= <-] [= <-]; lia.
    - intros [|[|[|[|[|t]]]]] e s; simpl; intros [= <-] [= <-]; lia. }
  split; [reflexivity|]. split; [vm_compute; reflexivity|].
  split; [exists 0, 11 | exists 11, 18]; done.
Qed.
Print Assumptions rebalance_cell_overlap_refuted.

(** C05 for very large grids: above 2^29 cells the rounding of the product
    breaks the partition -- with fraction 1 - 5*2^-29, a grid of 2^29+9 cells and
    ordinary times, thread 1 is left with the empty range 2^29+2 .. 2^29+1.
    (Between 2^26 and 2^29 cells C05 is neither proved nor refuted here.) *)
Theorem rebalance_avg_large_grid_refuted :
  exists f count ss es tt ss' es',
    is_finite f = true /\ (0 < B2R f <= 1)%R /\ valid_split count ss es /\
    length tt = length es /\ count < 2 ^ 31 /\
    rebalance B64 false f count ss es tt [] = Ret (ss', es') /\
    exists t s e, ss' !! t = Some s /\ es' !! t = Some e /\ e < s.
Proof.
  exists (b64_lit (2 ^ 29 - 5) (2 ^ 29)), (2 ^ 29 + 9), [0; 1; 3], [0; 2; 2 ^ 29 + 8],
    [b64_of_Z 1; b64_of_Z (2 ^ 31); b64_of_Z ((2 ^ 29 + 6) * 2 ^ 30)],
    [0; 2 ^ 29 + 2; 2 ^ 29 + 2], [2 ^ 29 + 1; 2 ^ 29 + 1; 2 ^ 29 + 8].
  split; [vm_compute; reflexivity|]. split.
  { unfold b64_lit. destruct (b64_of_Z_correct 536870907 ltac:(lia)) as [E1 F1].
    change (2 ^ 29 - 5) with 536870907. change (2 ^ 29) with 536870912.
    destruct (b64_of_Z_correct 536870912 ltac:(lia)) as [E2 F2].
    assert (Hb : (bpow radix2 (-1) <= 536870907 / 536870912 <= bpow radix2 0)%R)
      by (simpl; lra).
    destruct (b64_div_correct (b64_of_Z 536870907) (b64_of_Z 536870912) F1) as [E F].
    - rewrite E2. lra.
    - rewrite E1, E2, Rabs_pos_eq by lra.
      apply Rle_trans with (bpow radix2 0); [exact (proj2 Hb)|apply bpow_le; lia].
    - rewrite E, E1, E2. pose proof (rnd_in (-1) 0 _ ltac:(lia) ltac:(lia) Hb) as Hr.
      simpl in Hr. lra. }
  split.
  { split; try done.
    - intros [|[|[|t]]] s e; simpl; intros [= <-] [= <-]; lia.
    - intros [|[|[|t]]] e s; simpl; intros [= <-] [= <-]; lia. }
  split; [done|]. split; [lia|]. split; [vm_compute; reflexivity|].
  exists 1%nat, (2 ^ 29 + 2), (2 ^ 29 + 1). done.
Qed.
Print Assumptions rebalance_avg_large_grid_refuted.
