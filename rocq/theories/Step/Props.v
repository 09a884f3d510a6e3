(** C86, C87: the time that the cells are run for. *)
From Coq Require Import ZArith QArith Qabs Qcanon Lqa.
From stdpp Require Import prelude.
From Verif.Step Require Import Model Spec Round Proofs.
Open Scope Z_scope.
Open Scope list_scope.

(** ** C86: the times written for a cell *)

(** What is written for a time is a number of six digits, and none is nearer. *)
Theorem written_nearest v : six_digits (written v) /\ forall w, six_digits w -> (dist v (written v) <= dist v w)%Q.
Proof. split; [apply written_six|]. intros w. apply written_near. Qed.
Print Assumptions written_nearest.
Theorem written_bound v : (dist v (written v) <= (5 # 1000000) * size v)%Q.
Proof. apply written_error. Qed.
Print Assumptions written_bound.
Theorem written_same v : written v = v <-> six_digits v.
Proof. symmetry. apply written_exact. Qed.
Print Assumptions written_same.
Example written_case : this (written (Q2Qc (1234567 # 1))) = (1234570 # 1)%Q /\ this (written (Q2Qc (31536000 # 1))) = (31536000 # 1)%Q
  /\ this (written (Q2Qc (-123456785 # 100))) = (-1234570 # 1)%Q /\ this (written (Q2Qc (1 # 3))) = (333333 # 1000000)%Q
  /\ this (written (Q2Qc (9999995 # 10))) = (1000000 # 1)%Q /\ this (written (Q2Qc (2000005 # 10))) = (200000 # 1)%Q.
Proof. by vm_compute. Qed.

(** RunCells runs a cell that has a solution once. It reacts, if it has kinetics, for the time step as
    written, from the start of the step as written; without kinetics, for no time. Neither time can be taken
    for the mark that means "not given". *)
Theorem run_cells_time incremental cells time step i total rate :
  0 <= i -> c_sol (cells i) = true \/ c_mix (cells i) = true ->
  let q := run_cells incremental cells time step i total rate in
  exists e, q.1 = [e] /\ ev_cell e = i /\ ev_base e = written (time - step) /\ ev_start e = 0%Qc /\
    ev_kin e = (if c_kin (cells i) then written step else 0%Qc) /\ ev_after e = ev_kin e /\ ev_mix e = true /\
    q.2 = (written (time - step) + ev_kin e)%Qc.
Proof.
  intros Hi Hc q. unfold q. rewrite run_one by done. eexists. split; [reflexivity|].
  cbn [fst snd ev_cell ev_base ev_start ev_kin ev_after ev_mix]. unfold reacts. rewrite q1_0.
  by destruct (c_kin (cells i)).
Qed.
Print Assumptions run_cells_time.
(** A cell without solution and mix is not run. *)
Theorem run_cells_absent incremental cells time step i total rate :
  c_sol (cells i) = false -> c_mix (cells i) = false -> (run_cells incremental cells time step i total rate).1 = [].
Proof. intros H1 H2. apply run_none. by right. Qed.
Print Assumptions run_cells_absent.
Theorem written_not_mark v : written v <> na.
Proof. apply written_na. Qed.
Print Assumptions written_not_mark.

(** Where rates and USER_PUNCH of a cell with kinetics see the time, TOTAL_TIME at the end of the step is
    the time of the module up to five millionths of its parts; exactly so if both have six digits. *)
Theorem run_cells_clock incremental cells time step i total rate k e :
  0 <= i -> c_sol (cells i) = true \/ c_mix (cells i) = true -> c_kin (cells i) = Some k ->
  e ∈ (run_cells incremental cells time step i total rate).1 ->
  (dist (total_time (cells i) e) time <= (5 # 1000000) * (size (time - step) + size step))%Q /\
  (six_digits (time - step) -> six_digits step -> total_time (cells i) e = time /\ ev_kin e = step).
Proof.
  intros Hi Hc Hk He.
  destruct (run_cells_time incremental cells time step i total rate Hi Hc) as (e' & Hq & _ & Hb & _ & Ht & Ha & _).
  rewrite Hq in He. apply elem_of_list_singleton in He as ->. unfold total_time. rewrite Hk in *. rewrite Ha, Ht, Hb.
  split.
  - replace time with ((time - step) + step)%Qc at 2 by ring.
    eapply Qle_trans; [apply dist_plus|]. rewrite Qmult_plus_distr_r. apply Qplus_le_compat.
    + eapply Qle_trans; [|apply written_error]. unfold dist. rewrite <- Qabs_opp.
      match goal with |- (Qabs ?a <= Qabs ?b)%Q => assert (a == b)%Q as -> by ring end. apply Qle_refl.
    + eapply Qle_trans; [|apply written_error]. unfold dist. rewrite <- Qabs_opp.
      match goal with |- (Qabs ?a <= Qabs ?b)%Q => assert (a == b)%Q as -> by ring end. apply Qle_refl.
  - intros H1 H2. apply written_exact in H1, H2. rewrite H1, H2. split; [ring|done].
Qed.
Print Assumptions run_cells_clock.

(** A simulation: calls of RunCells with the times and steps set before each; all events of one cell. *)
Fixpoint simulate (incremental : bool) (cells : Z -> cell) (i : Z) (calls : list (Qc * Qc)) (total rate : Qc) : list event :=
  match calls with
  | [] => []
  | (time, step) :: calls' =>
    let q := run_cells incremental cells time step i total rate in
    q.1 ++ simulate incremental cells i calls' q.2 (last_rate rate q.1)
  end.
(** The cell reacts for as long as all steps as written take; this differs from the steps that were set by at
    most five millionths, and does not if they have six digits each. *)
Theorem simulate_reacts incremental cells i calls total rate :
  0 <= i -> c_sol (cells i) = true \/ c_mix (cells i) = true -> is_Some (c_kin (cells i)) ->
  let t := sum (ev_kin <$> simulate incremental cells i calls total rate) in
  length (simulate incremental cells i calls total rate) = length calls /\
  t = sum ((fun c => written c.2) <$> calls) /\
  (dist (sum (snd <$> calls)) t <= (5 # 1000000) * foldr (fun c q => size c.2 + q)%Q 0%Q calls)%Q /\
  (Forall (fun c => six_digits c.2) calls -> t = sum (snd <$> calls)).
Proof.
  intros Hi Hc [k Hk]. revert total rate. induction calls as [|[time step] calls IH]; intros total rate t.
  - split; [done|]. split; [done|]. split; [|done]. change (dist 0 0 <= (5 # 1000000) * 0)%Q. rewrite dist_refl. lra.
  - destruct (run_cells_time incremental cells time step i total rate Hi Hc) as (e & Hq & _ & _ & _ & Ht & _).
    unfold t. clear t. cbn [simulate]. set (q := run_cells _ _ _ _ _ _ _) in *.
    destruct (IH q.2 (last_rate rate q.1)) as (I1 & I2 & I3 & I4). clear IH.
    rewrite Hq in *. cbn [app fmap list_fmap length foldr fst snd]. rewrite Hk in Ht. cbn [sum] in *.
    change (sum (?a :: ?l)) with (a + sum l)%Qc. unfold sum in *. cbn [foldr fmap list_fmap snd]. rewrite Ht. split_and!.
    + by rewrite I1.
    + by rewrite I2.
    + eapply Qle_trans; [apply dist_plus|]. rewrite Qmult_plus_distr_r. apply Qplus_le_compat; [apply written_error|exact I3].
    + intros Hf. apply Forall_cons in Hf as [H1 H2]. cbn [snd] in H1. apply written_exact in H1. rewrite H1. by rewrite I4.
Qed.
Print Assumptions simulate_reacts.

Definition case_cell : cell := Cell true false (Some (Kin [Q2Qc 100] 1 false)) None None None.
Definition case_cells (i : Z) : cell := if decide (i = 3) then case_cell else Cell false false None None None None.
Example simulate_case :
  let day := Q2Qc (86400 # 1) in
  length (simulate false case_cells 3 [(day, day); (day + day, day)%Qc] 0%Qc 0%Qc) = 2%nat /\
  sum (ev_kin <$> simulate false case_cells 3 [(day, day); (day + day, day)%Qc] 0%Qc 0%Qc) = Q2Qc (172800 # 1) /\
  Forall (fun c : Qc * Qc => six_digits c.2) [(day, day); (day + day, day)%Qc].
Proof.
  split; [by vm_compute|]. split; [apply Qc_is_canon; by vm_compute|].
  repeat constructor; exists 86400, 0; split; [lia|by vm_compute|lia|by vm_compute].
Qed.

(** With a step of 1234567 s the cell reacts for 1234570 s; the difference is the same in every step. *)
Theorem simulate_drift_refuted : forall n : nat,
  let step := Q2Qc (1234567 # 1) in
  let calls := (fun k => (Q2Qc (inject_Z (Z.of_nat (S k))) * step, step)%Qc) <$> seq 0 n in
  sum (ev_kin <$> simulate false case_cells 3 calls 0%Qc 0%Qc) = (sum (snd <$> calls) + q1 (3 * Z.of_nat n))%Qc.
Proof.
  intros n step calls. destruct (simulate_reacts false case_cells 3 calls 0%Qc 0%Qc) as (_ & -> & _); [done|by left|by eexists|].
  unfold calls. generalize 0%nat. clear calls. induction n as [|n IH]; intros a.
  - cbn. apply Qc_is_canon. by vm_compute.
  - cbn [seq fmap list_fmap sum foldr snd]. unfold sum in *. cbn [foldr]. rewrite IH.
    replace (3 * Z.of_nat (S n)) with (3 + 3 * Z.of_nat n) by lia. rewrite q1_plus.
    assert (written step = step + q1 3)%Qc as -> by (apply Qc_is_canon; by vm_compute). ring.
Qed.
Print Assumptions simulate_drift_refuted.
(** After ten million seconds, a step of one second leaves TOTAL_TIME where it was. *)
Theorem clock_stands_refuted : exists t : Qc,
  let run time := (run_cells false case_cells time 1%Qc 3 0%Qc 0%Qc).1 in
  run t = run (t + 1)%Qc /\ exists e, run t = [e] /\ total_time case_cell e = t.
Proof.
  exists (Q2Qc (10000001 # 1)). intros run.
  assert (forall t, written (t - 1)%Qc = Q2Qc (10000000 # 1) -> exists e, run t = [e] /\ e = Event 3 1 (Q2Qc (10000000 # 1)) (q1 0) 1%Qc true 1%Qc) as H.
  { intros t Ht. unfold run. rewrite run_one by (done || by left). eexists. split; [reflexivity|]. rewrite Ht.
    assert (written 1%Qc = 1%Qc) as -> by (apply Qc_is_canon; by vm_compute). done. }
  destruct (H (Q2Qc (10000001 # 1))) as (e & H1 & E1); [apply Qc_is_canon; by vm_compute|].
  destruct (H (Q2Qc (10000001 # 1) + 1)%Qc) as (e' & H2 & E2); [apply Qc_is_canon; by vm_compute|].
  split; [rewrite H1, H2; congruence|]. exists e. split; [done|]. rewrite E1. apply Qc_is_canon. by vm_compute.
Qed.
Print Assumptions clock_stands_refuted.

(** ** C87: several steps *)

(** A RUN_CELLS block of the user, run by an instance in which RunCells has not been called: as many calls
    as the longest of the cell's definitions has steps. *)
Theorem steps_count incremental r i c base :
  length (run_cell incremental false r i c base) =
  Z.to_nat (Z.max 1 (Z.max (default 1 (c_rxn c)) (Z.max (default 1 (reaction_steps <$> c_kin c))
    (Z.max (default 1 (c_temp c)) (default 1 (c_press c)))))).
Proof. unfold run_cell. rewrite steps_length, count_max. done. Qed.
Print Assumptions steps_count.
(** With INCREMENTAL_REACTIONS the given time is divided: each call goes on where the one before ended and
    together they take the time step. Only the first mixes. *)
Theorem steps_incremental one r i c base : r_step r <> na -> is_Some (c_kin c) ->
  let es := run_cell true one r i c base in
  chained 0%Qc es (r_step r) /\ sum (ev_kin <$> es) = r_step r /\
  forall k e, es !! k = Some e -> ev_no e = Z.of_nat k + 1 /\ ev_cell e = i /\ ev_base e = base /\ (ev_mix e = true <-> k = 0%nat).
Proof.
  intros Hr Hk es. pose proof (count_pos one c) as Hp.
  assert (chained 0%Qc es (r_step r)) as H.
  { unfold es, run_cell. pose proof (inc_chained r i c base (count_steps one c) Hr Hk (Z.to_nat (count_steps one c)) 1 (q1 0)) as H.
    rewrite q1_0, Z2Nat.id in H by lia.
    replace (0 + q1 (count_steps one c) * (r_step r / q1 (count_steps one c)))%Qc with (r_step r) in H; [by rewrite q1_0|].
    field. apply q1_nonzero. lia. }
  split; [exact H|]. split.
  - apply chained_sum in H. rewrite Qcplus_0_l in H. done.
  - intros k e He. apply inc_at in He as (H1 & H2 & H3 & H4). split; [lia|]. split; [done|]. split; [done|]. rewrite H4. lia.
Qed.
Print Assumptions steps_incremental.
(** Otherwise every call starts anew; the last one takes the whole time step and the others their part. *)
Theorem steps_cumulative one r i c base : r_step r <> na -> is_Some (c_kin c) ->
  let es := run_cell false one r i c base in
  (forall k e, es !! k = Some e -> ev_no e = Z.of_nat k + 1 /\ ev_cell e = i /\ ev_base e = base /\ ev_mix e = true /\
     ev_start e = 0%Qc /\ ev_after e = ev_kin e /\
     (q1 (Z.of_nat (length es)) * ev_kin e = q1 (Z.of_nat k + 1) * r_step r)%Qc) /\
  (exists e, List.last (Some <$> es) None = Some e /\ ev_kin e = r_step r).
Proof.
  intros Hr Hk es. pose proof (count_pos one c) as Hp.
  assert (length es = Z.to_nat (count_steps one c)) as Hl by (unfold es, run_cell; by rewrite steps_length).
  assert (forall k e, es !! k = Some e -> ev_no e = Z.of_nat k + 1 /\ ev_cell e = i /\ ev_base e = base /\ ev_mix e = true /\
     ev_start e = 0%Qc /\ ev_after e = ev_kin e /\
     (q1 (Z.of_nat (length es)) * ev_kin e = q1 (Z.of_nat k + 1) * r_step r)%Qc) as H.
  { intros k e He. apply whole_at in He as (H1 & H2 & H3 & H4 & H5 & H6 & H7); [|done|done].
    split; [lia|]. split; [done|]. split; [done|]. split; [done|]. split; [by rewrite H2, q1_0|]. split; [done|].
    rewrite H4, Hl, Z2Nat.id by lia. replace (1 + Z.of_nat k) with (Z.of_nat k + 1) by lia.
    field. apply q1_nonzero. lia. }
  split; [exact H|]. destruct (es !! pred (length es)) as [e|] eqn:E.
  - exists e. split.
    + clear -E. destruct es as [|a es] using rev_ind; [done|]. rewrite app_length in E. cbn in E.
      replace (pred (length es + 1)) with (length es) in E by lia. rewrite lookup_app_r in E by lia.
      rewrite Nat.sub_diag in E. injection E as <-. rewrite fmap_app. cbn [fmap list_fmap]. by rewrite last_last.
    + destruct (H _ _ E) as (_ & _ & _ & _ & _ & _ & Hq).
      assert (Z.of_nat (pred (length es)) + 1 = Z.of_nat (length es)) as Ez by lia. rewrite Ez in Hq.
      assert (q1 (Z.of_nat (length es)) <> 0%Qc) as Hn by (apply q1_nonzero; lia).
      apply (Qcmult_integral_l _ (ev_kin e - r_step r)) in Hn.
      * rewrite <- (Qcplus_0_r (r_step r)), <- Hn. ring.
      * rewrite Qcmult_minus_distr_l || idtac. transitivity (q1 (Z.of_nat (length es)) * ev_kin e - q1 (Z.of_nat (length es)) * r_step r)%Qc; [ring|].
        rewrite Hq. ring.
  - apply lookup_ge_None in E. lia.
Qed.
Print Assumptions steps_cumulative.
Definition case_four : cell := Cell true false (Some (Kin [Q2Qc 100] 3 true)) (Some 2) (Some 4) None.
Definition case_runner := Runner (Q2Qc 12) (Q2Qc 5) [3] true.
Example steps_case : r_step case_runner <> na /\ is_Some (c_kin case_four) /\
  let times es := (fun e => this (ev_kin e)) <$> es in
  times (run_cell true false case_runner 3 case_four (Q2Qc 5)) = [3; 3; 3; 3]%Q /\
  times (run_cell false false case_runner 3 case_four (Q2Qc 5)) = [3; 6; 9; 12]%Q /\
  times (run_cell false true case_runner 3 case_four (Q2Qc 5)) = [12]%Q.
Proof. split; [intros H; discriminate (f_equal this H)|]. split; [by eexists|]. by vm_compute. Qed.

(** After the first RunCells the same block runs every cell in one step, as RunCells leaves its mark on. *)
Theorem steps_mark_refuted : length (run_cell false false case_runner 3 case_four (Q2Qc 5)) = 4%nat /\
  length (run_cell false true case_runner 3 case_four (Q2Qc 5)) = 1%nat.
Proof. done. Qed.
Print Assumptions steps_mark_refuted.

(** What is reported: the column "time" of selected output is the time step, 0 without kinetics ... *)
Theorem time_reported cells time step i total rate e :
  e ∈ (run_cells false cells time step i total rate).1 -> 0 <= i -> c_sol (cells i) = true \/ c_mix (cells i) = true ->
  time_column false (cells i) e = if c_kin (cells i) then written step else 0%Qc.
Proof.
  intros He Hi Hc. rewrite run_one in He by done. cbn [fst] in He. apply elem_of_list_singleton in He as ->.
  unfold time_column, reacts. cbn [ev_kin]. destruct (c_kin (cells i)); [done|apply q1_0].
Qed.
Print Assumptions time_reported.
(** ... but with INCREMENTAL_REACTIONS it is a time from the definition of the kinetics, which has nothing to
    do with the time step; and TOTAL_TIME is 0 in every cell without kinetics. *)
Theorem time_reported_refuted :
  (exists e, (run_cells true case_cells (Q2Qc 5) (Q2Qc 5) 3 0%Qc 0%Qc).1 = [e] /\ ev_kin e = Q2Qc 5 /\
     time_column true (case_cells 3) e = Q2Qc 100) /\
  (forall incremental cells time step i total rate e, c_kin (cells i) = None ->
     e ∈ (run_cells incremental cells time step i total rate).1 -> total_time (cells i) e = 0%Qc).
Proof.
  split.
  - rewrite run_one by (done || by left). eexists. split; [reflexivity|]. split; apply Qc_is_canon; by vm_compute.
  - intros inc cells time step i total rate e Hk _. unfold total_time. rewrite Hk. apply q1_0.
Qed.
Print Assumptions time_reported_refuted.

(** Several cells in one block: exactly those that have a solution or a mix are run, all from the same time. *)
Theorem block_cells incremental one cells r total rate : r_defined r = true ->
  let q := run_as_cells incremental one cells r total rate in
  (forall e, e ∈ q.1 -> ev_base e = (if decide (r_start r = na) then total else r_start r)) /\
  (forall i, (exists e, e ∈ q.1 /\ ev_cell e = i) <-> i ∈ r_cells r /\ 0 <= i /\ (c_sol (cells i) = true \/ c_mix (cells i) = true)).
Proof.
  intros Hd q. assert (forall i, runnable cells i = true <-> 0 <= i /\ (c_sol (cells i) = true \/ c_mix (cells i) = true)) as Hrun.
  { intros i. unfold runnable. by rewrite andb_true_iff, Z.leb_le, orb_true_iff. }
  assert (q.1 = concat (map (fun i => run_cell incremental one r i (cells i) (if decide (r_start r = na) then total else r_start r))
    (filter (fun i => runnable cells i = true) (r_cells r)))) as E.
  { unfold q, run_as_cells. rewrite Hd. by destruct (r_cells r). }
  rewrite E. split.
  - intros e He. apply in_concat in He as (i & _ & He). by apply events_of in He as [_ He].
  - intros i. split.
    + intros (e & He & Hi). apply in_concat in He as (j & Hj & He). apply events_of in He as [He _].
      rewrite Hi in He. subst j. apply elem_of_list_filter in Hj as [H1 H2]. split; [exact H2|]. by apply Hrun.
    + intros [H1 H2]. destruct (events_some incremental one r i (cells i) (if decide (r_start r = na) then total else r_start r)) as (e & He).
      exists e. split; [|by apply events_of in He as [He _]]. apply in_concat. exists i. split; [|done].
      apply elem_of_list_filter. split; [by apply Hrun|done].
Qed.
Print Assumptions block_cells.
(** The clock of the instance afterwards is set by the last cell that was run: it has moved on by the time
    step if that cell has kinetics, and not at all otherwise, whatever the cells before it have. *)
Theorem block_clock incremental one cells r total rate pre i : r_defined r = true -> r_step r <> na -> r_start r <> na ->
  filter (fun i => runnable cells i = true) (r_cells r) = pre ++ [i] ->
  (run_as_cells incremental one cells r total rate).2 = (r_start r + if c_kin (cells i) then r_step r else 0)%Qc.
Proof.
  intros Hd Hr Hs Hf. unfold run_as_cells. rewrite Hd, (decide_False (P := r_start r = na)) by done.
  destruct (r_cells r) as [|j l] eqn:Ec.
  { rewrite filter_nil in Hf. by destruct pre. }
  rewrite Hf, map_app, concat_app. cbn [map concat snd]. rewrite app_nil_r.
  destruct (run_cell_end incremental one r i (cells i) (r_start r) Hr) as (es & e & E1 & E2).
  rewrite E1, app_assoc, last_rate_app, E2. by destruct pre.
Qed.
Print Assumptions block_clock.
Definition case_pair (i : Z) : cell := if decide (i = 2) then Cell true false None None None None else case_cells i.
Example block_case :
  let r k := Runner (Q2Qc 12) (Q2Qc 5) k true in
  let n k := length (run_as_cells false true case_pair (r k) 0%Qc 0%Qc).1 in
  let t k := this (run_as_cells false true case_pair (r k) 0%Qc 0%Qc).2 in
  n [2; 3; 4] = 2%nat /\ t [2; 3; 4] = 17%Q /\ n [3; 2; 4] = 2%nat /\ t [3; 2; 4] = 5%Q /\
  filter (fun i => runnable case_pair i = true) [2; 3; 4] = [2] ++ [3].
Proof. by vm_compute. Qed.
