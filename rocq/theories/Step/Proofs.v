From Coq Require Import ZArith QArith Qabs Qcanon Lqa.
From stdpp Require Import prelude.
From Verif.Step Require Import Model Spec Round.
Open Scope Z_scope.
Open Scope list_scope.

Lemma q1_1 : q1 1 = 1%Qc.
Proof. by apply Qc_is_canon. Qed.
Lemma q1_0 : q1 0 = 0%Qc.
Proof. by apply Qc_is_canon. Qed.
Lemma q1_plus a b : q1 (a + b) = (q1 a + q1 b)%Qc.
Proof. apply Qc_is_canon. unfold q1, Qcplus, Q2Qc. cbn [this]. rewrite !Qred_correct. by rewrite inject_Z_plus. Qed.
Lemma q1_nonzero n : n <> 0 -> q1 n <> 0%Qc.
Proof.
  intros H E. apply H. assert (inject_Z n == 0)%Q as E'.
  { assert (this (q1 n) == 0)%Q as E1 by (by rewrite E). unfold q1, Q2Qc in E1. cbn [this] in E1. by rewrite Qred_correct in E1. }
  unfold Qeq, inject_Z in E'. cbn in E'. lia.
Qed.

(** * One cell, one step *)
Definition reacts (c : cell) (t : Qc) : Qc := if c_kin c then t else q1 0.

Lemma read_lines time step i :
  read_run_cells (run_cells_lines time step i) = Runner (written step) (written (time - step)) [i] true.
Proof.
  unfold read_run_cells, run_cells_lines. cbn [fold_left read_line r_step r_start r_cells r_defined]. f_equal.
  unfold augment. replace (i - i + 1) with 1 by lia. change (Z.to_nat 1) with 1%nat. cbn [seq fmap list_fmap app]. by rewrite Z.add_0_r.
Qed.
Lemma run_one incremental cells time step i total rate :
  0 <= i -> c_sol (cells i) = true \/ c_mix (cells i) = true ->
  run_cells incremental cells time step i total rate =
    ([Event i 1 (written (time - step)) (q1 0) (reacts (cells i) (written step)) true (reacts (cells i) (written step))],
     (written (time - step) + reacts (cells i) (written step))%Qc).
Proof.
  intros Hi Hc. unfold run_cells. rewrite read_lines. unfold run_as_cells. cbn [r_step r_start r_cells r_defined].
  rewrite decide_False by apply written_na.
  assert (runnable cells i = true) as Hr.
  { unfold runnable. apply andb_true_iff. split; [by apply Z.leb_le|]. by apply orb_true_iff. }
  assert (filter (λ k : Z, runnable cells k = true) [i] = [i]) as ->.
  { rewrite filter_cons, decide_True by done. done. }
  cbn [map concat]. rewrite app_nil_r.
  assert (run_cell incremental true (Runner (written step) (written (time - step)) [i] true) i (cells i) (written (time - step))
    = [Event i 1 (written (time - step)) (q1 0) (reacts (cells i) (written step)) true (reacts (cells i) (written step))]) as ->.
  { unfold run_cell. cbn [count_steps]. change (Z.to_nat 1) with 1%nat. cbn [steps_from]. f_equal.
    assert (kin_time incremental (Runner (written step) (written (time - step)) [i] true) (cells i) 1 1
      = reacts (cells i) (written step)) as ->.
    { unfold kin_time, reacts. cbn [r_step]. destruct (c_kin (cells i)); [|done].
      rewrite decide_False by apply written_na. rewrite !q1_1.
      destruct incremental; field; discriminate. }
    rewrite q1_0. destruct incremental; [|done]. f_equal. ring. }
  done.
Qed.
Lemma run_none incremental cells time step i total rate :
  i < 0 \/ (c_sol (cells i) = false /\ c_mix (cells i) = false) ->
  (run_cells incremental cells time step i total rate).1 = [].
Proof.
  intros H. unfold run_cells. rewrite read_lines. unfold run_as_cells. cbn [r_step r_start r_cells r_defined].
  assert (filter (λ k : Z, runnable cells k = true) [i] = []) as ->; [|done].
  rewrite filter_cons, decide_False; [done|]. unfold runnable. intros E.
  apply andb_true_iff in E as [E1 E2]. apply Z.leb_le in E1. apply orb_true_iff in E2.
  destruct H as [H|[H1 H2]]; [lia|]. rewrite H1, H2 in E2. by destruct E2.
Qed.

(** * Distances *)
Lemma dist_plus a b c d : (dist (a + b) (c + d) <= dist a c + dist b d)%Q.
Proof.
  unfold dist, Qcplus, Q2Qc. cbn [this]. rewrite !Qred_correct.
  setoid_replace (this a + this b - (this c + this d))%Q with ((this a - this c) + (this b - this d))%Q by ring.
  apply Qabs_triangle.
Qed.
Lemma dist_refl a : (dist a a == 0)%Q.
Proof. unfold dist. setoid_replace (this a - this a)%Q with 0%Q by ring. reflexivity. Qed.

(** * Several steps *)
Lemma steps_length inc r i c base count n : forall no start, length (steps_from inc r i c base count n no start) = n.
Proof. induction n as [|n IH]; intros no start; cbn; [done|]. by rewrite IH. Qed.

Section Several.
Context (r : runner) (i : Z) (c : cell) (base : Qc) (count : Z).
Hypothesis Hr : r_step r <> na.
Hypothesis Hk : is_Some (c_kin c).

Lemma inc_kin no : kin_time true r c count no = (r_step r / q1 count)%Qc.
Proof using Hr Hk. destruct Hk as [k E]. unfold kin_time. rewrite E. by rewrite decide_False. Qed.
Lemma whole_kin no : kin_time false r c count no = (q1 no * r_step r / q1 count)%Qc.
Proof using Hr Hk. destruct Hk as [k E]. unfold kin_time. rewrite E. by rewrite decide_False. Qed.

Lemma inc_chained n : forall no start,
  chained start (steps_from true r i c base count n no start) (start + q1 (Z.of_nat n) * (r_step r / q1 count))%Qc.
Proof using Hr Hk.
  induction n as [|n IH]; intros no start.
  - cbn [steps_from]. replace (start + q1 (Z.of_nat 0) * (r_step r / q1 count))%Qc with start by (change (Z.of_nat 0) with 0; rewrite q1_0; ring). constructor.
  - cbn [steps_from]. rewrite inc_kin. constructor; [done|done|]. cbn [ev_kin].
    replace (start + q1 (Z.of_nat (S n)) * (r_step r / q1 count))%Qc
      with (start + r_step r / q1 count + q1 (Z.of_nat n) * (r_step r / q1 count))%Qc; [apply IH|].
    rewrite Nat2Z.inj_succ, <- Z.add_1_r, q1_plus, q1_1. ring.
Qed.
Lemma whole_at n : forall no start k e, steps_from false r i c base count n no start !! k = Some e ->
  ev_no e = no + Z.of_nat k /\ ev_start e = start /\ ev_mix e = true /\
  ev_kin e = (q1 (no + Z.of_nat k) * r_step r / q1 count)%Qc /\ ev_after e = ev_kin e /\ ev_cell e = i /\ ev_base e = base.
Proof using Hr Hk.
  induction n as [|n IH]; intros no start k e H; [done|]. cbn [steps_from] in H. rewrite whole_kin in H.
  destruct k as [|k].
  - injection H as <-. cbn. by rewrite Z.add_0_r.
  - cbn in H. destruct (IH (no + 1) start k e H) as (H1 & H2 & H3 & H4 & H5 & H6).
    replace (no + Z.of_nat (S k)) with (no + 1 + Z.of_nat k) by lia. done.
Qed.
End Several.
Lemma inc_at r i c base count n : forall no start k e, steps_from true r i c base count n no start !! k = Some e ->
  ev_no e = no + Z.of_nat k /\ ev_cell e = i /\ ev_base e = base /\ (ev_mix e = true <-> no + Z.of_nat k = 1).
Proof.
  induction n as [|n IH]; intros no start k e H; [done|]. cbn [steps_from] in H. destruct k as [|k].
  - injection H as <-. cbn. rewrite Z.add_0_r. split; [done|]. split; [done|]. split; [done|]. apply Z.eqb_eq.
  - cbn in H. destruct (IH (no + 1) _ k e H) as (H1 & H2 & H3 & H4).
    replace (no + Z.of_nat (S k)) with (no + 1 + Z.of_nat k) by lia. done.
Qed.
Lemma chained_sum a es b : chained a es b -> b = (a + sum (ev_kin <$> es))%Qc.
Proof.
  induction 1 as [a|a e es b _ _ _ IH]; cbn; [by rewrite Qcplus_0_r|]. rewrite IH. cbn. by rewrite Qcplus_assoc.
Qed.
Lemma count_max c : count_steps false c =
  Z.max 1 (Z.max (default 1 (c_rxn c)) (Z.max (default 1 (reaction_steps <$> c_kin c))
    (Z.max (default 1 (c_temp c)) (default 1 (c_press c))))).
Proof.
  assert (forall n o, 1 <= n -> more n o = Z.max n (default 1 o)) as H.
  { intros n [o|] Hn; unfold more, default, from_option, id; [|lia]. destruct (Z.ltb_spec n o); lia. }
  unfold count_steps. rewrite (H 1 (c_rxn c)) by lia. rewrite (H _ (reaction_steps <$> c_kin c)) by lia. rewrite (H _ (c_temp c)) by lia.
  rewrite (H _ (c_press c)) by lia. lia.
Qed.
Lemma count_pos one c : 1 <= count_steps one c.
Proof. destruct one; [done|]. rewrite count_max. lia. Qed.

(** * Several cells *)
Lemma events_of inc one r i c base e : e ∈ run_cell inc one r i c base -> ev_cell e = i /\ ev_base e = base.
Proof.
  unfold run_cell. generalize (count_steps one c) at 1, (Z.to_nat (count_steps one c)), 1, (q1 0). intros count n.
  induction n as [|n IH]; intros no start H; cbn [steps_from] in H; [by apply elem_of_nil in H|].
  apply elem_of_cons in H as [->|H]; [done|]. by eapply IH.
Qed.
Lemma events_some inc one r i c base : exists e, e ∈ run_cell inc one r i c base.
Proof.
  pose proof (count_pos one c) as H. unfold run_cell. destruct (Z.to_nat (count_steps one c)) eqn:E; [lia|].
  cbn [steps_from]. eexists. apply elem_of_list_here.
Qed.
Lemma in_concat {A B} (f : A -> list B) (l : list A) (e : B) : e ∈ concat (map f l) <-> exists a, a ∈ l /\ e ∈ f a.
Proof.
  induction l as [|a l IH]; cbn [map concat].
  - split; [intros H; by apply elem_of_nil in H|]. intros (a & H & _). by apply elem_of_nil in H.
  - rewrite elem_of_app, IH. split.
    + intros [H|(b & H1 & H2)]; [exists a; split; [apply elem_of_list_here|done]|exists b; split; [by apply elem_of_list_further|done]].
    + intros (b & H1 & H2). apply elem_of_cons in H1 as [->|H1]; [by left|right; by exists b].
Qed.
Lemma last_rate_app rate es e : last_rate rate (es ++ [e]) = ev_after e.
Proof. unfold last_rate. by rewrite rev_app_distr. Qed.
Lemma steps_end inc r i c base count n : forall no start, exists es e,
  steps_from inc r i c base count (S n) no start = es ++ [e] /\
  (inc = false -> ev_after e = kin_time false r c count (no + Z.of_nat n)).
Proof.
  induction n as [|n IH]; intros no start.
  - eexists [], _. split; [reflexivity|]. intros ->. cbn [ev_after]. by rewrite Z.add_0_r.
  - destruct (IH (no + 1) (if inc then start + kin_time inc r c count no else start)%Qc) as (es & e & E1 & E2).
    cbn [steps_from] in *. rewrite E1. eexists (_ :: es), e. split; [reflexivity|]. intros H.
    replace (no + Z.of_nat (S n)) with (no + 1 + Z.of_nat n) by lia. by apply E2.
Qed.
Lemma chained_last a es e b : chained a (es ++ [e]) b -> ev_after e = b.
Proof.
  revert a. induction es as [|e' es IH]; intros a H; cbn in H.
  - inversion H as [|? ? ? ? H1 H2 H3]; subst. inversion H3; subst. done.
  - inversion H; subst. by eapply IH.
Qed.
Lemma run_cell_end inc one r i c base : r_step r <> na -> exists es e, run_cell inc one r i c base = es ++ [e] /\
  ev_after e = if c_kin c then r_step r else 0%Qc.
Proof.
  intros Hr. pose proof (count_pos one c) as Hp. unfold run_cell. set (count := count_steps one c) in *.
  destruct (Z.to_nat count) as [|n] eqn:En; [lia|].
  destruct (steps_end inc r i c base count n 1 (q1 0)) as (es & e & E1 & E2). exists es, e. split; [done|].
  assert (q1 count <> 0%Qc) as Hn by (apply q1_nonzero; lia).
  destruct (c_kin c) as [k|] eqn:Ek.
  - destruct inc.
    + pose proof (inc_chained r i c base count Hr ltac:(by eexists) (S n) 1 (q1 0)) as H. rewrite E1 in H.
      apply chained_last in H. rewrite H. replace (Z.of_nat (S n)) with count by lia. rewrite q1_0. field. done.
    + rewrite E2 by done. unfold kin_time. rewrite Ek, decide_False by done. replace (1 + Z.of_nat n) with count by lia.
      field. done.
  - destruct inc.
    + assert (forall m no start, start = 0%Qc -> forall e', e' ∈ steps_from true r i c base count m no start -> ev_after e' = 0%Qc) as H.
      { clear -Ek. induction m as [|m IH]; intros no start -> e' H; cbn [steps_from] in H; [by apply elem_of_nil in H|].
        unfold kin_time in H. rewrite Ek, q1_0, Qcplus_0_r in H. apply elem_of_cons in H as [->|H]; [done|]. by eapply IH. }
      apply (H (S n) 1 (q1 0)); [apply q1_0|]. rewrite E1. apply elem_of_app. right. apply elem_of_list_here.
    + rewrite E2 by done. unfold kin_time. by rewrite Ek, q1_0.
Qed.
