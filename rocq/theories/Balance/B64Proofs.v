(** Balancing between processes by averages, in binary64: no undefined behaviour for ordinary times *)
From Coq Require Import ZArith Reals Lra Lia.
From Flocq Require Import Core BinarySingleNaN.
From stdpp Require Import prelude.
From Verif.Base Require Import Result Arith FloatStep B64.
From Verif.Partition Require Import EndCells Spec EndCellsProofs Rebalance RebalanceProofs RebalanceB64.
From Verif.Balance Require Import Model.
Local Open Scope R_scope.

Lemma quarter_pin : pin (-2) (-2) (b64_lit 1 4).
Proof.
  split; [vm_compute; done|].
  assert (B2R (b64_lit 1 4) = bpow radix2 (-2)) as ->; [|lra].
  unfold b64_lit.
  destruct (b64_of_Z_correct 1 ltac:(lia)) as [E1 F1].
  destruct (b64_of_Z_correct 4 ltac:(lia)) as [E4 F4].
  assert (Hq : 1 / 4 = bpow radix2 (-2)) by (simpl; lra).
  destruct (b64_div_correct (b64_of_Z 1) (b64_of_Z 4) F1) as [E _].
  - rewrite E4. lra.
  - rewrite E1, E4. rewrite Hq. rewrite Rabs_pos_eq by (apply bpow_ge_0). apply bpow_le. lia.
  - rewrite E, E1, E4, Hq. apply rnd_bpow. lia.
Qed.

(** Zero or in a range *)
Definition zero_or (lo hi : Z) (t : b64) : Prop := (is_finite t = true /\ B2R t = 0) \/ pin lo hi t.

Lemma divided t c : ordinary_time t -> (1 <= c <= 2 ^ 26)%Z ->
  zero_or (-126) 100 (b64_div t (b64_of_Z c)) /\ (pin (-100) 100 t -> pin (-126) 100 (b64_div t (b64_of_Z c))).
Proof.
  intros Ht Hc. pose proof (pin_of_Z c 26 Hc ltac:(lia)) as Hp.
  assert (Hd : pin (-100) 100 t -> pin (-126) 100 (b64_div t (b64_of_Z c))).
  { intros H. by destruct (pin_div (-100) 100 0 26 t (b64_of_Z c) ltac:(lia) ltac:(lia) H Hp) as [H' _]. }
  split; [|done]. destruct Ht as [[Hf Hz]|H]; [left|right; by apply Hd].
  pose proof (pin_pos _ _ _ Hp) as Hpos.
  assert (H0 : 0 / B2R (b64_of_Z c) = 0) by (unfold Rdiv; ring).
  destruct (b64_div_correct t (b64_of_Z c) Hf) as [E F].
  - lra.
  - rewrite Hz, H0, Rabs_R0. apply bpow_ge_0.
  - split; [done|]. rewrite E, Hz, H0. apply rnd_generic. apply generic_format_0.
Qed.

Lemma process_times_pin times sizes :
  (Z.of_nat (length times) <= 2 ^ 26)%Z -> length times = length sizes ->
  Forall ordinary_time times -> Exists (pin (-100) 100) times ->
  Forall (fun c => 1 <= c <= 2 ^ 26)%Z sizes ->
  Forall (pin (-154) 124) (process_times B64 times sizes).
Proof.
  intros Hlen Hl HF HE HS. unfold process_times.
  set (r := zip_with (fun (t : num B64) (c : Z) => fdiv B64 t (of_int B64 c)) times sizes).
  assert (Lr : length r = length times).
  { unfold r. rewrite zip_with_length, Nat.min_l; [done|]. rewrite <- Hl. apply Nat.le_refl. }
  assert (Hr : Forall (zero_or (-126) 100) r).
  { apply Forall_lookup. intros i x Hx. apply lookup_zip_with_Some in Hx as (t & c & -> & Ht & Hc).
    apply divided; [exact (Forall_lookup_1 _ _ _ _ HF Ht)|exact (Forall_lookup_1 _ _ _ _ HS Hc)]. }
  assert (He : exists x, x ∈ r /\ pin (-126) 100 x).
  { apply Exists_exists in HE as (t & Ht & Hp). apply elem_of_list_lookup in Ht as [i Hi].
    assert (is_Some (sizes !! i)) as [c Hc].
    { apply lookup_lt_is_Some. rewrite <- Hl. by eapply lookup_lt_Some. }
    exists (b64_div t (b64_of_Z c)). split.
    - apply elem_of_list_lookup. exists i. apply lookup_zip_with_Some. by exists t, c.
    - apply divided; [exact (Forall_lookup_1 _ _ _ _ HF Hi)|exact (Forall_lookup_1 _ _ _ _ HS Hc)|done]. }
  assert (Hn : (1 <= Z.of_nat (length times))%Z).
  { destruct times; [by apply Exists_nil in HE|simpl; lia]. }
  clearbody r. set (avg := fdiv B64 _ _).
  assert (Havg : pin (-152) 126 avg).
  { destruct (fsum_spec 100 r ltac:(lia)) as (H1 & H2 & H3).
    { change b64 with (num B64). rewrite Lr. exact Hlen. }
    { eapply Forall_impl; [exact Hr|]. intros x [[Hf Hz]|Hp]; [|by eapply pin_nonneg_le].
      split; [done|]. rewrite Hz. pose proof (bpow_gt_0 radix2 100). lra. }
    destruct He as (x & Hx & Hpx). rewrite Forall_forall in H3. specialize (H3 x Hx).
    assert (Hs : pin (-126) 126 (fsum B64 r)).
    { split; [done|]. destruct Hpx as [_ Hpx]. change (26 + 100)%Z with 126%Z in H2. lra. }
    destruct (pin_div (-126) 126 0 26 (fsum B64 r) (b64_of_Z (Z.of_nat (length times))))
      as [Hd _]; [lia|lia|done|apply pin_of_Z; lia|]. exact Hd. }
  clearbody avg. apply Forall_fmap. eapply Forall_impl; [exact Hr|]. intros x Hx.
  change (pin (-154) 124 (if Beqb x (b64_of_Z 0) then Bmult mode_NE (b64_lit 1 4) avg else x)).
  destruct (b64_of_Z_correct 0 ltac:(lia)) as [E0 F0]. destruct Hx as [[Hf Hz]|Hp].
  - rewrite Beqb_correct by done. rewrite Hz, E0. rewrite Req_bool_true by done.
    destruct (pin_mul (-2) (-2) (-152) 126 (b64_lit 1 4) avg) as [Hm _]; [lia|lia|apply quarter_pin|done|].
    exact Hm.
  - rewrite Beqb_correct; [|apply Hp|done]. rewrite E0. rewrite Req_bool_false.
    + eapply pin_weaken; [| |exact Hp]; lia.
    + pose proof (pin_pos _ _ _ Hp). lra.
Qed.

Lemma balance_avg_defined f count ss es times :
  valid_split count ss es -> length times = length es ->
  (count <= 2 ^ 26)%Z -> (Z.of_nat (length es) <= count)%Z ->
  Forall ordinary_time times -> Exists (pin (-100) 100) times ->
  is_finite f = true -> 0 < B2R f <= 1 ->
  balance_avg B64 f count ss es times <> UB.
Proof.
  intros V Lt Hc Hnt HF HE Hff Hf. unfold balance_avg.
  pose proof (vs_len _ _ _ V) as Lse. pose proof (vs_last _ _ _ V) as Hl.
  assert (Hne : (0 < length es)%nat) by (destruct es; [done|simpl; lia]).
  assert (Ls : length (range_sizes ss es) = length es).
  { unfold range_sizes. rewrite zip_with_length. lia. }
  assert (Lr : length (process_times B64 times (range_sizes ss es)) = length es).
  { unfold process_times. rewrite fmap_length, zip_with_length, Ls. rewrite Nat.min_r; [done|].
    change (length es <= length times)%nat. rewrite Lt. done. }
  assert (HS : Forall (fun c => 1 <= c <= 2 ^ 26)%Z (range_sizes ss es)).
  { apply Forall_lookup. intros i c Hi. unfold range_sizes in Hi.
    apply lookup_zip_with_Some in Hi as (s & e & -> & Hs & He).
    pose proof (vs_nonempty _ _ _ V _ _ _ Hs He).
    pose proof (valid_split_end_bounds _ _ _ _ _ V He).
    pose proof (lookup_lt_Some _ _ _ He).
    assert (0 <= s)%Z.
    { apply (owns_in_range count ss es i s V). exists s, e. repeat split; try done; lia. }
    lia. }
  assert (Hr : Forall (pin (-154) 124) (process_times B64 times (range_sizes ss es))).
  { apply process_times_pin; try done; [lia|]. exact (eq_trans Lt (eq_sym Ls)). }
  destruct (process_times B64 times (range_sizes ss es)) as [|r0 r] eqn:Er.
  { simpl in Lr. lia. }
  pose proof Hr as Hr'. apply Forall_cons in Hr' as [Hr0 _].
  destruct (floor_cells_some count r0 (r0 :: r)) as (cells0 & E & Hb);
    [lia| |done|done|done|].
  { change b64 with (num B64). rewrite Lr. lia. }
  rewrite E. pose proof (floor_cells_spec B64 _ _ _ _ E) as [L0 F0].
  assert (Hne0 : cells0 <> []). { intros ->. discriminate L0. }
  assert (exists cells, adjust_cells B64 count cells0 (r0 :: r) = Ret cells) as [cells Ea].
  { unfold adjust_cells. change (total_cells cells0) with (zsum cells0).
    destruct (decide _); [eauto|].
    apply remove_cells_some; try done. rewrite L0. simpl in Lr |- *. lia. }
  rewrite Ea. destruct (adjust_cells_spec _ _ _ _ _ Hne0 L0 F0 Ea) as (L1 & S1 & F1).
  assert (Hne1 : cells <> []). { intros ->. simpl in L1. lia. }
  pose proof (ranges_from_valid cells count Hne1 F1 S1) as Vn.
  destruct (ranges_from_length 0 cells) as [Ln1 Ln2].
  destruct (ranges_from 0 cells) as [ssn esn]. simpl in Vn, Ln1, Ln2.
  rewrite decide_True by apply Vn.
  destruct (fltb B64 _ _); [done|].
  assert (Lnn : length es = length esn) by (simpl in *; lia).
  destruct (shift_valid _ _ _ _ _ _ V Vn Lnn (icells_avg_ok_b64 count f Hff Hf Hc))
    as (ends & -> & _). done.
Qed.
