(** Load balancing computed in binary64. *)
From Coq Require Import ZArith Reals Lra Lia.
From Flocq Require Import Core BinarySingleNaN.
From stdpp Require Import prelude.
From Verif.Base Require Import Result Arith FloatStep B64.
From Verif.Partition Require Import EndCells Spec EndCellsProofs Rebalance RebalanceProofs.

Local Open Scope Z_scope.

(** ** The shift functions are step functions *)

Definition clamp (d : Z) : Z := Z.max (- 2 ^ 26) (Z.min (2 ^ 26) d).

Lemma clamp_step_fun (F : R) :
  generic_format radix2 fexp64 F -> (0 < F <= 1)%R -> step_fun (fun d => prod_int F (clamp d)).
Proof.
  intros Hf HF. split; [apply prod_int_0|]. intros d. unfold clamp.
  destruct (decide (d < - 2 ^ 26)); [replace (Z.max (- 2 ^ 26) (Z.min (2 ^ 26) (d + 1)))
    with (Z.max (- 2 ^ 26) (Z.min (2 ^ 26) d)) by lia; lia|].
  destruct (decide (2 ^ 26 <= d)); [replace (Z.max (- 2 ^ 26) (Z.min (2 ^ 26) (d + 1)))
    with (Z.max (- 2 ^ 26) (Z.min (2 ^ 26) d)) by lia; lia|].
  replace (Z.max (- 2 ^ 26) (Z.min (2 ^ 26) d)) with d by lia.
  replace (Z.max (- 2 ^ 26) (Z.min (2 ^ 26) (d + 1))) with (d + 1) by lia.
  apply prod_int_step; [done|done|lia].
Qed.

Lemma icells_avg_ok_b64 count (f : b64) :
  is_finite f = true -> (0 < B2R f <= 1)%R -> count <= 2 ^ 26 ->
  icells_ok count (icells_avg B64 f).
Proof.
  intros Hff Hf Hc. exists (fun d => prod_int (B2R f) (clamp d)).
  split; [apply clamp_step_fun; [apply b64_format|done]|].
  intros d Hd. unfold icells_avg. simpl. rewrite b64_to_int_prod by (done || lia).
  do 2 f_equal. unfold clamp. lia.
Qed.

Lemma step_fun_zero_fix (g : Z -> Z) :
  step_fun g -> (forall d, g (- d) = - g d) -> 1 <= g 2 ->
  step_fun (fun d => if decide (g d = 0) then clamp d else g d).
Proof.
  intros Hg Hodd H2. pose proof Hg as [H0 Hs].
  assert (Hpos : forall d, 2 <= d -> 1 <= g d).
  { intros d Hd. pose proof (step_fun_mono g Hg 2 (d - 2) ltac:(lia)) as Hm.
    replace (2 + (d - 2)) with d in Hm by lia. lia. }
  assert (Hneg : forall d, d <= -2 -> g d <= -1).
  { intros d Hd. pose proof (Hpos (- d) ltac:(lia)) as Hp. rewrite Hodd in Hp. lia. }
  assert (H1 : 0 <= g 1 <= 1). { pose proof (step_fun_bounds g 1 Hg). lia. }
  assert (H22 : g 2 <= 2). { pose proof (step_fun_bounds g 2 Hg). lia. }
  assert (Hm1 : g (-1) = - g 1) by apply (Hodd 1).
  assert (Hm2 : g (-2) = - g 2) by apply (Hodd 2).
  split.
  - rewrite decide_True by done. done.
  - intros d. pose proof (Hs d).
    destruct (decide (2 <= d)).
    { pose proof (Hpos d ltac:(lia)). pose proof (Hpos (d + 1) ltac:(lia)).
      rewrite !decide_False by lia. lia. }
    destruct (decide (d <= -3)).
    { pose proof (Hneg d ltac:(lia)). pose proof (Hneg (d + 1) ltac:(lia)).
      rewrite !decide_False by lia. lia. }
    assert (d = -2 \/ d = -1 \/ d = 0 \/ d = 1) as [-> | [-> | [-> | ->]]] by lia;
      [change (-2 + 1) with (-1) in * | change (-1 + 1) with 0 in *
       | change (0 + 1) with 1 in * | change (1 + 1) with 2 in *];
      change (clamp (-2)) with (-2); change (clamp (-1)) with (-1);
      change (clamp 0) with 0; change (clamp 1) with 1; change (clamp 2) with 2;
      repeat destruct (decide _); lia.
Qed.

Lemma icells_cell_ok_b64 count (f : b64) :
  is_finite f = true -> (1/2 <= B2R f <= 1)%R -> count <= 2 ^ 26 ->
  icells_ok count (icells_cell B64 f).
Proof.
  intros Hff Hf Hc.
  set (g := fun d => prod_int (B2R f) (clamp d)).
  assert (Hg : step_fun g) by (apply clamp_step_fun; [apply b64_format|lra]).
  exists (fun d => if decide (g d = 0) then clamp d else g d). split.
  - apply step_fun_zero_fix; [done|..].
    + intros d. unfold g. replace (clamp (- d)) with (- clamp d) by (unfold clamp; lia).
      apply prod_int_opp.
    + unfold g. replace (clamp 2) with 2 by (unfold clamp; lia).
      unfold prod_int. rewrite <- (Ztrunc_IZR 1) at 1. apply Ztrunc_le.
      rewrite <- (rnd_Z 1) by lia. apply rnd_mono. lra.
  - intros d Hd. unfold icells_cell. simpl. rewrite b64_to_int_prod by (done || lra || lia).
    unfold g. replace (clamp d) with d by (unfold clamp; lia). done.
Qed.

(** ** Positive finite intervals *)

Local Open Scope R_scope.

Definition pin (lo hi : Z) (x : b64) : Prop :=
  is_finite x = true /\ bpow radix2 lo <= B2R x <= bpow radix2 hi.

Lemma pin_pos lo hi x : pin lo hi x -> 0 < B2R x.
Proof. intros [_ [H _]]. pose proof (bpow_gt_0 radix2 lo). lra. Qed.

Lemma pin_weaken lo hi lo' hi' x : (lo' <= lo)%Z -> (hi <= hi')%Z -> pin lo hi x -> pin lo' hi' x.
Proof.
  intros H1 H2 [Hf [Ha Hb]]. split; [done|].
  pose proof (bpow_le radix2 _ _ H1). pose proof (bpow_le radix2 _ _ H2). lra.
Qed.

Lemma rnd_generic x : generic_format radix2 fexp64 x -> rnd x = x.
Proof. intros H. apply round_generic; [apply valid_rnd_N|done]. Qed.

Lemma rnd_bpow e : (-1000 <= e <= 1000)%Z -> rnd (bpow radix2 e) = bpow radix2 e.
Proof.
  intros H. apply rnd_generic. apply generic_format_bpow. rewrite fexp64_eq. lia.
Qed.

Lemma rnd_in lo hi x : (-1000 <= lo)%Z -> (hi <= 1000)%Z ->
  bpow radix2 lo <= x <= bpow radix2 hi -> bpow radix2 lo <= rnd x <= bpow radix2 hi.
Proof.
  intros H1 H2 [Ha Hb].
  assert (Hlh : (lo <= hi)%Z). { apply (le_bpow radix2). lra. }
  split.
  - rewrite <- (rnd_bpow lo) by lia. by apply rnd_mono.
  - rewrite <- (rnd_bpow hi) by lia. by apply rnd_mono.
Qed.

Lemma rnd_factor2 x : bpow radix2 (-999) <= x <= bpow radix2 999 -> x / 2 <= rnd x <= 2 * x.
Proof.
  intros [Ha Hb]. pose proof (bpow_gt_0 radix2 (-999)).
  destruct (mag radix2 x) as [e He]. simpl in He. specialize (He ltac:(lra)).
  rewrite Rabs_pos_eq in He by lra.
  assert (H1 : (-999 < e)%Z). { apply (lt_bpow radix2). lra. }
  assert (H2 : (e - 1 <= 999)%Z). { apply (le_bpow radix2). lra. }
  pose proof (rnd_in (e - 1) e x ltac:(lia) ltac:(lia) ltac:(lra)) as Hr.
  assert (Hd : bpow radix2 e = 2 * bpow radix2 (e - 1)).
  { replace e with (e - 1 + 1)%Z at 1 by lia. rewrite bpow_plus.
    change (bpow radix2 1) with 2. ring. }
  lra.
Qed.

Lemma bpow_div_bounds a b c d x y :
  bpow radix2 a <= x <= bpow radix2 b -> bpow radix2 c <= y <= bpow radix2 d ->
  bpow radix2 (a - d) <= x / y <= bpow radix2 (b - c).
Proof.
  intros Hx Hy.
  pose proof (bpow_gt_0 radix2 a). pose proof (bpow_gt_0 radix2 c). pose proof (bpow_gt_0 radix2 d).
  unfold Z.sub. rewrite !bpow_plus, !bpow_opp. unfold Rdiv.
  split; apply Rmult_le_compat; try lra; try (left; apply Rinv_0_lt_compat; lra);
    apply Rinv_le; lra.
Qed.

Lemma pin_mul a b c d x y :
  (-1000 <= a + c)%Z -> (b + d <= 1000)%Z ->
  pin a b x -> pin c d y ->
  pin (a + c) (b + d) (Bmult mode_NE x y) /\
  B2R (Bmult mode_NE x y) = rnd (B2R x * B2R y).
Proof.
  intros H1 H2 Hx Hy. pose proof (pin_pos _ _ _ Hx). pose proof (pin_pos _ _ _ Hy).
  destruct Hx as [Hfx Hx]. destruct Hy as [Hfy Hy].
  pose proof (bpow_gt_0 radix2 a). pose proof (bpow_gt_0 radix2 c).
  assert (Hb : bpow radix2 (a + c) <= B2R x * B2R y <= bpow radix2 (b + d)).
  { rewrite !bpow_plus. split; apply Rmult_le_compat; lra. }
  destruct (b64_mul_correct x y Hfx Hfy) as [E F].
  { rewrite Rabs_pos_eq by nra. apply Rle_trans with (bpow radix2 (b + d)); [lra|].
    by apply bpow_le. }
  split; [|done]. split; [done|]. rewrite E. by apply rnd_in.
Qed.

Lemma pin_div a b c d x y :
  (-1000 <= a - d)%Z -> (b - c <= 1000)%Z ->
  pin a b x -> pin c d y ->
  pin (a - d) (b - c) (b64_div x y) /\ B2R (b64_div x y) = rnd (B2R x / B2R y).
Proof.
  intros H1 H2 Hx Hy. pose proof (pin_pos _ _ _ Hx). pose proof (pin_pos _ _ _ Hy).
  destruct Hx as [Hfx Hx]. destruct Hy as [Hfy Hy].
  pose proof (bpow_gt_0 radix2 a). pose proof (bpow_gt_0 radix2 c). pose proof (bpow_gt_0 radix2 d).
  assert (Hb : bpow radix2 (a - d) <= B2R x / B2R y <= bpow radix2 (b - c)).
  { replace (a - d)%Z with (a + - d)%Z by lia. replace (b - c)%Z with (b + - c)%Z by lia.
    rewrite !bpow_plus, !bpow_opp. unfold Rdiv.
    split; apply Rmult_le_compat; try lra; try (left; by apply Rinv_0_lt_compat);
      apply Rinv_le; lra. }
  destruct (b64_div_correct x y Hfx) as [E F].
  { lra. }
  { rewrite Rabs_pos_eq.
    - apply Rle_trans with (bpow radix2 (b - c)); [lra|]. by apply bpow_le.
    - pose proof (bpow_gt_0 radix2 (a - d)). lra. }
  split; [|done]. split; [done|]. rewrite E. by apply rnd_in.
Qed.

Lemma pin_of_Z n k : (1 <= n <= 2 ^ k)%Z -> (0 <= k <= 53)%Z -> pin 0 k (b64_of_Z n).
Proof.
  intros Hn Hk.
  assert (2 ^ k <= 2 ^ 53)%Z by (apply Z.pow_le_mono_r; lia).
  destruct (b64_of_Z_correct n ltac:(lia)) as [E F].
  split; [done|]. rewrite E. split.
  - change (bpow radix2 0) with (IZR 1). apply IZR_le. lia.
  - rewrite <- IZR_Zpower by lia. apply IZR_le. simpl. lia.
Qed.

(** Sums of non-negative terms. *)
Definition nonneg_le (hi : Z) (x : b64) : Prop :=
  is_finite x = true /\ 0 <= B2R x <= bpow radix2 hi.

Lemma format_scaled k hi : (0 <= k <= 2 ^ 26)%Z -> (-900 <= hi <= 900)%Z ->
  generic_format radix2 fexp64 (IZR k * bpow radix2 hi).
Proof.
  intros Hk Hhi. apply (generic_format_FLT radix2 (-1074) 53).
  exists (Float radix2 k hi); unfold F2R; simpl; try lia. done.
Qed.

Lemma fsum_from_spec hi l (s : b64) (k : Z) :
  (-900 <= hi <= 900)%Z -> (0 <= k)%Z -> (k + Z.of_nat (length l) <= 2 ^ 26)%Z ->
  Forall (nonneg_le hi) l ->
  is_finite s = true -> 0 <= B2R s <= IZR k * bpow radix2 hi ->
  let t := foldl (Bplus mode_NE) s l in
  is_finite t = true /\ B2R s <= B2R t <= IZR (k + Z.of_nat (length l)) * bpow radix2 hi /\
  Forall (fun x => B2R x <= B2R t) l.
Proof.
  intros Hhi. revert s k. induction l as [|x l IH]; intros s k Hk Hlen HF Hfs Hs.
  { simpl. rewrite Z.add_0_r. split; [done|]. split; [lra|constructor]. }
  apply Forall_cons in HF as [[Hfx Hx] HF]. simpl length in Hlen.
  pose proof (bpow_gt_0 radix2 hi) as Hp.
  assert (HIk : 0 <= IZR k) by (apply IZR_le; lia).
  assert (Hsum : 0 <= B2R s + B2R x <= IZR (k + 1) * bpow radix2 hi).
  { rewrite plus_IZR. lra. }
  assert (Hbig : IZR (k + 1) * bpow radix2 hi <= bpow radix2 1000).
  { apply Rle_trans with (bpow radix2 26 * bpow radix2 hi).
    - apply Rmult_le_compat_r; [lra|]. change (bpow radix2 26) with (IZR (2 ^ 26)).
      apply IZR_le. lia.
    - rewrite <- bpow_plus. apply bpow_le. lia. }
  destruct (b64_add_correct s x Hfs Hfx) as [E F].
  { rewrite Rabs_pos_eq by lra. lra. }
  assert (Hr : B2R s <= rnd (B2R s + B2R x) /\ B2R x <= rnd (B2R s + B2R x) /\
               rnd (B2R s + B2R x) <= IZR (k + 1) * bpow radix2 hi).
  { split; [|split].
    - rewrite <- (rnd_generic (B2R s)) at 1 by apply b64_format. apply rnd_mono. lra.
    - rewrite <- (rnd_generic (B2R x)) at 1 by apply b64_format. apply rnd_mono. lra.
    - rewrite <- (rnd_generic (IZR (k + 1) * bpow radix2 hi)) by (apply format_scaled; lia).
      apply rnd_mono. lra. }
  destruct (IH (Bplus mode_NE s x) (k + 1)%Z) as (H1 & H2 & H3); [lia|lia|done|done|rewrite E; lra|].
  cbn [foldl]. split; [done|]. rewrite E in H2.
  replace (k + Z.of_nat (length (x :: l)))%Z with (k + 1 + Z.of_nat (length l))%Z by (simpl; lia).
  split; [lra|]. constructor; [lra|done].
Qed.

Lemma fsum_spec hi l :
  (-900 <= hi <= 900)%Z -> (Z.of_nat (length l) <= 2 ^ 26)%Z -> Forall (nonneg_le hi) l ->
  is_finite (fsum B64 l) = true /\ 0 <= B2R (fsum B64 l) <= bpow radix2 (26 + hi) /\
  Forall (fun x => B2R x <= B2R (fsum B64 l)) l.
Proof.
  intros Hhi Hlen HF. unfold fsum. simpl.
  destruct (b64_of_Z_correct 0 ltac:(lia)) as [E F].
  destruct (fsum_from_spec hi l (b64_of_Z 0) 0 Hhi ltac:(lia) ltac:(lia) HF F) as (H1 & H2 & H3).
  { rewrite E. lra. }
  split; [done|]. rewrite E in H2. split; [|done].
  rewrite bpow_plus. pose proof (bpow_gt_0 radix2 hi).
  destruct H2 as [H2a H2b]. split; [exact H2a|]. apply Rle_trans with (IZR (0 + Z.of_nat (length l)) * bpow radix2 hi); [exact H2b|].
  apply Rmult_le_compat_r; [lra|]. change (bpow radix2 26) with (IZR (2 ^ 26)). apply IZR_le. lia.
Qed.

Lemma pin_nonneg_le lo hi x : pin lo hi x -> nonneg_le hi x.
Proof. intros H. pose proof (pin_pos _ _ _ H). destruct H as [Hf H]. split; [done|lra]. Qed.

(** ** No undefined behaviour for ordinary times *)

(** A measured time is zero or between 2^-100 and 2^100 (seconds). *)
Definition ordinary_time (t : b64) : Prop := (is_finite t = true /\ B2R t = 0) \/ pin (-100) 100 t.

Lemma ordinary_nonneg t : ordinary_time t -> nonneg_le 100 t.
Proof.
  intros [[Hf Hz]|Hp].
  - split; [done|]. rewrite Hz. pose proof (bpow_gt_0 radix2 100). lra.
  - eapply pin_nonneg_le, Hp.
Qed.

Lemma per_cell_times_pin times sizes :
  (Z.of_nat (length times) <= 2 ^ 26)%Z -> length times = length sizes ->
  Forall ordinary_time times -> Exists (pin (-100) 100) times ->
  Forall (fun c => 1 <= c <= 2 ^ 26)%Z sizes ->
  Forall (pin (-154) 124) (per_cell_times B64 times sizes).
Proof.
  intros Hlen Hl HF HE HS. unfold per_cell_times.
  assert (Hn : (1 <= Z.of_nat (length times))%Z).
  { destruct times; [by apply Exists_nil in HE|simpl; lia]. }
  set (avg := fdiv B64 _ _).
  assert (Havg : pin (-126) 126 avg).
  { destruct (fsum_spec 100 times ltac:(lia) Hlen) as (H1 & H2 & H3).
    { eapply Forall_impl; [exact HF|]. apply ordinary_nonneg. }
    apply Exists_exists in HE as (x & Hx & Hpx). rewrite Forall_forall in H3.
    specialize (H3 x Hx).
    assert (Hs : pin (-100) 126 (fsum B64 times)).
    { split; [done|]. destruct Hpx as [_ Hpx]. change (26 + 100)%Z with 126%Z in H2. lra. }
    destruct (pin_div (-100) 126 0 26 (fsum B64 times) (b64_of_Z (Z.of_nat (length times))))
      as [Hd _]; [lia|lia|done|apply pin_of_Z; lia|]. exact Hd. }
  clearbody avg. apply Forall_lookup. intros i x Hx.
  apply lookup_zip_with_Some in Hx as (t & c & -> & Ht & Hc).
  pose proof (Forall_lookup_1 _ _ _ _ HF Ht) as HFt. pose proof (Forall_lookup_1 _ _ _ _ HS Hc) as HSc.
  clear HF HS. rename HFt into HF, HSc into HS.
  unfold time_per_cell. simpl in HF, HS.
  assert (Ht' : pin (-128) 124 (if feqb B64 t (of_int B64 0) then fmul B64 (quarter B64) avg else t)).
  { change (pin (-128) 124 (if Beqb t (b64_of_Z 0) then Bmult mode_NE (b64_lit 1 4) avg else t)).
    destruct (b64_of_Z_correct 0 ltac:(lia)) as [E0 F0].
    destruct HF as [[Hf Hz]|Hp].
    - rewrite Beqb_correct by done. rewrite Hz, E0. rewrite Req_bool_true by done.
      assert (Hq : pin (-2) (-2) (b64_lit 1 4)).
      { split; [vm_compute; done|].
        assert (B2R (b64_lit 1 4) = bpow radix2 (-2)) as ->; [|lra].
        unfold b64_lit.
        destruct (b64_of_Z_correct 1 ltac:(lia)) as [E1 F1].
        destruct (b64_of_Z_correct 4 ltac:(lia)) as [E4 F4].
        assert (Hq : 1 / 4 = bpow radix2 (-2)) by (simpl; lra).
        destruct (b64_div_correct (b64_of_Z 1) (b64_of_Z 4) F1) as [E _].
        - rewrite E4. lra.
        - rewrite E1, E4. rewrite Hq. rewrite Rabs_pos_eq by (apply bpow_ge_0). apply bpow_le. lia.
        - rewrite E, E1, E4, Hq. apply rnd_bpow. lia. }
      destruct (pin_mul (-2) (-2) (-126) 126 (b64_lit 1 4) avg) as [Hm _]; [lia|lia|done|done|].
      exact Hm.
    - rewrite Beqb_correct; [|apply Hp|done]. rewrite E0. rewrite Req_bool_false.
      + eapply pin_weaken; [| |exact Hp]; lia.
      + pose proof (pin_pos _ _ _ Hp). lra. }
  destruct (pin_div (-128) 124 0 26 _ (b64_of_Z c) ltac:(lia) ltac:(lia) Ht') as [Hd _];
    [apply pin_of_Z; lia|]. exact Hd.
Qed.

Lemma floor_to_int_small (v : b64) :
  is_finite v = true -> 0 <= B2R v <= IZR (2 ^ 30) ->
  exists n, b64_floor_to_int v = Some n /\ (0 <= n <= 2 ^ 30)%Z.
Proof.
  intros Hf Hv. unfold b64_floor_to_int, b64_to_int.
  destruct (Bnearbyint_correct 53 1024 _ mode_DN v) as (E & F & _).
  rewrite F, Hf, Btrunc_Ztrunc, E.
  assert (Er : round radix2 (FIX_exp 0) (round_mode mode_DN) (B2R v) = IZR (Zfloor (B2R v))).
  { unfold round, scaled_mantissa, F2R, cexp, FIX_exp. simpl. by rewrite !Rmult_1_r. }
  rewrite Er, Ztrunc_IZR.
  assert (0 <= Zfloor (B2R v) <= 2 ^ 30)%Z as Hb.
  { split.
    - apply Zfloor_lub. simpl. lra.
    - apply le_IZR. apply Rle_trans with (B2R v); [apply Zfloor_lb|lra]. }
  exists (Zfloor (B2R v)). rewrite (proj2 (Z.leb_le _ _)), (proj2 (Z.leb_le _ _)) by lia.
  done.
Qed.

Lemma floor_cells_some count (r0 : b64) (r : list b64) :
  (1 <= count <= 2 ^ 26)%Z -> (Z.of_nat (length r) <= 2 ^ 26)%Z ->
  pin (-154) 124 r0 -> Forall (pin (-154) 124) r -> r <> [] ->
  let total := fsum B64 ((fun x => fdiv B64 r0 x) <$> r) in
  let new_n := fdiv B64 (of_int B64 count) total in
  exists cells, floor_cells B64 new_n r0 r = Some cells /\
    Forall (fun c => 1 <= c <= 2 ^ 30)%Z cells.
Proof.
  intros Hc Hlen H0 HF Hne total new_n.
  assert (Hq : forall x, pin (-154) 124 x ->
     pin (-278) 278 (b64_div r0 x) /\ B2R (b64_div r0 x) = rnd (B2R r0 / B2R x)).
  { intros x Hx. destruct (pin_div (-154) 124 (-154) 124 r0 x) as [? ?]; [lia|lia|done|done|].
    done. }
  destruct (fsum_spec 278 ((fun x => fdiv B64 r0 x) <$> r)) as (H1 & H2 & H3); [lia| | |].
  { by rewrite fmap_length. }
  { apply Forall_fmap. eapply Forall_impl; [exact HF|]. intros x Hx. unfold compose.
    eapply pin_nonneg_le. apply Hq. done. }
  fold total in H1, H2, H3.
  assert (Htot : pin (-278) 304 total).
  { split; [done|]. destruct r as [|x r']; [done|]. apply Forall_cons in HF as [Hx _].
    apply Forall_cons in H3 as [H3 _]. simpl in H3.
    destruct (Hq x Hx) as [[_ Hp] _]. change (26 + 278)%Z with 304%Z in H2. lra. }
  destruct (pin_div 0 26 (-278) 304 (b64_of_Z count) total) as [Hnn En];
    [lia|lia|apply pin_of_Z; lia|done|].
  change (pin (0 - 304) (26 - -278) new_n) in Hnn.
  change (B2R new_n = rnd (B2R (b64_of_Z count) / B2R total)) in En.
  destruct (b64_of_Z_correct count ltac:(lia)) as [Ec _]. rewrite Ec in En.
  pose proof (pin_pos _ _ _ Htot) as Htp. pose proof (pin_pos _ _ _ H0) as H0p.
  assert (HcR : 1 <= IZR count <= IZR (2 ^ 26)) by (split; apply IZR_le; lia).
  destruct (pin_mul (0 - 304) (26 - -278) (-154) 124 new_n r0) as [Hm Em];
    [lia|lia|done|done|].
  assert (Hall : forall x, pin (-154) 124 x -> B2R (b64_div r0 x) <= B2R total ->
     exists n, b64_floor_to_int (b64_div (Bmult mode_NE new_n r0) x) = Some n /\ (0 <= n <= 2 ^ 30)%Z).
  { intros x Hx Hxt. pose proof (pin_pos _ _ _ Hx) as Hxp.
    destruct (Hq x Hx) as [Hqp Eq].
    destruct (pin_div (0 - 304 + -154) (26 - -278 + 124) (-154) 124 (Bmult mode_NE new_n r0) x)
      as [Hv Ev]; [lia|lia|done|done|].
    apply floor_to_int_small; [apply Hv|]. split; [left; eapply pin_pos, Hv|].
    (* factor-2 bounds of every rounding *)
    set (T := B2R total) in *. set (R0 := B2R r0) in *. set (X := B2R x) in *.
    assert (Hb1 : R0 / X / 2 <= T).
    { apply Rle_trans with (rnd (R0 / X)); [|lra]. apply rnd_factor2.
      destruct H0 as [_ H0]. destruct Hx as [_ Hx]. fold R0 in H0. fold X in Hx.
      assert (Hbb : bpow radix2 (-278) <= R0 / X <= bpow radix2 278).
      { exact (bpow_div_bounds (-154) 124 (-154) 124 _ _ H0 Hx). }
      pose proof (bpow_le radix2 (-999) (-278) ltac:(lia)).
      pose proof (bpow_le radix2 278 999 ltac:(lia)). lra. }
    assert (Hb2 : B2R new_n <= 2 * (IZR count / T)).
    { rewrite En. apply rnd_factor2. destruct Htot as [_ Htot]. fold T in Htot.
      assert (Hbb : bpow radix2 (-304) <= IZR count / T <= bpow radix2 304).
      { apply (bpow_div_bounds 0 26 (-278) 304); [|exact Htot]. exact HcR. }
      pose proof (bpow_le radix2 (-999) (-304) ltac:(lia)).
      pose proof (bpow_le radix2 304 999 ltac:(lia)). lra. }
    pose proof (pin_pos _ _ _ Hnn) as Hnp.
    assert (Hb3 : B2R (Bmult mode_NE new_n r0) <= 2 * (B2R new_n * R0)).
    { rewrite Em. apply rnd_factor2. destruct Hnn as [_ Hnn]. destruct H0 as [_ H0]. fold R0 in H0.
      assert (Hbb : bpow radix2 (-304 + -154) <= B2R new_n * R0 <= bpow radix2 (304 + 124)).
      { rewrite !bpow_plus. pose proof (bpow_gt_0 radix2 (-304)). pose proof (bpow_gt_0 radix2 (-154)).
        change (0 - 304)%Z with (-304)%Z in Hnn. change (26 - -278)%Z with 304%Z in Hnn.
        split; apply Rmult_le_compat; lra. }
      pose proof (bpow_le radix2 (-999) (-304 + -154) ltac:(lia)).
      pose proof (bpow_le radix2 (304 + 124) 999 ltac:(lia)). lra. }
    pose proof (pin_pos _ _ _ Hm) as Hmp.
    assert (Hb4 : B2R (b64_div (Bmult mode_NE new_n r0) x) <= 2 * (B2R (Bmult mode_NE new_n r0) / X)).
    { rewrite Ev. apply rnd_factor2. destruct Hm as [_ Hm]. destruct Hx as [_ Hx]. fold X in Hx.
      pose proof (bpow_div_bounds _ _ _ _ _ _ Hm Hx) as Hbb.
      pose proof (bpow_le radix2 (-999) (0 - 304 + -154 - 124) ltac:(lia)).
      pose proof (bpow_le radix2 (26 - -278 + 124 - -154) 999 ltac:(lia)). lra. }
    (* combine *)
    assert (Hx' : R0 / X <= 2 * T) by lra.
    assert (Hc1 : B2R new_n * R0 / X <= 4 * IZR count).
    { apply Rle_trans with (2 * (IZR count / T) * (R0 / X)).
      - replace (B2R new_n * R0 / X) with (B2R new_n * (R0 / X)) by (field; lra).
        apply Rmult_le_compat_r; [|lra]. left. apply Rdiv_lt_0_compat; lra.
      - apply Rle_trans with (2 * (IZR count / T) * (2 * T)).
        + apply Rmult_le_compat_l; [|lra]. apply Rmult_le_pos; [lra|].
          left. apply Rdiv_lt_0_compat; lra.
        + right. field. lra. }
    apply Rle_trans with (2 * (2 * (B2R new_n * R0) / X)).
    - apply Rle_trans with (2 * (B2R (Bmult mode_NE new_n r0) / X)); [exact Hb4|].
      apply Rmult_le_compat_l; [lra|]. unfold Rdiv. apply Rmult_le_compat_r; [|lra].
      left. by apply Rinv_0_lt_compat.
    - replace (2 * (2 * (B2R new_n * R0) / X)) with (4 * (B2R new_n * R0 / X)) by (field; lra).
      change (IZR (2 ^ 30)) with (IZR (16 * 2 ^ 26)). rewrite mult_IZR. lra. }
  clearbody new_n total. rewrite Forall_fmap in H3. clear Hne H1 H2 Hm Em En Hnn Hq Hlen.
  induction r as [|x r IH]; cbn [floor_cells].
  { exists []. split; [done|constructor]. }
  apply Forall_cons in HF as [Hx HF]. apply Forall_cons in H3 as [Hxt H3].
  destruct (IH HF H3) as (cells & E & HFc).
  destruct (Hall x Hx Hxt) as (n & En & Hn).
  change (floor_to_int B64 (fdiv B64 (fmul B64 new_n r0) x)) with
    (b64_floor_to_int (b64_div (Bmult mode_NE new_n r0) x)).
  rewrite En, E. eexists. split; [done|]. constructor; [|done].
  destruct (decide (n < 1)%Z); lia.
Qed.

Lemma argmax_none i mt cells (r : list b64) :
  argmax B64 i None mt cells r = None ->
  forall k c x, cells !! k = Some c -> r !! k = Some x -> (c > 1)%Z ->
    Bltb mt (Bmult mode_NE (b64_of_Z (c - 1)) x) = false.
Proof.
  revert i r. induction cells as [|c cells IH]; intros i r; cbn [argmax].
  { intros _ k c x Hc. done. }
  destruct r as [|y r]; [intros _ k c' x _ Hx; done|].
  assert (Hsome : forall cells i m mt r, argmax B64 i (Some m) mt cells r <> None).
  { clear. induction cells as [|c cells IH]; intros i m mt r; cbn [argmax]; [done|].
    destruct r; [done|]. destruct (decide _); [|apply IH]. destruct (fltb _ _ _); apply IH. }
  destruct (decide (c > 1)%Z) as [Hc|Hc].
  - destruct (fltb B64 _ _) eqn:E; [intros H; by apply Hsome in H|].
    intros H [|k] c' x; simpl.
    + intros [= <-] [= <-] _. exact E.
    + intros ? ?. by eapply (IH (S i) r).
  - intros H [|k] c' x; simpl.
    + intros [= <-] _ ?. lia.
    + intros ? ?. by eapply (IH (S i) r).
Qed.

Lemma exists_big (cells : list Z) :
  Forall (fun c => 1 <= c)%Z cells -> (Z.of_nat (length cells) < zsum cells)%Z ->
  exists k c, cells !! k = Some c /\ (c > 1)%Z.
Proof.
  induction cells as [|c cells IH]; intros HF Hs; [simpl in Hs; lia|].
  apply Forall_cons in HF as [Hc HF]. rewrite zsum_cons in Hs. simpl length in Hs.
  destruct (decide (c > 1)%Z); [by exists 0%nat, c|].
  destruct (IH HF ltac:(lia)) as (k & c' & ? & ?). by exists (S k), c'.
Qed.

Lemma remove_cells_some k cells (r : list b64) :
  Forall (fun c => 1 <= c <= 2 ^ 30)%Z cells -> length cells = length r ->
  Forall (pin (-154) 124) r ->
  (Z.of_nat k <= zsum cells - Z.of_nat (length cells))%Z ->
  exists cells', remove_cells B64 k cells r = Ret cells'.
Proof.
  revert cells. induction k as [|k IH]; intros cells HF Hl Hr Hk; cbn [remove_cells]; [eauto|].
  destruct (argmax B64 0 None (of_int B64 0) cells r) as [i|] eqn:E.
  - pose proof (argmax_spec B64 _ _ _ _ _ _ E) as [?|(_ & c & Hc & H1)]; [done|].
    rewrite Nat.sub_0_r in Hc. apply IH.
    + apply Forall_lookup. intros t y Hy. rewrite Forall_lookup in HF.
      destruct (decide (t = i)) as [->|Hne].
      * rewrite list_lookup_alter, Hc in Hy. simpl in Hy. injection Hy as <-.
        specialize (HF _ _ Hc). simpl in HF. lia.
      * rewrite list_lookup_alter_ne in Hy by done. by eapply HF.
    + by rewrite alter_length.
    + done.
    + rewrite (zsum_alter (fun c => (c - 1)%Z) (-1)%Z _ _ _ Hc) by (intros; lia).
      rewrite alter_length. lia.
  - exfalso. destruct (exists_big cells) as (t & c & Hc & H1); [|lia|].
    { eapply Forall_impl; [exact HF|]. simpl. lia. }
    destruct (lookup_lt_is_Some_2 r t) as [x Hx].
    { rewrite <- Hl. by eapply lookup_lt_Some. }
    pose proof (argmax_none _ _ _ _ E _ _ _ Hc Hx H1) as Hlt.
    pose proof (Forall_lookup_1 _ _ _ _ HF Hc) as HF'. pose proof (Forall_lookup_1 _ _ _ _ Hr Hx) as Hr'.
    simpl in HF'.
    destruct (pin_mul 0 30 (-154) 124 (b64_of_Z (c - 1)) x) as [Hp _]; [lia|lia| |done|].
    { apply pin_of_Z; lia. }
    destruct (b64_of_Z_correct 0 ltac:(lia)) as [E0 F0].
    change (of_int B64 0) with (b64_of_Z 0) in Hlt.
    rewrite Bltb_correct in Hlt; [|done|apply Hp]. rewrite E0 in Hlt.
    rewrite Rlt_bool_true in Hlt; [done|]. eapply pin_pos, Hp.
Qed.

Lemma rebalance_avg_defined f count ss es times :
  valid_split count ss es -> length times = length es ->
  (count <= 2 ^ 26)%Z -> (Z.of_nat (length es) <= count)%Z ->
  Forall ordinary_time times -> Exists (pin (-100) 100) times ->
  is_finite f = true -> 0 < B2R f <= 1 ->
  rebalance_avg B64 f count ss es times <> UB.
Proof.
  intros V Lt Hc Hnt HF HE Hff Hf. unfold rebalance_avg.
  pose proof (vs_len _ _ _ V) as Lse. pose proof (vs_last _ _ _ V) as Hl.
  assert (Hne : (0 < length es)%nat) by (destruct es; [done|simpl; lia]).
  assert (Ls : length (range_sizes ss es) = length es).
  { unfold range_sizes. rewrite zip_with_length. lia. }
  assert (Lr : length (per_cell_times B64 times (range_sizes ss es)) = length es).
  { rewrite per_cell_times_length; [exact Ls|]. exact (eq_trans Lt (eq_sym Ls)). }
  assert (HS : Forall (fun c => 1 <= c <= 2 ^ 26)%Z (range_sizes ss es)).
  { apply Forall_lookup. intros i c Hi. unfold range_sizes in Hi.
    apply lookup_zip_with_Some in Hi as (s & e & -> & Hs & He).
    pose proof (vs_nonempty _ _ _ V _ _ _ Hs He).
    pose proof (valid_split_end_bounds _ _ _ _ _ V He).
    pose proof (lookup_lt_Some _ _ _ He).
    assert (0 <= s)%Z.
    { apply (owns_in_range count ss es i s V). exists s, e. repeat split; try done; lia. }
    lia. }
  assert (Hr : Forall (pin (-154) 124) (per_cell_times B64 times (range_sizes ss es))).
  { apply per_cell_times_pin; try done; [lia|]. exact (eq_trans Lt (eq_sym Ls)). }
  destruct (per_cell_times B64 times (range_sizes ss es)) as [|r0 r] eqn:Er.
  { simpl in Lr. lia. }
  pose proof Hr as Hr'. apply Forall_cons in Hr' as [Hr0 _].
  destruct (floor_cells_some count r0 (r0 :: r)) as (cells0 & E & Hb);
    [lia| |done|done|done|].
  { change b64 with (num B64). rewrite Lr. lia. }
  rewrite E. pose proof (floor_cells_spec B64 _ _ _ _ E) as [L0 F0].
  assert (Hne0 : cells0 <> []). { intros ->. discriminate L0. }
  assert (exists cells, adjust_cells B64 count cells0 (r0 :: r) = Ret cells) as [cells Ea].
  { unfold adjust_cells. change (total_cells cells0) with (zsum cells0).
    destruct (decide _); [eauto|].
    apply remove_cells_some; try done. rewrite L0. simpl in Lr |- *. lia. }
  rewrite Ea. destruct (adjust_cells_spec _ _ _ _ _ Hne0 L0 F0 Ea) as (L1 & S1 & F1).
  assert (Hne1 : cells <> []). { intros ->. simpl in L1. lia. }
  pose proof (ranges_from_valid cells count Hne1 F1 S1) as Vn.
  destruct (ranges_from_length 0 cells) as [Ln1 Ln2].
  destruct (ranges_from 0 cells) as [ssn esn]. simpl in Vn, Ln1, Ln2.
  rewrite decide_True by apply Vn.
  destruct (fltb B64 _ _); [done|].
  assert (Lnn : length es = length esn) by (simpl in *; lia).
  destruct (shift_valid _ _ _ _ _ _ V Vn Lnn (icells_avg_ok_b64 count f Hff Hf Hc))
    as (ends & -> & _). done.
Qed.
