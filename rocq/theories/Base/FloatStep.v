(** Truncation of a rounded product (int) (d * f) in binary64: the result grows
    by 0 or 1 when d grows by 1, for 0 < f <= 1 and |d| < 2^26. *)
From Coq Require Import ZArith Reals Lra Lia.
From Flocq Require Import Core BinarySingleNaN.
Local Open Scope R_scope.

Definition fexp64 : Z -> Z := SpecFloat.fexp 53 1024.
Definition rnd (x : R) : R := round radix2 fexp64 ZnearestE x.

#[global] Instance prec53 : Prec_gt_0 53.
Proof. reflexivity. Qed.
#[global] Instance prec53_emax : Prec_lt_emax 53 1024.
Proof. reflexivity. Qed.
#[global] Instance fexp64_valid : Valid_exp fexp64.
Proof. apply (fexp_correct 53 1024). exact prec53. Qed.

Lemma fexp64_eq e : (fexp64 e = Z.max (e - 53) (-1074))%Z.
Proof. reflexivity. Qed.

Lemma mag_pos_Z (m : Z) : (0 < m)%Z -> mag radix2 (IZR m) = (Z.log2 m + 1)%Z :> Z.
Proof.
  intros Hm. apply mag_unique. rewrite Rabs_pos_eq by (apply IZR_le; lia).
  pose proof (Z.log2_spec m Hm) as [H1 H2]. pose proof (Z.log2_nonneg m).
  replace (Z.log2 m + 1 - 1)%Z with (Z.log2 m) by lia.
  rewrite <- !IZR_Zpower by lia.
  split; [apply IZR_le|apply IZR_lt]; simpl; lia.
Qed.

Lemma format_Z (m : Z) : (Z.abs m <= 2 ^ 53)%Z -> generic_format radix2 fexp64 (IZR m).
Proof.
  intros Hm. apply (generic_format_FLT radix2 (-1074) 53).
  destruct (Z.eq_dec (Z.abs m) (2 ^ 53)) as [E|E].
  - destruct (Z.abs_spec m) as [[_ E']|[_ E']].
    + exists (Float radix2 (2 ^ 52) 1); unfold F2R; simpl; try lia.
      replace m with (2 ^ 52 * 2)%Z by lia. rewrite mult_IZR. reflexivity.
    + exists (Float radix2 (- 2 ^ 52) 1); unfold F2R; simpl; try lia.
      replace m with (- 2 ^ 52 * 2)%Z by lia. rewrite mult_IZR. reflexivity.
  - exists (Float radix2 m 0); unfold F2R; simpl; try lia. ring.
Qed.

(** Gap below m+1: the unit of the binade of m. *)
Lemma pred_succ_Z (m : Z) : (0 < m < 2 ^ 52)%Z ->
  pred radix2 fexp64 (IZR (m + 1)) = IZR (m + 1) - bpow radix2 (Z.log2 m - 52).
Proof.
  intros Hm. pose proof (Z.log2_nonneg m) as Hl.
  rewrite pred_eq_pos by (apply IZR_le; lia). unfold pred_pos.
  rewrite mag_pos_Z by lia.
  pose proof (Z.log2_spec m ltac:(lia)) as [H1 H2].
  assert (Hlt : (Z.log2 m < 52)%Z) by (apply Z.log2_lt_pow2; lia).
  destruct (Z.eq_dec (m + 1) (2 ^ Z.succ (Z.log2 m))) as [E|E].
  - assert (E2 : Z.log2 (m + 1) = Z.succ (Z.log2 m)) by (rewrite E; apply Z.log2_pow2; lia).
    rewrite E2. replace (Z.succ (Z.log2 m) + 1 - 1)%Z with (Z.succ (Z.log2 m)) by lia.
    rewrite Req_bool_true.
    + f_equal. f_equal. rewrite fexp64_eq. lia.
    + rewrite <- IZR_Zpower by lia. f_equal. exact E.
  - assert (E2 : Z.log2 (m + 1) = Z.log2 m).
    { apply Z.log2_unique; lia. }
    rewrite E2. rewrite Req_bool_false.
    + f_equal. rewrite ulp_neq_0 by (apply not_0_IZR; lia). f_equal.
      unfold cexp. rewrite mag_pos_Z, E2, fexp64_eq by lia. lia.
    + replace (Z.log2 m + 1 - 1)%Z with (Z.log2 m) by lia.
      rewrite <- IZR_Zpower by lia. intros Heq. apply eq_IZR in Heq. simpl in Heq. lia.
Qed.

Lemma pred_Z_pow (k : Z) : (0 <= k < 52)%Z ->
  pred radix2 fexp64 (IZR (2 ^ k)) = IZR (2 ^ k) - bpow radix2 (k - 53).
Proof.
  intros Hk. assert (0 < 2 ^ k)%Z by (apply Z.pow_pos_nonneg; lia).
  rewrite pred_eq_pos by (apply IZR_le; lia). unfold pred_pos.
  rewrite mag_pos_Z, Z.log2_pow2 by lia.
  replace (k + 1 - 1)%Z with k by lia. rewrite Req_bool_true.
  - f_equal. f_equal. rewrite fexp64_eq. lia.
  - rewrite <- IZR_Zpower by lia. reflexivity.
Qed.

Lemma pred_Z_nopow (m : Z) : (0 < m < 2 ^ 52)%Z -> m <> (2 ^ Z.log2 m)%Z ->
  pred radix2 fexp64 (IZR m) = IZR m - bpow radix2 (Z.log2 m - 52).
Proof.
  intros Hm Hn. pose proof (Z.log2_nonneg m).
  rewrite pred_eq_pos by (apply IZR_le; lia). unfold pred_pos.
  rewrite mag_pos_Z by lia. replace (Z.log2 m + 1 - 1)%Z with (Z.log2 m) by lia.
  rewrite Req_bool_false.
  - f_equal. rewrite ulp_neq_0 by (apply not_0_IZR; lia). f_equal.
    unfold cexp. rewrite mag_pos_Z, fexp64_eq by lia. lia.
  - rewrite <- IZR_Zpower by lia. intros Heq. apply eq_IZR in Heq. simpl in Heq. lia.
Qed.

(** A double in [1/2,1) is a multiple of 2^-53. *)
Lemma half_one_multiple (F : R) :
  generic_format radix2 fexp64 F -> 1/2 <= F < 1 -> F <= 1 - bpow radix2 (-53).
Proof.
  intros Hf HF.
  assert (Hm : mag radix2 F = 0%Z :> Z).
  { apply mag_unique. rewrite Rabs_pos_eq by lra. simpl. lra. }
  assert (Hfm : F = IZR (Ztrunc (scaled_mantissa radix2 fexp64 F)) * bpow radix2 (-53)).
  { rewrite Hf at 1. unfold F2R, cexp. simpl. rewrite Hm. reflexivity. }
  set (M := Ztrunc (scaled_mantissa radix2 fexp64 F)) in *. clearbody M.
  assert (Hb : bpow radix2 (-53) * bpow radix2 53 = 1) by (rewrite <- bpow_plus; reflexivity).
  pose proof (bpow_gt_0 radix2 (-53)) as Hpos.
  assert (H53 : bpow radix2 53 = IZR (2 ^ 53)) by reflexivity.
  assert (IZR M < IZR (2 ^ 53)).
  { rewrite <- H53. apply Rmult_lt_reg_r with (bpow radix2 (-53)); [exact Hpos|]. lra. }
  apply lt_IZR in H. assert (HM : (M <= 2 ^ 53 - 1)%Z) by lia. apply IZR_le in HM.
  rewrite minus_IZR in HM. rewrite Hfm.
  apply Rle_trans with ((IZR (2 ^ 53) - 1) * bpow radix2 (-53)).
  - apply Rmult_le_compat_r; lra.
  - rewrite <- H53. lra.
Qed.

Lemma rnd_mono x y : x <= y -> rnd x <= rnd y.
Proof. apply round_le; [apply fexp64_valid|apply valid_rnd_N]. Qed.
Lemma rnd_Z m : (Z.abs m <= 2 ^ 53)%Z -> rnd (IZR m) = IZR m.
Proof.
  intros H. apply round_generic; [apply valid_rnd_N|]. now apply format_Z.
Qed.
Lemma rnd_opp x : rnd (- x) = - rnd x.
Proof. apply round_NE_opp. Qed.

Definition prod_int (F : R) (d : Z) : Z := Ztrunc (rnd (IZR d * F)).

Lemma prod_int_mono F d : 0 <= F -> (prod_int F d <= prod_int F (d + 1))%Z.
Proof.
  intros HF. unfold prod_int. apply Ztrunc_le, rnd_mono.
  apply Rmult_le_compat_r; [exact HF|]. apply IZR_le. lia.
Qed.

Lemma prod_int_0 F : prod_int F 0 = 0%Z.
Proof.
  unfold prod_int. rewrite Rmult_0_l. rewrite rnd_Z by (simpl; lia). apply Ztrunc_IZR.
Qed.

Lemma prod_int_opp F d : prod_int F (- d) = (- prod_int F d)%Z.
Proof.
  unfold prod_int. rewrite opp_IZR, Ropp_mult_distr_l_reverse, rnd_opp. apply Ztrunc_opp.
Qed.

Lemma prod_int_bounds F d : 0 <= F <= 1 -> (0 <= d < 2 ^ 53)%Z -> (0 <= prod_int F d <= d)%Z.
Proof.
  intros HF Hd. unfold prod_int.
  assert (Hd0 : 0 <= IZR d) by (apply IZR_le; lia).
  split.
  - rewrite <- (Ztrunc_IZR 0). apply Ztrunc_le. rewrite <- rnd_Z by (simpl; lia).
    apply rnd_mono. apply Rmult_le_pos; lra.
  - rewrite <- (Ztrunc_IZR d) at 2. apply Ztrunc_le.
    apply Rle_trans with (rnd (IZR d)); [|rewrite rnd_Z by lia; lra].
    apply rnd_mono. rewrite <- (Rmult_1_r (IZR d)) at 2. apply Rmult_le_compat_l; lra.
Qed.

Lemma prod_int_step_pos F d :
  generic_format radix2 fexp64 F -> 0 < F <= 1 -> (0 <= d < 2 ^ 26)%Z ->
  (prod_int F (d + 1) <= prod_int F d + 1)%Z.
Proof.
  intros Hf HF Hd.
  destruct (prod_int_bounds F d ltac:(lra) ltac:(lia)) as [Hg0 Hgd].
  destruct (prod_int_bounds F (d + 1) ltac:(lra) ltac:(lia)) as [Hh0 Hhd].
  destruct (Z_le_gt_dec (prod_int F (d + 1)) (prod_int F d + 1)) as [|Hgt]; [assumption|exfalso].
  set (m := (prod_int F d + 1)%Z) in *.
  assert (Hm : (1 <= m < 2 ^ 27)%Z) by lia.
  set (x := IZR d * F). set (y := IZR (d + 1) * F).
  assert (Hxy : y = x + F) by (unfold x, y; rewrite plus_IZR; ring).
  assert (Hd0 : 0 <= IZR d) by (apply IZR_le; lia).
  assert (Hx0 : 0 <= x) by (apply Rmult_le_pos; lra).
  (* rnd x < m *)
  assert (Hrx : rnd x < IZR m).
  { destruct (Rlt_le_dec (rnd x) (IZR m)) as [|Hle]; [assumption|exfalso].
    apply Ztrunc_le in Hle. rewrite Ztrunc_IZR in Hle. unfold m, prod_int in Hle. fold x in Hle. lia. }
  assert (Hry : IZR (m + 1) <= rnd y).
  { destruct (Rle_lt_dec (IZR (m + 1)) (rnd y)) as [|Hlt]; [assumption|exfalso].
    assert (Hry0 : 0 <= rnd y).
    { rewrite <- (rnd_Z 0) by (simpl; lia). apply rnd_mono. simpl. lra. }
    assert (prod_int F (d + 1) < m + 1)%Z; [|lia].
    unfold prod_int. fold y. rewrite Ztrunc_floor by exact Hry0.
    apply lt_IZR. apply Rle_lt_trans with (rnd y); [apply Zfloor_lb|exact Hlt]. }
  (* midpoints *)
  assert (Hx1 : x <= (IZR m + pred radix2 fexp64 (IZR m)) / 2).
  { apply Rnot_lt_le. intros Hlt.
    apply (round_N_ge_midp radix2 fexp64 (fun z => negb (Z.even z))) in Hlt.
    - fold ZnearestE in Hlt. change (round radix2 fexp64 ZnearestE x) with (rnd x) in Hlt. lra.
    - apply format_Z. lia. }
  assert (Hy1 : (pred radix2 fexp64 (IZR (m + 1)) + IZR (m + 1)) / 2 <= y).
  { assert (Hfm : generic_format radix2 fexp64 (IZR (m + 1))) by (apply format_Z; lia).
    apply Rnot_lt_le. intros Hlt.
    assert (Hfp : generic_format radix2 fexp64 (pred radix2 fexp64 (IZR (m + 1)))).
    { apply generic_format_pred; [apply fexp64_valid|exact Hfm]. }
    pose proof (round_N_le_midp radix2 fexp64 (fun z => negb (Z.even z))
                 (pred radix2 fexp64 (IZR (m + 1))) y Hfp) as Hmid.
    rewrite succ_pred in Hmid by first [exact Hfm | exact fexp64_valid].
    specialize (Hmid Hlt). change (rnd y <= pred radix2 fexp64 (IZR (m + 1))) in Hmid.
    rewrite pred_succ_Z in Hmid by lia.
    pose proof (bpow_gt_0 radix2 (Z.log2 m - 52)). lra. }
  rewrite pred_succ_Z in Hy1 by lia.
  rewrite plus_IZR in Hy1.
  pose proof (bpow_gt_0 radix2 (Z.log2 m - 52)) as Hbp.
  (* F < 1 *)
  destruct (Req_dec F 1) as [->|HF1].
  { unfold prod_int, m in *. unfold prod_int in *. rewrite !Rmult_1_r, !rnd_Z, !Ztrunc_IZR in * by lia. lia. }
  destruct (Z.eq_dec m (2 ^ Z.log2 m)) as [Ep|Enp].
  - (* m is a power of two *)
    set (k := Z.log2 m) in *.
    assert (Hk : (0 <= k <= 26)%Z).
    { split; [apply Z.log2_nonneg|]. enough (k < 27)%Z by lia. apply Z.log2_lt_pow2; lia. }
    assert (Hpm : pred radix2 fexp64 (IZR m) = IZR m - bpow radix2 (k - 53)).
    { rewrite Ep. apply pred_Z_pow. lia. }
    rewrite Hpm in Hx1.
    assert (Hb52 : bpow radix2 (k - 52) = 2 * bpow radix2 (k - 53)).
    { replace (k - 52)%Z with (k - 53 + 1)%Z by lia. rewrite bpow_plus. change (bpow radix2 1) with 2. ring. }
    rewrite Hb52 in Hy1. set (u := bpow radix2 (k - 53)) in *.
    assert (Hu0 : 0 < u) by (apply bpow_gt_0).
    assert (Hu : u <= bpow radix2 (-27)) by (apply bpow_le; lia).
    assert (Hu27 : bpow radix2 (-27) = / 134217728) by reflexivity.
    rewrite Hu27 in Hu.
    (* delta = 1 - F *)
    set (dl := 1 - F). assert (Hdl0 : 0 < dl) by (unfold dl; lra).
    assert (Hdl : dl <= u / 2) by (unfold dl; lra).
    assert (HFh : 1 / 2 <= F < 1) by (unfold dl in *; lra).
    pose proof (half_one_multiple F Hf HFh) as Hmul.
    assert (Hdl53 : bpow radix2 (-53) <= dl) by (unfold dl; lra).
    (* d = m *)
    assert (Hxd : x = IZR d - IZR d * dl) by (unfold x, dl; ring).
    assert (Hd26 : IZR d <= IZR (2 ^ 26)) by (apply IZR_le; lia).
    assert (Hddl : IZR d * dl <= / 4).
    { apply Rle_trans with (IZR (2 ^ 26) * (/ 134217728 / 2)).
      - apply Rmult_le_compat; lra.
      - simpl. lra. }
    assert (Hxlow : IZR m - u <= x - dl) by (unfold dl; lra).
    assert (Hdm : d = m).
    { apply Z.le_antisymm.
      - enough (d < m + 1)%Z by lia. apply lt_IZR. rewrite plus_IZR. lra.
      - enough (m - 1 < d)%Z by lia. apply lt_IZR. rewrite minus_IZR.
        assert (0 <= IZR d * dl) by (apply Rmult_le_pos; lra). lra. }
    (* (m+1) * dl <= u = m * 2^-53 *)
    assert (Hum : u = IZR m * bpow radix2 (-53)).
    { unfold u. replace (k - 53)%Z with (k + -53)%Z by lia. rewrite bpow_plus. f_equal.
      rewrite Ep. rewrite <- IZR_Zpower by lia. reflexivity. }
    rewrite Hdm in Hxd. rewrite Hxd in Hxlow.
    assert (IZR m * bpow radix2 (-53) <= IZR m * dl).
    { apply Rmult_le_compat_l; [apply IZR_le; lia|exact Hdl53]. }
    lra.
  - rewrite pred_Z_nopow in Hx1 by lia. lra.
Qed.

Lemma prod_int_step F d :
  generic_format radix2 fexp64 F -> 0 < F <= 1 -> (- 2 ^ 26 <= d < 2 ^ 26)%Z ->
  (prod_int F d <= prod_int F (d + 1) <= prod_int F d + 1)%Z.
Proof.
  intros Hf HF Hd. split; [apply prod_int_mono; lra|].
  destruct (Z_le_gt_dec 0 d) as [H0|H0].
  - apply prod_int_step_pos; auto. lia.
  - pose proof (prod_int_step_pos F (- (d + 1)) Hf HF ltac:(lia)) as H.
    replace (- (d + 1) + 1)%Z with (- d)%Z in H by lia.
    rewrite !prod_int_opp in H. lia.
Qed.
