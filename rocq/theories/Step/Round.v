(** The number written is the nearest one of six digits. *)
From Coq Require Import ZArith QArith Qround Qpower Qabs Qcanon Lqa.
From stdpp Require Import prelude.
From Verif.Step Require Import Model Spec.
Open Scope Q_scope.

Lemma pow10_pos e : 0 < pow10 e.
Proof. by apply Qpower_0_lt. Qed.
Lemma pow10_plus a b : pow10 (a + b) == pow10 a * pow10 b.
Proof. by apply Qpower_plus. Qed.
Lemma pow10_mono a b : (a <= b)%Z -> pow10 a <= pow10 b.
Proof. intros H. apply Qpower_le_compat_l; [done|]. by unfold Qle. Qed.
Lemma pow10_int k : (0 <= k)%Z -> inject_Z (10 ^ k) == pow10 k.
Proof. intros H. by apply Zpower_Qpower. Qed.

Lemma half_even_near x z : Qabs (x - inject_Z (half_even x)) <= Qabs (x - inject_Z z).
Proof.
  pose proof (Qfloor_le x) as Hl. pose proof (Qlt_floor x) as Hu. rewrite inject_Z_plus in Hu.
  change (inject_Z 1) with 1 in Hu.
  assert (inject_Z z <= inject_Z (Qfloor x) \/ inject_Z (Qfloor x) + 1 <= inject_Z z) as Hz.
  { destruct (Z.le_gt_cases z (Qfloor x)); [left; by rewrite <- Zle_Qle|right].
    change 1 with (inject_Z 1). rewrite <- inject_Z_plus, <- Zle_Qle. lia. }
  unfold half_even. generalize dependent (Qfloor x). intros q Hl Hu Hz.
  destruct (Qcompare_spec (x - inject_Z q) (1 # 2)) as [E|E|E]; [destruct (Z.even q)|..];
    rewrite ?inject_Z_plus; change (inject_Z 1) with 1; apply Qabs_case; intros; apply Qabs_case; intros;
    destruct Hz; lra.
Qed.
Lemma half_even_half x : Qabs (x - inject_Z (half_even x)) <= 1 # 2.
Proof.
  pose proof (Qfloor_le x) as Hl. pose proof (Qlt_floor x) as Hu. rewrite inject_Z_plus in Hu.
  change (inject_Z 1) with 1 in Hu.
  unfold half_even. generalize dependent (Qfloor x). intros q Hl Hu.
  destruct (Qcompare_spec (x - inject_Z q) (1 # 2)) as [E|E|E]; [destruct (Z.even q)|..];
    rewrite ?inject_Z_plus; change (inject_Z 1) with 1; apply Qabs_case; intros; lra.
Qed.

Lemma half_even_le a b y : inject_Z a <= y -> y <= inject_Z b -> (a <= half_even y <= b)%Z.
Proof.
  intros Ha Hb. pose proof (Qlt_floor y) as Hu. pose proof (Qfloor_le y) as Hl.
  apply Qfloor_resp_le in Ha as Ha'. rewrite Qfloor_Z in Ha'.
  apply Qfloor_resp_le in Hb as Hb'. rewrite Qfloor_Z in Hb'.
  unfold half_even. destruct (Qcompare_spec (y - inject_Z (Qfloor y)) (1 # 2)) as [E|E|E]; [destruct (Z.even _)|..]; try lia.
  - split; [lia|]. destruct (Z.eq_dec (Qfloor y) b) as [H|H]; [|lia]. rewrite H in E, Hl. lra.
  - split; [lia|]. destruct (Z.eq_dec (Qfloor y) b) as [H|H]; [|lia]. rewrite H in E, Hl. lra.
Qed.

(** The place of the first digit *)
Lemma climb_at f : forall e v, pow10 e <= v -> v < pow10 (e + Z.of_nat f) ->
  pow10 (climb f e v) <= v < pow10 (climb f e v + 1).
Proof.
  induction f as [|f IH]; intros e v Hl Hu.
  - rewrite Z.add_0_r in Hu. lra.
  - cbn [climb]. destruct (Qle_bool (pow10 (e + 1)) v) eqn:E.
    + apply Qle_bool_iff in E. apply IH; [done|]. replace (e + 1 + Z.of_nat f)%Z with (e + Z.of_nat (S f))%Z by lia. done.
    + split; [done|]. apply Qnot_le_lt. intros H. apply Qle_bool_iff in H. congruence.
Qed.
Lemma exponent_at v : 0 < v -> pow10 (exponent v) <= v < pow10 (exponent v + 1).
Proof.
  intros Hv. destruct v as [n d]. unfold Qlt in Hv. cbn [Qnum Qden] in Hv.
  assert (0 < n)%Z as Hn by lia. unfold exponent. cbn [Qnum Qden].
  assert (0 <= Z.log2 n)%Z by apply Z.log2_nonneg. assert (0 <= Z.log2 (Zpos d))%Z by apply Z.log2_nonneg.
  apply climb_at.
  - set (k := (Z.log2 (Zpos d) + 1)%Z).
    assert (Zpos d < 10 ^ k)%Z as Hd.
    { pose proof (Z.log2_spec (Zpos d)) as [_ Hs]; [lia|]. eapply Z.lt_le_trans; [exact Hs|].
      rewrite <- Z.add_1_r. apply Z.pow_le_mono_l. lia. }
    unfold pow10. rewrite Qpower_opp. fold (pow10 k). rewrite <- pow10_int by lia.
    apply Qle_shift_inv_r. { change 0 with (inject_Z 0). rewrite <- Zlt_Qlt. lia. }
    unfold Qle, Qmult, inject_Z. cbn [Qnum Qden]. nia.
  - set (k := (- (Z.log2 (Zpos d) + 1) + Z.of_nat (Z.to_nat (Z.log2 n + 1 - - (Z.log2 (Zpos d) + 1))))%Z).
    assert (k = Z.log2 n + 1)%Z as -> by lia.
    assert (n < 10 ^ (Z.log2 n + 1))%Z as Hu.
    { pose proof (Z.log2_spec n Hn) as [_ Hs]. eapply Z.lt_le_trans; [exact Hs|].
      rewrite <- Z.add_1_r. apply Z.pow_le_mono_l. lia. }
    rewrite <- pow10_int by lia. unfold Qlt, inject_Z. cbn [Qnum Qden]. nia.
Qed.

Definition six (w : Q) : Prop := exists m k, (Z.abs m < 1000000)%Z /\ w == inject_Z m * pow10 k.

Lemma scale u x y : 0 < u -> Qabs (x * u - y * u) == u * Qabs (x - y).
Proof.
  intros Hu. setoid_replace (x * u - y * u) with (u * (x - y)) by ring. rewrite Qabs_Qmult.
  by rewrite (Qabs_pos u) by lra.
Qed.

Section Pos.
Context (v : Q) (Hv : 0 < v).
Let e := exponent v.
Let u := pow10 (e - 5).
Let x := v / u.

Lemma v_xu : v == x * u.
Proof. unfold x. field. pose proof (pow10_pos (e - 5)). fold u in H. lra. Qed.
Lemma x_range : inject_Z 100000 <= x /\ x < inject_Z 1000000.
Proof.
  destruct (exponent_at v Hv) as [H1 H2]. fold e in H1, H2.
  assert (0 < u) as Hu by apply pow10_pos.
  replace e with (5 + (e - 5))%Z in H1 by lia. rewrite pow10_plus in H1. fold u in H1.
  replace (e + 1)%Z with (6 + (e - 5))%Z in H2 by lia. rewrite pow10_plus in H2. fold u in H2.
  change (pow10 5) with (inject_Z 100000) in H1. change (pow10 6) with (inject_Z 1000000) in H2.
  rewrite v_xu in H1, H2. split.
  - by apply Qmult_le_r in H1.
  - by apply Qmult_lt_r in H2.
Qed.

Lemma pos_near w : six w -> Qabs (v - write_pos v) <= Qabs (v - w).
Proof.
  intros (m & k & Hm & Hw). assert (0 < u) as Hu by apply pow10_pos. destruct x_range as [X1 X2].
  assert (Qabs (v - write_pos v) == u * Qabs (x - inject_Z (half_even x))) as ->.
  { rewrite <- scale by done. unfold write_pos. fold e u x. rewrite v_xu at 1. reflexivity. }
  destruct (Z.le_gt_cases (e - 5) k) as [Hk|Hk].
  - assert (w == inject_Z (m * 10 ^ (k - (e - 5))) * u) as Hw'.
    { rewrite Hw, inject_Z_mult, pow10_int by lia. rewrite <- Qmult_assoc. unfold u. rewrite <- pow10_plus.
      by replace (k - (e - 5) + (e - 5))%Z with k by lia. }
    rewrite Hw'. rewrite v_xu at 1. rewrite scale by done. apply Qmult_le_l; [done|]. apply half_even_near.
  - assert (w <= inject_Z 100000 * u) as Hle.
    { rewrite Hw. apply Qle_trans with (inject_Z 1000000 * pow10 k).
      - apply Qmult_le_compat_r; [|apply Qlt_le_weak, pow10_pos]. rewrite <- Zle_Qle. lia.
      - apply Qle_trans with (inject_Z 1000000 * pow10 (e - 6)).
        + apply Qmult_le_l; [done|]. apply pow10_mono. lia.
        + unfold u. replace (e - 5)%Z with (1 + (e - 6))%Z by lia. rewrite pow10_plus. change (pow10 1) with (inject_Z 10).
          rewrite Qmult_assoc. apply Qle_refl. }
    apply Qle_trans with (u * Qabs (x - inject_Z 100000)).
    + apply Qmult_le_l; [done|]. apply half_even_near.
    + rewrite (Qabs_pos (x - _)) by lra. rewrite (Qabs_pos (v - w)).
      * rewrite v_xu. assert (u * (x - inject_Z 100000) == x * u - inject_Z 100000 * u) as -> by ring. lra.
      * rewrite v_xu. assert (inject_Z 100000 * u <= x * u) by (by apply Qmult_le_r). lra.
Qed.
Lemma pos_error : Qabs (v - write_pos v) <= (5 # 1000000) * v.
Proof.
  assert (0 < u) as Hu by apply pow10_pos. destruct x_range as [X1 _].
  assert (Qabs (v - write_pos v) == u * Qabs (x - inject_Z (half_even x))) as ->.
  { rewrite <- scale by done. unfold write_pos. fold e u x. rewrite v_xu at 1. reflexivity. }
  apply Qle_trans with (u * (1 # 2)); [apply Qmult_le_l; [done|apply half_even_half]|].
  rewrite v_xu. assert (inject_Z 100000 * u <= x * u) as H by (by apply Qmult_le_r).
  change (inject_Z 100000) with (100000 # 1) in H. lra.
Qed.
Lemma pos_six : six (write_pos v).
Proof.
  destruct x_range as [X1 X2]. unfold write_pos. fold e u x.
  destruct (half_even_le 100000 1000000 x) as [H1 H2]; [done|by apply Qlt_le_weak|].
  destruct (Z.eq_dec (half_even x) 1000000%Z) as [->|Hn].
  - exists 1%Z, (6 + (e - 5))%Z. split; [lia|]. rewrite pow10_plus. fold u. change (pow10 6) with (inject_Z 1000000).
    ring.
  - exists (half_even x), (e - 5)%Z. split; [lia|]. reflexivity.
Qed.
Lemma pos_pos : 0 < write_pos v.
Proof.
  destruct x_range as [X1 X2]. unfold write_pos. fold e u x.
  destruct (half_even_le 100000 1000000 x) as [H1 H2]; [done|by apply Qlt_le_weak|].
  apply Qmult_lt_0_compat; [|apply pow10_pos]. change 0 with (inject_Z 0). rewrite <- Zlt_Qlt. lia.
Qed.
End Pos.

Lemma six_opp w : six w -> six (- w).
Proof. intros (m & k & Hm & Hw). exists (- m)%Z, k. split; [lia|]. rewrite Hw, inject_Z_opp. ring. Qed.

Lemma q_near v w : six w -> Qabs (v - write_q v) <= Qabs (v - w).
Proof.
  intros Hw. unfold write_q. destruct v as [[|n|n] d] eqn:E; cbn [Qnum].
  - setoid_replace (0 # d) with 0 by reflexivity. setoid_replace (0 - 0) with 0 by ring. apply Qabs_nonneg.
  - by apply pos_near.
  - setoid_replace ((Z.neg n # d) - - write_pos (- (Z.neg n # d))) with (- (- (Z.neg n # d) - write_pos (- (Z.neg n # d)))) by ring.
    setoid_replace ((Z.neg n # d) - w) with (- (- (Z.neg n # d) - - w)) by ring. rewrite !Qabs_opp.
    apply pos_near; [done|]. by apply six_opp.
Qed.
Lemma q_error v : Qabs (v - write_q v) <= (5 # 1000000) * Qabs v.
Proof.
  unfold write_q. destruct v as [[|n|n] d] eqn:E; cbn [Qnum].
  - setoid_replace (0 # d) with 0 by reflexivity. setoid_replace (0 - 0) with 0 by ring. cbn. lra.
  - rewrite (Qabs_pos (Z.pos n # d)) by done. by apply pos_error.
  - setoid_replace ((Z.neg n # d) - - write_pos (- (Z.neg n # d))) with (- (- (Z.neg n # d) - write_pos (- (Z.neg n # d)))) by ring.
    rewrite Qabs_opp, (Qabs_neg (Z.neg n # d)) by done. by apply pos_error.
Qed.
Lemma q_six v : six (write_q v).
Proof.
  unfold write_q. destruct v as [[|n|n] d] eqn:E; cbn [Qnum].
  - exists 0%Z, 0%Z. split; [lia|]. reflexivity.
  - by apply pos_six.
  - apply six_opp. by apply pos_six.
Qed.

Lemma six_digits_six w : six_digits w <-> six (this w).
Proof. done. Qed.
Lemma written_this v : this (written v) == write_q (this v).
Proof. unfold written, Q2Qc. cbn. apply Qred_correct. Qed.

Lemma written_near v w : six_digits w -> dist v (written v) <= dist v w.
Proof. intros H. unfold dist. rewrite written_this. by apply q_near. Qed.
Lemma written_six v : six_digits (written v).
Proof.
  destruct (q_six (this v)) as (m & k & Hm & H). exists m, k. split; [done|]. by rewrite written_this.
Qed.
Lemma written_error v : dist v (written v) <= (5 # 1000000) * size v.
Proof. unfold dist, size. rewrite written_this. apply q_error. Qed.
Lemma written_exact v : six_digits v <-> written v = v.
Proof.
  split.
  - intros H. pose proof (written_near v v H) as Hn. unfold dist in Hn.
    setoid_replace (this v - this v) with 0 in Hn by ring. change (Qabs 0) with 0 in Hn.
    apply Qabs_Qle_condition in Hn. apply Qc_is_canon. lra.
  - intros <-. apply written_six.
Qed.
Lemma written_na v : written v <> na.
Proof.
  intros E. destruct (written_six v) as (m & k & Hm & H). rewrite E in H. clear E v.
  change (this na) with (-987654321 # 10000000) in H. fold (pow10 k) in H.
  destruct (Z.le_gt_cases (-6) k) as [Hk|Hk].
  - (* a multiple of 10^-6 *)
    replace k with ((k + 6) + -6)%Z in H by lia. rewrite pow10_plus, <- pow10_int in H by lia.
    change (pow10 (-6)) with (1 # 1000000) in H. rewrite Qmult_assoc, <- inject_Z_mult in H.
    generalize dependent (m * 10 ^ (k + 6))%Z. intros z H. unfold Qeq, Qmult, inject_Z in H. cbn [Qnum Qden] in H. lia.
  - assert (Qabs (inject_Z m * pow10 k) < 1 # 1) as Hb.
    { rewrite Qabs_Qmult, (Qabs_pos (pow10 k)) by apply Qlt_le_weak, pow10_pos.
      apply Qle_lt_trans with (inject_Z (Z.abs m) * pow10 (-7)).
      - change (Qabs (inject_Z m)) with (inject_Z (Z.abs m)).
        rewrite (Qmult_comm _ (pow10 k)), (Qmult_comm _ (pow10 (-7))). apply Qmult_le_compat_r; [apply pow10_mono; lia|].
        change 0 with (inject_Z 0). rewrite <- Zle_Qle. lia.
      - change (pow10 (-7)) with (1 # 10000000). unfold Qlt, Qmult, inject_Z. cbn [Qnum Qden]. lia. }
    rewrite <- H in Hb. discriminate Hb.
Qed.
