(** IEEE-754 binary64 (round to nearest even) as an instance of [arith], using
    Flocq's formalisation: this is the arithmetic of the compiled program on
    the supported platforms (no excess precision). *)
From Coq Require Import ZArith Reals Lra Lia.
From Flocq Require Import Core BinarySingleNaN.
From Verif.Base Require Import Arith FloatStep.

Definition b64 := binary_float 53 1024.

Definition b64_of_Z (n : Z) : b64 := binary_normalize 53 1024 _ _ mode_NE n 0 false.

(** C++ conversion double -> int: truncation; undefined for NaN, infinities and
    values outside int. *)
Definition b64_to_int (x : b64) : option Z :=
  if is_finite x then
    let n := Btrunc x in
    if andb (- 2 ^ 31 <=? n)%Z (n <=? 2 ^ 31 - 1)%Z then Some n else None
  else None.

Definition b64_floor_to_int (x : b64) : option Z := b64_to_int (Bnearbyint mode_DN x).

Definition b64_div (x y : b64) : b64 := Bdiv mode_NE x y.

(** Decimal literals: n / d correctly rounded. *)
Definition b64_lit (n d : Z) : b64 := b64_div (b64_of_Z n) (b64_of_Z d).

Definition B64 : arith := {|
  num := b64;
  of_int := b64_of_Z;
  quarter := b64_lit 1 4;
  c005 := b64_lit 5 100;
  c095 := b64_lit 95 100;
  fadd := Bplus mode_NE;
  fsub := Bminus mode_NE;
  fmul := Bmult mode_NE;
  fdiv := b64_div;
  fltb := Bltb;
  fleb := Bleb;
  feqb := Beqb;
  to_int := b64_to_int;
  floor_to_int := b64_floor_to_int;
|}.

Local Open Scope R_scope.

Lemma rnd_lt_emax x : Rabs x <= bpow radix2 1000 -> Rabs (rnd x) < bpow radix2 1024.
Proof.
  intros H. apply Rle_lt_trans with (bpow radix2 1000); [|apply bpow_lt; lia].
  apply abs_round_le_generic; [apply fexp64_valid|apply valid_rnd_N| |exact H].
  apply generic_format_bpow. rewrite fexp64_eq. lia.
Qed.

Lemma b64_of_Z_correct n : (Z.abs n <= 2 ^ 53)%Z ->
  B2R (b64_of_Z n) = IZR n /\ is_finite (b64_of_Z n) = true.
Proof.
  intros Hn. unfold b64_of_Z.
  pose proof (binary_normalize_correct 53 1024 _ _ mode_NE n 0 false) as H. cbv zeta in H.
  assert (E : F2R (Float radix2 n 0) = IZR n) by (unfold F2R; simpl; ring).
  rewrite E in H. change (round radix2 (SpecFloat.fexp 53 1024) (round_mode mode_NE) (IZR n))
    with (rnd (IZR n)) in H.
  rewrite rnd_Z in H by assumption.
  rewrite Rlt_bool_true in H; [tauto|].
  rewrite <- abs_IZR. apply Rle_lt_trans with (IZR (2 ^ 53)); [apply IZR_le; lia|].
  change (IZR (2 ^ 53)) with (bpow radix2 53). apply bpow_lt. lia.
Qed.

Lemma b64_mul_correct (x y : b64) :
  is_finite x = true -> is_finite y = true -> Rabs (B2R x * B2R y) <= bpow radix2 1000 ->
  B2R (Bmult mode_NE x y) = rnd (B2R x * B2R y) /\ is_finite (Bmult mode_NE x y) = true.
Proof.
  intros Hx Hy Hb. pose proof (Bmult_correct 53 1024 _ _ mode_NE x y) as H.
  change (round radix2 (SpecFloat.fexp 53 1024) (round_mode mode_NE)) with rnd in H.
  rewrite Rlt_bool_true in H by (apply rnd_lt_emax; assumption).
  rewrite Hx, Hy in H. tauto.
Qed.

Lemma b64_div_correct (x y : b64) :
  is_finite x = true -> B2R y <> 0 -> Rabs (B2R x / B2R y) <= bpow radix2 1000 ->
  B2R (b64_div x y) = rnd (B2R x / B2R y) /\ is_finite (b64_div x y) = true.
Proof.
  intros Hx Hy Hb. unfold b64_div.
  pose proof (Bdiv_correct 53 1024 _ _ mode_NE x y Hy) as H.
  change (round radix2 (SpecFloat.fexp 53 1024) (round_mode mode_NE)) with rnd in H.
  rewrite Rlt_bool_true in H by (apply rnd_lt_emax; assumption).
  rewrite Hx in H. tauto.
Qed.

Lemma b64_add_correct (x y : b64) :
  is_finite x = true -> is_finite y = true -> Rabs (B2R x + B2R y) <= bpow radix2 1000 ->
  B2R (Bplus mode_NE x y) = rnd (B2R x + B2R y) /\ is_finite (Bplus mode_NE x y) = true.
Proof.
  intros Hx Hy Hb. pose proof (Bplus_correct 53 1024 _ _ mode_NE x y Hx Hy) as H.
  change (round radix2 (SpecFloat.fexp 53 1024) (round_mode mode_NE)) with rnd in H.
  rewrite Rlt_bool_true in H by (apply rnd_lt_emax; assumption). tauto.
Qed.

Lemma Btrunc_Ztrunc (x : b64) : Btrunc x = Ztrunc (B2R x).
Proof.
  apply eq_IZR. rewrite (Btrunc_correct 53 1024 _ x).
  unfold round, scaled_mantissa, F2R, cexp, FIX_exp. simpl. rewrite !Rmult_1_r. reflexivity.
Qed.

Lemma b64_format (x : b64) : generic_format radix2 fexp64 (B2R x).
Proof. apply generic_format_B2R. Qed.

(** The double-to-int conversion of d * f, 0 < f <= 1. *)
Lemma b64_to_int_prod (f : b64) d :
  is_finite f = true -> 0 < B2R f <= 1 -> (Z.abs d <= 2 ^ 26)%Z ->
  b64_to_int (Bmult mode_NE (b64_of_Z d) f) = Some (prod_int (B2R f) d).
Proof.
  intros Hff Hf Hd. destruct (b64_of_Z_correct d ltac:(lia)) as [Ed Hfd].
  destruct (b64_mul_correct (b64_of_Z d) f Hfd Hff) as [Em Hfm].
  { rewrite Ed. rewrite Rabs_mult. apply Rle_trans with (bpow radix2 26 * 1).
    - apply Rmult_le_compat; try apply Rabs_pos.
      + rewrite <- abs_IZR. change (bpow radix2 26) with (IZR (2 ^ 26)). now apply IZR_le.
      + rewrite Rabs_pos_eq; lra.
    - rewrite Rmult_1_r. apply bpow_le. lia. }
  unfold b64_to_int. rewrite Hfm, Btrunc_Ztrunc, Em, Ed. fold (prod_int (B2R f) d).
  assert (- 2 ^ 26 <= prod_int (B2R f) d <= 2 ^ 26)%Z as Hb.
  { destruct (Z_le_gt_dec 0 d).
    - pose proof (prod_int_bounds (B2R f) d ltac:(lra) ltac:(lia)). lia.
    - pose proof (prod_int_bounds (B2R f) (- d) ltac:(lra) ltac:(lia)) as Hp.
      rewrite prod_int_opp in Hp. lia. }
  rewrite (proj2 (Z.leb_le _ _)), (proj2 (Z.leb_le _ _)) by lia. reflexivity.
Qed.
