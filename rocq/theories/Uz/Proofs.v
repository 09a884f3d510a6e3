(** Proofs about PartitionUZ. *)
From Coq Require Import String QArith Qcanon Lqa.
From stdpp Require Import prelude strings gmap.
From Verif.Base Require Import Result.
From Verif.Names Require Import Model.
From Verif.Solution Require Import Model Spec.
From Verif.Solution Require Proofs.
From Verif.Reactant Require Import Model Spec Proofs.
From Verif.Uz Require Import Model Spec.
Local Open Scope Qc_scope.

Lemma Qc_ltb_true x y : Qc_ltb x y = true <-> x < y.
Proof. apply Solution.Proofs.Qc_ltb_true. Qed.
Lemma Qc_ltb_false x y : Qc_ltb x y = false <-> y <= x.
Proof. apply Solution.Proofs.Qc_ltb_false. Qed.
Lemma Qc_leb_true x y : Qc_leb x y = true <-> x <= y.
Proof. unfold Qc_leb. rewrite negb_true_iff. apply Qc_ltb_false. Qed.
Lemma Qc_leb_false x y : Qc_leb x y = false <-> y < x.
Proof. unfold Qc_leb. rewrite negb_false_iff. apply Qc_ltb_true. Qed.

Lemma Qclt_0_dry6 : 0 < dry6.
Proof. done. Qed.
Lemma minus_pos x y : x < y -> 0 < y - x.
Proof. intros H. apply Qclt_minus_iff in H. exact H. Qed.
Lemma Qcle_0_minus x y : x <= y -> 0 <= y - x.
Proof. intros H. apply Qcle_minus_iff in H. exact H. Qed.
Lemma div_nonneg x y : 0 <= x -> 0 < y -> 0 <= x / y.
Proof.
  intros Hx Hy. destruct (Qclt_le_dec (x / y) 0) as [H|H]; [|done].
  exfalso. assert (E : x = (x / y) * y).
  { field. intros ->. by apply (Qclt_not_eq 0 0). }
  assert (x < 0).
  { rewrite E. rewrite <- (Qcmult_0_l y). by apply Qcmult_lt_compat_r. }
  by apply (Qclt_not_le _ _ H0).
Qed.
Lemma div_le_1 x y : 0 < y -> x <= y -> x / y <= 1.
Proof.
  intros Hy Hxy. apply Qcle_minus_iff.
  assert (Hne : y <> 0) by (intros ->; by apply (Qclt_not_eq 0 0)).
  replace (1 + - (x / y)) with ((y - x) / y) by (field; done).
  apply div_nonneg; [by apply Qcle_0_minus|done].
Qed.

(** The four cases of [shares], each with what is known there. *)
Lemma shares_cases old new :
  (1 <= new /\ shares old new = (1, 1, 0, 0)) \/
  (new < 1 /\ new <= dry6 /\ shares old new = (0, 0, 1, 1)) \/
  (new < 1 /\ dry6 < new /\ old < new /\
     shares old new = (1, 1 - (1 - new) / (1 - old), 0, (1 - new) / (1 - old)) /\ 0 < 1 - old) \/
  (new < 1 /\ dry6 < new /\ new <= old /\
     shares old new = (new / old, 0, 1 - new / old, 1) /\ 0 < old).
Proof.
  unfold shares. destruct (Qc_leb 1 new) eqn:E1.
  { left. by apply Qc_leb_true in E1. }
  apply Qc_leb_false in E1. right. destruct (Qc_leb new dry6) eqn:E2.
  { left. by apply Qc_leb_true in E2. }
  apply Qc_leb_false in E2. right. destruct (Qc_ltb old new) eqn:E3.
  - left. apply Qc_ltb_true in E3. repeat split; try done.
    apply minus_pos. by apply Qclt_trans with new.
  - right. apply Qc_ltb_false in E3. repeat split; try done.
    apply Qclt_le_trans with new; [|done]. by apply Qclt_trans with dry6.
Qed.

Lemma shares_sum old new s1 s2 z1 z2 : shares old new = (s1, s2, z1, z2) -> s1 + z1 = 1 /\ s2 + z2 = 1.
Proof.
  intros H. destruct (shares_cases old new) as [[_ E]|[(_ & _ & E)|[(_ & _ & _ & E & _)|(_ & _ & _ & E & _)]]];
    rewrite H in E; injection E as -> -> -> ->; split; ring.
Qed.
Lemma shares_range old new s1 s2 z1 z2 : shares old new = (s1, s2, z1, z2) ->
  (0 <= s1 /\ 0 <= s2) /\ (0 <= z1 /\ 0 <= z2).
Proof.
  intros H. destruct (shares_cases old new) as [[_ E]|[(_ & _ & E)|[(H1 & _ & H2 & E & H3)|(H1 & H0 & H2 & E & H3)]]];
    rewrite H in E; injection E as -> -> -> ->.
  - done.
  - done.
  - assert (0 <= (1 - new) / (1 - old)).
    { apply div_nonneg; [|done]. apply Qclt_le_weak. by apply minus_pos. }
    assert ((1 - new) / (1 - old) <= 1).
    { apply div_le_1; [done|]. unfold Qcminus. apply Qcplus_le_compat; [apply Qcle_refl|].
      apply Qcopp_le_compat. by apply Qclt_le_weak. }
    repeat split; try done. by apply Qcle_0_minus.
  - assert (0 <= new / old).
    { apply div_nonneg; [|done]. apply Qclt_le_weak. by apply Qclt_trans with dry6. }
    assert (new / old <= 1) by (by apply div_le_1).
    repeat split; try done. by apply Qcle_0_minus.
Qed.

(** ** One reactant type *)
Lemma two_mix_eq a b : two_mix a b = [(0%Z, a); (1%Z, b)].
Proof. done. Qed.
Lemma temp_amount {A} (f : A -> Qc) (a : A) b x y :
  mix_amount f (temp_bin a b) (two_mix x y) = x * f a + y * opt_amount f b.
Proof.
  rewrite two_mix_eq. cbn [mix_amount]. destruct b as [b|]; cbn [temp_bin opt_amount].
  - rewrite lookup_insert_ne by done. rewrite !lookup_insert. ring.
  - rewrite lookup_insert. rewrite lookup_insert_ne by done. rewrite lookup_empty. ring.
Qed.
Lemma temp_all {A} (P : A -> Prop) (a : A) b : P a -> (forall b', b = Some b' -> P b') ->
  forall k c, temp_bin a b !! k = Some c -> P c.
Proof.
  intros Ha Hb k c. destruct b as [b|]; cbn.
  - destruct (decide (k = 1%Z)) as [->|H1].
    + rewrite lookup_insert. intros [= <-]. by apply Hb.
    + rewrite lookup_insert_ne by done. destruct (decide (k = 0%Z)) as [->|H0].
      * rewrite lookup_insert. by intros [= <-].
      * rewrite lookup_insert_ne by done. by rewrite lookup_empty.
  - destruct (decide (k = 0%Z)) as [->|H0].
    + rewrite lookup_insert. by intros [= <-].
    + rewrite lookup_insert_ne by done. by rewrite lookup_empty.
Qed.

Section one.
  Context {A : Type} (mixf : gmap Z A -> mixmap -> A) (f : A -> Qc) (P : A -> Prop).
  Hypothesis mix_lin : forall t m, (forall k c, t !! k = Some c -> P c) -> f (mixf t m) = mix_amount f t m.

  Lemma part_one_amount s1 s2 z1 z2 n w u :
    (forall a, w !! n = Some a -> P a) -> (forall a, u !! n = Some a -> P a) -> is_Some (w !! n) ->
    opt_amount f ((part_one mixf (two_mix s1 s2) (two_mix z1 z2) n w u).1 !! n) =
      s1 * opt_amount f (w !! n) + s2 * opt_amount f (u !! n) /\
    opt_amount f ((part_one mixf (two_mix s1 s2) (two_mix z1 z2) n w u).2 !! n) =
      z1 * opt_amount f (w !! n) + z2 * opt_amount f (u !! n).
  Proof.
    intros Hw Hu [a Ha]. unfold part_one. rewrite Ha. cbn [fst snd].
    rewrite !lookup_insert. cbn [opt_amount].
    rewrite !mix_lin by (apply temp_all; [by apply Hw|done]). rewrite !temp_amount. done.
  Qed.
End one.
Lemma part_one_absent {A} (mixf : gmap Z A -> mixmap -> A) m1 m2 n w u : w !! n = None ->
  part_one mixf m1 m2 n w u = (w, u).
Proof. intros H. unfold part_one. by rewrite H. Qed.
Lemma part_one_frame {A} (mixf : gmap Z A -> mixmap -> A) m1 m2 n w u k : k <> n ->
  (part_one mixf m1 m2 n w u).1 !! k = w !! k /\ (part_one mixf m1 m2 n w u).2 !! k = u !! k.
Proof.
  intros H. unfold part_one. destruct (w !! n); [|done]. cbn. by rewrite !lookup_insert_ne.
Qed.
Lemma part_one_has {A} (mixf : gmap Z A -> mixmap -> A) m1 m2 n w u :
  is_Some ((part_one mixf m1 m2 n w u).1 !! n) <-> is_Some (w !! n).
Proof.
  unfold part_one. destruct (w !! n) eqn:E; cbn; [rewrite lookup_insert|rewrite E]; done.
Qed.
Lemma part_one_pred {A} (mixf : gmap Z A -> mixmap -> A) (P : A -> Prop) x1 x2 y1 y2 n w u :
  (forall a b m, P a -> (forall c, b = Some c -> P c) -> m = two_mix x1 x2 \/ m = two_mix y1 y2 -> P (mixf (temp_bin a b) m)) ->
  (forall a, w !! n = Some a -> P a) -> (forall a, u !! n = Some a -> P a) ->
  (forall a, (part_one mixf (two_mix x1 x2) (two_mix y1 y2) n w u).1 !! n = Some a -> P a) /\
  (forall a, (part_one mixf (two_mix x1 x2) (two_mix y1 y2) n w u).2 !! n = Some a -> P a).
Proof.
  intros Hm Hw Hu. unfold part_one. destruct (w !! n) as [a|] eqn:E; cbn.
  - rewrite !lookup_insert. split; intros b [= <-]; (apply Hm; [by apply Hw|done|tauto]).
  - split; [by rewrite E|done].
Qed.

(** ** All six types *)
Lemma store_remove_amount q n u : amount q (store_remove n u) n = 0.
Proof. unfold amount, store_remove. destruct (kind_of q); cbn; by rewrite lookup_delete. Qed.
Lemma store_remove_frame q n u k : k <> n -> amount q (store_remove n u) k = amount q u k.
Proof. intros H. unfold amount, store_remove. destruct (kind_of q); cbn; by rewrite lookup_delete_ne. Qed.

(** The state before the removal at full saturation. *)
Definition parts (n : Z) (s1 s2 z1 z2 : Qc) (w u : store) : store * store :=
  let szmix := two_mix s1 s2 in
  let uzmix := two_mix z1 z2 in
  let ex := part_one exch_mix szmix uzmix n (st_ex w) (st_ex u) in
  let ppa := part_one pp_mix szmix uzmix n (st_pp w) (st_pp u) in
  let g := part_one gas_mix szmix uzmix n (st_gas w) (st_gas u) in
  let s := part_one ssas_mix szmix uzmix n (st_ss w) (st_ss u) in
  let k := part_one kin_mix szmix uzmix n (st_kin w) (st_kin u) in
  let su := part_one surf_mix szmix uzmix n (st_surf w) (st_surf u) in
  (Store ex.1 ppa.1 g.1 s.1 k.1 su.1, Store ex.2 ppa.2 g.2 s.2 k.2 su.2).
Lemma repartition_parts n old new w u s1 s2 z1 z2 : shares old new = (s1, s2, z1, z2) ->
  repartition n old new w u =
    ((parts n s1 s2 z1 z2 w u).1,
     if Qc_leb 1 new then store_remove n (parts n s1 s2 z1 z2 w u).2 else (parts n s1 s2 z1 z2 w u).2).
Proof. intros H. unfold repartition. rewrite H. done. Qed.

Lemma parts_amount fm gt q n s1 s2 z1 z2 w u : named_q q ->
  consistent fm gt w n -> consistent fm gt u n -> has (kind_of q) w n ->
  amount q (parts n s1 s2 z1 z2 w u).1 n = s1 * amount q w n + s2 * amount q u n /\
  amount q (parts n s1 s2 z1 z2 w u).2 n = z1 * amount q w n + z2 * amount q u n.
Proof.
  intros Hn (W1 & W2 & W3) (U1 & U2 & U3) Hh. unfold amount, parts.
  destruct (kind_of q); cbn [st_ex st_pp st_gas st_ss st_kin st_surf fst snd has] in *.
  - apply (part_one_amount exch_mix (exch_amount q) (fun _ => True)); try done.
    intros t m _. by apply exch_mix_linear.
  - apply (part_one_amount pp_mix (pp_amount q) (pp_ok fm)); try done.
    intros t m H. by apply (pp_mix_linear fm q t m).
  - apply (part_one_amount gas_mix (gas_amount q) (fun g => g_type g = gt)); try done.
    intros t m H. by apply (gas_mix_linear gt q t m).
  - apply (part_one_amount ssas_mix (ss_amount q) ss_ok); try done.
    intros t m H. by apply (ssas_mix_linear q t m).
  - apply (part_one_amount kin_mix (kin_amount q) (fun _ => True)); try done.
    intros t m _. by apply kin_mix_linear.
  - apply (part_one_amount surf_mix (surf_amount q) (fun _ => True)); try done.
    intros t m _. by apply surf_mix_linear.
Qed.
Lemma has_dec k st n : has k st n \/ ~ has k st n.
Proof.
  destruct k; cbn;
    match goal with |- is_Some ?o \/ _ => destruct o; [left|right]; [done|by intros [? ?]] end.
Qed.
Lemma not_some {A} (o : option A) : ~ is_Some o -> o = None.
Proof. destruct o; [|done]. intros H. by destruct H. Qed.
Lemma parts_absent q n s1 s2 z1 z2 w u : ~ has (kind_of q) w n ->
  amount q (parts n s1 s2 z1 z2 w u).1 n = 0 /\ amount q w n = 0 /\
  amount q (parts n s1 s2 z1 z2 w u).2 n = amount q u n.
Proof.
  intros Hh. unfold amount, parts. destruct (kind_of q); cbn [st_ex st_pp st_gas st_ss st_kin st_surf fst snd has] in *;
    apply not_some in Hh; rewrite part_one_absent by done; cbn [fst snd]; rewrite Hh; done.
Qed.
Lemma parts_frame q n s1 s2 z1 z2 w u k : k <> n ->
  amount q (parts n s1 s2 z1 z2 w u).1 k = amount q w k /\
  amount q (parts n s1 s2 z1 z2 w u).2 k = amount q u k.
Proof.
  intros H. unfold amount, parts.
  destruct (kind_of q); cbn [st_ex st_pp st_gas st_ss st_kin st_surf fst snd];
    match goal with |- context [part_one ?f ?m1 ?m2 n ?a ?b] =>
      destruct (part_one_frame f m1 m2 n a b k H) as [-> ->] end; done.
Qed.
Lemma parts_has k n s1 s2 z1 z2 w u : has k (parts n s1 s2 z1 z2 w u).1 n <-> has k w n.
Proof. destruct k; cbn [has parts st_ex st_pp st_gas st_ss st_kin st_surf fst snd]; apply part_one_has. Qed.
Lemma parts_consistent fm gt n s1 s2 z1 z2 w u :
  consistent fm gt w n -> consistent fm gt u n ->
  consistent fm gt (parts n s1 s2 z1 z2 w u).1 n /\ consistent fm gt (parts n s1 s2 z1 z2 w u).2 n.
Proof.
  intros (W1 & W2 & W3) (U1 & U2 & U3).
  destruct (part_one_pred pp_mix (pp_ok fm) s1 s2 z1 z2 n (st_pp w) (st_pp u)) as [A1 A2]; try done.
  { intros a b m Ha Hb _. apply (pp_mix_linear fm (QPhaseElement "") (temp_bin a b) m); [done|].
    by apply temp_all. }
  destruct (part_one_pred gas_mix (fun g => g_type g = gt) s1 s2 z1 z2 n (st_gas w) (st_gas u)) as [B1 B2]; try done.
  { intros a b m Ha Hb Hm. apply (gas_mix_type gt (temp_bin a b) m 0%Z).
    - apply (temp_all (fun g => g_type g = gt)); done.
    - destruct b; cbn; [rewrite lookup_insert_ne by done|]; rewrite lookup_insert; done.
    - destruct Hm as [-> | ->]; cbn; by left. }
  destruct (part_one_pred ssas_mix ss_ok s1 s2 z1 z2 n (st_ss w) (st_ss u)) as [C1 C2]; try done.
  { intros a b m Ha Hb _. apply (ssas_mix_linear QGasMoles (temp_bin a b) m); [done|].
    by apply temp_all. }
Qed.
Lemma parts_consistent_frame fm gt n s1 s2 z1 z2 w u k : k <> n ->
  (consistent fm gt w k -> consistent fm gt (parts n s1 s2 z1 z2 w u).1 k) /\
  (consistent fm gt u k -> consistent fm gt (parts n s1 s2 z1 z2 w u).2 k).
Proof.
  intros H. unfold consistent, parts. cbn [st_ex st_pp st_gas st_ss st_kin st_surf fst snd].
  destruct (part_one_frame pp_mix (two_mix s1 s2) (two_mix z1 z2) n (st_pp w) (st_pp u) k H) as [-> ->].
  destruct (part_one_frame gas_mix (two_mix s1 s2) (two_mix z1 z2) n (st_gas w) (st_gas u) k H) as [-> ->].
  destruct (part_one_frame ssas_mix (two_mix s1 s2) (two_mix z1 z2) n (st_ss w) (st_ss u) k H) as [-> ->].
  done.
Qed.
Lemma remove_consistent fm gt n u k : consistent fm gt u k -> consistent fm gt (store_remove n u) k.
Proof.
  intros (H1 & H2 & H3). unfold consistent, store_remove. cbn.
  split; [|split]; intros x; rewrite lookup_delete_Some; intros [_ H]; eauto.
Qed.

(** ** The step *)
Lemma repartition_amount fm gt q n old new w u s1 s2 z1 z2 : named_q q ->
  consistent fm gt w n -> consistent fm gt u n -> has (kind_of q) w n ->
  shares old new = (s1, s2, z1, z2) ->
  amount q (repartition n old new w u).1 n = s1 * amount q w n + s2 * amount q u n /\
  amount q (repartition n old new w u).2 n = z1 * amount q w n + z2 * amount q u n.
Proof.
  intros Hn Hw Hu Hh Hs. rewrite (repartition_parts n old new w u s1 s2 z1 z2 Hs). cbn [fst snd].
  destruct (parts_amount fm gt q n s1 s2 z1 z2 w u Hn Hw Hu Hh) as [-> H2].
  split; [done|]. destruct (Qc_leb 1 new) eqn:E; [|done].
  rewrite store_remove_amount.
  apply Qc_leb_true in E. destruct (shares_cases old new) as [[_ F]|[(F & _)|[(F & _)|(F & _)]]];
    [|by destruct (Qclt_not_le _ _ F)..].
  rewrite Hs in F. injection F as -> -> -> ->. ring.
Qed.
Lemma repartition_frame q n old new w u k : k <> n ->
  amount q (repartition n old new w u).1 k = amount q w k /\
  amount q (repartition n old new w u).2 k = amount q u k.
Proof.
  intros H. destruct (shares old new) as [[[s1 s2] z1] z2] eqn:E.
  rewrite (repartition_parts n old new w u s1 s2 z1 z2 E). cbn [fst snd].
  destruct (parts_frame q n s1 s2 z1 z2 w u k H) as [H1 H2]. split; [done|].
  destruct (Qc_leb 1 new); [|done]. by rewrite store_remove_frame.
Qed.
Lemma repartition_consistent fm gt n old new w u :
  consistent fm gt w n -> consistent fm gt u n ->
  consistent fm gt (repartition n old new w u).1 n /\ consistent fm gt (repartition n old new w u).2 n.
Proof.
  intros Hw Hu. destruct (shares old new) as [[[s1 s2] z1] z2] eqn:E.
  rewrite (repartition_parts n old new w u s1 s2 z1 z2 E). cbn [fst snd].
  destruct (parts_consistent fm gt n s1 s2 z1 z2 w u Hw Hu) as [H1 H2]. split; [done|].
  destruct (Qc_leb 1 new); [by apply remove_consistent|done].
Qed.
Lemma repartition_has k n old new w u : has k (repartition n old new w u).1 n <-> has k w n.
Proof.
  destruct (shares old new) as [[[s1 s2] z1] z2] eqn:E.
  rewrite (repartition_parts n old new w u s1 s2 z1 z2 E). cbn [fst]. apply parts_has.
Qed.
