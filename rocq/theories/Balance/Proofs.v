(** Lemmas for balancing between processes *)
From Coq Require Import ZArith Lia.
From stdpp Require Import prelude.
From Verif.Base Require Import Result Arith.
From Verif.Partition Require Import EndCells Spec EndCellsProofs Rebalance RebalanceProofs.
From Verif.Balance Require Import Model Spec.
Local Open Scope Z_scope.

(** ** Collecting *)
Fixpoint chain {T} (a : nat) (ss zs : list Z) (ts : list (list T)) (b : nat) : Prop :=
  match ss, zs, ts with
  | [], [], [] => a = b
  | s :: ss', z :: zs', l :: ts' =>
      s = Z.of_nat a /\ z = Z.of_nat (length l) /\ chain (a + length l) ss' zs' ts' b
  | _, _, _ => False
  end.

Lemma chain_le {T} ss : forall zs (ts : list (list T)) a b, chain a ss zs ts b -> (a <= b)%nat.
Proof.
  induction ss as [|s ss IH]; intros [|z zs] [|l ts] a b H; cbn in H; try done; [lia|].
  destruct H as (_ & _ & H). apply IH in H. lia.
Qed.

Lemma receive_spec {T} ss : forall zs (ts : list (list T)) a b recv, chain a ss zs ts b -> (b <= length recv)%nat ->
  exists r, receive recv ss zs ts = Ret r /\ length r = length recv /\ take b r = take a recv ++ concat ts.
Proof.
  induction ss as [|s ss IH]; intros [|z zs] [|l ts] a b recv H Hb; cbn in H; try done.
  - subst b. exists recv. cbn. by rewrite app_nil_r.
  - destruct H as (-> & -> & H). pose proof (chain_le _ _ _ _ _ H) as Hle. cbn [receive].
    rewrite decide_True by lia. rewrite !Nat2Z.id, (take_ge l) by lia.
    set (recv' := take a recv ++ l ++ drop (a + length l) recv).
    assert (Hl : length recv' = length recv).
    { unfold recv'. rewrite !app_length, take_length, drop_length. lia. }
    assert (Ht : take (a + length l) recv' = take a recv ++ l).
    { unfold recv'. rewrite app_assoc. rewrite take_app_alt; [done|]. rewrite app_length, take_length. lia. }
    destruct (IH zs ts _ _ recv' H ltac:(lia)) as (r & E & L & Ek). exists r. split; [done|]. split; [lia|].
    rewrite Ek, Ht. cbn [concat]. by rewrite <- app_assoc.
Qed.

Lemma split_chain {T} ss : forall es (ts : list (list T)) a b,
  length ss = length es -> ss <> [] -> ss !! 0%nat = Some (Z.of_nat a) -> last es = Some (b - 1) ->
  (forall t s e, ss !! t = Some s -> es !! t = Some e -> s <= e) ->
  (forall t e s, es !! t = Some e -> ss !! S t = Some s -> s = e + 1) ->
  measured ss es ts -> chain a ss (range_sizes ss es) ts (Z.to_nat b).
Proof.
  induction ss as [|s ss IH]; intros [|e es] [|l ts] a b Hl Hne Hf Hla Hn Hc [Hm1 Hm2]; try done.
  cbn in Hf. injection Hf as ->. pose proof (Hm2 0%nat _ _ _ eq_refl eq_refl eq_refl) as Hll.
  pose proof (Hn 0%nat _ _ eq_refl eq_refl) as Hse.
  cbn [range_sizes zip_with chain]. split; [done|]. split; [lia|].
  destruct ss as [|s' ss].
  - destruct es; [|done]. destruct ts; [|done]. cbn in Hla |- *. injection Hla as ->. lia.
  - destruct es as [|e' es]; [done|]. apply IH.
    + cbn in Hl |- *. lia.
    + done.
    + cbn. f_equal. rewrite (Hc 0%nat e s' eq_refl eq_refl). lia.
    + exact Hla.
    + intros t. apply (Hn (S t)).
    + intros t. apply (Hc (S t)).
    + split; [cbn in Hm1 |- *; lia|]. intros p. apply (Hm2 (S p)).
Qed.

Lemma valid_chain {T} count ss es (ts : list (list T)) : valid_split count ss es -> measured ss es ts ->
  chain 0 ss (range_sizes ss es) ts (Z.to_nat count).
Proof. intros V M. apply split_chain; try apply V; done. Qed.

Lemma chain_concat {T} ss : forall zs (ts : list (list T)) a b, chain a ss zs ts b ->
  (a + length (concat ts) = b)%nat /\ foldr Z.add 0 zs = Z.of_nat (length (concat ts)) /\ Forall (fun z => 0 <= z) zs.
Proof.
  induction ss as [|s ss IH]; intros [|z zs] [|l ts] a b H; cbn in H; try done.
  - subst. cbn. split; [lia|done].
  - destruct H as (-> & -> & H). destruct (IH _ _ _ _ H) as (H1 & H2 & H3). cbn [concat foldr].
    rewrite app_length, H2. split; [lia|]. split; [lia|]. constructor; [lia|done].
Qed.

Lemma collect_spec {T} (zero : T) count ss es times : valid_split count ss es -> measured ss es times ->
  exists rest, collect zero count ss es times = Ret (concat times ++ rest).
Proof.
  intros V M. pose proof (valid_chain _ _ _ _ V M) as C. unfold collect.
  destruct ss as [|s ss]; [by destruct (vs_nonempty_list _ _ _ V)|].
  destruct (range_sizes (s :: ss) es) as [|z zs]; [done|]. destruct times as [|l ts]; [done|].
  cbn [chain] in C. destruct C as (_ & _ & C). cbn [lookup list_lookup default drop].
  destruct (receive_spec _ _ _ _ _ (l ++ replicate (Z.to_nat count) zero) C) as (r & E & L & Ht).
  { rewrite app_length, replicate_length. lia. }
  cbn [skipn drop]. rewrite Nat.add_0_l in *.
  exists (drop (Z.to_nat count) r). change (receive (l ++ replicate (Z.to_nat count) zero) ss zs ts = Ret (concat (l :: ts) ++ drop (Z.to_nat count) r)).
  rewrite E. f_equal. rewrite take_app in Ht. cbn [concat]. rewrite <- Ht. by rewrite take_drop.
Qed.

Section proofs.
  Context (A : arith).
  Notation num := (num A).

  (** Only the times of cells are looked at. *)
  Lemma normalized_prefix zs : forall (std x y : list num), Forall (fun z => 0 <= z) zs ->
    foldr Z.add 0 zs <= Z.of_nat (length x) -> normalized A zs std (x ++ y) = normalized A zs std x.
  Proof.
    induction zs as [|z zs IH]; intros [|s std] x y Hz Hs; cbn [normalized]; try done.
    apply Forall_cons in Hz as [Hz Hzs]. cbn in Hs.
    assert (0 <= foldr Z.add 0 zs) by (clear -Hzs; induction Hzs; cbn; lia).
    rewrite take_app_le by lia. rewrite drop_app_le by lia. f_equal. apply IH; [done|]. rewrite drop_length. lia.
  Qed.
  Lemma task_times_prefix zs : forall (x y : list num), Forall (fun z => 0 <= z) zs ->
    foldr Z.add 0 zs <= Z.of_nat (length x) -> task_times A zs (x ++ y) = task_times A zs x.
  Proof.
    induction zs as [|z zs IH]; intros x y Hz Hs; cbn [task_times]; try done.
    apply Forall_cons in Hz as [Hz Hzs]. cbn in Hs.
    assert (0 <= foldr Z.add 0 zs) by (clear -Hzs; induction Hzs; cbn; lia).
    rewrite take_app_le by lia. rewrite drop_app_le by lia. f_equal. apply IH; [done|]. rewrite drop_length. lia.
  Qed.
  Lemma normalized_length zs : forall (std x : list num), Forall (fun z => 0 <= z) zs -> length std = length zs ->
    foldr Z.add 0 zs <= Z.of_nat (length x) -> Z.of_nat (length (normalized A zs std x)) = foldr Z.add 0 zs.
  Proof.
    induction zs as [|z zs IH]; intros [|s std] x Hz Hl Hs; cbn [normalized]; try done.
    apply Forall_cons in Hz as [Hz Hzs]. cbn in Hs, Hl |- *.
    assert (0 <= foldr Z.add 0 zs) by (clear -Hzs; induction Hzs; cbn; lia).
    rewrite app_length, fmap_length, take_length, Nat2Z.inj_add, IH; [lia|done|lia|]. rewrite drop_length. lia.
  Qed.

  Lemma balance_cell_collected f count ss es std (times : list (list num)) :
    valid_split count ss es -> measured ss es times ->
    obind (collect (of_int A 0) count ss es times) (fun t => balance_cell A f count ss es std t) =
      balance_cell A f count ss es std (concat times).
  Proof.
    intros V M. destruct (collect_spec (of_int A 0) count ss es times V M) as [rest ->]. cbn [obind].
    destruct (chain_concat _ _ _ _ _ (valid_chain _ _ _ _ V M)) as (_ & Hs & Hz).
    unfold balance_cell. rewrite normalized_prefix by (done || lia). by rewrite task_times_prefix by (done || lia).
  Qed.

  (** ** By cell *)
  Lemma split_fractions_spec fracs : forall count left j total (times : list num),
    count - j = Z.of_nat (length times) -> Z.of_nat (length fracs) + 1 = left -> left <= count - j ->
    exists es, split_fractions A fracs count left j total times = Ret es /\
      length es = length fracs /\
      (forall e, es !! 0%nat = Some e -> j <= e) /\
      (forall t e e', es !! t = Some e -> es !! S t = Some e' -> e < e') /\
      (forall e, last es = Some e -> e < count - 1).
  Proof.
    induction fracs as [|frac fracs IH]; intros count left j total times Hlen Hk Hleft; cbn [split_fractions].
    { exists []. repeat split; try done. }
    cbn [length] in Hk.
    destruct (split_one_spec A count left j j (of_int A 0) total frac times)
      as (e & j' & times' & -> & H1 & H2 & H3 & H4 & H5); [lia..|].
    destruct (IH count (left - 1) j' total times') as (es & -> & L & Hf & Hi & Hlast); [lia..|].
    exists (e :: es). split; [done|]. split; [simpl; lia|]. split; [|split].
    - intros x [= <-]. lia.
    - intros [|t] x y; simpl.
      + intros [= <-] Hy. specialize (Hf _ Hy). lia.
      + apply Hi.
    - intros x. destruct es as [|e1 es].
      + intros [= <-]. simpl in L. lia.
      + rewrite last_cons_cons. apply Hlast.
  Qed.

  Lemma balance_cell_spec f count ss es std (times : list (list num)) :
    valid_split count ss es -> Z.of_nat (length es) <= count -> measured ss es times -> length std = length es ->
    icells_ok count (icells_cell A f) ->
    exists ss' es', balance_cell A f count ss es std (concat times) = Ret (ss', es') /\
       valid_split count ss' es' /\ length es' = length es.
  Proof.
    intros V Hnt M Ls Hic. unfold balance_cell.
    destruct (chain_concat _ _ _ _ _ (valid_chain _ _ _ _ V M)) as (Hc & Hs & Hz).
    pose proof (vs_len _ _ _ V) as Lse. pose proof (vs_last _ _ _ V) as Hl.
    assert (Hne : (0 < length es)%nat) by (destruct es; [done|simpl; lia]).
    assert (Lz : length (range_sizes ss es) = length es) by (unfold range_sizes; rewrite zip_with_length; lia).
    pose proof (normalized_length (range_sizes ss es) std (concat times) Hz ltac:(lia) ltac:(lia)) as Ln.
    assert (Lf : length (take (pred (length es)) (task_fractions A std)) = pred (length es)).
    { rewrite take_length. unfold task_fractions. rewrite fmap_length. lia. }
    match goal with |- context [split_fractions A ?fr count ?l 0 ?t ?ts] =>
      destruct (split_fractions_spec fr count l 0 t ts) as (en & -> & L & Hf & Hi & Hlast) end; [lia..|].
    destruct (fltb A _ _); [eauto|].
    assert (Vn : valid_split count (starts_of (en ++ [count - 1])) (en ++ [count - 1])).
    { assert (Hne2 : en ++ [count - 1] <> []) by (by destruct en).
      destruct (starts_of_spec _ Hne2) as (L1 & H0 & Hcc).
      apply valid_split_of_ends; try done.
      - apply last_snoc.
      - intros e He. destruct en as [|e0 en]; simpl in He.
        + injection He as <-. lia.
        + injection He as <-. by apply Hf.
      - intros t e e' He He'.
        destruct (decide (S t < length en)%nat) as [Hlt|Hlt].
        + rewrite lookup_app_l in He, He' by lia. eauto.
        + pose proof (lookup_lt_Some _ _ _ He') as Hx. rewrite app_length in Hx. simpl in Hx.
          rewrite lookup_app_l in He by lia.
          rewrite lookup_app_r in He' by lia.
          replace (S t - length en)%nat with 0%nat in He' by lia. simpl in He'.
          injection He' as <-. apply Hlast. rewrite last_lookup, <- He. f_equal. lia. }
    assert (Lnn : length es = length (en ++ [count - 1])).
    { rewrite app_length. simpl. lia. }
    destruct (shift_valid _ _ _ _ _ _ V Vn Lnn Hic) as (ends & -> & Ve & Le & _). eauto.
  Qed.

  (** ** By averages *)
  Lemma balance_avg_spec f count ss es times :
    valid_split count ss es -> length times = length es -> icells_ok count (icells_avg A f) ->
    (exists ss' es', balance_avg A f count ss es times = Ret (ss', es') /\
       valid_split count ss' es' /\ length es' = length es) \/
    balance_avg A f count ss es times = UB.
  Proof.
    intros V Lt Hic. unfold balance_avg.
    pose proof (vs_len _ _ _ V) as Lse. pose proof (vs_last _ _ _ V) as Hl.
    assert (Hne : (0 < length es)%nat) by (destruct es; [done|simpl; lia]).
    assert (Ls : length (range_sizes ss es) = length es).
    { unfold range_sizes. rewrite zip_with_length. lia. }
    assert (Lr : length (process_times A times (range_sizes ss es)) = length es).
    { unfold process_times. rewrite fmap_length, zip_with_length. lia. }
    destruct (process_times A times (range_sizes ss es)) as [|r0 r] eqn:Er.
    { simpl in Lr. lia. }
    destruct (floor_cells A _ _ _) as [cells0|] eqn:Ef; [|by right].
    apply floor_cells_spec in Ef as [L0 F0].
    assert (Hne0 : cells0 <> []). { intros ->. discriminate L0. }
    destruct (adjust_cells A count cells0 (r0 :: r)) as [cells| |] eqn:Ea; [| |by right].
    2:{ exfalso. revert Ea. unfold adjust_cells. destruct (decide _); [done|].
        intros E. by apply remove_cells_no_throw in E. }
    destruct (adjust_cells_spec _ _ _ _ _ Hne0 L0 F0 Ea) as (L1 & S1 & F1).
    assert (Hne1 : cells <> []). { intros ->. simpl in L1. lia. }
    pose proof (ranges_from_valid cells count Hne1 F1 S1) as Vn.
    destruct (ranges_from_length 0 cells) as [Ln1 Ln2].
    destruct (ranges_from 0 cells) as [ssn esn]. simpl in Vn, Ln1, Ln2.
    rewrite decide_True by apply Vn.
    destruct (fltb A _ _). { left. eauto. }
    assert (Lnn : length es = length esn) by (simpl in *; lia).
    destruct (shift_valid _ _ _ _ _ _ V Vn Lnn Hic) as (ends & -> & Ve & Le & _).
    left. eauto.
  Qed.

  (** ** With equal standard times *)
  Lemma split_fractions_same k frac : forall count left j total (times : list num),
    split_fractions A (replicate k frac) count left j total times = split_all A k count left j total frac times.
  Proof.
    induction k as [|k IH]; intros; cbn; [done|].
    destruct (split_one A count left j j (of_int A 0) total frac times) as [[[e j'] t']| |]; [|done..].
    by rewrite IH.
  Qed.
  Lemma normalized_same (s : num) zs : forall (x : list num), Forall (fun z => 0 <= z) zs ->
    foldr Z.add 0 zs = Z.of_nat (length x) ->
    normalized A zs (replicate (length zs) s) x = (fun t => fdiv A t s) <$> x.
  Proof.
    induction zs as [|z zs IH]; intros x Hz Hs; cbn [normalized length replicate].
    - cbn in Hs. destruct x; [done|]. cbn in Hs. lia.
    - apply Forall_cons in Hz as [Hz Hzs]. cbn in Hs.
      assert (0 <= foldr Z.add 0 zs) by (clear -Hzs; induction Hzs; cbn; lia).
      rewrite IH; [|done|rewrite drop_length; lia]. by rewrite <- fmap_app, take_drop.
  Qed.
  Lemma task_times_length zs : forall (x : list num), length (task_times A zs x) = length zs.
  Proof. induction zs as [|z zs IH]; intros x; cbn; [done|]. by rewrite IH. Qed.
  Lemma zip_same {X Y Z'} (g : X -> Y -> Z') (y : Y) (l : list X) :
    zip_with g l (replicate (length l) y) = (fun x => g x y) <$> l.
  Proof. induction l as [|x l IH]; cbn; [done|]. f_equal. apply IH. Qed.

  Lemma balance_cell_same f count ss es (times : list (list num)) :
    valid_split count ss es -> measured ss es times ->
    balance_cell A f count ss es (replicate (length es) (of_int A 1)) (concat times) =
      rebalance_cell A f count ss es (concat times).
  Proof.
    intros V M. destruct (chain_concat _ _ _ _ _ (valid_chain _ _ _ _ V M)) as (Hc & Hs & Hz).
    pose proof (vs_len _ _ _ V) as Lse.
    assert (Lz : length (range_sizes ss es) = length es) by (unfold range_sizes; rewrite zip_with_length; lia).
    unfold balance_cell, rebalance_cell, task_fractions. rewrite !fmap_replicate.
    rewrite take_replicate, Nat.min_l by lia. rewrite split_fractions_same.
    assert (Hn : normalized A (range_sizes ss es) (replicate (length es) (of_int A 1)) (concat times) =
      (fun t => fdiv A t (of_int A 1)) <$> concat times) by (rewrite <- Lz; apply normalized_same; [done|lia]).
    rewrite Hn.
    assert (He : forall frac, process_efficiency A (task_times A (range_sizes ss es) (concat times)) (replicate (length es) frac)
      = efficiency A (task_times A (range_sizes ss es) (concat times)) frac).
    { intros frac. unfold process_efficiency, efficiency. rewrite <- Lz, <- (task_times_length _ (concat times)).
      by rewrite zip_same. }
    rewrite He. done.
  Qed.
End proofs.
