From stdpp Require Import prelude.
From Verif.Base Require Import Result Arith.
From Verif.Partition Require Import EndCells Spec EndCellsProofs Rebalance.
Local Open Scope Z_scope.

(** ** Shift functions *)

(** A step function: 0 at 0, and growing by 0 or 1 from each integer to the next. *)
Definition step_fun (g : Z -> Z) : Prop :=
  g 0 = 0 /\ forall d, g d <= g (d + 1) <= g d + 1.

Lemma step_fun_mono g : step_fun g -> forall d k, 0 <= k -> g d <= g (d + k) <= g d + k.
Proof.
  intros [_ Hs] d k Hk. revert k Hk. apply natlike_ind.
  - rewrite Z.add_0_r. lia.
  - intros x Hx IH. pose proof (Hs (d + x)).
    replace (d + Z.succ x) with (d + x + 1) by lia. lia.
Qed.

Lemma step_fun_bounds g d : step_fun g -> Z.min 0 d <= g d <= Z.max 0 d.
Proof.
  intros H. pose proof (proj1 H) as H0.
  destruct (decide (0 <= d)) as [Hd|Hd].
  - pose proof (step_fun_mono g H 0 d Hd) as Hm. rewrite Z.add_0_l in Hm. lia.
  - pose proof (step_fun_mono g H d (- d) ltac:(lia)) as Hm.
    replace (d + - d) with 0 in Hm by lia. lia.
Qed.

(** Moving both ends up by at least one moves the shifted end up. *)
Lemma step_fun_shift g e e' n n' :
  step_fun g -> e < e' -> n < n' -> e + g (n - e) < e' + g (n' - e').
Proof.
  intros H He Hn.
  destruct (decide (n - e <= n' - e')) as [Hd|Hd].
  - pose proof (step_fun_mono g H (n - e) ((n' - e') - (n - e)) ltac:(lia)) as Hm.
    replace (n - e + (n' - e' - (n - e))) with (n' - e') in Hm by lia. lia.
  - pose proof (step_fun_mono g H (n' - e') ((n - e) - (n' - e')) ltac:(lia)) as Hm.
    replace (n' - e' + (n - e - (n' - e'))) with (n - e) in Hm by lia. lia.
Qed.

(** ** shift *)

Lemma shift_spec (ic : Z -> option Z) (g : Z -> Z) old new :
  length old = length new -> last old = last new -> g 0 = 0 ->
  (forall t e n, old !! t = Some e -> new !! t = Some n -> ic (n - e) = Some (g (n - e))) ->
  shift ic old new = Some (zip_with (fun e n => e + g (n - e)) old new).
Proof.
  intros L Hl H0 Hic. revert new L Hl Hic.
  induction old as [|e old IH]; intros new L Hl Hic.
  { destruct new; [done|discriminate L]. }
  destruct new as [|n new]; [discriminate L|].
  destruct old as [|e1 old].
  - destruct new; [|discriminate L]. cbn in Hl. injection Hl as ->. simpl.
    rewrite Z.sub_diag, H0. f_equal. f_equal. lia.
  - destruct new as [|n1 new]; [discriminate L|].
    change (shift ic (e :: e1 :: old) (n :: n1 :: new)) with
      (match ic (n - e), shift ic (e1 :: old) (n1 :: new) with
       | Some x, Some r => Some (e + x :: r) | _, _ => None end).
    rewrite (Hic 0%nat e n eq_refl eq_refl).
    rewrite (IH (n1 :: new)); [done|..].
    + simpl in *. lia.
    + exact Hl.
    + intros t. exact (Hic (S t)).
Qed.

Lemma starts_of_spec ends :
  ends <> [] ->
  length (starts_of ends) = length ends /\ starts_of ends !! 0%nat = Some 0 /\
  forall t e s, ends !! t = Some e -> starts_of ends !! S t = Some s -> s = e + 1.
Proof.
  intros Hne. unfold starts_of. split; [|split].
  - simpl. rewrite fmap_length, take_length. destruct ends; [done|]. simpl. lia.
  - done.
  - intros t e s He. simpl. rewrite list_lookup_fmap.
    intros (x & Hx & ->)%fmap_Some. apply lookup_take_Some in Hx as [Hx _]. congruence.
Qed.

Lemma shifted_valid count ss es ssn esn g :
  valid_split count ss es -> valid_split count ssn esn -> length es = length esn ->
  step_fun g ->
  let ends := zip_with (fun e n => e + g (n - e)) es esn in
  valid_split count (starts_of ends) ends.
Proof.
  intros V Vn L Hg ends.
  assert (Le : length ends = length es) by (subst ends; rewrite zip_with_length; lia).
  pose proof (vs_last _ _ _ V) as Hl. pose proof (vs_last _ _ _ Vn) as Hln.
  assert (Hne : ends <> []).
  { intros E. rewrite E in Le. destruct es; [done|discriminate Le]. }
  destruct (starts_of_spec ends Hne) as (L1 & H0 & Hc).
  assert (Hlk : forall t x, ends !! t = Some x ->
            exists e n, es !! t = Some e /\ esn !! t = Some n /\ x = e + g (n - e)).
  { intros t x Hx. subst ends. apply lookup_zip_with_Some in Hx as (e & n & -> & ? & ?). eauto. }
  apply valid_split_of_ends; try done.
  - rewrite last_lookup in *. rewrite Le. rewrite <- L in Hln.
    subst ends. rewrite lookup_zip_with, Hl, Hln. simpl. rewrite Z.sub_diag, (proj1 Hg).
    f_equal. lia.
  - intros x (e & n & He & Hn & ->)%Hlk.
    pose proof (valid_split_end_bounds _ _ _ _ _ V He).
    pose proof (valid_split_end_bounds _ _ _ _ _ Vn Hn).
    pose proof (step_fun_bounds g (n - e) Hg). lia.
  - intros t x x' (e & n & He & Hn & ->)%Hlk (e' & n' & He' & Hn' & ->)%Hlk.
    apply step_fun_shift; [done|..].
    + exact (valid_split_ends_incr _ _ _ _ _ _ V He He').
    + exact (valid_split_ends_incr _ _ _ _ _ _ Vn Hn Hn').
Qed.

(** [ic] acts as the step function [g] on all differences of positions below
    [count]. *)
Definition icells_ok (count : Z) (ic : Z -> option Z) : Prop :=
  exists g, step_fun g /\ forall d, - count < d < count -> ic d = Some (g d).

Lemma shift_valid count ss es ssn esn ic :
  valid_split count ss es -> valid_split count ssn esn -> length es = length esn ->
  icells_ok count ic ->
  exists ends, shift ic es esn = Some ends /\ valid_split count (starts_of ends) ends /\
    length ends = length es /\
    (forall t e n x, es !! t = Some e -> esn !! t = Some n -> ends !! t = Some x ->
       Z.min e n <= x <= Z.max e n).
Proof.
  intros V Vn L (g & Hg & Hic).
  assert (Hb : forall t e n, es !! t = Some e -> esn !! t = Some n -> - count < n - e < count).
  { intros t e n He Hn.
    pose proof (valid_split_end_bounds _ _ _ _ _ V He).
    pose proof (valid_split_end_bounds _ _ _ _ _ Vn Hn).
    pose proof (lookup_lt_Some _ _ _ He). lia. }
  exists (zip_with (fun e n => e + g (n - e)) es esn). split; [|split; [|split]].
  - apply shift_spec; [done|..].
    + by rewrite (vs_last _ _ _ V), (vs_last _ _ _ Vn).
    + apply Hg.
    + intros t e n He Hn. apply Hic. eauto.
  - eapply shifted_valid; eauto.
  - rewrite zip_with_length. lia.
  - intros t e n x He Hn Hx. rewrite lookup_zip_with, He, Hn in Hx. simpl in Hx.
    injection Hx as <-. pose proof (step_fun_bounds g (n - e) Hg). lia.
Qed.

(** ** Averages: the new split *)

Section proofs.
  Context (A : arith).

  Lemma floor_cells_spec new_n r0 r cells :
    floor_cells A new_n r0 r = Some cells ->
    length cells = length r /\ Forall (fun c => 1 <= c) cells.
  Proof.
    revert cells. induction r as [|x r IH]; intros cells; cbn [floor_cells].
    { intros [= <-]. done. }
    destruct (floor_to_int A _) as [n|]; [|done].
    destruct (floor_cells A new_n r0 r) as [l|]; [|done]. intros [= <-].
    destruct (IH l eq_refl) as [L F]. split; [simpl; lia|].
    constructor; [|done]. destruct (decide (n < 1)); lia.
  Qed.

  Lemma zsum_alter (f : Z -> Z) k l i c :
    l !! i = Some c -> (forall x, f x = x + k) -> zsum (alter f i l) = zsum l + k.
  Proof.
    intros Hi Hf. revert i Hi. induction l as [|x l IH]; intros i Hi; [done|].
    destruct i as [|i]; simpl in Hi |- *.
    - rewrite Hf. unfold zsum. simpl. lia.
    - unfold alter in IH. rewrite (IH i Hi). lia.
  Qed.

  Lemma argmin_lt i m mt cells r :
    (argmin A i m mt cells r = m \/ argmin A i m mt cells r < i + length cells)%nat.
  Proof.
    revert i m mt r. induction cells as [|c cells IH]; intros i m mt r; cbn [argmin]; [by left|].
    destruct r as [|x r]; [by left|].
    destruct (fltb A _ _).
    - destruct (IH (S i) i (fmul A (of_int A (c + 1)) x) r) as [->|?]; right; simpl; lia.
    - destruct (IH (S i) m mt r) as [?|?]; [by left|right; simpl; lia].
  Qed.

  Lemma add_one_spec cells r :
    cells <> [] -> length cells = length r -> Forall (fun c => 1 <= c) cells ->
    length (add_one A cells r) = length cells /\
    zsum (add_one A cells r) = zsum cells + 1 /\ Forall (fun c => 1 <= c) (add_one A cells r).
  Proof.
    intros Hne L F. destruct cells as [|c cells]; [done|]. destruct r as [|x r]; [done|].
    unfold add_one. set (i := argmin A 1 0 _ cells r).
    assert (Hi : (i < length (c :: cells))%nat).
    { subst i. destruct (argmin_lt 1 0 (fmul A (of_int A (c + 1)) x) cells r) as [->|?]; simpl; lia. }
    destruct (lookup_lt_is_Some_2 _ _ Hi) as [y Hy].
    split; [by rewrite alter_length|]. split.
    - by eapply zsum_alter.
    - apply Forall_alter; [done|]. intros; lia.
  Qed.

  Lemma add_cells_spec k cells r :
    cells <> [] -> length cells = length r -> Forall (fun c => 1 <= c) cells ->
    length (add_cells A k cells r) = length cells /\
    zsum (add_cells A k cells r) = zsum cells + Z.of_nat k /\
    Forall (fun c => 1 <= c) (add_cells A k cells r).
  Proof.
    revert cells. induction k as [|k IH]; intros cells Hne L F; cbn [add_cells].
    { split; [done|]. split; [lia|done]. }
    destruct (add_one_spec cells r Hne L F) as (L1 & S1 & F1).
    destruct (IH (add_one A cells r)) as (L2 & S2 & F2); [|lia|done|].
    { intros E. rewrite E in L1. destruct cells; [done|discriminate L1]. }
    split; [lia|]. split; [lia|done].
  Qed.

  Lemma argmax_spec i m mt cells r k :
    argmax A i m mt cells r = Some k ->
    m = Some k \/ (i <= k)%nat /\ exists c, cells !! (k - i)%nat = Some c /\ 1 < c.
  Proof.
    revert i m mt r. induction cells as [|c cells IH]; intros i m mt r; cbn [argmax].
    { intros ->. by left. }
    destruct r as [|x r]; [intros ->; by left|].
    assert (Hshift : forall m mt, argmax A (S i) m mt cells r = Some k ->
      m = Some k \/ (i <= k)%nat /\ exists c0, (c :: cells) !! (k - i)%nat = Some c0 /\ 1 < c0).
    { intros m' mt' E. destruct (IH _ _ _ _ E) as [?|(? & y & ? & ?)]; [by left|right].
      split; [lia|]. exists y. replace (k - i)%nat with (S (k - S i)) by lia. done. }
    destruct (decide (c > 1)) as [Hc|Hc]; [|apply Hshift].
    destruct (fltb A _ _); [|apply Hshift].
    intros E. apply Hshift in E as [[= ->]|?]; [|by right]. right. split; [done|].
    rewrite Nat.sub_diag. exists c. split; [done|lia].
  Qed.

  Lemma remove_cells_spec k cells r cells' :
    Forall (fun c => 1 <= c) cells ->
    remove_cells A k cells r = Ret cells' ->
    length cells' = length cells /\ zsum cells' = zsum cells - Z.of_nat k /\
    Forall (fun c => 1 <= c) cells'.
  Proof.
    revert cells. induction k as [|k IH]; intros cells F; cbn [remove_cells].
    { intros [= <-]. split; [done|]. split; [lia|done]. }
    destruct (argmax A 0 None _ cells r) as [i|] eqn:E; [|done].
    apply argmax_spec in E as [?|(_ & c & Hc & H1)]; [done|].
    rewrite Nat.sub_0_r in Hc. intros H.
    destruct (IH (alter (fun c => c - 1) i cells)) as (L & S & F'); [|done|].
    { apply Forall_lookup. intros t y Hy. rewrite Forall_lookup in F.
      destruct (decide (t = i)) as [->|Hne].
      - rewrite list_lookup_alter, Hc in Hy. simpl in Hy. injection Hy as <-. lia.
      - rewrite list_lookup_alter_ne in Hy by done. eauto. }
    rewrite alter_length in L. split; [done|].
    rewrite (zsum_alter _ (-1) _ _ _ Hc) in S by lia. split; [lia|done].
  Qed.

  Lemma remove_cells_no_throw k c r : remove_cells A k c r <> Throw.
  Proof.
    revert c. induction k as [|k IH]; intros c; cbn [remove_cells]; [done|].
    destruct (argmax A _ _ _ _ _); [apply IH|done].
  Qed.

  Lemma adjust_cells_spec count cells r cells' :
    cells <> [] -> length cells = length r -> Forall (fun c => 1 <= c) cells ->
    adjust_cells A count cells r = Ret cells' ->
    length cells' = length cells /\ zsum cells' = count /\ Forall (fun c => 1 <= c) cells'.
  Proof.
    intros Hne L F. unfold adjust_cells. change (total_cells cells) with (zsum cells).
    destruct (decide _) as [Hd|Hd].
    - intros [= <-]. destruct (add_cells_spec (Z.to_nat (count - zsum cells)) cells r Hne L F)
        as (? & ? & ?). split; [done|]. split; [lia|done].
    - intros E. destruct (remove_cells_spec _ _ _ _ F E) as (? & ? & ?).
      split; [done|]. split; [lia|done].
  Qed.

  Lemma per_cell_times_length times sizes :
    length times = length sizes -> length (per_cell_times A times sizes) = length sizes.
  Proof. intros L. unfold per_cell_times. rewrite zip_with_length. lia. Qed.

  Lemma rebalance_avg_spec f count ss es times :
    valid_split count ss es -> length times = length es ->
    icells_ok count (icells_avg A f) ->
    (exists ss' es', rebalance_avg A f count ss es times = Ret (ss', es') /\
       valid_split count ss' es' /\ length es' = length es) \/
    rebalance_avg A f count ss es times = UB.
  Proof.
    intros V Lt Hic. unfold rebalance_avg.
    pose proof (vs_len _ _ _ V) as Lse. pose proof (vs_last _ _ _ V) as Hl.
    assert (Hne : (0 < length es)%nat) by (destruct es; [done|simpl; lia]).
    assert (Ls : length (range_sizes ss es) = length es).
    { unfold range_sizes. rewrite zip_with_length. lia. }
    assert (Lr : length (per_cell_times A times (range_sizes ss es)) = length es).
    { rewrite per_cell_times_length; lia. }
    destruct (per_cell_times A times (range_sizes ss es)) as [|r0 r] eqn:Er.
    { simpl in Lr. lia. }
    destruct (floor_cells A _ _ _) as [cells0|] eqn:Ef; [|by right].
    apply floor_cells_spec in Ef as [L0 F0].
    assert (Hne0 : cells0 <> []). { intros ->. discriminate L0. }
    destruct (adjust_cells A count cells0 (r0 :: r)) as [cells| |] eqn:Ea; [| |by right].
    2:{ exfalso. revert Ea. unfold adjust_cells. destruct (decide _); [done|].
        intros E. by apply remove_cells_no_throw in E. }
    destruct (adjust_cells_spec _ _ _ _ Hne0 L0 F0 Ea) as (L1 & S1 & F1).
    assert (Hne1 : cells <> []). { intros ->. simpl in L1. lia. }
    pose proof (ranges_from_valid cells count Hne1 F1 S1) as Vn.
    destruct (ranges_from_length 0 cells) as [Ln1 Ln2].
    destruct (ranges_from 0 cells) as [ssn esn]. simpl in Vn, Ln1, Ln2.
    rewrite decide_True by apply Vn.
    destruct (fltb A _ _). { left. eauto. }
    assert (Lnn : length es = length esn) by (simpl in *; lia).
    destruct (shift_valid _ _ _ _ _ _ V Vn Lnn Hic) as (ends & -> & Ve & Le & _).
    left. eauto.
  Qed.

  (** ** By cell *)

  Lemma split_one_spec count left start j temp total frac times :
    start <= j -> count - j = Z.of_nat (length times) -> 1 <= left <= count - j ->
    (start < j -> left < count - j + 1) ->
    exists e j' times', split_one A count left start j temp total frac times = Ret (e, j', times') /\
      start <= e < j' /\ j' = e + 1 /\ count - j' = Z.of_nat (length times') /\
      left - 1 <= count - j' /\ j <= j'.
  Proof.
    revert j temp. induction times as [|t times IH]; intros j temp Hj Hlen Hleft Hinv.
    { simpl in Hlen. lia. }
    cbn [split_one]. simpl in Hlen.
    destruct (fltb A _ _ && bool_decide (count - j > left)) eqn:E.
    - apply andb_true_iff in E as [_ E]. apply bool_decide_eq_true in E.
      destruct (IH (j + 1) (fadd A temp (fdiv A t total))) as (e & j' & times' & He & H1 & H2 & H3 & H4 & H5);
        [lia..|].
      exists e, j', times'. repeat split; try done; lia.
    - destruct (decide (j = start)) as [->|Hne].
      + exists start, (start + 1), times. repeat split; lia.
      + exists (j - 1), j, (t :: times). simpl length. repeat split; lia.
  Qed.

  Lemma split_all_spec k count left j total frac times :
    count - j = Z.of_nat (length times) -> Z.of_nat k + 1 = left -> left <= count - j ->
    exists es, split_all A k count left j total frac times = Ret es /\
      length es = k /\
      (forall e, es !! 0%nat = Some e -> j <= e) /\
      (forall t e e', es !! t = Some e -> es !! S t = Some e' -> e < e') /\
      (forall e, last es = Some e -> e < count - 1).
  Proof.
    revert left j times. induction k as [|k IH]; intros left j times Hlen Hk Hleft; cbn [split_all].
    { exists []. repeat split; try done. }
    destruct (split_one_spec count left j j (of_int A 0) total frac times)
      as (e & j' & times' & -> & H1 & H2 & H3 & H4 & H5); [lia..|].
    destruct (IH (left - 1) j' times') as (es & -> & L & Hf & Hi & Hlast); [lia..|].
    exists (e :: es). split; [done|]. split; [simpl; lia|]. split; [|split].
    - intros x [= <-]. lia.
    - intros [|t] x y; simpl.
      + intros [= <-] Hy. specialize (Hf _ Hy). lia.
      + apply Hi.
    - intros x. destruct es as [|e1 es].
      + intros [= <-]. simpl in L. lia.
      + rewrite last_cons_cons. apply Hlast.
  Qed.

  Lemma rebalance_cell_spec f count ss es times :
    valid_split count ss es -> Z.of_nat (length es) <= count ->
    Z.of_nat (length times) = count ->
    icells_ok count (icells_cell A f) ->
    exists ss' es', rebalance_cell A f count ss es times = Ret (ss', es') /\
       valid_split count ss' es' /\ length es' = length es.
  Proof.
    intros V Hnt Lt Hic. unfold rebalance_cell.
    pose proof (vs_last _ _ _ V) as Hl.
    assert (Hne : (0 < length es)%nat) by (destruct es; [done|simpl; lia]).
    match goal with |- context [split_all A ?k count ?l 0 ?t ?fr ?ts] =>
      destruct (split_all_spec k count l 0 t fr ts) as (en & -> & L & Hf & Hi & Hlast) end;
      [rewrite fmap_length; lia | lia | lia | ].
    destruct (fltb A _ _); [eauto|].
    assert (Vn : valid_split count (starts_of (en ++ [count - 1])) (en ++ [count - 1])).
    { assert (Hne2 : en ++ [count - 1] <> []) by (by destruct en).
      destruct (starts_of_spec _ Hne2) as (L1 & H0 & Hc).
      apply valid_split_of_ends; try done.
      - apply last_snoc.
      - intros e He. destruct en as [|e0 en]; simpl in He.
        + injection He as <-. lia.
        + injection He as <-. by apply Hf.
      - intros t e e' He He'.
        destruct (decide (S t < length en)%nat) as [Hlt|Hlt].
        + rewrite lookup_app_l in He, He' by lia. eauto.
        + pose proof (lookup_lt_Some _ _ _ He') as Hx. rewrite app_length in Hx. simpl in Hx.
          rewrite lookup_app_l in He by lia.
          rewrite lookup_app_r in He' by lia.
          replace (S t - length en)%nat with 0%nat in He' by lia. simpl in He'.
          injection He' as <-. apply Hlast. rewrite last_lookup, <- He. f_equal. lia. }
    assert (Lnn : length es = length (en ++ [count - 1])).
    { rewrite app_length. simpl. lia. }
    destruct (shift_valid _ _ _ _ _ _ V Vn Lnn Hic) as (ends & -> & Ve & Le & _). eauto.
  Qed.
End proofs.
