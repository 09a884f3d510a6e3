(** Properties C69 and C70: a cell copied to a list of grid cells, and cells without a solution. *)
From Coq Require Import String QArith Qcanon.
From stdpp Require Import prelude strings gmap.
From Verif.Base Require Import Result.
From Verif.Partition Require Import Spec EndCellsProofs.
From Verif.Solution Require Import Model Spec Proofs Props.
From Verif.Reactant Require Import Model Spec Proofs.
From Verif.Init Require Import Model Spec Proofs CellModel Props.
Local Open Scope Qc_scope.

(** ** C69 *)

(** The definition that number [n] stands for: itself if there is a solution of that number; a negative
    number stands for the solution with the largest number. *)
Definition stands_for (t : tables) (n c : Z) : Prop :=
  (0 <= c)%Z /\ is_Some (t SlSol !! c) /\
  (n = c \/ (n < 0)%Z /\ forall d, is_Some (t SlSol !! d) -> (d <= c)%Z).
(** Grid cell [j] is the last in the list that belongs to chemistry cell [i]. *)
Definition last_listed (fwd : list Z) (cells : list Z) (i : Z) (j : nat) : Prop :=
  exists before after, cells = before ++ Z.of_nat j :: after /\ fwd !! j = Some i /\
    forall z, z ∈ after -> fwd !! Z.to_nat z <> Some i.
Definition is_listed (fwd : list Z) (cells : list Z) (i : Z) : Prop :=
  exists z, z ∈ cells /\ fwd !! Z.to_nat z = Some i.

Lemma foldr_max_elem i l : foldr Z.max i l ∈ i :: l.
Proof.
  induction l as [|x l IH]; simpl; [by left|]. destruct (Z.max_spec x (foldr Z.max i l)) as [[_ ->]|[_ ->]].
  - apply elem_of_cons in IH as [-> | IH]; [by left|by right; right].
  - right. by left.
Qed.
Lemma foldr_max_ge i l d : d ∈ i :: l -> (d <= foldr Z.max i l)%Z.
Proof.
  induction l as [|x l IH]; intros H; simpl.
  - apply elem_of_list_singleton in H. lia.
  - rewrite !elem_of_cons in H. rewrite elem_of_cons in IH. destruct H as [H|[H|H]].
    + specialize (IH (or_introl H)). lia.
    + lia.
    + specialize (IH (or_intror H)). lia.
Qed.
Lemma elem_of_keys {A} (m : gmap Z A) d : d ∈ (map_to_list m).*1 <-> is_Some (m !! d).
Proof.
  rewrite elem_of_list_fmap. split.
  - intros ([d' a] & -> & H). exists a. by apply elem_of_map_to_list.
  - intros [a H]. exists (d, a). split; [done|]. by apply elem_of_map_to_list.
Qed.
Lemma choose_cell_spec t n c : stands_for t n c -> choose_cell t n = c.
Proof.
  intros (Hc & Hs & H). unfold choose_cell.
  destruct (Z.ltb_spec n 0) as [Hn|Hn].
  - destruct H as [->|[_ H]]; [lia|]. unfold next_user_number.
    pose proof (elem_of_keys (t SlSol)) as K.
    destruct ((map_to_list (t SlSol)).*1) as [|i l] eqn:E.
    { apply K in Hs. by apply elem_of_nil in Hs. }
    assert (foldr Z.max i l = c) as ->.
    { apply Z.le_antisymm; [apply H, K, foldr_max_elem|apply foldr_max_ge, K, Hs]. }
    destruct (Z.eqb_spec (c + 1) 0); lia.
  - destruct H as [->|[? _]]; [|lia]. unfold defined. by rewrite bool_decide_eq_true_2.
Qed.
Lemma choose_cell_none t n : (forall c, ~ stands_for t n c) -> (choose_cell t n < 0)%Z.
Proof.
  intros H. unfold choose_cell. destruct (Z.ltb_spec n 0) as [Hn|Hn].
  - unfold next_user_number. pose proof (elem_of_keys (t SlSol)) as K.
    destruct ((map_to_list (t SlSol)).*1) as [|i l] eqn:E; [done|].
    destruct (Z.eqb_spec (foldr Z.max i l + 1) 0); [done|].
    destruct (decide (0 <= foldr Z.max i l)%Z) as [Hp|Hp]; [|lia].
    exfalso. apply (H (foldr Z.max i l)). split; [done|]. split; [apply K, foldr_max_elem|].
    right. split; [done|]. intros d Hd. apply foldr_max_ge, K, Hd.
  - unfold defined. case_bool_decide as Hd; [|lia]. exfalso. apply (H n). split; [done|]. split; [done|]. by left.
Qed.

Lemma cell_bin_lookup t cell k : cell_bin t cell k !! cell = t k !! cell.
Proof. unfold cell_bin. destruct (t k !! cell); [by rewrite lookup_singleton|apply lookup_empty]. Qed.

Lemma scale_spec g por rv cell nchem ks bin : NoDup ks -> (forall k, (g_units g k < 3)%nat) ->
  exists bin', scale_solids g por rv cell nchem ks bin = Ret bin' /\
  forall k, (k ∉ ks -> bin' k = bin k) /\
    (k ∈ ks -> bin k !! cell = None -> bin' k = bin k) /\
    (k ∈ ks -> is_Some (bin k !! cell) -> exists x, factors por rv !! g_units g k = Some x /\
       bin' k = <[nchem := mix_of k (bin k) (mix_add cell x [])]> (bin k)).
Proof.
  intros Nd U. revert bin. induction Nd as [|k ks Hk Nd IH]; intros bin; simpl.
  { exists bin. split; [done|]. intros k. split; [done|]. split; intros H; by apply elem_of_nil in H. }
  unfold defined. case_bool_decide as Hd.
  - destruct (rd_in (factors por rv) (g_units g k)) as [x Hx]; [apply U|]. rewrite Hx. cbn [obind].
    set (bin1 := upd k _ bin). destruct (IH bin1) as (bin' & E & S). exists bin'. split; [done|].
    intros j. destruct (S j) as (S1 & S2 & S3). destruct (decide (k = j)) as [->|Hj].
    + split; [|split].
      * intros H. exfalso. apply H. by left.
      * intros _ H. rewrite H in Hd. by destruct Hd.
      * intros _ _. exists x. split; [by apply rd_ret|]. rewrite (S1 Hk). exact (upd_same j _ bin).
    + assert (bin1 j = bin j) as B by (by apply upd_other). rewrite B in S1, S2, S3. split; [|split].
      * intros H. apply S1. intros H'. apply H. by right.
      * intros H. apply elem_of_cons in H as [?|H]; [by destruct Hj|by apply S2].
      * intros H. apply elem_of_cons in H as [?|H]; [by destruct Hj|by apply S3].
  - destruct (IH bin) as (bin' & E & S). exists bin'. split; [done|].
    intros j. destruct (S j) as (S1 & S2 & S3). destruct (decide (k = j)) as [->|Hj].
    + split; [|split].
      * intros _. by apply S1.
      * intros _ _. by apply S1.
      * intros _ H. done.
    + split; [|split].
      * intros H. apply S1. intros H'. apply H. by right.
      * intros H. apply elem_of_cons in H as [?|H]; [by destruct Hj|by apply S2].
      * intros H. apply elem_of_cons in H as [?|H]; [by destruct Hj|by apply S3].
Qed.

Lemma mix_single k (t : gmap Z (ty k)) n a x : t !! n = Some a -> compatible k a a ->
  blend1 k x a (mix_of k t (mix_add n x [])).
Proof.
  intros H C m Hm. rewrite (mix_pair k t n n a a) by (done || (intros d Hd; cbn in Hd; apply elem_of_list_singleton in Hd; by left)).
  rewrite mix_amount_add, H. cbn [mix_amount]. ring.
Qed.

(** What becomes of one kind of reactant in a cell that is filled. *)
Definition takes (t : tables) (c : Z) (unit : nat) (por sat rv : Qc) (k : slot) (old new : option (ty k)) : Prop :=
  match t k !! c with
  | Some a => exists e, new = Some e /\ (compatible k a a -> blend1 k (share k unit 1 por sat rv a) a e)
  | None => new = old
  end.

Lemma copy_cell_spec t g cell nchem j w por sat rv : (forall k, (g_units g k < 3)%nat) ->
  g_por g !! j = Some por -> g_sat g !! j = Some sat -> g_rv g !! j = Some rv -> is_Some (t SlSol !! cell) ->
  exists w', copy_cell t g cell nchem j w = Ret w' /\
    forall k, takes t cell (g_units g k) por sat rv k (w k !! nchem) (w' k !! nchem) /\
      forall i, i <> nchem -> w' k !! i = w k !! i.
Proof.
  intros U Hp Hs Hr [s Hsol]. unfold copy_cell. unfold rd at 1. rewrite Hp. cbn [obind].
  unfold rd at 1. rewrite Hr. cbn [obind]. unfold rd at 1. rewrite Hs. cbn [obind].
  assert (E0 : (cell_bin t cell SlSol : gmap Z sol) !! cell = Some s) by (rewrite <- Hsol; apply (cell_bin_lookup t cell SlSol)).
  match goal with |- context [match ?x with Some _ => _ | None => _ end] => replace x with (Some s) by (symmetry; exact E0) end.
  set (bin0 := upd SlSol _ (cell_bin t cell)).
  destruct (scale_spec g por rv cell nchem [SlPP; SlEx; SlSurf; SlGas; SlSS; SlKin] bin0) as (bin' & -> & S).
  { repeat constructor; rewrite ?elem_of_cons, ?elem_of_nil; naive_solver. }
  { done. }
  cbn [obind]. exists (pass_cell bin' w nchem). split; [done|]. intros k. split.
  2: { intros i Hi. unfold pass_cell. destruct (bin' k !! nchem); [by rewrite lookup_insert_ne|done]. }
  unfold takes, pass_cell. destruct (S k) as (S1 & S2 & S3).
  destruct (decide (k = SlSol)) as [->|Hk].
  - rewrite Hsol. rewrite S1 by (rewrite !elem_of_cons, elem_of_nil; naive_solver).
    unfold bin0. rewrite upd_same, lookup_insert. eexists. split; [by rewrite lookup_insert|].
    intros C. change (sol_mix ?t ?m) with (mix_of SlSol t m). cbn [share]. unfold water.
    replace (1 * (por * sat * rv) / s_vol s) with (por * sat * rv / s_vol s) by (unfold Qcdiv; ring).
    apply (mix_single SlSol); done.
  - assert (Hin : k ∈ [SlPP; SlEx; SlSurf; SlGas; SlSS; SlKin]).
    { rewrite !elem_of_cons. destruct k; naive_solver. }
    assert (B : bin0 k = cell_bin t cell k) by (apply upd_other; congruence).
    rewrite B, cell_bin_lookup in S2, S3.
    destruct (t k !! cell) as [a|] eqn:Ea.
    + destruct (S3 Hin) as (x & Hx & E); [by eexists|]. rewrite E, lookup_insert.
      eexists. split; [by rewrite lookup_insert|]. intros C. apply factors_basis in Hx as ->.
      replace (share k (g_units g k) 1 por sat rv a) with (basis (g_units g k) por rv)
        by (destruct k; [done|..]; cbn [share]; ring).
      apply mix_single; [|done]. by rewrite cell_bin_lookup.
    + rewrite S2 by done. assert (cell_bin t cell k !! nchem = None) as ->; [|done].
      unfold cell_bin. rewrite Ea. apply lookup_empty.
Qed.

Lemma copy_workers_spec t g cell nchem j ss es ws por sat rv : (forall k, (g_units g k < 3)%nat) ->
  g_por g !! j = Some por -> g_sat g !! j = Some sat -> g_rv g !! j = Some rv -> is_Some (t SlSol !! cell) ->
  length ss = length es -> length ws = length ss ->
  exists ws', copy_workers t g cell nchem j (zip ss es) ws = Ret ws' /\ length ws' = length ws /\
    forall m w w', ws !! m = Some w -> ws' !! m = Some w' ->
    forall k, (owns ss es m nchem -> takes t cell (g_units g k) por sat rv k (w k !! nchem) (w' k !! nchem)) /\
      forall i, i <> nchem \/ ~ owns ss es m i -> w' k !! i = w k !! i.
Proof.
  intros U Hp Hs Hr Ht. revert es ws. induction ss as [|s ss IH]; intros [|e es] [|w ws] L1 L2; try done.
  { exists []. cbn. split; [done|]. split; [done|]. intros m w w' H. by rewrite lookup_nil in H. }
  cbn [zip zip_with copy_workers fst snd]. injection L1 as L1. injection L2 as L2.
  destruct (IH es ws L1 L2) as (ws' & E & L & S). change (zip_with pair ss es) with (zip ss es).
  destruct ((s <=? nchem) && (nchem <=? e))%Z eqn:B.
  - destruct (copy_cell_spec t g cell nchem j w por sat rv U Hp Hs Hr Ht) as (w1 & E1 & S1).
    rewrite E1. cbn [obind]. rewrite E. cbn [obind]. exists (w1 :: ws'). split; [done|]. split; [cbn; lia|].
    intros [|m] v v' Hv Hv' k; cbn in Hv, Hv'.
    + injection Hv as <-. injection Hv' as <-. destruct (S1 k) as [T1 T2]. split; [done|].
      intros i [Hi|Hi]; [by apply T2|]. apply T2. intros ->. apply Hi. exists s, e. split; [done|]. split; [done|]. lia.
    + destruct (S m v v' Hv Hv' k) as [T1 T2]. split.
      * intros (s' & e' & A1 & A2 & A3). apply T1. by exists s', e'.
      * intros i Hi. apply T2. destruct Hi as [Hi|Hi]; [by left|right]. intros (s' & e' & A1 & A2 & A3).
        apply Hi. by exists s', e'.
  - cbn [obind]. rewrite E. cbn [obind]. exists (w :: ws'). split; [done|]. split; [cbn; lia|].
    intros [|m] v v' Hv Hv' k; cbn in Hv, Hv'.
    + injection Hv as <-. injection Hv' as <-. split; [|done].
      intros (s' & e' & A1 & A2 & A3). cbn in A1, A2. injection A1 as <-. injection A2 as <-. lia.
    + destruct (S m v v' Hv Hv' k) as [T1 T2]. split.
      * intros (s' & e' & A1 & A2 & A3). apply T1. by exists s', e'.
      * intros i Hi. apply T2. destruct Hi as [Hi|Hi]; [by left|right]. intros (s' & e' & A1 & A2 & A3).
        apply Hi. by exists s', e'.
Qed.

(** A mapping's vectors: all of the length of the grid, units in 0..2. *)
Definition full_grid (g : grid) (fwd : list Z) : Prop :=
  length (g_por g) = length fwd /\ length (g_sat g) = length fwd /\ length (g_rv g) = length fwd /\
  forall k, (g_units g k < 3)%nat.

Lemma takes_trans t c k u1 p1 s1 r1 u p s r old mid new : takes t c u1 p1 s1 r1 k old mid ->
  takes t c u p s r k mid new -> takes t c u p s r k old new.
Proof. unfold takes. destruct (t k !! c); [done|]. by intros -> ->. Qed.

Lemma listed_cons fwd z cells i : is_listed fwd (z :: cells) i <-> fwd !! Z.to_nat z = Some i \/ is_listed fwd cells i.
Proof.
  unfold is_listed. split.
  - intros (y & Hy & H). apply elem_of_cons in Hy as [-> | Hy]; eauto.
  - intros [H|(y & Hy & H)]; [exists z|exists y]; split; try done; [by left|by right].
Qed.
Lemma last_listed_cons fwd z cells i j : last_listed fwd (z :: cells) i j ->
  last_listed fwd cells i j \/ z = Z.of_nat j /\ fwd !! j = Some i /\ ~ is_listed fwd cells i.
Proof.
  intros ([|y b] & a & E & F & N); injection E as -> ->.
  - right. split; [done|]. split; [done|]. intros (y & Hy & H). by apply (N y).
  - left. by exists b, a.
Qed.
Lemma last_listed_listed fwd cells i j : last_listed fwd cells i j -> is_listed fwd cells i.
Proof.
  intros (b & a & -> & F & N). exists (Z.of_nat j). split; [|by rewrite Nat2Z.id].
  apply elem_of_app. right. by left.
Qed.

Lemma copy_list_spec t g fwd count ss es cell cells ws : full_grid g fwd -> is_Some (t SlSol !! cell) ->
  valid_split count ss es -> length ws = length ss ->
  Forall (fun z => (0 <= z < Z.of_nat (length fwd))%Z) cells ->
  exists pairs ws', chem_numbers fwd cells = Ret pairs /\
    copy_list t g cell count (zip ss es) pairs ws = Ret ws' /\ length ws' = length ws /\
    forall m w w', ws !! m = Some w -> ws' !! m = Some w' ->
    forall i k,
      (forall j por sat rv, owns ss es m i -> last_listed fwd cells i j ->
         g_por g !! j = Some por -> g_sat g !! j = Some sat -> g_rv g !! j = Some rv ->
         takes t cell (g_units g k) por sat rv k (w k !! i) (w' k !! i)) /\
      (~ owns ss es m i \/ ~ is_listed fwd cells i -> w' k !! i = w k !! i).
Proof.
  intros (Lp & Ls & Lr & U) Ht V L F. revert ws L. induction F as [|z cells Hz F IH]; intros ws L.
  { exists [], ws. cbn. split; [done|]. split; [done|]. split; [done|]. intros m w w' Hw Hw' i k.
    assert (w = w') as -> by congruence. split; [|done].
    intros j por sat rv _ (b & a & E & _). by destruct b. }
  destruct (lookup_lt_is_Some_2 fwd (Z.to_nat z)) as [c Hc]; [lia|].
  destruct (lookup_lt_is_Some_2 (g_por g) (Z.to_nat z)) as [por Hp]; [lia|].
  destruct (lookup_lt_is_Some_2 (g_sat g) (Z.to_nat z)) as [sat Hs]; [lia|].
  destruct (lookup_lt_is_Some_2 (g_rv g) (Z.to_nat z)) as [rv Hr]; [lia|].
  cbn [chem_numbers]. destruct (Z.ltb_spec z 0) as [|_]; [lia|]. unfold rd at 1. rewrite Hc. cbn [obind].
  destruct ((c <? 0) || (count <=? c))%Z eqn:B.
  - destruct (IH ws L) as (pairs & ws' & E1 & E2 & L' & S). rewrite E1. cbn [obind].
    exists ((Z.to_nat z, c) :: pairs), ws'. split; [done|]. split; [cbn [copy_list]; by rewrite B|].
    split; [done|]. intros m w w' Hw Hw' i k. destruct (S m w w' Hw Hw' i k) as [S1 S2]. split.
    + intros j p s r Ho Hl Hp' Hs' Hr'. apply last_listed_cons in Hl as [Hl|(-> & Hf & _)]; [by apply (S1 j)|].
      rewrite Nat2Z.id in Hc. pose proof (owns_bounds _ _ _ _ _ V Ho). assert (i = c) by congruence. lia.
    + intros H. apply S2. rewrite listed_cons in H. destruct H as [H|H]; [by left|right]. naive_solver.
  - destruct (copy_workers_spec t g cell c (Z.to_nat z) ss es ws por sat rv U Hp Hs Hr Ht (vs_len _ _ _ V) L)
      as (ws1 & E & L1 & S). destruct (IH ws1 ltac:(lia)) as (pairs & ws' & E1 & E2 & L' & S'). rewrite E1. cbn [obind].
    exists ((Z.to_nat z, c) :: pairs), ws'. split; [done|].
    split. { cbn [copy_list]. rewrite B, E. exact E2. } split; [lia|].
    intros m w w' Hw Hw' i k.
    destruct (lookup_lt_is_Some_2 ws1 m) as [w1 Hw1]; [rewrite L1; by eapply lookup_lt_Some|].
    destruct (S m w w1 Hw Hw1 k) as [S1 S2]. destruct (S' m w1 w' Hw1 Hw' i k) as [S3 S4]. split.
    + intros j p s r Ho Hl Hp' Hs' Hr'. apply last_listed_cons in Hl as [Hl|(-> & Hf & Hn)].
      * pose proof (S3 j p s r Ho Hl Hp' Hs' Hr') as T. destruct (decide (i = c)) as [->|Hi].
        -- eapply takes_trans; [by apply S1|done].
        -- rewrite (S2 i) in T by (by left). done.
      * rewrite Nat2Z.id in Hc, Hp, Hs, Hr. assert (i = c) as -> by congruence.
        assert (p = por /\ s = sat /\ r = rv) as (-> & -> & ->) by (split_and!; congruence).
        rewrite S4 by (by right). by apply S1.
    + intros H. rewrite listed_cons in H. rewrite S4.
      * apply S2. destruct H as [H|H]; [by right|]. left. intros ->. apply H. by left.
      * destruct H as [H|H]; [by left|right]. naive_solver.
Qed.

(** Every listed cell gets, in the worker that owns it, each kind of reactant defined under the number,
    in the amount of its water, its rock or its volume; of several grid cells that stand for one cell
    the last counts. Kinds that are not defined stay as they were, and so does everything else. *)
Theorem cell_copied t g fwd count ss es n c cells ws : full_grid g fwd ->
  valid_split count ss es -> length ws = length ss ->
  Forall (fun z => (0 <= z < Z.of_nat (length fwd))%Z) cells -> stands_for t n c ->
  exists ws', cell2module t g fwd count (zip ss es) n cells ws = Ret (IRM_OK, ws') /\ length ws' = length ws /\
  forall m w w', ws !! m = Some w -> ws' !! m = Some w' -> forall i k,
    (forall j por sat rv, owns ss es m i -> last_listed fwd cells i j ->
       g_por g !! j = Some por -> g_sat g !! j = Some sat -> g_rv g !! j = Some rv ->
       (forall a, t k !! c = Some a -> exists e, w' k !! i = Some e /\
          (compatible k a a -> blend1 k (share k (g_units g k) 1 por sat rv a) a e)) /\
       (t k !! c = None -> w' k !! i = w k !! i)) /\
    (~ owns ss es m i \/ ~ is_listed fwd cells i -> w' k !! i = w k !! i).
Proof.
  intros G V L F H. pose proof H as (Hc & Hs & _). unfold cell2module. rewrite (choose_cell_spec _ _ _ H).
  destruct (Z.ltb_spec c 0) as [|_]; [lia|].
  destruct (copy_list_spec t g fwd count ss es c cells ws G Hs V L F) as (pairs & ws' & E1 & E2 & L' & S).
  rewrite E1. cbn [obind]. rewrite E2. cbn [obind]. exists ws'. split; [done|]. split; [done|].
  intros m w w' Hw Hw' i k. destruct (S m w w' Hw Hw' i k) as [S1 S2]. split; [|done].
  intros j por sat rv Ho Hl Hp Hs' Hr. pose proof (S1 j por sat rv Ho Hl Hp Hs' Hr) as T. unfold takes in T. split.
  - intros a Ha. by rewrite Ha in T.
  - intros Ha. by rewrite Ha in T.
Qed.
Print Assumptions cell_copied.

(** A number that stands for nothing is refused, whatever else is defined under it. *)
Theorem cell_refused t g fwd count rs n cells ws : (forall c, ~ stands_for t n c) ->
  cell2module t g fwd count rs n cells ws = Ret (IRM_INVALIDARG, ws).
Proof.
  intros H. apply choose_cell_none in H. unfold cell2module. destruct (Z.ltb_spec (choose_cell t n) 0); [done|lia].
Qed.
Print Assumptions cell_refused.

(** Grid cells 0 and 2 share chemistry cell 1, grid cell 1 is chemistry cell 0, grid cell 3 is inactive. *)
Definition four : grid :=
  Grid 4 [q 1 4; q 1 2; q 1 2; 0] [1; 1; q 1 2; 1] [1; 1; q 4 1; 1] (fun _ => 2%nat).
Definition fwd4 : list Z := [1; 0; 1; -1]%Z.
(** Definitions as in [defs], and a solution and kinetics numbered 5. *)
Definition defs5 : tables := upd SlSol (fun m => <[5%Z := sea]> m) defs.
(** Cell 1 already has solid solutions. *)
Definition held : list tables := [no_tables; fun k => match k return gmap Z (ty k) with SlSS => {[1%Z := []]} | _ => ∅ end].
Definition has_ss (w : tables) (i : Z) : bool := bool_decide (is_Some (w SlSS !! i)).
Definition seen_cell (r : outcome (irm_result * list tables)) (i : Z) :=
  match r with
  | Ret (c, ws) => Some (c, map (fun w => (vol_at w i, kin_of w i, has_ss w i)) ws)
  | _ => None
  end.
Lemma two_split : valid_split 2 [0; 1]%Z [0; 1]%Z.
Proof. apply init_two_workers_split. Qed.
Example four_full : full_grid four fwd4.
Proof. repeat split; cbn; lia. Qed.
Example five_stands : stands_for defs5 (-3) 5.
Proof.
  split; [done|]. split; [by vm_compute; eexists|]. right. split; [done|]. intros d Hd.
  unfold defs5 in Hd. rewrite upd_same in Hd. cbn in Hd. destruct Hd as [x Hd].
  rewrite !lookup_insert_Some, lookup_empty in Hd. naive_solver lia.
Qed.
(** Cell 1 is filled as grid cell 2: one litre of water, two litres of rock with 4 moles each. *)
Example cell_copied_example :
  seen_cell (cell2module defs5 four fwd4 2 (zip [0; 1] [0; 1])%Z (-3) [0; 3; 2]%Z held) 1
  = Some (IRM_OK, [(None, None, false); (Some (1 # 1)%Q, Some (8 # 1)%Q, true)]).
Proof. vm_compute. reflexivity. Qed.

(** The documentation promises that all reactants of the listed cells are removed first. They are not:
    the solid solutions of cell 1 are kept next to the copied reactants. *)
Theorem cell_not_cleared_refuted :
  defs5 SlSS !! 5%Z = None /\
  exists ws' w w', cell2module defs5 four fwd4 2 (zip [0; 1] [0; 1])%Z 5 [2]%Z held = Ret (IRM_OK, ws') /\
    held !! 1%nat = Some w /\ ws' !! 1%nat = Some w' /\
    w SlSS !! 1%Z = Some [] /\ w' SlSS !! 1%Z = Some [] /\ is_Some (w' SlSol !! 1%Z).
Proof.
  split; [done|].
  destruct (cell_copied defs5 four fwd4 2 [0; 1]%Z [0; 1]%Z 5 5 [2]%Z held four_full two_split eq_refl)
    as (ws' & E & L & S).
  { repeat constructor; cbn; lia. }
  { split; [done|]. split; [by vm_compute; eexists|by left]. }
  destruct (lookup_lt_is_Some_2 ws' 1) as [w' Hw']; [rewrite L; cbn; lia|].
  exists ws'. eexists _, w'. split; [exact E|]. split; [reflexivity|]. split; [done|].
  destruct (S 1%nat _ w' eq_refl Hw' 1%Z SlSS) as [S1 _]. destruct (S 1%nat _ w' eq_refl Hw' 1%Z SlSol) as [S2 _].
  assert (owns [0; 1]%Z [0; 1]%Z 1 1) as Ho by (exists 1%Z, 1%Z; split; [done|]; split; [done|]; lia).
  assert (last_listed fwd4 [2]%Z 1 2) as Hl.
  { exists [], []. split; [done|]. split; [done|]. intros z Hz. by apply elem_of_nil in Hz. }
  destruct (S1 2%nat _ _ _ Ho Hl eq_refl eq_refl eq_refl) as [_ T1].
  destruct (S2 2%nat _ _ _ Ho Hl eq_refl eq_refl eq_refl) as [T2 _].
  split; [done|]. split; [exact (T1 eq_refl)|].
  destruct (T2 sea) as (e & He & _); [done|]. by exists e.
Qed.
Print Assumptions cell_not_cleared_refuted.

(** Numbers outside the grid are not checked. *)
Theorem cell_outside_refuted t g fwd count rs n c cells ws z : stands_for t n c -> z ∈ cells ->
  ~ (0 <= z < Z.of_nat (length fwd))%Z ->
  cell2module t g fwd count rs n cells ws = UB.
Proof.
  intros H Hz Hn. unfold cell2module. rewrite (choose_cell_spec _ _ _ H). destruct H as (Hc & _).
  destruct (Z.ltb_spec c 0) as [|_]; [lia|].
  assert (chem_numbers fwd cells = UB) as ->; [|done].
  induction cells as [|y cells IH]; [by apply elem_of_nil in Hz|]. cbn [chem_numbers].
  destruct (Z.ltb_spec y 0); [done|].
  apply elem_of_cons in Hz as [-> | Hz].
  - unfold rd. rewrite lookup_ge_None_2 by lia. done.
  - rewrite (IH Hz). unfold rd. by destruct (fwd !! Z.to_nat y).
Qed.
Print Assumptions cell_outside_refuted.
Example cell_outside_case : cell2module defs5 four fwd4 2 (zip [0; 1] [0; 1])%Z 5 [1; 4]%Z held = UB.
Proof. apply (cell_outside_refuted _ _ _ _ _ _ 5 _ _ 4); [|by right; left|cbn; lia].
  split; [done|]. split; [by vm_compute; eexists|by left]. Qed.

(** ** C70: cells without a solution *)

(** Worker [n] owns cell [i] and has no solution for it. *)
Definition lacks (ss es : list Z) (ws : list tables) (i : Z) : Prop :=
  exists n w, owns ss es n i /\ ws !! n = Some w /\ w SlSol !! i = None.

Lemma missing_elem ss es ws i : length ss = length es -> length ws = length ss ->
  i ∈ missing_cells (zip ss es) ws <-> lacks ss es ws i.
Proof.
  revert es ws. induction ss as [|s ss IH]; intros [|e es] [|w ws] L1 L2; try done.
  { cbn. rewrite elem_of_nil. split; [done|]. intros (n & w & _ & H & _). by rewrite lookup_nil in H. }
  injection L1 as L1. injection L2 as L2. cbn [zip zip_with missing_cells].
  change (zip_with pair ss es) with (zip ss es). rewrite elem_of_app, (IH es ws L1 L2).
  rewrite elem_of_list_filter, elem_of_range. cbn [fst snd]. split.
  - intros [[H1 H2]|(n & w' & (s' & e' & A1 & A2 & A3) & B & C)].
    + exists 0%nat, w. split; [by exists s, e|done].
    + exists (S n), w'. split; [by exists s', e'|done].
  - intros ([|n] & w' & (s' & e' & A1 & A2 & A3) & B & C); cbn in A1, A2, B.
    + left. injection A1 as <-. injection A2 as <-. by injection B as <-.
    + right. exists n, w'. split; [by exists s', e'|done].
Qed.

Lemma missing_nodup count ss es ws : valid_split count ss es -> length ws = length ss ->
  NoDup (missing_cells (zip ss es) ws).
Proof.
  intros V L. assert (forall r, NoDup (range r)) as R by (intros r; apply NoDup_seqZ).
  assert (forall i n m, owns ss es n i -> owns ss es m i -> n = m) as D
    by (intros i n m; by apply (valid_split_owner_unique count)).
  pose proof (vs_len _ _ _ V) as L1. clear V.
  revert es ws L L1 D. induction ss as [|s ss IH]; intros [|e es] [|w ws] L L1 D; try done; [constructor|].
  injection L as L. injection L1 as L1. cbn [zip zip_with missing_cells]. change (zip_with pair ss es) with (zip ss es).
  apply NoDup_app. split; [by apply NoDup_filter|]. split.
  - intros i H1 H2. apply elem_of_list_filter in H1 as [_ H1]. apply elem_of_range in H1. cbn in H1.
    apply missing_elem in H2; [|done..]. destruct H2 as (n & w' & (s' & e' & A1 & A2 & A3) & _).
    assert (0 = S n)%nat; [|done]. apply (D i); [by exists s, e|by exists s', e'].
  - apply IH; [done..|]. intros i n m (a & b & A1 & A2 & A3) (a' & b' & B1 & B2 & B3).
    apply (inj S), (D i); [by exists a, b|by exists a', b'].
Qed.

Lemma message_spec back k l : (k + length l <= length back)%nat ->
  message_lines back k l = Ret (zip (seq k (length l)) (take (length l) (drop k back))).
Proof.
  revert k. induction l as [|z l IH]; intros k H; cbn [message_lines length]; [done|].
  cbn [length] in H. destruct (lookup_lt_is_Some_2 back k) as [gs Hgs]; [lia|].
  unfold rd. rewrite Hgs. cbn [obind]. rewrite IH by lia. cbn [obind seq]. f_equal.
  rewrite (drop_S _ _ _ Hgs). done.
Qed.

(** The check stops the run exactly when some cell has no solution. *)
Theorem check_stops back count ss es ws : valid_split count ss es -> length ws = length ss ->
  Z.of_nat (length back) = count ->
  (check_cells back (zip ss es) ws = Ret None /\ forall i, ~ lacks ss es ws i) \/
  (exists m, check_cells back (zip ss es) ws = Ret (Some m)) /\ exists i, lacks ss es ws i.
Proof.
  intros V L Lb. pose proof (missing_elem ss es ws) as E. pose proof (missing_nodup count ss es ws V L) as N.
  unfold check_cells. destruct (missing_cells (zip ss es) ws) as [|i l] eqn:Em.
  - left. split; [done|]. intros i H. apply E in H; [|apply (vs_len _ _ _ V)|done]. by apply elem_of_nil in H.
  - right. split.
    + rewrite message_spec; [eexists; reflexivity|].
      assert (forall z, z ∈ i :: l -> z ∈ seqZ 0 count) as Hin.
      { intros z Hz. apply E in Hz; [|apply (vs_len _ _ _ V)|done]. destruct Hz as (n & w & Ho & _).
        apply elem_of_seqZ. pose proof (owns_bounds _ _ _ _ _ V Ho). lia. }
      pose proof (submseteq_length _ _ (NoDup_submseteq _ _ N Hin)) as Hl. rewrite seqZ_length in Hl. lia.
    + exists i. apply E; [apply (vs_len _ _ _ V)|done|by left].
Qed.
Print Assumptions check_stops.

(** The message names as many cells as there are without a solution, but always cells 0, 1, ... with
    their grid cells: it is right only if those are the ones. *)
Theorem check_message_refuted back count ss es ws m : valid_split count ss es -> length ws = length ss ->
  Z.of_nat (length back) = count -> check_cells back (zip ss es) ws = Ret (Some m) ->
  (exists l, NoDup l /\ (forall i, i ∈ l <-> lacks ss es ws i) /\ length m = length l) /\
  m = zip (seq 0 (length m)) back.
Proof.
  intros V L Lb H. pose proof (missing_elem ss es ws) as E. pose proof (missing_nodup count ss es ws V L) as N.
  unfold check_cells in H. destruct (missing_cells (zip ss es) ws) as [|i l] eqn:Em; [done|].
  assert (length (i :: l) <= length back)%nat as Hlen.
  { assert (forall z, z ∈ i :: l -> z ∈ seqZ 0 count) as Hin.
    { intros z Hz. apply E in Hz; [|apply (vs_len _ _ _ V)|done]. destruct Hz as (n & w & Ho & _).
      apply elem_of_seqZ. pose proof (owns_bounds _ _ _ _ _ V Ho). lia. }
    pose proof (submseteq_length _ _ (NoDup_submseteq _ _ N Hin)) as Hl. rewrite seqZ_length in Hl. lia. }
  rewrite message_spec in H by done. cbn [obind] in H.
  assert (m = zip (seq 0 (length (i :: l))) (take (length (i :: l)) (drop 0 back))) as -> by congruence.
  clear H. rewrite drop_0. split.
  - exists (i :: l). split; [done|]. split; [intros z; apply E; [apply (vs_len _ _ _ V)|done]|].
    rewrite zip_with_length, seq_length, take_length. lia.
  - rewrite zip_with_length, seq_length, take_length.
    replace (length (i :: l) `min` (length (i :: l) `min` length back))%nat with (length (i :: l)) by lia.
    generalize (length (i :: l)). clear. intros n. generalize 0%nat. revert back.
    induction n as [|n IH]; intros [|b back] k; cbn; [done..|]. f_equal. apply IH.
Qed.
Print Assumptions check_message_refuted.
(** Cell 1 of two has no solution: cell 0 is named. *)
Example check_message_case :
  let ws := [(fun k => match k return gmap Z (ty k) with SlSol => {[0%Z := sea]} | _ => ∅ end) : tables; no_tables] in
  check_cells [[1]; [0; 2]]%nat (zip [0; 1] [0; 1])%Z ws = Ret (Some [(0, [1])])%nat /\
  lacks [0; 1]%Z [0; 1]%Z ws 1 /\ ~ lacks [0; 1]%Z [0; 1]%Z ws 0.
Proof.
  split; [vm_compute; reflexivity|]. split.
  - exists 1%nat, no_tables. split; [exists 1%Z, 1%Z; split; [done|]; split; [done|]; lia|done].
  - intros (n & w & (s & e & A1 & A2 & A3) & B & C). destruct n as [|[|n]]; cbn in *; try done.
    + injection B as <-. done.
    + injection A1 as <-. lia.
Qed.
