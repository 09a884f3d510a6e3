From stdpp Require Import prelude.
From Coq Require Import Sorting.Sorted.
From Verif.Base Require Import Result.
From Verif.Partition Require Import EndCells Spec EndCellsProofs.
From Verif.Mapping Require Import Model Spec.
Local Open Scope Z_scope.

Fixpoint positions (i : Z) (g : list Z) (k : Z) : list Z :=
  match g with
  | [] => []
  | n :: r => if decide (n = k) then i :: positions (i + 1) r k else positions (i + 1) r k
  end.

Lemma list_filter_ext_in {A} (P Q : A -> Prop) `{!forall x, Decision (P x), !forall x, Decision (Q x)}
    (l : list A) :
  (forall x, x ∈ l -> (P x <-> Q x)) -> filter P l = filter Q l.
Proof.
  induction l as [|x l IH]; intros Hpq; [done|]. rewrite !filter_cons.
  rewrite IH by (intros; apply Hpq; by right).
  pose proof (Hpq x (elem_of_list_here _ _)) as Hx.
  destruct (decide (P x)), (decide (Q x)); tauto || done.
Qed.

Lemma positions_cells_of_gen g k i0 :
  positions (Z.of_nat i0) g k =
  filter (fun i => g !! (Z.to_nat i - i0)%nat = Some k) (Z.of_nat <$> seq i0 (length g)).
Proof.
  revert i0. induction g as [|n r IH]; intros i0; [done|].
  cbn [length seq positions]. rewrite fmap_cons, filter_cons.
  replace (Z.of_nat i0 + 1) with (Z.of_nat (S i0)) by lia. rewrite IH.
  assert (E : filter (fun i => r !! (Z.to_nat i - S i0)%nat = Some k)
                (Z.of_nat <$> seq (S i0) (length r)) =
              filter (fun i => (n :: r) !! (Z.to_nat i - i0)%nat = Some k)
                (Z.of_nat <$> seq (S i0) (length r))).
  { apply list_filter_ext_in. intros x Hx. apply elem_of_list_fmap in Hx as (j & -> & Hj).
    apply elem_of_seq in Hj. rewrite Nat2Z.id.
    replace (j - i0)%nat with (S (j - S i0)) by lia. done. }
  rewrite E. rewrite Nat2Z.id, Nat.sub_diag. simpl.
  destruct (decide (n = k)) as [->|Hne].
  - by rewrite decide_True by done.
  - rewrite decide_False by congruence. done.
Qed.

Lemma positions_cells_of g k : positions 0 g k = cells_of g k.
Proof.
  change 0 with (Z.of_nat 0). rewrite positions_cells_of_gen. unfold cells_of.
  apply list_filter_iff. intros i. by rewrite Nat.sub_0_r.
Qed.

Lemma elem_of_positions i0 g k i :
  i ∈ positions i0 g k <-> i0 <= i /\ g !! Z.to_nat (i - i0) = Some k.
Proof.
  revert i0. induction g as [|n r IH]; intros i0; cbn [positions].
  { split; [by intros ?%elem_of_nil|]. intros [_ ?]. done. }
  assert (Hstep : forall i, i0 + 1 <= i -> (n :: r) !! Z.to_nat (i - i0) = r !! Z.to_nat (i - (i0+1))).
  { intros j Hj. replace (Z.to_nat (j - i0)) with (S (Z.to_nat (j - (i0 + 1)))) by lia. done. }
  destruct (decide (n = k)) as [->|Hne].
  - rewrite elem_of_cons, IH. split.
    + intros [-> | [H1 H2]].
      * split; [lia|]. by rewrite Z.sub_diag.
      * split; [lia|]. by rewrite Hstep.
    + intros [H1 H2]. destruct (decide (i = i0)) as [->|Hi]; [by left|right].
      split; [lia|]. rewrite <- Hstep by lia. done.
  - rewrite IH. split.
    + intros [H1 H2]. split; [lia|]. by rewrite Hstep.
    + intros [H1 H2]. destruct (decide (i = i0)) as [->|Hi].
      { rewrite Z.sub_diag in H2. simpl in H2. congruence. }
      split; [lia|]. rewrite <- Hstep by lia. done.
Qed.

(** ** The scan *)

Lemma scan_total count g i bwd :
  Forall (fun n => n < count) g -> exists bwd', scan count g i bwd = Some bwd'.
Proof.
  revert i bwd. induction g as [|n r IH]; intros i bwd H; cbn [scan]; [eauto|].
  apply Forall_cons in H as [H1 H2]. rewrite decide_False by lia. eauto.
Qed.

Lemma scan_spec count g i bwd bwd' :
  scan count g i bwd = Some bwd' ->
  length bwd' = length bwd /\
  forall k : nat, bwd' !! k = (fun l => l ++ positions i g (Z.of_nat k)) <$> bwd !! k.
Proof.
  revert i bwd. induction g as [|n r IH]; intros i bwd; cbn [scan positions].
  { intros [= <-]. split; [done|]. intros k. destruct (bwd !! k); simpl; [|done].
    by rewrite app_nil_r. }
  destruct (decide (n >= count)); [done|]. intros E. apply IH in E as [L H].
  destruct (decide (n >= 0)) as [Hn|Hn].
  - split; [by rewrite L, alter_length|].
    intros k. rewrite H. destruct (decide (n = Z.of_nat k)) as [->|Hne].
    + rewrite Nat2Z.id. rewrite list_lookup_alter.
      destruct (bwd !! k); simpl; [|done]. by rewrite <- app_assoc.
    + rewrite list_lookup_alter_ne by lia. done.
  - split; [done|]. intros k. rewrite H. rewrite decide_False by lia. done.
Qed.

(** ** Blanking duplicates *)

Lemma foldl_blank_lookup (ls : list Z) (f : list Z) (i : nat) :
  (forall n, n ∈ ls -> 0 <= n) ->
  foldl (fun f n => <[Z.to_nat n := -1]> f) f ls !! i =
  if decide (Z.of_nat i ∈ ls) then (fun _ => -1) <$> f !! i else f !! i.
Proof.
  revert f. induction ls as [|n ls IH]; intros f Hpos; cbn [foldl].
  { by rewrite decide_False by apply not_elem_of_nil. }
  rewrite IH by (intros; apply Hpos; by right).
  assert (Hn : 0 <= n) by (apply Hpos; by left).
  destruct (decide (n = Z.of_nat i)) as [->|Hne].
  - rewrite Nat2Z.id, (decide_True _ _ (elem_of_list_here _ _)).
    destruct (f !! i) as [x|] eqn:Hx.
    + rewrite list_lookup_insert by (by eapply lookup_lt_Some). simpl.
      by destruct (decide _).
    + apply lookup_ge_None in Hx. rewrite list_insert_ge by lia.
      apply lookup_ge_None in Hx. rewrite Hx. simpl. by destruct (decide _).
  - rewrite list_lookup_insert_ne by lia.
    destruct (decide (Z.of_nat i ∈ ls)) as [H|H].
    + by rewrite decide_True by (by right).
    + rewrite decide_False; [done|]. rewrite elem_of_cons. intros [?|?]; [congruence|done].
Qed.

Lemma blank_duplicates_lookup (bwd : list (list Z)) (f : list Z) (i : nat) :
  (forall l n, l ∈ bwd -> n ∈ l -> 0 <= n) ->
  blank_duplicates bwd f !! i =
  if decide (Exists (fun l => Z.of_nat i ∈ tail l) bwd) then (fun _ => -1) <$> f !! i else f !! i.
Proof.
  unfold blank_duplicates. revert f. induction bwd as [|l bwd IH]; intros f Hpos; cbn [foldl].
  { rewrite decide_False by (intros ?%Exists_nil; done). done. }
  rewrite IH by (intros ? ? ?; apply Hpos; by right).
  rewrite foldl_blank_lookup.
  2:{ intros n Hn. apply (Hpos l); [by left|]. destruct l; [done|]. by right. }
  destruct (decide (Z.of_nat i ∈ tail l)) as [H1|H1];
  destruct (decide (Exists (fun l => Z.of_nat i ∈ tail l) bwd)) as [H2|H2];
  destruct (decide (Exists (fun l => Z.of_nat i ∈ tail l) (l :: bwd))) as [H3|H3];
  rewrite Exists_cons in H3; try tauto; by destruct (f !! i).
Qed.

Lemma blank_duplicates_length bwd f : length (blank_duplicates bwd f) = length f.
Proof.
  unfold blank_duplicates. revert f. induction bwd as [|l bwd IH]; intros f; [done|].
  cbn [foldl]. rewrite IH. generalize (tail l); intros ls. revert f.
  induction ls as [|n ls IHl]; intros f; [done|]. cbn [foldl]. by rewrite IHl, insert_length.
Qed.

(** The tail of the grid cells of k: those with an earlier cell of the same number. *)
Lemma elem_of_tail_positions i0 g k i :
  i ∈ tail (positions i0 g k) <->
  i0 <= i /\ g !! Z.to_nat (i - i0) = Some k /\ k ∈ take (Z.to_nat (i - i0)) g.
Proof.
  revert i0. induction g as [|n r IH]; intros i0; cbn [positions].
  { split; [by intros ?%elem_of_nil|]. intros (_ & ? & _). done. }
  assert (Hs : forall i, i0 + 1 <= i -> Z.to_nat (i - i0) = S (Z.to_nat (i - (i0+1)))) by lia.
  destruct (decide (n = k)) as [->|Hne].
  - cbn [tail]. rewrite elem_of_positions. split.
    + intros [H1 H2]. rewrite Hs by lia. split; [lia|]. split; [done|]. simpl. by left.
    + intros (H1 & H2 & H3). destruct (decide (i = i0)) as [->|Hi].
      { rewrite Z.sub_diag in H3. by apply elem_of_nil in H3. }
      rewrite Hs in H2 by lia. split; [lia|done].
  - rewrite IH. split.
    + intros (H1 & H2 & H3). rewrite Hs by lia. split; [lia|]. split; [done|]. simpl. by right.
    + intros (H1 & H2 & H3). destruct (decide (i = i0)) as [->|Hi].
      { rewrite Z.sub_diag in H3. by apply elem_of_nil in H3. }
      rewrite Hs in H2, H3 by lia. split; [lia|]. split; [done|].
      simpl in H3. apply elem_of_cons in H3 as [?|?]; [congruence|done].
Qed.

(** ** count_chemistry *)

Lemma find_count_ge g c0 :
  c0 <= foldl (fun c x => if decide (x > c) then x else c) c0 g /\
  Forall (fun n => n <= foldl (fun c x => if decide (x > c) then x else c) c0 g) g /\
  (foldl (fun c x => if decide (x > c) then x else c) c0 g = c0 \/
   foldl (fun c x => if decide (x > c) then x else c) c0 g ∈ g).
Proof.
  revert c0. induction g as [|n r IH]; intros c0; cbn [foldl].
  { split; [lia|]. split; [constructor|by left]. }
  destruct (decide (n > c0)).
  - destruct (IH n) as (H1 & H2 & H3). split; [lia|]. split.
    + constructor; [lia|done].
    + destruct H3 as [H3|H3]; right; [rewrite H3; left|by right].
  - destruct (IH c0) as (H1 & H2 & H3). split; [lia|]. split.
    + constructor; [lia|done].
    + destruct H3 as [H3|H3]; [by left|right; by right].
Qed.

Lemma find_count_spec g :
  1 <= find_count g /\ Forall (fun n => n < find_count g) g /\
  (find_count g = 1 \/ find_count g - 1 ∈ g).
Proof.
  unfold find_count. destruct (find_count_ge g 0) as (H1 & H2 & H3).
  split; [lia|]. split.
  - eapply Forall_impl; [exact H2|]. simpl. lia.
  - destruct H3 as [H3|H3]; [left; rewrite H3; lia|right].
    by rewrite Z.add_simpl_r.
Qed.

(** ** CreateMapping *)

Definition cm_backward (g : list Z) (count : Z) : list (list Z) :=
  (fun k => cells_of g (Z.of_nat k)) <$> seq 0 (Z.to_nat count).

Lemma scan_backward g :
  scan (find_count g) g 0 (replicate (Z.to_nat (find_count g)) []) =
  Some (cm_backward g (find_count g)).
Proof.
  destruct (find_count_spec g) as (H1 & H2 & H3).
  destruct (scan_total _ _ 0 (replicate (Z.to_nat (find_count g)) []) H2) as [b Hb].
  rewrite Hb. f_equal. apply scan_spec in Hb as [L H].
  rewrite replicate_length in L.
  apply list_eq. intros k. rewrite H. unfold cm_backward. rewrite list_lookup_fmap.
  destruct (decide (k < Z.to_nat (find_count g))%nat) as [Hk|Hk].
  - rewrite lookup_replicate_2, lookup_seq_lt by done. simpl. by rewrite positions_cells_of.
  - rewrite lookup_seq_ge by lia. rewrite (proj2 (lookup_ge_None _ _)); [done|].
    rewrite replicate_length. lia.
Qed.

Lemma cells_of_elem g k i :
  i ∈ cells_of g k <-> 0 <= i /\ g !! Z.to_nat i = Some k.
Proof. rewrite <- positions_cells_of, elem_of_positions, Z.sub_0_r. done. Qed.

Lemma cells_of_nil g k : cells_of g k = [] <-> k ∉ g.
Proof.
  split.
  - intros E Hin. apply elem_of_list_lookup in Hin as [i Hi].
    assert (Z.of_nat i ∈ cells_of g k) as H.
    { apply cells_of_elem. rewrite Nat2Z.id. split; [lia|done]. }
    rewrite E in H. by apply elem_of_nil in H.
  - intros H. destruct (cells_of g k) as [|i l] eqn:E; [done|]. exfalso. apply H.
    assert (Hi : i ∈ cells_of g k) by (rewrite E; by left).
    apply cells_of_elem in Hi as [_ Hi]. by eapply elem_of_list_lookup_2.
Qed.

Lemma forward_lookup g i :
  blank_duplicates (cm_backward g (find_count g)) g !! i = forward_spec g i.
Proof.
  destruct (find_count_spec g) as (H1 & H2 & H3).
  assert (Hex : Exists (fun l => Z.of_nat i ∈ tail l) (cm_backward g (find_count g)) <->
                exists k, 0 <= k /\ g !! i = Some k /\ k ∈ take i g).
  { unfold cm_backward. rewrite Exists_fmap, Exists_exists. split.
    - intros (k & Hk & Hin). unfold compose in Hin. rewrite <- positions_cells_of in Hin.
      apply elem_of_tail_positions in Hin as (_ & Ha & Hb).
      rewrite Z.sub_0_r, Nat2Z.id in *. exists (Z.of_nat k). split; [lia|]. done.
    - intros (k & Hk & Ha & Hb). exists (Z.to_nat k).
      assert (k < find_count g).
      { rewrite Forall_lookup in H2. by eapply H2. }
      split; [apply elem_of_seq; lia|]. unfold compose.
      rewrite <- positions_cells_of, Z2Nat.id by lia. apply elem_of_tail_positions.
      rewrite Z.sub_0_r, Nat2Z.id. split; [lia|]. done. }
  rewrite blank_duplicates_lookup.
  2:{ intros l n Hl Hn. apply elem_of_list_fmap in Hl as (k & -> & _).
      by apply cells_of_elem in Hn as [? _]. }
  unfold forward_spec. destruct (decide (Exists _ _)) as [HE|HE].
  - apply Hex in HE as (k & Hk & Hg & Ht). rewrite Hg. simpl.
    rewrite decide_False by lia. by rewrite decide_True.
  - destruct (g !! i) as [k|] eqn:Hg; [|done].
    destruct (decide (k < 0)) as [|Hk]; [done|]. rewrite decide_False; [done|].
    intros Ht. apply HE, Hex. exists k. split; [lia|done].
Qed.

Lemma backward_lookup g k :
  0 <= k < find_count g ->
  cm_backward g (find_count g) !! Z.to_nat k = Some (cells_of g k).
Proof.
  intros Hk. unfold cm_backward. rewrite list_lookup_fmap, lookup_seq_lt by lia.
  simpl. by rewrite Z2Nat.id by lia.
Qed.

Lemma missing_iff g :
  Exists (fun l => l = []) (cm_backward g (find_count g)) <->
  exists k, 0 <= k < find_count g /\ k ∉ g.
Proof.
  unfold cm_backward. rewrite Exists_fmap, Exists_exists. split.
  - intros (k & Hk & E). apply elem_of_seq in Hk. exists (Z.of_nat k).
    split; [lia|]. by apply cells_of_nil.
  - intros (k & Hk & E). exists (Z.to_nat k). split; [apply elem_of_seq; lia|].
    unfold compose. rewrite Z2Nat.id by lia. by apply cells_of_nil.
Qed.

Lemma well_formed_iff nx nt g :
  (exists count, well_formed_mapping nx nt count g) <->
  Z.of_nat (length g) = nx /\ nt <= find_count g /\
  ~ exists k, 0 <= k < find_count g /\ k ∉ g.
Proof.
  destruct (find_count_spec g) as (H1 & H2 & H3). rewrite Forall_forall in H2.
  split.
  - intros (count & L & Hc & Hn & Hall).
    assert (find_count g = count) as ->.
    { destruct H3 as [E|H3].
      - assert (0 ∈ g) as H0 by (apply Hall; lia).
        destruct (decide (count = 1)); [lia|].
        assert (1 ∈ g) as Hx by (apply Hall; lia). specialize (H2 _ Hx). simpl in H2. lia.
      - assert (find_count g - 1 < count) by (apply Hall; [lia|done]).
        assert (count - 1 ∈ g) as Hx by (apply Hall; lia). specialize (H2 _ Hx).
        simpl in H2. lia. }
    split; [done|]. split; [done|]. intros (k & Hk & Hin). apply Hin, Hall; lia.
  - intros (L & Hn & Hall). exists (find_count g). split; [done|]. split; [done|]. split; [done|].
    intros k Hk. split; [intros Hin; by apply H2|].
    intros Hlt. destruct (decide (k ∈ g)) as [|Hni]; [done|]. exfalso. apply Hall.
    exists k. split; [lia|done].
Qed.

Lemma well_formed_count nx nt count g :
  well_formed_mapping nx nt count g -> count = find_count g.
Proof.
  intros W. destruct (find_count_spec g) as (H1 & H2 & H3). rewrite Forall_forall in H2.
  destruct W as (L & Hc & Hn & Hall).
  destruct H3 as [E|H3].
  - destruct (decide (count = 1)); [lia|].
    assert (1 ∈ g) as Hx by (apply Hall; lia). specialize (H2 _ Hx). simpl in H2. lia.
  - assert (find_count g - 1 < count) by (apply Hall; [lia|done]).
    assert (count - 1 ∈ g) as Hx by (apply Hall; lia). specialize (H2 _ Hx).
    simpl in H2. lia.
Qed.

Lemma create_mapping_cases s g s' r :
  1 <= nthreads s ->
  create_mapping s g = (s', r) ->
  (r = IRM_OK /\
   exists count, well_formed_mapping (nxyz s) (nthreads s) count g /\
     nxyz s' = nxyz s /\ nthreads s' = nthreads s /\ count_chemistry s' = count /\
     backward s' = cm_backward g count /\
     forward s' = blank_duplicates (cm_backward g count) g /\
     exists ss es, set_end_cells count (nthreads s) = Ret (ss, es) /\
       start_cell s' = ss /\ end_cell s' = es) \/
  (r = IRM_FAIL /\ ~ exists count, well_formed_mapping (nxyz s) (nthreads s) count g).
Proof.
  intros Hnt. unfold create_mapping.
  rewrite well_formed_iff.
  destruct (decide (Z.of_nat (length g) <> nxyz s)) as [Hl|Hl].
  { intros [= <- <-]. right. split; [done|]. tauto. }
  destruct (decide (nthreads s > find_count g)) as [Ht|Ht].
  { intros [= <- <-]. right. split; [done|]. lia. }
  rewrite scan_backward.
  destruct (decide (Exists _ _)) as [HE|HE].
  { intros [= <- <-]. right. split; [done|]. apply missing_iff in HE. tauto. }
  rewrite missing_iff in HE.
  destruct (find_count_spec g) as (H1 & H2 & H3).
  destruct (set_end_cells_valid (find_count g) (nthreads s) ltac:(lia)) as (ss & es & Hse & _).
  rewrite Hse. intros [= <- <-]. left. split; [done|].
  assert (exists count, well_formed_mapping (nxyz s) (nthreads s) count g) as [count W].
  { apply well_formed_iff. split; [lia|]. split; [lia|done]. }
  pose proof (well_formed_count _ _ _ _ W) as ->.
  exists (find_count g). simpl. repeat (split; [done|]). eauto.
Qed.

(** ** Invariant kept by successful construction and mapping *)

Definition mapping_inv (s : mapping_state) : Prop :=
  1 <= nthreads s <= count_chemistry s /\
  Z.of_nat (length (forward s)) = nxyz s /\
  Z.of_nat (length (backward s)) = count_chemistry s /\
  length (start_cell s) = Z.to_nat (nthreads s) /\
  valid_split (count_chemistry s) (start_cell s) (end_cell s) /\
  balanced (start_cell s) (end_cell s).

Lemma construct_spec nx req nproc :
  1 <= nx -> 1 <= nproc ->
  exists s, construct nx req nproc = Ret s /\ mapping_inv s /\ nxyz s = nx /\
    count_chemistry s = nx /\
    (forall i : nat, (i < Z.to_nat nx)%nat ->
       forward s !! i = Some (Z.of_nat i) /\ backward s !! i = Some [Z.of_nat i]).
Proof.
  intros Hx Hp. unfold construct.
  set (nt := if decide _ then _ else nx).
  assert (Hnt : 1 <= nt <= nx).
  { subst nt. repeat destruct (decide _); lia. }
  destruct (set_end_cells_valid nx nt Hnt) as (ss & es & -> & V & B & L).
  eexists. split; [done|]. unfold mapping_inv. simpl.
  rewrite !fmap_length, !seq_length.
  repeat split; try done; try lia; try apply V.
  - rewrite list_lookup_fmap, lookup_seq_lt by done. done.
  - rewrite !list_lookup_fmap, lookup_seq_lt by done. done.
Qed.

Lemma create_mapping_inv s g s' :
  1 <= nthreads s -> create_mapping s g = (s', IRM_OK) -> mapping_inv s'.
Proof.
  intros Hnt E. destruct (create_mapping_cases _ _ _ _ Hnt E) as [[_ H]|[? _]]; [|done].
  destruct H as (count & W & Hn & Ht & Hc & Hb & Hf & ss & es & Hse & Hss & Hes).
  pose proof W as (L & H1 & H2 & H3).
  destruct (set_end_cells_valid count (nthreads s) ltac:(lia)) as (ss' & es' & Hse' & V & B & L').
  rewrite Hse in Hse'. injection Hse' as <- <-.
  unfold mapping_inv. rewrite Hn, Ht, Hc, Hb, Hf, Hss, Hes.
  rewrite blank_duplicates_length. unfold cm_backward. rewrite fmap_length, seq_length.
  repeat split; try done; try lia; apply V.
Qed.

Lemma positions_sorted i g k : StronglySorted Z.lt (positions i g k).
Proof.
  revert i. induction g as [|n r IH]; intros i; cbn [positions]; [constructor|].
  destruct (decide (n = k)); [|apply IH]. constructor; [apply IH|].
  apply Forall_forall. intros x Hx. apply elem_of_positions in Hx as [Hx _]. lia.
Qed.
Lemma cells_of_sorted g k : StronglySorted Z.lt (cells_of g k).
Proof. rewrite <- positions_cells_of. apply positions_sorted. Qed.

Lemma create_mapping_rejected : forall s g,
  1 <= nthreads s ->
  Z.of_nat (length g) = nxyz s ->
  ~ (exists count, well_formed_mapping (nxyz s) (nthreads s) count g) ->
  let s' := (create_mapping s g).1 in
  (create_mapping s g).2 = IRM_FAIL /\
  (forall m, (forall x, x ∈ g -> x <= m) -> 0 <= m -> m ∈ g -> count_chemistry s' = m + 1) /\
  start_cell s' = start_cell s /\ end_cell s' = end_cell s /\
  (backward s' = [] \/ exists k : nat, backward s' !! k = Some []).
Proof.
  intros s g Hnt HL HW s'. subst s'.
  destruct (create_mapping s g) as [s' r] eqn:E. simpl.
  destruct (create_mapping_cases _ _ _ _ Hnt E) as [[-> (c & W & _)]|[-> Hn]]; [exfalso; eauto|].
  split; [done|].
  assert (Hm : forall m, (forall x, x ∈ g -> x <= m) -> 0 <= m -> m ∈ g -> find_count g = m + 1).
  { intros m Hmax Hm Hin. destruct (find_count_spec g) as (H1 & H2 & H3).
    rewrite Forall_forall in H2. specialize (H2 _ Hin). simpl in H2.
    destruct H3 as [H3|H3]; [lia|]. specialize (Hmax _ H3). lia. }
  revert E. unfold create_mapping. rewrite decide_False by lia.
  destruct (decide (nthreads s > find_count g)).
  { intros [= <-]. simpl. repeat (split; [done|]). by left. }
  rewrite scan_backward. destruct (decide (Exists _ _)) as [HE|HE].
  { intros [= <-]. simpl. repeat (split; [done|]). right.
    apply Exists_exists in HE as (l & Hl & ->).
    by apply elem_of_list_lookup in Hl. }
  intros E. exfalso. apply Hn, well_formed_iff.
  split; [done|]. split; [lia|]. by rewrite <- missing_iff.
Qed.
