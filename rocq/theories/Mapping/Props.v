From stdpp Require Import prelude.
From Coq Require Import Sorting.Sorted.
From Verif.Base Require Import Result.
From Verif.Partition Require Import EndCells Spec EndCellsProofs.
From Verif.Mapping Require Import Model Spec Proofs.
Local Open Scope Z_scope.

(** C02. CreateMapping returns IRM_OK exactly for the well-formed arrays, and
    IRM_FAIL otherwise. *)
Theorem create_mapping_accepts_iff : forall s g,
  1 <= nthreads s ->
  ((create_mapping s g).2 = IRM_OK <->
     exists count, well_formed_mapping (nxyz s) (nthreads s) count g) /\
  ((create_mapping s g).2 = IRM_OK \/ (create_mapping s g).2 = IRM_FAIL).
Proof.
  intros s g Hnt. destruct (create_mapping s g) as [s' r] eqn:E. simpl.
  destruct (create_mapping_cases _ _ _ _ Hnt E) as [[-> (c & W & _)]|[-> Hn]].
  - split; [split; eauto|by left].
  - split; [split; [done|tauto]|by right].
Qed.
Print Assumptions create_mapping_accepts_iff.

(** C02. On success the mappings are the ones the array describes. *)
Theorem create_mapping_consistent : forall s g s',
  1 <= nthreads s -> create_mapping s g = (s', IRM_OK) ->
  nxyz s' = nxyz s /\ nthreads s' = nthreads s /\
  (forall k, 0 <= k -> (k ∈ g <-> k < count_chemistry s')) /\
  Z.of_nat (length (backward s')) = count_chemistry s' /\
  (forall k, 0 <= k < count_chemistry s' -> exists l,
     backward s' !! Z.to_nat k = Some l /\ l <> [] /\ l = cells_of g k /\
     StronglySorted Z.lt l /\
     (forall i, i ∈ l <-> 0 <= i /\ g !! Z.to_nat i = Some k)) /\
  (forall i, forward s' !! i = forward_spec g i).
Proof.
  intros s g s' Hnt E.
  destruct (create_mapping_cases _ _ _ _ Hnt E) as [[_ H]|[? _]]; [|done].
  destruct H as (count & W & Hn & Ht & Hc & Hb & Hf & _).
  pose proof (well_formed_count _ _ _ _ W) as ->. destruct W as (L & H1 & H2 & H3).
  rewrite Hn, Ht, Hc, Hb, Hf. repeat (split; [done|]).
  split; [|split].
  - unfold cm_backward. rewrite fmap_length, seq_length. lia.
  - intros k Hk. exists (cells_of g k). rewrite backward_lookup by done.
    split; [done|]. split; [|split; [done|split]].
    + rewrite cells_of_nil. intros Hni. apply Hni, H3; lia.
    + apply cells_of_sorted.
    + apply cells_of_elem.
  - apply forward_lookup.
Qed.
Print Assumptions create_mapping_consistent.

(** C02. No grid cell belongs to two chemistry cells, and a grid cell with a
    negative entry belongs to none. *)
Theorem create_mapping_backward_disjoint : forall s g s' k1 k2 l1 l2 i,
  1 <= nthreads s -> create_mapping s g = (s', IRM_OK) ->
  backward s' !! k1 = Some l1 -> backward s' !! k2 = Some l2 ->
  i ∈ l1 -> i ∈ l2 -> k1 = k2 /\ 0 <= i < nxyz s /\ g !! Z.to_nat i = Some (Z.of_nat k1).
Proof.
  intros s g s' k1 k2 l1 l2 i Hnt E.
  destruct (create_mapping_cases _ _ _ _ Hnt E) as [[_ H]|[? _]]; [|done].
  destruct H as (count & W & Hn & Ht & Hc & -> & _).
  destruct W as (L & _). unfold cm_backward. rewrite !list_lookup_fmap.
  intros Hk1 Hk2 Hi1 Hi2.
  apply fmap_Some in Hk1 as (x1 & [-> ?]%lookup_seq & ->).
  apply fmap_Some in Hk2 as (x2 & [-> ?]%lookup_seq & ->).
  apply cells_of_elem in Hi1 as [? Hg1]. apply cells_of_elem in Hi2 as [_ Hg2].
  rewrite Hg1 in Hg2. injection Hg2 as ?. pose proof (lookup_lt_Some _ _ _ Hg1).
  split; [lia|]. split; [lia|]. exact Hg1.
Qed.
Print Assumptions create_mapping_backward_disjoint.

(** A 10-cell, 2-thread example with symmetric and inactive cells. *)
Definition example_state : mapping_state :=
  match construct 10 2 4 with Ret s => s | _ => MS 0 0 0 [] [] [] [] end.
Definition example_map : list Z := [0; 1; 2; 3; -1; 0; 1; 2; 3; -1].

Example create_mapping_nontrivial :
  let '(s', r) := create_mapping example_state example_map in
  1 <= nthreads example_state /\ r = IRM_OK /\ count_chemistry s' = 4 /\
  backward s' = [[0; 5]; [1; 6]; [2; 7]; [3; 8]] /\
  forward s' = [0; 1; 2; 3; -1; -1; -1; -1; -1; -1] /\
  start_cell s' = [0; 2] /\ end_cell s' = [1; 3].
Proof. vm_compute. repeat split; discriminate. Qed.

(** Mutation: a gap in the numbers is rejected. *)
Example create_mapping_gap_rejected :
  (create_mapping example_state [0; 1; 3; 3; -1; 0; 1; 3; 3; -1]).2 = IRM_FAIL.
Proof. vm_compute. reflexivity. Qed.

(** C03. A mapping array of the wrong length leaves everything as it was. *)
Theorem create_mapping_wrong_length_unchanged : forall s g,
  Z.of_nat (length g) <> nxyz s -> create_mapping s g = (s, IRM_FAIL).
Proof. intros s g H. unfold create_mapping. by rewrite decide_True. Qed.
Print Assumptions create_mapping_wrong_length_unchanged.

(** C03 is false for arrays of the right length: every such rejected array
    destroys the old mapping -- whatever it was, the number of chemistry cells
    is replaced while the thread ranges still describe the old one. *)
Theorem create_mapping_rejected_refuted : forall s g,
  1 <= nthreads s ->
  Z.of_nat (length g) = nxyz s ->
  ~ (exists count, well_formed_mapping (nxyz s) (nthreads s) count g) ->
  let s' := (create_mapping s g).1 in
  (create_mapping s g).2 = IRM_FAIL /\
  (forall m, (forall x, x ∈ g -> x <= m) -> 0 <= m -> m ∈ g -> count_chemistry s' = m + 1) /\
  start_cell s' = start_cell s /\ end_cell s' = end_cell s /\
  (backward s' = [] \/ exists k : nat, backward s' !! k = Some []).
Proof. exact create_mapping_rejected. Qed.
Print Assumptions create_mapping_rejected_refuted.

(** ... for instance a constructed module with 4 one-to-one cells on 2 threads:
    afterwards thread 1 still owns cells 2 and 3 although there is only
    chemistry cell 0 left and no backward mapping at all. *)
Example create_mapping_rejected_witness :
  exists s s', construct 4 2 4 = Ret s /\ mapping_inv s /\
    create_mapping s [0; 0; -1; -1] = (s', IRM_FAIL) /\
    count_chemistry s' = 1 /\ backward s' = [] /\ forward s' = [] /\ end_cell s' = [1; 3] /\
    ~ mapping_inv s'.
Proof.
  destruct (construct_spec 4 2 4 ltac:(lia) ltac:(lia)) as (s & Hs & Hinv & _).
  exists s. eexists. split; [exact Hs|]. split; [exact Hinv|].
  vm_compute in Hs. injection Hs as <-.
  split; [vm_compute; reflexivity|]. repeat (split; [reflexivity|]).
  intros ([_ H] & _). vm_compute in H. by apply H.
Qed.

(** C04. After construction ... *)
Theorem construct_distribution : forall nx requested nproc,
  1 <= nx -> 1 <= nproc ->
  exists s, construct nx requested nproc = Ret s /\
    valid_split (count_chemistry s) (start_cell s) (end_cell s) /\
    exactly_one_owner (count_chemistry s) (start_cell s) (end_cell s) /\
    balanced (start_cell s) (end_cell s) /\
    Z.of_nat (length (start_cell s)) = nthreads s /\
    nthreads s = (if decide (requested > 0) then requested else nproc) `min` nx /\
    count_chemistry s = nx /\
    (forall i : nat, (i < Z.to_nat nx)%nat ->
       forward s !! i = Some (Z.of_nat i) /\ backward s !! i = Some [Z.of_nat i]).
Proof.
  intros nx r p H1 H2. destruct (construct_spec nx r p H1 H2) as (s & E & I & Hn & Hc & Hm).
  exists s. split; [done|]. destruct I as (? & ? & ? & ? & V & B).
  split; [done|]. split; [by apply valid_split_one_owner|]. split; [done|].
  split; [lia|]. split; [|done].
  revert E. unfold construct. destruct (set_end_cells _ _) as [[]| |]; [|done..].
  intros [= <-]. simpl. destruct (decide (r > 0)); destruct (decide _); lia.
Qed.
Print Assumptions construct_distribution.

(** C04. ... and after a successful CreateMapping the ranges are a balanced
    partition. *)
Theorem create_mapping_distribution : forall s g s',
  1 <= nthreads s -> create_mapping s g = (s', IRM_OK) ->
  valid_split (count_chemistry s') (start_cell s') (end_cell s') /\
  exactly_one_owner (count_chemistry s') (start_cell s') (end_cell s') /\
  balanced (start_cell s') (end_cell s') /\
  Z.of_nat (length (start_cell s')) = nthreads s'.
Proof.
  intros s g s' Hnt E. destruct (create_mapping_inv _ _ _ Hnt E) as (? & ? & ? & ? & V & B).
  split; [done|]. split; [by apply valid_split_one_owner|]. split; [done|]. lia.
Qed.
Print Assumptions create_mapping_distribution.

(** C04. A grid without cells divides by zero during construction. *)
Theorem construct_empty_grid_refuted : forall requested nproc,
  0 <= nproc -> construct 0 requested nproc = UB.
Proof.
  intros r p H. unfold construct. destruct (decide (r > 0)), (decide _); try lia; done.
Qed.
Print Assumptions construct_empty_grid_refuted.
