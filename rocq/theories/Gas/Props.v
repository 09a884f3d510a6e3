(** Theorems about gas phases (C45, C63). *)
From Coq Require Import String QArith Qcanon.
From stdpp Require Import prelude strings gmap.
From Verif.Base Require Import Result.
From Verif.Solution Require Import Model Proofs Props.
From Verif.Conc Require Import Model Spec Proofs.
From Verif.Reactant Require Import Model.
From Verif.Gas Require Import Model Spec Proofs.
Local Open Scope Qc_scope.

(** C45: the getters of moles, partial pressures and fugacity coefficients show, for every grid cell
    of a chemistry cell and every listed component, the value of that component in the cell's gas
    phase, -1 if it is not there, and 1e30 in grid cells outside the chemistry. *)
Theorem gas_shown : forall f names n back m,
  mapping_ok n back -> length m = length back ->
  exists out, get_gas_values f names n back m = Ret out /\ length out = (n * length names)%nat /\
    (forall j gc k name g, part_of back j gc -> m !! j = Some g -> names !! k = Some name ->
       exists y, at_ out n k gc y /\ shows f g name y) /\
    (forall gc k, (gc < n)%nat -> (k < length names)%nat -> (forall j, ~ part_of back j gc) ->
       at_ out n k gc (Q2Qc (inject_Z 1000000000000000019884624838656))).
Proof.
  intros f names n back m Hmap Hm. pose proof Hmap as (Hne & Hb & Hnd).
  destruct (get_gases_spec (comp_row f names) n (length names) back m (replicate (n * length names) gas_inactive))
    as (out & E & L & H); [by rewrite replicate_length|done|done| |done|].
  { intros g. unfold comp_row. by rewrite map_length. }
  rewrite replicate_length in L.
  exists out. split_and!; [done|done| |].
  - intros j gc k name g (b & Eb & Hin) Eg Ek.
    destruct (mapping_back n back j b Hmap Eb) as [_ Hlt]. rewrite Forall_forall in Hlt.
    destruct (H k gc (lookup_lt_Some _ _ _ Ek) (Hlt gc Hin)) as [A _].
    exists (match g with Some g => comp_value f name (g_comps g) | None => qz (-1) end).
    split; [|apply shows_value]. unfold at_. rewrite Nat.mul_comm. rewrite (A j b g Eb Hin Eg).
    unfold comp_row. rewrite list_lookup_fmap. by rewrite Ek.
  - intros gc k Hgc Hk Hno. destruct (H k gc Hk Hgc) as [_ B]. unfold at_. rewrite Nat.mul_comm, B.
    + apply lookup_replicate. split; [done|]. nia.
    + intros (b & Hin & Hb')%elem_of_list_join. apply elem_of_list_lookup in Hb' as [j Hj]. apply (Hno j). by exists b.
Qed.
Print Assumptions gas_shown.

(** C45: SetGasCompMoles, over a whole grid: each listed component gets the moles given for the
    first grid cell of its chemistry cell, is removed if they are negative, and is added if it was
    not there; components that are not listed stay as they were; a gas phase with no component left
    is removed, and all else about a gas phase stays. *)
Theorem gas_moles_set : forall names n back t m,
  mapping_ok n back -> length m = length back -> (n * length names <= length t)%nat ->
  distinct names -> Forall tidy_gas m ->
  exists m', set_gas_moles names n back t m = Ret m' /\ length m' = length m /\ Forall tidy_gas m' /\
    forall j gc g, first_cell back j gc -> m !! j = Some g ->
    exists g', m' !! j = Some g' /\
      (forall k name x, names !! k = Some name -> at_ t n k gc x -> set_to name x g g') /\
      (forall name, (forall n0, n0 ∈ names -> lowered n0 <> lowered name) -> forall c, holds g' name c <-> holds g name c) /\
      (g' = None <-> forall name c, ~ holds g' name c) /\
      (forall g0 g1, g = Some g0 -> g' = Some g1 -> g_type g1 = g_type g0 /\ g_volume g1 = g_volume g0 /\
         g_pressure g1 = g_pressure g0 /\ g_temp g1 = g_temp g0).
Proof.
  intros names n back t m Hmap Hm Ht Hd Htidy. pose proof Hmap as (Hne & Hb & Hnd).
  destruct (set_cells_spec (set_cell names) n (length names) t back m Ht Hne Hb Hm) as (m' & E & L & H).
  assert (Hcell : forall row g, tidy_gas g -> tidy_gas (set_cell names row g)).
  { intros row g Hg. pose proof (set_cell_comps names row g Hd) as Ec. destruct (set_cell names row g) as [g'|]; [|done].
    simpl in Ec |- *. rewrite Ec. apply set_comps_distinct. by destruct g; [|constructor]. }
  assert (Hm' : forall j g', m' !! j = Some g' -> exists row g, m !! j = Some g /\ g' = set_cell names row g).
  { intros j g' Hj. destruct (lookup_lt_is_Some_2 m j) as [g Hg]; [rewrite <- L; by eapply lookup_lt_Some|].
    destruct (lookup_lt_is_Some_2 back j) as [b Hbj]; [rewrite <- Hm; by eapply lookup_lt_Some|].
    destruct (mapping_back n back j b Hmap Hbj) as [Hbn _]. destruct b as [|gc b]; [done|].
    pose proof (H j gc b g Hbj Hg) as Hj'. rewrite Hj in Hj'. injection Hj' as ->. eauto. }
  exists m'. split_and!; [done|done| |].
  { apply Forall_lookup. intros j g' Hj. destruct (Hm' j g' Hj) as (row & g & Hg & ->). apply Hcell.
    rewrite Forall_lookup in Htidy. by apply (Htidy j). }
  intros j gc g (b & Hbj) Hg. pose proof (H j gc b g Hbj Hg) as Hj.
  assert (Hgt : tidy_gas g) by (rewrite Forall_lookup in Htidy; by apply (Htidy j)).
  set (row := read n (length names) t gc) in *. pose proof (Hcell row g Hgt) as Hgt'.
  pose proof (set_cell_comps names row g Hd) as Ec.
  assert (Hcd : comps_distinct (comps_of g)) by (destruct g; [done|constructor]).
  exists (set_cell names row g). split_and!; [done| | | |].
  - intros k name x Hk Hx.
    assert (Hr : row !! k = Some x) by (apply read_lookup; [by eapply lookup_lt_Some|done]).
    pose proof (set_comps_find names row (comps_of g) k name x Hcd Hd Hk Hr) as F. rewrite <- Ec in F. split.
    + intros Hneg c Hc. apply (holds_find _ _ _ Hgt') in Hc. rewrite F in Hc. unfold new_value in Hc.
      by rewrite (proj2 (nonneg_false x) Hneg) in Hc.
    + intros Hpos. unfold new_value in F. rewrite (proj2 (nonneg_true x) Hpos) in F. eexists.
      split; [by apply (holds_find _ _ _ Hgt')|]. destruct (find_comp name (comps_of g)) as [c0|] eqn:E0.
      * split; [done|]. apply (holds_find _ _ _ Hgt) in E0. split; [|intros Hno; by apply Hno in E0].
        intros c1 H1. apply (holds_find _ _ _ Hgt) in H1, E0. rewrite E0 in H1. by injection H1 as <-.
      * split; [done|]. split; [|done]. intros c1 H1. apply (holds_find _ _ _ Hgt) in H1. by rewrite E0 in H1.
  - intros name Hno c. rewrite (holds_find _ _ _ Hgt'), (holds_find _ _ _ Hgt). rewrite Ec.
    by rewrite set_comps_other by done.
  - split; [by intros -> ?? (g' & ? & _)|]. intros Hnone. destruct (set_cell names row g) as [g'|] eqn:Eg; [exfalso|done].
    assert (g_comps g' <> []) as Hne'.
    { destruct g as [g0|]; simpl in Eg.
      - destruct (set_comps names row (g_comps g0)); [done|]. by injection Eg as <-.
      - destruct (new_comps names row); [done|]. by injection Eg as <-. }
    destruct (g_comps g') as [|c l] eqn:El; [done|]. apply (Hnone (gc_name c) c). exists g'. split_and!; [done| |done].
    rewrite El. left.
  - intros g0 g1 -> Eg. simpl in Eg. destruct (set_comps names row (g_comps g0)); [done|]. by injection Eg as <-.
Qed.
Print Assumptions gas_moles_set.

(** C45: what was set is what is got, from every grid cell that shares the chemistry cell: the moles
    given for its first grid cell if they are not negative, and otherwise -1. *)
Theorem gas_moles_round_trip : forall names n back t m,
  mapping_ok n back -> length m = length back -> (n * length names <= length t)%nat ->
  distinct names -> Forall tidy_gas m ->
  exists m' out, set_gas_moles names n back t m = Ret m' /\
    get_gas_values gc_moles names n back m' = Ret out /\
    forall j gc0 gc k x, first_cell back j gc0 -> part_of back j gc -> (k < length names)%nat ->
      at_ t n k gc0 x -> (0 <= x -> at_ out n k gc x) /\ (x < 0 -> at_ out n k gc (-(1))).
Proof.
  intros names n back t m Hmap Hm Ht Hd Htidy.
  destruct (gas_moles_set names n back t m) as (m' & E & L & T' & H); [done..|].
  destruct (gas_shown gc_moles names n back m') as (out & Eo & _ & Ho & _); [done|by rewrite L|].
  exists m', out. split_and!; [done|done|]. intros j gc0 gc k x Hrep Hcov Hk Hx.
  destruct (lookup_lt_is_Some_2 names k Hk) as [name Hname].
  destruct (lookup_lt_is_Some_2 m j) as [g Hg].
  { rewrite Hm. destruct Hrep as [b Hb]. by eapply lookup_lt_Some. }
  destruct (H j gc0 g Hrep Hg) as (g' & Hg' & Hset & _).
  destruct (Hset k name x Hname Hx) as [Sneg Spos].
  destruct (Ho j gc k name g' Hcov Hg' Hname) as (y & Hy & Sh).
  assert (Htg : tidy_gas g') by (rewrite Forall_lookup in T'; by apply (T' j)).
  split.
  - intros Hpos. destruct (Spos Hpos) as (c & Hc & <- & _). destruct Sh as [(c1 & H1 & ->)|[Hno _]]; [|by apply Hno in Hc].
    apply (holds_find _ _ _ Htg) in Hc, H1. rewrite Hc in H1. by injection H1 as ->.
  - intros Hneg. destruct Sh as [(c1 & H1 & ->)|[_ ->]]; [|done]. by apply (Sneg Hneg) in H1.
Qed.
Print Assumptions gas_moles_round_trip.

(** C45: SetGasPhaseVolume: the volume given for the first grid cell, if it is not negative, is what
    GetGasPhaseVolume then shows in every grid cell of the chemistry cell; the gas phase becomes a
    fixed-volume one, made anew if there was none, and its components stay. A negative volume
    changes nothing. *)
Theorem gas_volume_round_trip : forall n back t m,
  mapping_ok n back -> length m = length back -> (n <= length t)%nat ->
  exists m' out, set_gas_volume n back t m = Ret m' /\ get_gas_volume n back m' = Ret out /\ length m' = length m /\
    (forall j gc0 gc v g, first_cell back j gc0 -> part_of back j gc -> t !! gc0 = Some v -> m !! j = Some g ->
       exists g', m' !! j = Some g' /\ (forall name c, holds g' name c <-> holds g name c) /\
       (0 <= v -> out !! gc = Some v /\ exists g1, g' = Some g1 /\ g_type g1 = GP_VOLUME) /\
       (v < 0 -> g' = g /\ out !! gc = Some (match g with Some g => g_volume g | None => -(1) end))) /\
    (forall gc, (gc < n)%nat -> (forall j, ~ part_of back j gc) ->
       out !! gc = Some (Q2Qc (inject_Z 1000000000000000019884624838656))).
Proof.
  intros n back t m Hmap Hm Ht. pose proof Hmap as (Hne & Hb & Hnd).
  destruct (set_cells_spec set_volume n 1 t back m) as (m' & E & L & H); [lia|done..|].
  destruct (get_gases_spec (fun g : option gas => [match g with Some g => g_volume g | None => qz (-1) end]) n 1 back m'
    (replicate n gas_inactive)) as (out & Eo & Lo & Ho); [rewrite replicate_length; lia|done|done|done|by rewrite L|].
  exists m', out. split_and!; [done|done|done| |].
  - intros j gc0 gc v g (b & Hbj) (b' & Hbj' & Hin) Hv Hg. pose proof (H j gc0 b g Hbj Hg) as Hj.
    assert (Hrow : read n 1 t gc0 = [v]) by (unfold read; simpl; by rewrite Hv). rewrite Hrow in Hj.
    destruct (mapping_back n back j b' Hmap Hbj') as [_ Hlt]. rewrite Forall_forall in Hlt.
    destruct (Ho 0%nat gc) as [A _]; [lia|by apply Hlt|]. specialize (A j b' _ Hbj' Hin Hj).
    rewrite Nat.mul_0_r, Nat.add_0_l in A. rewrite A.
    exists (set_volume [v] g). split; [done|]. unfold set_volume. destruct (Qc_ltb v 0) eqn:Ev.
    + apply Qc_ltb_true in Ev. split_and!; [done| |].
      * intros Hp. by apply Qcle_not_lt in Hp.
      * intros _. split; [done|]. by destruct g.
    + apply Qc_ltb_false in Ev. split_and!.
      * intros name c. destruct g as [g|].
        -- split; intros (g' & [= <-] & Hc & Hn); by eexists.
        -- split; [intros (g' & [= <-] & Hc & _); by apply elem_of_nil in Hc|by intros (? & ? & _)].
      * intros _. destruct g as [g|]; (split; [done|by eexists]).
      * intros Hneg. by apply Qcle_not_lt in Ev.
  - intros gc Hgc Hno. destruct (Ho 0%nat gc) as [_ B]; [lia|done|].
    rewrite Nat.mul_0_r, Nat.add_0_l in B. rewrite B.
    + by apply lookup_replicate.
    + intros (b & Hin & Hb')%elem_of_list_join. apply elem_of_list_lookup in Hb' as [j Hj]. apply (Hno j). by exists b.
Qed.
Print Assumptions gas_volume_round_trip.

(** Two chemistry cells on a grid of four; cell 0 has two grid cells, grid cell 3 is inactive. *)
Definition demo_back : list (list nat) := [[0; 2]; [1]]%nat.
Definition demo_names : list string := ["CO2(g)"; "CH4(g)"]%string.
Definition demo_gas : gas :=
  Gas GP_VOLUME 1 (q 3 1) 1 1 (q 298 1) [GCo "CH4(g)" (q 1 2) 0 0 (q 2 1) 1 1; GCo "N2(g)" (q 1 4) 0 0 1 1 1].
Definition demo_m : list (option gas) := [Some demo_gas; None].
Definition demo_t : list Qc := map (fun z => q z 1) [5; 6; 7; 8; -1; 2; 3; 4]%Z.

Example gas_hypotheses : mapping_ok 4 demo_back /\ length demo_m = length demo_back /\
  distinct demo_names /\ Forall tidy_gas demo_m /\ (4 * length demo_names <= length demo_t)%nat.
Proof.
  split_and!.
  - split_and!.
    + by repeat constructor.
    + simpl. repeat constructor; lia.
    + apply (bool_decide_unpack _). vm_compute. exact I.
  - done.
  - apply (bool_decide_unpack _). vm_compute. exact I.
  - repeat constructor; apply (bool_decide_unpack _); vm_compute; exact I.
  - simpl. lia.
Qed.
Example gas_demo : exists m' out, set_gas_moles demo_names 4 demo_back demo_t demo_m = Ret m' /\
  get_gas_values gc_moles demo_names 4 demo_back m' = Ret out /\
  out !! 0%nat = Some (q 5 1) /\ out !! 2%nat = Some (q 5 1) /\ out !! 1%nat = Some (q 6 1) /\
  out !! 4%nat = Some (q (-1) 1) /\ out !! 5%nat = Some (q 2 1) /\ out !! 3%nat = Some gas_inactive.
Proof.
  eexists. eexists. split; [vm_compute; reflexivity|]. split; [vm_compute; reflexivity|].
  cbn [lookup list_lookup]. split_and!; f_equal; qc.
Qed.

(** The value shown for grid cells outside the chemistry is the double 1e30, not the 1e30f that the
    other getters use: a caller that compares with the one misses the other. *)
Theorem gas_inactive_refuted : gas_inactive <> inactive.
Proof. intros H. apply (f_equal this) in H. vm_compute in H. discriminate H. Qed.
Print Assumptions gas_inactive_refuted.

(** Without the condition that no component is listed twice, a negative value does not remove a
    component: the second copy is still there. *)
Theorem gas_twice_refuted :
  let g := with_comps [GCo "CO2(g)" (q 1 1) 0 0 0 0 0; GCo "CO2(g)" (q 2 1) 0 0 0 0 0]%string demo_gas in
  exists m' y, set_gas_moles ["CO2(g)"]%string 1 [[0%nat]] [q (-1) 1] [Some g] = Ret m' /\
    get_gas_values gc_moles ["CO2(g)"]%string 1 [[0%nat]] m' = Ret [y] /\ y = q 2 1.
Proof. eexists. eexists. split; [vm_compute; reflexivity|]. split; [vm_compute; reflexivity|]. qc. Qed.
Print Assumptions gas_twice_refuted.

(** A short vector is read out of bounds. *)
Theorem gas_short_refuted : set_gas_moles demo_names 4 demo_back (take 4 demo_t) demo_m = UB.
Proof. vm_compute. reflexivity. Qed.
Print Assumptions gas_short_refuted.

(** C63: in the MPI build, rank 0 does to its cell what the threaded build does. *)
Theorem mpi_gas_rank_0 : forall names j row m ms,
  exists m', mpi_set_cell names 0 j row (m :: ms) = Ret (m' :: ms) /\
    m' !! j = set_cell names row (m !! j) /\ (forall i, i <> j -> m' !! i = m !! i).
Proof.
  intros names j row m ms. unfold mpi_set_cell. cbn [vat lookup list_lookup obind].
  destruct (m !! j) as [g|] eqn:Eg.
  - cbn [imap lookup list_lookup insert list_insert obind set_cell].
    destruct (set_comps names row (g_comps g)) as [|c l] eqn:El.
    + cbn [imap lookup list_lookup insert list_insert obind]. eexists. split; [reflexivity|]. split.
      * by rewrite lookup_delete.
      * intros i Hi. rewrite lookup_delete_ne by done. by rewrite lookup_insert_ne by done.
    + eexists. split; [reflexivity|]. split; [by rewrite lookup_insert|].
      intros i Hi. by rewrite lookup_insert_ne by done.
  - cbn [set_cell]. destruct (new_comps names row) as [|c l] eqn:El.
    + eexists. split; [reflexivity|]. done.
    + cbn [imap lookup list_lookup insert list_insert]. eexists. split; [reflexivity|].
      split; [by rewrite lookup_insert|]. intros i Hi. by rewrite lookup_insert_ne by done.
Qed.
Print Assumptions mpi_gas_rank_0.
(** Any rank agrees, when the gas phase is there and keeps a component. *)
Theorem mpi_gas_kept : forall names rank j row m ms g,
  m !! j = Some g -> set_cell names row (Some g) <> None ->
  exists m', mpi_set_cell names rank j row (m :: ms) = Ret (m' :: ms) /\
    m' !! j = set_cell names row (Some g) /\ (forall i, i <> j -> m' !! i = m !! i).
Proof.
  intros names rank j row m ms g Eg Hk. unfold mpi_set_cell. cbn [vat lookup list_lookup obind]. rewrite Eg.
  cbn [imap lookup list_lookup insert list_insert obind set_cell] in Hk |- *.
  destruct (set_comps names row (g_comps g)) as [|c l] eqn:El; [done|].
  eexists. split; [reflexivity|]. split; [by rewrite lookup_insert|].
  intros i Hi. by rewrite lookup_insert_ne by done.
Qed.
Print Assumptions mpi_gas_kept.
(** On ranks 1 and 2 a new gas phase goes to InitialPhreeqc or Utility, and the cell gets none; on
    any later rank the store is past the end of the instances. *)
Theorem mpi_gas_new_refuted : forall names rank j row m0 m1 m2,
  m0 !! j = None -> set_cell names row None <> None -> (0 < rank)%nat ->
  (rank < 3 -> exists ms, mpi_set_cell names rank j row [m0; m1; m2] = Ret ms /\
     ms !! 0 = Some m0 /\ exists m, ms !! rank = Some m /\ m !! j = set_cell names row None)%nat /\
  ((3 <= rank)%nat -> mpi_set_cell names rank j row [m0; m1; m2] = UB).
Proof.
  intros names rank j row m0 m1 m2 E0 Hn Hr. unfold mpi_set_cell. cbn [vat lookup list_lookup obind]. rewrite E0.
  cbn [set_cell] in Hn |- *. destruct (new_comps names row) as [|c l] eqn:El; [done|]. split.
  - intros H3. destruct rank as [|[|[|rank]]]; [lia| | |lia]; cbn; (eexists; split; [reflexivity|]; split; [done|];
      eexists; split; [reflexivity|]; by rewrite lookup_insert).
  - intros H3. unfold imap. by rewrite lookup_ge_None_2 by done.
Qed.
Print Assumptions mpi_gas_new_refuted.
(** On rank 1 a gas phase that lost its last component stays in the worker, empty, and the
    user's definition of the same number is erased from InitialPhreeqc. *)
Theorem mpi_gas_erase_refuted : forall names j row m0 m1 m2 g,
  m0 !! j = Some g -> set_cell names row (Some g) = None ->
  exists ms m0' m1', mpi_set_cell names 1 j row [m0; m1; m2] = Ret ms /\
    ms = [m0'; m1'; m2] /\ m0' !! j = Some (with_comps [] g) /\ m1' !! j = None.
Proof.
  intros names j row m0 m1 m2 g E0 Hn. unfold mpi_set_cell. cbn [vat lookup list_lookup obind]. rewrite E0.
  cbn [set_cell] in Hn |- *. destruct (set_comps names row (g_comps g)) as [|c l] eqn:El; [|done]. cbn.
  eexists. eexists. eexists. split; [reflexivity|]. split; [reflexivity|]. split; [by rewrite lookup_insert|by rewrite lookup_delete].
Qed.
Print Assumptions mpi_gas_erase_refuted.
Example mpi_gas_demo :
  set_cell demo_names [q 1 1; q 2 1] None <> None /\
  set_cell ["CH4(g)"; "N2(g)"]%string [q (-1) 1; q (-1) 1] (Some demo_gas) = None.
Proof. split; [discriminate|vm_compute; reflexivity]. Qed.
