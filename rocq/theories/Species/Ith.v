(** Species concentrations one species at a time: GetIthSpeciesConcentration,
    SetIthSpeciesConcentration and what RunCells does with them, next to the concentrations given one
    component at a time (Conc/Ith.v).

    Source: src/PhreeqcRM.cpp 3380-3438 and 9824-9941 (non-MPI build). The reaction step itself is
    an arbitrary function on the cell contents. ReturnHandler is the one of error handler mode 0.
    Not modelled: the first-call check of the cells, rebalancing, a FindComponents in between. *)
From Coq Require Import String QArith Qcanon ZArith.
From stdpp Require Import prelude strings gmap.
From Verif.Base Require Import Result.
From Verif.Names Require Import Model Spec Proofs.
From Verif.Solution Require Import Model Proofs.
From Verif.Conc Require Import Model Spec Proofs Ith.
From Verif.Boundary Require Model.
From Verif.Species Require Import Model Spec Proofs Props.
Local Open Scope Qc_scope.

Record sm := Sm {
  q_rm : rm;              (* cells and the component vectors of Conc/Ith.v *)
  q_save : bool;          (* species_save_on *)
  q_cache : list Qc;      (* CurrentSpeciesConcentrations *)
  q_staged : list Qc;     (* IthCurrentSpeciesConcentrations *)
  q_set : gset nat;       (* IthSpeciesConcentrationSet *)
}.
Notation q_cells st := (r_cells (q_rm st)).
Definition with_save (b : bool) (p : spcfg) : spcfg := SpCfg b (p_comps p) (p_stoich p) (p_index p).
Definition with_cells (m : cells) (r : rm) : rm := Rm m (r_cache r) (r_staged r) (r_set r).

Definition sp_range (p : spcfg) (i : Z) : bool :=
  bool_decide (0 <= i)%Z && bool_decide (i < Z.of_nat (nspecies p))%Z.

(** GetSpeciesConcentrations(CurrentSpeciesConcentrations) *)
Definition refresh (p : spcfg) (g : grid) (st : sm) : outcome sm :=
  obind (read_species (with_save (q_save st) p) s_species g (q_cells st) (q_cache st)) (fun out =>
  Ret (Sm (q_rm st) (q_save st) out (q_staged st) (q_set st))).

(** GetIthSpeciesConcentration, PhreeqcRM.cpp 3380-3407; [None] is IRM_INVALIDARG *)
Definition get_ith_species (p : spcfg) (g : grid) (i : Z) (st : sm) : outcome (option (list Qc) * sm) :=
  if q_save st && sp_range p i then
    obind (if decide (length (q_cache st) = (g_n g * nspecies p)%nat) then Ret st else refresh p g st) (fun st =>
    obind (omap_list (fun j => vat (q_cache st) (Z.to_nat i * g_n g + j)) (seq 0 (g_n g))) (fun col =>
    Ret (Some col, st)))
  else Ret (None, st).

(** SetIthSpeciesConcentration, PhreeqcRM.cpp 3409-3438: whether species are saved is not asked. The
    size of the argument is only asserted. *)
Definition set_ith_species (p : spcfg) (g : grid) (i : Z) (col : list Qc) (st : sm) : outcome sm :=
  if sp_range p i then
    let st := if decide (length (q_staged st) = (g_n g * nspecies p)%nat) then st
              else Sm (q_rm st) (q_save st) (q_cache st) (replicate (g_n g * nspecies p) 0) ∅ in
    obind (put_column (g_n g) (Z.to_nat i) 0 (g_n g) col (q_staged st)) (fun v =>
    Ret (Sm (q_rm st) (q_save st) (q_cache st) v ({[ Z.to_nat i ]} ∪ q_set st)))
  else Ret st.

(** SpeciesConcentrations2Module; the result code is that of the call *)
Definition do_species (p : spcfg) (g : grid) (t : list Qc) (st : sm) : outcome (irm_result * sm) :=
  obind (species_to_module (with_save (q_save st) p) g t (q_cells st)) (fun r =>
  Ret (r.1, Sm (with_cells r.2 (q_rm st)) (q_save st) (q_cache st) (q_staged st) (q_set st))).

(** RunCells, PhreeqcRM.cpp 9845-9853: the result code of SpeciesConcentrations2Module is dropped *)
Definition take_species (p : spcfg) (g : grid) (st : sm) : outcome sm :=
  if decide (0 < size (q_set st))%nat then
    if decide (size (q_set st) <> nspecies p) then Throw
    else obind (do_species p g (q_staged st) st) (fun r => Ret r.2)
  else Ret st.
(** RunCells, PhreeqcRM.cpp 9836-9853 *)
Definition take_both (c : cfg) (p : spcfg) (g : grid) (st : sm) : outcome sm :=
  obind (take_staged c g (q_rm st)) (fun r =>
  take_species p g (Sm r (q_save st) (q_cache st) (q_staged st) (q_set st))).
(** RunCells, PhreeqcRM.cpp 9933-9939 *)
Definition finish_both (c : cfg) (p : spcfg) (g : grid) (st : sm) : outcome sm :=
  obind (finish_run c g (q_rm st)) (fun r =>
  let st := Sm r (q_save st) (q_cache st) (q_staged st) ∅ in
  if q_save st then refresh p g st else Ret st).
(** RunCells, PhreeqcRM.cpp 9824-9941, with the reaction step [solve] *)
Definition run_both (c : cfg) (p : spcfg) (g : grid) (solve : cells -> cells) (st : sm) : outcome sm :=
  obind (take_both c p g st) (fun st =>
  finish_both c p g (Sm (with_cells (solve (q_cells st)) (q_rm st)) (q_save st) (q_cache st) (q_staged st) (q_set st))).

(** Calls between two reaction steps *)
Inductive scall :=
| Comp (x : call)
| GetIthSp (i : Z)
| SetIthSp (i : Z) (col : list Qc)
| ToModule (t : list Qc)
| SaveOn (b : bool).     (* SetSpeciesSaveOn *)
Definition do_scall (c : cfg) (p : spcfg) (g : grid) (x : scall) (st : sm) : outcome sm :=
  match x with
  | Comp x => obind (do_call c g x (q_rm st)) (fun r =>
              Ret (Sm r (q_save st) (q_cache st) (q_staged st) (q_set st)))
  | GetIthSp i => obind (get_ith_species p g i st) (fun r => Ret r.2)
  | SetIthSp i col => set_ith_species p g i col st
  | ToModule t => obind (do_species p g t st) (fun r => Ret r.2)
  | SaveOn b => Ret (Sm (q_rm st) b (q_cache st) (q_staged st) (q_set st))
  end.
Fixpoint do_scalls (c : cfg) (p : spcfg) (g : grid) (xs : list scall) (st : sm) : outcome sm :=
  match xs with
  | [] => Ret st
  | x :: xs' => obind (do_scall c p g x st) (do_scalls c p g xs')
  end.

(** ** Vocabulary *)

(** The last value given for species [i]. *)
Fixpoint last_species (i : Z) (xs : list scall) : option (list Qc) :=
  match xs with
  | [] => None
  | x :: xs' =>
      match last_species i xs' with
      | Some v => Some v
      | None => match x with SetIthSp i' v => if decide (i' = i) then Some v else None | _ => None end
      end
  end.
(** Every vector given covers the grid. *)
Definition scolumns_ok (g : grid) (xs : list scall) : Prop :=
  forall i v, SetIthSp i v ∈ xs -> (g_n g <= length v)%nat.
(** The array assembled from the last value given for each of [ns] species. *)
Definition sassembled (n ns : nat) (xs : list scall) (t : list Qc) : Prop :=
  length t = (n * ns)%nat /\
  forall i j v, (i < ns)%nat -> (j < n)%nat -> last_species (Z.of_nat i) xs = Some v ->
    t !! (i * n + j)%nat = v !! j.
(** Calls that change neither the cells nor the switch. *)
Definition sreading (x : scall) : Prop :=
  match x with Comp x => reading x | GetIthSp _ | SetIthSp _ _ => True | _ => False end.

(** ** Proofs *)

Lemma sp_range_spec p i : sp_range p i = true <-> (0 <= i < Z.of_nat (nspecies p))%Z.
Proof. unfold sp_range. rewrite andb_true_iff, !bool_decide_eq_true. done. Qed.

Definition sstaging (p : spcfg) (g : grid) (xs : list scall) (st : sm) : Prop :=
  (forall i, i ∈ q_set st <-> (i < nspecies p)%nat /\ is_Some (last_species (Z.of_nat i) xs)) /\
  (q_set st <> ∅ -> length (q_staged st) = (g_n g * nspecies p)%nat) /\
  (forall i j v, i ∈ q_set st -> (j < g_n g)%nat -> last_species (Z.of_nat i) xs = Some v ->
     q_staged st !! (i * g_n g + j)%nat = v !! j).

Lemma last_species_snoc i xs x : last_species i (xs ++ [x]) =
  match x with SetIthSp i' v => if decide (i' = i) then Some v else last_species i xs | _ => last_species i xs end.
Proof.
  induction xs as [|y xs IH]; simpl; [by destruct x as [| |i' v| |]; try done; case_decide|]. rewrite IH.
  destruct x as [| |i' v| |]; try done. by destruct (decide (i' = i)).
Qed.

Lemma sstaging_step c p g xs x st st' :
  sstaging p g xs st -> (forall i v, x = SetIthSp i v -> (g_n g <= length v)%nat) ->
  do_scall c p g x st = Ret st' -> sstaging p g (xs ++ [x]) st'.
Proof.
  intros (A & B & C) Hx E.
  assert (Hsame : q_set st' = q_set st -> q_staged st' = q_staged st ->
                  (forall i, last_species i (xs ++ [x]) = last_species i xs) -> sstaging p g (xs ++ [x]) st').
  { intros E1 E2 E3. unfold sstaging. rewrite E1, E2. split_and!; [|done|].
    - intros i. by rewrite E3.
    - intros i j v. rewrite E3. apply C. }
  destruct x as [x|i|i v|t|b]; cbn [do_scall] in E.
  - destruct (do_call c g x (q_rm st)); [|done|done]. injection E as <-.
    apply Hsame; [done..|]. intros. by rewrite last_species_snoc.
  - apply Hsame; [| |by intros; rewrite last_species_snoc]; clear Hsame.
    all: unfold get_ith_species, refresh in E; destruct (q_save st && sp_range p i); [|by injection E as <-];
      case_decide; cbn [obind] in E;
      [destruct (omap_list _ _); [|done|done]; by injection E as <-|];
      (destruct (read_species _ _ _ _ _); [|done|done]); cbn [obind q_cache] in E;
      (destruct (omap_list _ _); [|done|done]); by injection E as <-.
  - unfold set_ith_species in E. destruct (sp_range p i) eqn:Er.
    2:{ injection E as <-.
        assert (E3 : forall k, (k < nspecies p)%nat -> last_species (Z.of_nat k) (xs ++ [SetIthSp i v]) = last_species (Z.of_nat k) xs).
        { intros k Hk. rewrite last_species_snoc. rewrite decide_False; [done|]. intros ->.
          assert (Ht : sp_range p (Z.of_nat k) = true) by (apply sp_range_spec; lia). congruence. }
        unfold sstaging. split_and!; [|done|].
        - intros k. rewrite A. split; intros [H1 H2]; (split; [done|]); [by rewrite E3|by rewrite E3 in H2].
        - intros k j w Hk Hj. rewrite E3 by by apply A. by apply C. }
    apply sp_range_spec in Er. set (n := g_n g) in *. set (nc := nspecies p) in *.
    remember (if decide (length (q_staged st) = (n * nc)%nat) then st
              else Sm (q_rm st) (q_save st) (q_cache st) (replicate (n * nc) 0) ∅) as st1 eqn:E1.
    assert (S1 : length (q_staged st1) = (n * nc)%nat /\ sstaging p g xs st1).
    { subst st1. case_decide as Hd; [split; [done|by split_and!]|].
      cbn [q_staged q_set]. split; [by rewrite replicate_length|].
      assert (Hemp : q_set st = ∅). { destruct (decide (q_set st = ∅)); [done|]. destruct Hd. by apply B. }
      split_and!; cbn [q_staged q_set].
      - intros k. fold nc. rewrite <- A, Hemp. done.
      - done.
      - intros k j w Hk. exfalso. by apply elem_of_empty in Hk. }
    destruct S1 as (L1 & A1 & B1 & C1).
    destruct (put_column_spec n nc (Z.to_nat i) v n 0 (q_staged st1)) as (v' & Ep & Lp & Sp); [done|lia|lia|by apply (Hx i v)|].
    cbn zeta in E. rewrite Ep in E. cbn [obind] in E. injection E as <-. clear Hsame.
    split_and!; cbn [q_set q_staged].
    + intros k. rewrite elem_of_union, elem_of_singleton, A1, last_species_snoc. fold nc.
      destruct (decide (i = Z.of_nat k)) as [->|Hne].
      * rewrite Nat2Z.id. split; [intros _; split; [lia|by eexists]|by left].
      * split; [intros [->|H]|by right]; [exfalso; apply Hne; lia|done].
    + intros _. by rewrite Lp.
    + intros k j w Hk Hj. rewrite last_species_snoc. apply elem_of_union in Hk.
      destruct (decide (i = Z.of_nat k)) as [->|Hne].
      * intros [= <-]. rewrite Sp by lia. rewrite Nat2Z.id. by rewrite decide_True by lia.
      * intros Hw. assert (Hk' : k ∈ q_set st1).
        { destruct Hk as [Hk|Hk]; [|done]. apply elem_of_singleton in Hk. exfalso. apply Hne. lia. }
        rewrite Sp; [|apply A1 in Hk'; tauto|done]. rewrite decide_False by lia. by apply C1.
  - unfold do_species in E. destruct (species_to_module _ _ _ _); [|done|done]. injection E as <-.
    apply Hsame; [done..|]. intros. by rewrite last_species_snoc.
  - injection E as <-. apply Hsame; [done..|]. intros. by rewrite last_species_snoc.
Qed.

Lemma do_scalls_app c p g xs ys st :
  do_scalls c p g (xs ++ ys) st = obind (do_scalls c p g xs st) (do_scalls c p g ys).
Proof.
  revert st. induction xs as [|x xs IH]; intros st; simpl; [done|].
  destruct (do_scall c p g x st); [|done|done]. cbn [obind]. apply IH.
Qed.
Lemma sstaging_all c p g xs st st' : q_set st = ∅ -> scolumns_ok g xs -> do_scalls c p g xs st = Ret st' ->
  sstaging p g xs st'.
Proof.
  intros He. revert st'. induction xs as [|x xs IH] using rev_ind; intros st' Hc E.
  { injection E as <-. split_and!; [|done|].
    - intros i. rewrite He. split; [by intros ?%elem_of_empty|intros [_ [v Hv]]; done].
    - intros i j v. rewrite He. by intros ?%elem_of_empty. }
  rewrite do_scalls_app in E. destruct (do_scalls c p g xs st) as [st1| |] eqn:E1; [|done|done]. cbn [obind] in E.
  simpl in E. destruct (do_scall c p g x st1) as [st2| |] eqn:E2; [|done|done]. injection E as <-.
  eapply sstaging_step; [|intros i v ->; apply (Hc i v); set_solver|exact E2].
  apply IH; [|done]. intros i v Hin. apply (Hc i v). set_solver.
Qed.

(** A solution set from species does not depend on what it held before. *)
Lemma species_in_over p g t b h o cb nd s :
  species_in p g t b (Some (sol_update h o cb nd s)) = species_in p g t b (Some s).
Proof.
  unfold species_in. destruct (vat b 0); [|done|done]. cbn [obind].
  destruct (add_all_species _ _ _ _ _ _); [|done|done]. cbn [obind].
  destruct (vat (g_por g) _); [|done|done]. cbn [obind]. destruct (vat (g_sat g) _); [|done|done]. cbn [obind].
  destruct (vat (g_rv g) _); [|done|done]. cbn [obind]. destruct (split_totals _) as [[[h' o'] cb'] nd'].
  done.
Qed.
(** [over m m']: [m'] is [m] with some solutions updated. *)
Definition over (m m' : cells) : Prop :=
  Forall2 (fun a b => b = a \/ exists s h o cb nd, a = Some s /\ b = Some (sol_update h o cb nd s)) m m'.
Lemma species_cells_over p g t back m m' : over m m' ->
  length m = length back -> species_cells p g t back m' = species_cells p g t back m.
Proof.
  intros H. revert back. induction H as [|a b m m' Hab _ IH]; intros back L; [by destruct back|].
  destruct back as [|x back]; [done|]. cbn [species_cells].
  assert (E : species_in p g t x b = species_in p g t x a).
  { destruct Hab as [-> | (s & h & o & cb & nd & -> & ->)]; [done|]. apply species_in_over. }
  rewrite E. destruct (species_in p g t x a); [|done|done]. cbn [obind]. rewrite IH; [done|]. cbn in L. lia.
Qed.
Lemma cell_in_over c g j row s s' : cell_in c g j row s = Ret s' ->
  s' = s \/ exists s0 h o cb nd, s = Some s0 /\ s' = Some (sol_update h o cb nd s0).
Proof.
  assert (Hu : forall names d s0 s1, update_with names d s0 = Ret s1 ->
             exists h o cb nd, s1 = sol_update h o cb nd s0).
  { intros names d s0 s1. unfold update_with. destruct d as [|? [|? [|? ?]]]; try done. intros [= <-]. by eauto 10. }
  unfold cell_in. destruct (decide _); [done|].
  destruct (vat (g_back g) j); [|done|done]. cbn [obind]. destruct (vat _ 0); [|done|done]. cbn [obind].
  destruct (vat (g_dens g) _); [|done|done]. cbn [obind]. destruct (vat (g_por g) _); [|done|done]. cbn [obind].
  destruct (vat (g_rv g) _); [|done|done]. cbn [obind]. destruct (vat (g_sat g) _); [|done|done]. cbn [obind].
  destruct (Qc_ltb _ _); [|intros [= ->]; by left]. destruct s as [s0|]; [|intros [= ->]; by left].
  destruct (c_h2o c).
  - unfold in_h2o. destruct row as [|w row]; [done|]. destruct (to_molars _ _ _ _); [|done|done]. cbn [obind].
    intros E. right. revert E. destruct (match c_unit c with MolL => _ | _ => _ end); [|done|done]. cbn [obind].
    match goal with |- context [match ?d with [] => UB | _ => _ end] => destruct d as [|d0 [|d1 d]] end; [done..|].
    destruct (update_with _ _ s0) as [s1| |] eqn:E1; [|done|done]. intros [= <-].
    apply Hu in E1 as (h & o & cb & nd & ->). by exists s0, h, o, cb, nd.
  - unfold in_noh2o. destruct (to_molars _ _ _ _); [|done|done]. cbn [obind]. intros E. right.
    destruct (update_with _ _ s0) as [s1| |] eqn:E1; [|done|done]. injection E as <-.
    apply Hu in E1 as (h & o & cb & nd & ->). by exists s0, h, o, cb, nd.
Qed.
Lemma set_conc_over c g t m m' : length m = length (g_back g) -> set_concentrations c g t m = Ret m' -> over m m'.
Proof.
  intros L. unfold set_concentrations. destruct (omap_list (gather_row c g t) _) as [rows| |]; [|done|done].
  cbn [obind]. intros E. pose proof (omap_list_inv _ _ _ E) as H. apply Forall2_same_length_lookup.
  pose proof (Forall2_length _ _ _ H) as L'. rewrite seq_length in L'. split; [congruence|].
  intros j x y Hx Hy. rewrite Forall2_same_length_lookup in H. destruct H as [_ H].
  assert (Hj : (j < length (g_back g))%nat) by (rewrite <- L; by eapply lookup_lt_Some).
  specialize (H j j y (lookup_seq_lt 0 _ j Hj) Hy). cbn beta in H.
  destruct (vat rows j); [|done|done]. cbn [obind] in H. unfold vat in H. rewrite Hx in H. cbn [obind] in H.
  by apply cell_in_over in H.
Qed.

Lemma set_size p (A : gset nat) : (forall i, i ∈ A -> (i < nspecies p)%nat) ->
  (forall i, (i < nspecies p)%nat -> i ∈ A) -> size A = nspecies p.
Proof.
  intros H1 H2. assert (E : A = list_to_set (seq 0 (nspecies p))).
  { apply set_eq. intros i. rewrite elem_of_list_to_set, elem_of_seq. split; [intros Hi%H1; lia|intros Hi; apply H2; lia]. }
  rewrite E, size_list_to_set by apply NoDup_seq. apply seq_length.
Qed.
Lemma set_size_lt p (A : gset nat) k : (forall i, i ∈ A -> (i < nspecies p)%nat) ->
  (k < nspecies p)%nat -> k ∉ A -> (size A < nspecies p)%nat.
Proof.
  intros H1 Hk Hn. assert (Hs : size (list_to_set (seq 0 (nspecies p)) : gset nat) = nspecies p).
  { rewrite size_list_to_set by apply NoDup_seq. apply seq_length. }
  rewrite <- Hs. apply subset_size. split.
  - intros x Hx%H1. apply elem_of_list_to_set, elem_of_seq. lia.
  - intros Hsub. apply Hn, Hsub. apply elem_of_list_to_set, elem_of_seq. lia.
Qed.

(** The state with nothing staged. *)
Definition unstaged (st : sm) : sm :=
  Sm (Rm (q_cells st) (r_cache (q_rm st)) (r_staged (q_rm st)) ∅) (q_save st) (q_cache st) (q_staged st) ∅.
Lemma run_unstaged c p g solve st :
  finish_both c p g (Sm (with_cells (solve (q_cells st)) (q_rm st)) (q_save st) (q_cache st) (q_staged st) (q_set st)) =
  run_both c p g solve (unstaged st).
Proof.
  unfold run_both, take_both, unstaged. cbn [q_rm q_save q_cache q_staged q_set r_cells r_cache r_staged r_set].
  unfold take_staged at 1. cbn [r_set]. rewrite size_empty, decide_False by lia. cbn [obind].
  unfold take_species at 1. cbn [q_set]. rewrite size_empty, decide_False by lia. cbn [obind].
  cbn [q_rm q_save q_cache q_staged q_set r_cells r_cache r_staged r_set].
  unfold finish_both, finish_run, do_get, with_cells.
  cbn [q_rm q_save q_cache q_staged q_set r_cells r_cache r_staged r_set].
  destruct (get_concentrations _ _ _ _); done.
Qed.

(** ** C76 *)

(** From a state with nothing staged, after any calls: *)
Theorem species_all_or_nothing c p g solve xs st st' :
  q_set st = ∅ -> scolumns_ok g xs -> do_scalls c p g xs st = Ret st' ->
  let given i := (i < nspecies p)%nat /\ is_Some (last_species (Z.of_nat i) xs) in
  (* every species was given, in whatever order, while species are saved: after the staged
     components, as SpeciesConcentrations2Module with the assembled array *)
  (q_save st' = true -> (0 < nspecies p)%nat -> (forall i, (i < nspecies p)%nat -> given i) ->
     exists t, sassembled (g_n g) (nspecies p) xs t /\
       run_both c p g solve st' =
       obind (take_staged c g (q_rm st')) (fun r =>
       obind (do_species p g t (Sm r true (q_cache st') (q_staged st') ∅)) (fun r =>
       run_both c p g solve (unstaged r.2)))) /\
  (* some were given but not all: an exception *)
  ((exists i, given i) -> (exists i, (i < nspecies p)%nat /\ ~ given i) ->
     forall r, take_staged c g (q_rm st') = Ret r -> run_both c p g solve st' = Throw) /\
  (* none was given: as the run with components alone *)
  ((forall i, ~ given i) ->
     run_both c p g solve st' =
     obind (run_cells c g solve (q_rm st')) (fun r =>
     let s := Sm r (q_save st') (q_cache st') (q_staged st') ∅ in
     if q_save st' then refresh p g s else Ret s)) /\
  (* in any case nothing is staged afterwards *)
  (forall st'', run_both c p g solve st' = Ret st'' -> q_set st'' = ∅ /\ r_set (q_rm st'') = ∅).
Proof.
  intros He Hc E given. destruct (sstaging_all c p g xs st st' He Hc E) as (A & B & C). split_and!.
  - intros Hsv Hpos Hall.
    assert (Hsz : size (q_set st') = nspecies p).
    { apply set_size; [intros i Hi; by apply A in Hi as [Hi _]|]. intros i Hi. apply A. by apply Hall. }
    assert (Hne : q_set st' <> ∅) by (intros E0; rewrite E0, size_empty in Hsz; lia).
    exists (q_staged st'). split.
    + split; [by apply B|]. intros i j v Hi Hj Hv. apply C; [|done..]. apply A. split; [done|by eexists].
    + unfold run_both at 1, take_both. destruct (take_staged c g (q_rm st')) as [r| |]; [|done|done]. cbn [obind].
      unfold take_species. cbn [q_set]. rewrite Hsz, decide_True by done. rewrite decide_False by tauto.
      unfold do_species. cbn [q_rm q_save q_cache q_staged q_set]. rewrite Hsv.
      destruct (species_to_module _ _ _ _) as [[c0 m0]| |]; [|done|done]. cbn [obind fst snd].
      refine (eq_trans (run_unstaged c p g solve _) _). done.
  - intros [i Hi] (k & Hk & Hnk) r Er. unfold run_both, take_both. rewrite Er. cbn [obind].
    unfold take_species. cbn [q_set]. apply A in Hi.
    rewrite decide_True.
    2:{ assert (size (q_set st') <> 0%nat); [|lia]. intros E0. apply size_empty_iff in E0. set_solver. }
    rewrite decide_True; [done|].
    assert (H := set_size_lt p (q_set st') k). assert ((size (q_set st') < nspecies p)%nat); [|lia].
    apply H; [intros j Hj; by apply A in Hj as [Hj _]|done|]. intros Hin. apply Hnk. by apply A.
  - intros Hno. assert (E0 : q_set st' = ∅).
    { apply set_eq. intros i. rewrite A. split; [intros H; by destruct (Hno i)|by intros ?%elem_of_empty]. }
    unfold run_both, take_both, run_cells. destruct (take_staged c g (q_rm st')) as [r| |]; [|done|done]. cbn [obind].
    unfold take_species. cbn [q_set]. rewrite E0, size_empty, decide_False by lia. cbn [obind].
    unfold finish_both. cbn [q_rm q_save q_cache q_staged q_set]. done.
  - intros st''. unfold run_both. destruct (take_both c p g st') as [st1| |]; [|done|done]. cbn [obind].
    unfold finish_both. destruct (finish_run _ _ _) as [r| |] eqn:Ef; [|done|done]. cbn [obind].
    assert (Hr : r_set r = ∅).
    { unfold finish_run in Ef. destruct (do_get _ _ _ _); [|done|done]. by injection Ef as <-. }
    cbn [q_save]. destruct (q_save st1); [|by intros [= <-]].
    unfold refresh. destruct (read_species _ _ _ _ _); [|done|done]. cbn [obind]. by intros [= <-].
Qed.
Print Assumptions species_all_or_nothing.

(** Staged components have no effect when species are staged too: the cells are set from the species
    alone. *)
Theorem species_win c p g st st1 : length (q_cells st) = length (g_back g) ->
  q_save st = true -> q_set st <> ∅ -> take_both c p g st = Ret st1 ->
  species_to_module (with_save true p) g (q_staged st) (q_cells st) = Ret (IRM_OK, q_cells st1).
Proof.
  intros L Hs Hn. unfold take_both. destruct (take_staged c g (q_rm st)) as [r| |] eqn:Er; [|done|done]. cbn [obind].
  unfold take_species. cbn [q_set]. rewrite decide_True.
  2:{ assert (size (q_set st) <> 0%nat); [|lia]. by intros ?%size_empty_iff%leibniz_equiv. }
  case_decide; [done|]. unfold do_species. cbn [q_rm q_save q_cache q_staged q_set]. rewrite Hs.
  unfold species_to_module, with_save. cbn [p_save].
  assert (Ho : over (q_cells st) (r_cells r)).
  { assert (Hself : over (q_cells st) (q_cells st)) by (apply Forall_Forall2_diag; apply Forall_true; by left).
    unfold take_staged in Er. case_decide; [|by injection Er as <-]. case_decide; [done|].
    unfold do_set in Er. destruct (set_concentrations _ _ _ _) as [m| |] eqn:Em; [|done|done]. injection Er as <-.
    cbn [r_cells]. by eapply set_conc_over. }
  rewrite (species_cells_over _ g _ (g_back g) _ _ Ho L).
  destruct (species_cells _ _ _ _ _) as [m| |]; [|done|done]. cbn [obind fst snd]. by intros [= <-].
Qed.
Print Assumptions species_win.

(** Values staged while species are not saved are dropped without a word. *)
Theorem species_dropped_refuted c p g solve st :
  q_save st = false -> size (q_set st) = nspecies p ->
  run_both c p g solve st =
  run_both c p g solve (Sm (q_rm st) (q_save st) (q_cache st) (q_staged st) ∅).
Proof.
  intros Hs Hn. unfold run_both, take_both. cbn [q_rm q_save q_cache q_staged q_set].
  destruct (take_staged c g (q_rm st)) as [r| |]; [|done|done]. cbn [obind].
  unfold take_species. cbn [q_set]. rewrite size_empty. rewrite (decide_False (P := (0 < 0)%nat)) by lia.
  case_decide; [rewrite decide_False by tauto|done].
  unfold do_species, species_to_module, with_save. cbn [q_save p_save q_rm q_cache q_staged q_set]. rewrite Hs.
  cbn [obind fst snd q_rm q_save q_cache q_staged q_set with_cells r_cells r_cache r_staged r_set]. by destruct r.
Qed.
Print Assumptions species_dropped_refuted.

(** ** Reading *)
Lemma read_cells_ext p f n back m m' out : map (option_map f) m = map (option_map f) m' ->
  read_cells p f n back m out = read_cells p f n back m' out.
Proof.
  revert m m' out. induction back as [|b back IH]; intros m m' out E; [done|].
  destruct m as [|[s|] m], m' as [|[s'|] m']; try done; cbn in E; [].
  injection E as E1 E2. cbn [read_cells]. unfold species_values. rewrite E1.
  destruct (Boundary.Model.put_species _ _ _); [|done|done]. cbn [obind]. destruct (scatter _ _ _ _ _); [|done|done].
  cbn [obind]. by apply IH.
Qed.
Lemma after_get_species m : map (option_map s_species) (after_get m) = map (option_map s_species) m.
Proof. unfold after_get. rewrite map_map. apply map_ext. by intros [s|]. Qed.

(** The kept vector is what the cells held when it was filled. *)
Definition sfresh (p : spcfg) (g : grid) (st : sm) : Prop :=
  q_save st = true /\ length (q_cache st) = (g_n g * nspecies p)%nat /\
  exists m old, map (option_map s_species) m = map (option_map s_species) (q_cells st) /\
    read_species (with_save true p) s_species g m old = Ret (q_cache st).

Lemma scatter_comps_length n gc d todo i out out' : scatter_comps n gc d i todo out = Ret out' -> length out' = length out.
Proof.
  revert i out. induction todo as [|todo IH]; intros i out; [by intros [= <-]|]. cbn [scatter_comps].
  unfold vat, vset. destruct (d !! i); [|done]. cbn [obind]. destruct (decide _); [|done]. cbn [obind].
  intros E%IH. by rewrite E, insert_length.
Qed.
Lemma scatter_length n nc gcs d out out' : scatter n nc gcs d out = Ret out' -> length out' = length out.
Proof.
  revert out. induction gcs as [|gc gcs IH]; intros out; [by intros [= <-]|]. cbn [scatter].
  destruct (scatter_comps _ _ _ _ _ _) as [o1| |] eqn:E1; [|done|done]. cbn [obind]. intros E%IH.
  rewrite E. by eapply scatter_comps_length.
Qed.
Lemma read_cells_length p f n back m out out' : read_cells p f n back m out = Ret out' -> length out' = length out.
Proof.
  revert m out. induction back as [|b back IH]; intros m out; [by intros [= <-]|]. cbn [read_cells].
  destruct m as [|[s|] m]; [done| |done]. destruct (species_values p f s) as [d| |]; [|done|done]. cbn [obind].
  destruct (scatter _ _ _ _ _) as [o1| |] eqn:E1; [|done|done]. cbn [obind]. intros E%IH.
  rewrite E. by eapply scatter_length.
Qed.
Lemma read_species_length p f g m old out : p_save p = true -> read_species p f g m old = Ret out ->
  length out = (g_n g * nspecies p)%nat.
Proof.
  intros Hs. unfold read_species. rewrite Hs. intros E%read_cells_length. rewrite E.
  unfold vresize. rewrite app_length, take_length, replicate_length. lia.
Qed.

Lemma sfresh_column p g st i : sfresh p g st -> sp_range p i = true ->
  exists col, get_ith_species p g i st = Ret (Some col, st) /\ length col = g_n g /\
    forall j, (j < g_n g)%nat -> col !! j = q_cache st !! (Z.to_nat i * g_n g + j)%nat.
Proof.
  intros (Hs & L & _) Hi. unfold get_ith_species. rewrite Hs, Hi, decide_True by done. cbn [andb obind].
  apply sp_range_spec in Hi.
  rewrite (omap_list_ret _ (fun j => default 0 (q_cache st !! (Z.to_nat i * g_n g + j)%nat))).
  2:{ intros j Hj. apply elem_of_seq in Hj. unfold vat.
      destruct (lookup_lt_is_Some_2 (q_cache st) (Z.to_nat i * g_n g + j)) as [x ->]; [|done]. rewrite L. nia. }
  cbn [obind]. eexists. split; [reflexivity|]. split; [by rewrite map_length, seq_length|].
  intros j Hj. rewrite seq_map_lookup by done.
  destruct (lookup_lt_is_Some_2 (q_cache st) (Z.to_nat i * g_n g + j)) as [x ->]; [|done]. rewrite L. nia.
Qed.

Lemma sfresh_reading c p g x st st' : sreading x -> sfresh p g st -> do_scall c p g x st = Ret st' -> sfresh p g st'.
Proof.
  intros Hx Hf E. pose proof Hf as (Hs & L & m & old & Em & Er). destruct x as [x|i|i v|t|b]; [| | |done|done]; cbn [do_scall] in E.
  - destruct (do_call c g x (q_rm st)) as [r| |] eqn:E1; [|done|done]. injection E as <-.
    split; [done|]. split; [done|]. cbn [q_rm q_cache]. exists m, old. split; [|done]. rewrite Em. symmetry.
    assert (H : r_cells r = q_cells st \/ r_cells r = after_get (q_cells st)).
    { destruct x as [i|i v|o|t|f]; [| | |done|done]; cbn [do_call] in E1.
      - unfold get_ith, do_get in E1. destruct (in_range c i); [|injection E1 as <-; by left]. case_decide; cbn [obind] in E1.
        + destruct (omap_list _ _); [|done|done]. injection E1 as <-. by left.
        + destruct (get_concentrations _ _ _ _); [|done|done]. cbn [obind r_cells r_cache r_staged r_set fst snd] in E1.
          destruct (omap_list _ _); [|done|done]. injection E1 as <-. by right.
      - unfold set_ith in E1. destruct (in_range c i); [|injection E1 as <-; by left]. cbn zeta in E1.
        destruct (decide _); destruct (put_column _ _ _ _ _ _); try done; injection E1 as <-; by left.
      - unfold do_get in E1. destruct (get_concentrations _ _ _ _); [|done|done]. injection E1 as <-. by right. }
    destruct H as [-> | ->]; [done|]. apply after_get_species.
  - destruct (sp_range p i) eqn:Hi.
    + destruct (sfresh_column p g st i Hf Hi) as (col & E' & _). rewrite E' in E. by injection E as <-.
    + unfold get_ith_species in E. rewrite Hi, andb_false_r in E. by injection E as <-.
  - unfold set_ith_species in E. destruct (sp_range p i); [|by injection E as <-]. cbn zeta in E.
    destruct (decide _); destruct (put_column _ _ _ _ _ _); try done; injection E as <-; exact Hf.
Qed.

(** After RunCells with species saved, and any further reads or staged values,
    GetIthSpeciesConcentration(i) is what the solutions hold now of species i in every cell; an index
    out of range is refused. *)
Theorem get_ith_species_current c p g solve xs st st1 st2 :
  q_save st = true -> run_both c p g solve st = Ret st1 ->
  Forall sreading xs -> do_scalls c p g xs st1 = Ret st2 ->
  grid_ok g -> numbers_ok p s_species (q_cells st2) -> length (q_cells st2) = length (g_back g) ->
  Forall is_Some (q_cells st2) ->
  forall i, ((0 <= i < Z.of_nat (nspecies p))%Z ->
              exists col, get_ith_species p g i st2 = Ret (Some col, st2) /\ length col = g_n g /\
                forall j gc s, covers g j gc -> q_cells st2 !! j = Some (Some s) ->
                  exists x, col !! gc = Some x /\ species_of p s_species s (Z.to_nat i) x) /\
            (~ (0 <= i < Z.of_nat (nspecies p))%Z -> get_ith_species p g i st2 = Ret (None, st2)).
Proof.
  intros Hs E1 Hx E2 Hg HN Hl Ha.
  assert (F1 : sfresh p g st1).
  { unfold run_both in E1. destruct (take_both c p g st) as [st0| |] eqn:Et; [|done|done]. cbn [obind] in E1.
    assert (Hs0 : q_save st0 = true).
    { unfold take_both in Et. destruct (take_staged _ _ _); [|done|done]. cbn [obind] in Et.
      unfold take_species in Et. cbn [q_set] in Et. case_decide; [|by injection Et as <-]. case_decide; [done|].
      unfold do_species in Et. destruct (species_to_module _ _ _ _); [|done|done]. by injection Et as <-. }
    unfold finish_both in E1. cbn [q_save q_rm q_cache q_staged] in E1.
    destruct (finish_run c g _) as [r| |]; [|done|done]. cbn [obind] in E1. rewrite Hs0 in E1.
    unfold refresh in E1. cbn [q_save q_rm q_cache q_staged q_set] in E1.
    destruct (read_species _ _ _ _ _) as [out| |] eqn:Er; [|done|done]. injection E1 as <-.
    split; [done|]. cbn [q_cache q_rm]. split; [by apply (read_species_length (with_save true p) s_species g _ _ _ eq_refl Er)|].
    exists (r_cells r), (q_cache st0). done. }
  assert (F2 : sfresh p g st2).
  { clear -Hx E2 F1. revert st1 F1 E2. induction Hx as [|x xs Hx _ IH]; intros st1 F1 E2; [by injection E2 as <-|].
    cbn [do_scalls] in E2. destruct (do_scall c p g x st1) as [st'| |] eqn:E; [|done|done].
    eapply IH; [|exact E2]. by eapply sfresh_reading. }
  intros i. split.
  - intros Hi. pose proof F2 as (Hs2 & L & m & old & Em & Er).
    destruct (sfresh_column p g st2 i F2) as (col & E & Lc & Hc); [by apply sp_range_spec|].
    exists col. split; [done|]. split; [done|]. intros j gc s Hcov Hj.
    assert (Er' : read_species (with_save true p) s_species g (q_cells st2) old = Ret (q_cache st2)).
    { rewrite <- Er. unfold read_species. cbn [p_save with_save]. by apply read_cells_ext. }
    destruct (species_read (with_save true p) s_species g (q_cells st2) old) as (out & E' & _ & Hout); [done..|].
    rewrite Er' in E'. injection E' as <-.
    assert (Hgc : (gc < g_n g)%nat).
    { destruct Hg as [(_ & H2 & _) _]. rewrite Forall_forall in H2. apply H2. by eapply covers_join. }
    destruct (Hout (Z.to_nat i) gc) as [H1 _]; [change (nspecies (with_save true p)) with (nspecies p); lia|done|].
    destruct (H1 j s Hcov Hj) as (x & Hx' & Hsp). exists x. split; [by rewrite Hc|]. exact Hsp.
  - intros Hi. unfold get_ith_species. destruct (sp_range p i) eqn:Er; [by apply sp_range_spec in Er|].
    by rewrite andb_false_r.
Qed.
Print Assumptions get_ith_species_current.

(** A run while species are not saved leaves the vector of an earlier run in place, and it is
    reported as soon as saving is switched on again. *)
Theorem get_ith_species_stale_refuted c p g solve st st1 i :
  q_save st = false -> length (q_cache st) = (g_n g * nspecies p)%nat ->
  run_both c p g solve st = Ret st1 -> (0 <= i < Z.of_nat (nspecies p))%Z ->
  exists col st2, do_scall c p g (SaveOn true) st1 = Ret st2 /\
    get_ith_species p g i st2 = Ret (Some col, st2) /\
    forall j, (j < g_n g)%nat -> col !! j = q_cache st !! (Z.to_nat i * g_n g + j)%nat.
Proof.
  intros Hs L E Hi.
  assert (Ec : q_cache st1 = q_cache st).
  { unfold run_both in E. destruct (take_both c p g st) as [st0| |] eqn:Et; [|done|done]. cbn [obind] in E.
    assert (H0 : q_save st0 = false /\ q_cache st0 = q_cache st).
    { unfold take_both in Et. destruct (take_staged _ _ _); [|done|done]. cbn [obind] in Et.
      unfold take_species in Et. cbn [q_set] in Et. case_decide; [|by injection Et as <-]. case_decide; [done|].
      unfold do_species in Et. destruct (species_to_module _ _ _ _); [|done|done]. by injection Et as <-. }
    destruct H0 as [Hs0 Hc0]. unfold finish_both in E. destruct (finish_run _ _ _); [|done|done]. cbn [obind q_save] in E.
    rewrite Hs0 in E. by injection E as <-. }
  exists (map (fun j => default 0 (q_cache st !! (Z.to_nat i * g_n g + j)%nat)) (seq 0 (g_n g))).
  eexists. split; [reflexivity|]. split.
  - unfold get_ith_species. cbn [q_save q_cache]. rewrite (proj2 (sp_range_spec p i) Hi). cbn [andb].
    rewrite Ec, decide_True by done. cbn [obind q_cache].
    rewrite (omap_list_ret _ (fun j => default 0 (q_cache st !! (Z.to_nat i * g_n g + j)%nat))); [done|].
    intros j Hj. apply elem_of_seq in Hj. unfold vat.
    destruct (lookup_lt_is_Some_2 (q_cache st) (Z.to_nat i * g_n g + j)) as [x ->]; [|done]. rewrite L. nia.
  - intros j Hj. rewrite seq_map_lookup by done.
    destruct (lookup_lt_is_Some_2 (q_cache st) (Z.to_nat i * g_n g + j)) as [x ->]; [|done]. rewrite L. nia.
Qed.
Print Assumptions get_ith_species_stale_refuted.

(** ** Concrete cases *)
Definition ex_c : cfg := Cfg MolL false ["H"%string; "O"%string; "Charge"%string; "Na"%string] [qz 1; qz 16; qz 1; qz 23] false.
Definition ex_sm (b : bool) : sm := Sm (Rm ex_m [] [] ∅) b [] [] ∅.
(** All three species given, out of order and one twice; one component given, too. *)
Definition ex_calls : list scall :=
  [SetIthSp 2 [0; qz 9; 0]; SetIthSp 1 [0; qz 3; 0]; SetIthSp 0 [0; qz 55; 0]; GetIthSp 1; SetIthSp 5 [0; 0; 0];
   SetIthSp 2 [0; qz 1; 0]].
Definition comps_given : list scall :=
  [Comp (SetIth 0 [0; qz 7; 0]); Comp (SetIth 1 [0; qz 7; 0]); Comp (SetIth 2 [0; qz 7; 0]); Comp (SetIth 3 [0; qz 7; 0])].
Definition show (o : outcome sm) : option (list nat * list (option (Q * list (string * Q))) * list Q) :=
  match o with
  | Ret st => Some (elements (q_set st),
      map (option_map (fun s => (this (s_h s), map (fun p => (p.1, this p.2)) (s_totals s)))) (q_cells st),
      map this (q_cache st))
  | _ => None
  end.
Example species_ith_case :
  scolumns_ok ex_g (comps_given ++ ex_calls) /\
  show (obind (do_scalls ex_c ex_p ex_g (comps_given ++ ex_calls) (ex_sm true)) (run_both ex_c ex_p ex_g id)) =
  Some ([], [Some (222%Q, [("H2O"%string, 0%Q); ("Na"%string, 8%Q)])], [0; 0; 0;  0; 5; 5;  0; 6; 6]%Q).
Proof.
  split; [|vm_compute; reflexivity]. intros i v H. unfold comps_given, ex_calls in H. cbn [app] in H.
  repeat (apply elem_of_cons in H as [H|H]; [first [discriminate H | injection H as -> ->; cbn; lia | idtac]|]).
  by apply elem_of_nil in H.
Qed.
Example species_ith_incomplete_case :
  obind (do_scalls ex_c ex_p ex_g (take 2 ex_calls) (ex_sm true)) (run_both ex_c ex_p ex_g id) = Throw.
Proof. vm_compute. reflexivity. Qed.
(** Saving off: the cells keep what they held. *)
Example species_dropped_case :
  exists st, do_scalls ex_c ex_p ex_g ex_calls (ex_sm false) = Ret st /\ q_save st = false /\
    size (q_set st) = nspecies ex_p /\
    show (run_both ex_c ex_p ex_g id st) = Some ([], [Some (1%Q, [("Cl"%string, 1%Q)])], []).
Proof.
  eexists. split; [vm_compute; reflexivity|]. split; [done|]. split; vm_compute; reflexivity.
Qed.
(** The solver changes the species of the cell while saving is off: the old ones are reported. *)
Definition ex_solve (m : cells) : cells := [Some (ex_sol (list_to_map [(9%Z, qz 8)]))].
Example species_stale_case :
  exists st col st2, obind (run_both ex_c ex_p ex_g id (ex_sm true)) (do_scalls ex_c ex_p ex_g [SaveOn false]) = Ret st /\
    q_save st = false /\ length (q_cache st) = (g_n ex_g * nspecies ex_p)%nat /\
    obind (run_both ex_c ex_p ex_g ex_solve st) (do_scalls ex_c ex_p ex_g [SaveOn true]) = Ret st2 /\
    get_ith_species ex_p ex_g 1 st2 = Ret (Some col, st2) /\ map this col = [0; 5; 5]%Q /\
    map (option_map (fun s => map (fun q => (q.1, this q.2)) (map_to_list (s_species s)))) (q_cells st2) =
      [Some [(9%Z, 8%Q)]].
Proof.
  do 3 eexists. split; [vm_compute; reflexivity|]. split; [done|]. split; [done|].
  split; [vm_compute; reflexivity|]. split; [vm_compute; reflexivity|]. split; vm_compute; reflexivity.
Qed.
