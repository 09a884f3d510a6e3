(** From the instances of the workers to the dump file and back: what DumpModule collects before it
    writes (PhreeqcRM.cpp 2475-2484), which reactant is written at which place, and the reading of the
    file by a PHREEQC instance.

    The order of writing is that of [Verif.Files.Model], the lines and their reading those of
    [Verif.Raw.Model]; here the two are joined. The pieces in which the text is written are pieces of
    lists of lines here, not of characters. *)
From Coq Require Import ZArith String.
From stdpp Require Import prelude strings gmap sorting.
From Verif.Base Require Import Result.
From Verif.Files Require Model.
From Verif.Transfer Require Import Model.
From Verif.Raw Require Import Model.
Open Scope Z_scope.
Open Scope list_scope.

Notation kind := Files.Model.kind.

Section Reload.
Context {D : Type}.
Local Notation solution := (solution (D := D)).
Local Notation exchange := (exchange (D := D)).
Local Notation gas_phase := (gas_phase (D := D)).
Local Notation kinetics := (kinetics (D := D)).
Local Notation pp_assemblage := (pp_assemblage (D := D)).
Local Notation ss_assemblage := (ss_assemblage (D := D)).
Local Notation surface := (surface (D := D)).
Local Notation mixture := (mixture (D := D)).
Local Notation reaction := (reaction (D := D)).
Local Notation steps := (steps (D := D)).
Local Notation reactants := (reactants (D := D)).
Local Notation entity := (entity (D := D)).

(** A std::map is gone through in the order of its keys. *)
Definition by_key {A} (p q : Z * A) : Prop := p.1 <= q.1.
Local Instance by_key_dec {A} (p q : Z * A) : Decision (by_key p q) := Z.le_dec p.1 q.1.
Definition entries {A} (m : gmap Z A) : list (Z * A) := merge_sort by_key (map_to_list m).
(** Every element [x] of a map is entered under its own number; [new] says what, given what is there. *)
Definition put_all {A} (num : A -> Z) (new : option A -> A -> A) (from to : gmap Z A) : gmap Z A :=
  fold_left (fun b p => <[num p.2 := new (b !! num p.2) p.2]> b) (entries from) to.

(** Set_n_user_both (NumKeyword.h 45-48) as called by Set_Solution ... Set_Surface of the storage bin
    (StorageBin.cxx 448-455, 477-484, 535-542, 593-600, 506-513, 564-571, 622-629), with the number that the
    reactant has already. *)
Definition both_sol (x : solution) : solution :=
  Solution (so_n x) (so_n x) (so_text x) (so_new x) (so_patm x) (so_pot x) (so_tc x) (so_ph x) (so_pe x) (so_mu x)
    (so_ah2o x) (so_h x) (so_o x) (so_cb x) (so_water x) (so_dens x) (so_visc x) (so_visc0 x) (so_vol x)
    (so_alk x) (so_totals x) (so_act x) (so_gamma x) (so_iso x) (so_initial x) (so_species x) (so_loggam x)
    (so_logmol x).
Definition both_ex (x : exchange) : exchange :=
  Exchange (ex_n x) (ex_n x) (ex_text x) (ex_comps x) (ex_pitzer x) (ex_new x) (ex_equil x) (ex_soln x)
    (ex_totals x).
Definition both_gas (x : gas_phase) : gas_phase :=
  GasPhase (gp_n x) (gp_n x) (gp_text x) (gp_kind x) (gp_total_p x) (gp_vol x) (gp_comps x) (gp_new x)
    (gp_equil x) (gp_soln x) (gp_temp x) (gp_moles x) (gp_vm x) (gp_pr x) (gp_totals x).
Definition both_kin (x : kinetics) : kinetics :=
  Kinetics (ki_n x) (ki_n x) (ki_text x) (ki_comps x) (ki_steps x) (ki_count x) (ki_equal x) (ki_divide x)
    (ki_rk x) (ki_bad x) (ki_cvode x) (ki_cv_steps x) (ki_cv_order x) (ki_totals x).
Definition both_pp (x : pp_assemblage) : pp_assemblage :=
  PP (pp_n x) (pp_n x) (pp_text x) (pp_new x) (pp_comps x) (pp_elts x) (pp_totals x).
Definition both_ss (x : ss_assemblage) : ss_assemblage :=
  SSA (sa_n x) (sa_n x) (sa_text x) (sa_list x) (sa_new x) (sa_totals x).
Definition both_surf (x : surface) : surface :=
  Surface (su_n x) (su_n x) (su_text x) (su_comps x) (su_charges x) (su_new x) (su_tidied x) (su_type x)
    (su_dl x) (su_units x) (su_only x) (su_thick x) (su_debye x) (su_visc x) (su_calc x) (su_limit x)
    (su_correct x) (su_trans x) (su_totals x) (su_equil x) (su_soln x).
(** ... and by Set_Mix ... Set_Pressure (StorageBin.cxx 652-658, 681-687, 711-717, 737-743) *)
Definition both_mix (x : mixture) : mixture := Mixture (mi_n x) (mi_n x) (mi_text x) (mi_comps x).
Definition both_react (x : reaction) : reaction :=
  Reaction (rx_n x) (rx_n x) (rx_text x) (rx_units x) (rx_list x) (rx_elts x) (rx_steps x) (rx_count x) (rx_equal x).
Definition both_steps (x : steps) : steps :=
  Steps (st_n x) (st_n x) (st_text x) (st_list x) (st_count x) (st_equal x).

(** Phreeqc::phreeqc2cxxStorageBin, structures.cpp 3016-3114, into an empty bin: every reactant of every
    map is entered under the number it carries, whatever its key. *)
Definition take_all (w : reactants) : reactants :=
  Reactants (put_all so_n (fun _ x => both_sol x) (ph_sol w) ∅) (put_all ex_n (fun _ x => both_ex x) (ph_ex w) ∅)
    (put_all gp_n (fun _ x => both_gas x) (ph_gas w) ∅) (put_all ki_n (fun _ x => both_kin x) (ph_kin w) ∅)
    (put_all pp_n (fun _ x => both_pp x) (ph_pp w) ∅) (put_all sa_n (fun _ x => both_ss x) (ph_ss w) ∅)
    (put_all su_n (fun _ x => both_surf x) (ph_surf w) ∅)
    (put_all st_n (fun _ x => both_steps x) (ph_temp w) ∅) (put_all st_n (fun _ x => both_steps x) (ph_press w) ∅)
    (put_all mi_n (fun _ x => both_mix x) (ph_mix w) ∅) (put_all rx_n (fun _ x => both_react x) (ph_react w) ∅).

(** The constructors that mix the unsaturated part, taken first, and the saturated part with a weight of
    1 each and give the result a number: cxxExchange(map, mix, n), ...; what they compute is the subject of
    [Verif.Reactant], here they are arbitrary. *)
Record joins := Joins {
  j_ex : exchange -> exchange -> Z -> exchange; j_gas : gas_phase -> gas_phase -> Z -> gas_phase;
  j_kin : kinetics -> kinetics -> Z -> kinetics; j_pp : pp_assemblage -> pp_assemblage -> Z -> pp_assemblage;
  j_ss : ss_assemblage -> ss_assemblage -> Z -> ss_assemblage; j_surf : surface -> surface -> Z -> surface
}.
Definition join_with {A} (num : A -> Z) (j : A -> A -> Z -> A) (sz : option A) (uz : A) : A :=
  match sz with None => uz | Some sz => j uz sz (num uz) end.
(** cxxStorageBin::Add_uz, StorageBin.cxx 195-338: the unsaturated parts are added to the bin; those of the
    solutions are not, nor the mixes, reactions, temperatures and pressures. *)
Definition add_uz (j : joins) (u b : reactants) : reactants :=
  Reactants (ph_sol b) (put_all ex_n (join_with ex_n (j_ex j)) (ph_ex u) (ph_ex b))
    (put_all gp_n (join_with gp_n (j_gas j)) (ph_gas u) (ph_gas b))
    (put_all ki_n (join_with ki_n (j_kin j)) (ph_kin u) (ph_kin b))
    (put_all pp_n (join_with pp_n (j_pp j)) (ph_pp u) (ph_pp b))
    (put_all sa_n (join_with sa_n (j_ss j)) (ph_ss u) (ph_ss b))
    (put_all su_n (join_with su_n (j_surf j)) (ph_surf u) (ph_surf b)) (ph_temp b) (ph_press b) (ph_mix b)
    (ph_react b).

(** A worker: the reactants of its instance, and its uz_bin *)
Definition worker : Type := reactants * reactants.
(** PhreeqcRM.cpp 2477-2484; [uz] is partition_uz_solids *)
Definition bin (j : joins) (uz : bool) (w : worker) : reactants :=
  if uz then add_uz j w.2 (take_all w.1) else take_all w.1.

(** Rxn_dump_raw_range, Phreeqc.h 1912-1926: [b.find(i)], for each of the maps (StorageBin.cxx 917-952), of
    which that of the pressures is none *)
Definition at_place (bins : list reactants) (it : nat * kind * Z) : option entity :=
  match bins !! it.1.1 with
  | None => None
  | Some b =>
    match it.1.2 with
    | Files.Model.Solution => ESolution <$> ph_sol b !! it.2
    | Files.Model.Exchange => EExchange <$> ph_ex b !! it.2
    | Files.Model.GasPhase => EGas <$> ph_gas b !! it.2
    | Files.Model.Kinetics => EKinetics <$> ph_kin b !! it.2
    | Files.Model.PPassemblage => EPP <$> ph_pp b !! it.2
    | Files.Model.SSassemblage => ESS <$> ph_ss b !! it.2
    | Files.Model.Surface => ESurface <$> ph_surf b !! it.2
    | Files.Model.Mix => EMix <$> ph_mix b !! it.2
    | Files.Model.Reaction => EReaction <$> ph_react b !! it.2
    | Files.Model.Temperature => ETemp <$> ph_temp b !! it.2
    | Files.Model.Pressure => None
    end
  end.
(** The lines written at a place *)
Definition lines_at (rnd : D -> D) (bins : list reactants) (it : nat * kind * Z) : option (list phys) :=
  dump_entity rnd <$> at_place bins it.

(** DumpModule, PhreeqcRM.cpp 2443-2618 *)
Definition dump_workers (j : joins) (rnd : D -> D) (uz append : bool) (ws : list worker)
    (ranges : list (Z * Z)) (gzblock : nat) (fails : nat -> bool)
    (block : Z) (old : option (list phys)) : list (list phys) * irm_result :=
  Files.Model.dump_module gzblock fails append (lines_at rnd (bin j uz <$> ws)) block ranges old.
End Reload.
