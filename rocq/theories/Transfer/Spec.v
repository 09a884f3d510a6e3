(** What moving cells between processes is to achieve, stated on the members of the classes without
    the encoding. *)
From Coq Require Import String Sorting.Sorted.
From stdpp Require Import prelude strings gmap.
From Verif.Names Require Import Spec.
From Verif.Partition Require Import Spec.
From Verif.Transfer Require Import Model.

Section Spec.
Context {D : Type} (dcmp : D -> D -> comparison) (d1 : D).

(** Reactants that the readers and the solver produce: names without line ends and shorter than the
    line buffer, maps in the order of their keys, maps of components under the names of the
    components. *)
Definition good_names {V} (l : list (string * V)) : Prop :=
  ordered l /\ forall n v, (n, v) ∈ l -> n <> EmptyString /\ printable n.
Definition rising (l : list (Z * D)) : Prop := StronglySorted (fun p q => (p.1 < q.1)%Z) l.

Definition good_exch_comp (x : exch_comp) : Prop :=
  printable (ec_formula x) /\ good_names (V := D) (ec_totals x) /\ printable (ec_phase x) /\ printable (ec_rate x).
Definition good_exchange (x : exchange) : Prop :=
  Forall good_exch_comp (ex_comps x) /\ good_names (V := D) (ex_totals x).
Definition good_gas_phase (x : gas_phase (D := D)) : Prop :=
  Forall (fun c => printable (gc_name c)) (gp_comps x) /\ good_names (gp_totals x).
Definition good_kin_comp (x : kin_comp (D := D)) : Prop :=
  printable (kc_rate x) /\ good_names (kc_coef x) /\ good_names (kc_reaction x).
Definition good_kinetics (x : kinetics (D := D)) : Prop :=
  Forall good_kin_comp (ki_comps x) /\ good_names (ki_totals x).
Definition good_pp_comp (x : pp_comp (D := D)) : Prop :=
  printable (pc_name x) /\ printable (pc_add x) /\ good_names (pc_totals x).
Definition good_pp (x : pp_assemblage (D := D)) : Prop :=
  ordered (pp_comps x) /\ (forall n c, (n, c) ∈ pp_comps x -> pc_name c = n /\ good_pp_comp c) /\
  good_names (pp_elts x) /\ good_names (pp_totals x).
Definition good_solid (x : solid (D := D)) : Prop :=
  printable (ss_name x) /\ Forall (fun c => printable (sc_name c)) (ss_comps x) /\ good_names (ss_totals x).
Definition good_ssa (x : ss_assemblage (D := D)) : Prop :=
  ordered (sa_list x) /\ (forall n c, (n, c) ∈ sa_list x -> ss_name c = n /\ good_solid c) /\
  good_names (sa_totals x).
Definition good_surf_comp (x : surf_comp (D := D)) : Prop :=
  printable (uc_formula x) /\ good_names (uc_totals x) /\ printable (uc_charge x) /\
  printable (uc_phase x) /\ printable (uc_rate x) /\ printable (uc_master x).
Definition good_surf_charge (x : surf_charge (D := D)) : Prop :=
  printable (uh_name x) /\ good_names (uh_dl x) /\
  StronglySorted (fun p q => dcmp p.1 q.1 = Lt) (uh_g x) /\ rising (uh_species x).
Definition good_surface (x : surface (D := D)) : Prop :=
  Forall good_surf_comp (su_comps x) /\ Forall good_surf_charge (su_charges x) /\ good_names (su_totals x).
Definition good_solution (x : solution (D := D)) : Prop :=
  good_names (so_totals x) /\ good_names (so_act x) /\ good_names (so_gamma x) /\
  ordered (so_iso x) /\
  (forall n i, (n, i) ∈ so_iso x -> printable n /\ printable (is_elt i) /\ printable (is_name i)) /\
  rising (so_species x) /\ rising (so_loggam x) /\ rising (so_logmol x).

(** What arrives. Numbers, names, amounts and flags are those of the original; a reactant arrives
    under a single number and without its description, a solution with the viscosity of pure water
    reset and without its input data, a gas phase that is not at fixed pressure at fixed volume, a
    kinetic reactant without its character parameters, a surface without the flag that the viscosity
    of the diffuse layer is to be calculated and without the concentration factors by charge. *)
Definition arrived_solution (x : solution (D := D)) : solution :=
  Solution (so_n x) (so_n x) "  " (so_new x) (so_patm x) (so_pot x) (so_tc x) (so_ph x) (so_pe x)
    (so_mu x) (so_ah2o x) (so_h x) (so_o x) (so_cb x) (so_water x) (so_dens x) (so_visc x) d1
    (so_vol x) (so_alk x) (so_totals x) (so_act x) (so_gamma x) (so_iso x) false (so_species x)
    (so_loggam x) (so_logmol x).
Definition arrived_exchange (x : exchange (D := D)) : exchange :=
  Exchange (ex_n x) (ex_n x) " " (ex_comps x) (ex_pitzer x) (ex_new x) (ex_equil x) (ex_soln x)
    (ex_totals x).
Definition arrived_gas_phase (x : gas_phase (D := D)) : gas_phase :=
  GasPhase (gp_n x) (gp_n x) " " (match gp_kind x with GP_PRESSURE => GP_PRESSURE | _ => GP_VOLUME end)
    (gp_total_p x) (gp_vol x) (gp_comps x) (gp_new x) (gp_equil x) (gp_soln x) (gp_temp x) (gp_moles x)
    (gp_vm x) (gp_pr x) (gp_totals x).
Definition arrived_kin_comp (x : kin_comp (D := D)) : kin_comp :=
  KinComp (kc_rate x) (kc_coef x) (kc_tol x) (kc_m x) (kc_m0 x) (kc_d x) [] (kc_moles x) (kc_init x)
    (kc_reaction x).
Definition arrived_kinetics (x : kinetics (D := D)) : kinetics :=
  Kinetics (ki_n x) (ki_n x) " " (map arrived_kin_comp (ki_comps x)) (ki_steps x) (ki_count x)
    (ki_equal x) (ki_divide x) (ki_rk x) (ki_bad x) (ki_cvode x) (ki_cv_steps x) (ki_cv_order x)
    (ki_totals x).
Definition arrived_pp (x : pp_assemblage (D := D)) : pp_assemblage :=
  PP (pp_n x) (pp_n x) " " (pp_new x) (pp_comps x) (pp_elts x) (pp_totals x).
Definition arrived_ssa (x : ss_assemblage (D := D)) : ss_assemblage :=
  SSA (sa_n x) (sa_n x) " " (sa_list x) (sa_new x) (sa_totals x).
Definition arrived_surf_charge (x : surf_charge (D := D)) : surf_charge :=
  SurfCharge (uh_name x) (uh_area x) (uh_grams x) (uh_cb x) (uh_water x) (uh_visc x) (uh_free x)
    (uh_la x) (uh_cap0 x) (uh_cap1 x) (uh_dl x) (uh_s0 x) (uh_s1 x) (uh_s2 x) (uh_sd x) (uh_g x) []
    (uh_species x).
Definition arrived_surface (x : surface (D := D)) : surface :=
  Surface (su_n x) (su_n x) " " (su_comps x) (map arrived_surf_charge (su_charges x)) (su_new x)
    (su_tidied x) (su_type x) (su_dl x) (su_units x) (su_only x) (su_thick x) (su_debye x) (su_visc x)
    false (su_limit x) (su_correct x) (su_trans x) (su_totals x) (su_equil x) (su_soln x).

(** The reactants of one kind that travel are stored under their numbers and are good. *)
Definition sendable {A} (num : A -> Z) (good : A -> Prop) (ks : list Z) (m : gmap Z A) : Prop :=
  forall i x, i ∈ ks -> m !! i = Some x -> num x = i /\ good x.
Definition good_cells (ks : list Z) (ph : reactants (D := D)) : Prop :=
  sendable so_n good_solution ks (ph_sol ph) /\ sendable ex_n good_exchange ks (ph_ex ph) /\
  sendable gp_n good_gas_phase ks (ph_gas ph) /\ sendable ki_n good_kinetics ks (ph_kin ph) /\
  sendable pp_n good_pp ks (ph_pp ph) /\ sendable sa_n good_ssa ks (ph_ss ph) /\
  sendable su_n good_surface ks (ph_surf ph).

(** The receiver has what arrived of the moved cells, and otherwise what it had. *)
Definition received {A} (arrive : A -> A) (ks : list Z) (from into into' : gmap Z A) : Prop :=
  forall n, into' !! n =
    match (if decide (n ∈ ks) then from !! n else None) with
    | Some x => Some (arrive x)
    | None => into !! n
    end.
(** The sender keeps the cells that were not moved, and nothing else. *)
Definition released {A} (ks : list Z) (from from' : gmap Z A) : Prop :=
  forall n, from' !! n = if decide (n ∈ ks) then None else from !! n.

(** Before a rebalancing, the reactants of a cell are on the process that owns it, stored under
    their numbers, and good. *)
Definition placed {A} (num : A -> Z) (good : A -> Prop) (count : Z) (ss es : list Z)
    (get : reactants -> gmap Z A) (ws : list (reactants (D := D))) : Prop :=
  forall p w k x, ws !! p = Some w -> (0 <= k < count)%Z -> get w !! k = Some x ->
    owns ss es p k /\ num x = k /\ good x.
Definition all_placed (count : Z) (ss es : list Z) (ws : list (reactants (D := D))) : Prop :=
  placed so_n good_solution count ss es ph_sol ws /\ placed ex_n good_exchange count ss es ph_ex ws /\
  placed gp_n good_gas_phase count ss es ph_gas ws /\ placed ki_n good_kinetics count ss es ph_kin ws /\
  placed pp_n good_pp count ss es ph_pp ws /\ placed sa_n good_ssa count ss es ph_ss ws /\
  placed su_n good_surface count ss es ph_surf ws.

(** What process [p] holds of a kind under a number. *)
Definition on {A} (get : reactants (D := D) -> gmap Z A) (ws : list (reactants (D := D))) (p : nat) (k : Z)
    : option A :=
  match ws !! p with Some w => get w !! k | None => None end.
(** Afterwards they are on the new owner and nowhere else, as they were if the cell stays where it
    is and as they arrive if it moves; what is stored under other numbers stays. *)
Definition settled {A} (arrive : A -> A) (count : Z) (ss es ss' es' : list Z)
    (get : reactants -> gmap Z A) (ws ws' : list (reactants (D := D))) : Prop :=
  (forall k o n p, (0 <= k < count)%Z -> owns ss es o k -> owns ss' es' n k ->
     on get ws' p k = if decide (p = n) then
                        (if decide (o = n) then on get ws o k else arrive <$> on get ws o k)
                      else None) /\
  (forall k p, ~ (0 <= k < count)%Z -> on get ws' p k = on get ws p k).
End Spec.
