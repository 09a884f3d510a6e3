(** The automatic output variables as the documentation describes them, and what they should show. *)
From Coq Require Import String Ascii.
From stdpp Require Import prelude strings gmap.
From Verif.SelOut Require Import Model Spec.
From Verif.Auto Require Import Model.
Open Scope string_scope.
Open Scope list_scope.

Notation chars := list_ascii_of_string.

(** What separates the names in a list given by the user, and what is cut off around them *)
Definition separator (c : ascii) : Prop := c ∈ [" "%char; "009"%char; ","%char].
Definition blank (c : ascii) : Prop := c ∈ [" "; "009"; "010"; "011"; "012"; "013"]%char.
Definition ends_in (P : ascii -> Prop) (l : list ascii) : Prop := exists l' c, l = l' ++ [c] /\ P c.
Definition starts_in (P : ascii -> Prop) (l : list ascii) : Prop := exists l' c, l = c :: l' /\ P c.

(** [x] is one of the names in the text [def]: it is not empty, has no blank at its ends, and with
    blanks around it fills the room between two separators or ends of the text. *)
Definition named (def x : string) : Prop :=
  exists a l r b, chars def = a ++ (l ++ chars x ++ r) ++ b /\
    Forall (fun c => ~ separator c) (l ++ chars x ++ r) /\
    (a = [] \/ ends_in separator a) /\ (b = [] \/ starts_in separator b) /\
    Forall blank l /\ Forall blank r /\
    x <> "" /\ ~ starts_in blank (chars x) /\ ~ ends_in blank (chars x).

(** An option says "true" or "false" in any case of letters, or lists names. *)
Definition says (v def : string) : Prop := lowered def = v.
Definition listing (def x : string) : Prop := ~ says "true" def /\ ~ says "false" def /\ named def x.
Definition asked (def : string) (all : list string) (x : string) : Prop :=
  says "true" def /\ x ∈ all \/ listing def x.

(** [y] is what goes with [x] in the last pair for [x]. *)
Definition last_with (l : list (string * string)) (x y : string) : Prop :=
  exists a b, l = a ++ (x, y) :: b /\ x ∉ b.*1.

Inductive wanted (d : opt -> string) (l : lists) : string -> punch -> Prop :=
| w_ph : says "true" (d SolutionProperties) -> wanted d l "solution_ph" P_ph
| w_pe : says "true" (d SolutionProperties) -> wanted d l "solution_pe" P_pe
| w_alk : says "true" (d SolutionProperties) -> wanted d l "solution_alkalinity" P_alk
| w_mu : says "true" (d SolutionProperties) -> wanted d l "solution_ionic_strength" P_mu
| w_water : says "true" (d SolutionProperties) -> wanted d l "solution_water_mass" P_water
| w_balance : says "true" (d SolutionProperties) -> wanted d l "solution_charge_balance" P_balance
| w_error : says "true" (d SolutionProperties) -> wanted d l "solution_percent_error" P_error
| w_sc : says "true" (d SolutionProperties) -> wanted d l "solution_specific_conductance" P_sc
| w_total x : asked (d SolutionTotalMolalities) (l_redox l) x ->
    wanted d l ("solution_total_molality_" +:+ x) (P_tot x)
| w_exchanger x : ~ says "false" (d ExchangeMolalities) -> x ∈ (l_exch l).*2 ->
    wanted d l ("exchange_total_molality_" +:+ x) (P_tot x)
| w_exchange x y : says "true" (d ExchangeMolalities) -> last_with (l_exch l) x y ->
    wanted d l ("exchange_" +:+ y +:+ "_species_log_molality_" +:+ x) (P_lm x)
| w_exchange_listed x : listing (d ExchangeMolalities) x ->
    wanted d l ("exchange_species_log_molality_" +:+ x) (P_lm x)
| w_surface_type x : ~ says "false" (d SurfaceMolalities) -> x ∈ (l_surf l).*2 ->
    wanted d l ("surface_total_molality_" +:+ x) (P_tot x)
| w_surface x y : says "true" (d SurfaceMolalities) -> last_with (l_surf l) x y ->
    wanted d l ("surface_" +:+ y +:+ "_species_log_molality_" +:+ x) (P_lm x)
| w_surface_listed x : listing (d SurfaceMolalities) x ->
    wanted d l ("surface_species_log_molality_" +:+ x) (P_lm x)
| w_phase x : asked (d EquilibriumPhases) (l_phases l) x ->
    wanted d l ("equilibrium_phases_moles_" +:+ x) (P_equi x)
| w_phase_delta x : asked (d EquilibriumPhases) (l_phases l) x ->
    wanted d l ("equilibrium_phases_delta_moles_" +:+ x) (P_equi_delta x)
| w_gas_volume x : asked (d Gases) (l_gases l) x -> wanted d l "gas_phase_volume" P_gas_volume
| w_gas x : asked (d Gases) (l_gases l) x -> wanted d l ("gas_phase_moles_" +:+ x) (P_gas x)
| w_gas_p x : asked (d Gases) (l_gases l) x -> wanted d l ("gas_phase_pressure_" +:+ x) (P_gas_p x)
| w_gas_phi x : asked (d Gases) (l_gases l) x -> wanted d l ("gas_phase_phi_" +:+ x) (P_gas_phi x)
| w_kin x : asked (d KineticReactants) (l_kin l) x ->
    wanted d l ("kinetic_reaction_moles_" +:+ x) (P_kin x)
| w_kin_delta x : asked (d KineticReactants) (l_kin l) x ->
    wanted d l ("kinetic_reaction_delta_moles_" +:+ x) (P_kin_delta x)
| w_ss x y : says "true" (d SolidSolutions) -> last_with (l_ss l) x y ->
    wanted d l ("solid_solution_" +:+ y +:+ "_moles_" +:+ x) (P_s_s x)
| w_ss_listed x : listing (d SolidSolutions) x ->
    wanted d l ("solid_solution_moles_" +:+ x) (P_s_s x)
| w_calc x : asked (d CalculateValues) (l_calc l) x ->
    wanted d l ("calculate_value_" +:+ x) (P_calc x)
| w_activity x : asked (d SolutionActivities) (l_species l) x ->
    wanted d l ("solution_species_log_activity_" +:+ x) (P_la x)
| w_species x : asked (d SolutionMolalities) (l_species l) x ->
    wanted d l ("solution_species_log_molality_" +:+ x) (P_lm x)
| w_si x : asked (d SaturationIndices) (l_si l) x ->
    wanted d l ("solution_saturation_index_" +:+ x) (P_si x).

(** The table that a run of the definition makes when the BASIC functions give [sol]: what is
    punched goes under the headings in turn (phreeqcpp/PHRQ_io_output.cpp 118-190). *)
Definition punched {D} (its : list (string * punch)) (sol : punch -> D) (t : table D) : Prop :=
  made (map (fun q => Punch q.1 (VDbl (sol q.2))) its ++ [End]) t.

(** The runs of RunCells: every definition makes a table, 333 the one above. The dummy run is the
    cell 0 run of each worker that RunCells does first. *)
Record auto_run {D} (its : list (string * punch)) (defs : list Z) (dummy : smap (D := D))
    (wet : nat -> bool) (run : nat -> option (smap (D := D))) (count : nat) (sol : nat -> punch -> D) : Prop := {
  ar_dummy : forall n t, (n, t) ∈ dummy -> exists es, made es t;
  ar_heads : exists t0 sol0, (bmi_number, t0) ∈ dummy /\ punched its sol0 t0;
  ar_run : forall i, i < count -> wet i = true -> exists sm, run i = Some sm /\ run_tables defs sm /\
             forall t, (bmi_number, t) ∈ sm -> punched its (sol i) t }.
