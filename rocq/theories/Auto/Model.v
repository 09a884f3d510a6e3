(** Output variables that the BMI class makes by itself: one selected output, number 333, with a
    column for every variable.

    Source: src/VarManager.cpp 88-116 (defaults), 1632-2364 (GenerateAutoOutputVars), 2365-2430
    (ProcessAutoOutputVarDef, tokenize, AddOutputVars, GetOutputVarsEnum), src/RMVARS.h 46-61 (order
    of the options), src/BMIPhreeqcRM.cpp 280-284, 399-403, 684-712, 811-834, 939-962 (GetValue), src/PhreeqcRM.cpp 3261, 9940.

    Thread build, error handler mode 0. Doubles are an arbitrary type. The text of the definition is
    taken at its meaning: a list of headings and, in the same order, what is punched under each;
    names with blanks, quotes or semicolons are outside. Another definition under the number 333 is
    outside too. *)
From Coq Require Import String Ascii.
From stdpp Require Import prelude strings gmap.
From Verif.Base Require Import Result.
From Verif.Names Require Import Model.
From Verif.Reactant Require Model.
From Verif.Find Require Model.
From Verif.SelOut Require Import Model Select.
Open Scope string_scope.
Open Scope list_scope.

Notation lowered := Reactant.Model.lowered.
Notation ins := Find.Model.ins.
Notation inss := Find.Model.inss.

(** OUTPUTVARS, RMVARS.h 46-60 *)
Inductive opt :=
| AddOutputVars | SolutionProperties | SolutionTotalMolalities | ExchangeMolalities
| SurfaceMolalities | EquilibriumPhases | Gases | KineticReactants | SolidSolutions
| CalculateValues | SolutionActivities | SolutionMolalities | SaturationIndices.
Global Instance opt_eq_dec : EqDecision opt.
Proof. solve_decision. Defined.

(** OutputVarsEnumMap, VarManager.cpp 89-101 *)
Definition opt_names : list (string * opt) :=
  [("addoutputvars", AddOutputVars); ("solutionproperties", SolutionProperties);
   ("solutiontotalmolalities", SolutionTotalMolalities); ("solutionmolalities", SolutionMolalities);
   ("solutionactivities", SolutionActivities); ("exchangemolalities", ExchangeMolalities);
   ("surfacemolalities", SurfaceMolalities); ("equilibriumphases", EquilibriumPhases);
   ("saturationindices", SaturationIndices); ("gases", Gases);
   ("kineticreactants", KineticReactants); ("solidsolutions", SolidSolutions);
   ("calculatevalues", CalculateValues)].
(** AutoOutputVarsDefs as the constructor fills it, 102-115 *)
Definition default_defs (o : opt) : string :=
  match o with
  | SolutionMolalities | SolutionActivities | SaturationIndices => "false"
  | _ => "true"
  end.
(** AddOutputVars and GetOutputVarsEnum, 2411-2430 *)
Fixpoint find_opt (s : string) (l : list (string * opt)) : option opt :=
  match l with
  | [] => None
  | (n, o) :: l' => if String.eqb n s then Some o else find_opt s l'
  end.
Definition add_output_vars (option def : string) (d : opt -> string) : opt -> string :=
  match find_opt (lowered option) opt_names with
  | Some o => fun o' => if decide (o' = o) then def else d o'
  | None => d
  end.

(** ProcessAutoOutputVarDef, 2365-2383 *)
Inductive answer := Unknown | No | Yes | Some_of.
Definition process (tf_only : bool) (def : string) : answer :=
  if String.eqb (lowered def) "false" then No
  else if String.eqb (lowered def) "true" then Yes
  else if tf_only then Unknown else Some_of.

(** isspace in the "C" locale *)
Definition is_space (c : ascii) : bool :=
  let n := N_of_ascii c in ((n =? 32) || ((9 <=? n) && (n <=? 13)))%N.
(** trim_left, trim_right, Parser.h 287-307 *)
Fixpoint trim_left (s : string) : string :=
  match s with
  | EmptyString => EmptyString
  | String c s' => if is_space c then trim_left s' else s
  end.
Fixpoint trim_right (s : string) : string :=
  match s with
  | EmptyString => EmptyString
  | String c s' =>
      match trim_right s' with
      | EmptyString => if is_space c then EmptyString else String c EmptyString
      | r => String c r
      end
  end.
(** tokenize, 2384-2410: tabs and commas become blanks, then getline with the blank as delimiter *)
Definition is_delimiter (c : ascii) : bool :=
  Ascii.eqb c " " || Ascii.eqb c "009" || Ascii.eqb c ",".
Fixpoint split (acc s : string) : list string :=
  match s with
  | EmptyString => [acc]
  | String c s' =>
      if is_delimiter c then acc :: split EmptyString s'
      else split (String.append acc (String c EmptyString)) s'
  end.
Definition not_empty (s : string) : bool := negb (String.eqb s "").
Definition tokenize (def : string) : list string :=
  inss (filter (fun s => not_empty s = true) (map (fun s => trim_left (trim_right s)) (split "" def))) [].

(** What a column is to show: the BASIC function that is punched *)
Inductive punch :=
| P_ph | P_pe | P_alk | P_mu | P_water | P_balance | P_error | P_sc
| P_tot (s : string) | P_lm (s : string) | P_la (s : string) | P_equi (s : string)
| P_equi_delta (s : string) | P_si (s : string) | P_gas_volume | P_gas (s : string)
| P_gas_p (s : string) | P_gas_phi (s : string) | P_kin (s : string) | P_kin_delta (s : string)
| P_s_s (s : string) | P_calc (s : string).

(** The lists that FindComponents has left: ElementRedoxSet (a set), species_names, the species of
    exchangers and surfaces with the names of the exchanger and of the surface type, the phases,
    SINamesList, the gas components, the kinetic reactions, the solid-solution components with
    the name of the solid solution, and the names of CALCULATE_VALUES. *)
Record lists := Lists {
  l_redox : list string; l_species : list string;
  l_exch : list (string * string); l_surf : list (string * string);
  l_phases : list string; l_si : list string; l_gases : list string; l_kin : list string;
  l_ss : list (string * string); l_calc : list string }.

(** item_set of an option that takes "true", "false" or a list of names *)
Definition item_set (def : string) (all : list string) : list string :=
  match process false def with
  | Yes => inss all []
  | Some_of => tokenize def
  | _ => []
  end.
Definition item_map (l : list (string * string)) : nmap string :=
  fold_left (fun m p => nd_set p.1 p.2 m) l [].
(** item_map[x]: a name that is not there gives the empty string *)
Definition mapped (m : nmap string) (x : string) : string := default "" (nd_find x m).

Definition properties : list (string * punch) :=
  [("solution_ph", P_ph); ("solution_pe", P_pe); ("solution_alkalinity", P_alk);
   ("solution_ionic_strength", P_mu); ("solution_water_mass", P_water);
   ("solution_charge_balance", P_balance); ("solution_percent_error", P_error);
   ("solution_specific_conductance", P_sc)].

(** The exchange and surface options, 1884-1961 and 1962-2024: the totals of all exchangers or
    surface types, then the species *)
Definition sorbed (def pre : string) (l : list (string * string)) : list (string * punch) :=
  match process false def with
  | No | Unknown => []
  | a =>
      let m := match a with Yes => item_map l | _ => [] end in
      map (fun x => (pre +:+ "total_molality_" +:+ x, P_tot x)) (inss (map snd l) []) ++
      map (fun x => (match m with
                     | [] => pre +:+ "species_log_molality_" +:+ x
                     | _ => pre +:+ mapped m x +:+ "_species_log_molality_" +:+ x
                     end, P_lm x)) (item_set def (map fst l))
  end.

(** One option, 1643-2330: the names and what is punched under them *)
Definition vars_of (d : opt -> string) (l : lists) (o : opt) : list (string * punch) :=
  match o with
  | AddOutputVars => []
  | SolutionProperties => match process true (d o) with Yes => properties | _ => [] end
  | SolutionTotalMolalities =>
      map (fun x => ("solution_total_molality_" +:+ x, P_tot x)) (item_set (d o) (l_redox l))
  | SolutionMolalities =>
      map (fun x => ("solution_species_log_molality_" +:+ x, P_lm x)) (item_set (d o) (l_species l))
  | SolutionActivities =>
      map (fun x => ("solution_species_log_activity_" +:+ x, P_la x)) (item_set (d o) (l_species l))
  | ExchangeMolalities => sorbed (d o) "exchange_" (l_exch l)
  | SurfaceMolalities => sorbed (d o) "surface_" (l_surf l)
  | EquilibriumPhases =>
      flat_map (fun x => [("equilibrium_phases_moles_" +:+ x, P_equi x);
                          ("equilibrium_phases_delta_moles_" +:+ x, P_equi_delta x)])
        (item_set (d o) (l_phases l))
  | SaturationIndices =>
      map (fun x => ("solution_saturation_index_" +:+ x, P_si x)) (item_set (d o) (l_si l))
  | Gases =>
      match item_set (d o) (l_gases l) with
      | [] => []
      | xs => ("gas_phase_volume", P_gas_volume) ::
          flat_map (fun x => [("gas_phase_moles_" +:+ x, P_gas x); ("gas_phase_pressure_" +:+ x, P_gas_p x);
                              ("gas_phase_phi_" +:+ x, P_gas_phi x)]) xs
      end
  | KineticReactants =>
      flat_map (fun x => [("kinetic_reaction_moles_" +:+ x, P_kin x);
                          ("kinetic_reaction_delta_moles_" +:+ x, P_kin_delta x)])
        (item_set (d o) (l_kin l))
  | SolidSolutions =>
      let m := match process false (d o) with Yes => item_map (l_ss l) | _ => [] end in
      map (fun x => (match m with
                     | [] => "solid_solution_moles_" +:+ x
                     | _ => "solid_solution_" +:+ mapped m x +:+ "_moles_" +:+ x
                     end, P_s_s x)) (item_set (d o) (map fst (l_ss l)))
  | CalculateValues =>
      map (fun x => ("calculate_value_" +:+ x, P_calc x)) (item_set (d o) (l_calc l))
  end.
(** The options in the order of the map AutoOutputVarsDefs *)
Definition opts : list opt :=
  [SolutionProperties; SolutionTotalMolalities; ExchangeMolalities; SurfaceMolalities;
   EquilibriumPhases; Gases; KineticReactants; SolidSolutions; CalculateValues;
   SolutionActivities; SolutionMolalities; SaturationIndices].
Definition items (d : opt -> string) (l : lists) : list (string * punch) :=
  flat_map (vars_of d l) opts.

(** AutoOutputVars: lower-case name to name and column. [AutoOutputVars[name_lc] = bv] with
    [bv.SetColumn(column++)]; the map is not cleared first (line 1641 is a comment). *)
Fixpoint record (column : nat) (its : list (string * punch)) (m : gmap string (string * nat))
  : gmap string (string * nat) :=
  match its with
  | [] => m
  | (n, _) :: its' => record (S column) its' (<[lowered n := (n, column)]> m)
  end.

Definition bmi_number : Z := 333.

Record bmi (D : Type) := Bmi {
  b_defs : opt -> string;
  b_vars : gmap string (string * nat);      (* AutoOutputVars *)
  b_items : list (string * punch);          (* the definition 333 of the workers *)
  b_cache : list D;                         (* BMISelectedOutput *)
  b_sel : sel D }.                          (* the selected outputs of the workers *)
Arguments Bmi {D} _ _ _ _ _. Arguments b_defs {D} _ _. Arguments b_vars {D} _. Arguments b_items {D} _.
Arguments b_cache {D} _. Arguments b_sel {D} _.

Section Bmi.
Context {D : Type} (inactive : D) (of_long : Z -> D) (zero : D).
Notation bmi := (bmi D).

(** BMIPhreeqcRM::GenerateAutoOutputVars, 280-284, called at the end of FindComponents. [ok] tells
    whether RunString accepts the definition; its result is not looked at. *)
Definition generate (ok : bool) (l : lists) (st : bmi) : bmi :=
  let s := b_sel st in
  match process true (b_defs st AddOutputVars) with
  | Yes =>
      let its := items (b_defs st) l in
      let made := ok && negb (bool_decide (its = [])) in
      let s := if made then define bmi_number s else s in
      Bmi (b_defs st) (record 0 its (b_vars st)) (if made then its else b_items st) (b_cache st)
          (set_current s bmi_number).2
  | _ => Bmi (b_defs st) (b_vars st) (b_items st) (b_cache st) (set_current s bmi_number).2
  end.

(** GetSelectedOutput into the cache with the number 333, 693-699. What an exception after the
    resize leaves in the vector is not tracked. *)
Definition fetch (nxyz : nat) (bwd : list (list nat)) (st : bmi) : outcome bmi :=
  match b_cache st with
  | [] =>
      let s := (set_current (b_sel st) bmi_number).2 in
      obind (get_selected_output inactive of_long zero nxyz bwd (z_cur s) (z_tabs s) []) (fun r =>
      match r.2 with
      | Some so => Ret (Bmi (b_defs st) (b_vars st) (b_items st) so (set_current s (z_cur (b_sel st))).2)
      | None => UB
      end)
  | _ => Ret st
  end.
(** memcpy of nxyz doubles from BMISelectedOutput[column * nxyz], 700-703 *)
Fixpoint copy (v : list D) (from n : nat) : outcome (list D) :=
  match n with
  | O => Ret []
  | S n' => match v !! from with
            | Some x => obind (copy v (S from) n') (fun r => Ret (x :: r))
            | None => UB
            end
  end.
(** GetValue(name, void* ), 618-712, and the same in those for double*, 784-839, and std::vector<double>, 923-965, for
    a name that is not one of the fixed variables *)
Definition get_value (nxyz : nat) (bwd : list (list nat)) (name : string) (st : bmi)
  : outcome (list D * bmi) :=
  match b_vars st !! lowered name with
  | None => Throw
  | Some (_, column) =>
      obind (fetch nxyz bwd st) (fun st =>
      obind (copy (b_cache st) (column * nxyz) nxyz) (fun v => Ret (v, st)))
  end.

(** The end of GetOutputVarNames, 399-403: the recorded names; their order is not modelled *)
Definition auto_names (st : bmi) : list string := map (fun p => p.2.1) (map_to_list (b_vars st)).

(** RunCells: the tables change (Select.v) and the cache is cleared, PhreeqcRM.cpp 9940. *)
Inductive bmi_ran (on : bool) (dummy : smap (D := D)) wet run splits : bmi -> bmi -> Prop :=
| bmi_ran_cells st s' : ran on dummy wet run splits (b_sel st) s' ->
    bmi_ran on dummy wet run splits st (Bmi (b_defs st) (b_vars st) (b_items st) [] s').

(** Calls that leave the tables and definitions alone. An unknown name makes GetValue throw without
    changing anything. *)
Inductive quiet := Choose (c : choose) | Value (name : string).
Definition do_quiet (nxyz : nat) (bwd : list (list nat)) (q : quiet) (st : bmi) : outcome bmi :=
  match q with
  | Choose c => Ret (Bmi (b_defs st) (b_vars st) (b_items st) (b_cache st) (do_choose c (b_sel st)))
  | Value name =>
      match get_value nxyz bwd name st with
      | Ret r => Ret r.2
      | Throw => Ret st
      | UB => UB
      end
  end.
Fixpoint do_quiets (nxyz : nat) (bwd : list (list nat)) (qs : list quiet) (st : bmi) : outcome bmi :=
  match qs with
  | [] => Ret st
  | q :: qs' => obind (do_quiet nxyz bwd q st) (do_quiets nxyz bwd qs')
  end.
End Bmi.
