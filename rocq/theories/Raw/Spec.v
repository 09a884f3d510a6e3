(** What reading a dump back is to achieve, stated on the members of the classes without the format. *)
From Coq Require Import Ascii String Sorting.Sorted.
From stdpp Require Import prelude strings gmap.
From Verif.Names Require Import Spec.
From Verif.Transfer Require Import Model.
From Verif.Raw Require Import Model.

Section Spec.
Context {D : Type} (dcmp : D -> D -> comparison) (lit : string -> D) (rnd : D -> D).

(** ** Names *)

Definition space (c : ascii) : Prop := c = " "%char \/ (9 <= nat_of_ascii c <= 13)%nat.
Fixpoint no_space (s : string) : Prop :=
  match s with EmptyString => True | String c s' => ~ space c /\ no_space s' end.
(** One word. *)
Definition word (s : string) : Prop := s <> EmptyString /\ no_space s.
Definition word_or_none (s : string) : Prop := s = EmptyString \/ word s.

(** Letters of either case are the same. *)
Definition low (c : ascii) : ascii :=
  if decide (65 <= nat_of_ascii c <= 90)%nat then ascii_of_nat (nat_of_ascii c + 32) else c.
Fixpoint lows (s : string) : string :=
  match s with EmptyString => EmptyString | String c s' => String (low c) (lows s') end.
(** A name that starts like an option: "-" and a letter. *)
Definition like_option (s : string) : Prop :=
  match s with
  | String d (String c _) => d = "-"%char /\ (97 <= nat_of_ascii (low c) <= 122)%nat
  | _ => False
  end.
(** A name that cannot be taken for anything else at the start of a line: a word that is no keyword, does
    not look like an option and is not the name of one of the options [opts]. *)
Definition plain_name (keys opts : list string) (s : string) : Prop :=
  word s /\ ~ like_option s /\ lows s ∉ keys /\ lows s ∉ opts.
Definition plain_names {V} (keys opts : list string) (l : list (string * V)) : Prop :=
  ordered l /\ forall n v, (n, v) ∈ l -> plain_name keys opts n.
Definition rising (l : list (Z * D)) : Prop := StronglySorted (fun p q => (p.1 < q.1)%Z) l.
(** No two names differ only in case. *)
Definition distinct (l : list string) : Prop := NoDup (lows <$> l).

(** ** What is read back: every double as it is after printing and reading *)

Definition rnds (l : list (string * D)) : list (string * D) := (fun p => (p.1, rnd p.2)) <$> l.
Definition irnds (l : list (Z * D)) : list (Z * D) := (fun p => (p.1, rnd p.2)) <$> l.
(** A description without leading blanks. *)
Definition starts_blank (s : string) : Prop := match s with String c _ => space c | EmptyString => False end.
Definition stripped (s t : string) : Prop :=
  exists b, s = (b ++ t)%string /\ ~ starts_blank t /\ (forall i c, String.get i b = Some c -> space c).
Definition sorted_by {A} (name : A -> string) (l l' : list A) : Prop :=
  l ≡ₚ l' /\ StronglySorted (fun a b => before (name a) (name b)) l'.

Definition restored_exch_comp (x : exch_comp) : exch_comp :=
  ExchComp (ec_formula x) (rnds (ec_totals x)) (rnd (ec_la x)) (rnd (ec_cb x)) (ec_phase x) (rnd (ec_prop x))
    (ec_rate x) (rnd (ec_z x)).
(** Components sorted; no longer newly defined, nor to be equilibrated *)
Definition restored_exchange (x y : exchange) : Prop :=
  exists text comps, stripped (ex_text x) text /\ sorted_by ec_formula (restored_exch_comp <$> ex_comps x) comps /\
  y = Exchange (ex_n x) (ex_n x) text comps (ex_pitzer x) false false (ex_soln x) [].

(** The partial pressure is lost *)
Definition restored_gas_comp (x : gas_comp) : gas_comp :=
  GasComp (gc_name x) (rnd (gc_moles x)) (rnd (gc_pread x)) (rnd (gc_init x)) (lit "0") (rnd (gc_phi x))
    (rnd (gc_f x)).
Definition restored_gas_phase (x y : gas_phase) : Prop :=
  exists text, stripped (gp_text x) text /\
  y = GasPhase (gp_n x) (gp_n x) text (gp_kind x) (rnd (gp_total_p x)) (rnd (gp_vol x))
        (restored_gas_comp <$> gp_comps x) (gp_new x) (gp_equil x) (gp_soln x) (rnd (gp_temp x))
        (rnd (gp_moles x)) (rnd (gp_vm x)) (gp_pr x) (rnds (gp_totals x)).

(** The character parameters and the moles of reaction are lost *)
Definition restored_kin_comp (x : kin_comp) : kin_comp :=
  KinComp (kc_rate x) (rnds (kc_coef x)) (rnd (kc_tol x)) (rnd (kc_m x)) (rnd (kc_m0 x)) (rnd <$> kc_d x) []
    (rnd (kc_moles x)) (rnd (kc_init x)) [].
Definition restored_kinetics (x y : kinetics) : Prop :=
  exists text, stripped (ki_text x) text /\
  y = Kinetics (ki_n x) (ki_n x) text (restored_kin_comp <$> ki_comps x) (rnd <$> ki_steps x) (ki_count x)
        (ki_equal x) (rnd (ki_divide x)) (ki_rk x) (ki_bad x) (ki_cvode x) (ki_cv_steps x) (ki_cv_order x)
        (rnds (ki_totals x)).

(** Of a phase that may only dissolve and only precipitate, the former is lost *)
Definition restored_pp_comp (x : pp_comp) : pp_comp :=
  PPComp (pc_name x) (pc_add x) (rnd (pc_si x)) (rnd (pc_si_org x)) (rnd (pc_moles x)) (rnd (pc_delta x))
    (rnd (pc_init x)) (pc_force x) (pc_dissolve x && negb (pc_precip x)) (pc_precip x) (rnds (pc_totals x)).
Definition restored_pp (x y : pp_assemblage) : Prop :=
  exists text, stripped (pp_text x) text /\
  y = PP (pp_n x) (pp_n x) text false ((fun p => (p.1, restored_pp_comp p.2)) <$> pp_comps x)
        (rnds (pp_elts x)) (rnds (pp_totals x)).

Definition restored_ss_comp (x : ss_comp) : ss_comp :=
  SSComp (sc_name x) (rnd (sc_moles x)) (rnd (sc_initial x)) (rnd (sc_init x)) (rnd (sc_delta x)) (rnd (sc_x x))
    (rnd (sc_lambda x)) (rnd (sc_logx x)) (rnd (sc_dn x)) (rnd (sc_dnc x)) (rnd (sc_dnb x)).
Definition restored_solid (x : solid) : solid :=
  Solid (ss_name x) (rnd (ss_ag0 x)) (rnd (ss_ag1 x)) (restored_ss_comp <$> ss_comps x) (rnd (ss_a0 x))
    (rnd (ss_a1 x)) (ss_misc x) (ss_spin x) (rnd (ss_tk x)) (rnd (ss_xb1 x)) (rnd (ss_xb2 x)) (ss_case x)
    (rnd <$> ss_p x) (rnd (ss_total x)) (rnd (ss_dn x)) (ss_in x) (rnds (ss_totals x)).
Definition restored_ssa (x y : ss_assemblage) : Prop :=
  exists text, stripped (sa_text x) text /\
  y = SSA (sa_n x) (sa_n x) text ((fun p => (p.1, restored_solid p.2)) <$> sa_list x) (sa_new x)
        (rnds (sa_totals x)).

Definition restored_surf_comp (x : surf_comp) : surf_comp :=
  SurfComp (uc_formula x) (rnd (uc_z x)) (rnd (uc_moles x)) (rnds (uc_totals x)) (rnd (uc_la x)) (uc_charge x)
    (rnd (uc_cb x)) (uc_phase x) (rnd (uc_prop x)) (uc_rate x) (rnd (uc_dw x)) (uc_master x).
(** The factors of the multi-component diffusion are lost *)
Definition restored_surf_charge (x : surf_charge) : surf_charge :=
  SurfCharge (uh_name x) (rnd (uh_area x)) (rnd (uh_grams x)) (rnd (uh_cb x)) (rnd (uh_water x)) (rnd (uh_visc x))
    (rnd (uh_free x)) (rnd (uh_la x)) (rnd (uh_cap0 x)) (rnd (uh_cap1 x)) (rnds (uh_dl x)) (rnd (uh_s0 x))
    (rnd (uh_s1 x)) (rnd (uh_s2 x)) (rnd (uh_sd x))
    ((fun p => (rnd p.1, SurfDL (rnd (dl_g p.2)) (rnd (dl_dg p.2)) (rnd (dl_psi p.2)))) <$> uh_g x) []
    (irnds (uh_species x)).
(** The flag that the viscosity is to be calculated is lost *)
Definition restored_surface (x y : surface) : Prop :=
  exists text comps charges, stripped (su_text x) text /\
  sorted_by uc_formula (restored_surf_comp <$> su_comps x) comps /\
  sorted_by uh_name (restored_surf_charge <$> su_charges x) charges /\
  y = Surface (su_n x) (su_n x) text comps charges (su_new x) (su_tidied x) (su_type x) (su_dl x) (su_units x)
        (su_only x) (rnd (su_thick x)) (rnd (su_debye x)) (rnd (su_visc x)) false (rnd (su_limit x))
        (su_correct x) (su_trans x) [] (su_equil x) (su_soln x).

(** No longer newly defined; without the data of its input *)
Definition restored_solution (x y : solution) : Prop :=
  exists text, stripped (so_text x) text /\
  y = Solution (so_n x) (so_n x) text false (rnd (so_patm x)) (rnd (so_pot x)) (rnd (so_tc x)) (rnd (so_ph x))
        (rnd (so_pe x)) (rnd (so_mu x)) (rnd (so_ah2o x)) (rnd (so_h x)) (rnd (so_o x)) (rnd (so_cb x))
        (rnd (so_water x)) (rnd (so_dens x)) (rnd (so_visc x)) (rnd (so_visc0 x)) (rnd (so_vol x))
        (rnd (so_alk x)) (rnds (so_totals x)) (rnds (so_act x)) (rnds (so_gamma x)) [] false
        (irnds (so_species x)) (irnds (so_loggam x)) (irnds (so_logmol x)).

Definition restored_mixture (x y : mixture) : Prop :=
  exists text, stripped (mi_text x) text /\ y = Mixture (mi_n x) (mi_n x) text (irnds (mi_comps x)).
Definition restored_reaction (x y : reaction) : Prop :=
  exists text, stripped (rx_text x) text /\
  y = Reaction (rx_n x) (rx_n x) text (rx_units x) (rnds (rx_list x)) (rnds (rx_elts x)) (rnd <$> rx_steps x)
        (rx_count x) (rx_equal x).
(** The number of temperatures that are given one by one is how many there are, whatever the count says *)
Definition restored_temperature (x y : steps) : Prop :=
  exists text, stripped (st_text x) text /\
  y = Steps (st_n x) (st_n x) text (rnd <$> st_list x) (if st_equal x then st_count x else Z.of_nat (length (st_list x)))
        (st_equal x).
Definition restored_pressure (x y : steps) : Prop :=
  exists text, stripped (st_text x) text /\
  y = Steps (st_n x) (st_n x) text (rnd <$> st_list x) (st_count x) (st_equal x).

(** ** Which reactants are read back

    [keys] are the keywords; [opts] are the options of the class whose list of names it is. *)
Section Guards.
Variable keys : list string.

Definition fits_exch_comp (opts : list string) (x : exch_comp) : Prop :=
  word (ec_formula x) /\ plain_names (V := D) keys opts (ec_totals x) /\ word_or_none (ec_phase x) /\
  word_or_none (ec_rate x).
(** No component has the formula of another, or is named after an element of a component before it; the
    list of totals is empty. *)
Definition fits_exchange (opts : list string) (x : exchange) : Prop :=
  Forall (fits_exch_comp opts) (ex_comps x) /\ NoDup (ec_formula <$> ex_comps x) /\ ex_totals x = [] /\
  forall i j a b, (i < j)%nat -> ex_comps x !! i = Some a -> ex_comps x !! j = Some b ->
    ~ named (ec_totals a) (ec_formula b).

Definition fits_gas_phase (opts : list string) (x : gas_phase) : Prop :=
  Forall (fun c => word (gc_name c)) (gp_comps x) /\ distinct (gc_name <$> gp_comps x) /\
  plain_names (V := D) keys opts (gp_totals x).

Definition fits_kin_comp (opts : list string) (x : kin_comp) : Prop :=
  word (kc_rate x) /\ plain_names (V := D) keys opts (kc_coef x).
Definition fits_kinetics (opts1 opts2 : list string) (x : kinetics) : Prop :=
  Forall (fits_kin_comp opts1) (ki_comps x) /\ distinct (kc_rate <$> ki_comps x) /\
  plain_names (V := D) keys opts2 (ki_totals x).

Definition fits_pp_comp (opts : list string) (x : pp_comp) : Prop :=
  word (pc_name x) /\ word_or_none (pc_add x) /\ plain_names (V := D) keys opts (pc_totals x).
Definition fits_pp (opts1 opts2 : list string) (x : pp_assemblage) : Prop :=
  ordered (pp_comps x) /\ Forall (fun p => p.1 = pc_name p.2 /\ fits_pp_comp opts1 p.2) (pp_comps x) /\
  distinct (pp_comps x).*1 /\
  plain_names (V := D) keys opts2 (pp_elts x) /\ plain_names (V := D) keys opts2 (pp_totals x).

Definition fits_solid (opts : list string) (x : solid) : Prop :=
  word (ss_name x) /\ Forall (fun c => word (sc_name c)) (ss_comps x) /\ NoDup (sc_name <$> ss_comps x) /\
  length (ss_p x) = 4%nat /\ plain_names (V := D) keys opts (ss_totals x).
Definition fits_ssa (opts1 opts2 : list string) (x : ss_assemblage) : Prop :=
  ordered (sa_list x) /\ Forall (fun p => p.1 = ss_name p.2 /\ fits_solid opts1 p.2) (sa_list x) /\
  plain_names (V := D) keys opts2 (sa_totals x).

Definition fits_surf_comp (opts : list string) (x : surf_comp) : Prop :=
  word (uc_formula x) /\ plain_names (V := D) keys opts (uc_totals x) /\ word (uc_charge x) /\
  word (uc_master x) /\ word_or_none (uc_phase x) /\ word_or_none (uc_rate x).
Definition fits_surf_charge (opts : list string) (x : surf_charge) : Prop :=
  word (uh_name x) /\ plain_names (V := D) keys opts (uh_dl x) /\ rising (uh_species x) /\
  StronglySorted (fun p q => dcmp (rnd q.1) (rnd p.1) = Gt) (uh_g x).
Definition fits_surface (opts1 opts2 : list string) (x : surface) : Prop :=
  Forall (fits_surf_comp opts1) (su_comps x) /\ distinct (uc_formula <$> su_comps x) /\
  Forall (fits_surf_charge opts2) (su_charges x) /\ distinct (uh_name <$> su_charges x) /\ su_totals x = [].

(** There is no redox state of an element whose name without its last letter is in the list too, and
    there are no isotopes. *)
Definition fits_solution (opts : list string) (x : solution) : Prop :=
  plain_names (V := D) keys opts (so_totals x) /\ plain_names (V := D) keys opts (so_act x) /\
  plain_names (V := D) keys opts (so_gamma x) /\
  (forall n m, named (so_totals x) n -> named (so_totals x) m -> valence m ->
    element m <> EmptyString /\ n <> drop_last (element m)) /\
  so_iso x = [] /\ rising (so_species x) /\ rising (so_loggam x) /\ rising (so_logmol x).

Definition fits_mixture (x : mixture) : Prop := rising (mi_comps x).
Definition fits_reaction (opts : list string) (x : reaction) : Prop :=
  word (rx_units x) /\ plain_names (V := D) keys opts (rx_list x) /\ plain_names (V := D) keys opts (rx_elts x).
End Guards.

(** ** Whole files *)

(** The names that a list of names cannot hold, since they would be read as options: per class, those
    accepted at its place. *)
Definition exch_comp_options : list string := ["formula"; "moles"; "la"; "charge_balance"; "phase_name";
  "rate_name"; "formula_z"; "phase_proportion"; "totals"; "formula_totals"]%string.
Definition gas_phase_options : list string := ["type"; "total_p"; "volume"; "v_m"; "component"; "pressure";
  "pr_in"; "new_def"; "solution_equilibria"; "n_solution"; "total_moles"; "temperature"; "totals"]%string.
Definition kin_comp_options : list string := ["rate_name_not_used"; "tol"; "m"; "m0"; "moles"; "namecoef";
  "d_params"; "initial_moles"]%string.
Definition kinetics_options : list string := ["step_divide"; "rk"; "bad_step_max"; "use_cvode"; "component";
  "totals"; "steps"; "cvode_steps"; "cvode_order"; "equalincrements"; "count"; "equal_increments"]%string.
Definition pp_comp_options : list string := ["name"; "add_formula"; "si"; "moles"; "delta"; "initial_moles";
  "dissolve_only"; "force_equality"; "precipitate_only"; "si_org"; "totals"]%string.
Definition pp_options : list string := ["eltlist"; "component"; "new_def"; "assemblage_totals"]%string.
Definition solid_options : list string := ["ss_name"; "total_moles"; "a0"; "a1"; "components"; "miscibility";
  "spinodal"; "tk"; "xb1"; "xb2"; "ag0"; "ag1"; "component"; "input_case"; "p"; "ss_in"; "totals"; "dn"]%string.
Definition ssa_options : list string := ["solid_solution"; "ssassemblage_totals"; "new_def"]%string.
Definition surf_comp_options : list string := ["formula"; "moles"; "la"; "charge_number"; "charge_balance";
  "phase_name"; "rate_name"; "phase_proportion"; "totals"; "formula_z"; "formula_totals"; "dw"; "charge_name";
  "master_element"]%string.
Definition surf_charge_options : list string := ["name"; "specific_area"; "grams"; "charge_balance";
  "mass_water"; "la_psi"; "diffuse_layer_totals"; "la_psi1"; "la_psi2"; "capacitance0"; "capacitance1";
  "sigma0"; "sigma1"; "sigma2"; "sigmaddl"; "g_map"; "diffuse_layer_species"; "f_free"; "ddl_viscosity"]%string.
Definition solution_options : list string := ["totals"; "activities"; "gammas"; "isotopes"; "temp";
  "tc_avoid_conflict_with_technetium"; "temperature"; "ph"; "pe"; "mu"; "ionic_strength"; "ah2o";
  "activity_water"; "total_h"; "total_o"; "mass_water"; "mass_h2o"; "total_alkalinity"; "total_alk"; "cb";
  "charge_balance"; "density"; "pressure"; "soln_vol"; "species_map"; "log_gamma_map"; "potential";
  "log_molalities_map"; "viscosity"; "viscos_0"]%string.
Definition reaction_options : list string := ["units"; "reactant_list"; "element_list"; "steps";
  "equal_increments"; "count_steps"]%string.

Definition fits (keys : list string) (e : entity) : Prop :=
  match e with
  | ESolution x => fits_solution keys solution_options x
  | EExchange x => fits_exchange keys exch_comp_options x
  | EGas x => fits_gas_phase keys gas_phase_options x
  | EKinetics x => fits_kinetics keys kin_comp_options kinetics_options x
  | EPP x => fits_pp keys pp_comp_options pp_options x
  | ESS x => fits_ssa keys solid_options ssa_options x
  | ESurface x => fits_surface keys surf_comp_options surf_charge_options x
  | EMix x => fits_mixture x
  | EReaction x => fits_reaction keys reaction_options x
  | ETemp _ | EPress _ => True
  end.
Definition restored (e e' : entity) : Prop :=
  match e, e' with
  | ESolution x, ESolution y => restored_solution x y
  | EExchange x, EExchange y => restored_exchange x y
  | EGas x, EGas y => restored_gas_phase x y
  | EKinetics x, EKinetics y => restored_kinetics x y
  | EPP x, EPP y => restored_pp x y
  | ESS x, ESS y => restored_ssa x y
  | ESurface x, ESurface y => restored_surface x y
  | EMix x, EMix y => restored_mixture x y
  | EReaction x, EReaction y => restored_reaction x y
  | ETemp x, ETemp y => restored_temperature x y
  | EPress x, EPress y => restored_pressure x y
  | _, _ => False
  end.
(** Which kind of reactant it is, and its number *)
Definition place (e : entity (D := D)) : nat * Z :=
  match e with
  | ESolution x => (0%nat, so_n x) | EExchange x => (1%nat, ex_n x) | EGas x => (2%nat, gp_n x)
  | EKinetics x => (3%nat, ki_n x) | EPP x => (4%nat, pp_n x) | ESS x => (5%nat, sa_n x)
  | ESurface x => (6%nat, su_n x) | EMix x => (7%nat, mi_n x) | EReaction x => (8%nat, rx_n x)
  | ETemp x => (9%nat, st_n x) | EPress x => (10%nat, st_n x)
  end.
(** It is stored under number [n]. *)
Definition stored (r : reactants) (n : Z) (e : entity (D := D)) : Prop :=
  match e with
  | ESolution x => ph_sol r !! n = Some x | EExchange x => ph_ex r !! n = Some x
  | EGas x => ph_gas r !! n = Some x | EKinetics x => ph_kin r !! n = Some x
  | EPP x => ph_pp r !! n = Some x | ESS x => ph_ss r !! n = Some x
  | ESurface x => ph_surf r !! n = Some x | EMix x => ph_mix r !! n = Some x
  | EReaction x => ph_react r !! n = Some x | ETemp x => ph_temp r !! n = Some x
  | EPress x => ph_press r !! n = Some x
  end.
End Spec.
