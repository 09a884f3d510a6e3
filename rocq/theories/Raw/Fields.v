(** Assignments to single members of the records of [Transfer.Model], which describe the classes of
    phreeqcpp: [set_f v x] is [x] after [x.f = v]. *)
From Coq Require Import String.
From stdpp Require Import prelude strings.
From Verif.Names Require Import Model.
From Verif.Transfer Require Import Model.

Section Fields.
Context {D : Type}.

(** exch_comp *)
Definition set_ec_totals (v : nmap D) (x : exch_comp (D := D)) : exch_comp :=
  ExchComp (ec_formula x) v (ec_la x) (ec_cb x) (ec_phase x) (ec_prop x) (ec_rate x) (ec_z x).
Definition set_ec_la (v : D) (x : exch_comp (D := D)) : exch_comp :=
  ExchComp (ec_formula x) (ec_totals x) v (ec_cb x) (ec_phase x) (ec_prop x) (ec_rate x)
    (ec_z x).
Definition set_ec_cb (v : D) (x : exch_comp (D := D)) : exch_comp :=
  ExchComp (ec_formula x) (ec_totals x) (ec_la x) v (ec_phase x) (ec_prop x) (ec_rate x)
    (ec_z x).
Definition set_ec_phase (v : string) (x : exch_comp (D := D)) : exch_comp :=
  ExchComp (ec_formula x) (ec_totals x) (ec_la x) (ec_cb x) v (ec_prop x) (ec_rate x) (ec_z x).
Definition set_ec_prop (v : D) (x : exch_comp (D := D)) : exch_comp :=
  ExchComp (ec_formula x) (ec_totals x) (ec_la x) (ec_cb x) (ec_phase x) v (ec_rate x) (ec_z x).
Definition set_ec_rate (v : string) (x : exch_comp (D := D)) : exch_comp :=
  ExchComp (ec_formula x) (ec_totals x) (ec_la x) (ec_cb x) (ec_phase x) (ec_prop x) v (ec_z x).
Definition set_ec_z (v : D) (x : exch_comp (D := D)) : exch_comp :=
  ExchComp (ec_formula x) (ec_totals x) (ec_la x) (ec_cb x) (ec_phase x) (ec_prop x) (ec_rate x)
    v.

(** exchange *)
Definition set_ex_comps (v : list (exch_comp (D := D))) (x : exchange (D := D)) : exchange :=
  Exchange (ex_n x) (ex_end x) (ex_text x) v (ex_pitzer x) (ex_new x) (ex_equil x) (ex_soln x)
    (ex_totals x).
Definition set_ex_pitzer (v : bool) (x : exchange (D := D)) : exchange :=
  Exchange (ex_n x) (ex_end x) (ex_text x) (ex_comps x) v (ex_new x) (ex_equil x) (ex_soln x)
    (ex_totals x).
Definition set_ex_new (v : bool) (x : exchange (D := D)) : exchange :=
  Exchange (ex_n x) (ex_end x) (ex_text x) (ex_comps x) (ex_pitzer x) v (ex_equil x) (ex_soln x)
    (ex_totals x).
Definition set_ex_equil (v : bool) (x : exchange (D := D)) : exchange :=
  Exchange (ex_n x) (ex_end x) (ex_text x) (ex_comps x) (ex_pitzer x) (ex_new x) v (ex_soln x)
    (ex_totals x).
Definition set_ex_soln (v : Z) (x : exchange (D := D)) : exchange :=
  Exchange (ex_n x) (ex_end x) (ex_text x) (ex_comps x) (ex_pitzer x) (ex_new x) (ex_equil x) v
    (ex_totals x).
Definition set_ex_totals (v : nmap D) (x : exchange (D := D)) : exchange :=
  Exchange (ex_n x) (ex_end x) (ex_text x) (ex_comps x) (ex_pitzer x) (ex_new x) (ex_equil x)
    (ex_soln x) v.

(** gas_comp *)
Definition set_gc_moles (v : D) (x : gas_comp (D := D)) : gas_comp :=
  GasComp (gc_name x) v (gc_pread x) (gc_init x) (gc_p x) (gc_phi x) (gc_f x).
Definition set_gc_pread (v : D) (x : gas_comp (D := D)) : gas_comp :=
  GasComp (gc_name x) (gc_moles x) v (gc_init x) (gc_p x) (gc_phi x) (gc_f x).
Definition set_gc_init (v : D) (x : gas_comp (D := D)) : gas_comp :=
  GasComp (gc_name x) (gc_moles x) (gc_pread x) v (gc_p x) (gc_phi x) (gc_f x).
Definition set_gc_p (v : D) (x : gas_comp (D := D)) : gas_comp :=
  GasComp (gc_name x) (gc_moles x) (gc_pread x) (gc_init x) v (gc_phi x) (gc_f x).
Definition set_gc_phi (v : D) (x : gas_comp (D := D)) : gas_comp :=
  GasComp (gc_name x) (gc_moles x) (gc_pread x) (gc_init x) (gc_p x) v (gc_f x).
Definition set_gc_f (v : D) (x : gas_comp (D := D)) : gas_comp :=
  GasComp (gc_name x) (gc_moles x) (gc_pread x) (gc_init x) (gc_p x) (gc_phi x) v.

(** gas_phase *)
Definition set_gp_kind (v : gp_type) (x : gas_phase (D := D)) : gas_phase :=
  GasPhase (gp_n x) (gp_end x) (gp_text x) v (gp_total_p x) (gp_vol x) (gp_comps x) (gp_new x)
    (gp_equil x) (gp_soln x) (gp_temp x) (gp_moles x) (gp_vm x) (gp_pr x) (gp_totals x).
Definition set_gp_total_p (v : D) (x : gas_phase (D := D)) : gas_phase :=
  GasPhase (gp_n x) (gp_end x) (gp_text x) (gp_kind x) v (gp_vol x) (gp_comps x) (gp_new x)
    (gp_equil x) (gp_soln x) (gp_temp x) (gp_moles x) (gp_vm x) (gp_pr x) (gp_totals x).
Definition set_gp_vol (v : D) (x : gas_phase (D := D)) : gas_phase :=
  GasPhase (gp_n x) (gp_end x) (gp_text x) (gp_kind x) (gp_total_p x) v (gp_comps x) (gp_new x)
    (gp_equil x) (gp_soln x) (gp_temp x) (gp_moles x) (gp_vm x) (gp_pr x) (gp_totals x).
Definition set_gp_comps (v : list (gas_comp (D := D))) (x : gas_phase (D := D)) : gas_phase :=
  GasPhase (gp_n x) (gp_end x) (gp_text x) (gp_kind x) (gp_total_p x) (gp_vol x) v (gp_new x)
    (gp_equil x) (gp_soln x) (gp_temp x) (gp_moles x) (gp_vm x) (gp_pr x) (gp_totals x).
Definition set_gp_new (v : bool) (x : gas_phase (D := D)) : gas_phase :=
  GasPhase (gp_n x) (gp_end x) (gp_text x) (gp_kind x) (gp_total_p x) (gp_vol x) (gp_comps x) v
    (gp_equil x) (gp_soln x) (gp_temp x) (gp_moles x) (gp_vm x) (gp_pr x) (gp_totals x).
Definition set_gp_equil (v : bool) (x : gas_phase (D := D)) : gas_phase :=
  GasPhase (gp_n x) (gp_end x) (gp_text x) (gp_kind x) (gp_total_p x) (gp_vol x) (gp_comps x)
    (gp_new x) v (gp_soln x) (gp_temp x) (gp_moles x) (gp_vm x) (gp_pr x) (gp_totals x).
Definition set_gp_soln (v : Z) (x : gas_phase (D := D)) : gas_phase :=
  GasPhase (gp_n x) (gp_end x) (gp_text x) (gp_kind x) (gp_total_p x) (gp_vol x) (gp_comps x)
    (gp_new x) (gp_equil x) v (gp_temp x) (gp_moles x) (gp_vm x) (gp_pr x) (gp_totals x).
Definition set_gp_temp (v : D) (x : gas_phase (D := D)) : gas_phase :=
  GasPhase (gp_n x) (gp_end x) (gp_text x) (gp_kind x) (gp_total_p x) (gp_vol x) (gp_comps x)
    (gp_new x) (gp_equil x) (gp_soln x) v (gp_moles x) (gp_vm x) (gp_pr x) (gp_totals x).
Definition set_gp_moles (v : D) (x : gas_phase (D := D)) : gas_phase :=
  GasPhase (gp_n x) (gp_end x) (gp_text x) (gp_kind x) (gp_total_p x) (gp_vol x) (gp_comps x)
    (gp_new x) (gp_equil x) (gp_soln x) (gp_temp x) v (gp_vm x) (gp_pr x) (gp_totals x).
Definition set_gp_vm (v : D) (x : gas_phase (D := D)) : gas_phase :=
  GasPhase (gp_n x) (gp_end x) (gp_text x) (gp_kind x) (gp_total_p x) (gp_vol x) (gp_comps x)
    (gp_new x) (gp_equil x) (gp_soln x) (gp_temp x) (gp_moles x) v (gp_pr x) (gp_totals x).
Definition set_gp_pr (v : bool) (x : gas_phase (D := D)) : gas_phase :=
  GasPhase (gp_n x) (gp_end x) (gp_text x) (gp_kind x) (gp_total_p x) (gp_vol x) (gp_comps x)
    (gp_new x) (gp_equil x) (gp_soln x) (gp_temp x) (gp_moles x) (gp_vm x) v (gp_totals x).
Definition set_gp_totals (v : nmap D) (x : gas_phase (D := D)) : gas_phase :=
  GasPhase (gp_n x) (gp_end x) (gp_text x) (gp_kind x) (gp_total_p x) (gp_vol x) (gp_comps x)
    (gp_new x) (gp_equil x) (gp_soln x) (gp_temp x) (gp_moles x) (gp_vm x) (gp_pr x) v.

(** kin_comp *)
Definition set_kc_coef (v : nmap D) (x : kin_comp (D := D)) : kin_comp :=
  KinComp (kc_rate x) v (kc_tol x) (kc_m x) (kc_m0 x) (kc_d x) (kc_c x) (kc_moles x) (kc_init x)
    (kc_reaction x).
Definition set_kc_tol (v : D) (x : kin_comp (D := D)) : kin_comp :=
  KinComp (kc_rate x) (kc_coef x) v (kc_m x) (kc_m0 x) (kc_d x) (kc_c x) (kc_moles x)
    (kc_init x) (kc_reaction x).
Definition set_kc_m (v : D) (x : kin_comp (D := D)) : kin_comp :=
  KinComp (kc_rate x) (kc_coef x) (kc_tol x) v (kc_m0 x) (kc_d x) (kc_c x) (kc_moles x)
    (kc_init x) (kc_reaction x).
Definition set_kc_m0 (v : D) (x : kin_comp (D := D)) : kin_comp :=
  KinComp (kc_rate x) (kc_coef x) (kc_tol x) (kc_m x) v (kc_d x) (kc_c x) (kc_moles x)
    (kc_init x) (kc_reaction x).
Definition set_kc_d (v : list D) (x : kin_comp (D := D)) : kin_comp :=
  KinComp (kc_rate x) (kc_coef x) (kc_tol x) (kc_m x) (kc_m0 x) v (kc_c x) (kc_moles x)
    (kc_init x) (kc_reaction x).
Definition set_kc_moles (v : D) (x : kin_comp (D := D)) : kin_comp :=
  KinComp (kc_rate x) (kc_coef x) (kc_tol x) (kc_m x) (kc_m0 x) (kc_d x) (kc_c x) v (kc_init x)
    (kc_reaction x).
Definition set_kc_init (v : D) (x : kin_comp (D := D)) : kin_comp :=
  KinComp (kc_rate x) (kc_coef x) (kc_tol x) (kc_m x) (kc_m0 x) (kc_d x) (kc_c x) (kc_moles x) v
    (kc_reaction x).

(** kinetics *)
Definition set_ki_comps (v : list (kin_comp (D := D))) (x : kinetics (D := D)) : kinetics :=
  Kinetics (ki_n x) (ki_end x) (ki_text x) v (ki_steps x) (ki_count x) (ki_equal x)
    (ki_divide x) (ki_rk x) (ki_bad x) (ki_cvode x) (ki_cv_steps x) (ki_cv_order x)
    (ki_totals x).
Definition set_ki_steps (v : list D) (x : kinetics (D := D)) : kinetics :=
  Kinetics (ki_n x) (ki_end x) (ki_text x) (ki_comps x) v (ki_count x) (ki_equal x)
    (ki_divide x) (ki_rk x) (ki_bad x) (ki_cvode x) (ki_cv_steps x) (ki_cv_order x)
    (ki_totals x).
Definition set_ki_count (v : Z) (x : kinetics (D := D)) : kinetics :=
  Kinetics (ki_n x) (ki_end x) (ki_text x) (ki_comps x) (ki_steps x) v (ki_equal x)
    (ki_divide x) (ki_rk x) (ki_bad x) (ki_cvode x) (ki_cv_steps x) (ki_cv_order x)
    (ki_totals x).
Definition set_ki_equal (v : bool) (x : kinetics (D := D)) : kinetics :=
  Kinetics (ki_n x) (ki_end x) (ki_text x) (ki_comps x) (ki_steps x) (ki_count x) v
    (ki_divide x) (ki_rk x) (ki_bad x) (ki_cvode x) (ki_cv_steps x) (ki_cv_order x)
    (ki_totals x).
Definition set_ki_divide (v : D) (x : kinetics (D := D)) : kinetics :=
  Kinetics (ki_n x) (ki_end x) (ki_text x) (ki_comps x) (ki_steps x) (ki_count x) (ki_equal x) v
    (ki_rk x) (ki_bad x) (ki_cvode x) (ki_cv_steps x) (ki_cv_order x) (ki_totals x).
Definition set_ki_rk (v : Z) (x : kinetics (D := D)) : kinetics :=
  Kinetics (ki_n x) (ki_end x) (ki_text x) (ki_comps x) (ki_steps x) (ki_count x) (ki_equal x)
    (ki_divide x) v (ki_bad x) (ki_cvode x) (ki_cv_steps x) (ki_cv_order x) (ki_totals x).
Definition set_ki_bad (v : Z) (x : kinetics (D := D)) : kinetics :=
  Kinetics (ki_n x) (ki_end x) (ki_text x) (ki_comps x) (ki_steps x) (ki_count x) (ki_equal x)
    (ki_divide x) (ki_rk x) v (ki_cvode x) (ki_cv_steps x) (ki_cv_order x) (ki_totals x).
Definition set_ki_cvode (v : bool) (x : kinetics (D := D)) : kinetics :=
  Kinetics (ki_n x) (ki_end x) (ki_text x) (ki_comps x) (ki_steps x) (ki_count x) (ki_equal x)
    (ki_divide x) (ki_rk x) (ki_bad x) v (ki_cv_steps x) (ki_cv_order x) (ki_totals x).
Definition set_ki_cv_steps (v : Z) (x : kinetics (D := D)) : kinetics :=
  Kinetics (ki_n x) (ki_end x) (ki_text x) (ki_comps x) (ki_steps x) (ki_count x) (ki_equal x)
    (ki_divide x) (ki_rk x) (ki_bad x) (ki_cvode x) v (ki_cv_order x) (ki_totals x).
Definition set_ki_cv_order (v : Z) (x : kinetics (D := D)) : kinetics :=
  Kinetics (ki_n x) (ki_end x) (ki_text x) (ki_comps x) (ki_steps x) (ki_count x) (ki_equal x)
    (ki_divide x) (ki_rk x) (ki_bad x) (ki_cvode x) (ki_cv_steps x) v (ki_totals x).
Definition set_ki_totals (v : nmap D) (x : kinetics (D := D)) : kinetics :=
  Kinetics (ki_n x) (ki_end x) (ki_text x) (ki_comps x) (ki_steps x) (ki_count x) (ki_equal x)
    (ki_divide x) (ki_rk x) (ki_bad x) (ki_cvode x) (ki_cv_steps x) (ki_cv_order x) v.

(** pp_comp *)
Definition set_pc_add (v : string) (x : pp_comp (D := D)) : pp_comp :=
  PPComp (pc_name x) v (pc_si x) (pc_si_org x) (pc_moles x) (pc_delta x) (pc_init x)
    (pc_force x) (pc_dissolve x) (pc_precip x) (pc_totals x).
Definition set_pc_si (v : D) (x : pp_comp (D := D)) : pp_comp :=
  PPComp (pc_name x) (pc_add x) v (pc_si_org x) (pc_moles x) (pc_delta x) (pc_init x)
    (pc_force x) (pc_dissolve x) (pc_precip x) (pc_totals x).
Definition set_pc_si_org (v : D) (x : pp_comp (D := D)) : pp_comp :=
  PPComp (pc_name x) (pc_add x) (pc_si x) v (pc_moles x) (pc_delta x) (pc_init x) (pc_force x)
    (pc_dissolve x) (pc_precip x) (pc_totals x).
Definition set_pc_moles (v : D) (x : pp_comp (D := D)) : pp_comp :=
  PPComp (pc_name x) (pc_add x) (pc_si x) (pc_si_org x) v (pc_delta x) (pc_init x) (pc_force x)
    (pc_dissolve x) (pc_precip x) (pc_totals x).
Definition set_pc_delta (v : D) (x : pp_comp (D := D)) : pp_comp :=
  PPComp (pc_name x) (pc_add x) (pc_si x) (pc_si_org x) (pc_moles x) v (pc_init x) (pc_force x)
    (pc_dissolve x) (pc_precip x) (pc_totals x).
Definition set_pc_init (v : D) (x : pp_comp (D := D)) : pp_comp :=
  PPComp (pc_name x) (pc_add x) (pc_si x) (pc_si_org x) (pc_moles x) (pc_delta x) v (pc_force x)
    (pc_dissolve x) (pc_precip x) (pc_totals x).
Definition set_pc_force (v : bool) (x : pp_comp (D := D)) : pp_comp :=
  PPComp (pc_name x) (pc_add x) (pc_si x) (pc_si_org x) (pc_moles x) (pc_delta x) (pc_init x) v
    (pc_dissolve x) (pc_precip x) (pc_totals x).
Definition set_pc_dissolve (v : bool) (x : pp_comp (D := D)) : pp_comp :=
  PPComp (pc_name x) (pc_add x) (pc_si x) (pc_si_org x) (pc_moles x) (pc_delta x) (pc_init x)
    (pc_force x) v (pc_precip x) (pc_totals x).
Definition set_pc_precip (v : bool) (x : pp_comp (D := D)) : pp_comp :=
  PPComp (pc_name x) (pc_add x) (pc_si x) (pc_si_org x) (pc_moles x) (pc_delta x) (pc_init x)
    (pc_force x) (pc_dissolve x) v (pc_totals x).
Definition set_pc_totals (v : nmap D) (x : pp_comp (D := D)) : pp_comp :=
  PPComp (pc_name x) (pc_add x) (pc_si x) (pc_si_org x) (pc_moles x) (pc_delta x) (pc_init x)
    (pc_force x) (pc_dissolve x) (pc_precip x) v.

(** pp_assemblage *)
Definition set_pp_new (v : bool) (x : pp_assemblage (D := D)) : pp_assemblage :=
  PP (pp_n x) (pp_end x) (pp_text x) v (pp_comps x) (pp_elts x) (pp_totals x).
Definition set_pp_comps (v : nmap (pp_comp (D := D))) (x : pp_assemblage (D := D)) : pp_assemblage :=
  PP (pp_n x) (pp_end x) (pp_text x) (pp_new x) v (pp_elts x) (pp_totals x).
Definition set_pp_elts (v : nmap D) (x : pp_assemblage (D := D)) : pp_assemblage :=
  PP (pp_n x) (pp_end x) (pp_text x) (pp_new x) (pp_comps x) v (pp_totals x).
Definition set_pp_totals (v : nmap D) (x : pp_assemblage (D := D)) : pp_assemblage :=
  PP (pp_n x) (pp_end x) (pp_text x) (pp_new x) (pp_comps x) (pp_elts x) v.

(** ss_comp *)
Definition set_sc_moles (v : D) (x : ss_comp (D := D)) : ss_comp :=
  SSComp (sc_name x) v (sc_initial x) (sc_init x) (sc_delta x) (sc_x x) (sc_lambda x)
    (sc_logx x) (sc_dn x) (sc_dnc x) (sc_dnb x).
Definition set_sc_initial (v : D) (x : ss_comp (D := D)) : ss_comp :=
  SSComp (sc_name x) (sc_moles x) v (sc_init x) (sc_delta x) (sc_x x) (sc_lambda x) (sc_logx x)
    (sc_dn x) (sc_dnc x) (sc_dnb x).
Definition set_sc_init (v : D) (x : ss_comp (D := D)) : ss_comp :=
  SSComp (sc_name x) (sc_moles x) (sc_initial x) v (sc_delta x) (sc_x x) (sc_lambda x)
    (sc_logx x) (sc_dn x) (sc_dnc x) (sc_dnb x).
Definition set_sc_delta (v : D) (x : ss_comp (D := D)) : ss_comp :=
  SSComp (sc_name x) (sc_moles x) (sc_initial x) (sc_init x) v (sc_x x) (sc_lambda x)
    (sc_logx x) (sc_dn x) (sc_dnc x) (sc_dnb x).
Definition set_sc_x (v : D) (x : ss_comp (D := D)) : ss_comp :=
  SSComp (sc_name x) (sc_moles x) (sc_initial x) (sc_init x) (sc_delta x) v (sc_lambda x)
    (sc_logx x) (sc_dn x) (sc_dnc x) (sc_dnb x).
Definition set_sc_lambda (v : D) (x : ss_comp (D := D)) : ss_comp :=
  SSComp (sc_name x) (sc_moles x) (sc_initial x) (sc_init x) (sc_delta x) (sc_x x) v (sc_logx x)
    (sc_dn x) (sc_dnc x) (sc_dnb x).
Definition set_sc_logx (v : D) (x : ss_comp (D := D)) : ss_comp :=
  SSComp (sc_name x) (sc_moles x) (sc_initial x) (sc_init x) (sc_delta x) (sc_x x) (sc_lambda x)
    v (sc_dn x) (sc_dnc x) (sc_dnb x).
Definition set_sc_dn (v : D) (x : ss_comp (D := D)) : ss_comp :=
  SSComp (sc_name x) (sc_moles x) (sc_initial x) (sc_init x) (sc_delta x) (sc_x x) (sc_lambda x)
    (sc_logx x) v (sc_dnc x) (sc_dnb x).
Definition set_sc_dnc (v : D) (x : ss_comp (D := D)) : ss_comp :=
  SSComp (sc_name x) (sc_moles x) (sc_initial x) (sc_init x) (sc_delta x) (sc_x x) (sc_lambda x)
    (sc_logx x) (sc_dn x) v (sc_dnb x).
Definition set_sc_dnb (v : D) (x : ss_comp (D := D)) : ss_comp :=
  SSComp (sc_name x) (sc_moles x) (sc_initial x) (sc_init x) (sc_delta x) (sc_x x) (sc_lambda x)
    (sc_logx x) (sc_dn x) (sc_dnc x) v.

(** solid *)
Definition set_ss_ag0 (v : D) (x : solid (D := D)) : solid :=
  Solid (ss_name x) v (ss_ag1 x) (ss_comps x) (ss_a0 x) (ss_a1 x) (ss_misc x) (ss_spin x)
    (ss_tk x) (ss_xb1 x) (ss_xb2 x) (ss_case x) (ss_p x) (ss_total x) (ss_dn x) (ss_in x)
    (ss_totals x).
Definition set_ss_ag1 (v : D) (x : solid (D := D)) : solid :=
  Solid (ss_name x) (ss_ag0 x) v (ss_comps x) (ss_a0 x) (ss_a1 x) (ss_misc x) (ss_spin x)
    (ss_tk x) (ss_xb1 x) (ss_xb2 x) (ss_case x) (ss_p x) (ss_total x) (ss_dn x) (ss_in x)
    (ss_totals x).
Definition set_ss_comps (v : list (ss_comp (D := D))) (x : solid (D := D)) : solid :=
  Solid (ss_name x) (ss_ag0 x) (ss_ag1 x) v (ss_a0 x) (ss_a1 x) (ss_misc x) (ss_spin x)
    (ss_tk x) (ss_xb1 x) (ss_xb2 x) (ss_case x) (ss_p x) (ss_total x) (ss_dn x) (ss_in x)
    (ss_totals x).
Definition set_ss_a0 (v : D) (x : solid (D := D)) : solid :=
  Solid (ss_name x) (ss_ag0 x) (ss_ag1 x) (ss_comps x) v (ss_a1 x) (ss_misc x) (ss_spin x)
    (ss_tk x) (ss_xb1 x) (ss_xb2 x) (ss_case x) (ss_p x) (ss_total x) (ss_dn x) (ss_in x)
    (ss_totals x).
Definition set_ss_a1 (v : D) (x : solid (D := D)) : solid :=
  Solid (ss_name x) (ss_ag0 x) (ss_ag1 x) (ss_comps x) (ss_a0 x) v (ss_misc x) (ss_spin x)
    (ss_tk x) (ss_xb1 x) (ss_xb2 x) (ss_case x) (ss_p x) (ss_total x) (ss_dn x) (ss_in x)
    (ss_totals x).
Definition set_ss_misc (v : bool) (x : solid (D := D)) : solid :=
  Solid (ss_name x) (ss_ag0 x) (ss_ag1 x) (ss_comps x) (ss_a0 x) (ss_a1 x) v (ss_spin x)
    (ss_tk x) (ss_xb1 x) (ss_xb2 x) (ss_case x) (ss_p x) (ss_total x) (ss_dn x) (ss_in x)
    (ss_totals x).
Definition set_ss_spin (v : bool) (x : solid (D := D)) : solid :=
  Solid (ss_name x) (ss_ag0 x) (ss_ag1 x) (ss_comps x) (ss_a0 x) (ss_a1 x) (ss_misc x) v
    (ss_tk x) (ss_xb1 x) (ss_xb2 x) (ss_case x) (ss_p x) (ss_total x) (ss_dn x) (ss_in x)
    (ss_totals x).
Definition set_ss_tk (v : D) (x : solid (D := D)) : solid :=
  Solid (ss_name x) (ss_ag0 x) (ss_ag1 x) (ss_comps x) (ss_a0 x) (ss_a1 x) (ss_misc x)
    (ss_spin x) v (ss_xb1 x) (ss_xb2 x) (ss_case x) (ss_p x) (ss_total x) (ss_dn x) (ss_in x)
    (ss_totals x).
Definition set_ss_xb1 (v : D) (x : solid (D := D)) : solid :=
  Solid (ss_name x) (ss_ag0 x) (ss_ag1 x) (ss_comps x) (ss_a0 x) (ss_a1 x) (ss_misc x)
    (ss_spin x) (ss_tk x) v (ss_xb2 x) (ss_case x) (ss_p x) (ss_total x) (ss_dn x) (ss_in x)
    (ss_totals x).
Definition set_ss_xb2 (v : D) (x : solid (D := D)) : solid :=
  Solid (ss_name x) (ss_ag0 x) (ss_ag1 x) (ss_comps x) (ss_a0 x) (ss_a1 x) (ss_misc x)
    (ss_spin x) (ss_tk x) (ss_xb1 x) v (ss_case x) (ss_p x) (ss_total x) (ss_dn x) (ss_in x)
    (ss_totals x).
Definition set_ss_case (v : Z) (x : solid (D := D)) : solid :=
  Solid (ss_name x) (ss_ag0 x) (ss_ag1 x) (ss_comps x) (ss_a0 x) (ss_a1 x) (ss_misc x)
    (ss_spin x) (ss_tk x) (ss_xb1 x) (ss_xb2 x) v (ss_p x) (ss_total x) (ss_dn x) (ss_in x)
    (ss_totals x).
Definition set_ss_p (v : list D) (x : solid (D := D)) : solid :=
  Solid (ss_name x) (ss_ag0 x) (ss_ag1 x) (ss_comps x) (ss_a0 x) (ss_a1 x) (ss_misc x)
    (ss_spin x) (ss_tk x) (ss_xb1 x) (ss_xb2 x) (ss_case x) v (ss_total x) (ss_dn x) (ss_in x)
    (ss_totals x).
Definition set_ss_total (v : D) (x : solid (D := D)) : solid :=
  Solid (ss_name x) (ss_ag0 x) (ss_ag1 x) (ss_comps x) (ss_a0 x) (ss_a1 x) (ss_misc x)
    (ss_spin x) (ss_tk x) (ss_xb1 x) (ss_xb2 x) (ss_case x) (ss_p x) v (ss_dn x) (ss_in x)
    (ss_totals x).
Definition set_ss_dn (v : D) (x : solid (D := D)) : solid :=
  Solid (ss_name x) (ss_ag0 x) (ss_ag1 x) (ss_comps x) (ss_a0 x) (ss_a1 x) (ss_misc x)
    (ss_spin x) (ss_tk x) (ss_xb1 x) (ss_xb2 x) (ss_case x) (ss_p x) (ss_total x) v (ss_in x)
    (ss_totals x).
Definition set_ss_in (v : bool) (x : solid (D := D)) : solid :=
  Solid (ss_name x) (ss_ag0 x) (ss_ag1 x) (ss_comps x) (ss_a0 x) (ss_a1 x) (ss_misc x)
    (ss_spin x) (ss_tk x) (ss_xb1 x) (ss_xb2 x) (ss_case x) (ss_p x) (ss_total x) (ss_dn x) v
    (ss_totals x).
Definition set_ss_totals (v : nmap D) (x : solid (D := D)) : solid :=
  Solid (ss_name x) (ss_ag0 x) (ss_ag1 x) (ss_comps x) (ss_a0 x) (ss_a1 x) (ss_misc x)
    (ss_spin x) (ss_tk x) (ss_xb1 x) (ss_xb2 x) (ss_case x) (ss_p x) (ss_total x) (ss_dn x)
    (ss_in x) v.

(** ss_assemblage *)
Definition set_sa_list (v : nmap (solid (D := D))) (x : ss_assemblage (D := D)) : ss_assemblage :=
  SSA (sa_n x) (sa_end x) (sa_text x) v (sa_new x) (sa_totals x).
Definition set_sa_new (v : bool) (x : ss_assemblage (D := D)) : ss_assemblage :=
  SSA (sa_n x) (sa_end x) (sa_text x) (sa_list x) v (sa_totals x).
Definition set_sa_totals (v : nmap D) (x : ss_assemblage (D := D)) : ss_assemblage :=
  SSA (sa_n x) (sa_end x) (sa_text x) (sa_list x) (sa_new x) v.

(** surf_comp *)
Definition set_uc_z (v : D) (x : surf_comp (D := D)) : surf_comp :=
  SurfComp (uc_formula x) v (uc_moles x) (uc_totals x) (uc_la x) (uc_charge x) (uc_cb x)
    (uc_phase x) (uc_prop x) (uc_rate x) (uc_dw x) (uc_master x).
Definition set_uc_moles (v : D) (x : surf_comp (D := D)) : surf_comp :=
  SurfComp (uc_formula x) (uc_z x) v (uc_totals x) (uc_la x) (uc_charge x) (uc_cb x)
    (uc_phase x) (uc_prop x) (uc_rate x) (uc_dw x) (uc_master x).
Definition set_uc_totals (v : nmap D) (x : surf_comp (D := D)) : surf_comp :=
  SurfComp (uc_formula x) (uc_z x) (uc_moles x) v (uc_la x) (uc_charge x) (uc_cb x) (uc_phase x)
    (uc_prop x) (uc_rate x) (uc_dw x) (uc_master x).
Definition set_uc_la (v : D) (x : surf_comp (D := D)) : surf_comp :=
  SurfComp (uc_formula x) (uc_z x) (uc_moles x) (uc_totals x) v (uc_charge x) (uc_cb x)
    (uc_phase x) (uc_prop x) (uc_rate x) (uc_dw x) (uc_master x).
Definition set_uc_charge (v : string) (x : surf_comp (D := D)) : surf_comp :=
  SurfComp (uc_formula x) (uc_z x) (uc_moles x) (uc_totals x) (uc_la x) v (uc_cb x) (uc_phase x)
    (uc_prop x) (uc_rate x) (uc_dw x) (uc_master x).
Definition set_uc_cb (v : D) (x : surf_comp (D := D)) : surf_comp :=
  SurfComp (uc_formula x) (uc_z x) (uc_moles x) (uc_totals x) (uc_la x) (uc_charge x) v
    (uc_phase x) (uc_prop x) (uc_rate x) (uc_dw x) (uc_master x).
Definition set_uc_phase (v : string) (x : surf_comp (D := D)) : surf_comp :=
  SurfComp (uc_formula x) (uc_z x) (uc_moles x) (uc_totals x) (uc_la x) (uc_charge x) (uc_cb x)
    v (uc_prop x) (uc_rate x) (uc_dw x) (uc_master x).
Definition set_uc_prop (v : D) (x : surf_comp (D := D)) : surf_comp :=
  SurfComp (uc_formula x) (uc_z x) (uc_moles x) (uc_totals x) (uc_la x) (uc_charge x) (uc_cb x)
    (uc_phase x) v (uc_rate x) (uc_dw x) (uc_master x).
Definition set_uc_rate (v : string) (x : surf_comp (D := D)) : surf_comp :=
  SurfComp (uc_formula x) (uc_z x) (uc_moles x) (uc_totals x) (uc_la x) (uc_charge x) (uc_cb x)
    (uc_phase x) (uc_prop x) v (uc_dw x) (uc_master x).
Definition set_uc_dw (v : D) (x : surf_comp (D := D)) : surf_comp :=
  SurfComp (uc_formula x) (uc_z x) (uc_moles x) (uc_totals x) (uc_la x) (uc_charge x) (uc_cb x)
    (uc_phase x) (uc_prop x) (uc_rate x) v (uc_master x).
Definition set_uc_master (v : string) (x : surf_comp (D := D)) : surf_comp :=
  SurfComp (uc_formula x) (uc_z x) (uc_moles x) (uc_totals x) (uc_la x) (uc_charge x) (uc_cb x)
    (uc_phase x) (uc_prop x) (uc_rate x) (uc_dw x) v.

(** surf_charge *)
Definition set_uh_area (v : D) (x : surf_charge (D := D)) : surf_charge :=
  SurfCharge (uh_name x) v (uh_grams x) (uh_cb x) (uh_water x) (uh_visc x) (uh_free x) (uh_la x)
    (uh_cap0 x) (uh_cap1 x) (uh_dl x) (uh_s0 x) (uh_s1 x) (uh_s2 x) (uh_sd x) (uh_g x)
    (uh_mcd x) (uh_species x).
Definition set_uh_grams (v : D) (x : surf_charge (D := D)) : surf_charge :=
  SurfCharge (uh_name x) (uh_area x) v (uh_cb x) (uh_water x) (uh_visc x) (uh_free x) (uh_la x)
    (uh_cap0 x) (uh_cap1 x) (uh_dl x) (uh_s0 x) (uh_s1 x) (uh_s2 x) (uh_sd x) (uh_g x)
    (uh_mcd x) (uh_species x).
Definition set_uh_cb (v : D) (x : surf_charge (D := D)) : surf_charge :=
  SurfCharge (uh_name x) (uh_area x) (uh_grams x) v (uh_water x) (uh_visc x) (uh_free x)
    (uh_la x) (uh_cap0 x) (uh_cap1 x) (uh_dl x) (uh_s0 x) (uh_s1 x) (uh_s2 x) (uh_sd x) (uh_g x)
    (uh_mcd x) (uh_species x).
Definition set_uh_water (v : D) (x : surf_charge (D := D)) : surf_charge :=
  SurfCharge (uh_name x) (uh_area x) (uh_grams x) (uh_cb x) v (uh_visc x) (uh_free x) (uh_la x)
    (uh_cap0 x) (uh_cap1 x) (uh_dl x) (uh_s0 x) (uh_s1 x) (uh_s2 x) (uh_sd x) (uh_g x)
    (uh_mcd x) (uh_species x).
Definition set_uh_visc (v : D) (x : surf_charge (D := D)) : surf_charge :=
  SurfCharge (uh_name x) (uh_area x) (uh_grams x) (uh_cb x) (uh_water x) v (uh_free x) (uh_la x)
    (uh_cap0 x) (uh_cap1 x) (uh_dl x) (uh_s0 x) (uh_s1 x) (uh_s2 x) (uh_sd x) (uh_g x)
    (uh_mcd x) (uh_species x).
Definition set_uh_free (v : D) (x : surf_charge (D := D)) : surf_charge :=
  SurfCharge (uh_name x) (uh_area x) (uh_grams x) (uh_cb x) (uh_water x) (uh_visc x) v (uh_la x)
    (uh_cap0 x) (uh_cap1 x) (uh_dl x) (uh_s0 x) (uh_s1 x) (uh_s2 x) (uh_sd x) (uh_g x)
    (uh_mcd x) (uh_species x).
Definition set_uh_la (v : D) (x : surf_charge (D := D)) : surf_charge :=
  SurfCharge (uh_name x) (uh_area x) (uh_grams x) (uh_cb x) (uh_water x) (uh_visc x) (uh_free x)
    v (uh_cap0 x) (uh_cap1 x) (uh_dl x) (uh_s0 x) (uh_s1 x) (uh_s2 x) (uh_sd x) (uh_g x)
    (uh_mcd x) (uh_species x).
Definition set_uh_cap0 (v : D) (x : surf_charge (D := D)) : surf_charge :=
  SurfCharge (uh_name x) (uh_area x) (uh_grams x) (uh_cb x) (uh_water x) (uh_visc x) (uh_free x)
    (uh_la x) v (uh_cap1 x) (uh_dl x) (uh_s0 x) (uh_s1 x) (uh_s2 x) (uh_sd x) (uh_g x)
    (uh_mcd x) (uh_species x).
Definition set_uh_cap1 (v : D) (x : surf_charge (D := D)) : surf_charge :=
  SurfCharge (uh_name x) (uh_area x) (uh_grams x) (uh_cb x) (uh_water x) (uh_visc x) (uh_free x)
    (uh_la x) (uh_cap0 x) v (uh_dl x) (uh_s0 x) (uh_s1 x) (uh_s2 x) (uh_sd x) (uh_g x)
    (uh_mcd x) (uh_species x).
Definition set_uh_dl (v : nmap D) (x : surf_charge (D := D)) : surf_charge :=
  SurfCharge (uh_name x) (uh_area x) (uh_grams x) (uh_cb x) (uh_water x) (uh_visc x) (uh_free x)
    (uh_la x) (uh_cap0 x) (uh_cap1 x) v (uh_s0 x) (uh_s1 x) (uh_s2 x) (uh_sd x) (uh_g x)
    (uh_mcd x) (uh_species x).
Definition set_uh_s0 (v : D) (x : surf_charge (D := D)) : surf_charge :=
  SurfCharge (uh_name x) (uh_area x) (uh_grams x) (uh_cb x) (uh_water x) (uh_visc x) (uh_free x)
    (uh_la x) (uh_cap0 x) (uh_cap1 x) (uh_dl x) v (uh_s1 x) (uh_s2 x) (uh_sd x) (uh_g x)
    (uh_mcd x) (uh_species x).
Definition set_uh_s1 (v : D) (x : surf_charge (D := D)) : surf_charge :=
  SurfCharge (uh_name x) (uh_area x) (uh_grams x) (uh_cb x) (uh_water x) (uh_visc x) (uh_free x)
    (uh_la x) (uh_cap0 x) (uh_cap1 x) (uh_dl x) (uh_s0 x) v (uh_s2 x) (uh_sd x) (uh_g x)
    (uh_mcd x) (uh_species x).
Definition set_uh_s2 (v : D) (x : surf_charge (D := D)) : surf_charge :=
  SurfCharge (uh_name x) (uh_area x) (uh_grams x) (uh_cb x) (uh_water x) (uh_visc x) (uh_free x)
    (uh_la x) (uh_cap0 x) (uh_cap1 x) (uh_dl x) (uh_s0 x) (uh_s1 x) v (uh_sd x) (uh_g x)
    (uh_mcd x) (uh_species x).
Definition set_uh_sd (v : D) (x : surf_charge (D := D)) : surf_charge :=
  SurfCharge (uh_name x) (uh_area x) (uh_grams x) (uh_cb x) (uh_water x) (uh_visc x) (uh_free x)
    (uh_la x) (uh_cap0 x) (uh_cap1 x) (uh_dl x) (uh_s0 x) (uh_s1 x) (uh_s2 x) v (uh_g x)
    (uh_mcd x) (uh_species x).
Definition set_uh_g (v : list (D * (surf_dl (D := D)))) (x : surf_charge (D := D)) : surf_charge :=
  SurfCharge (uh_name x) (uh_area x) (uh_grams x) (uh_cb x) (uh_water x) (uh_visc x) (uh_free x)
    (uh_la x) (uh_cap0 x) (uh_cap1 x) (uh_dl x) (uh_s0 x) (uh_s1 x) (uh_s2 x) (uh_sd x) v
    (uh_mcd x) (uh_species x).
Definition set_uh_species (v : list (Z * D)) (x : surf_charge (D := D)) : surf_charge :=
  SurfCharge (uh_name x) (uh_area x) (uh_grams x) (uh_cb x) (uh_water x) (uh_visc x) (uh_free x)
    (uh_la x) (uh_cap0 x) (uh_cap1 x) (uh_dl x) (uh_s0 x) (uh_s1 x) (uh_s2 x) (uh_sd x) (uh_g x)
    (uh_mcd x) v.

(** surface *)
Definition set_su_comps (v : list (surf_comp (D := D))) (x : surface (D := D)) : surface :=
  Surface (su_n x) (su_end x) (su_text x) v (su_charges x) (su_new x) (su_tidied x) (su_type x)
    (su_dl x) (su_units x) (su_only x) (su_thick x) (su_debye x) (su_visc x) (su_calc x)
    (su_limit x) (su_correct x) (su_trans x) (su_totals x) (su_equil x) (su_soln x).
Definition set_su_charges (v : list (surf_charge (D := D))) (x : surface (D := D)) : surface :=
  Surface (su_n x) (su_end x) (su_text x) (su_comps x) v (su_new x) (su_tidied x) (su_type x)
    (su_dl x) (su_units x) (su_only x) (su_thick x) (su_debye x) (su_visc x) (su_calc x)
    (su_limit x) (su_correct x) (su_trans x) (su_totals x) (su_equil x) (su_soln x).
Definition set_su_new (v : bool) (x : surface (D := D)) : surface :=
  Surface (su_n x) (su_end x) (su_text x) (su_comps x) (su_charges x) v (su_tidied x)
    (su_type x) (su_dl x) (su_units x) (su_only x) (su_thick x) (su_debye x) (su_visc x)
    (su_calc x) (su_limit x) (su_correct x) (su_trans x) (su_totals x) (su_equil x) (su_soln x).
Definition set_su_tidied (v : bool) (x : surface (D := D)) : surface :=
  Surface (su_n x) (su_end x) (su_text x) (su_comps x) (su_charges x) (su_new x) v (su_type x)
    (su_dl x) (su_units x) (su_only x) (su_thick x) (su_debye x) (su_visc x) (su_calc x)
    (su_limit x) (su_correct x) (su_trans x) (su_totals x) (su_equil x) (su_soln x).
Definition set_su_type (v : Z) (x : surface (D := D)) : surface :=
  Surface (su_n x) (su_end x) (su_text x) (su_comps x) (su_charges x) (su_new x) (su_tidied x) v
    (su_dl x) (su_units x) (su_only x) (su_thick x) (su_debye x) (su_visc x) (su_calc x)
    (su_limit x) (su_correct x) (su_trans x) (su_totals x) (su_equil x) (su_soln x).
Definition set_su_dl (v : Z) (x : surface (D := D)) : surface :=
  Surface (su_n x) (su_end x) (su_text x) (su_comps x) (su_charges x) (su_new x) (su_tidied x)
    (su_type x) v (su_units x) (su_only x) (su_thick x) (su_debye x) (su_visc x) (su_calc x)
    (su_limit x) (su_correct x) (su_trans x) (su_totals x) (su_equil x) (su_soln x).
Definition set_su_units (v : Z) (x : surface (D := D)) : surface :=
  Surface (su_n x) (su_end x) (su_text x) (su_comps x) (su_charges x) (su_new x) (su_tidied x)
    (su_type x) (su_dl x) v (su_only x) (su_thick x) (su_debye x) (su_visc x) (su_calc x)
    (su_limit x) (su_correct x) (su_trans x) (su_totals x) (su_equil x) (su_soln x).
Definition set_su_only (v : bool) (x : surface (D := D)) : surface :=
  Surface (su_n x) (su_end x) (su_text x) (su_comps x) (su_charges x) (su_new x) (su_tidied x)
    (su_type x) (su_dl x) (su_units x) v (su_thick x) (su_debye x) (su_visc x) (su_calc x)
    (su_limit x) (su_correct x) (su_trans x) (su_totals x) (su_equil x) (su_soln x).
Definition set_su_thick (v : D) (x : surface (D := D)) : surface :=
  Surface (su_n x) (su_end x) (su_text x) (su_comps x) (su_charges x) (su_new x) (su_tidied x)
    (su_type x) (su_dl x) (su_units x) (su_only x) v (su_debye x) (su_visc x) (su_calc x)
    (su_limit x) (su_correct x) (su_trans x) (su_totals x) (su_equil x) (su_soln x).
Definition set_su_debye (v : D) (x : surface (D := D)) : surface :=
  Surface (su_n x) (su_end x) (su_text x) (su_comps x) (su_charges x) (su_new x) (su_tidied x)
    (su_type x) (su_dl x) (su_units x) (su_only x) (su_thick x) v (su_visc x) (su_calc x)
    (su_limit x) (su_correct x) (su_trans x) (su_totals x) (su_equil x) (su_soln x).
Definition set_su_visc (v : D) (x : surface (D := D)) : surface :=
  Surface (su_n x) (su_end x) (su_text x) (su_comps x) (su_charges x) (su_new x) (su_tidied x)
    (su_type x) (su_dl x) (su_units x) (su_only x) (su_thick x) (su_debye x) v (su_calc x)
    (su_limit x) (su_correct x) (su_trans x) (su_totals x) (su_equil x) (su_soln x).
Definition set_su_limit (v : D) (x : surface (D := D)) : surface :=
  Surface (su_n x) (su_end x) (su_text x) (su_comps x) (su_charges x) (su_new x) (su_tidied x)
    (su_type x) (su_dl x) (su_units x) (su_only x) (su_thick x) (su_debye x) (su_visc x)
    (su_calc x) v (su_correct x) (su_trans x) (su_totals x) (su_equil x) (su_soln x).
Definition set_su_correct (v : bool) (x : surface (D := D)) : surface :=
  Surface (su_n x) (su_end x) (su_text x) (su_comps x) (su_charges x) (su_new x) (su_tidied x)
    (su_type x) (su_dl x) (su_units x) (su_only x) (su_thick x) (su_debye x) (su_visc x)
    (su_calc x) (su_limit x) v (su_trans x) (su_totals x) (su_equil x) (su_soln x).
Definition set_su_trans (v : bool) (x : surface (D := D)) : surface :=
  Surface (su_n x) (su_end x) (su_text x) (su_comps x) (su_charges x) (su_new x) (su_tidied x)
    (su_type x) (su_dl x) (su_units x) (su_only x) (su_thick x) (su_debye x) (su_visc x)
    (su_calc x) (su_limit x) (su_correct x) v (su_totals x) (su_equil x) (su_soln x).
Definition set_su_totals (v : nmap D) (x : surface (D := D)) : surface :=
  Surface (su_n x) (su_end x) (su_text x) (su_comps x) (su_charges x) (su_new x) (su_tidied x)
    (su_type x) (su_dl x) (su_units x) (su_only x) (su_thick x) (su_debye x) (su_visc x)
    (su_calc x) (su_limit x) (su_correct x) (su_trans x) v (su_equil x) (su_soln x).
Definition set_su_equil (v : bool) (x : surface (D := D)) : surface :=
  Surface (su_n x) (su_end x) (su_text x) (su_comps x) (su_charges x) (su_new x) (su_tidied x)
    (su_type x) (su_dl x) (su_units x) (su_only x) (su_thick x) (su_debye x) (su_visc x)
    (su_calc x) (su_limit x) (su_correct x) (su_trans x) (su_totals x) v (su_soln x).
Definition set_su_soln (v : Z) (x : surface (D := D)) : surface :=
  Surface (su_n x) (su_end x) (su_text x) (su_comps x) (su_charges x) (su_new x) (su_tidied x)
    (su_type x) (su_dl x) (su_units x) (su_only x) (su_thick x) (su_debye x) (su_visc x)
    (su_calc x) (su_limit x) (su_correct x) (su_trans x) (su_totals x) (su_equil x) v.

(** solution *)
Definition set_so_patm (v : D) (x : solution (D := D)) : solution :=
  Solution (so_n x) (so_end x) (so_text x) (so_new x) v (so_pot x) (so_tc x) (so_ph x) (so_pe x)
    (so_mu x) (so_ah2o x) (so_h x) (so_o x) (so_cb x) (so_water x) (so_dens x) (so_visc x)
    (so_visc0 x) (so_vol x) (so_alk x) (so_totals x) (so_act x) (so_gamma x) (so_iso x)
    (so_initial x) (so_species x) (so_loggam x) (so_logmol x).
Definition set_so_pot (v : D) (x : solution (D := D)) : solution :=
  Solution (so_n x) (so_end x) (so_text x) (so_new x) (so_patm x) v (so_tc x) (so_ph x)
    (so_pe x) (so_mu x) (so_ah2o x) (so_h x) (so_o x) (so_cb x) (so_water x) (so_dens x)
    (so_visc x) (so_visc0 x) (so_vol x) (so_alk x) (so_totals x) (so_act x) (so_gamma x)
    (so_iso x) (so_initial x) (so_species x) (so_loggam x) (so_logmol x).
Definition set_so_tc (v : D) (x : solution (D := D)) : solution :=
  Solution (so_n x) (so_end x) (so_text x) (so_new x) (so_patm x) (so_pot x) v (so_ph x)
    (so_pe x) (so_mu x) (so_ah2o x) (so_h x) (so_o x) (so_cb x) (so_water x) (so_dens x)
    (so_visc x) (so_visc0 x) (so_vol x) (so_alk x) (so_totals x) (so_act x) (so_gamma x)
    (so_iso x) (so_initial x) (so_species x) (so_loggam x) (so_logmol x).
Definition set_so_ph (v : D) (x : solution (D := D)) : solution :=
  Solution (so_n x) (so_end x) (so_text x) (so_new x) (so_patm x) (so_pot x) (so_tc x) v
    (so_pe x) (so_mu x) (so_ah2o x) (so_h x) (so_o x) (so_cb x) (so_water x) (so_dens x)
    (so_visc x) (so_visc0 x) (so_vol x) (so_alk x) (so_totals x) (so_act x) (so_gamma x)
    (so_iso x) (so_initial x) (so_species x) (so_loggam x) (so_logmol x).
Definition set_so_pe (v : D) (x : solution (D := D)) : solution :=
  Solution (so_n x) (so_end x) (so_text x) (so_new x) (so_patm x) (so_pot x) (so_tc x) (so_ph x)
    v (so_mu x) (so_ah2o x) (so_h x) (so_o x) (so_cb x) (so_water x) (so_dens x) (so_visc x)
    (so_visc0 x) (so_vol x) (so_alk x) (so_totals x) (so_act x) (so_gamma x) (so_iso x)
    (so_initial x) (so_species x) (so_loggam x) (so_logmol x).
Definition set_so_mu (v : D) (x : solution (D := D)) : solution :=
  Solution (so_n x) (so_end x) (so_text x) (so_new x) (so_patm x) (so_pot x) (so_tc x) (so_ph x)
    (so_pe x) v (so_ah2o x) (so_h x) (so_o x) (so_cb x) (so_water x) (so_dens x) (so_visc x)
    (so_visc0 x) (so_vol x) (so_alk x) (so_totals x) (so_act x) (so_gamma x) (so_iso x)
    (so_initial x) (so_species x) (so_loggam x) (so_logmol x).
Definition set_so_ah2o (v : D) (x : solution (D := D)) : solution :=
  Solution (so_n x) (so_end x) (so_text x) (so_new x) (so_patm x) (so_pot x) (so_tc x) (so_ph x)
    (so_pe x) (so_mu x) v (so_h x) (so_o x) (so_cb x) (so_water x) (so_dens x) (so_visc x)
    (so_visc0 x) (so_vol x) (so_alk x) (so_totals x) (so_act x) (so_gamma x) (so_iso x)
    (so_initial x) (so_species x) (so_loggam x) (so_logmol x).
Definition set_so_h (v : D) (x : solution (D := D)) : solution :=
  Solution (so_n x) (so_end x) (so_text x) (so_new x) (so_patm x) (so_pot x) (so_tc x) (so_ph x)
    (so_pe x) (so_mu x) (so_ah2o x) v (so_o x) (so_cb x) (so_water x) (so_dens x) (so_visc x)
    (so_visc0 x) (so_vol x) (so_alk x) (so_totals x) (so_act x) (so_gamma x) (so_iso x)
    (so_initial x) (so_species x) (so_loggam x) (so_logmol x).
Definition set_so_o (v : D) (x : solution (D := D)) : solution :=
  Solution (so_n x) (so_end x) (so_text x) (so_new x) (so_patm x) (so_pot x) (so_tc x) (so_ph x)
    (so_pe x) (so_mu x) (so_ah2o x) (so_h x) v (so_cb x) (so_water x) (so_dens x) (so_visc x)
    (so_visc0 x) (so_vol x) (so_alk x) (so_totals x) (so_act x) (so_gamma x) (so_iso x)
    (so_initial x) (so_species x) (so_loggam x) (so_logmol x).
Definition set_so_cb (v : D) (x : solution (D := D)) : solution :=
  Solution (so_n x) (so_end x) (so_text x) (so_new x) (so_patm x) (so_pot x) (so_tc x) (so_ph x)
    (so_pe x) (so_mu x) (so_ah2o x) (so_h x) (so_o x) v (so_water x) (so_dens x) (so_visc x)
    (so_visc0 x) (so_vol x) (so_alk x) (so_totals x) (so_act x) (so_gamma x) (so_iso x)
    (so_initial x) (so_species x) (so_loggam x) (so_logmol x).
Definition set_so_water (v : D) (x : solution (D := D)) : solution :=
  Solution (so_n x) (so_end x) (so_text x) (so_new x) (so_patm x) (so_pot x) (so_tc x) (so_ph x)
    (so_pe x) (so_mu x) (so_ah2o x) (so_h x) (so_o x) (so_cb x) v (so_dens x) (so_visc x)
    (so_visc0 x) (so_vol x) (so_alk x) (so_totals x) (so_act x) (so_gamma x) (so_iso x)
    (so_initial x) (so_species x) (so_loggam x) (so_logmol x).
Definition set_so_dens (v : D) (x : solution (D := D)) : solution :=
  Solution (so_n x) (so_end x) (so_text x) (so_new x) (so_patm x) (so_pot x) (so_tc x) (so_ph x)
    (so_pe x) (so_mu x) (so_ah2o x) (so_h x) (so_o x) (so_cb x) (so_water x) v (so_visc x)
    (so_visc0 x) (so_vol x) (so_alk x) (so_totals x) (so_act x) (so_gamma x) (so_iso x)
    (so_initial x) (so_species x) (so_loggam x) (so_logmol x).
Definition set_so_visc (v : D) (x : solution (D := D)) : solution :=
  Solution (so_n x) (so_end x) (so_text x) (so_new x) (so_patm x) (so_pot x) (so_tc x) (so_ph x)
    (so_pe x) (so_mu x) (so_ah2o x) (so_h x) (so_o x) (so_cb x) (so_water x) (so_dens x) v
    (so_visc0 x) (so_vol x) (so_alk x) (so_totals x) (so_act x) (so_gamma x) (so_iso x)
    (so_initial x) (so_species x) (so_loggam x) (so_logmol x).
Definition set_so_visc0 (v : D) (x : solution (D := D)) : solution :=
  Solution (so_n x) (so_end x) (so_text x) (so_new x) (so_patm x) (so_pot x) (so_tc x) (so_ph x)
    (so_pe x) (so_mu x) (so_ah2o x) (so_h x) (so_o x) (so_cb x) (so_water x) (so_dens x)
    (so_visc x) v (so_vol x) (so_alk x) (so_totals x) (so_act x) (so_gamma x) (so_iso x)
    (so_initial x) (so_species x) (so_loggam x) (so_logmol x).
Definition set_so_vol (v : D) (x : solution (D := D)) : solution :=
  Solution (so_n x) (so_end x) (so_text x) (so_new x) (so_patm x) (so_pot x) (so_tc x) (so_ph x)
    (so_pe x) (so_mu x) (so_ah2o x) (so_h x) (so_o x) (so_cb x) (so_water x) (so_dens x)
    (so_visc x) (so_visc0 x) v (so_alk x) (so_totals x) (so_act x) (so_gamma x) (so_iso x)
    (so_initial x) (so_species x) (so_loggam x) (so_logmol x).
Definition set_so_alk (v : D) (x : solution (D := D)) : solution :=
  Solution (so_n x) (so_end x) (so_text x) (so_new x) (so_patm x) (so_pot x) (so_tc x) (so_ph x)
    (so_pe x) (so_mu x) (so_ah2o x) (so_h x) (so_o x) (so_cb x) (so_water x) (so_dens x)
    (so_visc x) (so_visc0 x) (so_vol x) v (so_totals x) (so_act x) (so_gamma x) (so_iso x)
    (so_initial x) (so_species x) (so_loggam x) (so_logmol x).
Definition set_so_totals (v : nmap D) (x : solution (D := D)) : solution :=
  Solution (so_n x) (so_end x) (so_text x) (so_new x) (so_patm x) (so_pot x) (so_tc x) (so_ph x)
    (so_pe x) (so_mu x) (so_ah2o x) (so_h x) (so_o x) (so_cb x) (so_water x) (so_dens x)
    (so_visc x) (so_visc0 x) (so_vol x) (so_alk x) v (so_act x) (so_gamma x) (so_iso x)
    (so_initial x) (so_species x) (so_loggam x) (so_logmol x).
Definition set_so_act (v : nmap D) (x : solution (D := D)) : solution :=
  Solution (so_n x) (so_end x) (so_text x) (so_new x) (so_patm x) (so_pot x) (so_tc x) (so_ph x)
    (so_pe x) (so_mu x) (so_ah2o x) (so_h x) (so_o x) (so_cb x) (so_water x) (so_dens x)
    (so_visc x) (so_visc0 x) (so_vol x) (so_alk x) (so_totals x) v (so_gamma x) (so_iso x)
    (so_initial x) (so_species x) (so_loggam x) (so_logmol x).
Definition set_so_gamma (v : nmap D) (x : solution (D := D)) : solution :=
  Solution (so_n x) (so_end x) (so_text x) (so_new x) (so_patm x) (so_pot x) (so_tc x) (so_ph x)
    (so_pe x) (so_mu x) (so_ah2o x) (so_h x) (so_o x) (so_cb x) (so_water x) (so_dens x)
    (so_visc x) (so_visc0 x) (so_vol x) (so_alk x) (so_totals x) (so_act x) v (so_iso x)
    (so_initial x) (so_species x) (so_loggam x) (so_logmol x).
Definition set_so_species (v : list (Z * D)) (x : solution (D := D)) : solution :=
  Solution (so_n x) (so_end x) (so_text x) (so_new x) (so_patm x) (so_pot x) (so_tc x) (so_ph x)
    (so_pe x) (so_mu x) (so_ah2o x) (so_h x) (so_o x) (so_cb x) (so_water x) (so_dens x)
    (so_visc x) (so_visc0 x) (so_vol x) (so_alk x) (so_totals x) (so_act x) (so_gamma x)
    (so_iso x) (so_initial x) v (so_loggam x) (so_logmol x).
Definition set_so_loggam (v : list (Z * D)) (x : solution (D := D)) : solution :=
  Solution (so_n x) (so_end x) (so_text x) (so_new x) (so_patm x) (so_pot x) (so_tc x) (so_ph x)
    (so_pe x) (so_mu x) (so_ah2o x) (so_h x) (so_o x) (so_cb x) (so_water x) (so_dens x)
    (so_visc x) (so_visc0 x) (so_vol x) (so_alk x) (so_totals x) (so_act x) (so_gamma x)
    (so_iso x) (so_initial x) (so_species x) v (so_logmol x).
Definition set_so_logmol (v : list (Z * D)) (x : solution (D := D)) : solution :=
  Solution (so_n x) (so_end x) (so_text x) (so_new x) (so_patm x) (so_pot x) (so_tc x) (so_ph x)
    (so_pe x) (so_mu x) (so_ah2o x) (so_h x) (so_o x) (so_cb x) (so_water x) (so_dens x)
    (so_visc x) (so_visc0 x) (so_vol x) (so_alk x) (so_totals x) (so_act x) (so_gamma x)
    (so_iso x) (so_initial x) (so_species x) (so_loggam x) v.

(** steps *)
Definition set_st_list (v : list D) (x : steps (D := D)) : steps :=
  Steps (st_n x) (st_end x) (st_text x) v (st_count x) (st_equal x).
Definition set_st_count (v : Z) (x : steps (D := D)) : steps :=
  Steps (st_n x) (st_end x) (st_text x) (st_list x) v (st_equal x).
Definition set_st_equal (v : bool) (x : steps (D := D)) : steps :=
  Steps (st_n x) (st_end x) (st_text x) (st_list x) (st_count x) v.

(** mixture *)
Definition set_mi_comps (v : list (Z * D)) (x : mixture (D := D)) : mixture :=
  Mixture (mi_n x) (mi_end x) (mi_text x) v.

(** reaction *)
Definition set_rx_units (v : string) (x : reaction (D := D)) : reaction :=
  Reaction (rx_n x) (rx_end x) (rx_text x) v (rx_list x) (rx_elts x) (rx_steps x) (rx_count x) (rx_equal x).
Definition set_rx_list (v : nmap D) (x : reaction (D := D)) : reaction :=
  Reaction (rx_n x) (rx_end x) (rx_text x) (rx_units x) v (rx_elts x) (rx_steps x) (rx_count x) (rx_equal x).
Definition set_rx_elts (v : nmap D) (x : reaction (D := D)) : reaction :=
  Reaction (rx_n x) (rx_end x) (rx_text x) (rx_units x) (rx_list x) v (rx_steps x) (rx_count x) (rx_equal x).
Definition set_rx_steps (v : list D) (x : reaction (D := D)) : reaction :=
  Reaction (rx_n x) (rx_end x) (rx_text x) (rx_units x) (rx_list x) (rx_elts x) v (rx_count x) (rx_equal x).
Definition set_rx_count (v : Z) (x : reaction (D := D)) : reaction :=
  Reaction (rx_n x) (rx_end x) (rx_text x) (rx_units x) (rx_list x) (rx_elts x) (rx_steps x) v (rx_equal x).
Definition set_rx_equal (v : bool) (x : reaction (D := D)) : reaction :=
  Reaction (rx_n x) (rx_end x) (rx_text x) (rx_units x) (rx_list x) (rx_elts x) (rx_steps x) (rx_count x) v.

End Fields.
