(** Mixing of the reactants that are not solutions: exchangers, equilibrium phases, gas phases,
    solid solutions, kinetic reactants and surfaces.

    Source: src/IPhreeqcPhast/IPhreeqc/phreeqcpp/ (file names below are relative to it).

    [LDBLE] is modelled by exact rationals (see Solution/Model.v).  The user number of a reactant
    is the key under which it is stored and is not repeated inside.  [assert]s (absent from release
    builds) and printed messages are left out.  Fields that no modelled function reads or writes
    are left out; each record says which. *)
From Coq Require Import String Ascii QArith Qcanon.
From stdpp Require Import prelude strings gmap.
From Verif.Names Require Import Model.
From Verif.Solution Require Import Model.
Local Open Scope Qc_scope.

(** tolower and strcmp_nocase (utilities.cpp 866-881, "C" locale), as an equality test. *)
Definition to_lower (c : ascii) : ascii :=
  let n := nat_of_ascii c in
  if (65 <=? n)%nat && (n <=? 90)%nat then ascii_of_nat (n + 32) else c.
Fixpoint lowered (s : string) : string :=
  match s with EmptyString => EmptyString | String c s' => String (to_lower c) (lowered s') end.
Definition same_nocase (a b : string) : bool := String.eqb (lowered a) (lowered b).
Definition is_empty (s : string) : bool := String.eqb s "".

Definition half : Qc := Q2Qc (1 # 2).

(** The weights ext1/(ext1+ext2), ext2/(ext1+ext2), or 1/2 each when the sum is 0
    (PPassemblageComp.cxx 352-364, GasComp.cxx 197-209, SurfaceComp.cxx 391-403,
    SurfaceCharge.cxx 460-472). *)
Definition weights (ext1 ext2 : Qc) : Qc * Qc :=
  if Qc_zerob (ext1 + ext2) then (half, half)
  else (ext1 / (ext1 + ext2), ext2 / (ext1 + ext2)).

(** The loop shared by cxxExchange::add (Exchange.cxx 333-347), cxxKinetics::add
    (cxxKinetics.cxx 430-452), cxxSurface::add (Surface.cxx 599-641) and cxxSS::add
    (SS.cxx 453-482): the addee's component goes into the first component with the same name, or
    is scaled and appended. *)
Section comps.
  Context {C : Type} (same : C -> C -> bool) (cadd : C -> Qc -> C -> C) (cmul : Qc -> C -> C).
  Fixpoint add_into (a : C) (x : Qc) (l : list C) : list C :=
    match l with
    | [] => [cmul x a]
    | c :: l' => if same a c then cadd a x c :: l' else c :: add_into a x l'
    end.
  Definition add_all (la : list C) (x : Qc) (l : list C) : list C :=
    fold_left (fun acc a => add_into a x acc) la l.
End comps.

(** The loop of the mixing constructors: every entry of the mix that exists is added, in order of
    its number. *)
Section mixing.
  Context {A : Type} (add : A -> Qc -> A -> A).
  Definition mixed (ents : gmap Z A) (m : mixmap) (zero : A) : A :=
    fold_left (fun acc p => match ents !! p.1 with Some a => add a p.2 acc | None => acc end)
      m zero.
End mixing.

(** ** Exchange *)

(** ExchComp.h 74-83 *)
Record ecomp := ECo {
  ec_formula : string; ec_totals : nmap Qc; ec_la : Qc; ec_cb : Qc;
  ec_phase : string; ec_prop : Qc; ec_rate : string }.

(** cxxExchComp::add, ExchComp.cxx 282-349 *)
Definition ecomp_add (a : ecomp) (x : Qc) (c : ecomp) : ecomp :=
  if Qc_zerob x then c
  else if is_empty (ec_formula a) then c
  else
    let t := nd_add_extensive Qcplus Qcmult false (ec_totals a) x (ec_totals c) in
    let la := half * ec_la c + half * ec_la a in
    let cb := ec_cb c + ec_cb a * x in
    let average p := p * half + ec_prop a * half in
    let p1 := if negb (is_empty (ec_phase c)) then average (ec_prop c) else ec_prop c in
    let p2 := if negb (is_empty (ec_rate c)) then average p1 else p1 in
    ECo (ec_formula c) t la cb (ec_phase c)
        (if negb (same_nocase (ec_phase c) (ec_phase a)) then ec_prop c
         else if negb (same_nocase (ec_rate c) (ec_rate a)) then p1 else p2)
        (ec_rate c).
(** cxxExchComp::multiply, ExchComp.cxx 350-356 *)
Definition ecomp_mul (x : Qc) (c : ecomp) : ecomp :=
  ECo (ec_formula c) (nd_multiply Qcmult x (ec_totals c)) (ec_la c) (ec_cb c * x)
      (ec_phase c) (ec_prop c) (ec_rate c).
Definition ecomp_same (a c : ecomp) : bool := String.eqb (ec_formula a) (ec_formula c).

(** Exchange.h 47-53; new_def, solution_equilibria and n_solution are reset by mixing and left
    out, [totals] is recomputed by totalize. *)
Record exch := Exch { ex_comps : list ecomp; ex_pitzer : bool }.
(** Start of the mixing constructor, Exchange.cxx 45-49 *)
Definition exch_zero : exch := Exch [] true.
(** cxxExchange::add, Exchange.cxx 324-350, followed by line 63 of the constructor *)
Definition exch_add (a : exch) (x : Qc) (e : exch) : exch :=
  let e' := if Qc_zerob x then e
            else Exch (add_all ecomp_same ecomp_add ecomp_mul (ex_comps a) x (ex_comps e)) (ex_pitzer a) in
  Exch (ex_comps e') (ex_pitzer a).
(** Mixing constructor, Exchange.cxx 41-66 *)
Definition exch_mix (ents : gmap Z exch) (m : mixmap) : exch := mixed exch_add ents m exch_zero.

(** ** Equilibrium phases *)

(** PPassemblageComp.h 66-77 without the three flags (copied, never changed) and [totals] *)
Record pcomp := PCo {
  pc_name : string; pc_formula : string; pc_si : Qc; pc_si_org : Qc;
  pc_moles : Qc; pc_delta : Qc; pc_init : Qc }.
(** cxxPPassemblageComp::add, PPassemblageComp.cxx 342-386 *)
Definition pcomp_add (a : pcomp) (x : Qc) (c : pcomp) : pcomp :=
  if Qc_zerob x then c
  else if is_empty (pc_name a) then c
  else
    let '(f1, f2) := weights (pc_moles c) (pc_moles a * x) in
    if negb (String.eqb (pc_formula c) (pc_formula a)) then c
    else PCo (pc_name c) (pc_formula c) (pc_si c * f1 + pc_si a * f2)
             (pc_si_org c * f1 + pc_si_org a * f2) (pc_moles c + pc_moles a * x)
             (pc_delta c + pc_delta a * x) (pc_init c + pc_init a * x).
(** cxxPPassemblageComp::multiply, 387-393 *)
Definition pcomp_mul (x : Qc) (c : pcomp) : pcomp :=
  PCo (pc_name c) (pc_formula c) (pc_si c) (pc_si_org c)
      (pc_moles c * x) (pc_delta c * x) (pc_init c * x).

(** PPassemblage.h: the component map and eltList *)
Record pp := Pp { pp_comps : nmap pcomp; pp_elts : nmap Qc }.
Definition pp_zero : pp := Pp [] [].

(** The loop body of cxxPPassemblage::add, PPassemblage.cxx 284-308: first component (in map order)
    whose name is the addee's, else a new entry under the name *)
Fixpoint pp_update (a : pcomp) (x : Qc) (l : nmap pcomp) : option (nmap pcomp) :=
  match l with
  | [] => None
  | (k, c) :: l' =>
      if String.eqb (pc_name c) (pc_name a) then Some ((k, pcomp_add a x c) :: l')
      else option_map (cons (k, c)) (pp_update a x l')
  end.
Definition pp_add_comp (a : pcomp) (x : Qc) (l : nmap pcomp) : nmap pcomp :=
  match pp_update a x l with
  | Some l' => l'
  | None => nd_set (pc_name a) (pcomp_mul x a) l
  end.
(** cxxPPassemblage::add, PPassemblage.cxx 276-311 *)
Definition pp_add (a : pp) (x : Qc) (p : pp) : pp :=
  if Qc_zerob x then p
  else Pp (fold_left (fun acc kc => pp_add_comp kc.2 x acc) (pp_comps a) (pp_comps p))
          (nd_add_extensive Qcplus Qcmult false (pp_elts a) x (pp_elts p)).
(** Mixing constructor, PPassemblage.cxx 38-60 *)
Definition pp_mix (ents : gmap Z pp) (m : mixmap) : pp := mixed pp_add ents m pp_zero.

(** ** Gas phase *)

(** GasComp.h *)
Record gcomp := GCo {
  gc_name : string; gc_moles : Qc; gc_pread : Qc; gc_init : Qc; gc_p : Qc; gc_phi : Qc; gc_f : Qc }.
(** cxxGasComp::add, GasComp.cxx 187-218 *)
Definition gcomp_add (a : gcomp) (x : Qc) (c : gcomp) : gcomp :=
  if Qc_zerob x then c
  else if is_empty (gc_name a) then c
  else
    let '(f1, f2) := weights (gc_moles c) (gc_moles a * x) in
    GCo (gc_name c) (gc_moles c + gc_moles a * x) (gc_pread c * f1 + gc_pread a * f2)
        (gc_init c + gc_init a * x) (gc_p c * f1 + gc_p a * f2) (gc_phi c * f1 + gc_phi a * f2)
        (gc_f c * f1 + gc_f a * f2).
(** cxxGasComp::multiply, GasComp.cxx 220-229 *)
Definition gcomp_mul (x : Qc) (c : gcomp) : gcomp :=
  GCo (gc_name c) (gc_moles c * x) (gc_pread c * x) (gc_init c * x) (gc_p c) (gc_phi c) (gc_f c).

Inductive gtype := GP_PRESSURE | GP_VOLUME.
Global Instance gtype_eq_dec : EqDecision gtype.
Proof. solve_decision. Defined.

(** GasPhase.h; new_def, solution_equilibria, n_solution and pr_in are left out *)
Record gas := Gas {
  g_type : gtype; g_pressure : Qc; g_volume : Qc; g_vm : Qc; g_moles : Qc; g_temp : Qc;
  g_comps : list gcomp }.
(** GasPhase.cxx 50-61 *)
Definition gas_zero : gas := Gas GP_PRESSURE 0 0 0 0 (Q2Qc (29815 # 100)) [].

(** GasPhase.cxx 124-141: the components collected in a map *)
Definition gas_collect (x : Qc) (acc : nmap gcomp) (a : gcomp) : nmap gcomp :=
  match nd_find (gc_name a) acc with
  | Some c => nd_set (gc_name a) (gcomp_add a x c) acc
  | None => nd_set (gc_name a) (gcomp_mul x a) acc
  end.
(** The loop of the mixing constructor, GasPhase.cxx 79-143, and its end, 145-151.  Phases of
    different types end it before the components are copied (line 112). *)
Fixpoint gas_loop (ents : gmap Z gas) (sum : Qc) (m : mixmap) (first : bool) (g : gas)
    (acc : nmap gcomp) : gas :=
  match m with
  | [] => Gas (g_type g) (g_pressure g) (g_volume g) (g_vm g) (g_moles g) (g_temp g) (map snd acc)
  | (n, x) :: m' =>
      match ents !! n with
      | None => gas_loop ents sum m' first g acc
      | Some a =>
          let acc' := fold_left (gas_collect x) (g_comps a) acc in
          let share y := if Qc_ltb 0 sum then y * x / sum else 0 in
          if first then
            gas_loop ents sum m' false
              (Gas (g_type a) (if Qc_ltb 0 sum then g_pressure g + share (g_pressure a) else 0)
                   (g_volume a * x) (share (g_vm a)) (g_moles a * x) (g_temp a) []) acc'
          else if bool_decide (g_type g = g_type a) then
            gas_loop ents sum m' false
              (Gas (g_type g) (g_pressure g + share (g_pressure a)) (g_volume g + g_volume a * x)
                   (g_vm g + share (g_vm a)) (g_moles g + g_moles a * x) (g_temp g) []) acc'
          else g
      end
  end.
(** Mixing constructor, GasPhase.cxx 46-152; the fractions are summed first, 73-77 *)
Definition mix_sum (m : mixmap) : Qc := fold_left (fun s p => s + p.2) m 0.
Definition gas_mix (ents : gmap Z gas) (m : mixmap) : gas :=
  gas_loop ents (mix_sum m) m true gas_zero [].

(** ** Solid solutions *)

(** SScomp.h; fraction_x, log10_lambda, log10_fraction_x, dn, dnc, dnb are copied and left out *)
Record scomp := SCo {
  sc_name : string; sc_moles : Qc; sc_initial : Qc; sc_init : Qc; sc_delta : Qc }.
(** SS.cxx 463-478 *)
Definition scomp_add (a : scomp) (x : Qc) (c : scomp) : scomp :=
  SCo (sc_name c) (sc_moles c + sc_moles a * x) (sc_initial c + sc_initial a * x)
      (sc_init c + sc_init a * x) (sc_delta c + sc_delta a * x).
(** cxxSScomp::multiply, SScomp.cxx 239-245 (does not touch init_moles) *)
Definition scomp_mul (x : Qc) (c : scomp) : scomp :=
  SCo (sc_name c) (sc_moles c * x) (sc_initial c * x) (sc_init c) (sc_delta c * x).
Definition scomp_same (a c : scomp) : bool := same_nocase (sc_name c) (sc_name a).

(** SS.h, reduced to its name and components *)
Record ss := Ss { ss_name : string; ss_comps : list scomp }.
(** cxxSS::add, SS.cxx 445-484 *)
Definition ss_add (a : ss) (x : Qc) (s : ss) : ss :=
  if Qc_zerob x then s
  else if is_empty (ss_name a) then s
  else Ss (ss_name s) (add_all scomp_same scomp_add scomp_mul (ss_comps a) x (ss_comps s)).
(** cxxSS::multiply, SS.cxx 485-500 *)
Definition ss_mul (x : Qc) (s : ss) : ss :=
  Ss (ss_name s)
     (map (fun c => SCo (sc_name c) (sc_moles c * x) (sc_initial c * x) (sc_init c * x)
                        (sc_delta c * x)) (ss_comps s)).
(** SSassemblage.h: the map of solid solutions *)
Notation ssas := (nmap ss).
(** Loop body of cxxSSassemblage::add, SSassemblage.cxx 227-243 *)
Definition ssas_step (x : Qc) (acc : ssas) (p : string * ss) : ssas :=
  match nd_find p.1 acc with
  | Some s => nd_set p.1 (ss_add p.2 x s) acc
  | None => nd_set (ss_name p.2) (ss_mul x p.2) acc
  end.
(** cxxSSassemblage::add, SSassemblage.cxx 218-244 *)
Definition ssas_add (a : ssas) (x : Qc) (l : ssas) : ssas :=
  if Qc_zerob x then l else fold_left (ssas_step x) a l.
(** Mixing constructor, SSassemblage.cxx 40-62 *)
Definition ssas_mix (ents : gmap Z ssas) (m : mixmap) : ssas := mixed ssas_add ents m [].

(** ** Kinetics *)

(** KineticsComp.h: rate name, m, m0, moles; tol, namecoef, d_params, initial_moles and
    moles_of_reaction are copied and left out *)
Record kcomp := KCo { kc_name : string; kc_m : Qc; kc_m0 : Qc; kc_moles : Qc }.
(** cxxKineticsComp::add, KineticsComp.cxx 247-265 *)
Definition kcomp_add (a : kcomp) (x : Qc) (c : kcomp) : kcomp :=
  if Qc_zerob x then c
  else if is_empty (kc_name a) then c
  else KCo (kc_name c) (kc_m c + kc_m a * x) (kc_m0 c + kc_m0 a * x) (kc_moles c + kc_moles a * x).
(** cxxKineticsComp::multiply, KineticsComp.cxx 266-272 *)
Definition kcomp_mul (x : Qc) (c : kcomp) : kcomp :=
  KCo (kc_name c) (kc_m c * x) (kc_m0 c * x) (kc_moles c * x).
Definition kcomp_same (a c : kcomp) : bool := String.eqb (kc_name c) (kc_name a).

(** cxxKinetics.h: the components, the integration settings as one value (steps, step_divide, rk,
    bad_step_max, use_cvode, cvode_steps, cvode_order, equalIncrements, count are always copied
    together) *)
Record kin := Kin { k_comps : list kcomp; k_settings : nat }.
(** cxxKinetics.cxx 51-59: the default settings are number 0 *)
Definition kin_zero : kin := Kin [] 0.
(** cxxKinetics::add, cxxKinetics.cxx 422-462 *)
Definition kin_add (a : kin) (x : Qc) (k : kin) : kin :=
  if Qc_zerob x then k
  else Kin (add_all kcomp_same kcomp_add kcomp_mul (k_comps a) x (k_comps k)) (k_settings a).
(** Mixing constructor, cxxKinetics.cxx 46-76 *)
Definition kin_mix (ents : gmap Z kin) (m : mixmap) : kin := mixed kin_add ents m kin_zero.

(** ** Surface *)

(** SurfaceComp.h; formula_z, charge_name, Dw and master_element are copied and left out *)
Record ucomp := UCo {
  uc_formula : string; uc_moles : Qc; uc_totals : nmap Qc; uc_la : Qc; uc_cb : Qc;
  uc_phase : string; uc_prop : Qc; uc_rate : string }.
(** cxxSurfaceComp::add, SurfaceComp.cxx 368-449 *)
Definition ucomp_add (a : ucomp) (x : Qc) (c : ucomp) : ucomp :=
  if Qc_zerob x then c
  else if is_empty (uc_formula a) then c
  else
    let '(f1, f2) := weights (uc_moles c) (uc_moles a * x) in
    let average p := p * f1 + uc_prop a * f2 in
    let p1 := if negb (is_empty (uc_phase c)) then average (uc_prop c) else uc_prop c in
    let p2 := if negb (is_empty (uc_rate c)) then average p1 else p1 in
    UCo (uc_formula c) (uc_moles c + uc_moles a * x)
        (nd_add_extensive Qcplus Qcmult false (uc_totals a) x (uc_totals c))
        (f1 * uc_la c + f2 * uc_la a) (uc_cb c + uc_cb a * x) (uc_phase c)
        (if negb (same_nocase (uc_phase c) (uc_phase a)) then uc_prop c
         else if negb (same_nocase (uc_rate c) (uc_rate a)) then p1 else p2)
        (uc_rate c).
(** cxxSurfaceComp::multiply, SurfaceComp.cxx 450-458 *)
Definition ucomp_mul (x : Qc) (c : ucomp) : ucomp :=
  UCo (uc_formula c) (uc_moles c * x) (nd_multiply Qcmult x (uc_totals c)) (uc_la c) (uc_cb c * x)
      (uc_phase c) (uc_prop c) (uc_rate c).
Definition ucomp_same (a c : ucomp) : bool := String.eqb (uc_formula a) (uc_formula c).

(** SurfaceCharge.h; sigma0, sigma1, sigma2, sigmaddl, g_map and dl_species_map are copied and left
    out, f_free and DDL_viscosity are averaged like la_psi and left out *)
Record ucharge := UCh {
  uh_name : string; uh_area : Qc; uh_grams : Qc; uh_cb : Qc; uh_water : Qc; uh_psi : Qc;
  uh_cap0 : Qc; uh_cap1 : Qc; uh_ddl : nmap Qc }.
(** cxxSurfaceCharge::add, SurfaceCharge.cxx 448-486 *)
Definition ucharge_add (a : ucharge) (x : Qc) (c : ucharge) : ucharge :=
  if Qc_zerob x then c
  else if is_empty (uh_name c) && is_empty (uh_name a) then c
  else
    let '(f1, f2) := weights (uh_area c * uh_grams c) (uh_area a * uh_grams a * x) in
    UCh (uh_name c) (f1 * uh_area c + f2 * uh_area a) (uh_grams c + uh_grams a * x)
        (uh_cb c + uh_cb a * x) (uh_water c + uh_water a * x) (uh_psi c * f1 + uh_psi a * f2)
        (uh_cap0 c * f1 + uh_cap0 a * f2) (uh_cap1 c * f1 + uh_cap1 a * f2)
        (nd_add_extensive Qcplus Qcmult false (uh_ddl a) x (uh_ddl c)).
(** cxxSurfaceCharge::multiply, SurfaceCharge.cxx 487-494 *)
Definition ucharge_mul (x : Qc) (c : ucharge) : ucharge :=
  UCh (uh_name c) (uh_area c) (uh_grams c * x) (uh_cb c * x) (uh_water c * x) (uh_psi c)
      (uh_cap0 c) (uh_cap1 c) (nd_multiply Qcmult x (uh_ddl c)).
Definition ucharge_same (a c : ucharge) : bool := String.eqb (uh_name a) (uh_name c).

(** Surface.h: components, charges and the settings as one value (only_counter_ions, correct_D,
    dl_type, type, sites_units, thickness, ... are copied together) *)
Record surf := Surf { u_comps : list ucomp; u_charges : list ucharge; u_settings : nat }.
(** Surface.cxx 54-70: the default settings are number 0 *)
Definition surf_zero : surf := Surf [] [] 0.
(** cxxSurface::add, Surface.cxx 575-643 *)
Definition surf_add (a : surf) (x : Qc) (s : surf) : surf :=
  if Qc_zerob x then s
  else Surf (add_all ucomp_same ucomp_add ucomp_mul (u_comps a) x (u_comps s))
            (add_all ucharge_same ucharge_add ucharge_mul (u_charges a) x (u_charges s))
            (match u_comps s with [] => u_settings a | _ => u_settings s end).
(** Mixing constructor, Surface.cxx 49-83 *)
Definition surf_mix (ents : gmap Z surf) (m : mixmap) : surf := mixed surf_add ents m surf_zero.
