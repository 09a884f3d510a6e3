(** Sets of concentrations turned into solutions of the utility instance.

    Source: src/PhreeqcRM.cpp 1283-1446 (Concentrations2Utility and its two variants). Doubles are
    exact rationals. The map of solutions of the utility worker (workers[nthreads + 1],
    Rxn_solution_map) is a finite map; the message printed before the exception is left out. *)
From Coq Require Import String QArith Qcanon.
From stdpp Require Import prelude strings gmap.
From Verif.Base Require Import Result.
From Verif.Names Require Import Model.
From Verif.Solution Require Import Model.
From Verif.Conc Require Import Model.
Local Open Scope Qc_scope.

(** cxxSolution::cxxSolution(PHRQ_io* ), Solution.cxx 31-59: a new solution is a kilogram of pure
    water *)
Definition sol_new : sol :=
  Sol (qz 25) (qz 7) (qz 4) (Q2Qc (1 # 10000000)) 1 1 1 1 1
      (Q2Qc (1111 # 10)) (Q2Qc (5555 # 100)) 0 1 1 0 [] [] [] ∅.

(** Set_tc and Set_patm, PhreeqcRM.cpp 1369-1370 and 1441-1442 *)
Definition with_tp (tc patm : Qc) (s : sol) : sol :=
  Sol tc (s_ph s) (s_pe s) (s_mu s) (s_ah2o s) (s_dens s) (s_visc s) (s_visc0 s) patm
      (s_h s) (s_o s) (s_cb s) (s_mw s) (s_vol s) (s_alk s) (s_totals s) (s_gamma s) (s_iso s)
      (s_species s).

(** ptr[nsolns * k] with ptr = &c[i], for all components: lines 1316-1351 and
    1397-1425 *)
Definition values (ncomps n : nat) (t : list Qc) (i : nat) : outcome (list Qc) :=
  omap_list (fun k => vat t (n * k + i)%nat) (seq 0 ncomps).

(** The scratch vector d without H2O as a component, lines 1394-1427. Mass fractions are turned into
    moles per kilogram of solution: the density of [to_molars] is 1. *)
Definition amounts_noh2o (c : cfg) (row : list Qc) : outcome (list Qc) :=
  to_molars (c_unit c) 1 row (c_gfw c).

(** The scratch vector d with H2O as a component, lines 1313-1355. Only the water is multiplied by
    density_root[i], and only for mass fractions (line 1350). *)
Definition amounts_h2o (c : cfg) (dens : list Qc) (i : nat) (row : list Qc) : outcome (list Qc) :=
  match row with
  | [] => UB
  | w :: row' =>
      obind (to_molars (c_unit c) 1 row' (drop 1 (c_gfw c))) (fun d =>
      obind (match c_unit c with
             | MolL => Ret w
             | MgL => obind (vat (c_gfw c) 0) (fun g0 => Ret (to_molar MgL 1 w g0))
             | MassFraction =>
                 obind (vat (c_gfw c) 0) (fun g0 =>
                 obind (vat dens i) (fun r => Ret (to_molar MassFraction 1 w g0 * r)))
             end) (fun h2o =>
      match d with
      | d0 :: d1 :: d' => Ret (d0 + h2o * qz 2 :: d1 + h2o :: d')
      | _ => UB
      end))
  end.

(** Lines 1357-1368 and 1429-1440: a solution without hydrogen or oxygen stays the new one *)
Definition made (names : list string) (d : list Qc) : outcome sol :=
  match d with
  | h :: o :: _ =>
      if Qc_ltb 0 h && Qc_ltb 0 o then update_with names d sol_new else Ret sol_new
  | _ => UB
  end.

(** One set of concentrations *)
Definition util_one (c : cfg) (dens tc patm t : list Qc) (n i : nat) : outcome sol :=
  obind (values (length (c_comps c)) n t i) (fun row =>
  obind (if c_h2o c then amounts_h2o c dens i row else amounts_noh2o c row) (fun d =>
  obind (made (drop (if c_h2o c then 4 else 3) (c_comps c)) d) (fun s =>
  obind (vat tc i) (fun tci => obind (vat patm i) (fun p => Ret (with_tp tci p s)))))).

Fixpoint util_loop (c : cfg) (dens tc patm t : list Qc) (n : nat) (todo : list nat) (m : gmap Z sol)
  : outcome (gmap Z sol) :=
  match todo with
  | [] => Ret m
  | i :: todo' =>
      obind (util_one c dens tc patm t n i) (fun s =>
      util_loop c dens tc patm t n todo' (<[Z.of_nat (S i) := s]> m))
  end.

(** Concentrations2Utility, lines 1283-1294, with both variants, 1296-1374 and 1377-1446. The number
    of sets is the integer quotient c.size() / ncomps, taken before the test whether FindComponents
    has been called. *)
Definition concentrations2utility (c : cfg) (dens tc patm t : list Qc) (m : gmap Z sol)
  : outcome (gmap Z sol) :=
  match length (c_comps c) with
  | 0%nat => UB
  | ncomps =>
      if decide (c_gfw c = []) then Throw
      else let n := (length t / ncomps)%nat in util_loop c dens tc patm t n (seq 0 n) m
  end.

(** RM_Concentrations2Utility, RM_interface_C.cpp 730-768, with arrays behind non-null pointers: [n]
    sets are copied out of them. A size outside the arrays is undefined behaviour. *)
Definition rm_concentrations2utility (c : cfg) (dens tc patm t : list Qc) (n : nat) (m : gmap Z sol)
  : outcome (gmap Z sol) :=
  let nc := length (c_comps c) in
  if decide (n * nc <= length t /\ n <= length tc /\ n <= length patm)%nat
  then concentrations2utility c dens (take n tc) (take n patm) (take (n * nc) t) m
  else UB.
