(** Concentrations: conversion between grid vectors and cell contents.

    Source: src/PhreeqcRM.cpp. Doubles are exact rationals (see Solution/Model.v). Chemistry cells
    are kept in one list; which worker owns a cell is the subject of Core/. Non-MPI build. *)
From Coq Require Import String QArith Qcanon.
From stdpp Require Import prelude strings gmap.
From Verif.Base Require Import Result.
From Verif.Names Require Import Model.
From Verif.Solution Require Import Model.
Local Open Scope Qc_scope.

(** units_Solution: 1 mg/L, 2 mol/L, 3 mass fraction (SetUnitsSolution accepts no other value) *)
Inductive sunit := MgL | MolL | MassFraction.

(** Settings that the conversions read. *)
Record cfg := Cfg {
  c_unit : sunit;          (* units_Solution *)
  c_h2o : bool;            (* component_h2o *)
  c_comps : list string;   (* components *)
  c_gfw : list Qc;         (* gfw *)
  c_calc : bool;           (* use_solution_density_volume *)
}.
(** Grid data: nxyz, backward_mapping and the per-grid-cell vectors *_root. *)
Record grid := Grid {
  g_n : nat;
  g_back : list (list nat);
  g_por : list Qc;
  g_sat : list Qc;
  g_rv : list Qc;
  g_dens : list Qc;
}.
(** The solutions of the chemistry cells; [None] where the worker has no solution. *)
Notation cells := (list (option sol)).

Definition vat {A} (l : list A) (i : nat) : outcome A :=
  match l !! i with Some x => Ret x | None => UB end.
Fixpoint omap_list {A B} (f : A -> outcome B) (l : list A) : outcome (list B) :=
  match l with
  | [] => Ret []
  | x :: l' => obind (f x) (fun y => obind (omap_list f l') (fun ys => Ret (y :: ys)))
  end.

Definition qz (n : Z) : Qc := Q2Qc (inject_Z n).

(** ** To moles *)

(** One value to mol/L: PhreeqcRM.cpp 1120, 1132, 1144 and 1222, 1231, 1240 *)
Definition to_molar (u : sunit) (dens x g : Qc) : Qc :=
  match u with
  | MgL => x * Q2Qc (1 # 1000) / g
  | MolL => x
  | MassFraction => x * qz 1000 / g * dens
  end.
(** The loop over components; [gfw[k]] is read except for mol/L *)
Fixpoint to_molars (u : sunit) (dens : Qc) (row gfw : list Qc) : outcome (list Qc) :=
  match row, gfw with
  | [], _ => Ret []
  | x :: row', g :: gfw' =>
      obind (to_molars u dens row' gfw') (fun d => Ret (to_molar u dens x g :: d))
  | x :: row', [] =>
      match u with
      | MolL => obind (to_molars u dens row' []) (fun d => Ret (x :: d))
      | _ => UB
      end
  end.

(** PhreeqcRM.cpp 1163-1175 and 1263-1278: clipping, the list of totals and the update *)
Definition clip0 (x : Qc) : Qc := if Qc_ltb x 0 then 0 else x.
Definition name_totals (names : list string) (d : list Qc) : nmap Qc :=
  fold_left (fun acc p => nd_add Qcplus p.1 (clip0 p.2) acc) (zip names d) [].
Definition update_with (names : list string) (d : list Qc) (s : sol) : outcome sol :=
  match d with
  | h :: o :: cb :: rest => Ret (sol_update h o cb (name_totals names rest) s)
  | _ => UB
  end.

(** Concentrations2SolutionsNoH2O, PhreeqcRM.cpp 1182-1281, for one cell with sat > 0 *)
Definition in_noh2o (c : cfg) (dens por sat rv : Qc) (row : list Qc) (s : sol) : outcome sol :=
  obind (to_molars (c_unit c) dens row (c_gfw c)) (fun d =>
  update_with (drop 3 (c_comps c)) (map (fun x => x * (por * sat * rv)) d) s).

(** Concentrations2SolutionsH2O, PhreeqcRM.cpp 1079-1179, for one cell with sat > 0 *)
Definition in_h2o (c : cfg) (dens por sat rv : Qc) (row : list Qc) (s : sol) : outcome sol :=
  match row with
  | [] => UB
  | w :: row' =>
      obind (to_molars (c_unit c) dens row' (drop 1 (c_gfw c))) (fun d =>
      obind (match c_unit c, c_gfw c with
             | MolL, _ => Ret w
             | u, g0 :: _ => Ret (to_molar u dens w g0)
             | _, [] => UB
             end) (fun h2o =>
      match d with
      | d0 :: d1 :: d' =>
          update_with (drop 4 (c_comps c))
            (map (fun x => x * (por * sat * rv)) (d0 + h2o * qz 2 :: d1 + h2o :: d')) s
      | _ => UB
      end))
  end.

(** Concentrations2Solutions, PhreeqcRM.cpp 1067-1076: one cell. [row] holds the values of the cell,
    c[j*ncomps .. j*ncomps+ncomps-1]. A cell without water is skipped, a missing solution too. *)
Definition cell_in (c : cfg) (g : grid) (j : nat) (row : list Qc) (s : option sol)
  : outcome (option sol) :=
  if decide (c_gfw c = []) then Throw
  else
    obind (vat (g_back g) j) (fun b =>
    obind (vat b 0) (fun i =>
    obind (vat (g_dens g) i) (fun dens =>
    obind (vat (g_por g) i) (fun por =>
    obind (vat (g_rv g) i) (fun rv =>
    obind (vat (g_sat g) i) (fun sat =>
    if Qc_ltb 0 sat then
      match s with
      | Some s =>
          obind ((if c_h2o c then in_h2o else in_noh2o) c dens por sat rv row s)
                (fun s' => Ret (Some s'))
      | None => Ret None
      end
    else Ret s)))))).

(** SetConcentrations, PhreeqcRM.cpp 11078-11092: the values of chemistry cell [i] are read at the
    first of its grid cells *)
Definition gather_row (c : cfg) (g : grid) (t : list Qc) (i : nat) : outcome (list Qc) :=
  obind (vat (g_back g) i) (fun b =>
  obind (vat b 0) (fun j =>
  omap_list (fun k => vat t (k * g_n g + j)) (seq 0 (length (c_comps c))))).

(** SetConcentrations, PhreeqcRM.cpp 11072-11278 *)
Definition set_concentrations (c : cfg) (g : grid) (t : list Qc) (m : cells) : outcome cells :=
  obind (omap_list (gather_row c g t) (seq 0 (length (g_back g)))) (fun rows =>
  omap_list (fun j => obind (vat rows j) (fun row =>
                      obind (vat m j) (fun s => cell_in c g j row s)))
            (seq 0 (length (g_back g)))).

(** ** From moles *)

(** One amount to a concentration: PhreeqcRM.cpp 1839, 1856, 1870 and 1902, 1912, 1927 *)
Definition from_moles (u : sunit) (v dens x g : Qc) : Qc :=
  match u with
  | MgL => x * g * qz 1000 / v
  | MolL => x / v
  | MassFraction => x * g / qz 1000 / (dens * v)
  end.
Fixpoint from_moles_all (u : sunit) (v dens : Qc) (xs gfw : list Qc) : outcome (list Qc) :=
  match xs, gfw with
  | [], _ => Ret []
  | x :: xs', g :: gfw' =>
      obind (from_moles_all u v dens xs' gfw') (fun d => Ret (from_moles u v dens x g :: d))
  | x :: xs', [] =>
      match u with
      | MolL => obind (from_moles_all u v dens xs' []) (fun d => Ret (x / v :: d))
      | _ => UB
      end
  end.

Definition simplified (s : sol) : sol :=
  Sol (s_tc s) (s_ph s) (s_pe s) (s_mu s) (s_ah2o s) (s_dens s) (s_visc s) (s_visc0 s) (s_patm s)
      (s_h s) (s_o s) (s_cb s) (s_mw s) (s_vol s) (s_alk s)
      (simplify_redox 0 Qcplus (s_totals s)) (s_gamma s) (s_iso s) (s_species s).

(** cxxSolution2concentrationNoH2O, PhreeqcRM.cpp 1878-1939 *)
Definition out_noh2o (c : cfg) (v dens : Qc) (s : sol) : outcome (list Qc) :=
  from_moles_all (c_unit c) v dens
    (s_h s :: s_o s :: s_cb s :: map (fun n => get_total n s) (drop 3 (c_comps c))) (c_gfw c).

(** cxxSolution2concentrationH2O, PhreeqcRM.cpp 1815-1875 *)
Definition out_h2o (c : cfg) (v dens : Qc) (s : sol) : outcome (list Qc) :=
  match c_gfw c with
  | [] => UB
  | g0 :: gfw =>
      let moles_h2o := s_mw s * qz 1000 / g0 in
      let first := match c_unit c with
                   | MgL => s_mw s * qz 1000000 / v
                   | MolL => moles_h2o / v
                   | MassFraction => s_mw s / (dens * v)
                   end in
      obind (from_moles_all (c_unit c) v dens
               (s_h s - qz 2 * moles_h2o :: s_o s - moles_h2o :: s_cb s ::
                map (fun n => get_total n s) (drop 4 (c_comps c))) gfw)
            (fun d => Ret (first :: d))
  end.

(** cxxSolution2concentration, PhreeqcRM.cpp 1804-1812; the totals of the solution are collapsed
    on the way *)
Definition cell_out (c : cfg) (v dens : Qc) (s : sol) : outcome (list Qc) :=
  if decide (c_gfw c = []) then Throw
  else (if c_h2o c then out_h2o else out_noh2o) c v dens (simplified s).

(** v[i] = x *)
Definition vset {A} (i : nat) (x : A) (l : list A) : outcome (list A) :=
  if decide (i < length l)%nat then Ret (<[i := x]> l) else UB.

(** GetConcentrations, PhreeqcRM.cpp 3609-3617: one grid cell *)
Fixpoint scatter_comps (n : nat) (gc : nat) (d : list Qc) (i todo : nat) (out : list Qc) : outcome (list Qc) :=
  match todo with
  | 0 => Ret out
  | S todo' =>
      obind (vat d i) (fun x => obind (vset (n * i + gc) x out) (scatter_comps n gc d (S i) todo'))
  end%nat.
Fixpoint scatter (n ncomps : nat) (gcs : list nat) (d : list Qc) (out : list Qc) : outcome (list Qc) :=
  match gcs with
  | [] => Ret out
  | gc :: gcs' => obind (scatter_comps n gc d 0 ncomps out) (scatter n ncomps gcs' d)
  end.

(** PhreeqcRM.cpp 3586-3602: the volume and density used for a cell *)
Definition vol_dens (c : cfg) (g : grid) (b : list nat) (s : sol) : outcome (Qc * Qc) :=
  if c_calc c then Ret (s_vol s, s_dens s)
  else
    obind (vat b 0) (fun k =>
    obind (vat (g_sat g) k) (fun sat =>
    obind (vat (g_por g) k) (fun por =>
    obind (vat (g_rv g) k) (fun rv =>
    obind (vat (g_dens g) k) (fun dens =>
    let v := sat * por * rv in
    Ret (if Qc_ltb 0 v then v else s_vol s, dens)))))).

(** src/IPhreeqcPhast/IPhreeqcPhast.h: INACTIVE_CELL_VALUE is 1.0e30f, the single-precision number
    13234890 * 2^76 *)
Definition inactive : Qc := qz (13234890 * 2 ^ 76).

Fixpoint get_cells (c : cfg) (g : grid) (back : list (list nat)) (m : cells) (out : list Qc)
  : outcome (list Qc) :=
  match back, m with
  | [], _ => Ret out
  | _ :: _, [] => UB
  | b :: back', s :: m' =>
      match s with
      | None => UB   (* null dereference; the assert is absent in release builds *)
      | Some s =>
          obind (vol_dens c g b s) (fun vd =>
          obind (cell_out c vd.1 vd.2 s) (fun d =>
          obind (scatter (g_n g) (length (c_comps c)) b d out) (get_cells c g back' m')))
      end
  end.
(** GetConcentrations, PhreeqcRM.cpp 3569-3627. [old] is the caller's vector. A [Throw] inside is
    caught there and turned into IRM_FAIL. *)
Definition get_concentrations (c : cfg) (g : grid) (m : cells) (old : list Qc) : outcome (list Qc) :=
  get_cells c g (g_back g) m (replicate (g_n g * length (c_comps c)) inactive).
(** ... and the contents afterwards *)
Definition after_get (m : cells) : cells := map (option_map simplified) m.

(** ** Getters of one value per cell *)

(** std::vector::resize(n, x) *)
Definition vresize {A} (n : nat) (x : A) (l : list A) : list A := take n l ++ replicate (n - length l) x.

Fixpoint scatter1 (gcs : list nat) (f : nat -> outcome Qc) (out : list Qc) : outcome (list Qc) :=
  match gcs with
  | [] => Ret out
  | gc :: gcs' => obind (f gc) (fun x => obind (vset gc x out) (scatter1 gcs' f))
  end.
(** A missing solution calls ErrorHandler, which throws. *)
Fixpoint get1_cells (f : sol -> nat -> outcome Qc) (back : list (list nat)) (m : cells) (out : list Qc)
  : outcome (list Qc) :=
  match back, m with
  | [], _ => Ret out
  | _ :: _, [] => Throw
  | b :: back', s :: m' =>
      match s with
      | None => Throw
      | Some s => obind (scatter1 b (f s) out) (get1_cells f back' m')
      end
  end.
(** GetDensityCalculated, PhreeqcRM.cpp 3654-3712 *)
Definition get_density (g : grid) (m : cells) (old : list Qc) : outcome (list Qc) :=
  get1_cells (fun s _ => Ret (s_dens s)) (g_back g) m (vresize (g_n g) inactive old).
(** GetSaturationCalculated, PhreeqcRM.cpp 4436-4492 *)
Definition get_saturation (g : grid) (m : cells) (old : list Qc) : outcome (list Qc) :=
  get1_cells (fun s n => obind (vat (g_rv g) n) (fun rv => obind (vat (g_por g) n) (fun por =>
                         Ret (s_vol s / (rv * por)))))
             (g_back g) m (vresize (g_n g) inactive old).
