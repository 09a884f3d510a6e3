(** Aqueous species: reading the species of the cells and setting the cells from species
    (src/PhreeqcRM.cpp). Build without MPI; doubles are rationals. *)
From Coq Require Import String QArith Qcanon.
From stdpp Require Import prelude strings gmap.
From Verif.Base Require Import Result.
From Verif.Names Require Import Model.
From Verif.Solution Require Import Model.
From Verif.Conc Require Import Model.
From Verif.Boundary Require Import Model.
Local Open Scope Qc_scope.

(** The tables FindComponents fills, PhreeqcRM.cpp 2929-2945: [p_stoich] is species_stoichiometry
    (one list of elements and "Charge" per species), [p_index] is s_num2rm_species_num. The other
    per-species tables have the same length. [p_save] is species_save_on. *)
Record spcfg := SpCfg {
  p_save : bool;
  p_comps : list string;
  p_stoich : list (nmap Qc);
  p_index : gmap Z nat
}.
Definition nspecies (p : spcfg) : nat := length (p_stoich p).

(** ** Setting *)

(** SpeciesConcentrations2Module, PhreeqcRM.cpp 12603-12607 *)
Definition blank_totals (comps : list string) : nmap Qc :=
  fold_left (fun acc c => nd_add Qcplus c 0 acc) comps [].
(** 12612-12616: one species *)
Definition add_species (st : nmap Qc) (conc : Qc) (acc : nmap Qc) : nmap Qc :=
  fold_left (fun acc p => nd_add Qcplus p.1 (p.2 * conc) acc) st acc.
(** 12608-12617: [k] is the number of the species at the front of [sts], [j] the grid cell. The
    vector is not checked for its size. *)
Fixpoint add_all_species (n j : nat) (t : list Qc) (k : nat) (sts : list (nmap Qc)) (acc : nmap Qc)
  : outcome (nmap Qc) :=
  match sts with
  | [] => Ret acc
  | st :: sts' =>
      obind (vat t (k * n + j)) (fun conc => add_all_species n j t (S k) sts' (add_species st conc acc))
  end.
(** 12627-12645: hydrogen, oxygen and charge are taken out *)
Definition split_step (r : Qc * Qc * Qc * nmap Qc) (p : string * Qc) : Qc * Qc * Qc * nmap Qc :=
  let '(h, o, cb, nd) := r in
  if decide (p.1 = "H"%string) then (p.2, o, cb, nd)
  else if decide (p.1 = "O"%string) then (h, p.2, cb, nd)
  else if decide (p.1 = "Charge"%string) then (h, o, p.2, nd)
  else (h, o, cb, nd_add Qcplus p.1 p.2 nd).
Definition split_totals (l : nmap Qc) : Qc * Qc * Qc * nmap Qc := fold_left split_step l (0, 0, 0, []).

(** 12600-12655: one cell. A cell without solution is passed over after the work is done. *)
Definition species_in (p : spcfg) (g : grid) (t : list Qc) (b : list nat) (s : option sol)
  : outcome (option sol) :=
  obind (vat b 0) (fun j =>
  obind (add_all_species (g_n g) j t 0 (p_stoich p) (blank_totals (p_comps p))) (fun acc =>
  obind (vat (g_por g) j) (fun por =>
  obind (vat (g_sat g) j) (fun sat =>
  obind (vat (g_rv g) j) (fun rv =>
  let '(h, o, cb, nd) := split_totals (nd_multiply Qcmult (por * sat * rv) acc) in
  Ret (option_map (sol_update h o cb nd) s)))))).
Fixpoint species_cells (p : spcfg) (g : grid) (t : list Qc) (back : list (list nat)) (m : cells)
  : outcome cells :=
  match back, m with
  | [], _ => Ret m
  | _ :: _, [] => Ret []
  | b :: back', s :: m' =>
      obind (species_in p g t b s) (fun s' =>
      obind (species_cells p g t back' m') (fun m'' => Ret (s' :: m'')))
  end.
(** SpeciesConcentrations2Module, PhreeqcRM.cpp 12573-12662. The workers' ranges together run over
    all cells (C04) and each cell is written once, so one loop stands for them. *)
Definition species_to_module (p : spcfg) (g : grid) (t : list Qc) (m : cells)
  : outcome (irm_result * cells) :=
  if p_save p then obind (species_cells p g t (g_back g) m) (fun m' => Ret (IRM_OK, m'))
  else Ret (IRM_INVALIDARG, m).

(** ** Reading *)

(** GetSpeciesConcentrations, PhreeqcRM.cpp 4907-4917, GetSpeciesLog10Gammas, 5048-5058, and
    GetSpeciesLog10Molalities, 5190-5200: [f] is the map of the solution that is read. *)
Definition species_values (p : spcfg) (f : sol -> gmap Z Qc) (s : sol) : outcome (list Qc) :=
  put_species (p_index p) (by_number (f s)) (replicate (nspecies p) 0).
Fixpoint read_cells (p : spcfg) (f : sol -> gmap Z Qc) (n : nat) (back : list (list nat)) (m : cells)
  (out : list Qc) : outcome (list Qc) :=
  match back, m with
  | [], _ => Ret out
  | b :: back', Some s :: m' =>
      obind (species_values p f s) (fun d =>
      obind (scatter n (nspecies p) b d out) (read_cells p f n back' m'))
  | _ :: _, _ => UB   (* Get_solution(j) is null and dereferenced *)
  end.
(** 4893-4932, 5035-5074, 5177-5216; [old] is the caller's vector. Always IRM_OK. *)
Definition read_species (p : spcfg) (f : sol -> gmap Z Qc) (g : grid) (m : cells) (old : list Qc)
  : outcome (list Qc) :=
  if p_save p then read_cells p f (g_n g) (g_back g) m (vresize (nspecies p * g_n g) 0 old)
  else Ret [].
