(** Boundary conditions: concentrations of solutions, or of mixtures of two solutions, of the
    InitialPhreeqc instance.

    Source: src/PhreeqcRM.cpp, InitialPhreeqc2Concentrations and
    InitialPhreeqc2SpeciesConcentrations; phreeqcpp/structures.cpp, phreeqcpp/Phreeqc.h.

    Doubles are exact rationals (see Solution/Model.v); a division by a zero volume, which gives a
    NaN in the code, gives 0 here. Of the storage bin only the solutions are modelled: the other
    reactants copied with a number are not used. *)
From Coq Require Import String QArith Qcanon.
From stdpp Require Import prelude strings gmap sorting.
From Verif.Base Require Import Result.
From Verif.Names Require Import Model.
From Verif.Solution Require Import Model.
From Verif.Conc Require Import Model.
Local Open Scope Z_scope.
Local Open Scope Qc_scope.

(** What the InitialPhreeqc instance has defined: Rxn_solution_map and the numbers of
    Rxn_mix_map. *)
Record defined := Defined { d_sols : gmap Z sol; d_mixes : list Z }.

(** Rxn_next_user_number, Phreeqc.h 1942-1950: largest number plus one, 0 for an empty map *)
Definition next_number (ns : list Z) : Z :=
  match ns with [] => 0 | n :: ns' => foldl Z.max n ns' + 1 end%Z.

(** PhreeqcRM.cpp 5978-5990: a negative number means the last solution or mix defined *)
Definition first_number (t : defined) (n : Z) : Z :=
  if (n <? 0)%Z then
    let next := next_number (map_to_list (d_sols t)).*1 in
    let n := if (next =? 0)%Z then n else (next - 1)%Z in
    let next := next_number (d_mixes t) in
    if (n <? next - 1)%Z then (next - 1)%Z else n
  else n.

(** Phreeqc::phreeqc2cxxStorageBin(sb, n), structures.cpp 3118-3181, its solutions *)
Definition copy_solution (t : defined) (n : Z) (bin : gmap Z sol) : gmap Z sol :=
  match d_sols t !! n with Some s => <[n := s]> bin | None => bin end.

(** cxxSolution::cxxSolution(io), Solution.cxx 30-58 *)
Definition sol_default : sol :=
  Sol (qz 25) (qz 7) (qz 4) (Q2Qc (1 # 10000000)) 1 1 1 1 1
      (Q2Qc (1111 # 10)) (Q2Qc (5555 # 100)) 0 1 1 0 [] [] [] ∅.

(** PhreeqcRM.cpp 5992-6005 *)
Definition fetch_first (t : defined) (n : Z) (bin : gmap Z sol) : gmap Z sol :=
  match bin !! n with
  | Some _ => bin
  | None => if (0 <=? n)%Z then copy_solution t n bin else <[n := sol_default]> bin
  end.
(** PhreeqcRM.cpp 6021-6029 *)
Definition fetch_second (t : defined) (n : Z) (bin : gmap Z sol) : gmap Z sol :=
  match bin !! n with Some _ => bin | None => copy_solution t n bin end.

(** One boundary condition, PhreeqcRM.cpp 5976-6034 and 6453-6510: the storage bin and the mixture.
    The status passed to ErrorHandler is IRM_OK on every path. *)
Definition one_boundary (t : defined) (b1 b2 : list Z) (fr : list Qc) (i : nat) (bin : gmap Z sol)
  : outcome (gmap Z sol * sol) :=
  obind (vat b1 i) (fun n1 =>
  let n1 := first_number t n1 in
  let bin := fetch_first t n1 bin in
  let f1 := match fr !! i with Some f => f | None => 1 end in
  let mix := mix_add n1 f1 [] in
  let n2 := match b2 !! i with Some n => n | None => (-1)%Z end in
  let f2 := 1 - f1 in
  if (0 <=? n2)%Z && Qc_ltb 0 f2 then
    let bin := fetch_second t n2 bin in
    Ret (bin, sol_mix bin (mix_add n2 f2 mix))
  else Ret (bin, sol_mix bin mix)).

(** The loop over boundary conditions; [row] gives the values of one of them, [w] is their number *)
Fixpoint boundaries (t : defined) (row : sol -> outcome (list Qc)) (w : nat) (b1 b2 : list Z) (fr : list Qc)
  (i todo : nat) (bin : gmap Z sol) (out : list Qc) : outcome (list Qc) :=
  match todo with
  | 0 => Ret out
  | S todo' =>
      obind (one_boundary t b1 b2 fr i bin) (fun r =>
      obind (row r.2) (fun d =>
      obind (scatter_comps (length b1) i d 0 w out) (fun out' =>
      boundaries t row w b1 b2 fr (S i) todo' r.1 out')))
  end%nat.

(** PhreeqcRM.cpp 6032-6037 *)
Definition conc_row (c : cfg) (s : sol) : outcome (list Qc) := cell_out c (s_vol s) (s_dens s) s.

(** InitialPhreeqc2Concentrations, PhreeqcRM.cpp 5946-6055. An empty list raises an exception,
    caught at the end. The one-argument form (5935-5943) passes empty lists for [b2] and [fr]. *)
Definition boundary_concentrations (t : defined) (c : cfg) (b1 b2 : list Z) (fr : list Qc) (old : list Qc)
  : outcome (irm_result * list Qc) :=
  match b1 with
  | [] => Ret (IRM_FAIL, old)
  | _ :: _ =>
      obind (boundaries t (conc_row c) (length (c_comps c)) b1 b2 fr 0 (length b1) ∅
               (resize (length (c_comps c) * length b1) 0 old)) (fun out => Ret (IRM_OK, out))
  end.

(** ** Species *)

(** PhreeqcRM.cpp 6511-6518: [s_num2rm_species_num\[n\]] adds an entry 0 for an unknown number *)
Definition num_le (a b : Z * Qc) : Prop := (a.1 <= b.1)%Z.
Global Instance num_le_dec : RelDecision num_le.
Proof. intros a b. unfold num_le. apply _. Defined.
Definition by_number (m : gmap Z Qc) : list (Z * Qc) := merge_sort num_le (map_to_list m).
Fixpoint put_species (index : gmap Z nat) (l : list (Z * Qc)) (d : list Qc) : outcome (list Qc) :=
  match l with
  | [] => Ret d
  | (n, x) :: l' => obind (vset (default 0%nat (index !! n)) x d) (put_species index l')
  end.
Definition species_row (index : gmap Z nat) (w : nat) (s : sol) : outcome (list Qc) :=
  put_species index (by_number (s_species s)) (replicate w 0).

(** InitialPhreeqc2SpeciesConcentrations, PhreeqcRM.cpp 6423-6535; [w] is the number of species *)
Definition boundary_species (t : defined) (index : gmap Z nat) (w : nat) (b1 b2 : list Z) (fr : list Qc)
  (old : list Qc) : outcome (irm_result * list Qc) :=
  match b1, w with
  | [], _ | _, 0%nat => Ret (IRM_FAIL, old)
  | _, _ =>
      obind (boundaries t (species_row index w) w b1 b2 fr 0 (length b1) ∅
               (resize (w * length b1) 0 old)) (fun out => Ret (IRM_OK, out))
  end.
