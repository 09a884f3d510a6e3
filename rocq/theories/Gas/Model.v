(** Gas phases of the chemistry cells: setting and getting moles, pressures and volumes.

    Source: src/PhreeqcRM.cpp (SetGasCompMoles, GetGasCompMoles, GetGasCompPressures,
    GetGasCompPhi, SetGasPhaseVolume, GetGasPhaseVolume), phreeqcpp/GasPhase.cxx,
    phreeqcpp/GasComp.cxx.

    The cells of all threads are one list, in cell order: each thread touches only the gas phases of
    its own cells (C04), so the loop over threads is the loop over cells. The asserts on the size
    of the vectors are absent in release builds, so a short vector is undefined behaviour here. *)
From Coq Require Import String QArith Qcanon.
From stdpp Require Import prelude strings gmap.
From Verif.Base Require Import Result.
From Verif.Names Require Import Model.
From Verif.Solution Require Import Model.
From Verif.Conc Require Import Model.
From Verif.Reactant Require Import Model.
Local Open Scope Qc_scope.

(** Gas phases by chemistry cell; [None] where Rxn_gas_phase_map has no entry. *)
Notation gases := (list (option gas)).

(** ** cxxGasPhase *)

(** cxxGasPhase::Find_comp, GasPhase.cxx 578-589 *)
Fixpoint find_comp (n : string) (l : list gcomp) : option gcomp :=
  match l with
  | [] => None
  | c :: l' => if same_nocase (gc_name c) n then Some c else find_comp n l'
  end.
(** cxxGasPhase::Delete_component, GasPhase.cxx 492-502: the first match only *)
Fixpoint delete_comp (n : string) (l : list gcomp) : list gcomp :=
  match l with
  | [] => []
  | c :: l' => if same_nocase (gc_name c) n then l' else c :: delete_comp n l'
  end.
(** cxxGasComp::cxxGasComp, GasComp.cxx 30-42, with a name and moles *)
Definition new_comp (n : string) (x : Qc) : gcomp := GCo n x 0 0 0 0 0.
(** cxxGasComp::Set_moles *)
Definition with_moles (x : Qc) (c : gcomp) : gcomp :=
  GCo (gc_name c) x (gc_pread c) (gc_init c) (gc_p c) (gc_phi c) (gc_f c).
(** cxxGasPhase::Set_component_moles, GasPhase.cxx 503-524, for moles >= 0 *)
Fixpoint set_comp (n : string) (x : Qc) (l : list gcomp) : list gcomp :=
  match l with
  | [] => [new_comp n x]
  | c :: l' => if same_nocase (gc_name c) n then with_moles x c :: l' else c :: set_comp n x l'
  end.
(** cxxGasPhase::Get_component_moles, _p, _phi, GasPhase.cxx 525-563 *)
Definition comp_value (f : gcomp -> Qc) (n : string) (l : list gcomp) : Qc :=
  match find_comp n l with Some c => f c | None => qz (-1) end.

(** cxxGasPhase::cxxGasPhase(io), GasPhase.cxx 29-44 *)
Definition gas_new (l : list gcomp) : gas := Gas GP_PRESSURE 1 1 0 0 (Q2Qc (29815 # 100)) l.
Definition with_comps (l : list gcomp) (g : gas) : gas :=
  Gas (g_type g) (g_pressure g) (g_volume g) (g_vm g) (g_moles g) (g_temp g) l.
(** Set_volume and Set_type(GP_VOLUME) *)
Definition with_volume (v : Qc) (g : gas) : gas :=
  Gas GP_VOLUME (g_pressure g) v (g_vm g) (g_moles g) (g_temp g) (g_comps g).

(** ** Setting *)

Definition nonneg (x : Qc) : bool := negb (Qc_ltb x 0).
(** PhreeqcRM.cpp 11390-11397: one value for each listed component *)
Fixpoint set_comps (names : list string) (row : list Qc) (l : list gcomp) {struct names} : list gcomp :=
  match names, row with
  | n :: names', x :: row' =>
      set_comps names' row' (if nonneg x then set_comp n x l else delete_comp n l)
  | _, _ => l
  end.
(** PhreeqcRM.cpp 11403-11415 *)
Fixpoint new_comps (names : list string) (row : list Qc) {struct names} : list gcomp :=
  match names, row with
  | n :: names', x :: row' => if nonneg x then new_comp n x :: new_comps names' row' else new_comps names' row'
  | _, _ => []
  end.
(** PhreeqcRM.cpp 11386-11422: one cell *)
Definition set_cell (names : list string) (row : list Qc) (g : option gas) : option gas :=
  match g with
  | Some g =>
      let l := set_comps names row (g_comps g) in
      match l with [] => None | _ :: _ => Some (with_comps l g) end
  | None => match new_comps names row with [] => None | l => Some (gas_new l) end
  end.
(** PhreeqcRM.cpp 11292-11300 and, for one value per cell, 11444-11448: the values of a cell are
    those of its first grid cell *)
Definition gather (n w : nat) (t : list Qc) (b : list nat) : outcome (list Qc) :=
  obind (vat b 0) (fun gc => omap_list (fun k => vat t (k * n + gc)) (seq 0 w)).
Fixpoint set_cells (f : list Qc -> option gas -> option gas) (n w : nat) (t : list Qc)
    (back : list (list nat)) (m : gases) {struct back} : outcome gases :=
  match back, m with
  | [], _ => Ret m
  | _ :: _, [] => UB
  | b :: back', g :: m' =>
      obind (gather n w t b) (fun row => obind (set_cells f n w t back' m') (fun r => Ret (f row g :: r)))
  end.
(** SetGasCompMoles, PhreeqcRM.cpp 11280-11425 *)
Definition set_gas_moles (names : list string) (n : nat) (back : list (list nat)) (t : list Qc) (m : gases)
  : outcome gases := set_cells (set_cell names) n (length names) t back m.
(** SetGasPhaseVolume, PhreeqcRM.cpp 11429-11535; one cell, 11516-11530 *)
Definition set_volume (row : list Qc) (g : option gas) : option gas :=
  match row with
  | [v] => if Qc_ltb v 0 then g
           else match g with Some g => Some (with_volume v g) | None => Some (with_volume v (gas_new [])) end
  | _ => g
  end.
Definition set_gas_volume (n : nat) (back : list (list nat)) (t : list Qc) (m : gases) : outcome gases :=
  set_cells set_volume n 1 t back m.

(** ** Getting *)

(** The double 1e30 *)
Definition gas_inactive : Qc := qz 1000000000000000019884624838656.
Fixpoint get_gases (row : option gas -> list Qc) (n w : nat) (back : list (list nat)) (m : gases) (out : list Qc)
  : outcome (list Qc) :=
  match back, m with
  | [], _ => Ret out
  | _ :: _, [] => UB
  | b :: back', g :: m' => obind (scatter n w b (row g) out) (get_gases row n w back' m')
  end.
Definition comp_row (f : gcomp -> Qc) (names : list string) (g : option gas) : list Qc :=
  map (fun n => match g with Some g => comp_value f n (g_comps g) | None => qz (-1) end) names.
(** GetGasCompMoles, PhreeqcRM.cpp 3858-3906; GetGasCompPressures, 3999-4046; GetGasCompPhi,
    4141-4188: [f] is gc_moles, gc_p, gc_phi *)
Definition get_gas_values (f : gcomp -> Qc) (names : list string) (n : nat) (back : list (list nat)) (m : gases)
  : outcome (list Qc) :=
  get_gases (comp_row f names) n (length names) back m (replicate (n * length names) gas_inactive).
(** GetGasPhaseVolume, PhreeqcRM.cpp 4267-4303 *)
Definition get_gas_volume (n : nat) (back : list (list nat)) (m : gases) : outcome (list Qc) :=
  get_gases (fun g => [match g with Some g => g_volume g | None => qz (-1) end]) n 1 back m
            (replicate n gas_inactive).

(** ** The MPI build *)

(** The gas-phase maps of the instances of one process: the reaction worker, InitialPhreeqc and
    Utility (PhreeqcRM.cpp 304-306 with nthreads = 1). *)
Notation instances := (list (gmap Z gas)).
Definition imap (i : nat) (f : gmap Z gas -> gmap Z gas) (ms : instances) : outcome instances :=
  match ms !! i with Some m => Ret (<[i := f m]> ms) | None => UB end.
(** PhreeqcRM.cpp 11340-11376: one cell [j] in the process of rank [rank]. The gas phase is looked
    up in instance 0, but erased from or added to instance [rank]. *)
Definition mpi_set_cell (names : list string) (rank : nat) (j : Z) (row : list Qc) (ms : instances)
  : outcome instances :=
  obind (vat ms 0) (fun m0 =>
  match m0 !! j with
  | Some g =>
      let l := set_comps names row (g_comps g) in
      obind (imap 0 (fun m => <[j := with_comps l g]> m) ms) (fun ms =>
      match l with [] => imap rank (fun m => base.delete j m) ms | _ :: _ => Ret ms end)
  | None =>
      match new_comps names row with
      | [] => Ret ms
      | l => imap rank (fun m => <[j := gas_new l]> m) ms
      end
  end).
