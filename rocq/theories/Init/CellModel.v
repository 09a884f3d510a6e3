(** One cell of the InitialPhreeqc instance copied to a list of grid cells, and the check that every
    cell has a solution.

    Source: src/PhreeqcRM.cpp 6714-6890 (InitialPhreeqcCell2Module), 766-800 (CheckCells), thread
    build; phreeqcpp/structures.cpp 3118-3280, phreeqcpp/Phreeqc.h 1941-1950.  MIX, REACTION,
    REACTION_TEMPERATURE and REACTION_PRESSURE definitions are removed from the bin (6783-6786) and
    are absent from [tables]. *)
From Coq Require Import String QArith Qcanon.
From stdpp Require Import prelude strings gmap.
From Verif.Base Require Import Result.
From Verif.Solution Require Import Model.
From Verif.Reactant Require Import Model.
From Verif.Init Require Import Model.
Local Open Scope Qc_scope.

(** b.rbegin()->first + 1, or 0: Phreeqc.h 1941-1950 *)
Definition next_user_number {A} (m : gmap Z A) : Z :=
  match (map_to_list m).*1 with [] => 0 | i :: l => foldr Z.max i l + 1 end%Z.
(** Lines 6733-6750: the number of the cell to copy, negative if there is none. *)
Definition choose_cell (t : tables) (n : Z) : Z :=
  if (n <? 0)%Z then
    let next := next_user_number (t SlSol) in
    if (next =? 0)%Z then n else (next - 1)%Z
  else if defined t SlSol n then n else (-1)%Z.

(** 6780-6781, structures.cpp 3118-3182: the definitions numbered [cell] *)
Definition cell_bin (t : tables) (cell : Z) : tables :=
  fun k => match t k !! cell with Some e => {[cell := e]} | None => ∅ end.

(** 6812-6864: each kind that the bin holds is scaled and filed under [nchem] *)
Fixpoint scale_solids (g : grid) (por rv : Qc) (cell nchem : Z) (ks : list slot) (bin : tables)
  : outcome tables :=
  match ks with
  | [] => Ret bin
  | k :: ks' =>
      if defined bin k cell then
        obind (rd (factors por rv) (g_units g k)) (fun x =>
        scale_solids g por rv cell nchem ks'
          (upd k (fun m => <[nchem := mix_of k m (mix_add cell x [])]> m) bin))
      else scale_solids g por rv cell nchem ks' bin
  end.

(** 6780-6869 for one worker.  [j] is cell_numbers_in[i].  A solution of volume 0 gives an infinite
    factor in C++ and a factor 0 here. *)
Definition copy_cell (t : tables) (g : grid) (cell nchem : Z) (j : nat) (w : tables) : outcome tables :=
  let bin := cell_bin t cell in
  obind (rd (g_por g) j) (fun por => obind (rd (g_rv g) j) (fun rv => obind (rd (g_sat g) j) (fun sat =>
  match bin SlSol !! cell with
  | None => UB
  | Some s =>
      let v := por * sat * rv / s_vol s in
      obind (scale_solids g por rv cell nchem [SlPP; SlEx; SlSurf; SlGas; SlSS; SlKin]
               (upd SlSol (fun m => <[nchem := sol_mix m (mix_add cell v [])]> m) bin)) (fun bin' =>
      Ret (pass_cell bin' w nchem))
  end))).

(** 6775-6779: the workers in turn *)
Fixpoint copy_workers (t : tables) (g : grid) (cell nchem : Z) (j : nat) (ranges : list (Z * Z))
    (ws : list tables) : outcome (list tables) :=
  match ranges, ws with
  | [], _ => Ret ws
  | _ :: _, [] => UB
  | r :: ranges', w :: ws' =>
      obind (if ((r.1 <=? nchem) && (nchem <=? r.2))%Z then copy_cell t g cell nchem j w else Ret w) (fun w' =>
      obind (copy_workers t g cell nchem j ranges' ws') (fun ws'' => Ret (w' :: ws'')))
  end.

(** 6769-6871; [pairs] are the numbers given with their chemistry cells *)
Fixpoint copy_list (t : tables) (g : grid) (cell count : Z) (ranges : list (Z * Z)) (pairs : list (nat * Z))
    (ws : list tables) : outcome (list tables) :=
  match pairs with
  | [] => Ret ws
  | (j, nchem) :: pairs' =>
      if ((nchem <? 0) || (count <=? nchem))%Z then copy_list t g cell count ranges pairs' ws
      else obind (copy_workers t g cell nchem j ranges ws) (copy_list t g cell count ranges pairs')
  end.

(** 6756-6764: forward_mapping_root[cell_numbers_in[i]] *)
Fixpoint chem_numbers (fwd : list Z) (cells : list Z) : outcome (list (nat * Z)) :=
  match cells with
  | [] => Ret []
  | z :: cells' =>
      if (z <? 0)%Z then UB
      else obind (rd fwd (Z.to_nat z)) (fun c =>
           obind (chem_numbers fwd cells') (fun l => Ret ((Z.to_nat z, c) :: l)))
  end.

(** InitialPhreeqcCell2Module.  [t]: the InitialPhreeqc instance; [fwd]: forward_mapping_root. *)
Definition cell2module (t : tables) (g : grid) (fwd : list Z) (count : Z) (ranges : list (Z * Z))
    (n : Z) (cells : list Z) (ws : list tables) : outcome (irm_result * list tables) :=
  let cell := choose_cell t n in
  if (cell <? 0)%Z then Ret (IRM_INVALIDARG, ws)
  else obind (chem_numbers fwd cells) (fun pairs =>
       obind (copy_list t g cell count ranges pairs ws) (fun ws' => Ret (IRM_OK, ws'))).

(** CheckCells, 766-780: the cells without a solution, in order *)
Fixpoint missing_cells (ranges : list (Z * Z)) (ws : list tables) : list Z :=
  match ranges, ws with
  | r :: ranges', w :: ws' => filter (fun i => w SlSol !! i = None) (range r) ++ missing_cells ranges' ws'
  | _, _ => []
  end.
(** 785-795: the lines of the message, each a chemistry cell and its grid cells: [i] counts the
    missing cells and is also used as the number of the cell. *)
Fixpoint message_lines (back : list (list nat)) (i : nat) (missing : list Z) : outcome (list (nat * list nat)) :=
  match missing with
  | [] => Ret []
  | _ :: missing' =>
      obind (rd back i) (fun gs => obind (message_lines back (S i) missing') (fun l => Ret ((i, gs) :: l)))
  end.
(** The message, if PhreeqcRMStop is thrown. *)
Definition check_cells (back : list (list nat)) (ranges : list (Z * Z)) (ws : list tables)
  : outcome (option (list (nat * list nat))) :=
  match missing_cells ranges ws with
  | [] => Ret None
  | l => obind (message_lines back 0 l) (fun m => Ret (Some m))
  end.
