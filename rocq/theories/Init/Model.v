(** Initial conditions: mixing definitions of the InitialPhreeqc instance into the cells.

    Source: src/PhreeqcRM.cpp 410-699 (CellInitialize), 6058-6409 (InitialSolutions2Module to
    InitialPhreeqc2Module); phreeqcpp/StorageBinList.cpp 146-322 and ReadClass/mainsubs
    delete_entities (the DELETE keyword).  OpenMP build, asserts off; arithmetic is exact (Qc). *)
From Coq Require Import String QArith Qcanon.
From stdpp Require Import prelude strings gmap.
From Verif.Base Require Import Result.
From Verif.Names Require Import Model.
From Verif.Solution Require Import Model.
From Verif.Reactant Require Import Model.
Local Open Scope Qc_scope.

(** The seven kinds of reactant, in the order of the blocks of CellInitialize. *)
Inductive slot := SlSol | SlPP | SlEx | SlSurf | SlGas | SlSS | SlKin.
Global Instance slot_eq_dec : EqDecision slot.
Proof. solve_decision. Defined.
Definition slots : list slot := [SlSol; SlPP; SlEx; SlSurf; SlGas; SlSS; SlKin].
(** Row of the initial-condition arrays: [k * stride], 455, 495, 531, 564, 597, 630, 664. *)
Definition row (k : slot) : nat :=
  match k with SlSol => 0 | SlPP => 1 | SlEx => 2 | SlSurf => 3 | SlGas => 4 | SlSS => 5 | SlKin => 6 end.
Definition ty (k : slot) : Type :=
  match k with SlSol => sol | SlPP => pp | SlEx => exch | SlSurf => surf | SlGas => gas
             | SlSS => ssas | SlKin => kin end.
(** The reactants of an IPhreeqc instance (or of a cxxStorageBin), by kind and number. *)
Definition tables := forall k : slot, gmap Z (ty k).
Definition no_tables : tables := fun k => ∅.
Definition upd (k : slot) (f : gmap Z (ty k) -> gmap Z (ty k)) (b : tables) : tables :=
  fun j => match slot_eq_dec k j with
           | left e => match e in _ = j return gmap Z (ty j) with eq_refl => f (b k) end
           | right _ => b j
           end.

Definition rd {A} (l : list A) (i : nat) : outcome A :=
  match l !! i with Some a => Ret a | None => UB end.

(** What CellInitialize reads besides its arguments. *)
Record grid := Grid {
  g_nxyz : nat; g_por : list Qc; g_sat : list Qc; g_rv : list Qc;
  g_units : slot -> nat }.       (* units_PPassemblage etc.; not used for solutions *)

(** 448-451: porosity_factor *)
Definition factors (por rv : Qc) : list Qc := [rv; rv * por; rv * (1 - por)].

(** The mixing constructors *)
Definition mix_of (k : slot) : gmap Z (ty k) -> mixmap -> ty k :=
  match k with SlSol => sol_mix | SlPP => pp_mix | SlEx => exch_mix | SlSurf => surf_mix
             | SlGas => gas_mix | SlSS => ssas_mix | SlKin => kin_mix end.

(** cxxMix: first number, and second number if it is not negative *)
Definition pair_mix (n1 : Z) (x1 : Qc) (n2 : Z) (x2 : Qc) : mixmap :=
  let m := mix_add n1 x1 [] in if (0 <=? n2)%Z then mix_add n2 x2 m else m.

(** 477-489: a solution is scaled by volume.  A solution of volume 0 gives an infinite factor in C++
    and is not represented (the quotient is 0 here). *)
Definition vol_of (t : gmap Z sol) (n : Z) : Qc := match t !! n with Some s => s_vol s | None => 0 end.
Definition build_sol (t : gmap Z sol) (por sat rv f1 : Qc) (n1 n2 : Z) : sol :=
  sol_mix t (pair_mix n1 (f1 * por * sat * rv / vol_of t n1) n2 ((1 - f1) * por * sat * rv / vol_of t n2)).
(** 515-522 and the like: the other reactants by a factor chosen with the unit. *)
Definition build (t : tables) (g : grid) (por sat rv f1 : Qc) (n1 n2 : Z) (k : slot) : outcome (ty k) :=
  match k with
  | SlSol => Ret (build_sol (t SlSol) por sat rv f1 n1 n2)
  | k => obind (rd (factors por rv) (g_units g k)) (fun x =>
           Ret (mix_of k (t k) (mix_multiply x (pair_mix n1 f1 n2 (1 - f1)))))
  end.

(** 455-470 etc.: is the number defined?  The second KINETICS number is looked up among the solid
    solutions, 673. *)
Definition defined (t : tables) (k : slot) (n : Z) : bool := bool_decide (is_Some (t k !! n)).
Definition lookup_second (k : slot) : slot := match k with SlKin => SlSS | _ => k end.

(** A block: messages of error_set, rtn, and initial_bin. *)
Record progress := Prog { p_ok : bool; p_msgs : list (slot * Z); p_bin : tables }.
Definition block (t : tables) (g : grid) (por sat rv : Qc) (ic1 ic2 : list Z) (fr : list Qc)
    (ixyz : nat) (n_user : Z) (k : slot) (p : progress) : outcome progress :=
  let i := (row k * g_nxyz g + ixyz)%nat in
  obind (rd ic1 i) (fun n1 => obind (rd ic2 i) (fun n2 =>
  let bad1 := ((0 <=? n1)%Z && negb (defined t k n1))%bool in
  let bad2 := ((0 <=? n2)%Z && negb (defined t (lookup_second k) n2))%bool in
  let msgs := p_msgs p ++ (if bad1 then [(k, n1)] else []) ++ (if bad2 then [(k, n2)] else []) in
  let ok := (p_ok p && negb bad1 && negb bad2)%bool in
  if ok then
    obind (rd fr i) (fun f1 =>
    if (0 <=? n1)%Z then
      obind (build t g por sat rv f1 n1 n2 k) (fun e =>
      Ret (Prog ok msgs (upd k (fun m => <[n_user := e]> m) (p_bin p))))
    else Ret (Prog ok msgs (p_bin p)))
  else Ret (Prog ok msgs (p_bin p)))).

Fixpoint blocks (t : tables) (g : grid) (por sat rv : Qc) (ic1 ic2 : list Z) (fr : list Qc)
    (ixyz : nat) (n_user : Z) (ks : list slot) (p : progress) : outcome progress :=
  match ks with
  | [] => Ret p
  | k :: ks' => obind (block t g por sat rv ic1 ic2 fr ixyz n_user k p)
                  (blocks t g por sat rv ic1 ic2 fr ixyz n_user ks')
  end.

(** cxxStorageBin2phreeqc(sb), structures.cpp 3282-3395: what the bin holds replaces what is there. *)
Definition overlay (new old : tables) : tables := fun k => new k ∪ old k.

(** CellInitialize; [w0] is worker 0.  694-697: stored only if nothing failed. *)
Definition cell_init (t : tables) (g : grid) (ic1 ic2 : list Z) (fr : list Qc) (ixyz : nat) (n_user : Z)
    (w0 : tables) : outcome (bool * list (slot * Z) * tables) :=
  obind (rd (g_por g) ixyz) (fun por => obind (rd (g_rv g) ixyz) (fun rv =>
  obind (rd (g_sat g) ixyz) (fun sat =>
  obind (blocks t g por sat rv ic1 ic2 fr ixyz n_user slots (Prog true [] no_tables)) (fun p =>
  Ret (p_ok p, p_msgs p, if p_ok p then overlay (p_bin p) w0 else w0))))).

(** The loop over the chemistry cells, 6309-6356; [cells] pairs the cell number with
    backward_mapping[i][0]. *)
Fixpoint init_cells (t : tables) (g : grid) (ic1 ic2 : list Z) (fr : list Qc) (cells : list (Z * nat))
    (ok : bool) (msgs : list (slot * Z)) (w0 : tables) : outcome (bool * list (slot * Z) * tables) :=
  match cells with
  | [] => Ret (ok, msgs, w0)
  | (i, j) :: cells' =>
      obind (rd (g_por g) j) (fun por => obind (rd (g_rv g) j) (fun rv =>
      if Qc_ltb por 0 then init_cells t g ic1 ic2 fr cells' false msgs w0
      else if Qc_ltb rv 0 then init_cells t g ic1 ic2 fr cells' false msgs w0
      else obind (cell_init t g ic1 ic2 fr j i w0) (fun r =>
           init_cells t g ic1 ic2 fr cells' (ok && r.1.1) (if r.1.1 then msgs else msgs ++ r.1.2) r.2)))
  end.

(** phreeqc2cxxStorageBin(sb, i) into cxxStorageBin2phreeqc(sb, i), structures.cpp 3183-3262 and
    3398-3500: the reactants of cell [i], where there are any. *)
Definition pass_cell (w0 w : tables) (i : Z) : tables :=
  fun k => match w0 k !! i with Some e => <[i := e]> (w k) | None => w k end.
(** "DELETE; -cells" with a list of numbers; without numbers it deletes everything
    (StorageBinList.cpp 312-315 and delete_entities). *)
Definition delete_cells (cells : list Z) (w : tables) : tables :=
  match cells with
  | [] => no_tables
  | _ => fun k => foldr (fun i m => delete i m) (w k) cells
  end.
Definition range (r : Z * Z) : list Z := seqZ r.1 (r.2 - r.1 + 1).

(** 6371-6389: workers 1, 2, ... in turn *)
Fixpoint distribute (w0 : tables) (ws : list tables) (rs : list (Z * Z)) : outcome (tables * list tables) :=
  match ws, rs with
  | [], _ => Ret (w0, [])
  | w :: ws', r :: rs' =>
      let w' := foldl (pass_cell w0) w (range r) in
      obind (distribute (delete_cells (range r) w0) ws' rs') (fun x => Ret (x.1, w' :: x.2))
  | _ :: _, [] => UB
  end.

(** InitialPhreeqc2Module with three arguments.  [t]: worker nthreads (the InitialPhreeqc
    instance); [bm i] is backward_mapping[i][0]; [ranges] are (start_cell, end_cell). *)
Definition init_module (t : tables) (g : grid) (bm : list nat) (ranges : list (Z * Z))
    (ic1 ic2 : list Z) (fr : list Qc) (ws : list tables)
  : outcome (irm_result * list (slot * Z) * list tables) :=
  let n7 := (7 * g_nxyz g)%nat in
  if negb (length ic1 =? n7)%nat then Ret (IRM_FAIL, [], ws)
  else if ((0 <? length ic2)%nat && negb (length ic2 =? n7)%nat)%bool then Ret (IRM_FAIL, [], ws)
  else if ((0 <? length fr)%nat && negb (length fr =? n7)%nat)%bool then Ret (IRM_FAIL, [], ws)
  else
    match ws with
    | [] => UB
    | w0 :: ws' =>
        obind (init_cells t g ic1 ic2 fr (zip (seqZ 0 (Z.of_nat (length bm))) bm) true [] w0) (fun r =>
        let '(ok, msgs, w0') := r in
        if ok then obind (distribute w0' ws' (tail ranges)) (fun x => Ret (IRM_OK, msgs, x.1 :: x.2))
        else Ret (IRM_FAIL, msgs, w0' :: ws'))
    end.

(** The one-argument version, 6196-6209 *)
Definition init_module1 (t : tables) (g : grid) (bm : list nat) (ranges : list (Z * Z)) (ic1 : list Z)
    (ws : list tables) :=
  init_module t g bm ranges ic1 (replicate (7 * g_nxyz g) (-1)%Z) (replicate (7 * g_nxyz g) 1) ws.
(** InitialSolutions2Module, ..., InitialKinetics2Module, 6058-6195: one row is filled from the
    vector, which is read without a check of its length. *)
Definition init_module_row (k : slot) (t : tables) (g : grid) (bm : list nat) (ranges : list (Z * Z))
    (v : list Z) (ws : list tables) : outcome (irm_result * list (slot * Z) * list tables) :=
  if (length v <? g_nxyz g)%nat then UB
  else init_module1 t g bm ranges
         (replicate (row k * g_nxyz g) (-1)%Z ++ take (g_nxyz g) v ++ replicate ((6 - row k) * g_nxyz g) (-1)%Z) ws.
