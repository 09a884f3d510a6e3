(** The unsaturated parts of cells that RebalanceLoad moves between processes.

    Source: src/PhreeqcRM.cpp 8033-8057 (and 9020-9042), 12949-12984 (TransferCellsUZ),
    src/IPhreeqcPhast/IPhreeqc/phreeqcpp/StorageBin.cxx 463-466, 850-915, 955-1110, 1220-1254. The lines of a raw
    block and their reading are those of [Verif.Raw.Model], the saturated parts those of [Verif.Transfer.Model]. *)
From Coq Require Import ZArith String.
From stdpp Require Import prelude strings gmap.
From Verif.Base Require Import Result.
From Verif.Names Require Import Model.
From Verif.Core Require Import Move.
From Verif.Transfer Require Import Model.
From Verif.Raw Require Import Model.
Open Scope Z_scope.
Open Scope list_scope.

Section UzMove.
Context {D : Type} (dcmp : D -> D -> comparison) (lit : string -> D) (rnd : D -> D).
Local Notation reactants := (reactants (D := D)).
Local Notation entity := (entity (D := D)).
Local Notation phys := (phys (D := D)).

(** cxxStorageBin::dump_raw(s_oss, n, indent), StorageBin.cxx 850-915: the kinds in order, without the pressure *)
Definition cell_entities (b : reactants) (k : Z) : list entity :=
  option_list (ESolution <$> ph_sol b !! k) ++ option_list (EExchange <$> ph_ex b !! k) ++
  option_list (EGas <$> ph_gas b !! k) ++ option_list (EKinetics <$> ph_kin b !! k) ++
  option_list (EPP <$> ph_pp b !! k) ++ option_list (ESS <$> ph_ss b !! k) ++
  option_list (ESurface <$> ph_surf b !! k) ++ option_list (EMix <$> ph_mix b !! k) ++
  option_list (EReaction <$> ph_react b !! k) ++ option_list (ETemp <$> ph_temp b !! k).
(** ... under the number asked for: dump_raw(s_oss, indent, &n_user_local) *)
Definition number_as (k : Z) (ls : list phys) : list phys :=
  match ls with Head w _ t :: r => Head w k t :: r | _ => ls end.
Definition dump_cell (b : reactants) (k : Z) : list phys :=
  flat_map (fun e => number_as k (dump_entity rnd e)) (cell_entities b k).

(** Remove_Solution, 463-466; Remove, 1220-1254 *)
Definition remove_solution (k : Z) (b : reactants) : reactants :=
  Reactants (delete k (ph_sol b)) (ph_ex b) (ph_gas b) (ph_kin b) (ph_pp b) (ph_ss b) (ph_surf b) (ph_temp b)
    (ph_press b) (ph_mix b) (ph_react b).
Definition remove (k : Z) (b : reactants) : reactants :=
  Reactants (delete k (ph_sol b)) (delete k (ph_ex b)) (delete k (ph_gas b)) (delete k (ph_kin b)) (delete k (ph_pp b))
    (delete k (ph_ss b)) (delete k (ph_surf b)) (delete k (ph_temp b)) (delete k (ph_press b)) (delete k (ph_mix b))
    (delete k (ph_react b)).
(** PhreeqcRM.cpp 8037-8047: the sender writes the parts of its cells and removes them *)
Fixpoint gather (ks : list Z) (b : reactants) : list phys * reactants :=
  match ks with
  | [] => ([], b)
  | k :: r =>
      let b1 := remove_solution k b in
      let q := gather r (remove k b1) in
      (dump_cell b1 k ++ q.1, q.2)
  end.

(** cxxStorageBin::read_raw, 955-1110: what is read is entered under the number it has. Errors are counted by the
    parser, which nobody asks. Blocks of other kinds, REACTION_PRESSURE_RAW among them, are passed by (the
    default, 1080-1093). *)
Definition bin_one (k : string) (n : Z) (text : string) (ls : list (list tok)) (b : reactants) : reactants :=
  if decide (k = "REACTION_PRESSURE_RAW"%string) then b else (read_one dcmp lit k n text ls (b, 0%nat)).1.
Fixpoint bin_read (ls : list phys) (b : reactants) : reactants :=
  match ls with
  | [] => b
  | Head k n text :: ls' => bin_read ls' (bin_one k n text (bodies ls') b)
  | Body _ :: ls' => bin_read ls' b
  end.
(** TransferCellsUZ, PhreeqcRM.cpp 12949-12984: the text travels as it is (lines here; no NUL is in it) *)
Definition move_uz (ks : list Z) (from into : reactants) : reactants * reactants :=
  let q := gather ks from in (q.2, bin_read q.1 into).

(** All exchanges with partition_uz_solids on, PhreeqcRM.cpp 7935-8061 (and 8923-9046). A process: the reactants
    of its worker, and the uz_bin of the worker. *)
Fixpoint send_both (d1 : D) (tp : nmap (nat * nat * list Z)) (ws : list (reactants * reactants))
    : outcome (list (reactants * reactants)) :=
  match tp with
  | [] => Ret ws
  | (_, (o, n, ks)) :: tp' =>
      match ws !! o, ws !! n with
      | Some wo, Some wn =>
          obind (send_cells dcmp d1 ks wo.1 wn.1) (fun r =>
            let u := move_uz ks wo.2 wn.2 in
            send_both d1 tp' (<[n := (r.2, u.2)]> (<[o := (r.1, u.1)]> ws)))
      | _, _ => UB
      end
  end.
Definition rebalance_uz (d1 : D) (count : Z) (es es' : list Z) (ws : list (reactants * reactants))
    : outcome (list (reactants * reactants)) :=
  obind (plan_loop es es' (cells_upto count) 0 0 []) (fun tp => send_both d1 tp ws).
End UzMove.
