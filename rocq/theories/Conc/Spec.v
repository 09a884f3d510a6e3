(** Specification vocabulary for concentrations. *)
From Coq Require Import String QArith Qcanon.
From stdpp Require Import prelude strings.
From Verif.Names Require Import Spec.
From Verif.Solution Require Import Model.
From Verif.Conc Require Import Model.
Local Open Scope Qc_scope.

(** A mapping as CreateMapping leaves it (C02): every chemistry cell stands for at least one grid
    cell, all grid cells are inside the grid and no grid cell occurs twice. *)
Definition mapping_ok (n : nat) (back : list (list nat)) : Prop :=
  Forall (fun b => b <> []) back /\ Forall (fun gc => (gc < n)%nat) (mjoin back) /\ NoDup (mjoin back).

(** Per-grid-cell vectors cover the grid. *)
Definition grid_ok (g : grid) : Prop :=
  mapping_ok (g_n g) (g_back g) /\
  (g_n g <= length (g_por g) /\ g_n g <= length (g_sat g) /\
   g_n g <= length (g_rv g) /\ g_n g <= length (g_dens g))%nat.

(** Number of bookkeeping components in front: H, O, charge, and H2O if it is a component. *)
Definition fixed (c : cfg) : nat := if c_h2o c then 4 else 3.

(** Component list and weights as FindComponents leaves them. *)
Definition element_name (n : string) : Prop :=
  plain n /\ ~ valence n /\ n <> "H"%string /\ n <> "O"%string /\ n <> "Charge"%string.
Definition comps_ok (c : cfg) : Prop :=
  (fixed c <= length (c_comps c))%nat /\ length (c_gfw c) = length (c_comps c).
Definition cfg_ok (c : cfg) : Prop :=
  comps_ok c /\ Forall (fun g => 0 < g) (c_gfw c) /\
  NoDup (drop (fixed c) (c_comps c)) /\ Forall element_name (drop (fixed c) (c_comps c)).

(** Moles in a volume of a solution of the given density, for a value in the given unit. *)
Definition moles_in (u : sunit) (gfw dens vol x : Qc) : Qc :=
  match u with
  | MgL => x / qz 1000 / gfw * vol
  | MolL => x * vol
  | MassFraction => x * dens * vol * qz 1000 / gfw
  end.

(** [rep g j gc]: grid cell [gc] is the one that stands for chemistry cell [j]. *)
Definition rep (g : grid) (j gc : nat) : Prop := exists b, g_back g !! j = Some (gc :: b).
(** [covers g j gc]: grid cell [gc] belongs to chemistry cell [j]. *)
Definition covers (g : grid) (j gc : nat) : Prop := exists b, g_back g !! j = Some b /\ gc ∈ b.

(** All physical properties of the representative cell are positive. *)
Definition wet (g : grid) (gc : nat) : Prop :=
  exists por sat rv dens, g_por g !! gc = Some por /\ g_sat g !! gc = Some sat /\
    g_rv g !! gc = Some rv /\ g_dens g !! gc = Some dens /\ 0 < por /\ 0 < sat /\ 0 < rv /\ 0 < dens.

(** Amounts below 1e-25 moles are dropped. *)
Definition kept (moles x : Qc) : Qc := if Qc_ltb moles (Q2Qc (1 # 10 ^ 25)) then 0 else x.

(** Name lists as the code builds them: sorted, with element or element-and-valence names. *)
Definition wf_totals (s : sol) : Prop :=
  ordered (s_totals s) /\ forall n v, amount (s_totals s) n v -> wf_name n.

(** Moles of component [k] in a solution. With H2O as a component, hydrogen and oxygen count what is
    not in the mass of water. An element counts all its valence states. *)
Definition component_moles (c : cfg) (s : sol) (k : nat) : option Qc :=
  let elt (k : nat) := option_map (element_sum 0 Qcplus (s_totals s)) (c_comps c !! k) in
  if c_h2o c then
    let w := s_mw s * qz 1000 / default 0 (c_gfw c !! 0%nat) in
    match k with
    | 0%nat => Some w | 1%nat => Some (s_h s - qz 2 * w) | 2%nat => Some (s_o s - w)
    | 3%nat => Some (s_cb s) | _ => elt k
    end
  else
    match k with
    | 0%nat => Some (s_h s) | 1%nat => Some (s_o s) | 2%nat => Some (s_cb s) | _ => elt k
    end.

(** Volume and density behind a report: the solution's own, or those of the representative cell. *)
Definition used (c : cfg) (g : grid) (gc : nat) (s : sol) (v dens : Qc) : Prop :=
  if c_calc c then v = s_vol s /\ dens = s_dens s
  else exists por sat rv, g_por g !! gc = Some por /\ g_sat g !! gc = Some sat /\ g_rv g !! gc = Some rv /\
    v = por * sat * rv /\ g_dens g !! gc = Some dens.

Definition with_unit (u : sunit) (c : cfg) : cfg := Cfg u (c_h2o c) (c_comps c) (c_gfw c) (c_calc c).

(** Two grid vectors agree on grid cell [gc] for all [nc] components. *)
Definition agree_at (n nc gc : nat) (t t' : list Qc) : Prop :=
  forall k, (k < nc)%nat -> t !! (k * n + gc)%nat = t' !! (k * n + gc)%nat.
