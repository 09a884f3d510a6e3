(** Specification vocabulary for initial conditions. *)
From Coq Require Import String QArith Qcanon.
From stdpp Require Import prelude strings gmap.
From Verif.Solution Require Import Model Spec.
From Verif.Reactant Require Import Model Spec.
From Verif.Init Require Import Model.
Local Open Scope Qc_scope.

(** The amounts that mixing is about, for each kind of reactant. *)
Definition measure (k : slot) : (ty k -> Qc) -> Prop :=
  match k with
  | SlSol => fun m => m ∈ extensive \/ exists n, m = fun s => listed (s_totals s) n
  | SlPP => fun m => exists q, kind_of q = KPP /\ named_q q /\ m = pp_amount q
  | SlEx => fun m => exists q, kind_of q = KEx /\ named_q q /\ m = exch_amount q
  | SlSurf => fun m => exists q, kind_of q = KSurf /\ named_q q /\ m = surf_amount q
  | SlGas => fun m => exists q, kind_of q = KGas /\ named_q q /\ m = gas_amount q
  | SlSS => fun m => exists q, kind_of q = KSS /\ named_q q /\ m = ss_amount q
  | SlKin => fun m => exists q, kind_of q = KKin /\ named_q q /\ m = kin_amount q
  end.

(** Two definitions that can be mixed: the phases agree on alternative formulas, gas phases are of one
    type, solid solutions are filed under their names. *)
Definition compatible (k : slot) : ty k -> ty k -> Prop :=
  match k with
  | SlPP => fun a b => exists fm, pp_ok fm a /\ pp_ok fm b
  | SlGas => fun a b => g_type a = g_type b
  | SlSS => fun a b => ss_ok a /\ ss_ok b
  | _ => fun _ _ => True
  end.

(** [e] holds [x1] times [a1] and [x2] times [a2]. *)
Definition blend2 (k : slot) (x1 : Qc) (a1 : ty k) (x2 : Qc) (a2 e : ty k) : Prop :=
  forall m, measure k m -> m e = x1 * m a1 + x2 * m a2.
Definition blend1 (k : slot) (x1 : Qc) (a1 e : ty k) : Prop :=
  forall m, measure k m -> m e = x1 * m a1.

(** Litres of water in a cell. *)
Definition water (por sat rv : Qc) : Qc := por * sat * rv.
(** Volume a mole count refers to, by unit: the whole cell, its pores, its rock. *)
Definition basis (unit : nat) (por rv : Qc) : Qc :=
  match unit with O => rv | S O => por * rv | _ => (1 - por) * rv end.
(** How much of a definition a cell with fraction [f] of it holds. *)
Definition share (k : slot) (unit : nat) (f por sat rv : Qc) : ty k -> Qc :=
  match k with
  | SlSol => fun s => f * water por sat rv / s_vol s
  | _ => fun _ => f * basis unit por rv
  end.

(** What array [ic] asks for in grid cell [j]. *)
Definition asked {A} (ic : list A) (nxyz : nat) (k : slot) (j : nat) (x : A) : Prop :=
  ic !! (row k * nxyz + j)%nat = Some x.
Definition known (t : tables) (k : slot) (n : Z) : Prop := (n < 0)%Z \/ is_Some (t k !! n).
