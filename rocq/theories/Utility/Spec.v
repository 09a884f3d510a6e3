(** Specification vocabulary for solutions made from sets of concentrations. *)
From Coq Require Import String QArith Qcanon.
From stdpp Require Import prelude strings.
From Verif.Names Require Import Spec.
From Verif.Solution Require Import Model.
From Verif.Conc Require Import Model Spec.
Local Open Scope Qc_scope.

(** [portion c n t i k x]: [x] moles of component [k] belong to a litre (for mass fractions: a
    kilogram) of set [i], given a vector [t] with [n] values of every component. *)
Definition portion (c : cfg) (n : nat) (t : list Qc) (i k : nat) (x : Qc) : Prop :=
  exists y gf, t !! (k * n + i)%nat = Some y /\ c_gfw c !! k = Some gf /\
               moles_in (c_unit c) gf 1 1 y = x.

(** Moles of hydrogen, oxygen and charge of set [i]; with H2O as a component every mole of it brings
    two of hydrogen and one of oxygen. *)
Definition water_of (c : cfg) (n : nat) (t : list Qc) (i : nat) (h o cb : Qc) : Prop :=
  if c_h2o c then
    exists w h' o', portion c n t i 0 w /\ portion c n t i 1 h' /\ portion c n t i 2 o' /\
      portion c n t i 3 cb /\ h = h' + qz 2 * w /\ o = o' + w
  else portion c n t i 0 h /\ portion c n t i 1 o /\ portion c n t i 2 cb.

(** Vectors as FindComponents and the caller leave them. *)
Definition sets_ok (c : cfg) (n : nat) (tc patm t : list Qc) : Prop :=
  cfg_ok c /\ length t = (n * length (c_comps c))%nat /\ (n <= length tc)%nat /\ (n <= length patm)%nat.
