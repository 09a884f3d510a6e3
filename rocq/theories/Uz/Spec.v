(** Specification vocabulary for the partition of reactants: what is conserved. *)
From Coq Require Import String QArith Qcanon.
From stdpp Require Import prelude strings gmap.
From Verif.Reactant Require Import Model Spec.
From Verif.Uz Require Import Model.
Local Open Scope Qc_scope.

Definition has (k : kind) (st : store) (n : Z) : Prop :=
  match k with
  | KEx => is_Some (st_ex st !! n) | KPP => is_Some (st_pp st !! n) | KGas => is_Some (st_gas st !! n)
  | KSS => is_Some (st_ss st !! n) | KKin => is_Some (st_kin st !! n) | KSurf => is_Some (st_surf st !! n)
  end.

Definition opt_amount {A} (f : A -> Qc) (o : option A) : Qc :=
  match o with Some a => f a | None => 0 end.
(** The amount of [q] that store [st] holds for cell [n]. *)
Definition amount (q : quantity) (st : store) (n : Z) : Qc :=
  match kind_of q with
  | KEx => opt_amount (exch_amount q) (st_ex st !! n)
  | KPP => opt_amount (pp_amount q) (st_pp st !! n)
  | KGas => opt_amount (gas_amount q) (st_gas st !! n)
  | KSS => opt_amount (ss_amount q) (st_ss st !! n)
  | KKin => opt_amount (kin_amount q) (st_kin st !! n)
  | KSurf => opt_amount (surf_amount q) (st_surf st !! n)
  end.

(** Consistency between the two parts: a phase has one alternative formula [fm], a cell's gas phase
    has one type [gt], and maps are keyed by the names of what they hold. *)
Definition consistent (fm : string -> string) (gt : gtype) (st : store) (n : Z) : Prop :=
  (forall p, st_pp st !! n = Some p -> pp_ok fm p) /\
  (forall g, st_gas st !! n = Some g -> g_type g = gt) /\
  (forall l, st_ss st !! n = Some l -> ss_ok l).
