(** Specification vocabulary for boundary conditions. *)
From Coq Require Import String QArith Qcanon.
From stdpp Require Import prelude strings gmap.
From Verif.Names Require Import Spec.
From Verif.Solution Require Import Model Spec.
From Verif.Conc Require Import Model Spec.
From Verif.Boundary Require Import Model.
Local Open Scope Qc_scope.

(** Is a solution or a mix of this number defined? *)
Definition known (t : defined) (n : Z) : Prop := is_Some (d_sols t !! n) \/ n ∈ d_mixes t.

(** [stands_for t n m]: number [n] of the caller's list means solution [m]: itself, or, if it is
    negative, the highest number of the solutions and mixes. *)
Definition stands_for (t : defined) (n m : Z) : Prop :=
  ((0 <= n)%Z /\ m = n) \/ ((n < 0)%Z /\ known t m /\ forall k, known t k -> (k <= m)%Z).

(** The fraction of the first solution; 1 where the caller's list has ended. *)
Definition fraction (fr : list Qc) (i : nat) : Qc := default 1 (fr !! i).
(** [second b2 fr i n]: solution [n] has a share in boundary condition [i]. *)
Definition second (b2 : list Z) (fr : list Qc) (i : nat) (n : Z) : Prop :=
  b2 !! i = Some n /\ (0 <= n)%Z /\ fraction fr i < 1.

(** The parts asked for. *)
Inductive asked (t : defined) (b1 b2 : list Z) (fr : list Qc) (i : nat) : list (sol * Qc) -> Prop :=
| AskOne n m s : b1 !! i = Some n -> stands_for t n m -> d_sols t !! m = Some s ->
    (forall n2, ~ second b2 fr i n2) ->
    asked t b1 b2 fr i [(s, fraction fr i)]
| AskTwo n m s n2 s2 : b1 !! i = Some n -> stands_for t n m -> d_sols t !! m = Some s ->
    second b2 fr i n2 -> d_sols t !! n2 = Some s2 ->
    asked t b1 b2 fr i [(s, fraction fr i); (s2, 1 - fraction fr i)].

(** Moles of component [k], 0 if there is no such component. *)
Definition moles_of (c : cfg) (k : nat) (s : sol) : Qc := default 0 (component_moles c s k).

(** Solutions a speciation calculation can leave behind. *)
Definition sound (s : sol) : Prop := wf_totals s /\ 0 < s_mw s /\ 0 < s_vol s /\ 0 < s_dens s.

(** Numbers of solutions and mixes as the input reader gives them. *)
Definition numbered (t : defined) : Prop := forall k, known t k -> (0 <= k)%Z.
