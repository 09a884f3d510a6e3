(** What it means for the contents of the cells to be where they should be. *)
From stdpp Require Import prelude gmap.
From Verif.Bin Require Import Model.
From Verif.Base Require Import Result Arith.
From Verif.Partition Require Import Spec Rebalance.
From Verif.Core Require Import Move Threads.
Local Open Scope Z_scope.

(** A rebalancing method and fraction that turn every partition into a partition.
    (With averages, times that are all zero give undefined behaviour; C05.) *)
Definition rebalance_sound (A : arith) (by_cell : bool) (f : num A) (count : Z) : Prop :=
  forall ss es tt ct, valid_split count ss es -> length tt = length es -> Z.of_nat (length ct) = count ->
    match rebalance A by_cell f count ss es tt ct with
    | Ret (ss', es') => valid_split count ss' es' /\ length es' = length es
    | Throw => False
    | UB => by_cell = false
    end.

Section spec.
  Context {E : Type}.
  Implicit Types (ws : list (store E)) (w : nat) (t : rtype) (m i : Z) (e : entity E).

  (** Worker [w] holds reactant [e] under type [t] and number [m] ... *)
  Definition holds ws w t m e : Prop := exists s, ws !! w = Some s /\ rx s !! (t, m) = Some e.
  (** ... in the unsaturated-zone bin. *)
  Definition holds_uz ws w t m e : Prop := exists s, ws !! w = Some s /\ uz s !! (t, m) = Some e.

  Definition numbered m e : Prop := e_n e = m /\ e_end e = m.

  (** Every reactant that any worker holds belongs to a cell that this worker
      owns, carries the number of the cell, and is of one of the seven types that
      make up a cell. *)
  Record consistent (pz : bool) (count : Z) (ss es : list Z) ws : Prop := {
    cs_split : valid_split count ss es;
    cs_len : length ws = length es;
    cs_home : forall w t m e, holds ws w t m e -> owns ss es w m /\ numbered m e /\ t ∈ cell_types;
    cs_home_uz : forall w t m e, holds_uz ws w t m e ->
      pz = true /\ owns ss es w m /\ numbered m e /\ t ∈ cell_types;
  }.

  (** Content of cell [i]: what its owner holds, saturated and unsaturated. *)
  Definition content ss es ws i (c u : gmap rtype E) : Prop :=
    exists w s, owns ss es w i /\ ws !! w = Some s /\
      (forall t, c !! t = e_body <$> rx s !! (t, i)) /\ (forall t, u !! t = e_body <$> uz s !! (t, i)).

  (** Two distributions (possibly over different numbers of workers) of the same
      contents. *)
  Definition same_contents (count : Z) ss1 es1 ws1 ss2 es2 ws2 : Prop :=
    forall i, 0 <= i < count -> forall c u, content ss1 es1 ws1 i c u <-> content ss2 es2 ws2 i c u.
End spec.
