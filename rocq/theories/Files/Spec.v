(** What a dump is meant to hold, and what it means that a file was not lost. *)
From Coq Require Import ZArith String.
From stdpp Require Import prelude strings gmap.
From Verif.Files Require Import Model.
Open Scope list_scope.

(** The reactants a dump of the given cell ranges has to hold: those of the kinds that can be
    dumped whose cell lies in the range of their worker. *)
Definition to_dump (ranges : list (Z * Z)) (it : nat * kind * Z) : Prop :=
  exists r, ranges !! it.1.1 = Some r /\ it.1.2 <> Pressure /\ (r.1 <= it.2 <= r.2)%Z.

(** A partition of the cells 0..n-1 among workers, each cell having exactly one owner. *)
Definition partition (ranges : list (Z * Z)) (n : Z) : Prop :=
  (forall j, 0 <= j < n -> exists! w, exists r, ranges !! w = Some r /\ r.1 <= j <= r.2)%Z
  /\ (forall w r, ranges !! w = Some r -> 0 <= r.1 /\ r.2 < n)%Z.

(** After a crash, the previous text is still to be found, or the new one is complete. *)
Definition kept {A} (name backup : string) (old new : list A) (fs : gmap string (list A)) : Prop :=
  fs !! name = Some old \/ fs !! backup = Some old \/ fs !! name = Some new.
