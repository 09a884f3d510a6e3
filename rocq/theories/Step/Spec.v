(** Decimals of six digits, and what it means to run for a time. *)
From Coq Require Import ZArith QArith Qabs Qcanon.
From stdpp Require Import prelude.
From Verif.Step Require Import Model.
Open Scope Z_scope.

(** A number of at most six significant digits *)
Definition six_digits (w : Qc) : Prop :=
  exists m k, Z.abs m < 1000000 /\ (this w == inject_Z m * Qpower 10 k)%Q.
Definition dist (a b : Qc) : Q := Qabs (this a - this b).
Definition size (a : Qc) : Q := Qabs (this a).

(** The sum of some times *)
Definition sum (l : list Qc) : Qc := foldr Qcplus 0%Qc l.

(** The calls take up each other: the first starts at [a] and each where the one before ended; the last ends
    at [b]. *)
Inductive chained : Qc -> list event -> Qc -> Prop :=
| chained_nil a : chained a [] a
| chained_cons a e es b : ev_start e = a -> ev_after e = (a + ev_kin e)%Qc -> chained (a + ev_kin e)%Qc es b ->
    chained a (e :: es) b.
