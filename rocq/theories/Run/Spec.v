(** Which instances a call is meant for, and when a run worked. *)
From Coq Require Import ZArith.
From stdpp Require Import prelude.
From Verif.Run Require Import Model.

(** The instances are the workers, then InitialPhreeqc, then Utility. *)
Definition chosen (nthreads : nat) (f : flags) (n : nat) : Prop :=
  (n < nthreads /\ f_workers f = true) \/ (n = nthreads /\ f_initial f = true)
  \/ (n = nthreads + 1 /\ f_utility f = true).

Definition worked (a : answer) : Prop := exists k, a = Errors k /\ (k <= 0)%Z.
