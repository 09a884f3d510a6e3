(** What is said about error handler modes *)
From Coq Require Import ZArith.
From stdpp Require Import prelude.
From Verif.Base Require Import Result.
From Verif.Settings Require Import Model.
Local Open Scope Z_scope.

(** The modes of a build: 0, 1, 2, and with OpenMP 3 *)
Definition offered (openmp : bool) (i : Z) : Prop := 0 <= i <= 2 \/ (openmp = true /\ i = 3).
(** The mode after requests: that of the last one if the build offers it, else 0, which is also the first mode *)
Definition mode_after (openmp : bool) (l : list Z) (m : Z) : Prop :=
  match last l with None => m = 0 | Some i => (offered openmp i /\ m = i) \/ (~ offered openmp i /\ m = 0) end.
(** How a failure is to be reported in a mode *)
Definition ending (m : Z) : reply := if decide (m = 1) then Thrown else if decide (m = 2) then Exited IRM_FAIL else Returned IRM_FAIL.
