(** What is said about balancing between processes *)
From stdpp Require Import prelude.
Local Open Scope Z_scope.

(** Every process has measured a time for each of its cells. *)
Definition measured {T} (ss es : list Z) (times : list (list T)) : Prop :=
  length times = length es /\
  forall p s e l, ss !! p = Some s -> es !! p = Some e -> times !! p = Some l -> Z.of_nat (length l) = e - s + 1.
