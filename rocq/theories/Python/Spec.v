(** What is said about tables and arrays in Python *)
From Coq Require Import ZArith String.
From stdpp Require Import prelude gmap stringmap.
From Verif.Python Require Import Model.
Local Open Scope Z_scope.

(** Sizes that an int can hold *)
Definition small {A} (l : list A) : Prop := Z.of_nat (length l) < 2147483648.
(** A dictionary from numbers holds the rows of a table. *)
Definition holds_rows (d : gmap nat (list Z)) (back : list (list Z)) : Prop := forall i, d !! i = back !! i.
(** A dictionary from names holds the entries of a stoichiometry. *)
Definition holds_entries {Q} (m : stringmap Q) (row : list (string * Q)) : Prop :=
  forall e c, m !! e = Some c <-> (e, c) ∈ row.
(** A dictionary of dictionaries holds the stoichiometries of the named species, and those only. *)
Definition holds_species {Q} (d : stringmap (stringmap Q)) (names : list string) (st : list (list (string * Q))) : Prop :=
  (forall i s row, names !! i = Some s -> st !! i = Some row -> exists m, d !! s = Some m /\ holds_entries m row) /\
  (forall s, s ∉ names -> d !! s = None).
(** Integers that an int can hold *)
Definition is_int (z : Z) (v : pyvalue) : Prop := v = PyInt z /\ -2147483648 <= z <= 2147483647.
