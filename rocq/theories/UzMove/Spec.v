(** Where the unsaturated parts have to be after a rebalancing. *)
From Coq Require Import ZArith String.
From stdpp Require Import prelude gmap.
From Verif.Partition Require Import Spec.
From Verif.Transfer Require Import Model Spec.
From Verif.Raw Require Import Model Spec Lines.
Open Scope Z_scope.

Section Spec.
Context {D : Type} (dcmp : D -> D -> comparison) (lit : string -> D) (rnd : D -> D).
Local Notation reactants := (reactants (D := D)).
Local Notation entity := (entity (D := D)).

(** Solutions are not part of an unsaturated part, nor pressures. *)
Definition travels (e : entity) : Prop := match e with ESolution _ | EPress _ => False | _ => True end.
(** Process [p] has [e] under number [k]. *)
Definition has_part (ws : list reactants) (p : nat) (k : Z) (e : entity) : Prop := exists w, ws !! p = Some w /\ stored w k e.
(** Before: the parts of a cell are on the process that owns it, carry its number, and can be written and read. *)
Definition uz_placed (count : Z) (ss es : list Z) (ws : list reactants) : Prop :=
  forall p k e, 0 <= k < count -> has_part ws p k e ->
    owns ss es p k /\ (travels e -> (place e).2 = k /\ fits dcmp rnd keywords e).
(** After *)
Definition uz_settled (count : Z) (ss es ss' es' : list Z) (ws ws' : list reactants) : Prop :=
  (forall k o n, 0 <= k < count -> owns ss es o k -> owns ss' es' n k -> o <> n ->
    (forall e, travels e -> has_part ws o k e -> exists e', restored lit rnd e e' /\ has_part ws' n k e') /\
    (forall e', has_part ws' n k e' -> exists e, travels e /\ has_part ws o k e /\ restored lit rnd e e') /\
    (forall p e, p <> n -> ~ has_part ws' p k e)) /\
  (forall k o, 0 <= k < count -> owns ss es o k -> owns ss' es' o k -> forall p e, has_part ws' p k e <-> has_part ws p k e) /\
  (forall k p e, ~ 0 <= k < count -> has_part ws' p k e <-> has_part ws p k e).
End Spec.
