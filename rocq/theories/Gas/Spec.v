(** Specification vocabulary for gas phases. *)
From Coq Require Import String QArith Qcanon.
From stdpp Require Import prelude strings gmap.
From Verif.Reactant Require Import Model.
From Verif.Gas Require Import Model.
Local Open Scope Qc_scope.

(** Names that differ by more than the case of their letters. *)
Definition distinct (names : list string) : Prop := NoDup (map lowered names).
(** No component is listed twice. *)
Definition tidy_gas (g : option gas) : Prop :=
  match g with Some g => distinct (map gc_name (g_comps g)) | None => True end.

(** [holds g n c]: the gas phase has component [c] under name [n]. *)
Definition holds (g : option gas) (n : string) (c : gcomp) : Prop :=
  exists g', g = Some g' /\ c ∈ g_comps g' /\ lowered (gc_name c) = lowered n.

(** What a getter shows of a component: its value, or -1. *)
Definition shows (f : gcomp -> Qc) (g : option gas) (n : string) (y : Qc) : Prop :=
  (exists c, holds g n c /\ y = f c) \/ ((forall c, ~ holds g n c) /\ y = -(1)).

(** [first_cell back j gc]: [gc] is the first grid cell of chemistry cell [j]. *)
Definition first_cell (back : list (list nat)) (j gc : nat) : Prop := exists b, back !! j = Some (gc :: b).
(** [part_of back j gc]: grid cell [gc] belongs to chemistry cell [j]. *)
Definition part_of (back : list (list nat)) (j gc : nat) : Prop := exists b, back !! j = Some b /\ gc ∈ b.
(** [at_ t n k gc x]: the vector [t] over a grid of [n] cells holds [x] for item [k] of cell [gc]. *)
Definition at_ (t : list Qc) (n k gc : nat) (x : Qc) : Prop := t !! (k * n + gc)%nat = Some x.

(** What setting the moles of component [n] to [x] must do to it. *)
Definition set_to (n : string) (x : Qc) (g g' : option gas) : Prop :=
  (x < 0 -> forall c, ~ holds g' n c) /\
  (0 <= x -> exists c, holds g' n c /\ gc_moles c = x /\
     (forall c0, holds g n c0 -> gc_name c = gc_name c0 /\ gc_p c = gc_p c0 /\ gc_phi c = gc_phi c0 /\ gc_f c = gc_f c0) /\
     ((forall c0, ~ holds g n c0) -> gc_name c = n /\ gc_p c = 0 /\ gc_phi c = 0 /\ gc_f c = 0)).
