(** What a dump file read back is to hold. *)
From Coq Require Import ZArith String.
From stdpp Require Import prelude strings gmap.
From Verif.Transfer Require Import Model.
From Verif.Raw Require Import Model.
From Verif.Reload Require Import Model.
Open Scope Z_scope.

Section Spec.
Context {D : Type}.
Local Notation reactants := (reactants (D := D)).
Local Notation entity := (entity (D := D)).

(** Every reactant carries the number under which it is stored, as a range of one. *)
Definition numbered (r : reactants) : Prop :=
  (forall i x, ph_sol r !! i = Some x -> so_n x = i /\ so_end x = i) /\
  (forall i x, ph_ex r !! i = Some x -> ex_n x = i /\ ex_end x = i) /\
  (forall i x, ph_gas r !! i = Some x -> gp_n x = i /\ gp_end x = i) /\
  (forall i x, ph_kin r !! i = Some x -> ki_n x = i /\ ki_end x = i) /\
  (forall i x, ph_pp r !! i = Some x -> pp_n x = i /\ pp_end x = i) /\
  (forall i x, ph_ss r !! i = Some x -> sa_n x = i /\ sa_end x = i) /\
  (forall i x, ph_surf r !! i = Some x -> su_n x = i /\ su_end x = i) /\
  (forall i x, ph_mix r !! i = Some x -> mi_n x = i /\ mi_end x = i) /\
  (forall i x, ph_react r !! i = Some x -> rx_n x = i /\ rx_end x = i) /\
  (forall i x, ph_temp r !! i = Some x -> st_n x = i /\ st_end x = i).
(** Joined parts carry the number asked for. *)
Definition numbering (j : joins (D := D)) : Prop :=
  (forall a b n, ex_n (j_ex j a b n) = n) /\ (forall a b n, gp_n (j_gas j a b n) = n) /\
  (forall a b n, ki_n (j_kin j a b n) = n) /\ (forall a b n, pp_n (j_pp j a b n) = n) /\
  (forall a b n, sa_n (j_ss j a b n) = n) /\ (forall a b n, su_n (j_surf j a b n) = n).

(** What a cell has of one kind: the saturated part [s], the unsaturated part [u], or both joined. *)
Inductive has {A} (j : A -> A -> Z -> A) (i : Z) : option A -> option A -> A -> Prop :=
| has_s x : has j i (Some x) None x
| has_u x : has j i None (Some x) x
| has_both s u : has j i (Some s) (Some u) (j u s i).
(** The unsaturated parts count if the partitioning of solids is on. *)
Definition also {A} (uz : bool) (m : gmap Z A) (i : Z) : option A := if uz then m !! i else None.
(** Pressures are not part of it. *)
Definition cell_has (j : joins (D := D)) (uz : bool) (w : worker (D := D)) (i : Z) (e : entity) : Prop :=
  match e with
  | ESolution x => ph_sol w.1 !! i = Some x
  | EExchange x => has (j_ex j) i (ph_ex w.1 !! i) (also uz (ph_ex w.2) i) x
  | EGas x => has (j_gas j) i (ph_gas w.1 !! i) (also uz (ph_gas w.2) i) x
  | EKinetics x => has (j_kin j) i (ph_kin w.1 !! i) (also uz (ph_kin w.2) i) x
  | EPP x => has (j_pp j) i (ph_pp w.1 !! i) (also uz (ph_pp w.2) i) x
  | ESS x => has (j_ss j) i (ph_ss w.1 !! i) (also uz (ph_ss w.2) i) x
  | ESurface x => has (j_surf j) i (ph_surf w.1 !! i) (also uz (ph_surf w.2) i) x
  | EMix x => ph_mix w.1 !! i = Some x
  | EReaction x => ph_react w.1 !! i = Some x
  | ETemp x => ph_temp w.1 !! i = Some x
  | EPress _ => False
  end.
(** The worker that has cell [i] in its range has [e] there. *)
Definition module_has (j : joins (D := D)) (uz : bool) (ws : list worker) (ranges : list (Z * Z)) (i : Z)
    (e : entity) : Prop :=
  exists c w r, ws !! c = Some w /\ ranges !! c = Some r /\ r.1 <= i <= r.2 /\ cell_has j uz w i e.
Definition alike (a b : entity) : Prop :=
  match a, b with
  | ESolution _, ESolution _ | EExchange _, EExchange _ | EGas _, EGas _ | EKinetics _, EKinetics _
  | EPP _, EPP _ | ESS _, ESS _ | ESurface _, ESurface _
  | EMix _, EMix _ | EReaction _, EReaction _ | ETemp _, ETemp _ | EPress _, EPress _ => True
  | _, _ => False
  end.
End Spec.
