(** Specification vocabulary for aqueous species. *)
From Coq Require Import String QArith Qcanon.
From stdpp Require Import prelude strings gmap.
From Verif.Names Require Import Model Spec.
From Verif.Solution Require Import Model Spec.
From Verif.Conc Require Import Model Spec.
From Verif.Species Require Import Model.
Local Open Scope Qc_scope.

(** Concentration of species [k] in grid cell [gc] in a vector ordered by species. *)
Definition conc_at (n : nat) (t : list Qc) (k gc : nat) : Qc := default 0 (t !! (k * n + gc)%nat).

(** Amount per liter of [e] (an element, or "Charge") that species number [k], [k + 1], ... hold. *)
Fixpoint held (n : nat) (t : list Qc) (gc : nat) (e : string) (k : nat) (sts : list (list (string * Qc))) : Qc :=
  match sts with
  | [] => 0
  | st :: sts' => listed st e * conc_at n t k gc + held n t gc e (S k) sts'
  end.

(** Volume of water in a grid cell. *)
Definition water (g : grid) (gc : nat) (v : Qc) : Prop :=
  exists por sat rv, g_por g !! gc = Some por /\ g_sat g !! gc = Some sat /\ g_rv g !! gc = Some rv /\
    v = por * sat * rv.

(** Tables as FindComponents leaves them: species are made of elements and charge, and components
    are elements, water and charge. *)
Definition basic (n : string) : Prop :=
  n = "H"%string \/ n = "O"%string \/ n = "Charge"%string \/ element_name n.
Definition table_ok (p : spcfg) : Prop :=
  Forall basic (p_comps p) /\ Forall (fun st => ordered st /\ Forall (fun q => basic q.1) st) (p_stoich p).

(** Every species number of the cells has its own place in the table. *)
Definition numbers_ok (p : spcfg) (f : sol -> gmap Z Qc) (m : cells) : Prop :=
  forall s, Some s ∈ m ->
    (forall k x, f s !! k = Some x -> exists i, p_index p !! k = Some i /\ (i < nspecies p)%nat) /\
    (forall k k' i, is_Some (f s !! k) -> is_Some (f s !! k') ->
       p_index p !! k = Some i -> p_index p !! k' = Some i -> k = k').

(** [species_of p f s i x]: [x] is the value the solution has for the [i]th species of the table,
    0 if it has none. *)
Definition species_of (p : spcfg) (f : sol -> gmap Z Qc) (s : sol) (i : nat) (x : Qc) : Prop :=
  (exists k, p_index p !! k = Some i /\ f s !! k = Some x) \/
  ((forall k, p_index p !! k = Some i -> f s !! k = None) /\ x = 0).

(** The species of a solution account for its contents, in a volume [v]: [xs] are the
    concentrations by place in the table. *)
Fixpoint made_of (sts : list (list (string * Qc))) (xs : list Qc) (e : string) : Qc :=
  match sts, xs with
  | st :: sts', x :: xs' => listed st e * x + made_of sts' xs' e
  | _, _ => 0
  end.
Definition accounts (p : spcfg) (s : sol) (v : Qc) : Prop :=
  forall xs, length xs = nspecies p -> (forall i x, xs !! i = Some x -> species_of p s_species s i x) ->
    s_h s = v * made_of (p_stoich p) xs "H" /\ s_o s = v * made_of (p_stoich p) xs "O" /\
    s_cb s = v * made_of (p_stoich p) xs "Charge" /\
    forall e, element_name e -> listed (s_totals s) e = v * made_of (p_stoich p) xs e.

(** The solution [s'] holds what the species in [t] hold in a volume [v] of grid cell [gc] (amounts
    below 1e-25 moles are dropped), and lists nothing else. The species recorded with it and its volume
    and density are those of [s]. *)
Definition set_to (p : spcfg) (n : nat) (t : list Qc) (gc : nat) (v : Qc) (s s' : sol) : Prop :=
  s_h s' = v * held n t gc "H" 0 (p_stoich p) /\ s_o s' = v * held n t gc "O" 0 (p_stoich p) /\
  s_cb s' = v * held n t gc "Charge" 0 (p_stoich p) /\
  (forall e, element_name e -> let x := v * held n t gc e 0 (p_stoich p) in listed (s_totals s') e = kept x x) /\
  ordered (s_totals s') /\ (forall e, named (s_totals s') e -> element_name e) /\
  s_mw s' = s_o s' / Q2Qc (555 # 10) /\ s_species s' = s_species s /\ s_vol s' = s_vol s /\ s_dens s' = s_dens s.
