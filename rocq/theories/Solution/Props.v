(** Properties C31 and C51: mixing of solutions. *)
From Coq Require Import String QArith Qcanon Permutation.
From stdpp Require Import prelude strings gmap.
From Verif.Names Require Import Model Spec Proofs.
From Verif.Solution Require Import Model Spec Proofs.
Local Open Scope Qc_scope.
Local Open Scope string_scope.

(** ** C31 *)

(** Conservation, for all parts and all factors, also negative ones. *)
Theorem mix_conserves (parts : list (sol * Qc)) :
  (forall g, g ∈ extensive -> g (mix_parts parts sol_zero) = weighted g parts) /\
  (forall n, listed (s_totals (mix_parts parts sol_zero)) n =
             weighted (fun s => listed (s_totals s) n) parts).
Proof.
  split.
  - intros g Hg. rewrite mix_parts_extensive by done. unfold extensive in Hg.
    rewrite !elem_of_cons, elem_of_nil in Hg. destruct_or!; try done; subst g; cbn; ring.
  - intros n. rewrite mix_parts_totals by constructor. cbn. ring.
Qed.
Print Assumptions mix_conserves.

(** Averages weighted by mass of water, and between any bounds of the parts that are used. *)
Theorem mix_averages (parts : list (sol * Qc)) g :
  proper parts -> g ∈ intensive ->
  0 < weighted s_mw parts /\
  g (mix_parts parts sol_zero) = weighted (fun s => s_mw s * g s) parts / weighted s_mw parts /\
  (forall lo hi, (forall s f, (s, f) ∈ parts -> f <> 0 -> lo <= g s <= hi) ->
     lo <= g (mix_parts parts sol_zero) <= hi).
Proof.
  intros [Hp Hex] Hg.
  assert (Hw : 0 < weighted s_mw parts) by by apply weighted_pos.
  assert (Hm : s_mw (mix_parts parts sol_zero) = weighted s_mw parts).
  { rewrite (mix_parts_extensive s_mw); [cbn; ring|set_solver]. }
  assert (E : weighted s_mw parts * g (mix_parts parts sol_zero) = weighted (fun s => s_mw s * g s) parts).
  { rewrite <- Hm. rewrite mix_parts_intensive; [cbn; ring|done|apply Qcle_refl|done]. }
  assert (Hne : weighted s_mw parts <> 0) by by apply Qclt_ne.
  split_and!; [done| |].
  - rewrite <- E. field. done.
  - intros lo hi Hb. split; apply (Qcmult_le_l_inv (weighted s_mw parts)); try done; rewrite E;
      rewrite Qcmult_comm, <- weighted_scale; apply weighted_le; intros s f Hin;
      destruct (Hp s f Hin) as [H1 H2]; (split; [done|]); intros Hf; specialize (H2 Hf);
      destruct (Hb s f Hin Hf) as [H3 H4]; rewrite (Qcmult_comm (s_mw s));
      apply Qcmult_le_compat_r; try done; by apply Qclt_le_weak.
Qed.
Print Assumptions mix_averages.

(** The order of the parts does not matter. *)
Theorem mix_order (parts parts' : list (sol * Qc)) :
  Permutation parts parts' ->
  (forall g, g ∈ extensive -> g (mix_parts parts sol_zero) = g (mix_parts parts' sol_zero)) /\
  (forall n, listed (s_totals (mix_parts parts sol_zero)) n = listed (s_totals (mix_parts parts' sol_zero)) n) /\
  (proper parts -> forall g, g ∈ intensive -> g (mix_parts parts sol_zero) = g (mix_parts parts' sol_zero)).
Proof.
  intros H. destruct (mix_conserves parts) as [A1 A2], (mix_conserves parts') as [B1 B2]. split_and!.
  - intros g Hg. rewrite A1, B1 by done. by apply weighted_perm.
  - intros n. rewrite A2, B2. by apply weighted_perm.
  - intros Hp g Hg. assert (Hp' : proper parts').
    { destruct Hp as [P1 (s & f & P2 & P3)]. split.
      - intros t x Hin. apply P1. by rewrite H.
      - exists s, f. split; [by rewrite <- H|done]. }
    destruct (mix_averages parts g Hp Hg) as (_ & -> & _).
    destruct (mix_averages parts' g Hp' Hg) as (_ & -> & _).
    by rewrite !(weighted_perm _ _ _ H).
Qed.
Print Assumptions mix_order.

(** Through the mixture table: a number named twice counts with the sum of its factors, scaling the
    table scales the mixture, and a number that is not defined contributes nothing. *)
Theorem mix_table (sols : gmap Z sol) (n1 n2 : Z) (f1 f2 v : Qc) g :
  g ∈ extensive ->
  g (sol_mix sols (mix_multiply v (mix_add n2 f2 (mix_add n1 f1 [])))) =
  v * (f1 * part_of sols g n1 + f2 * part_of sols g n2).
Proof.
  intros Hg. unfold sol_mix. rewrite (proj1 (mix_conserves _)) by done.
  rewrite weighted_mix_multiply, !weighted_mix_add. cbn. ring.
Qed.
Print Assumptions mix_table.

(** Scaling: every extensive quantity and total is multiplied, unless the factor is 0, which leaves
    the solution as it is. *)
Theorem multiply_scales (x : Qc) (s : sol) :
  x <> 0 ->
  (forall g, g ∈ extensive -> g (sol_multiply x s) = x * g s) /\
  (forall g, g ∈ intensive -> g (sol_multiply x s) = g s) /\
  (forall n, listed (s_totals (sol_multiply x s)) n = x * listed (s_totals s) n).
Proof.
  intros Hx. apply Qc_zerob_false in Hx. unfold sol_multiply. rewrite Hx. cbn [orb].
  destruct (Qeq_bool (this x) 1) eqn:E.
  - apply Qc_oneb_true in E as ->. split_and!; intros; [ring|done|ring].
  - split_and!.
    + intros g Hg. unfold extensive in Hg. rewrite !elem_of_cons, elem_of_nil in Hg.
      destruct_or!; try done; subst g; cbn; ring.
    + intros g Hg. unfold intensive in Hg. rewrite !elem_of_cons, elem_of_nil in Hg.
      destruct_or!; try done; subst g; done.
    + intros n. cbn [s_totals]. unfold nd_multiply. induction (s_totals s) as [|[m v] l IH]; cbn; [ring|].
      destruct (decide (m = n)); rewrite IH; ring.
Qed.
Print Assumptions multiply_scales.
Theorem multiply_by_zero_refuted (s : sol) : sol_multiply 0 s = s.
Proof. done. Qed.
Print Assumptions multiply_by_zero_refuted.

Ltac qc := apply Qc_is_canon; vm_compute; reflexivity.
(** A seawater-like and a freshwater-like solution. *)
Definition q (n : Z) (d : positive) : Qc := Q2Qc (n # d).
Definition sea : sol :=
  Sol (q 20 1) (q 8 1) (q 4 1) (q 7 10) 1 (q 103 100) 1 1 1 (q 111 1) (q 56 1) 0 1 1 (q 1 500)
      [("Ca", q 1 100); ("Cl", q 1 2)] [] [("13C", Iso 1 (q 2 1) 0 false)] {[ 7%Z := q 4 1 ]}.
Definition fresh_water : sol :=
  Sol (q 10 1) (q 7 1) (q 2 1) (q 1 1000) 1 1 1 1 1 (q 222 1) (q 112 1) 0 (q 2 1) (q 2 1) 0
      [("Ca", q 1 50)] [] [] {[ 9%Z := q 6 1 ]}.

Example mix_example_proper : proper [(sea, q 1 2); (fresh_water, q 1 4)].
Proof.
  split.
  - intros s f. rewrite !elem_of_cons, elem_of_nil.
    intros [[= -> ->]|[[= -> ->]|[]]]; split; intros; by vm_compute.
  - exists sea, (q 1 2). split; [by left|]. by vm_compute.
Qed.
Example mix_example :
  let m := mix_parts [(sea, q 1 2); (fresh_water, q 1 4)] sol_zero in
  s_tc m = q 15 1 /\ s_ph m = q 15 2 /\ s_mw m = 1 /\
  map (fun p => (p.1, this p.2)) (s_totals m) = [("Ca", 1 # 100); ("Cl", 1 # 4)]%Q.
Proof. split_and!; [qc..|vm_compute; reflexivity]. Qed.

(** Isotope ratios are not averaged: putting two halves of the same solution together multiplies
    every isotope ratio by 3/2. *)
Theorem isotope_ratio_refuted (s : sol) n i :
  ordered (s_iso s) -> 0 < s_mw s -> nd_find n (s_iso s) = Some i ->
  exists j, nd_find n (s_iso (mix_parts [(s, Q2Qc (1 # 2)); (s, Q2Qc (1 # 2))] sol_zero)) = Some j /\
    i_ratio j = Q2Qc (3 # 2) * i_ratio i.
Proof. apply iso_halves. Qed.
Print Assumptions isotope_ratio_refuted.
Example isotope_example :
  ordered (s_iso sea) /\ 0 < s_mw sea /\ nd_find "13C" (s_iso sea) = Some (Iso 1 (q 2 1) 0 false).
Proof. split_and!; [apply ordb_ordered; by vm_compute|by vm_compute|reflexivity]. Qed.

(** ** C51 *)

(** A species present in every part is averaged by mass of water. *)
Theorem species_average (parts : list (sol * Qc)) (k : Z) :
  parts <> [] ->
  (forall s f, (s, f) ∈ parts -> 0 < f /\ 0 < s_mw s /\ is_Some (s_species s !! k)) ->
  species k (mix_parts parts sol_zero) =
  weighted (fun s => s_mw s * species k s) parts / weighted s_mw parts.
Proof.
  intros Hne Hp.
  assert (Hw : 0 < weighted s_mw parts).
  { apply weighted_pos.
    - intros s f Hin. destruct (Hp s f Hin) as (H1 & H2 & _). split; [by apply Qclt_le_weak|done].
    - destruct parts as [|[s f] parts]; [done|]. exists s, f. split; [by left|].
      apply Qclt_ne. by apply (Hp s f); left. }
  assert (Hm : s_mw (mix_parts parts sol_zero) = weighted s_mw parts).
  { rewrite (mix_parts_extensive s_mw); [cbn; ring|set_solver]. }
  pose proof (mix_parts_species k parts sol_zero (Qcle_refl 0) (or_intror eq_refl) Hp) as E.
  rewrite Hm in E. assert (Hn : weighted s_mw parts <> 0) by by apply Qclt_ne.
  assert (E2 : weighted s_mw parts * species k (mix_parts parts sol_zero) = weighted (fun s => s_mw s * species k s) parts).
  { rewrite E. cbn. ring. }
  rewrite <- E2. field. done.
Qed.
Print Assumptions species_average.
Example species_example :
  species 7 (mix_parts [(sea, q 1 2); (sea, q 1 4)] sol_zero) = q 4 1.
Proof. qc. Qed.

(** A species that occurs in only one part is not diluted: in an equal mixture of [sea] and
    [fresh_water] both keep their full concentrations. *)
Theorem species_not_diluted_refuted :
  let m := mix_parts [(sea, q 1 2); (fresh_water, q 1 4)] sol_zero in
  species 7 m = species 7 sea /\ species 9 m = species 9 fresh_water /\
  weighted (fun s => s_mw s * species 7 s) [(sea, q 1 2); (fresh_water, q 1 4)] = q 2 1.
Proof. split_and!; qc. Qed.
Print Assumptions species_not_diluted_refuted.

(** ** C56 *)

(** An activity coefficient listed in every part is averaged by mass of water. *)
Theorem gamma_average (parts : list (sol * Qc)) (n : string) :
  parts <> [] ->
  (forall s f, (s, f) ∈ parts -> 0 < f /\ 0 < s_mw s /\ ordered (s_gamma s) /\ is_Some (nd_find n (s_gamma s))) ->
  gamma n (mix_parts parts sol_zero) =
  weighted (fun s => s_mw s * gamma n s) parts / weighted s_mw parts.
Proof.
  intros Hne Hp.
  assert (Hw : 0 < weighted s_mw parts).
  { apply weighted_pos.
    - intros s f Hin. destruct (Hp s f Hin) as (H1 & H2 & _). split; [by apply Qclt_le_weak|done].
    - destruct parts as [|[s f] parts]; [done|]. exists s, f. split; [by left|].
      apply Qclt_ne. by apply (Hp s f); left. }
  assert (Hm : s_mw (mix_parts parts sol_zero) = weighted s_mw parts).
  { rewrite (mix_parts_extensive s_mw); [cbn; ring|set_solver]. }
  assert (Ho : ordered (s_gamma sol_zero)) by constructor.
  pose proof (mix_parts_gamma n parts sol_zero (Qcle_refl 0) (or_intror eq_refl) Ho Hp) as E.
  rewrite Hm in E. assert (Hn : weighted s_mw parts <> 0) by by apply Qclt_ne.
  assert (E2 : weighted s_mw parts * gamma n (mix_parts parts sol_zero) = weighted (fun s => s_mw s * gamma n s) parts).
  { rewrite E. cbn. ring. }
  rewrite <- E2. field. done.
Qed.
Print Assumptions gamma_average.

Definition with_gamma (l : list (string * Qc)) (w : Qc) : sol :=
  Sol 0 0 0 0 0 0 0 0 0 0 0 0 w 0 0 [] l [] ∅.
Example gamma_example :
  let a := with_gamma [("Ca+2"%string, q 1 1); ("Cl-"%string, q 3 1)] (q 1 1) in
  let b := with_gamma [("Ca+2"%string, q 5 1); ("Na+"%string, q 2 1)] (q 3 1) in
  gamma "Ca+2" (mix_parts [(a, q 1 1); (b, q 1 1)] sol_zero) = q 4 1.
Proof. qc. Qed.

(** One listed in a single part depends on the order in which the parts are added. *)
Theorem gamma_order_refuted :
  let a := with_gamma [("Ca+2"%string, q 1 1); ("Cl-"%string, q 3 1)] (q 1 1) in
  let b := with_gamma [("Ca+2"%string, q 5 1)] (q 3 1) in
  gamma "Cl-" (mix_parts [(a, q 1 1); (b, q 1 1)] sol_zero) = q 3 1 /\
  gamma "Cl-" (mix_parts [(b, q 1 1); (a, q 1 1)] sol_zero) = q 3 4.
Proof. split; qc. Qed.
Print Assumptions gamma_order_refuted.
