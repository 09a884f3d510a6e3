From stdpp Require Import prelude gmap strings.
From Verif.Bin Require Import Model Proofs.
Local Open Scope string_scope.
Local Open Scope Z_scope.

(** What a cell holds: for each reactant type possibly a reactant. *)
Definition cell_content {E} (b : bin E) (n : Z) : rtype -> option (entity E) := fun t => b !! (t, n).

(** C49. Copy: the destination holds exactly the source's reactants (of all
    eleven types), renumbered; every other cell, the source included, is as before. *)
Theorem bin_copy_slots : forall E (b : bin E) dst src,
  (dst = src -> bin_copy dst src b = b) /\
  (dst <> src -> forall t,
     cell_content (bin_copy dst src b) dst t = (fun e => Ent dst dst (e_body e)) <$> cell_content b src t) /\
  (forall n t, n <> dst -> cell_content (bin_copy dst src b) n t = cell_content b n t).
Proof.
  intros E b dst src. unfold cell_content. split_and!.
  - intros ->. unfold bin_copy. by rewrite decide_True.
  - intros Hne t. rewrite lookup_bin_copy, decide_True by done. done.
  - intros n t Hn. destruct (decide (dst = src)) as [->|Hne].
    + unfold bin_copy. by rewrite decide_True.
    + by rewrite lookup_bin_copy, decide_False.
Qed.
Print Assumptions bin_copy_slots.

(** C49. Remove. *)
Theorem bin_remove_slots : forall E (b : bin E) n m t,
  cell_content (bin_remove n b) m t = if decide (m = n) then None else cell_content b m t.
Proof. intros. apply lookup_bin_remove. Qed.
Print Assumptions bin_remove_slots.

(** C49. Set, then get; and what Set leaves alone. *)
Theorem bin_set_slots : forall E (b : bin E) t n e m u,
  cell_content (bin_set t n e b) m u =
    if decide (m = n /\ u = t) then Some (Ent n n (e_body e)) else cell_content b m u.
Proof.
  intros. unfold cell_content, bin_set. case_decide as H.
  - destruct H as [-> ->]. by rewrite lookup_insert.
  - apply lookup_insert_ne. intros [= -> ->]. tauto.
Qed.
Print Assumptions bin_set_slots.

(** C49. Add(src, n): the reactants of cell n in src replace those of the same
    type; types src lacks stay; other cells stay. *)
Theorem bin_add_slots : forall E (b src : bin E) n m t,
  cell_content (bin_add src n b) m t =
    match decide (m = n), cell_content src n t with
    | left _, Some e => Some (Ent n n (e_body e))
    | _, _ => cell_content b m t
    end.
Proof.
  intros. unfold cell_content. rewrite lookup_bin_add. destruct (decide (m = n)); [|done].
  by destruct (src !! (t, n)).
Qed.
Print Assumptions bin_add_slots.

(** C49. A whole-instance copy into an empty bin is exact when every reactant is
    stored under its own number. *)
Theorem phreeqc2bin_exact : forall E (w : bin E),
  (forall t k e, w !! (t, k) = Some e -> e_n e = k /\ e_end e = k) -> phreeqc2bin w ∅ = w.
Proof. intros E w H. by apply phreeqc2bin_empty. Qed.
Print Assumptions phreeqc2bin_exact.

(** Two cells with different reactants; copying 1 to 2 replaces the gas phase
    of cell 2 by nothing and its solution by cell 1's. *)
Example bin_copy_nontrivial :
  let b := {[ (RSolution, 1) := Ent 1 1 "a"; (RMix, 1) := Ent 1 1 "m";
              (RSolution, 2) := Ent 2 2 "b"; (RGas, 2) := Ent 2 2 "g" ]} : bin string in
  bin_copy 2 1 b = {[ (RSolution, 1) := Ent 1 1 "a"; (RMix, 1) := Ent 1 1 "m";
                      (RSolution, 2) := Ent 2 2 "a"; (RMix, 2) := Ent 2 2 "m" ]}.
Proof. cbv zeta. apply (bool_decide_unpack _). vm_compute. exact I. Qed.

(** Without the numbering condition phreeqc2bin is not exact: two gas phases
    that both carry number 1 collapse into one. *)
Example phreeqc2bin_collapses :
  let w := {[ (RGas, 0) := Ent 1 1 "g0"; (RGas, 3) := Ent 1 1 "g3" ]} : bin string in
  phreeqc2bin w ∅ = {[ (RGas, 1) := Ent 1 1 "g3" ]}.
Proof. cbv zeta. apply (bool_decide_unpack _). vm_compute. exact I. Qed.
