From Coq Require Import ZArith String.
From stdpp Require Import prelude strings gmap.
From Verif.Base Require Import Result.
From Verif.Names Require Import Model.
From Verif.Core Require Import Move.
From Verif.Partition Require Import Spec EndCellsProofs.
From Verif.Transfer Require Import Model Spec Proofs Props.
From Verif.Raw Require Import Model Spec Lines Proofs Props.
From Verif.UzMove Require Import Model Spec Proofs.
Open Scope Z_scope.
Open Scope list_scope.

(** * C94 Unsaturated parts in the exchanges between processes *)

(** One exchange: the sender keeps exactly what it has of other cells; the receiver has all parts of the cells as
    their texts give them, and whatever else it had. *)
Theorem uz_exchange {D} (dcmp : D -> D -> comparison) lit rnd ks (from into : reactants (D := D)) :
  (forall k e, k ∈ ks -> travels e -> stored from k e -> (place e).2 = k /\ fits dcmp rnd keywords e) ->
  let q := move_uz dcmp lit rnd ks from into in
  (forall k e, stored q.1 k e <-> k ∉ ks /\ stored from k e) /\
  (forall k e, k ∈ ks -> travels e -> stored from k e -> exists e', restored lit rnd e e' /\ stored q.2 k e') /\
  (forall k e', (forall e, k ∈ ks -> travels e -> (place e).1 = (place e').1 -> ~ stored from k e) ->
     stored q.2 k e' <-> stored into k e').
Proof. apply move_uz_spec. Qed.
Print Assumptions uz_exchange.

(** All exchanges of a rebalancing. The saturated parts settle as in C74, with or without the unsaturated ones. *)
Theorem rebalance_uz_moves {D} (dcmp : D -> D -> comparison) lit rnd d1 count ss es ss' es'
    (ws : list (reactants (D := D) * reactants (D := D))) :
  (forall a b, dcmp a b = Lt -> dcmp b a = Gt) ->
  valid_split count ss es -> valid_split count ss' es' -> length es' = length es -> length ws = length es ->
  all_placed dcmp count ss es ws.*1 -> uz_placed dcmp rnd count ss es ws.*2 ->
  exists ws', rebalance_uz dcmp lit rnd d1 count es es' ws = Ret ws' /\ length ws' = length ws /\
    rebalance_mpi dcmp d1 count es es' ws.*1 = Ret ws'.*1 /\
    settled (arrived_solution d1) count ss es ss' es' ph_sol ws.*1 ws'.*1 /\
    settled arrived_exchange count ss es ss' es' ph_ex ws.*1 ws'.*1 /\
    settled arrived_gas_phase count ss es ss' es' ph_gas ws.*1 ws'.*1 /\
    settled arrived_kinetics count ss es ss' es' ph_kin ws.*1 ws'.*1 /\
    settled arrived_pp count ss es ss' es' ph_pp ws.*1 ws'.*1 /\
    settled arrived_ssa count ss es ss' es' ph_ss ws.*1 ws'.*1 /\
    settled arrived_surface count ss es ss' es' ph_surf ws.*1 ws'.*1 /\
    uz_settled lit rnd count ss es ss' es' ws.*2 ws'.*2.
Proof.
  intros Hd V V' Hl Lw Hp Hu.
  destruct (rebalance_mpi_moves dcmp d1 count ss es ss' es' ws.*1 Hd V V' Hl) as (ws1 & E & _ & S);
    [by rewrite fmap_length|done|].
  destruct (plan_spec count ss es ss' es' V V') as (tp & Et & Pt & Nt).
  pose proof E as E0. unfold rebalance_mpi in E0. rewrite Et in E0. cbn [obind] in E0.
  destruct (send_both_spec dcmp lit rnd count ss es ss' es' V V' d1 ws.*2 tp Hu Pt (in_plan tp) ws ws1) as (ws' & F & <- & L & U).
  - intros k. apply in_plan_dec.
  - intros k. split; [done|]. split; [|done]. intros o n H1 H2 H3 H4 H5. destruct H1. by eapply Nt.
  - done.
  - exists ws'. unfold rebalance_uz. rewrite Et. cbn [obind]. split; [done|]. split; [done|]. split; [done|].
    destruct S as (S1 & S2 & S3 & S4 & S5 & S6 & S7). split_and!; try done.
    eapply uz_under_end; [|exact U]. intros k [H1 H2]. by apply H2.
Qed.
Print Assumptions rebalance_uz_moves.

(** Nothing that goes wrong with an unsaturated part is reported: whatever the parts hold, the rebalancing succeeds
    as soon as that of the saturated ones does. *)
Theorem rebalance_uz_silent {D} (dcmp : D -> D -> comparison) lit rnd d1 count es es'
    (ws : list (reactants (D := D) * reactants (D := D))) ws1 :
  rebalance_mpi dcmp d1 count es es' ws.*1 = Ret ws1 ->
  exists ws', rebalance_uz dcmp lit rnd d1 count es es' ws = Ret ws' /\ ws'.*1 = ws1.
Proof.
  unfold rebalance_mpi, rebalance_uz. destruct (plan_loop es es' (cells_upto count) 0 0 []) as [tp| |]; [|done..].
  cbn [obind]. revert ws. induction tp as [|[key [[o n] ks]] tp IH]; intros ws Hs.
  { injection Hs as <-. by exists ws. }
  cbn [send_all send_both] in *. rewrite !list_lookup_fmap in Hs.
  destruct (ws !! o) as [wo|]; [|done]. destruct (ws !! n) as [wn|]; [|done].
  cbn [fmap option_fmap option_map] in Hs. destruct (send_cells dcmp d1 ks wo.1 wn.1) as [r| |]; [|done..].
  cbn [obind] in *. apply IH. by rewrite !list_fmap_insert.
Qed.
Print Assumptions rebalance_uz_silent.

(** Quartz in the part left behind by a falling water level, on the way to another process: the silicon among its
    elements is read as the target index, which was 1; lanthanum leaves an exchanger; a solution is dropped. *)
Definition uz_only (x : pp_assemblage) (y : exchange) (z : solution) : reactants (D := Z) :=
  Reactants {[7 := z]} {[7 := y]} ∅ ∅ {[7 := x]} ∅ ∅ ∅ ∅ ∅ ∅.
Definition no_parts : reactants (D := Z) := Reactants ∅ ∅ ∅ ∅ ∅ ∅ ∅ ∅ ∅ ∅ ∅.
Theorem uz_exchange_refuted :
  let q := move_uz Z.compare case_lit id [7] (uz_only (case_pp [("O"%string, 6); ("Si"%string, 3)])
    (case_exchange [case_exch "X" [("La"%string, 3); ("X"%string, 9)]] []) (case_solution [] [])) no_parts in
  (exists x c, ph_pp q.2 !! 7 = Some x /\ pp_comps x = [("Quartz"%string, c)] /\ pc_si (case_phase []) = 1 /\ pc_si c = 3) /\
  (exists y, ph_ex q.2 !! 7 = Some y /\ ec_totals <$> ex_comps y = [[("X"%string, 9)]]) /\
  ph_sol q.1 !! 7 = None /\ ph_sol q.2 !! 7 = None.
Proof.
  cbv zeta. split; [eexists _, _|split; [eexists|]].
  - split; [vm_compute; reflexivity|]. by vm_compute.
  - split; [vm_compute; reflexivity|]. by vm_compute.
  - split; vm_compute; reflexivity.
Qed.
Print Assumptions uz_exchange_refuted.

(** Two processes with cells 0-1 and 2; afterwards 0 and 1-2. Quartz has been left behind in cell 1. *)
Definition uz_quartz : pp_assemblage (D := Z) :=
  PP 1 1 "rock" true [("Quartz"%string, case_phase [("O"%string, 6)])] [("O"%string, 6); ("Si"%string, 3)] [].
Lemma uz_quartz_fits : fits Z.compare id keywords (EPP uz_quartz).
Proof.
  destruct raw_case as [_ H]. rewrite Forall_forall in H. specialize (H (EPP (case_pp [("O"%string, 6)]))).
  cbn [fits] in *. apply H. do 4 right. left.
Qed.
Definition uz_part : reactants (D := Z) := Reactants ∅ ∅ ∅ ∅ {[1 := uz_quartz]} ∅ ∅ ∅ ∅ ∅ ∅.
Lemma uz_part_stored k e : stored uz_part k e -> k = 1 /\ e = EPP uz_quartz.
Proof.
  destruct e; cbn [stored uz_part ph_sol ph_ex ph_gas ph_kin ph_pp ph_ss ph_surf ph_mix ph_react ph_temp ph_press];
    intros H; try (by rewrite lookup_empty in H). by apply lookup_singleton_Some in H as [<- <-].
Qed.
Lemma no_parts_stored k e : ~ stored no_parts k e.
Proof.
  destruct e; cbn [stored no_parts ph_sol ph_ex ph_gas ph_kin ph_pp ph_ss ph_surf ph_mix ph_react ph_temp ph_press];
    by rewrite lookup_empty.
Qed.
Example rebalance_uz_example :
  let ws := [(ex_cell 1, uz_part); (ex_cell 2, no_parts)] in
  valid_split 3 [0; 2] [1; 2] /\ valid_split 3 [0; 1] [0; 2] /\
  all_placed Z.compare 3 [0; 2] [1; 2] ws.*1 /\ uz_placed Z.compare id 3 [0; 2] [1; 2] ws.*2 /\
  exists ws', rebalance_uz Z.compare case_lit id 1 3 [1; 2] [0; 2] ws = Ret ws' /\ exists x,
    restored case_lit id (EPP uz_quartz) (EPP x) /\ has_part ws'.*2 1 1 (EPP x) /\ (forall e, ~ has_part ws'.*2 0 1 e).
Proof.
  cbv zeta.
  assert (V : valid_split 3 [0; 2] [1; 2]).
  { split; try done; intros [|[|t]] a b; cbn; intros; simplify_eq; lia. }
  assert (V' : valid_split 3 [0; 1] [0; 2]).
  { split; try done; intros [|[|t]] a b; cbn; intros; simplify_eq; lia. }
  assert (P : all_placed Z.compare 3 [0; 2] [1; 2] [ex_cell 1; ex_cell 2]).
  { destruct (ex_cell_good 1) as (A1 & A2 & A3 & A4 & A5 & A6 & A7).
    destruct (ex_cell_good 2) as (B1 & B2 & B3 & B4 & B5 & B6 & B7).
    split_and!; intros [|[|p]] w k x Hw Hk Hx; cbn in Hw; simplify_eq; cbn in Hx;
      try (by rewrite lookup_empty in Hx);
      (destruct (decide (k = 1)) as [-> | ]; [|destruct (decide (k = 2)) as [-> | ]]);
      try (by rewrite lookup_singleton_ne in Hx by congruence);
      (split; [|match goal with H : sendable ?n ?g _ _ |- ?n _ = _ /\ _ => by apply H; [by left|] end]);
      by eexists _, _. }
  assert (O1 : owns [0; 2] [1; 2] 0 1) by (exists 0, 1; split_and!; (done || lia)).
  assert (N1 : owns [0; 1] [0; 2] 1 1) by (exists 1, 2; split_and!; (done || lia)).
  assert (Q : uz_placed Z.compare id 3 [0; 2] [1; 2] [uz_part; no_parts]).
  { intros p k e Hk (w & Hw & Hs). destruct p as [|[|p]]; cbn in Hw; [| |done]; injection Hw as <-.
    - apply uz_part_stored in Hs as [-> ->]. split; [done|]. intros _. split; [done|]. exact uz_quartz_fits.
    - by apply no_parts_stored in Hs. }
  split; [done|]. split; [done|]. split; [exact P|]. split; [exact Q|].
  destruct (rebalance_uz_moves Z.compare case_lit id 1 3 [0; 2] [1; 2] [0; 1] [0; 2] [(ex_cell 1, uz_part); (ex_cell 2, no_parts)] Zcompare_gt V V'
    eq_refl eq_refl P Q) as (ws' & E & _ & _ & _ & _ & _ & _ & _ & _ & _ & [S _]).
  exists ws'. split; [exact E|]. clear E.
  destruct (S 1 0%nat 1%nat) as (S1 & _ & S3); [done..|].
  destruct (S1 (EPP uz_quartz)) as (e' & R & H); [done|by exists uz_part|].
  destruct e'; try done. eexists. split; [exact R|]. split; [exact H|]. intros e. by apply S3.
Qed.
