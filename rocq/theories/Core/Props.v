(** Cell contents under reaction steps, rebalancing and saved states:
    C07, C08, C17, C18, C19, C20, C48. *)
From stdpp Require Import prelude gmap.
From Coq Require Import Reals Lra.
From Verif.Base Require Import Result Arith B64.
From Flocq Require Import IEEE754.BinarySingleNaN.
From Verif.Bin Require Import Model Proofs.
From Verif.Partition Require Import Spec EndCellsProofs Rebalance RebalanceProofs RebalanceB64.
From Verif.Partition Require Props.
From Verif.Core Require Import Move MoveProofs Threads ThreadsProofs Spec Model Proofs History HistoryProofs.
Local Open Scope Z_scope.

(** ** C07 *)

(** Whatever else the workers hold: if the seven kinds of reactants of the grid's
    cells are on the owning workers, moving the cells puts each on the new owner,
    unchanged, and nowhere else; numbers outside the grid are not touched. *)
Theorem move_keeps_contents {E} : forall pz count ss es ss' es' (ws : list (store E)),
  valid_split count ss es -> valid_split count ss' es' -> length es' = length es ->
  length ws = length es ->
  (forall w t m e, 0 <= m < count -> t ∈ cell_types -> holds ws w t m e ->
     owns ss es w m /\ numbered m e) ->
  (forall w t m e, 0 <= m < count -> holds_uz ws w t m e -> owns ss es w m /\ numbered m e) ->
  exists ws', move_cells pz count es es' ws = Ret ws' /\ length ws' = length ws /\
    (forall m t, 0 <= m < count -> t ∈ cell_types -> forall o n, owns ss es o m -> owns ss' es' n m ->
       forall w e, holds ws' w t m e <-> w = n /\ holds ws o t m e) /\
    (pz = true -> forall m t, 0 <= m < count -> forall o n, owns ss es o m -> owns ss' es' n m ->
       forall w e, holds_uz ws' w t m e <-> w = n /\ holds_uz ws o t m e) /\
    (forall m, ~ 0 <= m < count -> forall w t e,
       (holds ws' w t m e <-> holds ws w t m e) /\ (holds_uz ws' w t m e <-> holds_uz ws w t m e)).
Proof.
  intros pz count ss es ss' es' ws V V' Hl L Hr Hu.
  destruct (move_cells_spec pz count ss es ss' es' ws V V' Hl L) as (ws' & Em & L' & Ho & Hi).
  assert (Nr : forall w t m o, 0 <= m < count -> t ∈ cell_types -> owns ss es o m -> w <> o -> at_rx ws w t m = None).
  { intros w t m o Hm Ht Hom Hne. destruct (at_rx ws w t m) as [e|] eqn:Ea; [|done].
    apply holds_at in Ea. destruct (Hr _ _ _ _ Hm Ht Ea) as (Hw & _). destruct Hne.
    exact (valid_split_owner_unique count ss es w o m V Hw Hom). }
  assert (Nu : forall w t m o, 0 <= m < count -> owns ss es o m -> w <> o -> at_uz ws w t m = None).
  { intros w t m o Hm Hom Hne. destruct (at_uz ws w t m) as [e|] eqn:Ea; [|done].
    apply holds_uz_at in Ea. destruct (Hu _ _ _ _ Hm Ea) as (Hw & _). destruct Hne.
    exact (valid_split_owner_unique count ss es w o m V Hw Hom). }
  exists ws'. split_and!; try done.
  - intros m t Hm Ht o n Hom Hnm w e. rewrite !holds_at.
    destruct (Hi m Hm o n Hom Hnm w t) as [-> _].
    destruct (decide (w = n)) as [->|Hwn].
    + destruct (decide (o = n)) as [->|Hne]; [naive_solver|].
      rewrite moved_home; try done; [naive_solver| |].
      * intros e' He'. apply holds_at in He'. split; [|done]. by apply (Hr _ _ _ _ Hm Ht He').
      * intros _ _. by apply (Nr _ _ _ o).
    + assert (X : (if decide (o = n) then at_rx ws w t m
              else moved cell_types o n w t m (at_rx ws o t m) (at_rx ws w t m)) = None).
      { destruct (decide (o = n)) as [->|Hne]; [by apply (Nr _ _ _ n)|].
        unfold moved. destruct (decide (w = o)); [done|].
        rewrite decide_False by (by intros [? _]). by apply (Nr _ _ _ o). }
      rewrite X. split; [done|]. by intros [? _].
  - intros -> m t Hm o n Hom Hnm w e. rewrite !holds_uz_at.
    destruct (Hi m Hm o n Hom Hnm w t) as [_ ->].
    destruct (decide (w = n)) as [->|Hwn].
    + destruct (decide (o = n)) as [->|Hne].
      { rewrite decide_True by (by left). naive_solver. }
      rewrite decide_False by (by intros [?|?]).
      rewrite moved_home; try done; [naive_solver| |].
      * intros e' He'. apply holds_uz_at in He'. split; [|apply elem_of_all_types].
        by apply (Hu _ _ _ _ Hm He').
      * intros _ _. by apply (Nu _ _ _ o).
    + assert (X : (if decide (o = n \/ true = false) then at_uz ws w t m
              else moved all_types o n w t m (at_uz ws o t m) (at_uz ws w t m)) = None).
      { destruct (decide (o = n)) as [->|Hne].
        - rewrite decide_True by (by left). by apply (Nu _ _ _ n).
        - rewrite decide_False by (by intros [?|?]).
          unfold moved. destruct (decide (w = o)); [done|].
          rewrite decide_False by (by intros [? _]). by apply (Nu _ _ _ o). }
      rewrite X. split; [done|]. by intros [? _].
  - intros m Hm w t e. destruct (Ho m Hm w t) as [Hx1 Hx2].
    by rewrite !holds_at, !holds_uz_at, Hx1, Hx2.
Qed.
Print Assumptions move_keeps_contents.

(** Three cells on two workers; cell 1 moves. *)
Example move_nontrivial :
  let ws := [St (<[(RSolution, 0) := Ent 0 0 10]> (<[(RSolution, 1) := Ent 1 1 11]>
               (<[(RGas, 1) := Ent 1 1 21]> ∅))) (<[(RPP, 1) := Ent 1 1 31]> ∅);
             St (<[(RSolution, 2) := Ent 2 2 12]> ∅) ∅] in
  valid_split 3 [0; 2] [1; 2] /\ valid_split 3 [0; 1] [0; 2] /\
  match move_cells true 3 [1; 2] [0; 2] ws with
  | Ret ws' => at_rx ws' 1 RGas 1 = Some (Ent 1 1 21) /\ at_rx ws' 1 RSolution 1 = Some (Ent 1 1 11) /\
               at_uz ws' 1 RPP 1 = Some (Ent 1 1 31) /\ at_rx ws' 0 RGas 1 = None /\
               at_rx ws' 0 RSolution 0 = Some (Ent 0 0 10) /\ at_rx ws' 1 RSolution 2 = Some (Ent 2 2 12)
  | _ => False
  end.
Proof.
  cbv zeta. split; [|split].
  - split; try done.
    + intros [|[|t]] s e; simpl; intros [= <-] [= <-]; lia.
    + intros [|[|t]] e s; simpl; intros [= <-] [= <-]; lia.
  - split; try done.
    + intros [|[|t]] s e; simpl; intros [= <-] [= <-]; lia.
    + intros [|[|t]] e s; simpl; intros [= <-] [= <-]; lia.
  - vm_compute. repeat split.
Qed.

Definition unret {X} (o : outcome (list X)) : list X := match o with Ret x => x | _ => [] end.
Definition is_ret {X} (o : outcome X) : bool := match o with Ret _ => true | _ => false end.
Lemma unret_eq {X} (o : outcome (list X)) : is_ret o = true -> o = Ret (unret o).
Proof. by destruct o. Qed.

Ltac two_ranges := split; try done;
  [intros [|[|?]] ? ?; simpl; intros [= <-] [= <-]; lia |
   intros [|[|?]] ? ?; simpl; intros [= <-] [= <-]; lia].

(** REACTION data of cell 1, defined on all workers as RunString does, are lost
    after the cell has moved away and back. *)
Definition ex_rx_ws : list (store Z) :=
  [St (<[(RReaction, 1) := Ent 1 1 7]> ∅) ∅; St (<[(RReaction, 1) := Ent 1 1 7]> ∅) ∅].
Definition ex_rx_ws1 : list (store Z) := unret (move_cells false 3 [1; 2] [0; 2] ex_rx_ws).
Definition ex_rx_ws2 : list (store Z) := unret (move_cells false 3 [0; 2] [1; 2] ex_rx_ws1).

Theorem move_loses_reaction_refuted :
  exists (ws ws1 ws2 : list (store Z)) es es',
    valid_split 3 [0; 2] es /\ valid_split 3 [0; 1] es' /\
    (forall w, (w < 2)%nat -> exists e, holds ws w RReaction 1 e /\ numbered 1 e) /\
    move_cells false 3 es es' ws = Ret ws1 /\ move_cells false 3 es' es ws1 = Ret ws2 /\
    forall w e, ~ holds ws2 w RReaction 1 e.
Proof.
  exists ex_rx_ws, ex_rx_ws1, ex_rx_ws2, [1; 2], [0; 2]. split_and!.
  - two_ranges.
  - two_ranges.
  - intros w Hw. exists (Ent 1 1 7). split; [|done]. apply holds_at.
    destruct w as [|[|]]; [vm_compute; reflexivity..|lia].
  - apply unret_eq. vm_compute. reflexivity.
  - apply unret_eq. vm_compute. reflexivity.
  - intros w e. rewrite holds_at. destruct w as [|[|w]].
    + assert (H : at_rx ex_rx_ws2 0 RReaction 1 = None) by (vm_compute; reflexivity). by rewrite H.
    + assert (H : at_rx ex_rx_ws2 1 RReaction 1 = None) by (vm_compute; reflexivity). by rewrite H.
    + unfold at_rx. rewrite lookup_ge_None_2; [done|].
      assert (H : length ex_rx_ws2 = 2%nat) by (vm_compute; reflexivity). rewrite H. lia.
Qed.
Print Assumptions move_loses_reaction_refuted.

(** With SetPartitionUZSolids switched off again, the unsaturated-zone solids of a
    cell stay behind on the old worker. *)
Definition ex_uz_ws : list (store Z) := [St ∅ (<[(RPP, 1) := Ent 1 1 7]> ∅); St ∅ ∅].
Definition ex_uz_ws1 : list (store Z) := unret (move_cells false 3 [1; 2] [0; 2] ex_uz_ws).

Theorem move_leaves_uz_refuted :
  exists (ws ws1 : list (store Z)) es es' e,
    valid_split 3 [0; 2] es /\ valid_split 3 [0; 1] es' /\ owns [0; 2] es 0 1 /\ owns [0; 1] es' 1 1 /\
    holds_uz ws 0 RPP 1 e /\ numbered 1 e /\
    move_cells false 3 es es' ws = Ret ws1 /\ holds_uz ws1 0 RPP 1 e /\ ~ holds_uz ws1 1 RPP 1 e.
Proof.
  exists ex_uz_ws, ex_uz_ws1, [1; 2], [0; 2], (Ent 1 1 7). split_and!.
  - two_ranges.
  - two_ranges.
  - exists 0, 1. split_and!; (done || lia).
  - exists 1, 2. split_and!; (done || lia).
  - apply holds_uz_at. vm_compute. reflexivity.
  - done.
  - apply unret_eq. vm_compute. reflexivity.
  - apply holds_uz_at. vm_compute. reflexivity.
  - rewrite holds_uz_at.
    assert (H : at_uz ex_uz_ws1 1 RPP 1 = None) by (vm_compute; reflexivity). by rewrite H.
Qed.
Print Assumptions move_leaves_uz_refuted.

(** ** C08 *)

(** The rebalancing fractions of C05 and C06 (and switching rebalancing off) keep
    the ranges a partition. *)
Theorem b64_fractions_sound : forall (by_cell : bool) (f : b64) count, count <= 2 ^ 26 ->
  fleb B64 f (of_int B64 0) = true \/
  (is_finite f = true /\ if by_cell then (1/2 <= B2R f <= 1)%R else (0 < B2R f <= 1)%R) ->
  rebalance_sound B64 by_cell f count.
Proof.
  intros bc f count Hc H ss es tm ct V Lt Lc. destruct H as [H|[Hf H]].
  - rewrite Props.rebalance_off by (by left). done.
  - apply Props.rebalance_partition_any_arith; try done. destruct bc.
    + by apply icells_cell_ok_b64.
    + by apply icells_avg_ok_b64.
Qed.
Print Assumptions b64_fractions_sound.

Section core.
  Context {E R D P : Type}.
  Notation cellc := (gmap rtype E).
  (** The geochemical solver, the partition of solids and the test for dry cells are
      arbitrary; they must not invent MIX, REACTION, ... data. *)
  Context (react : P -> Z -> cellc -> bool * cellc * R)
          (part : D -> D -> cellc -> cellc -> cellc * cellc)
          (dry : D -> bool) (A : arith)
          (Rc : react_closed react) (Pc : part_closed part).
  Implicit Types m : module E R D P.

  (** Every execution of RunCells, under every interleaving of the threads, gives
      every cell exactly the result of treating the cell alone, and one row per
      cell in the order of the cells; it fails exactly if some cell fails. *)
  Theorem run_cells_cellwise : forall by_cell f sched tt ct m,
    m_consistent m ->
    finished (run_schedule sched (m_threads react part dry m)) ->
    rebalance_sound A by_cell f (md_count m) ->
    length tt = length (md_es m) -> Z.of_nat (length ct) = md_count m ->
    match run_cells react part dry A by_cell f sched tt ct m with
    | Ret (m', r) =>
        m_consistent m' /\
        ((r = IRM_OK /\
          Z.of_nat (length (concat (md_rows m'))) = md_count m /\
          forall i c u, 0 <= i < md_count m -> m_content m i c u ->
            a_ok (step_alone react part dry m i c u) = true /\
            m_content m' i (a_sz (step_alone react part dry m i c u)) (a_uz (step_alone react part dry m i c u)) /\
            concat (md_rows m') !! Z.to_nat i = Some (a_row (step_alone react part dry m i c u))) \/
         (r = IRM_FAIL /\ exists i c u, 0 <= i < md_count m /\ m_content m i c u /\
            a_ok (step_alone react part dry m i c u) = false))
    | Throw => False
    | UB => by_cell = false
    end.
  Proof.
    intros bc f sched tm ct m C F Hs Lt Lc.
    pose proof (run_cells_spec react part dry A bc f sched tm ct m Rc Pc C F Hs Lt Lc) as H.
    destruct (run_cells react part dry A bc f sched tm ct m) as [[m' r]| |]; [|done|done].
    destruct H as (? & _ & _ & _ & _ & _ & _ & _ & _ & H). split; done.
  Qed.

  (** Threads always can run to their end. *)
  Theorem run_cells_schedules : forall m, exists sched, finished (run_schedule sched (m_threads react part dry m)).
  Proof. intros m. apply finishing_schedule. Qed.

  (** Two modules with the same cells and settings, but any numbers of threads, any
      distributions, schedules, timings and rebalancing settings: same result code,
      and after success the same contents and the same selected output. *)
  Theorem run_cells_independent : forall bc1 f1 sched1 tt1 ct1 m1 m1' r1 bc2 f2 sched2 tt2 ct2 m2 m2' r2,
    m_consistent m1 -> m_consistent m2 ->
    md_count m1 = md_count m2 -> md_rep m1 = md_rep m2 -> md_pz m1 = md_pz m2 ->
    md_par m1 = md_par m2 -> md_sat m1 = md_sat m2 ->
    (md_pz m1 = true -> md_old m1 = md_old m2) ->
    same_contents (md_count m1) (md_ss m1) (md_es m1) (md_ws m1) (md_ss m2) (md_es m2) (md_ws m2) ->
    finished (run_schedule sched1 (m_threads react part dry m1)) ->
    finished (run_schedule sched2 (m_threads react part dry m2)) ->
    rebalance_sound A bc1 f1 (md_count m1) -> rebalance_sound A bc2 f2 (md_count m1) ->
    length tt1 = length (md_es m1) -> length tt2 = length (md_es m2) ->
    Z.of_nat (length ct1) = md_count m1 -> Z.of_nat (length ct2) = md_count m1 ->
    run_cells react part dry A bc1 f1 sched1 tt1 ct1 m1 = Ret (m1', r1) ->
    run_cells react part dry A bc2 f2 sched2 tt2 ct2 m2 = Ret (m2', r2) ->
    r1 = r2 /\
    (r1 = IRM_OK ->
      same_contents (md_count m1) (md_ss m1') (md_es m1') (md_ws m1') (md_ss m2') (md_es m2') (md_ws m2') /\
      concat (md_rows m1') = concat (md_rows m2')).
  Proof.
    intros bc1 f1 sched1 tt1 ct1 m1 m1' r1 bc2 f2 sched2 tt2 ct2 m2 m2' r2
      C1 C2 Ec Er Ep Epar Es Eo SC F1 F2 Hs1 Hs2 Lt1 Lt2 Lc1 Lc2 X1 X2.
    pose proof (run_cells_spec react part dry A bc1 f1 sched1 tt1 ct1 m1 Rc Pc C1 F1 Hs1 Lt1 Lc1) as H1.
    rewrite X1 in H1. rewrite Ec in Hs2, Lc2.
    pose proof (run_cells_spec react part dry A bc2 f2 sched2 tt2 ct2 m2 Rc Pc C2 F2 Hs2 Lt2 Lc2) as H2.
    rewrite X2 in H2.
    destruct H1 as (C1' & Ec1 & _ & _ & _ & _ & _ & _ & _ & H1).
    destruct H2 as (C2' & Ec2 & _ & _ & _ & _ & _ & _ & _ & H2).
    assert (SA : forall i c u, step_alone react part dry m1 i c u = step_alone react part dry m2 i c u).
    { intros i c u. unfold step_alone, alone. rewrite Epar, Ep.
      assert (Hd : m_dry dry m1 = m_dry dry m2) by (unfold m_dry; by rewrite Er, Es).
      destruct (md_pz m2) eqn:Ep2.
      - unfold m_part. rewrite Er, Es, Eo by congruence. by rewrite Hd.
      - by rewrite Hd. }
    pose proof (cs_split _ _ _ _ _ C1) as V1. pose proof (cs_len _ _ _ _ _ C1) as L1.
    pose proof (cs_split _ _ _ _ _ C1') as V1'. pose proof (cs_len _ _ _ _ _ C1') as L1'.
    pose proof (cs_split _ _ _ _ _ C2') as V2'. pose proof (cs_len _ _ _ _ _ C2') as L2'.
    destruct H1 as [(-> & Lr1 & H1)|(-> & i & c & u & Hi & Hc & Hf)];
      destruct H2 as [(-> & Lr2 & H2)|(-> & i2 & c2 & u2 & Hi2 & Hc2 & Hf2)].
    - split; [done|]. intros _. split.
      + intros i Hi c u.
        destruct (content_exists _ _ _ (md_ws m1) i V1 L1 Hi) as (c0 & u0 & Hcu).
        destruct (H1 i c0 u0 Hi Hcu) as (_ & K1 & _).
        assert (Hcu2 : m_content m2 i c0 u0) by (by apply (SC i Hi)).
        destruct (H2 i c0 u0 ltac:(lia) Hcu2) as (_ & K2 & _). rewrite <- SA in K2.
        rewrite Ec1 in V1'. rewrite Ec2 in V2'.
        destruct (owner_store _ _ _ (md_ws m1') i V1' L1' Hi) as (o1 & s1 & Ho1 & Hs1').
        destruct (owner_store _ _ _ (md_ws m2') i V2' L2' ltac:(lia)) as (o2 & s2 & Ho2 & Hs2').
        unfold m_content in K1, K2.
        rewrite (content_owner _ _ _ _ _ _ _ _ _ V1' Ho1 Hs1') in K1.
        rewrite (content_owner _ _ _ _ _ _ _ _ _ V1' Ho1 Hs1').
        rewrite (content_owner _ _ _ _ _ _ _ _ _ V2' Ho2 Hs2') in K2.
        rewrite (content_owner _ _ _ _ _ _ _ _ _ V2' Ho2 Hs2').
        destruct K1 as [K1 K1']. destruct K2 as [K2 K2']. by rewrite <- K1, <- K1', <- K2, <- K2'.
      + apply list_eq. intros j. destruct (decide (Z.of_nat j < md_count m1)) as [Hj|Hj].
        * destruct (content_exists _ _ _ (md_ws m1) (Z.of_nat j) V1 L1 ltac:(lia)) as (c0 & u0 & Hcu).
          destruct (H1 (Z.of_nat j) c0 u0 ltac:(lia) Hcu) as (_ & _ & K1).
          assert (Hcu2 : m_content m2 (Z.of_nat j) c0 u0) by (by apply (SC (Z.of_nat j) ltac:(lia))).
          destruct (H2 (Z.of_nat j) c0 u0 ltac:(lia) Hcu2) as (_ & _ & K2).
          rewrite Nat2Z.id in K1, K2. by rewrite K1, K2, SA.
        * rewrite !lookup_ge_None_2; [done|lia|lia].
    - exfalso. assert (Hc1 : m_content m1 i2 c2 u2) by (apply (SC i2 ltac:(lia)); done).
      destruct (H1 i2 c2 u2 ltac:(lia) Hc1) as (K & _). rewrite SA in K. congruence.
    - exfalso. assert (Hc2 : m_content m2 i c u) by (by apply (SC i Hi)).
      destruct (H2 i c u ltac:(lia) Hc2) as (K & _). rewrite <- SA in K. congruence.
    - split; done.
  Qed.

  (** ** C48 *)

  (** After any history the ranges partition the cells, every reactant is on the
      worker owning its cell and only there, and the same holds for every saved
      state; no call throws, and the only undefined behaviour is in
      rebalancing by averages (C05). *)
  Theorem history_consistent : forall m0 l m, fresh m0 -> history react part dry A m0 l m ->
    consistent (md_pz m) (md_count m0) (md_ss m) (md_es m) (md_ws m) /\
    (forall k, (forall o st, md_states m !! o = Some st -> st !! k = None) \/
       exists ss es ws, stored m k ss es ws /\ consistent (md_pz m) (md_count m0) ss es ws) /\
    forall o, op_ok react part dry A o m ->
      match exec_op react part dry A o m with
      | Ret _ => True
      | Throw => False
      | UB => exists f sched tt ct, o = ORun A false f sched tt ct
      end.
  Proof.
    intros m0 l m Fr H. destruct (history_inv react part dry A Rc Pc m0 l m (fresh_inv m0 Fr) H) as [I Ec].
    pose proof I as [C L S]. rewrite <- Ec. split_and!; [exact C|exact S|].
    intros o Ho. pose proof (exec_inv react part dry A Rc Pc o m I Ho) as X.
    destruct (exec_op react part dry A o m) as [[m' r]| |]; done.
  Qed.

  (** ** C17 *)

  (** Save, do anything that neither saves nor deletes that id, apply: ranges and
      contents of all workers are exactly those at the save. *)
  Theorem state_roundtrip : forall m0 l1 m1 k l2 m2, fresh m0 ->
    history react part dry A m0 l1 m1 ->
    history react part dry A (state_save k m1).1 l2 m2 -> Forall (keeps A k) l2 ->
    exists m3, state_apply k m2 = Ret (m3, IRM_OK) /\
      md_ss m3 = md_ss m1 /\ md_es m3 = md_es m1 /\ md_ws m3 = md_ws m1 /\
      md_states m3 = md_states m2 /\ md_sat m3 = md_sat m2 /\ md_old m3 = md_old m2 /\ md_par m3 = md_par m2.
  Proof.
    intros m0 l1 m1 k l2 m2 Fr H1 H2 Hk.
    destruct (history_inv react part dry A Rc Pc m0 l1 m1 (fresh_inv m0 Fr) H1) as [I1 _].
    assert (St : stored (state_save k m1).1 k (md_ss m1) (md_es m1) (md_ws m1)).
    { apply save_stored; [apply I1|apply I1]. }
    assert (I1' : inv (state_save k m1).1).
    { pose proof (exec_inv react part dry A Rc Pc (OSave A k) m1 I1 I) as X. cbn [exec_op] in X.
      destruct (state_save k m1). apply X. }
    pose proof (history_keeps react part dry A Rc Pc _ l2 m2 k _ _ _ I1' Hk H2 St) as St2.
    rewrite (apply_stored _ _ _ _ _ St2). eexists. split_and!; done.
  Qed.

  (** ** C19 *)

  (** Whether id [k] is stored after the calls [l]. *)
  Fixpoint saved_after (k : Z) (b : bool) (l : list (op (E:=E) (D:=D) (P:=P) A)) : bool :=
    match l with
    | [] => b
    | OSave _ k' :: l => saved_after k (if decide (k' = k) then true else b) l
    | ODelete _ k' :: l => saved_after k (if decide (k' = k) then false else b) l
    | _ :: l => saved_after k b l
    end.

  Theorem state_ids : forall m0 l m k, fresh m0 -> history react part dry A m0 l m ->
    if saved_after k false l then
      (exists m', state_apply k m = Ret (m', IRM_OK) /\ md_states m' = md_states m) /\
      (exists m', state_delete k m = Ret (m', IRM_OK) /\ md_ws m' = md_ws m /\
         md_ss m' = md_ss m /\ md_es m' = md_es m)
    else state_apply k m = Ret (m, IRM_INVALIDARG) /\ state_delete k m = Ret (m, IRM_INVALIDARG).
  Proof.
    intros m0 l m k Fr H.
    assert (G : if saved_after k false l then exists ss es ws, stored m k ss es ws else not_stored m k).
    { induction H as [|l m1 o m2 r H IH Ho Ex].
      { cbn. intros o st Ho. destruct Fr as (_ & _ & Es). rewrite Es in Ho.
        apply lookup_replicate in Ho as [-> _]. apply lookup_empty. }
      assert (App : forall b l, saved_after k b (l ++ [o]) = match o with
          | OSave _ k' => if decide (k' = k) then true else saved_after k b l
          | ODelete _ k' => if decide (k' = k) then false else saved_after k b l
          | _ => saved_after k b l end).
      { intros b l0. revert b. induction l0 as [|x l0 IHl]; intros b.
        - by destruct o; cbn.
        - destruct x; cbn [app saved_after]; apply IHl. }
      rewrite App. clear App.
      destruct (history_inv react part dry A Rc Pc m0 l m1 (fresh_inv m0 Fr) H) as [I1 _].
      assert (Kp : keeps A k o -> if saved_after k false l then exists ss es ws, stored m2 k ss es ws
                  else not_stored m2 k).
      { intros Hk. destruct (saved_after k false l).
        - destruct IH as (ss & es & ws & St). exists ss, es, ws.
          exact (exec_keeps react part dry A Rc Pc o m1 m2 r k ss es ws I1 Ho Hk Ex St).
        - exact (exec_keeps_not react part dry A Rc Pc o m1 m2 r k I1 Ho Hk Ex IH). }
      destruct o as [bc f sched tm ct|k'|k'|k'|new|t g|sat par|]; try by apply Kp.
      - destruct (decide (k' = k)) as [->|Hne]; [|by apply Kp].
        cbn [exec_op] in Ex. injection Ex as <- _.
        exists (md_ss m1), (md_es m1), (md_ws m1). apply save_stored; apply I1.
      - destruct (decide (k' = k)) as [->|Hne]; [|by apply Kp].
        cbn [exec_op] in Ex. destruct (saved_after k false l).
        + destruct IH as (ss & es & ws & St). destruct (delete_stored _ _ _ _ _ St) as [Ed Hd].
          rewrite Ed in Ex. by injection Ex as <- _.
        + rewrite (proj2 (apply_not_stored m1 k IH (inv_states_nonempty m1 I1))) in Ex.
          by injection Ex as <- _. }
    destruct (history_inv react part dry A Rc Pc m0 l m (fresh_inv m0 Fr) H) as [I1 _].
    destruct (saved_after k false l).
    - destruct G as (ss & es & ws & St). split.
      + rewrite (apply_stored _ _ _ _ _ St). eauto.
      + rewrite (proj1 (delete_stored _ _ _ _ _ St)). eexists. split_and!; done.
    - apply apply_not_stored; [done|]. by apply inv_states_nonempty.
  Qed.

  (** One id never affects another: what applying [k] gives is the same before and
      after saving, applying or deleting any other id. *)
  Theorem state_ids_independent : forall m0 l m k o m' r ss es ws, fresh m0 ->
    history react part dry A m0 l m -> stored m k ss es ws -> keeps A k o ->
    op_ok react part dry A o m -> exec_op react part dry A o m = Ret (m', r) ->
    stored m' k ss es ws /\ exists m1 m2, state_apply k m = Ret (m1, IRM_OK) /\
      state_apply k m' = Ret (m2, IRM_OK) /\
      md_ws m1 = md_ws m2 /\ md_ss m1 = md_ss m2 /\ md_es m1 = md_es m2.
  Proof.
    intros m0 l m k o m' r ss es ws Fr H St Hk Ho Ex.
    destruct (history_inv react part dry A Rc Pc m0 l m (fresh_inv m0 Fr) H) as [I1 _].
    pose proof (exec_keeps react part dry A Rc Pc o m m' r k ss es ws I1 Ho Hk Ex St) as St'.
    split; [done|]. rewrite (apply_stored _ _ _ _ _ St), (apply_stored _ _ _ _ _ St').
    eexists _, _. split_and!; done.
  Qed.

  (** ** C20 *)

  (** Without partitioning of solids: going back to a saved state and running the
      step again gives the same contents and rows, whatever happened in between,
      whatever the threads do. *)
  Theorem state_replay : forall m0 l1 m1 k l2 m2 m3 bc1 f1 sched1 tt1 ct1 m1' r1 bc2 f2 sched2 tt2 ct2 m3' r2,
    fresh m0 -> history react part dry A m0 l1 m1 ->
    history react part dry A (state_save k m1).1 l2 m2 -> Forall (keeps A k) l2 ->
    state_apply k m2 = Ret (m3, IRM_OK) ->
    md_pz m1 = false -> md_pz m2 = false ->
    md_sat m2 = md_sat m1 -> md_par m2 = md_par m1 -> md_rep m2 = md_rep m1 ->
    op_ok react part dry A (ORun A bc1 f1 sched1 tt1 ct1) m1 ->
    op_ok react part dry A (ORun A bc2 f2 sched2 tt2 ct2) m3 ->
    run_cells react part dry A bc1 f1 sched1 tt1 ct1 m1 = Ret (m1', r1) ->
    run_cells react part dry A bc2 f2 sched2 tt2 ct2 m3 = Ret (m3', r2) ->
    r1 = r2 /\
    (r1 = IRM_OK ->
      same_contents (md_count m1) (md_ss m1') (md_es m1') (md_ws m1') (md_ss m3') (md_es m3') (md_ws m3') /\
      concat (md_rows m1') = concat (md_rows m3')).
  Proof.
    intros m0 l1 m1 k l2 m2 m3 bc1 f1 sched1 tt1 ct1 m1' r1 bc2 f2 sched2 tt2 ct2 m3' r2
      Fr H1 H2 Hk Ha Ep1 Ep2 Es Epar Er (F1 & S1 & Lt1 & Lc1) (F2 & S2 & Lt2 & Lc2) X1 X2.
    destruct (history_inv react part dry A Rc Pc m0 l1 m1 (fresh_inv m0 Fr) H1) as [I1 _].
    assert (St : stored (state_save k m1).1 k (md_ss m1) (md_es m1) (md_ws m1)).
    { apply save_stored; [apply I1|apply I1]. }
    assert (I1' : inv (state_save k m1).1).
    { pose proof (exec_inv react part dry A Rc Pc (OSave A k) m1 I1 I) as X. cbn [exec_op] in X.
      destruct (state_save k m1). apply X. }
    pose proof (history_keeps react part dry A Rc Pc _ l2 m2 k _ _ _ I1' Hk H2 St) as St2.
    destruct (history_inv react part dry A Rc Pc _ l2 m2 I1' H2) as [I2 Ec]. cbn in Ec.
    rewrite (apply_stored _ _ _ _ _ St2) in Ha. injection Ha as <-.
    cbn [md_count md_es] in S2, Lt2, Lc2. rewrite Ec in S2, Lc2.
    assert (C1 := iv_cons _ I1).
    eapply (run_cells_independent bc1 f1 sched1 tt1 ct1 m1 m1' r1 bc2 f2 sched2 tt2 ct2 _ m3' r2);
      [exact C1| |..| exact X1 | exact X2]; cbn [md_count md_rep md_pz md_par md_sat md_old md_ss md_es md_ws];
      try done; try congruence.
    unfold m_consistent in *. cbn [md_count md_rep md_pz md_par md_sat md_old md_ss md_es md_ws].
    by rewrite Ep2, Ec, <- Ep1.
  Qed.
End core.
Print Assumptions run_cells_cellwise.
Print Assumptions run_cells_schedules.
Print Assumptions run_cells_independent.
Print Assumptions history_consistent.
Print Assumptions state_roundtrip.
Print Assumptions state_ids.
Print Assumptions state_ids_independent.
Print Assumptions state_replay.

(** ** Concrete cases *)

Definition no_rest {W} (t : thread W) : bool := match th_rest t with [] => true | _ => false end.
Lemma finished_check {W} (ts : list (thread W)) : forallb no_rest ts = true -> finished ts.
Proof.
  intros H. apply Forall_forall. intros t Ht. rewrite forallb_forall in H.
  specialize (H t (proj1 (elem_of_list_In _ _) Ht)). unfold no_rest in H. by destruct (th_rest t).
Qed.

(** A solver: the solution increases by one, the row is the cell number; cell 3
    fails if the parameter is true. *)
Definition ex_react (p : bool) (i : Z) (c : gmap rtype Z) : bool * gmap rtype Z * Z :=
  (negb (p && bool_decide (i = 3)), alter (fun x => x + 1) RSolution c, i).
(** Partition: what is new in saturation (in percent) goes from one zone to the other. *)
Definition ex_part (old new : Z) (c u : gmap rtype Z) : gmap rtype Z * gmap rtype Z :=
  match c !! RPP with
  | Some x => (<[RPP := x - (old - new)]> c,
               <[RPP := (match u !! RPP with Some y => y | None => 0 end) + (old - new)]> u)
  | None => (c, u)
  end.

Lemma ex_react_closed : react_closed ex_react.
Proof.
  intros p i c Hc t x. unfold ex_react. cbn [fst snd]. intros H.
  destruct (decide (t = RSolution)) as [->|Hne]; [by left|].
  rewrite lookup_alter_ne in H by done. by apply (Hc t x).
Qed.
Lemma ex_part_closed : part_closed ex_part.
Proof.
  intros a b c u Hc Hu. unfold ex_part. destruct (c !! RPP) as [y|] eqn:Ey; [|done]. cbn [fst snd].
  pose proof (Hc RPP y Ey) as HP.
  split; intros t x H; (destruct (decide (t = RPP)) as [->|Hne]; [done|]);
    rewrite lookup_insert_ne in H by done; eauto.
Qed.

Definition ex_new (i : Z) : gmap rtype Z := <[RSolution := 10 * i]> (<[RPP := 100]> ∅).
Definition ex_fresh (pz p : bool) : module Z Z Z bool :=
  Mod 4 (fun i => i) [0; 2] [1; 3] [St ∅ ∅; St ∅ ∅] [∅; ∅] pz (fun _ => 100) (fun _ => 100) p [].
Definition ex_fresh1 (pz p : bool) : module Z Z Z bool :=
  Mod 4 (fun i => i) [0] [3] [St ∅ ∅] [∅] pz (fun _ => 100) (fun _ => 100) p [].

Notation ex_run f sched ct m := (run_cells ex_react ex_part (fun s => s <=? 0) B64 true f sched
  [b64_of_Z 1; b64_of_Z 1] ct m).

Lemma ex_fresh_is_fresh pz p : fresh (ex_fresh pz p).
Proof. split; [two_ranges|done]. Qed.

(** Initial conditions on two threads, then one step with an uneven load and
    threads that alternate: cell 1 moves to thread 1 and all contents are right. *)
Example run_cells_nontrivial :
  let m := initial_module ex_new (ex_fresh false false) in
  let sched := [1; 0; 1; 0]%nat in
  let z := b64_of_Z in
  finished (run_schedule sched (m_threads ex_react ex_part (fun s => s <=? 0) m)) /\
  match ex_run (z 1) sched [z 9; z 1; z 1; z 1] m with
  | Ret (m', r) => r = IRM_OK /\ md_es m' = [0; 3] /\ concat (md_rows m') = [Some 0; Some 1; Some 2; Some 3] /\
      at_rx (md_ws m') 1 RSolution 1 = Some (Ent 1 1 11) /\ at_rx (md_ws m') 0 RSolution 1 = None /\
      at_rx (md_ws m') 1 RSolution 3 = Some (Ent 3 3 31) /\ at_rx (md_ws m') 1 RPP 1 = Some (Ent 1 1 100)
  | _ => False
  end.
Proof.
  cbv zeta. split.
  - apply finished_check. vm_compute. done.
  - vm_compute. repeat split.
Qed.

(** When a cell fails, its thread stops; which other cells have reacted then depends
    on the distribution.  Cell 0 fails here: with one thread cell 2 has not
    reacted, with two threads it has. *)
Definition ex_react0 (p : bool) (i : Z) (c : gmap rtype Z) : bool * gmap rtype Z * Z :=
  (negb (bool_decide (i = 0)), alter (fun x => x + 1) RSolution c, i).

Lemma contents_differ {E} count ss1 es1 (ws1 : list (store E)) ss2 es2 ws2 i t o1 o2 e1 e2 :
  valid_split count ss1 es1 -> valid_split count ss2 es2 -> 0 <= i < count ->
  owns ss1 es1 o1 i -> owns ss2 es2 o2 i ->
  at_rx ws1 o1 t i = Some e1 -> at_rx ws2 o2 t i = Some e2 -> e_body e1 <> e_body e2 ->
  ~ same_contents count ss1 es1 ws1 ss2 es2 ws2.
Proof.
  intros V1 V2 Hi O1 O2 A1 A2 Hne H. unfold at_rx in A1, A2.
  destruct (ws1 !! o1) as [s1|] eqn:E1; [|done]. destruct (ws2 !! o2) as [s2|] eqn:E2; [|done].
  assert (C1 : content ss1 es1 ws1 i (cell_of (rx s1) i) (cell_of (uz s1) i)).
  { by apply (content_owner _ _ _ _ _ _ _ _ _ V1 O1 E1). }
  apply (H i Hi) in C1. apply (content_owner _ _ _ _ _ _ _ _ _ V2 O2 E2) in C1 as [C1 _].
  assert (X : cell_of (rx s1) i !! t = cell_of (rx s2) i !! t) by (by rewrite C1).
  rewrite !lookup_cell_of, A1, A2 in X. cbn in X. congruence.
Qed.

Definition ex_m1 := initial_module ex_new (ex_fresh1 false false).
Definition ex_m2 := initial_module ex_new (ex_fresh false false).
Definition ex_failed (sched : list nat) (m : module Z Z Z bool) : module Z Z Z bool :=
  let ts := run_schedule sched (m_threads ex_react0 ex_part (fun s => s <=? 0) m) in
  Mod (md_count m) (md_rep m) (md_ss m) (md_es m) ((fun t => wk_st (th_w t)) <$> ts) (md_states m) (md_pz m)
    (md_sat m) (if md_pz m then md_sat m else md_old m) (md_par m) ((fun t => wk_rows (th_w t)) <$> ts).
Lemma ex_failed_run A bc f tm ct sched m :
  forallb th_ok (run_schedule sched (m_threads ex_react0 ex_part (fun s => s <=? 0) m)) = false ->
  run_cells ex_react0 ex_part (fun s => s <=? 0) A bc f sched tm ct m = Ret (ex_failed sched m, IRM_FAIL).
Proof. intros H. unfold run_cells. by rewrite H. Qed.

Lemma ex_split1 : valid_split 4 [0] [3].
Proof. split; try done. intros [|?] ? ?; simpl; intros [= <-] [= <-]; lia. Qed.
Lemma ex_split2 : valid_split 4 [0; 2] [1; 3].
Proof. two_ranges. Qed.

Theorem failed_step_distribution_refuted :
  exists (m1 m2 m1' m2' : module Z Z Z bool) sched1 sched2 tt1 tt2 ct,
    m_consistent m1 /\ m_consistent m2 /\
    same_contents 4 (md_ss m1) (md_es m1) (md_ws m1) (md_ss m2) (md_es m2) (md_ws m2) /\
    finished (run_schedule sched1 (m_threads ex_react0 ex_part (fun s => s <=? 0) m1)) /\
    finished (run_schedule sched2 (m_threads ex_react0 ex_part (fun s => s <=? 0) m2)) /\
    run_cells ex_react0 ex_part (fun s => s <=? 0) B64 true (b64_of_Z 1) sched1 tt1 ct m1 = Ret (m1', IRM_FAIL) /\
    run_cells ex_react0 ex_part (fun s => s <=? 0) B64 true (b64_of_Z 1) sched2 tt2 ct m2 = Ret (m2', IRM_FAIL) /\
    ~ same_contents 4 (md_ss m1') (md_es m1') (md_ws m1') (md_ss m2') (md_es m2') (md_ws m2').
Proof.
  assert (Fr1 : fresh (ex_fresh1 false false)) by (split; [apply ex_split1|done]).
  assert (C1 : m_consistent (ex_fresh1 false false)) by (apply (fresh_inv _ Fr1)).
  assert (C2 : m_consistent (ex_fresh false false)) by (apply (fresh_inv _ (ex_fresh_is_fresh _ _))).
  destruct (init_consistent ex_new _ _ _ _ _ C1) as [C1' K1].
  destruct (init_consistent ex_new _ _ _ _ _ C2) as [C2' K2].
  exists ex_m1, ex_m2, (ex_failed [0; 0; 0; 0]%nat ex_m1), (ex_failed [0; 1; 0; 1]%nat ex_m2),
    [0; 0; 0; 0]%nat, [0; 1; 0; 1]%nat, [], [], (replicate 4 (b64_of_Z 1)).
  split_and!.
  - exact C1'.
  - exact C2'.
  - intros i Hi c u.
    assert (E1 : content [0] [3] (md_ws (ex_fresh1 false false)) i ∅ ∅).
    { exists 0%nat, (St ∅ ∅). split_and!; try done. exists 0, 3. split_and!; (done || lia). }
    assert (E2 : content [0; 2] [1; 3] (md_ws (ex_fresh false false)) i ∅ ∅).
    { destruct (decide (i <= 1)).
      - exists 0%nat, (St ∅ ∅). split_and!; try done. exists 0, 1. split_and!; (done || lia).
      - exists 1%nat, (St ∅ ∅). split_and!; try done. exists 2, 3. split_and!; (done || lia). }
    pose proof (K1 i _ _ Hi E1) as Q1. pose proof (K2 i _ _ Hi E2) as Q2.
    destruct (owner_store _ _ _ (md_ws ex_m1) i ex_split1 (cs_len _ _ _ _ _ C1') Hi) as (o1 & s1 & Ho1 & Hs1).
    destruct (owner_store _ _ _ (md_ws ex_m2) i ex_split2 (cs_len _ _ _ _ _ C2') Hi) as (o2 & s2 & Ho2 & Hs2).
    apply (content_owner _ _ _ _ _ _ _ _ _ ex_split1 Ho1 Hs1) in Q1 as [Q1 Q1'].
    apply (content_owner _ _ _ _ _ _ _ _ _ ex_split2 Ho2 Hs2) in Q2 as [Q2 Q2'].
    rewrite (content_owner _ (md_ss ex_m1) (md_es ex_m1) _ _ _ _ _ _ ex_split1 Ho1 Hs1).
    rewrite (content_owner _ (md_ss ex_m2) (md_es ex_m2) _ _ _ _ _ _ ex_split2 Ho2 Hs2).
    by rewrite <- Q1, <- Q1', <- Q2, <- Q2'.
  - apply finished_check. vm_compute. done.
  - apply finished_check. vm_compute. done.
  - apply ex_failed_run. vm_compute. done.
  - apply ex_failed_run. vm_compute. done.
  - apply (contents_differ 4 [0] [3] _ [0; 2] [1; 3] _ 2 RSolution 0 1 (Ent 2 2 20) (Ent 2 2 21)).
    + apply ex_split1.
    + apply ex_split2.
    + lia.
    + exists 0, 3. split_and!; (done || lia).
    + exists 2, 3. split_and!; (done || lia).
    + vm_compute. reflexivity.
    + vm_compute. reflexivity.
    + done.
Qed.
Print Assumptions failed_step_distribution_refuted.

(** ** C18 *)

(** Whatever the worker holds (everything else stored under its own number), a gas
    phase that SetGasCompMoles or SetGasPhaseVolume created in a cell other than
    cell 1 is not in that cell of the saved state. *)
Theorem created_gas_lost_refuted {E} : forall (x : E) i (w : store E),
  well_numbered (rx w) -> rx w !! (RGas, i) = None -> i <> 1 ->
  rx (create_gas x i w) !! (RGas, i) = Some (Ent 1 1 x) /\
  phreeqc2bin (rx (create_gas x i w)) ∅ !! (RGas, i) = None.
Proof.
  intros x i w Wn Hn Hi. unfold create_gas. rewrite Hn. cbn [rx]. split; [apply lookup_insert|].
  destruct (phreeqc2bin _ _ !! _) as [e|] eqn:He; [|done]. exfalso.
  apply phreeqc2bin_origin in He as (k & e' & Hk & Hn').
  destruct (decide (k = i)) as [->|Hne].
  - rewrite lookup_insert in Hk. injection Hk as <-. cbn in Hn'. lia.
  - rewrite lookup_insert_ne in Hk by congruence. destruct (Wn _ _ _ Hk). lia.
Qed.
Print Assumptions created_gas_lost_refuted.

(** In the module: a gas phase created in cell 2, state saved and applied: gone. *)
Example created_gas_lost_example :
  let w := create_gas 5 2 (St (<[(RSolution, 2) := Ent 2 2 7]> ∅) ∅) in
  let m : module Z Z Z bool :=
    Mod 4 (fun i => i) [0] [3] [w] [∅] false (fun _ => 100) (fun _ => 100) false [] in
  match state_apply 1 (state_save 1 m).1 with
  | Ret (m', r) => r = IRM_OK /\ at_rx (md_ws m) 0 RGas 2 = Some (Ent 1 1 5) /\
      at_rx (md_ws m') 0 RGas 2 = None /\ at_rx (md_ws m') 0 RGas 1 = Some (Ent 1 1 5) /\
      at_rx (md_ws m') 0 RSolution 2 = Some (Ent 2 2 7)
  | _ => False
  end.
Proof. vm_compute. repeat split. Qed.

(** A gas phase created in cell 1 does survive, because its default number
    happens to be right. *)
Theorem created_gas_cell1_survives {E} : forall (x : E) (w : store E),
  well_numbered (rx w) -> rx w !! (RGas, 1) = None ->
  phreeqc2bin (rx (create_gas x 1 w)) ∅ !! (RGas, 1) = Some (Ent 1 1 x).
Proof.
  intros x w Wn Hn. unfold create_gas. rewrite Hn. cbn [rx].
  rewrite phreeqc2bin_empty; [apply lookup_insert|].
  intros t k e. destruct (decide ((RGas, 1) = (t, k))) as [[= <- <-]|Hne].
  - rewrite lookup_insert. by intros [= <-].
  - rewrite lookup_insert_ne by done. apply Wn.
Qed.
Print Assumptions created_gas_cell1_survives.

(** ** C20, refuted with partitioning of solids *)

(** Cells with saturation 100; save; lower the saturation to 60 and run: 40 go to
    the unsaturated zone.  Go back to the saved state and run the same step: the
    saturation used last time is now taken for the old one, and nothing moves. *)
Definition ex_p0 : module Z Z Z bool := initial_module ex_new (ex_fresh true false).
Definition ex_p1 : module Z Z Z bool := with_env ex_p0 (fun _ => 60) false.
Definition ex_sched4 : list nat := [0; 0; 0; 0; 1; 1; 1; 1]%nat.
Definition unret_m (o : outcome (module Z Z Z bool * irm_result)) : module Z Z Z bool :=
  match o with Ret (m, _) => m | _ => ex_p0 end.
Notation ex_run0 m := (ex_run (b64_of_Z 0) ex_sched4 [b64_of_Z 1; b64_of_Z 1; b64_of_Z 1; b64_of_Z 1] m).
Definition ex_p2 : module Z Z Z bool := unret_m (ex_run0 (state_save 7 ex_p1).1).
Definition ex_p3 : module Z Z Z bool := unret_m (state_apply 7 ex_p2).
Definition ex_p4 : module Z Z Z bool := unret_m (ex_run0 ex_p3).

Definition ret_ok {X} (o : outcome (X * irm_result)) : bool :=
  match o with Ret (_, IRM_OK) => true | _ => false end.
Lemma unret_m_eq o : ret_ok o = true -> o = Ret (unret_m o, IRM_OK).
Proof. by destruct o as [[m []]| |]. Qed.

Theorem state_replay_uz_refuted :
  exists (m1 m2 m3 m4 : module Z Z Z bool) k i,
    m1 = (state_save k ex_p1).1 /\ ex_run0 m1 = Ret (m2, IRM_OK) /\
    state_apply k m2 = Ret (m3, IRM_OK) /\ md_sat m3 = md_sat m1 /\ md_par m3 = md_par m1 /\
    ex_run0 m3 = Ret (m4, IRM_OK) /\
    at_rx (md_ws m2) 0 RPP i = Some (Ent i i 60) /\ at_rx (md_ws m4) 0 RPP i = Some (Ent i i 100).
Proof.
  exists (state_save 7 ex_p1).1, ex_p2, ex_p3, ex_p4, 7, 0. split_and!.
  - done.
  - apply unret_m_eq. vm_compute. reflexivity.
  - apply unret_m_eq. vm_compute. reflexivity.
  - vm_compute. reflexivity.
  - vm_compute. reflexivity.
  - apply unret_m_eq. vm_compute. reflexivity.
  - vm_compute. reflexivity.
  - vm_compute. reflexivity.
Qed.
Print Assumptions state_replay_uz_refuted.

(** ** C48: calls outside the theorem *)

(** InitialPhreeqc2Module that fails for one cell (the call throws or returns an
    error) leaves the reactants of the other cells on worker 0: cell 3 belongs to
    worker 1. *)
Theorem failed_initial_strays_refuted :
  exists (new : Z -> gmap rtype Z), let m := initial_module_failed new (ex_fresh false false) in
    owns (md_ss m) (md_es m) 1 3 /\ exists e, holds (md_ws m) 0 RSolution 3 e /\ ~ m_consistent m.
Proof.
  exists ex_new. cbv zeta. split.
  - exists 2, 3. split_and!; (done || lia).
  - exists (Ent 3 3 30).
    assert (H : holds (md_ws (initial_module_failed ex_new (ex_fresh false false))) 0 RSolution 3 (Ent 3 3 30)).
    { apply holds_at. vm_compute. reflexivity. }
    split; [exact H|]. intros [V _ Hr _]. destruct (Hr _ _ _ _ H) as ((s & e & Hs & He & Hse) & _).
    cbn in Hs, He. simplify_eq. lia.
Qed.
Print Assumptions failed_initial_strays_refuted.

(** A second CreateMapping leaves contents on workers that do not own them any
    more; a state saved before then has ranges for the old number of cells. *)
Theorem remap_strays_refuted :
  exists (m m' : module Z Z Z bool),
    m = (state_save 1 (initial_module ex_new (ex_fresh false false))).1 /\
    m' = remap 2 (fun i => i) [0; 1] [0; 1] m /\ valid_split 2 [0; 1] [0; 1] /\
    ~ m_consistent m' /\
    exists m2, state_apply 1 m' = Ret (m2, IRM_OK) /\ ~ valid_split (md_count m2) (md_ss m2) (md_es m2).
Proof.
  pose (m := (state_save 1 (initial_module ex_new (ex_fresh false false))).1).
  exists m, (remap 2 (fun i => i) [0; 1] [0; 1] m). split_and!; try done.
  - two_ranges.
  - intros [V _ Hr _].
    assert (H : holds (md_ws (remap 2 (fun i => i) [0; 1] [0; 1] m)) 0 RSolution 1 (Ent 1 1 10)).
    { apply holds_at. vm_compute. reflexivity. }
    destruct (Hr _ _ _ _ H) as ((s & e & Hs & He & Hse) & _). cbn in Hs, He. simplify_eq. lia.
  - exists (unret_m (state_apply 1 (remap 2 (fun i => i) [0; 1] [0; 1] m))). split.
    + apply unret_m_eq. vm_compute. reflexivity.
    + intros V. pose proof (vs_last _ _ _ V) as X. vm_compute in X. done.
Qed.
Print Assumptions remap_strays_refuted.

(** A history with everything in it: initial conditions, a step that moves a cell,
    save, another step, apply, delete. *)
Lemma ex_fraction_one count : count <= 2 ^ 26 -> rebalance_sound B64 true (b64_of_Z 1) count.
Proof.
  intros Hc. apply b64_fractions_sound; [done|]. right.
  destruct (b64_of_Z_correct 1 ltac:(lia)) as [E F]. split; [done|]. rewrite E. lra.
Qed.

Definition ex_h1 : module Z Z Z bool := initial_module ex_new (ex_fresh false false).
Notation ex_step m := (run_cells ex_react ex_part (fun s => s <=? 0) B64 true (b64_of_Z 1)
  [1; 0; 1; 0; 1]%nat [b64_of_Z 1; b64_of_Z 1] [b64_of_Z 9; b64_of_Z 1; b64_of_Z 1; b64_of_Z 1] m).
Definition ex_h2 : module Z Z Z bool := unret_m (ex_step ex_h1).
Definition ex_h3 : module Z Z Z bool := (state_save 7 ex_h2).1.
Definition ex_h4 : module Z Z Z bool := unret_m (ex_step ex_h3).
Definition ex_h5 : module Z Z Z bool := unret_m (state_apply 7 ex_h4).

Example history_nontrivial :
  exists l, history ex_react ex_part (fun s => s <=? 0) B64 (ex_fresh false false) l ex_h5 /\
    length l = 5%nat /\ md_es ex_h2 <> md_es ex_h1 /\
    at_rx (md_ws ex_h1) 0 RSolution 1 = Some (Ent 1 1 10) /\
    at_rx (md_ws ex_h2) 1 RSolution 1 = Some (Ent 1 1 11) /\
    at_rx (md_ws ex_h4) 1 RSolution 1 = Some (Ent 1 1 12) /\
    at_rx (md_ws ex_h5) 1 RSolution 1 = Some (Ent 1 1 11).
Proof.
  pose (run := ORun (E:=Z) (D:=Z) (P:=bool) B64 true (b64_of_Z 1) [1; 0; 1; 0; 1]%nat [b64_of_Z 1; b64_of_Z 1]
    [b64_of_Z 9; b64_of_Z 1; b64_of_Z 1; b64_of_Z 1]).
  exists ([] ++ [OInit B64 ex_new] ++ [run] ++ [OSave B64 7] ++ [run] ++ [OApply B64 7]).
  split; [|vm_compute; repeat split; done].
  rewrite !app_assoc.
  eapply (history_snoc _ _ _ _ _ _ ex_h4 _ ex_h5 IRM_OK).
  { eapply (history_snoc _ _ _ _ _ _ ex_h3 _ ex_h4 IRM_OK).
    { eapply (history_snoc _ _ _ _ _ _ ex_h2 _ ex_h3 IRM_OK).
      { eapply (history_snoc _ _ _ _ _ _ ex_h1 _ ex_h2 IRM_OK).
        { eapply (history_snoc _ _ _ _ _ _ (ex_fresh false false) _ ex_h1 IRM_OK); [constructor|done|done]. }
        { split_and!; [apply finished_check; vm_compute; done| |done|done].
          apply ex_fraction_one. done. }
        { apply unret_m_eq. vm_compute. reflexivity. } }
      { done. } { done. } }
    { split_and!; [apply finished_check; vm_compute; done| |vm_compute; done|vm_compute; done].
      assert (H : md_count ex_h3 = 4) by (vm_compute; done). rewrite H. apply ex_fraction_one. done. }
    { apply unret_m_eq. vm_compute. reflexivity. } }
  { done. }
  { apply unret_m_eq. vm_compute. reflexivity. }
Qed.
