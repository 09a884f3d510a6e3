(** Properties C22 and C23: initial conditions. *)
From Coq Require Import String QArith Qcanon.
From stdpp Require Import prelude strings gmap.
From Verif.Base Require Import Result.
From Verif.Partition Require Import Spec EndCellsProofs.
From Verif.Names Require Import Model Spec Proofs.
From Verif.Solution Require Import Model Spec Proofs Props.
From Verif.Reactant Require Import Model Spec Proofs.
From Verif.Init Require Import Model Spec Proofs.
Local Open Scope Qc_scope.

Lemma measure_vol : measure SlSol s_vol.
Proof. left. unfold extensive. rewrite !elem_of_cons. auto 10. Qed.
Lemma measure_mw : measure SlSol s_mw.
Proof. left. unfold extensive. rewrite !elem_of_cons. auto 10. Qed.

(** ** C22 *)

Lemma init_module_ok t g bm ranges ic1 ic2 fr ws msgs ws' :
  init_module t g bm ranges ic1 ic2 fr ws = Ret (IRM_OK, msgs, ws') ->
  exists w0 ws0 w1 w0' ws1, ws = w0 :: ws0 /\ ws' = w0' :: ws1 /\
    init_cells t g ic1 ic2 fr (zip (seqZ 0 (Z.of_nat (length bm))) bm) true [] w0 = Ret (true, msgs, w1) /\
    distribute w1 ws0 (tail ranges) = Ret (w0', ws1).
Proof.
  unfold init_module. intros H.
  destruct (negb _); [done|]. destruct (_ && _)%bool; [done|]. destruct (_ && _)%bool; [done|].
  destruct ws as [|w0 ws0]; [done|].
  destruct (init_cells _ _ _ _ _ _ _ _ _) as [[[ok m] w1]| |] eqn:E; [|done|done]. cbn [obind] in H.
  destruct ok; [|done]. destruct (distribute _ _ _) as [[w0' ws1]| |] eqn:D; [|done|done]. cbn [obind fst snd] in H.
  injection H as <- <-. by exists w0, ws0, w1, w0', ws1.
Qed.

Lemma split_ranges count ss es : valid_split count ss es ->
  (forall n r, tail (zip ss es) !! n = Some r -> (r.1 <= r.2)%Z) /\
  (forall n n' r r' c, tail (zip ss es) !! n = Some r -> tail (zip ss es) !! n' = Some r' ->
     c ∈ range r -> c ∈ range r' -> n = n').
Proof.
  intros V. split.
  - intros n [a b] Hr. rewrite lookup_tail in Hr. apply lookup_zip_with_Some in Hr as (a' & b' & [= -> ->] & H1 & H2).
    by apply (vs_nonempty _ _ _ V (S n)).
  - intros n n' [a b] [a' b'] c Hr Hr' Hc Hc'. rewrite lookup_tail in Hr, Hr'.
    apply lookup_zip_with_Some in Hr as (x & y & [= -> ->] & H1 & H2).
    apply lookup_zip_with_Some in Hr' as (x' & y' & [= -> ->] & H1' & H2').
    apply elem_of_range in Hc, Hc'. cbn in Hc, Hc'. apply (inj S).
    apply (valid_split_owner_unique count ss es _ _ c V); [exists x, y|exists x', y']; done.
Qed.
Lemma owns_bounds count ss es m i : valid_split count ss es -> owns ss es m i -> (0 <= i < count)%Z.
Proof.
  intros V (s & e & Hs & He & Hi). pose proof (valid_split_end_bounds _ _ _ _ _ V He) as [_ B].
  pose proof (lookup_lt_Some _ _ _ He). split; [|lia].
  destruct m as [|m].
  - rewrite (vs_first _ _ _ V) in Hs. injection Hs as <-. lia.
  - assert (L0 : (0 < length es)%nat) by lia. destruct (lookup_lt_is_Some_2 _ _ L0) as [e0 He0].
    pose proof (vs_nonempty _ _ _ V _ _ _ (vs_first _ _ _ V) He0).
    pose proof (valid_split_start_le _ _ _ 0 (S m) _ _ _ V ltac:(lia) (vs_first _ _ _ V) He0 Hs). lia.
Qed.

Lemma init_core t g bm ss es ic1 ic2 fr ws msgs ws' :
  init_module t g bm (zip ss es) ic1 ic2 fr ws = Ret (IRM_OK, msgs, ws') ->
  valid_split (Z.of_nat (length bm)) ss es -> length ws = length ss ->
  length ws' = length ws /\
  forall n w w', ws !! n = Some w -> ws' !! n = Some w' ->
  (forall i k, owns ss es n i ->
     exists j n1 n2 f1 por sat rv,
       bm !! Z.to_nat i = Some j /\
       asked ic1 (g_nxyz g) k j n1 /\ asked ic2 (g_nxyz g) k j n2 /\ asked fr (g_nxyz g) k j f1 /\
       g_por g !! j = Some por /\ g_sat g !! j = Some sat /\ g_rv g !! j = Some rv /\
       ((n1 < 0)%Z -> (forall w0, ws !! 0%nat = Some w0 -> n <> 0%nat -> w0 k !! i = None) ->
          w' k !! i = w k !! i) /\
       ((0 <= n1)%Z -> exists a1 e, t k !! n1 = Some a1 /\ w' k !! i = Some e /\
          build t g por sat rv f1 n1 n2 k = Ret e)) /\
  (forall i k, ~ owns ss es n i -> n <> 0%nat -> w' k !! i = w k !! i) /\
  (forall i k, n = 0%nat -> ~ (0 <= i < Z.of_nat (length bm))%Z -> w' k !! i = w k !! i) /\
  (forall i k, n = 0%nat -> (0 <= i < Z.of_nat (length bm))%Z -> ~ owns ss es n i -> w' k !! i = None).
Proof.
  intros H V L. destruct (init_module_ok _ _ _ _ _ _ _ _ _ _ H) as (w0 & ws0 & w1 & w0' & ws1 & -> & -> & Ei & Ed).
  destruct (split_ranges _ _ _ V) as [R1 R2].
  assert (Ls : length ss = length es) by apply V.
  assert (Lr : (length ws0 <= length (tail (zip ss es)))%nat).
  { cbn in L. destruct ss as [|s ss]; [done|]. destruct es as [|e es]; [done|]. cbn [zip zip_with tail].
    rewrite zip_with_length. cbn [length] in L, Ls. lia. }
  destruct (distribute_spec ws0 (tail (zip ss es)) w1 Lr R1 R2) as (w0'' & ws1' & Ed' & Ld & DA & DB & DC).
  rewrite Ed in Ed'. injection Ed' as <- <-.
  assert (Hnd : NoDup (map fst (zip (seqZ 0 (Z.of_nat (length bm))) bm))).
  { rewrite numbered_fst. apply NoDup_seqZ. }
  destruct (init_cells_spec _ _ _ _ _ _ _ _ _ _ _ _ Hnd Ei) as (A & _ & _ & _ & G & K).
  destruct (proj1 A eq_refl) as [_ Hacc]. specialize (K eq_refl).
  split; [cbn; lia|]. intros n w w' Hw Hw'.
  assert (Hcount : forall m i, owns ss es m i -> (0 <= i < Z.of_nat (length bm))%Z).
  { intros m i. apply owns_bounds, V. }
  assert (Htail : forall m i, owns ss es (S m) i -> exists r, tail (zip ss es) !! m = Some r /\ i ∈ range r).
  { intros m i (s & e & Hs & He & Hi). exists (s, e). split; [|by apply elem_of_range].
    rewrite lookup_tail. apply lookup_zip_with_Some. by exists s, e. }
  assert (Htail' : forall m r i, tail (zip ss es) !! m = Some r -> i ∈ range r -> owns ss es (S m) i).
  { intros m [a b] i Hr Hi. rewrite lookup_tail in Hr. apply lookup_zip_with_Some in Hr as (x & y & [= -> ->] & H1 & H2).
    exists x, y. apply elem_of_range in Hi. done. }
  split; [|split; [|split]].
  - intros i k Ho. pose proof (Hcount _ _ Ho) as Hi.
    assert (Hj : exists j, bm !! Z.to_nat i = Some j) by (apply lookup_lt_is_Some; lia).
    destruct Hj as [j Hj]. assert (Hin : (i, j) ∈ zip (seqZ 0 (Z.of_nat (length bm))) bm).
    { apply numbered_elem. split; [lia|done]. }
    destruct (K i j k Hin) as (por & sat & rv & P1 & P2 & P3 & (n1 & n2 & f1 & Q1 & Q2 & Q3 & Q4 & Q5)).
    exists j, n1, n2, f1, por, sat, rv. split; [done|]. split; [done|]. split; [done|]. split; [done|].
    split; [done|]. split; [done|]. split; [done|].
    assert (Hres : w' k !! i = match w1 k !! i with Some e => Some e | None =>
              match n with O => None | _ => w k !! i end end).
    { destruct n as [|n].
      - cbn in Hw'. injection Hw' as <-. rewrite DB; [by destruct (w1 k !! i)|].
        intros m r Hm Hr Hc. pose proof (valid_split_owner_unique _ _ _ _ _ _ V Ho (Htail' _ _ _ Hr Hc)). lia.
      - cbn in Hw, Hw'. destruct (Htail _ _ Ho) as (r & Hr & Hir).
        destruct (DC n r w Hr Hw) as (w'' & Hw'' & Hk). pose proof (eq_trans (eq_sym Hw') Hw'') as Ew. injection Ew as <-.
        rewrite Hk. by rewrite decide_True. }
    split.
    + intros Hn1 Hw0. rewrite Hres, (Q4 Hn1). destruct n as [|n].
      * cbn in Hw. injection Hw as <-. by destruct (w0 k !! i).
      * by rewrite (Hw0 w0).
    + intros Hn1. destruct (Q5 Hn1) as (e & Eb & He). rewrite He in Hres.
      destruct (Hacc i j Hin) as (_ & _ & Hm).
      destruct (t k !! n1) as [a1|] eqn:Et.
      2: { exfalso. apply (Hm k n1). split; [done|]. by left. }
      by exists a1, e.
  - intros i k Ho Hn. destruct n as [|n]; [done|]. cbn in Hw, Hw'.
    assert (Hr : exists r, tail (zip ss es) !! n = Some r).
    { apply lookup_lt_is_Some. eapply Nat.lt_le_trans; [exact (lookup_lt_Some _ _ _ Hw)|exact Lr]. }
    destruct Hr as [r Hr]. destruct (DC n r w Hr Hw) as (w'' & Hw'' & Hk).
    pose proof (eq_trans (eq_sym Hw') Hw'') as Ew. injection Ew as <-. rewrite Hk. rewrite decide_False; [done|].
    intros Hc. apply Ho. by eapply Htail'.
  - intros i k -> Hi. cbn in Hw, Hw'. injection Hw as <-. injection Hw' as <-.
    rewrite DB.
    + apply G. rewrite numbered_fst, elem_of_seqZ. lia.
    + intros m r Hm Hr Hc. apply Hi. apply (Hcount (S m)). by eapply Htail'.
  - intros i k -> Hi Ho. cbn in Hw, Hw'. injection Hw as <-. injection Hw' as <-.
    destruct (valid_split_owner_exists _ _ _ i V) as [m Hm]; [lia|].
    destruct m as [|m]; [done|]. destruct (Htail _ _ Hm) as (r & Hr & Hir).
    eapply DA; [|done|done]. destruct Hm as (s & e & Hs & _). apply lookup_lt_Some in Hs.
    rewrite <- L in Hs. cbn [length] in Hs. apply Nat.succ_lt_mono in Hs. exact Hs.
Qed.

(** Every cell of every worker after a successful call: in the cell's owner the requested mixture in
    the requested amount; where nothing is requested what was there before; and nothing else changes,
    except that worker 0 gives up what it held of other workers' cells. *)
Theorem init_mixes t g bm ss es ic1 ic2 fr ws msgs ws' :
  init_module t g bm (zip ss es) ic1 ic2 fr ws = Ret (IRM_OK, msgs, ws') ->
  valid_split (Z.of_nat (length bm)) ss es -> length ws = length ss ->
  length ws' = length ws /\
  forall n w w', ws !! n = Some w -> ws' !! n = Some w' ->
  (forall i k, owns ss es n i ->
     exists j n1 n2 f1 por sat rv,
       bm !! Z.to_nat i = Some j /\
       asked ic1 (g_nxyz g) k j n1 /\ asked ic2 (g_nxyz g) k j n2 /\ asked fr (g_nxyz g) k j f1 /\
       g_por g !! j = Some por /\ g_sat g !! j = Some sat /\ g_rv g !! j = Some rv /\
       ((n1 < 0)%Z -> (forall w0, ws !! 0%nat = Some w0 -> n <> 0%nat -> w0 k !! i = None) ->
          w' k !! i = w k !! i) /\
       ((0 <= n1)%Z -> exists a1 e, t k !! n1 = Some a1 /\ w' k !! i = Some e /\
          ((n2 < 0)%Z -> compatible k a1 a1 ->
             blend1 k (share k (g_units g k) f1 por sat rv a1) a1 e) /\
          ((0 <= n2)%Z -> forall a2, t k !! n2 = Some a2 -> compatible k a1 a2 ->
             blend2 k (share k (g_units g k) f1 por sat rv a1) a1
                      (share k (g_units g k) (1 - f1) por sat rv a2) a2 e))) /\
  (forall i k, ~ owns ss es n i -> n <> 0%nat -> w' k !! i = w k !! i) /\
  (forall i k, n = 0%nat -> ~ (0 <= i < Z.of_nat (length bm))%Z -> w' k !! i = w k !! i) /\
  (forall i k, n = 0%nat -> (0 <= i < Z.of_nat (length bm))%Z -> ~ owns ss es n i -> w' k !! i = None).
Proof.
  intros H V L. destruct (init_core _ _ _ _ _ _ _ _ _ _ _ H V L) as [L' C]. split; [done|].
  intros n w w' Hw Hw'. destruct (C n w w' Hw Hw') as (C1 & C2). split; [|done].
  intros i k Ho. destruct (C1 i k Ho) as (j & n1 & n2 & f1 & por & sat & rv & A1 & A2 & A3 & A4 & A5 & A6 & A7 & A8 & A9).
  exists j, n1, n2, f1, por, sat, rv. do 8 (split; [done|]).
  intros Hn1. destruct (A9 Hn1) as (a1 & e & Ht & He & Hb). exists a1, e. split; [done|]. split; [done|]. split.
  - intros Hn2 Hc. by eapply build_one.
  - intros Hn2 a2 Ha2 Hc. by eapply build_two.
Qed.
Print Assumptions init_mixes.

(** The water: a cell's solution has the volume of its water, or the first fraction of it when there is
    no second solution. *)
Theorem init_water t g bm ss es ic1 ic2 fr ws msgs ws' n w' i j n1 n2 f1 por sat rv a1 :
  init_module t g bm (zip ss es) ic1 ic2 fr ws = Ret (IRM_OK, msgs, ws') ->
  valid_split (Z.of_nat (length bm)) ss es -> length ws = length ss ->
  owns ss es n i -> ws' !! n = Some w' -> bm !! Z.to_nat i = Some j ->
  asked ic1 (g_nxyz g) SlSol j n1 -> asked ic2 (g_nxyz g) SlSol j n2 -> asked fr (g_nxyz g) SlSol j f1 ->
  g_por g !! j = Some por -> g_sat g !! j = Some sat -> g_rv g !! j = Some rv ->
  (0 <= n1)%Z -> t SlSol !! n1 = Some a1 -> s_vol a1 <> 0 ->
  exists e : sol, w' SlSol !! i = Some e /\
    ((n2 < 0)%Z -> s_vol e = f1 * (por * sat * rv)) /\
    ((0 <= n2)%Z -> forall a2 : sol, t SlSol !! n2 = Some a2 -> s_vol a2 <> 0 ->
       s_vol e = por * sat * rv /\
       (forall q, q ∈ intensive -> 0 <= f1 -> f1 <= 1 -> 0 < por * sat * rv -> 0 < s_vol a1 -> 0 < s_vol a2 ->
          0 < s_mw a1 -> 0 < s_mw a2 ->
          let m1 := f1 / s_vol a1 * s_mw a1 in
          let m2 := (1 - f1) / s_vol a2 * s_mw a2 in
          0 < m1 + m2 /\ q e = (m1 * q a1 + m2 * q a2) / (m1 + m2))).
Proof.
  intros H V L Ho Hw' Hj Q1 Q2 Q3 P1 P2 P3 Hn1 Ha1 V1.
  destruct (init_core _ _ _ _ _ _ _ _ _ _ _ H V L) as [L' C].
  assert (Hw : is_Some (ws !! n)). { apply lookup_lt_is_Some. rewrite <- L'. exact (lookup_lt_Some _ _ _ Hw'). }
  destruct Hw as [w Hw]. destruct (C n w w' Hw Hw') as (C1 & _).
  destruct (C1 i SlSol Ho) as (j' & n1' & n2' & f1' & por' & sat' & rv' & A1 & A2 & A3 & A4 & A5 & A6 & A7 & _ & A9).
  unfold asked in *. rewrite A1 in Hj. injection Hj as <-.
  rewrite A2 in Q1. injection Q1 as <-. rewrite A3 in Q2. injection Q2 as <-. rewrite A4 in Q3. injection Q3 as <-.
  rewrite A5 in P1. injection P1 as <-. rewrite A6 in P2. injection P2 as <-. rewrite A7 in P3. injection P3 as <-.
  destruct (A9 Hn1) as (a & e & Ht & He & Hb). pose proof (eq_trans (eq_sym Ha1) Ht) as Et. injection Et as <-.
  pose proof measure_vol as Hvol.
  exists e. split; [done|]. split.
  - intros Hn2. rewrite (build_one _ _ _ _ _ _ _ _ _ _ _ Hb Hn2 Ha1 I s_vol Hvol). cbn [share]. unfold water. field. done.
  - intros Hn2 a2 Ha2 V2. split.
    + rewrite (build_two _ _ _ _ _ _ _ _ _ _ _ _ Hb Hn2 Ha1 Ha2 I s_vol Hvol). cbn [share]. unfold water. field. done.
    + intros q Hq F0 F1 HW Hv1 Hv2 Hm1 Hm2. cbv zeta. cbn [build] in Hb. injection Hb as <-.
      set (m1 := f1' / s_vol a1 * s_mw a1). set (m2 := (1 - f1') / s_vol a2 * s_mw a2).
      destruct (build_sol_average (t SlSol) _ _ _ _ _ _ _ _ q Hq Ha1 Ha2 Hn2 F0 F1 HW Hv1 Hv2 Hm1 Hm2) as [B1 B2].
      pose proof (build_two t g por' sat' rv' f1' n1' n2' SlSol _ a1 a2 eq_refl Hn2 Ha1 Ha2 I s_mw) as B3.
      cbn [share build] in B3. specialize (B3 measure_mw). rewrite B3 in B1, B2.
      set (W := water por' sat' rv') in *.
      assert (E1 : f1' * W / s_vol a1 * s_mw a1 + (1 - f1') * W / s_vol a2 * s_mw a2 = W * (m1 + m2)).
      { unfold m1, m2. field. done. }
      rewrite E1 in B1, B2. assert (HW' : W <> 0) by by apply Qclt_ne.
      assert (Hm : m1 + m2 <> 0). { intros E. rewrite E in B1. apply (Qclt_ne _ _ B1). ring. }
      split.
      * apply Qcle_ne_lt; [|done]. apply (Qcmult_le_l_inv W); [done|]. rewrite Qcmult_0_r. by apply Qclt_le_weak.
      * set (x := q _) in *. assert (E2 : W * ((m1 + m2) * x) = W * (m1 * q a1 + m2 * q a2)).
        { rewrite Qcmult_assoc, B2. unfold m1, m2. field. done. }
        assert (E3 : (m1 + m2) * x = m1 * q a1 + m2 * q a2).
        { transitivity (W * ((m1 + m2) * x) / W); [field; done|]. rewrite E2. field. done. }
        rewrite <- E3. field. done.
Qed.
Print Assumptions init_water.

(** ** C23 *)

(** Nothing that a cell asks for is undefined, as the code sees it. *)
Lemma not_missing t nxyz ic1 ic2 j k n1 n2 : asked ic1 nxyz k j n1 -> asked ic2 nxyz k j n2 ->
  (forall m, ~ missing t nxyz ic1 ic2 j k m) <-> known t k n1 /\ known t (lookup_second k) n2.
Proof.
  unfold asked. intros A1 A2. unfold known. split.
  - intros H. split.
    + destruct (Z_lt_dec n1 0) as [?|?]; [by left|right]. destruct (t k !! n1) eqn:E; [by eexists|].
      exfalso. apply (H n1). split; [lia|]. left. by split.
    + destruct (Z_lt_dec n2 0) as [?|?]; [by left|right]. destruct (t (lookup_second k) !! n2) eqn:E; [by eexists|].
      exfalso. apply (H n2). split; [lia|]. right. by split.
  - intros [H1 H2] m [Hm [[B C]|[B C]]]; unfold asked in B.
    + rewrite A1 in B. injection B as <-. destruct H1 as [?|[x Hx]]; [lia|]. by rewrite C in Hx.
    + rewrite A2 in B. injection B as <-. destruct H2 as [?|[x Hx]]; [lia|]. by rewrite C in Hx.
Qed.

(** With arrays of full size, the call succeeds exactly when every chemistry cell has a nonnegative
    porosity and volume and asks only for what is defined; otherwise it fails, naming what is missing,
    and the other workers keep what they had.  [Hkin]: no second KINETICS number is given. *)
Theorem init_reports t g bm ss es ic1 ic2 fr ws :
  full_arrays g bm ic1 ic2 fr -> valid_split (Z.of_nat (length bm)) ss es -> length ws = length ss ->
  (forall j n, j ∈ bm -> asked ic2 (g_nxyz g) SlKin j n -> (n < 0)%Z) ->
  exists r msgs ws', init_module t g bm (zip ss es) ic1 ic2 fr ws = Ret (r, msgs, ws') /\
    (r = IRM_OK \/ r = IRM_FAIL) /\
    (r = IRM_OK <-> forall j, j ∈ bm ->
       (forall por, g_por g !! j = Some por -> 0 <= por) /\ (forall rv, g_rv g !! j = Some rv -> 0 <= rv) /\
       forall k n, asked ic1 (g_nxyz g) k j n \/ asked ic2 (g_nxyz g) k j n -> known t k n) /\
    (forall k n, (k, n) ∈ msgs -> (0 <= n)%Z /\ t k !! n = None /\ exists j, j ∈ bm /\
       (asked ic1 (g_nxyz g) k j n \/ asked ic2 (g_nxyz g) k j n)) /\
    (forall j k n, j ∈ bm -> (forall por, g_por g !! j = Some por -> 0 <= por) ->
       (forall rv, g_rv g !! j = Some rv -> 0 <= rv) ->
       asked ic1 (g_nxyz g) k j n \/ asked ic2 (g_nxyz g) k j n -> (0 <= n)%Z -> t k !! n = None ->
       (k, n) ∈ msgs) /\
    (r <> IRM_OK -> tail ws' = tail ws).
Proof.
  intros F V L Hkin.
  assert (Hin : forall j, j ∈ bm <-> exists i, (i, j) ∈ zip (seqZ 0 (Z.of_nat (length bm))) bm).
  { intros j. rewrite elem_of_list_lookup. split.
    - intros [n Hn]. exists (Z.of_nat n). apply numbered_elem. split; [lia|]. by rewrite Nat2Z.id.
    - intros [i Hi]. apply numbered_elem in Hi as [_ Hi]. by eexists. }
  assert (Hmiss : forall j k n, j ∈ bm ->
     missing t (g_nxyz g) ic1 ic2 j k n <->
     (0 <= n)%Z /\ t k !! n = None /\ (asked ic1 (g_nxyz g) k j n \/ asked ic2 (g_nxyz g) k j n)).
  { intros j k n Hj. unfold missing. destruct (decide (k = SlKin)) as [->|Hk].
    - cbn [lookup_second]. split; [|naive_solver lia].
      intros [? [[? ?]|[A ?]]]; [naive_solver|]. specialize (Hkin j n Hj A). lia.
    - replace (lookup_second k) with k by (by destruct k). naive_solver. }
  assert (Hacc : forall j, j ∈ bm -> acceptable t g ic1 ic2 j <->
      (forall por, g_por g !! j = Some por -> 0 <= por) /\ (forall rv, g_rv g !! j = Some rv -> 0 <= rv) /\
       forall k n, asked ic1 (g_nxyz g) k j n \/ asked ic2 (g_nxyz g) k j n -> known t k n).
  { intros j Hj. unfold acceptable. split; intros (A & B & C); (split; [done|split; [done|]]).
    - intros k n Ha. unfold known. destruct (Z_lt_dec n 0); [by left|right].
      destruct (t k !! n) eqn:E; [by eexists|]. exfalso. apply (C k n). apply Hmiss; [done|]. split; [lia|done].
    - intros k n Hm. apply Hmiss in Hm as (P & Q & R); [|done]. destruct (C k n R) as [?|[x Hx]]; [lia|].
      by rewrite Q in Hx. }
  destruct ws as [|w0 ws0].
  { cbn in L. destruct (vs_nonempty_list _ _ _ V). by destruct ss. }
  assert (Fb : Forall (fun q : Z * nat => (q.2 < g_nxyz g)%nat) (zip (seqZ 0 (Z.of_nat (length bm))) bm)).
  { apply Forall_forall. intros [i j] Hi. cbn. pose proof F as (_ & _ & _ & _ & _ & _ & _ & Fb).
    rewrite Forall_forall in Fb. apply Fb. apply Hin. by exists i. }
  destruct (init_cells_total t g ic1 ic2 fr bm _ true [] w0 F Fb) as [[[ok msgs] w1] Ei].
  assert (Hnd : NoDup (map fst (zip (seqZ 0 (Z.of_nat (length bm))) bm))).
  { rewrite numbered_fst. apply NoDup_seqZ. }
  destruct (init_cells_spec _ _ _ _ _ _ _ _ _ _ _ _ Hnd Ei) as (A & _ & M1 & M2 & _ & _).
  assert (Hok : ok = true <-> forall j, j ∈ bm -> acceptable t g ic1 ic2 j).
  { rewrite A. split; [|naive_solver]. intros [_ H] j [i Hi]%Hin. by eapply H. }
  assert (HM1 : forall k n, (k, n) ∈ msgs -> (0 <= n)%Z /\ t k !! n = None /\ exists j, j ∈ bm /\
       (asked ic1 (g_nxyz g) k j n \/ asked ic2 (g_nxyz g) k j n)).
  { intros k n Hq. destruct (M1 _ Hq) as [Hq'%elem_of_nil|(i & j & Hi & Hm)]; [done|].
    assert (Hj : j ∈ bm) by (apply Hin; by exists i). cbn in Hm. apply Hmiss in Hm as (P & Q & R); [|done].
    split; [done|]. split; [done|]. by exists j. }
  assert (HM2 : forall j k n, j ∈ bm -> (forall por, g_por g !! j = Some por -> 0 <= por) ->
       (forall rv, g_rv g !! j = Some rv -> 0 <= rv) ->
       asked ic1 (g_nxyz g) k j n \/ asked ic2 (g_nxyz g) k j n -> (0 <= n)%Z -> t k !! n = None ->
       (k, n) ∈ msgs).
  { intros j k n Hj Hp Hr Ha Hn Ht. pose proof F as (_ & _ & _ & P1 & _ & P3 & _ & Fj).
    rewrite Forall_forall in Fj. specialize (Fj j Hj).
    destruct (lookup_lt_is_Some_2 (g_por g) j) as [por Ep]; [lia|].
    destruct (lookup_lt_is_Some_2 (g_rv g) j) as [rv Er]; [lia|].
    apply Hin in Hj as [i Hi]. apply (M2 i j por rv); auto. apply Hmiss; [|done]. apply Hin. by exists i. }
  pose proof F as (L1 & L2 & L3 & _). unfold init_module.
  rewrite L1, L2, L3, Nat.eqb_refl. cbn [negb]. rewrite !andb_false_r.
  rewrite Ei. cbn [obind]. destruct ok.
  - destruct (split_ranges _ _ _ V) as [R1 R2].
    assert (Ls : length ss = length es) by apply V.
    assert (Lr : (length ws0 <= length (tail (zip ss es)))%nat).
    { cbn in L. destruct ss as [|s ss]; [done|]. destruct es as [|e es]; [done|]. cbn [zip zip_with tail].
      rewrite zip_with_length. cbn [length] in L, Ls. lia. }
    destruct (distribute_spec ws0 (tail (zip ss es)) w1 Lr R1 R2) as (w0' & ws1 & Ed & _).
    rewrite Ed. cbn [obind fst snd]. exists IRM_OK, msgs, (w0' :: ws1).
    split; [done|]. split; [by left|]. split; [|done].
    split; [|done]. intros _ j Hj. apply Hacc; [done|]. by apply Hok.
  - exists IRM_FAIL, msgs, (w1 :: ws0). split; [done|]. split; [by right|]. split; [|done].
    split; [done|]. intros H. exfalso. assert (false = true); [|done]. apply Hok. intros j Hj. by apply Hacc, H.
Qed.
Print Assumptions init_reports.

(** A vector of the wrong size is refused and changes nothing. *)
Theorem init_wrong_size t g bm rs ic1 ic2 fr ws :
  length ic1 <> (7 * g_nxyz g)%nat \/ (ic2 <> [] /\ length ic2 <> (7 * g_nxyz g)%nat) \/
  (fr <> [] /\ length fr <> (7 * g_nxyz g)%nat) ->
  init_module t g bm rs ic1 ic2 fr ws = Ret (IRM_FAIL, [], ws).
Proof.
  unfold init_module. intros H.
  destruct (Nat.eqb_spec (length ic1) (7 * g_nxyz g)) as [E1|]; cbn [negb]; [|done].
  destruct (Nat.eqb_spec (length ic2) (7 * g_nxyz g)) as [E2|N2]; cbn [negb].
  - rewrite andb_false_r. destruct H as [?|[[_ ?]|[Hf ?]]]; [done|done|].
    destruct (Nat.eqb_spec (length fr) (7 * g_nxyz g)); [done|]. destruct fr; [done|]. done.
  - destruct ic2 as [|x ic2]; [|done]. cbn [length Nat.ltb Nat.leb andb].
    destruct H as [?|[[? _]|[Hf ?]]]; [done|done|].
    destruct (Nat.eqb_spec (length fr) (7 * g_nxyz g)); [done|]. destruct fr; [done|]. done.
Qed.
Print Assumptions init_wrong_size.

(** An empty second vector passes the size check, but is read. *)
Theorem init_empty_vector_refuted t g bm rs ic1 ic2 fr ws j por rv :
  length ic1 = (7 * g_nxyz g)%nat -> (ic2 = [] \/ length ic2 = (7 * g_nxyz g)%nat) -> (fr = [] \/ length fr = (7 * g_nxyz g)%nat) ->
  ws <> [] -> bm !! 0%nat = Some j -> (j < g_nxyz g)%nat ->
  g_por g !! j = Some por -> g_rv g !! j = Some rv -> is_Some (g_sat g !! j) -> 0 <= por -> 0 <= rv ->
  ic2 = [] \/ (fr = [] /\ (forall n, asked ic1 (g_nxyz g) SlSol j n -> known t SlSol n) /\
                          (forall n, asked ic2 (g_nxyz g) SlSol j n -> known t SlSol n)) ->
  init_module t g bm rs ic1 ic2 fr ws = UB.
Proof.
  intros L1 L2 L3 Hw Hj Hjn Ep Er [sat Es] Pp Pr He. unfold init_module. rewrite L1, Nat.eqb_refl. cbn [negb].
  assert (C2 : ((0 <? length ic2)%nat && negb (length ic2 =? 7 * g_nxyz g)%nat)%bool = false).
  { destruct L2 as [->| ->]; [done|]. by rewrite Nat.eqb_refl, andb_false_r. }
  assert (C3 : ((0 <? length fr)%nat && negb (length fr =? 7 * g_nxyz g)%nat)%bool = false).
  { destruct L3 as [->| ->]; [done|]. by rewrite Nat.eqb_refl, andb_false_r. }
  rewrite C2, C3. destruct ws as [|w0 ws]; [done|]. destruct bm as [|j' bm]; [done|]. cbn in Hj. injection Hj as ->.
  rewrite seqZ_cons by (cbn; lia). cbn [zip zip_with init_cells]. unfold rd at 1 2. rewrite Ep, Er. cbn [obind].
  apply Qcle_not_lt in Pp, Pr.
  destruct (Qc_ltb por 0) eqn:Q1; [by apply Qc_ltb_true in Q1|].
  destruct (Qc_ltb rv 0) eqn:Q2; [by apply Qc_ltb_true in Q2|].
  assert (Hc : cell_init t g ic1 ic2 fr j 0 w0 = UB).
  { unfold cell_init, rd at 1 2 3. rewrite Ep, Er, Es. cbn [obind].
    change slots with (SlSol :: tail slots). cbn [blocks].
    assert (Hb : block t g por sat rv ic1 ic2 fr j 0 SlSol (Prog true [] no_tables) = UB).
    { unfold block. destruct (rd_in ic1 (row SlSol * g_nxyz g + j)) as [n1 E1]; [cbn [row]; lia|].
      rewrite E1. cbn [obind]. destruct He as [->|(-> & K1 & K2)].
      - unfold rd at 1. by rewrite lookup_nil.
      - destruct ic2 as [|x ic2]; [unfold rd at 1; by rewrite lookup_nil|].
        destruct L2 as [?|L2]; [done|].
        destruct (rd_in (x :: ic2) (row SlSol * g_nxyz g + j)) as [n2 E2]; [rewrite L2; cbn [row]; lia|].
        rewrite E2. cbn [obind]. apply rd_ret in E1, E2.
        assert (B : forall n, known t SlSol n -> ((0 <=? n)%Z && negb (defined t SlSol n))%bool = false).
        { intros n Hn. apply not_true_is_false. rewrite bad_iff. intros [? Hx]. destruct Hn as [?|[y Hy]]; [lia|].
          by rewrite Hx in Hy. }
        cbn [lookup_second]. rewrite (B n1 (K1 n1 E1)), (B n2 (K2 n2 E2)). cbn [negb andb p_ok].
        unfold rd at 1. by rewrite lookup_nil. }
    by rewrite Hb. }
  by rewrite Hc.
Qed.
Print Assumptions init_empty_vector_refuted.

(** ** Cases *)

Definition calcite (m : Qc) : kin := Kin [KCo "Calcite" m m 0] 0.
(** Solutions 1 and 2, KINETICS 5 and 6, SOLID_SOLUTIONS 9. *)
Definition defs : tables := fun k =>
  match k return gmap Z (ty k) with
  | SlSol => <[1%Z := sea]> (<[2%Z := fresh_water]> ∅)
  | SlKin => <[5%Z := calcite (q 4 1)]> (<[6%Z := calcite (q 8 1)]> ∅)
  | SlSS => {[ 9%Z := [] ]}
  | _ => ∅
  end.
(** Two cells. *)
Definition small : grid := Grid 2 [q 1 4; q 1 2] [1; q 1 2] [1; q 4 1] (fun _ => 2%nat).
(** A table of two columns with the given rows for solutions and kinetics. *)
Definition tab (s1 s2 k1 k2 : Z) : list Z := [s1; s2] ++ replicate 10 (-1)%Z ++ [k1; k2].
Definition half_all : list Qc := replicate 14 (q 1 2).

Definition kin_of (w : tables) (i : Z) : option Q :=
  match w SlKin !! i with Some k => Some (this (kin_amount (QKinetic "Calcite") k)) | None => None end.
Definition vol_at (w : tables) (i : Z) : option Q :=
  match w SlSol !! i with Some s => Some (this (s_vol s)) | None => None end.
Definition seen (r : outcome (irm_result * list (slot * Z) * list tables)) (i : Z) :=
  match r with
  | Ret (c, m, ws) => Some (c, m, map (fun w => (vol_at w i, kin_of w i)) ws)
  | _ => None
  end.

(** Cell 0 half sea, half fresh; cell 1 sea only, with kinetics 5: half of 4 moles per litre of rock,
    2 litres of rock. *)
Example init_two_workers :
  let r := init_module defs small [0; 1]%nat [(0, 0)%Z; (1, 1)%Z] (tab 1 1 (-1) 5) (tab 2 (-1) (-1) (-1))
             half_all [no_tables; no_tables] in
  seen r 0 = Some (IRM_OK, [], [(Some (1 # 4)%Q, None); (None, None)]) /\
  seen r 1 = Some (IRM_OK, [], [(None, None); (Some (1 # 2)%Q, Some (4 # 1)%Q)]).
Proof. split; vm_compute; reflexivity. Qed.
Example init_two_workers_split : valid_split 2 [0; 1]%Z [0; 1]%Z.
Proof.
  split; try done.
  - intros [|[|n]] s e; cbn; try done; intros [= <-] [= <-]; lia.
  - intros [|[|n]] s e; cbn; try done; intros [= <-] [= <-]; lia.
Qed.
Example init_two_workers_full : full_arrays small [0; 1]%nat (tab 1 1 (-1) 5) (tab 2 (-1) (-1) (-1)) half_all.
Proof. unfold full_arrays. repeat split; try (cbn; lia). repeat constructor; cbn; lia. Qed.

(** The second KINETICS number is looked up among the solid solutions: one that is defined is refused,
    one that is not is accepted and left out. *)
Theorem init_second_kinetics_refuted :
  let r n := init_module defs small [0]%nat [(0, 0)%Z] (tab 1 1 5 (-1)) (tab (-1) (-1) n (-1)) half_all [no_tables] in
  (defined defs SlKin 6 = true /\
   seen (r 6%Z) 0 = Some (IRM_FAIL, [(SlKin, 6%Z)], [(None, None)])) /\
  (defined defs SlKin 9 = false /\
   seen (r 9%Z) 0 = Some (IRM_OK, [], [(Some (1 # 8)%Q, Some (3 # 2)%Q)])).
Proof. split; split; vm_compute; reflexivity. Qed.
Print Assumptions init_second_kinetics_refuted.

(** A call that fails leaves new contents in worker 0, also of cells that belong to another worker. *)
Theorem init_failure_leaves_contents_refuted :
  let r := init_module defs small [0; 1]%nat [(0, 0)%Z; (1, 1)%Z] (tab 1 1 77 5) (tab (-1) (-1) (-1) (-1))
             half_all [no_tables; no_tables] in
  seen r 0 = Some (IRM_FAIL, [(SlKin, 77%Z)], [(None, None); (None, None)]) /\
  seen r 1 = Some (IRM_FAIL, [(SlKin, 77%Z)], [(Some (1 # 2)%Q, Some (4 # 1)%Q); (None, None)]).
Proof. split; vm_compute; reflexivity. Qed.
Print Assumptions init_failure_leaves_contents_refuted.

(** With fewer chemistry cells than workers the last ranges are empty (SetEndCells), and the DELETE
    without numbers empties worker 0: the call succeeds, and nothing is left of the cell. *)
Theorem init_idle_worker_refuted :
  let r := init_module defs small [0]%nat [(0, 0)%Z; (1, 0)%Z] (tab 1 1 5 5) (tab (-1) (-1) (-1) (-1))
             half_all [no_tables; no_tables] in
  seen r 0 = Some (IRM_OK, [], [(None, None); (None, None)]).
Proof. vm_compute. reflexivity. Qed.
Print Assumptions init_idle_worker_refuted.
(** In general: a worker with an empty range makes worker 0 lose everything. *)
Theorem init_idle_worker_loses t g bm rs ic1 ic2 fr w0 ws msgs w0' ws' :
  init_module t g bm rs ic1 ic2 fr (w0 :: ws) = Ret (IRM_OK, msgs, w0' :: ws') ->
  (exists n r, (n < length ws)%nat /\ rs !! S n = Some r /\ (r.2 < r.1)%Z) ->
  forall k i, w0' k !! i = None.
Proof.
  intros H Hr. destruct (init_module_ok _ _ _ _ _ _ _ _ _ _ H) as (v0 & vs0 & w1 & v0' & vs1 & Ew & Ew' & _ & Ed).
  injection Ew as <- <-. injection Ew' as <- <-.
  assert (Hempty : forall vs rs w w' vs', (forall k i, w k !! i = None) -> distribute w vs rs = Ret (w', vs') ->
             forall k i, w' k !! i = None).
  { clear. induction vs as [|v vs IH]; intros rs w w' vs' Hw H; cbn [distribute] in H; [by injection H as <- <-|].
    destruct rs as [|r rs]; [done|]. destruct (distribute _ vs rs) as [[x y]| |] eqn:E; [|done|done].
    cbn [obind fst snd] in H. injection H as <- <-. apply (IH rs _ _ _) with (2 := E). intros k i.
    destruct (range r) as [|c cs] eqn:Er; [done|]. rewrite delete_cells_lookup by done.
    case_decide; [done|apply Hw]. }
  destruct Hr as (n & r & Hn & Hr & He).
  assert (Hr' : tail rs !! n = Some r) by (by rewrite lookup_tail). clear Hr H.
  revert n w1 ws ws' Hn Hr' Ed. induction (tail rs) as [|r0 rs0 IH]; intros n w1 ws ws' Hn Hr Ed; [done|].
  destruct ws as [|v ws]; [cbn in Hn; lia|]. cbn [distribute] in Ed.
  destruct (distribute _ ws rs0) as [[x y]| |] eqn:E; [|done|done]. cbn [obind fst snd] in Ed. injection Ed as <- <-.
  destruct n as [|n].
  - cbn in Hr. injection Hr as ->. apply (Hempty _ _ _ _ _) with (2 := E). intros k i.
    assert (range r = []) as ->; [|done]. unfold range. apply seqZ_nil. lia.
  - cbn in Hr, Hn. apply (IH n _ ws _) with (3 := E); [lia|done].
Qed.
Print Assumptions init_idle_worker_loses.

(** InitialSolutions2Module and its six companions touch only their own kind of reactant: what is
    taken is entry [j] of the vector, undiluted, and the other kinds stay. *)
Lemma row_asked k (nxyz : nat) (v : list Z) k' j n : (nxyz <= length v)%nat -> (j < nxyz)%nat ->
  asked (replicate (row k * nxyz) (-1)%Z ++ take nxyz v ++ replicate ((6 - row k) * nxyz) (-1)%Z) nxyz k' j n ->
  (k' = k /\ v !! j = Some n) \/ (k' <> k /\ n = (-1)%Z).
Proof.
  intros Hv Hj H. unfold asked in H.
  assert (Hrow : forall a b, row a = row b -> a = b) by (intros [] []; done).
  destruct (decide (row k' < row k)%nat) as [Hl|Hl].
  { right. split; [intros ->; lia|]. rewrite lookup_app_l in H by (rewrite replicate_length; nia).
    by apply lookup_replicate in H as [-> _]. }
  rewrite lookup_app_r in H by (rewrite replicate_length; nia). rewrite replicate_length in H.
  replace (row k' * nxyz + j - row k * nxyz)%nat with ((row k' - row k) * nxyz + j)%nat in H by nia.
  destruct (decide (row k' = row k)) as [He|He].
  - left. split; [by apply Hrow|]. rewrite He, Nat.sub_diag in H. cbn [Nat.mul Nat.add] in H.
    rewrite lookup_app_l in H by (rewrite take_length; lia). by rewrite lookup_take in H.
  - right. split; [by intros ->|]. rewrite lookup_app_r in H by (rewrite take_length; nia).
    by apply lookup_replicate in H as [-> _].
Qed.
Theorem init_row_only k t g bm ss es v ws msgs ws' :
  init_module_row k t g bm (zip ss es) v ws = Ret (IRM_OK, msgs, ws') ->
  valid_split (Z.of_nat (length bm)) ss es -> length ws = length ss ->
  Forall (fun j => (j < g_nxyz g)%nat) bm ->
  forall n w w', ws !! n = Some w -> ws' !! n = Some w' ->
  forall i, owns ss es n i ->
  (forall k' w0, ws !! 0%nat = Some w0 -> n <> 0%nat -> w0 k' !! i = None) ->
  (forall k', k' <> k -> w' k' !! i = w k' !! i) /\
  exists j m por sat rv, bm !! Z.to_nat i = Some j /\ v !! j = Some m /\
    g_por g !! j = Some por /\ g_sat g !! j = Some sat /\ g_rv g !! j = Some rv /\
    ((m < 0)%Z -> w' k !! i = w k !! i) /\
    ((0 <= m)%Z -> exists a e, t k !! m = Some a /\ w' k !! i = Some e /\
       (compatible k a a -> blend1 k (share k (g_units g k) 1 por sat rv a) a e)).
Proof.
  intros H V L Hb n w w' Hw Hw' i Ho Hstray. unfold init_module_row in H.
  destruct (Nat.ltb_spec (length v) (g_nxyz g)) as [?|Lv]; [done|]. unfold init_module1 in H.
  destruct (init_mixes _ _ _ _ _ _ _ _ _ _ _ H V L) as [_ C]. destruct (C n w w' Hw Hw') as [C1 _].
  assert (Hj : forall j, bm !! Z.to_nat i = Some j -> (j < g_nxyz g)%nat).
  { intros j Hj. rewrite Forall_forall in Hb. apply Hb. by eapply elem_of_list_lookup_2. }
  split.
  - intros k' Hk. destruct (C1 i k' Ho) as (j & n1 & n2 & f1 & por & sat & rv & A1 & A2 & _ & _ & _ & _ & _ & A8 & _).
    destruct (row_asked k _ v k' j n1 Lv (Hj _ A1) A2) as [[? _]|[_ ->]]; [done|].
    apply A8; [lia|]. intros w0 Hw0 Hn. by apply Hstray.
  - destruct (C1 i k Ho) as (j & n1 & n2 & f1 & por & sat & rv & A1 & A2 & A3 & A4 & A5 & A6 & A7 & A8 & A9).
    exists j, n1, por, sat, rv. split; [done|].
    destruct (row_asked k _ v k j n1 Lv (Hj _ A1) A2) as [[_ Hv]|[? _]]; [|done].
    split; [done|]. do 3 (split; [done|]). split.
    + intros Hm. apply A8; [done|]. intros w0 Hw0 Hn. by apply Hstray.
    + intros Hm. destruct (A9 Hm) as (a1 & e & T1 & T2 & T3 & _). exists a1, e. split; [done|]. split; [done|].
      unfold asked in A3, A4. apply lookup_replicate in A3 as [-> _]. apply lookup_replicate in A4 as [-> _].
      intros Hc. by apply T3.
Qed.
Print Assumptions init_row_only.
Example init_row_example :
  seen (init_module_row SlKin defs small [0; 1]%nat [(0, 0)%Z; (1, 1)%Z] [5; 6]%Z [no_tables; no_tables]) 1
  = Some (IRM_OK, [], [(None, None); (None, Some (16 # 1)%Q)]).
Proof. vm_compute. reflexivity. Qed.
