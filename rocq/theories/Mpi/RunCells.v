(** RunCells in the MPI build: the processes serve the call. *)
From Coq Require Import ZArith Ascii.
From stdpp Require Import prelude gmap relations.
From Verif.Base Require Import Result.
From Verif.Partition Require Import Spec EndCellsProofs.
From Verif.Mapping Require Import Model Spec.
From Verif.Mpi Require Import Comm Methods Model Spec CommProofs Cells Parts Agree Calls Fetch Changes.
Local Open Scope Z_scope.

Lemma split_starts count ss ss' es : valid_split count ss es -> valid_split count ss' es -> ss = ss'.
Proof.
  intros V V'. apply list_eq. intros n. destruct n as [|n]; [by rewrite (vs_first _ _ _ V), (vs_first _ _ _ V')|].
  destruct (decide (S n < length es)%nat) as [Hn|Hn].
  - destruct (lookup_lt_is_Some_2 es n) as [e He]; [lia|].
    destruct (lookup_lt_is_Some_2 ss (S n)) as [b Hb]; [rewrite (vs_len _ _ _ V); lia|].
    destruct (lookup_lt_is_Some_2 ss' (S n)) as [b' Hb']; [rewrite (vs_len _ _ _ V'); lia|].
    rewrite Hb, Hb'. f_equal. rewrite (vs_contig _ _ _ V _ _ _ He Hb), (vs_contig _ _ _ V' _ _ _ He Hb'). done.
  - rewrite !lookup_ge_None_2; [done|rewrite (vs_len _ _ _ V'); lia|rewrite (vs_len _ _ _ V); lia].
Qed.

Section run_cells.
  Context {D X : Type} (L : local D X) {R : Type}.
  Notation ps := (ps D X).
  Notation step := (@step D R (nat * ps) (loop L)).
  Notation serves := (@serves D X L R).
  Notation empties n := (replicate n (@nil (msg D))).
  Notation worker := (prog D (nat * ps * bool)).
  Implicit Types s w : ps.
  Implicit Types ws : list ps.

  (** The root does [P] and the workers do [W]; they go on with these states and this result. *)
  Definition phase (P : (ps -> bool -> prog D R) -> prog D R) (W : nat -> ps -> (ps -> bool -> worker) -> worker)
      ws (b : bool) s' ws' : Prop :=
    length ws' = length ws /\
    forall K Ks, rtc step (Config (P K) (imap (fun i w => W i w (Ks i)) ws) (empties (length ws)))
                          (Config (K s' b) (imap (fun i w => Ks i w b) ws') (empties (length ws))).

  Lemma flag_all k s ws w f : in_step k s ws -> w ∈ ws -> flag w f = flag s f.
  Proof. intros I Hw. unfold flag. by rewrite (is_val _ _ _ I w Hw). Qed.
  Lemma cells_from_own k s ws n : in_step k s ws -> (n < S (length ws))%nat -> cells_from (p_map s) n = own_cells (p_map s) n.
  Proof.
    intros I Hn. destruct (gm_range (is_map _ _ _ I) n Hn) as (b & e & Hb & He & _ & _ & Hr & Hs).
    unfold cells_from, own_cells. by rewrite Hb, He, Hr, Hs.
  Qed.

  (** ** The cells are there *)
  Definition uncheck w : ps := with_check false w.
  Lemma uncheck_in_step k s ws s' : in_step k s ws -> frame (uncheck s) s' -> in_step k s' (imap (fun _ => uncheck) ws).
  Proof.
    intros I F. apply (in_step_root _ (uncheck s)); [|done].
    apply (in_step_shared k k s); [done|done| |done|done|done|exact (ids_kept k s ws I)].
    intros i w Hw. apply elem_of_list_lookup_2 in Hw. cbn. split_and!; [done|by apply (is_prefix _ _ _ I)|by apply (is_saved _ _ _ I)|done].
  Qed.
  Lemma go_checked k s ws : in_step k s ws ->
    exists b s' , phase (checked L true 0 s) (fun i w => checked L false (S i) w) ws b s' (imap (fun _ => uncheck) ws) /\
      frame (uncheck s) s' /\ p_x s' = p_x s /\
      (b = true -> s' = uncheck s /\ (p_check s = true -> forall n w, (s :: ws) !! n = Some w -> ~ lacks L (p_map s) n w)) /\
      (b = false -> p_check s = true /\ exists n w, (s :: ws) !! n = Some w /\ lacks L (p_map s) n w).
  Proof.
    intros I. unfold checked, phase.
    assert (Hck : forall n w, (s :: ws) !! n = Some w -> p_check w = p_check s).
    { intros [|n] w Hw; [by injection Hw as <-|]. apply (is_check _ _ _ I). by eapply elem_of_list_lookup_2. }
    destruct (p_check s) eqn:Ec.
    - set (code := fun (i : nat) w => check_code L (S i) w).
      set (wsu := imap (fun _ => uncheck) ws).
      assert (length wsu = length ws) as Hlu by apply imap_length.
      assert (in_step k (uncheck s) wsu) as Iu by (apply (uncheck_in_step k s); [done|apply frame_refl]).
      set (b := bool_decide (check_code L O s = 0 /\ Forall (fun c => c = 0) (imap code ws))).
      assert (Hcode : forall n w, (s :: ws) !! n = Some w -> check_code L n w = 0 <-> ~ lacks L (p_map s) n w).
      { intros n w Hw. unfold check_code, lacks. rewrite (own_all k s ws n w I Hw).
        rewrite (cells_from_own k s ws n I) by (apply lookup_lt_Some in Hw; exact Hw).
        destruct (decide _) as [He|He]; rewrite Exists_exists in He; naive_solver. }
      exists b, (if b then uncheck s else with_err (p_err (uncheck s) ++ reports (check_code L O s) [] (imap (fun i w => (code i w, [])) ws)) (uncheck s)).
      split; [split; [apply imap_length|]|split; [|split; [|split]]].
      + intros K Ks.
        pose proof (go_handle L (R := R) (uncheck s) wsu (check_code L O s) [] (fun i w => code i w) (fun _ _ => [])
          (in_step_agrees _ _ _ Iu) (fun s1 b => if b : bool then K s1 true else Barrier (K s1 false))
          (fun i s1 b => if b : bool then Ks i s1 true else Barrier (Ks i s1 false))) as H. cbv zeta in H.
        unfold wsu in H. rewrite !imap_imap in H. change (imap (fun i x => code i (uncheck x)) ws) with (imap code ws) in H.
        change (imap (fun i x => (code i (uncheck x), [])) ws) with (imap (fun i w => (code i w, @nil ascii)) ws) in H.
        rewrite imap_length in H. fold b in H.
        eapply rtc_transitive.
        { eapply go_ext; [|exact H]. intros i w Hw. rewrite (Hck (S i) w Hw). reflexivity. }
        unfold wsu. rewrite imap_imap. destruct b; [reflexivity|].
        apply (go_barrier (loop L) _ ws _ (fun i w => Ks i (uncheck w) false)). done.
      + destruct b; done.
      + destruct b; done.
      + destruct b eqn:Eb; [|done]. intros _. split; [done|]. intros _ n w Hw. apply (Hcode n w Hw). unfold b in Eb. apply bool_decide_eq_true in Eb as [H0 HF].
        destruct n; [by injection Hw as <-|]. rewrite Forall_forall in HF. apply (HF (code n w)). apply elem_of_list_lookup. exists n.
        change (ws !! n = Some w) in Hw. by rewrite list_lookup_imap, Hw.
      + destruct b eqn:Eb; [done|]. intros _. split; [done|]. unfold b in Eb. apply bool_decide_eq_false in Eb.
        destruct (decide (check_code L O s = 0)) as [E0|E0].
        * destruct (decide (Forall (fun c => c = 0) (imap code ws))) as [E2|E2]; [by destruct Eb|].
          apply not_Forall_Exists in E2; [|apply _]. apply Exists_exists in E2 as (c & Hc & Hne).
          apply elem_of_imap in Hc as (j & w & Hj & ->). exists (S j), w. split; [done|].
          change (~ check_code L (S j) w = 0) in Hne. rewrite (Hcode (S j) w Hj) in Hne.
          destruct (decide (Exists (fun i => l_missing L (p_x w) i = true) (cells_from (p_map s) (S j)))) as [He|He].
          -- apply Exists_exists in He as (x & ? & ?). by exists x.
          -- destruct Hne. intros (x & ? & ?). apply He, Exists_exists. by exists x.
        * exists O, s. split; [done|]. rewrite (Hcode O s eq_refl) in E0.
          destruct (decide (Exists (fun i => l_missing L (p_x s) i = true) (cells_from (p_map s) O))) as [He|He].
          -- apply Exists_exists in He as (x & ? & ?). by exists x.
          -- destruct E0. intros (x & ? & ?). apply He, Exists_exists. by exists x.
    - assert (forall w, p_check w = false -> uncheck w = w) as Hu by (intros w Hw; destruct w; cbn in *; by subst).
      exists true, s. split; [split; [apply imap_length|]|split; [|split; [|split]]]; try done.
      + intros K Ks. rewrite imap_imap. eapply go_ext; [|reflexivity].
        intros i w Hw. pose proof (Hck (S i) w Hw) as Hc. rewrite Hc. by rewrite (Hu w Hc).
      + rewrite (Hu s Ec). split; done.
  Qed.

  (** ** Printing *)
  Lemma go_print k s ws o0 (out : nat -> ps -> list ascii) : in_step k s ws ->
    forall (K : ps -> prog D R) Ks,
      rtc step (Config (print_part true o0 s K) (imap (fun i w => print_part false (out i w) w (Ks i)) ws) (empties (length ws)))
               (Config (K s) (imap Ks ws) (empties (length ws))).
  Proof.
    intros I K Ks. unfold print_part.
    assert (forall i w, ws !! i = Some w -> printed w = printed s) as Hp.
    { intros i w Hw. unfold printed. rewrite (is_val _ _ _ I w); [done|]. by eapply elem_of_list_lookup_2. }
    destruct (printed s).
    - eapply (go_exchange (loop L) _ _ ws (fun i w => text_msgs true (out i w))).
      + intros i w Hw. rewrite (Hp i w Hw). reflexivity.
      + rewrite (agrees_root s ws) by (by eapply in_step_agrees). cbn [minus]. rewrite Nat.sub_0_r.
        pose proof (takes_texts (replicate (length ws) true) (imap out ws) 0 [] (fun _ => K s)) as H.
        rewrite imap_length, replicate_length in H. specialize (H eq_refl). cbn [replicate app plus] in H.
        assert (zip_with (fun (f : bool) t => if f then [Ints [Z.of_nat (length t)]; Text t] else []) (replicate (length ws) true) (imap out ws)
                = imap (fun i w => text_msgs (D := D) true (out i w)) ws) as E.
        { apply list_eq. intros i. rewrite lookup_zip_with, !list_lookup_imap.
          destruct (ws !! i) as [w|] eqn:Ew.
          - assert (replicate (length ws) true !! i = Some true) as ->; [|done].
            apply lookup_replicate. split; [done|]. by eapply lookup_lt_Some.
          - cbn. by destruct (replicate (length ws) true !! i). }
        rewrite E in H. exact H.
    - eapply go_ext; [|reflexivity]. intros i w Hw. by rewrite (Hp i w Hw).
  Qed.

  (** ** After the run *)
  Lemma ran_in_step k s ws x0 (x : nat -> ps -> X) : in_step k s ws -> (forall v, v ∈ four -> v ∈ k_vecs k) ->
    in_step k (ran true x0 s) (imap (fun i w => ran false (x i w) w) ws).
  Proof.
    intros I Hk. unfold ran. destruct (flag s PartitionUZ) eqn:Ef.
    - assert (forall w', w' ∈ imap (fun i w => if flag w PartitionUZ then with_work (upd (p_work (with_x (x i w) w)) OldSaturation (p_work (with_x (x i w) w) Saturation)) (with_x (x i w) w) else with_x (x i w) w) ws ->
                exists i w, w ∈ ws /\ w' = with_x (x i w) (put_work OldSaturation (p_work w Saturation) w)) as Hin.
      { intros w' H. apply elem_of_imap in H as (i & w & Hi & ->). apply elem_of_list_lookup_2 in Hi. exists i, w. split; [done|].
        rewrite (flag_all k s ws w PartitionUZ I Hi), Ef. done. }
      match goal with |- in_step _ ?s1 (imap ?g ws) =>
        assert (forall n w', (s1 :: imap g ws) !! n = Some w' ->
                  exists w, (s :: ws) !! n = Some w /\ (forall v, p_work w' v = upd (p_work w) OldSaturation (p_work w Saturation) v) /\ p_mask_work w' = p_mask_work w) as Hall end.
      { intros n w' H. apply (lookup_all s) in H as (w & Hw & ->). exists w. split; [done|].
        destruct n; [by injection Hw as <-|]. change (ws !! n = Some w) in Hw. apply elem_of_list_lookup_2 in Hw.
        rewrite (flag_all k s ws w PartitionUZ I Hw), Ef. done. }
      destruct I. constructor; cbn -[upd].
      + done.
      + by rewrite imap_length.
      + intros w' H. destruct (Hin w' H) as (i & w & Hw & ->). exact (is_ranges w Hw).
      + intros w' H. destruct (Hin w' H) as (i & w & Hw & ->). exact (is_val w Hw).
      + done.
      + intros w' H. destruct (Hin w' H) as (i & w & Hw & ->). exact (is_prefix w Hw).
      + intros w' H. destruct (Hin w' H) as (i & w & Hw & ->). exact (is_saved w Hw).
      + intros w' H. destruct (Hin w' H) as (i & w & Hw & ->). exact (is_check w Hw).
      + intros v Hv. unfold upd. destruct (decide _); [apply is_full; set_solver|by apply is_full].
      + intros _. unfold upd. rewrite decide_True by done. apply is_full. set_solver.
      + done.
      + intros v n w' Hv H. destruct (Hall n w' H) as (w & Hw & E & _). rewrite E. unfold upd.
        destruct (decide (v = OldSaturation)) as [->|]; [|by apply is_vecs]. apply is_vecs; [|done]. apply Hk. unfold four. set_solver.
      + intros Hm n w' H. destruct (Hall n w' H) as (w & Hw & _ & ->). by apply is_mask.
      + intros i Hi. rewrite imap_length. by apply is_ids.
    - apply (in_step_frame k s); [done|done|]. intros i w Hw. apply elem_of_list_lookup_2 in Hw.
      rewrite (flag_all k s ws w PartitionUZ I Hw), Ef. done.
  Qed.
  Lemma ran_x b x w : p_x (ran b x w) = x.
  Proof. unfold ran. destruct (flag _ _); [|done]. by destruct b. Qed.
  Lemma ran_map b x w : p_map (ran b x w) = p_map w.
  Proof. unfold ran. destruct (flag _ _); [|done]. by destruct b. Qed.
  Lemma ran_check b x w : p_check (ran b x w) = p_check w.
  Proof. unfold ran. destruct (flag _ _); [|done]. by destruct b. Qed.

  (** ** The vectors are distributed again *)
  Lemma go_scatter_again k s ws : in_step k s ws ->
    exists s' ws', length ws' = length ws /\
      (forall K Ks, rtc step (Config (scatter_again true 0 s K) (imap (fun i w => scatter_again false (S i) w (Ks i)) ws) (empties (length ws)))
                             (Config (K s') (imap Ks ws') (empties (length ws)))) /\
      in_step (Known four true (k_ids k) (k_nx k)) s' ws' /\ same_instances (s :: ws) (s' :: ws') /\ p_map s' = p_map s.
  Proof.
    intros I.
    destruct (go_scatter_mask L (R := R) s ws (in_step_agrees _ _ _ I) (is_full_mask _ _ _ I)) as (l0 & Hl0 & Hgo0).
    pose proof (in_step_put_mask k s ws l0 true I Hl0) as I0.
    set (s0 := put_mask (l0 O) s) in *. set (ws0 := imap (fun i w => put_mask (l0 (S i)) w) ws) in *.
    assert (Hone : forall v k1 s1 ws1, in_step k1 s1 ws1 -> nxyz (p_map s1) <= Z.of_nat (length (p_root s1 v)) ->
              exists s2 ws2, length ws2 = length ws1 /\
                (forall K Ks, rtc step (Config (scatter_vec true 0 v s1 K) (imap (fun i w => scatter_vec false (S i) v w (Ks i)) ws1) (empties (length ws1)))
                                       (Config (K s2) (imap Ks ws2) (empties (length ws1)))) /\
                in_step (Known (v :: k_vecs k1) (k_mask k1) (k_ids k1) (k_nx k1)) s2 ws2 /\ same_instances (s1 :: ws1) (s2 :: ws2) /\ p_map s2 = p_map s1).
    { intros v k1 s1 ws1 I1 Hf. destruct (go_scatter_vec L (R := R) v s1 ws1 (in_step_agrees _ _ _ I1) Hf) as (ls & Hls & Hgo).
      eexists _, _. split; [|split; [exact Hgo|split; [exact (in_step_put k1 s1 ws1 v ls true I1 Hls)|split; [|done]]]].
      - apply imap_length.
      - by apply pairwise_imap. }
    assert (Hsame : forall a b c : list ps, same_instances a b -> same_instances b c -> same_instances a c).
    { intros a b c [H1 H2] [H3 H4]. split; [congruence|]. intros n w w' Hw Hw'.
      destruct (lookup_lt_is_Some_2 b n) as [w1 Hw1]; [apply lookup_lt_Some in Hw; lia|].
      rewrite (H4 n w1 w' Hw1 Hw'). by apply (H2 n). }
    assert (same_instances (s :: ws) (s0 :: ws0)) as S0 by (by apply pairwise_imap).
    assert (length ws0 = length ws) as Hl by apply imap_length.
    destruct (Hone Density _ s0 ws0 I0) as (s1 & ws1 & Hl1 & Hgo1 & I1 & S1 & M1); [apply (is_full _ _ _ I0); set_solver|].
    destruct (Hone Porosity _ s1 ws1 I1) as (s2 & ws2 & Hl2 & Hgo2 & I2 & S2 & M2); [apply (is_full _ _ _ I1); set_solver|].
    destruct (Hone RV _ s2 ws2 I2) as (s3 & ws3 & Hl3 & Hgo3 & I3 & S3 & M3); [apply (is_full _ _ _ I2); set_solver|].
    destruct (Hone Saturation _ s3 ws3 I3) as (s4 & ws4 & Hl4 & Hgo4 & I4 & S4 & M4); [apply (is_full _ _ _ I3); set_solver|].
    rewrite Hl in Hl1, Hgo1. rewrite Hl1 in Hl2, Hgo2. rewrite Hl2 in Hl3, Hgo3. rewrite Hl3 in Hl4, Hgo4.
    assert (Hbeg : forall K Ks, rtc step (Config (scatter_again true 0 s K) (imap (fun i w => scatter_again false (S i) w (Ks i)) ws) (empties (length ws)))
        (Config (if flag s4 PartitionUZ then scatter_vec true 0 OldSaturation s4 K else K s4)
           (imap (fun i w => if flag w PartitionUZ then scatter_vec false (S i) OldSaturation w (Ks i) else Ks i w) ws4) (empties (length ws)))).
    { intros K Ks. unfold scatter_again.
      eapply rtc_transitive; [apply (Hgo0 _ (fun i s1 => scatter_vec false (S i) Density s1 _))|].
      eapply rtc_transitive; [apply (Hgo1 _ (fun i s1 => scatter_vec false (S i) Porosity s1 _))|].
      eapply rtc_transitive; [apply (Hgo2 _ (fun i s1 => scatter_vec false (S i) RV s1 _))|].
      eapply rtc_transitive; [apply (Hgo3 _ (fun i s1 => scatter_vec false (S i) Saturation s1 _))|].
      eapply rtc_transitive; [apply (Hgo4 _ (fun i s1 => if flag s1 PartitionUZ then scatter_vec false (S i) OldSaturation s1 (Ks i) else Ks i s1))|].
      reflexivity. }
    destruct (flag s4 PartitionUZ) eqn:Ef.
    - destruct (Hone OldSaturation _ s4 ws4 I4) as (s5 & ws5 & Hl5 & Hgo5 & I5 & S5 & M5); [by apply (is_full_old _ _ _ I4)|].
      rewrite Hl4 in Hl5, Hgo5.
      exists s5, ws5. split; [done|]. split; [|split; [|split]].
      + intros K Ks. eapply rtc_transitive; [apply Hbeg|]. eapply rtc_transitive; [|apply (Hgo5 K Ks)].
        eapply go_ext; [|reflexivity]. intros i w Hw. rewrite (flag_all _ s4 ws4 w PartitionUZ I4) by (by eapply elem_of_list_lookup_2). by rewrite Ef.
      + apply (in_step_known _ _ _ _ I5); cbn [k_vecs k_mask k_ids]; [|done|done|done]. intros v Hv. unfold four in Hv. set_solver.
      + exact (Hsame _ _ _ S0 (Hsame _ _ _ S1 (Hsame _ _ _ S2 (Hsame _ _ _ S3 (Hsame _ _ _ S4 S5))))).
      + rewrite M5, M4, M3, M2, M1. done.
    - exists s4, ws4. split; [done|]. split; [|split; [|split]].
      + intros K Ks. eapply rtc_transitive; [apply Hbeg|].
        eapply go_ext; [|reflexivity]. intros i w Hw. rewrite (flag_all _ s4 ws4 w PartitionUZ I4) by (by eapply elem_of_list_lookup_2). by rewrite Ef.
      + apply (in_step_known _ _ _ _ I4); cbn [k_vecs k_mask k_ids]; [|done|done|done]. intros v Hv. unfold four in Hv. set_solver.
      + exact (Hsame _ _ _ S0 (Hsame _ _ _ S1 (Hsame _ _ _ S2 (Hsame _ _ _ S3 S4)))).
      + rewrite M4, M3, M2, M1. done.
  Qed.

  (** ** Rebalancing *)
  Definition after_run (k : known) : known := Known (filter (fun v => v ∈ four) (k_vecs k)) (k_mask k) (k_ids k) (k_nx k).
  Lemma after_run_in_step k s ws : in_step k s ws -> in_step (after_run k) s ws.
  Proof. intros I. apply (in_step_known k); [done| |done|done|done]. intros v Hv. by apply elem_of_list_filter in Hv as [_ ?]. Qed.
  Definition moved s ws s' ws' : Prop :=
    pairwise (fun _ w w' => p_x w' = l_move L (start_cell (p_map s')) (end_cell (p_map s')) (p_x w)) (s :: ws) (s' :: ws').
  Definition stayed s ws s' ws' : Prop :=
    same_instances (s :: ws) (s' :: ws') /\ start_cell (p_map s') = start_cell (p_map s) /\ end_cell (p_map s') = end_cell (p_map s).
  Lemma go_rebalanced k s ws ss es : in_step k s ws ->
    valid_split (count_chemistry (p_map s)) ss es -> length ss = S (length ws) ->
    exists s' ws', phase (rebalanced L true 0 ss es s) (fun i w => rebalanced L false (S i) ss es w) ws true s' ws' /\
      in_step (after_run k) s' ws' /\ moved s ws s' ws'.
  Proof.
    intros I V Hl. unfold rebalanced, phase.
    assert (Hrg : forall i w, ws !! i = Some w -> same_map (p_map s) (p_map w)) by (intros n w Hw; apply (is_ranges _ _ _ I); by eapply elem_of_list_lookup_2).
    pose proof (is_map _ _ _ I) as G.
    set (ws1 := imap (fun _ => new_ranges L ss es) ws). set (s1 := new_ranges L ss es s).
    assert (in_step (Known [] false (k_ids k) (k_nx k)) s1 ws1) as I1.
    { apply (in_step_remap k s); [done|done| |done| |done].
      - destruct G. constructor; cbn; done.
      - intros i w Hw. split; [done|]. destruct (Hrg i w Hw) as (? & ? & ? & ? & _). done. }
    assert (Hlm : pairwise (fun _ w w' => p_x w' = l_move L ss es (p_x w)) (s :: ws) (s1 :: ws1)) by (by apply pairwise_imap).
    destruct (decide (end_cell (p_map s) = es)) as [He|He].
    - exists s1, ws1. split; [split|split].
      + apply imap_length.
      + intros K Ks. unfold ws1. rewrite imap_imap. eapply go_ext; [|reflexivity].
        intros i w Hw. cbv beta. destruct (Hrg i w Hw) as (_ & _ & _ & _ & _ & Hew). rewrite decide_True by congruence. done.
      + apply after_run_in_step.
        assert (ss = start_cell (p_map s)) as Hss.
        { eapply split_starts; [exact V|]. rewrite <- He. apply (gm_split _ _ G). }
        apply (in_step_frame k s); [done| |].
        * constructor; cbn; try done. rewrite Hss, <- He. by destruct (p_map s).
        * intros i w Hw. destruct (Hrg i w Hw) as (_ & _ & _ & _ & Hsw & Hew).
          constructor; cbn; try done. rewrite Hss, <- He, <- Hsw, <- Hew. by destruct (p_map w).
      + exact Hlm.
    - destruct (go_scatter_again _ _ _ I1) as (s2 & ws2 & Hl2 & Hgo & I2 & S2 & M2).
      assert (length ws1 = length ws) as Hl1 by apply imap_length. rewrite Hl1 in Hl2, Hgo.
      exists s2, ws2. split; [split|split].
      + done.
      + intros K Ks. eapply rtc_transitive; [|apply (Hgo (fun s3 => K s3 true) (fun i s3 => Ks i s3 true))].
        unfold ws1. rewrite imap_imap. eapply go_ext; [|reflexivity].
        intros i w Hw. cbv beta. destruct (Hrg i w Hw) as (_ & _ & _ & _ & _ & Hew). rewrite decide_False by congruence. done.
      + apply (in_step_known _ _ _ _ I2); cbn; [|done|done|done]. intros v Hv. by apply elem_of_list_filter in Hv as [? _].
      + unfold moved. rewrite M2. destruct S2 as [S2l S2], Hlm as [Hml Hlm]. split; [congruence|].
        intros n w w' Hw Hw'. destruct (lookup_lt_is_Some_2 (s1 :: ws1) n) as [w1 Hw1]; [apply lookup_lt_Some in Hw; lia|].
        rewrite (S2 n w1 w' Hw1 Hw'). by apply (Hlm n).
  Qed.
  Lemma go_rebalance k s ws : lawful L -> in_step k s ws ->
    exists b s' ws', phase (rebalance_part L true 0 s) (fun i w => rebalance_part L false (S i) w) ws b s' ws' /\
      in_step (after_run k) s' ws' /\ (stayed s ws s' ws' \/ b = true /\ moved s ws s' ws').
  Proof.
    intros Lw I. pose proof (is_map _ _ _ I) as G.
    assert (A : agrees s ws) by (by eapply in_step_agrees).
    assert (Hsame : forall w, w ∈ ws -> rebalances L w = rebalances L s).
    { intros w Hw. apply elem_of_list_lookup in Hw as [i Hi]. unfold rebalances. rewrite (agrees_tasks s ws i w A Hi), (agrees_root s ws A).
      apply elem_of_list_lookup_2 in Hi. destruct (is_ranges _ _ _ I w Hi) as (_ & _ & -> & _). by rewrite (is_val _ _ _ I w Hi). }
    assert (Hstay : stayed s ws s ws) by (split; [by apply pairwise_same|done]).
    unfold rebalance_part.
    destruct (rebalances L s) eqn:Er.
    2:{ exists true, s, ws. split; [split; [done|]|split; [by apply after_run_in_step|by left]].
        intros K Ks. eapply go_ext; [|reflexivity]. intros i w Hw. cbv beta. rewrite (Hsame w) by (by eapply elem_of_list_lookup_2). done. }
    set (bc := flag s RebalanceByCell).
    assert (exists sizes, (if bc then mapM (range_len (p_map s)) (seq 0 (tasks s)) else Some (replicate (tasks s) 1%nat)) = Some sizes /\
              forall i w, (s :: ws) !! i = Some w -> sizes !! i = Some (length (l_times L bc (own_cells (p_map s) i) (p_x w))) ) as (sizes & Es & Hs).
    { rewrite (agrees_root s ws A). destruct bc.
      - rewrite (gm_lens G). eexists. split; [reflexivity|]. intros i w Hw. change (map ?f ?l) with (f <$> l).
        rewrite list_lookup_fmap, lookup_seq_lt by (apply lookup_lt_Some in Hw; exact Hw). cbn. by rewrite (lw_times _ Lw).
      - eexists. split; [reflexivity|]. intros i w Hw. rewrite (lw_times _ Lw). apply lookup_replicate.
        split; [done|]. apply lookup_lt_Some in Hw. exact Hw. }
    assert (Hsl : length sizes = S (length ws)).
    { rewrite (agrees_root s ws A) in Es. destruct bc.
      - rewrite (gm_lens G) in Es. injection Es as <-. cbn. by rewrite map_length, seq_length.
      - injection Es as <-. cbn. by rewrite replicate_length. }
    rewrite Es.
    set (mine := fun i w => @Nums D (l_times L bc (own_cells (p_map s) (S i)) (p_x w))).
    set (vs := Nums (l_times L bc (own_cells (p_map s) 0) (p_x s)) :: imap mine ws).
    assert (Hshape : map shape vs = map (fun n => (TNum, n)) sizes).
    { apply list_eq. intros i. change (map ?f ?l) with (f <$> l). rewrite !list_lookup_fmap. destruct i as [|i].
      - rewrite (Hs O s eq_refl). done.
      - change (vs !! S i) with (imap mine ws !! i). rewrite list_lookup_imap. destruct (ws !! i) as [w|] eqn:Ew.
        + rewrite (Hs (S i) w Ew). done.
        + cbn. apply lookup_ge_None in Ew. rewrite (lookup_ge_None_2 sizes) by lia. done. }
    destruct (l_plan L s vs) as [[rc ss] es] eqn:Ep.
    assert (Hgo1 : forall (K : ps -> bool -> prog D R) (Ks : nat -> ps -> bool -> worker), rtc step
      (Config (Gather (Nums (l_times L bc (own_cells (p_map s) 0) (p_x s))) sizes (fun vs =>
              let '(rc, ss, es) := l_plan L s vs in
              Bcast (Ints [rc]) (fun _ =>
                if decide (rc = 0) then
                  Bcast (Ints ss) (fun _ => Bcast (Ints es) (fun _ => rebalanced L true 0 ss es s K))
                else K s false)))
         (imap (fun i w => if rebalances L w then
              Gather (Nums (l_times L (flag w RebalanceByCell) (own_cells (p_map w) (S i)) (p_x w))) [] (fun _ => Bcast (Ints [0]) (fun rc =>
                if decide (int_of rc = 0) then
                  Bcast (Ints (replicate (tasks w) 0)) (fun ss =>
                    Bcast (Ints (replicate (tasks w) 0)) (fun es => rebalanced L false (S i) (ints_of ss) (ints_of es) w (Ks i)))
                else Ks i w false)) else Ks i w true) ws) (empties (length ws)))
      (Config (if decide (rc = 0) then
                  Bcast (Ints ss) (fun _ => Bcast (Ints es) (fun _ => rebalanced L true 0 ss es s K))
                else K s false)
         (imap (fun i w => if decide (rc = 0) then
                  Bcast (Ints (replicate (tasks w) 0)) (fun ss =>
                    Bcast (Ints (replicate (tasks w) 0)) (fun es => rebalanced L false (S i) (ints_of ss) (ints_of es) w (Ks i)))
                else Ks i w false) ws) (empties (length ws)))).
    { intros K Ks. eapply rtc_transitive.
      { apply (go_gather (loop L) _ _ _ ws mine _ (fun i w => Bcast (Ints [0]) (fun rc =>
                if decide (int_of rc = 0) then
                  Bcast (Ints (replicate (tasks w) 0)) (fun ss =>
                    Bcast (Ints (replicate (tasks w) 0)) (fun es => rebalanced L false (S i) (ints_of ss) (ints_of es) w (Ks i)))
                else Ks i w false))).
        - intros i w Hw. pose proof (elem_of_list_lookup_2 _ _ _ Hw) as Hin. rewrite (Hsame w Hin). rewrite (flag_all _ s ws w RebalanceByCell I Hin), (agrees_own s ws i w _ A Hw).
          eexists _, _. split; [reflexivity|]. done.
        - exact Hshape. }
      cbv beta. fold vs. rewrite Ep. apply (go_bcast (loop L)).
      intros i w Hw. eexists _, _. split; [reflexivity|]. done. }
    destruct (decide (rc = 0)) as [Hrc|Hrc].
    - subst rc. destruct (lw_plan _ Lw s vs ss es _ G Ep) as [V Hl].
      destruct (go_rebalanced k s ws ss es I V Hl) as (s' & ws' & [Hl' Hgo] & I' & Hmv).
      exists true, s', ws'. split; [split; [done|]|split; [done|by right]].
      intros K Ks. eapply rtc_transitive; [apply Hgo1|].
      assert (Hln : length es = S (length ws)) by (rewrite <- (vs_len _ _ _ V); done).
      eapply rtc_transitive.
      { apply (go_bcast (loop L) _ _ ws _ (fun i w => Bcast (Ints (replicate (tasks w) 0)) (fun es => rebalanced L false (S i) ss (ints_of es) w (Ks i)))).
        intros i w Hw. eexists _, _. split; [reflexivity|]. split; [|done]. cbn. by rewrite replicate_length, (agrees_tasks s ws i w A Hw), Hl. }
      cbv beta. eapply rtc_transitive.
      { apply (go_bcast (loop L) _ _ ws _ (fun i w => rebalanced L false (S i) ss es w (Ks i))).
        intros i w Hw. eexists _, _. split; [reflexivity|]. split; [|done]. cbn. by rewrite replicate_length, (agrees_tasks s ws i w A Hw), Hln. }
      cbv beta. apply Hgo.
    - exists false, s, ws. split; [split; [done|]|split; [by apply after_run_in_step|by left]].
      intros K Ks. apply Hgo1.
  Qed.

  (** ** The run *)
  Definition x_after w : X := (l_run_cells L w).1.1.1.
  Definition code_of w : Z := (l_run_cells L w).1.1.2.
  Lemma cells_part_eq {T} root n s (k : ps -> bool -> prog D T) :
    cells_part L root n s k =
    print_part root (l_run_cells L s).2 (ran root (x_after s) s) (fun s1 =>
    handle root (code_of s) (l_run_cells L s).1.2 s1 (fun s2 b =>
      if b : bool then
        rebalance_part L root n s2 (fun s3 b2 => if b2 : bool then Barrier (k s3 true) else k s3 false)
      else k s2 false)).
  Proof. unfold cells_part, x_after, code_of. by destruct (l_run_cells L s) as [[[x c] e] o]. Qed.
  Lemma go_cells k s ws : lawful L -> in_step k s ws -> (forall v, v ∈ four -> v ∈ k_vecs k) ->
    exists b s' ws', phase (cells_part L true 0 s) (fun i w => cells_part L false (S i) w) ws b s' ws' /\
      in_step (after_run k) s' ws' /\
      ((exists w, w ∈ s :: ws /\ code_of w <> 0) /\ b = false /\
         pairwise (fun _ w w' => p_x w' = x_after w) (s :: ws) (s' :: ws') \/
       (forall w, w ∈ s :: ws -> code_of w = 0) /\
       (pairwise (fun _ w w' => p_x w' = x_after w) (s :: ws) (s' :: ws') /\
          start_cell (p_map s') = start_cell (p_map s) /\ end_cell (p_map s') = end_cell (p_map s) \/
        b = true /\
        pairwise (fun _ w w' => p_x w' = l_move L (start_cell (p_map s')) (end_cell (p_map s')) (x_after w)) (s :: ws) (s' :: ws'))).
  Proof.
    intros Lw I Hk.
    set (sr := ran true (x_after s) s). set (wsr := imap (fun i w => ran false (x_after w) w) ws).
    assert (in_step k sr wsr) as Ir by (by apply (ran_in_step k s ws (x_after s) (fun _ => x_after))).
    assert (length wsr = length ws) as Hlr by apply imap_length.
    set (code := fun (_ : nat) w => code_of w).
    set (ok := bool_decide (code_of s = 0 /\ Forall (fun c => c = 0) (imap code ws))).
    set (s1 := if ok then sr else with_err (p_err sr ++ reports (code_of s) (l_run_cells L s).1.2 (imap (fun _ w => (code_of w, (l_run_cells L w).1.2)) ws)) sr).
    assert (Hgo : forall K Ks, rtc step (Config (cells_part L true 0 s K) (imap (fun i w => cells_part L false (S i) w (Ks i)) ws) (empties (length ws)))
      (Config (if ok then rebalance_part L true 0 s1 (fun s3 b2 => if b2 : bool then Barrier (K s3 true) else K s3 false) else K s1 false)
         (imap (fun i w => if ok then rebalance_part L false (S i) w (fun s3 b2 => if b2 : bool then Barrier (Ks i s3 true) else Ks i s3 false) else Ks i w false) wsr)
         (empties (length ws)))).
    { intros K Ks. rewrite cells_part_eq.
      eapply go_ext; [intros i w Hw; rewrite cells_part_eq; reflexivity|].
      set (out := fun i (_ : ps) => default [] ((fun w => (l_run_cells L w).2) <$> ws !! i)).
      set (err := fun i (_ : ps) => default [] ((fun w => (l_run_cells L w).1.2) <$> ws !! i)).
      set (cd := fun i (_ : ps) => default 0 (code_of <$> ws !! i)).
      set (Kh := fun (s2 : ps) (b : bool) => if b then rebalance_part L true 0 s2 (fun s3 b2 => if b2 : bool then Barrier (K s3 true) else K s3 false) else K s2 false).
      set (Kw := fun i (s2 : ps) (b : bool) => if b then rebalance_part L false (S i) s2 (fun s3 b2 => if b2 : bool then Barrier (Ks i s3 true) else Ks i s3 false) else Ks i s2 false).
      eapply rtc_transitive.
      { pose proof (go_print k sr wsr (l_run_cells L s).2 out Ir
          (fun s1 => handle true (code_of s) (l_run_cells L s).1.2 s1 Kh) (fun i s1 => handle false (cd i s1) (err i s1) s1 (Kw i))) as H.
        rewrite Hlr in H. unfold wsr at 1 in H. rewrite imap_imap in H.
        eapply go_ext; [|exact H]. intros i w Hw. cbv beta. unfold out, err, cd. rewrite Hw. reflexivity. }
      pose proof (go_handle L (R := R) sr wsr (code_of s) (l_run_cells L s).1.2 cd err (in_step_agrees _ _ _ Ir) Kh Kw) as H. cbv zeta in H.
      assert (imap cd wsr = imap code ws) as E1.
      { apply list_eq. intros j. unfold wsr. rewrite imap_imap, !list_lookup_imap. unfold cd. by destruct (ws !! j). }
      assert (imap (fun i w => (cd i w, err i w)) wsr = imap (fun _ w => (code_of w, (l_run_cells L w).1.2)) ws) as E2.
      { apply list_eq. intros j. unfold wsr. rewrite imap_imap, !list_lookup_imap. unfold cd, err. by destruct (ws !! j). }
      rewrite E1, E2, Hlr in H. exact H. }
    assert (Hx : pairwise (fun _ w w' => p_x w' = x_after w) (s :: ws) (s1 :: wsr)).
    { apply pairwise_imap; [|intros; apply ran_x]. unfold s1. destruct ok; cbn; apply ran_x. }
    assert (Hm : p_map s1 = p_map s) by (unfold s1, sr; destruct ok; cbn; apply ran_map).
    assert (I1 : in_step k s1 wsr) by (apply (in_step_root k sr); [done|unfold s1; by destruct ok]).
    destruct ok eqn:Eok.
    - apply bool_decide_eq_true in Eok as [E0 EF].
      assert (Hz : forall w, w ∈ s :: ws -> code_of w = 0).
      { intros w Hw. apply elem_of_cons in Hw as [-> | Hw]; [done|]. apply elem_of_list_lookup in Hw as [j Hj].
        rewrite Forall_forall in EF. apply (EF (code j w)). apply elem_of_list_lookup. exists j. by rewrite list_lookup_imap, Hj. }
      destruct (go_rebalance k s1 wsr Lw I1) as (b & s' & ws' & [Hl' Hgo'] & I' & Hres). rewrite Hlr in Hl', Hgo'.
      exists b, s', ws'. split; [split; [done|]|split; [done|]].
      + intros K Ks. eapply rtc_transitive; [apply Hgo|].
        eapply rtc_transitive; [apply (Hgo' (fun s3 b2 => if b2 : bool then Barrier (K s3 true) else K s3 false)
          (fun i s3 b2 => if b2 : bool then Barrier (Ks i s3 true) else Ks i s3 false))|].
        destruct b; [|reflexivity]. apply (go_barrier (loop L) _ ws' _ (fun i w => Ks i w true)). done.
      + right. split; [done|].
        assert (forall P : X -> X, pairwise (fun _ w w' => p_x w' = P (p_x w)) (s1 :: wsr) (s' :: ws') ->
                  pairwise (fun _ w w' => p_x w' = P (x_after w)) (s :: ws) (s' :: ws')) as Htr.
        { intros P [Hpl HP]. destruct Hx as [Hxl Hx]. split; [congruence|]. intros n w w' Hw Hw'.
          destruct (lookup_lt_is_Some_2 (s1 :: wsr) n) as [w1 Hw1]; [apply lookup_lt_Some in Hw; lia|].
          rewrite (HP n w1 w' Hw1 Hw'). by rewrite (Hx n w w1 Hw Hw1). }
        destruct Hres as [(Hsi & Hs1 & Hs2)|[-> Hmv]].
        * left. rewrite Hs1, Hs2, Hm. split; [|done]. exact (Htr (fun x => x) Hsi).
        * right. split; [done|]. apply (Htr (l_move L (start_cell (p_map s')) (end_cell (p_map s')))). exact Hmv.
    - exists false, s1, wsr. split; [split; [done|]|split; [by apply after_run_in_step|]].
      + intros K Ks. apply Hgo.
      + left. split; [|done]. apply bool_decide_eq_false in Eok.
        destruct (decide (code_of s = 0)) as [E1|E1]; [|exists s; split; [left|done]].
        destruct (decide (Forall (fun c => c = 0) (imap code ws))) as [E2|E2]; [by destruct Eok|].
        apply not_Forall_Exists in E2; [|apply _]. apply Exists_exists in E2 as (c & Hc & Hne).
        apply elem_of_imap in Hc as (j & w & Hj & ->). exists w. split; [right; by eapply elem_of_list_lookup_2|done].
  Qed.

  (** ** The concentrations afterwards *)
  Lemma go_fetch k s ws : in_step k s ws -> (forall v, v ∈ four -> v ∈ k_vecs k) ->
    exists s' ws', length ws' = length ws /\
      (forall K : ps -> prog D R, rtc step (Config (fetch_part L s K) (imap idle ws) (empties (length ws))) (Config (K s') (imap idle ws') (empties (length ws)))) /\
      in_step k s' ws' /\ same_instances (s :: ws) (s' :: ws') /\ p_map s' = p_map s.
  Proof.
    intros I Hk.
    destruct (conc_served L (R := R) k s ws [] I Hk) as (s1 & ws1 & a1 & Hl1 & Hgo1 & I1 & [S1 _] & F1 & _).
    unfold fetch_part. destruct (flag s1 SpeciesSave) eqn:Ef.
    - destruct (species_served L (R := R) k s1 ws1 [] I1) as (s2 & ws2 & a2 & Hl2 & Hgo2 & I2 & [S2 _] & F2 & _).
      exists s2, ws2. split; [congruence|]. split; [|split; [done|split]].
      + intros K. eapply rtc_transitive; [apply (Hgo1 (fun s1 _ => if flag s1 SpeciesSave then species_call L [] s1 (fun s2 _ => K s2) else K s1))|].
        cbv beta. rewrite Ef. rewrite <- Hl1. apply (Hgo2 (fun s2 _ => K s2)).
      + destruct S1 as [S1l S1], S2 as [S2l S2]. split; [congruence|]. intros n w w' Hw Hw'.
        destruct (lookup_lt_is_Some_2 (s1 :: ws1) n) as [w1 Hw1]; [apply lookup_lt_Some in Hw; lia|].
        rewrite (S2 n w1 w' Hw1 Hw'). by apply (S1 n).
      + rewrite (f_map _ _ F2). apply (f_map _ _ F1).
    - exists s1, ws1. split; [done|]. split; [|split; [done|split; [done|apply (f_map _ _ F1)]]].
      intros K. eapply rtc_transitive; [apply (Hgo1 (fun s1 _ => if flag s1 SpeciesSave then species_call L [] s1 (fun s2 _ => K s2) else K s1))|].
      cbv beta. rewrite Ef. reflexivity.
  Qed.

  Lemma cells_served k s ws : lawful L -> in_step k s ws -> may_call L (p_map s) k (Cells (D := D)) ->
    exists s' ws' a, length ws' = length ws /\ serves (cells_call L s) ws s' ws' a /\
      in_step (remember (D := D) (p_map s) k (Cells (D := D))) s' ws' /\ call_result L (Cells (D := D)) s ws a s' ws'.
  Proof.
    intros Lw I Hk. cbn [may_call] in Hk. cbn [remember call_result]. change (in_step (Known (filter (fun v => v ∈ four) (k_vecs k)) (k_mask k) (k_ids k) (k_nx k))) with (in_step (D := D) (X := X) (after_run k)).
    set (sc := clear s). set (wsc := imap (fun _ w => clear w) ws).
    assert (in_step k sc wsc) as Ic by (apply (in_step_frame k s); [done|apply frame_clear|intros; apply frame_clear]).
    assert (length wsc = length ws) as Hlc by apply imap_length.
    assert (Hat : forall n w, (sc :: wsc) !! n = Some w -> exists w0, (s :: ws) !! n = Some w0 /\ w = clear w0).
    { intros n w Hw. apply (lookup_all s) in Hw as (w0 & Hw0 & ->). exists w0. split; [done|]. destruct n; [by injection Hw0 as <-|done]. }
    assert (Hat' : forall n w, (s :: ws) !! n = Some w -> (sc :: wsc) !! n = Some (clear w)).
    { intros [|n] w Hw; [by injection Hw as <-|]. change (ws !! n = Some w) in Hw. change (wsc !! n = Some (clear w)). unfold wsc. by rewrite list_lookup_imap, Hw. }
    assert (Hann : forall K, rtc step (Config (cells_call L s K) (imap idle ws) (empties (length ws)))
      (Config (checked L true 0 sc (fun s1 b =>
         if b : bool then
           cells_part L true 0 s1 (fun s2 b2 =>
             let r := if b2 : bool then IRM_OK else IRM_FAIL in
             fetch_part L s2 (fun s3 => K (returned L r s3) (Code r)))
         else K (returned L IRM_FAIL s1) (Code IRM_FAIL)))
         (imap (fun i w => checked L false (S i) w (fun s1 b =>
            if b : bool then
              cells_part L false (S i) s1 (fun s2 b2 => idle i (returned L (if b2 : bool then IRM_OK else IRM_FAIL) s2))
            else idle i (returned L IRM_FAIL s1))) wsc) (empties (length ws)))).
    { intros K. unfold cells_call. eapply rtc_transitive; [by apply (go_announce L RunCells RunCells)|].
      unfold wsc. rewrite imap_imap. reflexivity. }
    destruct (go_checked k sc wsc Ic) as (b & s1 & [Hl1 Hgo1] & F1 & X1 & Htrue & Hfalse). rewrite Hlc in Hl1, Hgo1.
    set (ws1 := imap (fun _ => uncheck) wsc) in *.
    assert (I1 : in_step k s1 ws1) by (by apply (uncheck_in_step k sc)).
    destruct b.
    - destruct (Htrue eq_refl) as [Es1 Hnl]. clear Htrue Hfalse.
      destruct (go_cells k s1 ws1 Lw I1 Hk) as (b & s2 & ws2 & [Hl2 Hgo2] & I2 & Hres). rewrite Hl1 in Hl2, Hgo2.
      set (r := if b then IRM_OK else IRM_FAIL).
      set (ws2r := imap (fun _ => returned L r) ws2).
      assert (I2r : in_step (after_run k) s2 ws2r).
      { apply (in_step_frame _ s2); [done|apply frame_refl|]. intros i w _. apply frame_returned, frame_refl. }
      assert (length ws2r = length ws) as Hl2r by (unfold ws2r; by rewrite imap_length).
      destruct (go_fetch (after_run k) s2 ws2r I2r) as (s3 & ws3 & Hl3 & Hgo3 & I3 & S3 & M3).
      { intros v Hv. apply elem_of_list_filter. auto. }
      rewrite Hl2r in Hl3, Hgo3.
      exists (returned L r s3), ws3, (Code r). split; [done|]. split; [|split].
      + intros K. eapply rtc_transitive; [apply Hann|]. eapply rtc_transitive.
        { apply (Hgo1 (fun s1 b => if b : bool then cells_part L true 0 s1 (fun s2 b2 =>
             let r := if b2 : bool then IRM_OK else IRM_FAIL in fetch_part L s2 (fun s3 => K (returned L r s3) (Code r)))
           else K (returned L IRM_FAIL s1) (Code IRM_FAIL))
           (fun i s1 b => if b : bool then
              cells_part L false (S i) s1 (fun s2 b2 => idle i (returned L (if b2 : bool then IRM_OK else IRM_FAIL) s2))
            else idle i (returned L IRM_FAIL s1))). }
        cbv beta iota. eapply rtc_transitive.
        { apply (Hgo2 (fun s2 b2 => let r := if b2 : bool then IRM_OK else IRM_FAIL in fetch_part L s2 (fun s3 => K (returned L r s3) (Code r)))
            (fun i s2 b2 => idle i (returned L (if b2 : bool then IRM_OK else IRM_FAIL) s2))). }
        cbv beta zeta. fold r. unfold ws2r in Hgo3. rewrite imap_imap in Hgo3.
        apply (Hgo3 (fun s3 => K (returned L r s3) (Code r))).
      + apply (in_step_root _ s3); [done|]. apply frame_returned, frame_refl.
      + right. subst s1.
        assert (Hrun : forall n w, (s :: ws) !! n = Some w -> (uncheck sc :: ws1) !! n = Some (at_run w)).
        { intros n w Hw. pose proof (Hat' n w Hw) as Hw1. destruct n; [by injection Hw as <-|]. change (wsc !! n = Some (clear w)) in Hw1.
          change (ws1 !! n = Some (at_run w)). unfold ws1. by rewrite list_lookup_imap, Hw1. }
        assert (Hrun' : forall w, w ∈ uncheck sc :: ws1 -> exists w0, w0 ∈ s :: ws /\ w = at_run w0).
        { intros w Hw. apply elem_of_list_lookup in Hw as [n Hn]. destruct (lookup_lt_is_Some_2 (s :: ws) n) as [w0 Hw0].
          { apply lookup_lt_Some in Hn. cbn in *. lia. }
          exists w0. split; [by eapply elem_of_list_lookup_2|]. rewrite (Hrun n w0 Hw0) in Hn. by injection Hn. }
        assert (Hfin : forall P : X -> X, pairwise (fun _ w w' => p_x w' = P (x_after w)) (uncheck sc :: ws1) (s2 :: ws2) ->
                  pairwise (fun _ w w' => p_x w' = P (after_cells L w)) (s :: ws) (returned L r s3 :: ws3)).
        { intros P [_ HP]. destruct S3 as [S3l S3]. split; [cbn; congruence|]. intros n w w' Hw Hw'.
          destruct (lookup_lt_is_Some_2 (s3 :: ws3) n) as [w3 Hw3]; [apply lookup_lt_Some in Hw'; exact Hw'|].
          assert (p_x w' = p_x w3) as ->.
          { destruct n; [injection Hw' as <-; injection Hw3 as <-; unfold returned; by destruct (decide _)|].
            change (ws3 !! n = Some w') in Hw'. change (ws3 !! n = Some w3) in Hw3. congruence. }
          destruct (lookup_lt_is_Some_2 (s2 :: ws2r) n) as [w2 Hw2]; [apply lookup_lt_Some in Hw; cbn in *; lia|].
          rewrite (S3 n w2 w3 Hw2 Hw3).
          destruct (lookup_lt_is_Some_2 (s2 :: ws2) n) as [w2' Hw2']; [apply lookup_lt_Some in Hw; cbn in *; lia|].
          assert (p_x w2 = p_x w2') as ->.
          { destruct n; [injection Hw2 as <-; by injection Hw2' as <-|].
            change (ws2r !! n = Some w2) in Hw2. change (ws2 !! n = Some w2') in Hw2'. unfold ws2r in Hw2. rewrite list_lookup_imap, Hw2' in Hw2.
            injection Hw2 as <-. unfold returned. by destruct (decide _). }
          exact (HP n (at_run w) w2' (Hrun n w Hw) Hw2'). }
        assert (Hmap : p_map (returned L r s3) = p_map s2) by (unfold returned; destruct (decide _); exact M3).
        split.
        { intros Hc n w Hw Hlk. exact (Hnl Hc n (clear w) (Hat' n w Hw) Hlk). }
        destruct Hres as [((w & Hw & Hne) & Hb & Hp)|[Hz Hres]].
        * left. destruct (Hrun' w Hw) as (w0 & Hw0 & ->). split; [by exists w0|]. split; [unfold r; by rewrite Hb|].
          exact (Hfin (fun x => x) Hp).
        * right. split.
          { intros w Hw Hf. apply elem_of_list_lookup in Hw as [n Hn]. apply Hf. apply Hz. eapply elem_of_list_lookup_2. by apply Hrun. }
          rewrite Hmap. destruct Hres as [(Hp & Hs1 & Hs2)|[Hb Hp]].
          -- left. split; [unfold r; destruct b; auto|]. split; [exact (Hfin (fun x => x) Hp)|]. by rewrite Hs1, Hs2.
          -- right. split; [unfold r; by rewrite Hb|]. exact (Hfin _ Hp).
    - destruct (Hfalse eq_refl) as (Hc & n & w & Hw & Hlk). clear Htrue Hfalse.
      exists (returned L IRM_FAIL s1), (imap (fun _ => returned L IRM_FAIL) ws1), (Code IRM_FAIL).
      split; [by rewrite imap_length|]. split; [|split].
      + intros K. eapply rtc_transitive; [apply Hann|]. eapply rtc_transitive.
        { apply (Hgo1 (fun s1 b => if b : bool then cells_part L true 0 s1 (fun s2 b2 =>
             let r := if b2 : bool then IRM_OK else IRM_FAIL in fetch_part L s2 (fun s3 => K (returned L r s3) (Code r)))
           else K (returned L IRM_FAIL s1) (Code IRM_FAIL))
           (fun i s1 b => if b : bool then
              cells_part L false (S i) s1 (fun s2 b2 => idle i (returned L (if b2 : bool then IRM_OK else IRM_FAIL) s2))
            else idle i (returned L IRM_FAIL s1))). }
        cbv beta iota. rewrite imap_imap. reflexivity.
      + apply after_run_in_step. apply (in_step_frame _ s1); [done|apply frame_returned, frame_refl|]. intros i w0 _. apply frame_returned, frame_refl.
      + left. split; [exact Hc|]. destruct (Hat n w Hw) as (w0 & Hw0 & ->). split; [by exists n, w0|]. split; [done|].
        unfold ws1, wsc. rewrite !imap_imap. apply pairwise_imap.
        * unfold returned. destruct (decide _); [done|]. exact X1.
        * intros i w1 _. unfold returned. by destruct (decide _).
  Qed.
End run_cells.
