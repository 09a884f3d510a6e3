(** The calls of the MPI build, one by one: the processes serve the call, stay in step, and the answer
    is right. *)
From Coq Require Import ZArith Ascii.
From stdpp Require Import prelude gmap relations.
From Verif.Base Require Import Result.
From Verif.Partition Require Import Spec.
From Verif.Mapping Require Import Model Spec.
From Verif.Mpi Require Import Comm Methods Model Spec CommProofs Cells Parts Agree.
Local Open Scope Z_scope.

Section calls.
  Context {D X : Type} (L : local D X) {R : Type}.
  Notation ps := (ps D X).
  Notation step := (@step D R (nat * ps) (loop L)).
  Notation serves := (@serves D X L R).
  Notation empties n := (replicate n (@nil (msg D))).
  Implicit Types s w : ps.
  Implicit Types ws : list ps.

  Lemma set_served k s ws f v : in_step k s ws -> shape v = kind f ->
    exists s' ws' a, length ws' = length ws /\ serves (set_call L f v s) ws s' ws' a /\
      in_step k s' ws' /\ set_result L f v s (s :: ws) (s' :: ws') a.
  Proof.
    intros I Hv. unfold set_call.
    destruct (same L (p_val (clear s) f) v && negb (bool_decide (f = ComponentH2O)))%bool eqn:Es.
    - apply andb_true_iff in Es as [Es _]. exists (clear s), ws, (Code IRM_OK).
      split; [done|]. split; [intros K; reflexivity|].
      split; [apply (in_step_root k s); [done|apply frame_clear]|].
      split_and!; [by apply pairwise_same|by apply pairwise_same|].
      left. split; [done|]. intros w' Hw'. apply same_equal in Es.
      apply elem_of_cons in Hw' as [-> | Hw']; [done|]. by rewrite (is_val _ _ _ I w' Hw').
    - clear Es. set (v' := stored f (p_val s f) v).
      assert (shape v' = kind f) as Hv' by (apply stored_shape; [done|apply (is_kind _ _ _ I)]).
      set (r := if accepted f v then IRM_OK else IRM_INVALIDARG).
      set (sc := clear s). set (wsc := imap (fun _ w => clear w) ws).
      assert (in_step k sc wsc) as Ic by (apply (in_step_frame k s); [done|apply frame_clear|intros; apply frame_clear]).
      assert (length wsc = length ws) as Hlc by apply imap_length.
      (* the announcement and the value *)
      assert (Hstart : forall K, rtc step (Config (announce (method_of_setting f) (set_root L f v sc K)) (imap idle ws) (empties (length ws)))
                (Config ((fun s1 => if decide (f = PartitionUZ) then
                            if flag s1 PartitionUZ then
                              let old := p_root s1 OldSaturation in
                              let n := Z.to_nat (nxyz (p_map s1)) in
                              let s2 := if decide (length old = n) then s1
                                        else with_root (upd (p_root s1) OldSaturation (resize n (l_one L) old)) s1 in
                              scatter_vec true 0 OldSaturation s2 (fun s3 => K s3 (Code r))
                            else K s1 (Code r)
                          else K (returned L r s1) (Code r)) (set_one f v' sc))
                   (imap (fun i s1 => if decide (f = PartitionUZ) then
                            if flag s1 PartitionUZ then scatter_vec false (S i) OldSaturation s1 (idle i) else idle i s1
                          else idle i s1) (imap (fun _ => set_one f v') wsc)) (empties (length ws)))).
      { intros K. destruct (setting_work (T := nat * ps * bool) L f O s (idle O)) as (Hp & Hb & _).
        eapply rtc_transitive; [by apply go_announce|].
        eapply go_ext; [intros i w _; apply (setting_work L f (S i) w (idle i))|].
        unfold set_root. eapply rtc_transitive.
        { apply (go_bcast (loop L) _ _ ws _ (fun i w => if decide (f = PartitionUZ) then
                            if flag (set_one f v' (clear w)) PartitionUZ then scatter_vec false (S i) OldSaturation (set_one f v' (clear w)) (idle i) else idle i (set_one f v' (clear w))
                          else idle i (set_one f v' (clear w)))).
          intros i w Hw. eexists _, _. split; [reflexivity|]. split; [|reflexivity].
          change (p_val (clear w) f) with (p_val w f). rewrite (is_val _ _ _ I w) by (by eapply elem_of_list_lookup_2).
          rewrite (is_kind _ _ _ I). fold v'. done. }
        rewrite imap_imap. unfold wsc. rewrite imap_imap. reflexivity. }
      assert (Hres : forall s' ws',
                 (forall g, p_val s' g = upd (p_val s) f v' g) -> p_x s' = p_x s ->
                 length ws' = length ws ->
                 (forall i w w', ws !! i = Some w -> ws' !! i = Some w' -> p_x w' = p_x w /\ forall g, p_val w' g = upd (p_val s) f v' g) ->
                 set_result L f v s (s :: ws) (s' :: ws') (Code r)).
      { intros s' ws' H1 H2 Hl H3.
        assert (forall n w w', (s :: ws) !! n = Some w -> (s' :: ws') !! n = Some w' -> p_x w' = p_x w /\ forall g, p_val w' g = upd (p_val s) f v' g) as H4.
        { intros [|n] w w' Hw Hw'; [injection Hw as <-; injection Hw' as <-; done|]. by apply (H3 n). }
        split_and!.
        - split; [cbn; lia|]. intros n w w' Hw Hw'. by apply (H4 n).
        - split; [cbn; lia|]. intros n w w' Hw Hw' g Hg. destruct (H4 n w w' Hw Hw') as [_ E]. rewrite E, upd_ne by done.
          destruct n; [by injection Hw as <-|]. rewrite (is_val _ _ _ I w); [done|]. by eapply elem_of_list_lookup_2.
        - assert (forall w', w' ∈ s' :: ws' -> p_val w' f = v') as H5.
          { intros w' Hw'. apply elem_of_list_lookup in Hw' as (n & Hn).
            destruct (lookup_lt_is_Some_2 (s :: ws) n) as [w Hw].
            { apply lookup_lt_Some in Hn. cbn in Hn |- *. lia. }
            destruct (H4 n w w' Hw Hn) as [_ E]. by rewrite E, upd_eq. }
          unfold r. destruct (accepted f v) eqn:Ea.
          + left. split; [done|]. intros w' Hw'. left. rewrite (H5 w' Hw'). unfold v', stored. by rewrite Ea.
          + right. split; [done|]. split; [by rewrite <- accepted_iff, Ea|].
            intros w' Hw'. rewrite (H5 w' Hw'). unfold v', stored. by rewrite Ea. }
      destruct (decide (f = PartitionUZ)) as [->|Hf].
      + destruct (flag (set_one PartitionUZ v' sc) PartitionUZ) eqn:Ef.
        * set (s1 := set_one PartitionUZ v' sc) in *.
          assert (forall w, flag (set_one PartitionUZ v' w) PartitionUZ = true) as Efw.
          { intros w. unfold flag in *. cbn -[upd] in *. by rewrite upd_eq in *. }
          set (old := p_root s1 OldSaturation). set (n := Z.to_nat (nxyz (p_map s1))).
          set (s2 := if decide (length old = n) then s1 else with_root (upd (p_root s1) OldSaturation (resize n (l_one L) old)) s1).
          assert (p_root s2 OldSaturation = resize n (l_one L) old /\ p_map s2 = p_map s /\ p_val s2 = p_val s1 /\ p_x s2 = p_x s) as (Hr2 & Hm2 & Hv2 & Hx2).
          { unfold s2. destruct (decide _); [|done]. split_and!; try done. fold old. by rewrite resize_id. }
          set (kr := Known (filter (fun v => v <> OldSaturation) (k_vecs k)) (k_mask k) (k_ids k) (k_nx k)).
          assert (in_step kr sc wsc) as Ikr.
          { apply (in_step_known k); [done| |done|done|done]. intros v0 Hv0. by apply elem_of_list_filter in Hv0 as [_ ?]. }
          assert (in_step kr s2 (imap (fun _ => set_one PartitionUZ v') wsc)) as I2.
          { unfold s2. destruct (decide _) as [Hol|Hol].
            - apply in_step_set; [done|done|]. intros _ _. change (nxyz (p_map sc) <= Z.of_nat (length old)). rewrite Hol. unfold n, s1. cbn. lia.
            - change (in_step kr (set_one PartitionUZ v' (with_root (upd (p_root sc) OldSaturation (resize n (l_one L) old)) sc)) (imap (fun _ => set_one PartitionUZ v') wsc)).
              apply in_step_set; [|done|].
              + apply in_step_root_vec; [done| |].
                * intros Hin. apply elem_of_list_filter in Hin as [? _]. done.
                * rewrite resize_length. unfold n, s1. cbn. lia.
              + intros _ _. cbn -[upd]. unfold upd at 1. rewrite decide_True by done. rewrite resize_length. unfold n, s1. cbn. lia. }
          destruct (go_scatter_vec L (R := R) OldSaturation s2 (imap (fun _ => set_one PartitionUZ v') wsc)) as (ls & Hls & Hgo).
          { by eapply in_step_agrees. }
          { rewrite Hr2, resize_length, Hm2. unfold n, s1. cbn. lia. }
          rewrite imap_length, Hlc in Hls, Hgo.
          exists (put_work OldSaturation (ls O) s2), (imap (fun i w => put_work OldSaturation (ls (S i)) w) (imap (fun _ => set_one PartitionUZ v') wsc)), (Code r).
          split; [by rewrite !imap_length|]. split; [|split].
          -- intros K. eapply rtc_transitive; [exact (Hstart K)|].
             eapply go_ext; [|exact (Hgo (fun s3 => K s3 (Code r)) idle)].
             intros i w Hw. cbv beta. rewrite list_lookup_imap in Hw. destruct (wsc !! i) as [w0|]; [|done]. injection Hw as <-.
             cbn [decide]. by rewrite Efw.
          -- apply (in_step_known (Known (OldSaturation :: k_vecs kr) (k_mask kr) (k_ids kr) (k_nx kr))); [| |done|done|done].
             ++ apply (in_step_put kr s2 _ OldSaturation ls true I2). intros n0 Hn0. rewrite imap_length, Hlc in Hn0. by apply Hls.
             ++ intros v0 Hv0. cbn. destruct (decide (v0 = OldSaturation)) as [->|]; [left|]. right. by apply elem_of_list_filter.
          -- apply Hres; [cbn; by rewrite Hv2|done|by rewrite !imap_length|].
             intros i w w' Hw Hw'. unfold wsc in Hw'. rewrite !imap_imap, list_lookup_imap, Hw in Hw'. cbn -[upd] in Hw'. injection Hw' as <-.
             split; [done|]. intros g. cbn -[upd]. destruct (decide (g = PartitionUZ)) as [->|]; [by rewrite !upd_eq|rewrite !upd_ne by done].
             rewrite (is_val _ _ _ I w); [done|]. by eapply elem_of_list_lookup_2.
        * exists (set_one PartitionUZ v' sc), (imap (fun _ => set_one PartitionUZ v') wsc), (Code r).
          assert (forall w, flag (set_one PartitionUZ v' w) PartitionUZ = false) as Efw.
          { intros w. unfold flag in *. cbn -[upd] in *. by rewrite upd_eq in *. }
          split; [by rewrite imap_length|]. split; [|split].
          -- intros K. eapply rtc_transitive; [exact (Hstart K)|].
             eapply go_ext; [|reflexivity].
             intros i w Hw. cbv beta. rewrite list_lookup_imap in Hw. destruct (wsc !! i) as [w0|]; [|done]. injection Hw as <-.
             cbn [decide]. by rewrite Efw.
          -- apply in_step_set; [done|done|]. intros _. by rewrite Ef.
          -- apply Hres; [done|done|by rewrite imap_length|].
             intros i w w' Hw Hw'. unfold wsc in Hw'. rewrite imap_imap, list_lookup_imap, Hw in Hw'. cbn -[upd] in Hw'. injection Hw' as <-.
             split; [done|]. intros g. cbn -[upd]. destruct (decide (g = PartitionUZ)) as [->|]; [by rewrite !upd_eq|rewrite !upd_ne by done].
             rewrite (is_val _ _ _ I w); [done|]. by eapply elem_of_list_lookup_2.
      + exists (returned L r (set_one f v' sc)), (imap (fun _ => set_one f v') wsc), (Code r).
        split; [by rewrite imap_length|]. split; [|split].
        * intros K. exact (Hstart K).
        * apply (in_step_root k (set_one f v' sc)); [|by apply frame_returned, frame_refl].
          by apply in_step_set; [| |intros ->].
        * apply Hres.
          -- intros g. unfold returned. by destruct (decide _).
          -- unfold returned. by destruct (decide _).
          -- by rewrite imap_length.
          -- intros i w w' Hw Hw'. unfold wsc in Hw'. rewrite imap_imap, list_lookup_imap, Hw in Hw'. cbn in Hw'. injection Hw' as <-.
             split; [done|]. intros g. cbn -[upd]. destruct (decide (g = f)) as [->|]; [by rewrite !upd_eq|rewrite !upd_ne by done].
             rewrite (is_val _ _ _ I w); [done|]. by eapply elem_of_list_lookup_2.
  Qed.

  (** ** File prefix *)
  Lemma prefix_served k s ws t : in_step k s ws ->
    exists s' ws' a, length ws' = length ws /\ serves (prefix_call L t s) ws s' ws' a /\
      in_step k s' ws' /\
      same_instances (s :: ws) (s' :: ws') /\ a = Code (if decide (t = [] /\ p_prefix s <> []) then IRM_INVALIDARG else IRM_OK) /\
      (forall w', w' ∈ s' :: ws' -> p_prefix w' = t).
  Proof.
    intros I. unfold prefix_call. destruct (decide _) as [Ht|Ht].
    - change (p_prefix (clear s)) with (p_prefix s) in Ht.
      exists (clear s), ws, (Code IRM_OK). split; [done|]. split; [intros K; reflexivity|].
      split; [apply (in_step_root k s); [done|apply frame_clear]|].
      split_and!; [by apply pairwise_same| |].
      + by rewrite decide_False by (intros [-> ?]; done).
      + intros w' Hw'. apply elem_of_cons in Hw' as [-> | Hw']; [done|]. by rewrite (is_prefix _ _ _ I w' Hw').
    - change (p_prefix (clear s)) with (p_prefix s) in Ht.
      set (s' := (prefix_end L (with_prefix t (clear s))).1).
      set (g := fun (_ : nat) w => (prefix_end L (with_prefix t (clear w))).1).
      assert (forall w, kept_data w (prefix_end L (with_prefix t (clear w))).1 /\
                p_prefix (prefix_end L (with_prefix t (clear w))).1 = t /\
                p_saved (prefix_end L (with_prefix t (clear w))).1 = p_saved w /\
                p_check (prefix_end L (with_prefix t (clear w))).1 = p_check w /\
                p_x (prefix_end L (with_prefix t (clear w))).1 = p_x w) as Hg.
      { intros w. unfold prefix_end, returned. cbn [fst]. by destruct (decide _). }
      exists s', (imap g ws), (Code (prefix_end L (with_prefix t (clear s))).2).
      split; [by rewrite imap_length|]. split; [|split; [|split; [|split]]].
      + intros K. eapply rtc_transitive; [by apply (go_announce L SetFilePrefix SetFilePrefix)|].
        cbn [work]. unfold prefix_worker.
        eapply rtc_transitive.
        { apply (go_bcast (loop L) _ _ ws _ (fun i w => Bcast (Text (resize (length t) blank (p_prefix (clear w)))) (fun t' =>
            idle i (prefix_end L (with_prefix (text_of t') (clear w))).1))).
          intros i w Hw. eexists _, _. split; [reflexivity|]. split; [done|]. cbn [int_of]. by rewrite Nat2Z.id. }
        cbv beta. rewrite imap_imap.
        eapply rtc_transitive.
        { apply (go_bcast (loop L) _ _ ws _ (fun i w => idle i (g i w))).
          intros i w Hw. eexists _, _. split; [reflexivity|]. split; [cbn; by rewrite resize_length|done]. }
        cbv beta. unfold s'. destruct (prefix_end _ _). reflexivity.
      + apply (in_step_shared k k s); [done|apply Hg| |done|done|done|].
        * intros i w Hw. apply elem_of_list_lookup_2 in Hw. destruct (Hg w) as (H1 & H2 & H3 & H4 & _).
          destruct (Hg s) as (H1' & H2' & H3' & H4' & _). unfold g, s'.
          rewrite H2, H2', H3, H3', H4, H4'. split_and!; [done|done|by apply (is_saved _ _ _ I)|by apply (is_check _ _ _ I)].
        * intros i Hi. destruct (Hg s) as (_ & _ & H3' & _). unfold s'. rewrite H3'. by apply (ids_kept k).
      + apply pairwise_imap; [apply Hg|]. intros i w _. apply Hg.
      + cbn. destruct (decide (t = [])) as [->|Hne].
        * by rewrite decide_True.
        * by rewrite decide_False by (intros [? ?]; done).
      + intros w' Hw'. apply elem_of_cons in Hw' as [-> | Hw']; [apply Hg|].
        apply elem_of_imap in Hw' as (i & w & _ & ->). apply Hg.
  Qed.

  (** ** Vectors *)
  Lemma vec_work {T} v n s0 (k : ps -> prog D T) : v <> OldSaturation ->
    performs (announces (method_of_vec v)) = Some (method_of_vec v) /\
    method_of_vec v <> MpiWorkerBreak /\ work L (method_of_vec v) n s0 k = vec_worker L n v (clear s0) k.
  Proof. by destruct v. Qed.
  Lemma vec_end_frame n v s : frame s (vec_end L n v s).
  Proof. by destruct v. Qed.
  Lemma vec_served k s ws v l : in_step k s ws -> v <> OldSaturation ->
    exists s' ws' a, length ws' = length ws /\ serves (vec_call L v l s) ws s' ws' a /\
      in_step (remember (p_map s) k (SetVec v l)) s' ws' /\ call_result L (SetVec v l) s ws a s' ws'.
  Proof.
    intros I Hv. unfold vec_call. cbn [remember call_result]. change (p_map (clear s)) with (p_map s).
    destruct (decide _) as [Hl|Hl].
    - exists (returned L IRM_FAIL (clear s)), ws, (Code IRM_FAIL). split; [done|]. split; [intros K; reflexivity|].
      split; [apply (in_step_root k s); [done|by apply frame_returned, frame_clear]|].
      split; [done|]. by apply pairwise_same.
    - set (sc := clear s). set (wsc := imap (fun _ w => clear w) ws).
      assert (in_step k sc wsc) as Ic by (apply (in_step_frame k s); [done|apply frame_clear|intros; apply frame_clear]).
      assert (length wsc = length ws) as Hlc by apply imap_length.
      set (s1 := with_root (upd (p_root sc) v l) sc).
      set (kr := Known (filter (fun v' => v' <> v) (k_vecs k)) (k_mask k) (k_ids k) (k_nx k)).
      assert (in_step kr s1 wsc) as I1.
      { apply in_step_root_vec.
        - apply (in_step_known k); [done| |done|done|done]. intros v0 Hv0. by apply elem_of_list_filter in Hv0 as [_ ?].
        - intros Hin. by apply elem_of_list_filter in Hin as [? _].
        - cbn. lia. }
      assert (p_root s1 v = l) as Hr1 by (cbn -[upd]; unfold upd; by rewrite decide_True).
      destruct (go_scatter_vec L (R := R) v s1 wsc) as (ls & Hls & Hgo).
      { by eapply in_step_agrees. }
      { rewrite Hr1. cbn. lia. }
      set (s2 := put_work v (ls O) s1) in *. set (ws2 := imap (fun i w => put_work v (ls (S i)) w) wsc) in *.
      rewrite Hlc in Hls, Hgo.
      exists (vec_end L O v s2), (imap (fun i w => vec_end L (S i) v w) ws2), (Code IRM_OK).
      assert (length ws2 = length ws) as Hl2 by (unfold ws2; by rewrite imap_length).
      split; [by rewrite imap_length|]. split; [|split; [|split; [|split]]].
      + intros K. destruct (vec_work (T := nat * ps * bool) v O s (idle O) Hv) as (Hp & Hb & _).
        eapply rtc_transitive; [by apply go_announce|].
        eapply go_ext; [intros i w _; by apply (vec_work v (S i) w (idle i))|].
        unfold vec_worker.
        replace (imap (fun i w => scatter_vec false (S i) v (clear w) (fun s3 => idle i (vec_end L (S i) v s3))) ws)
          with (imap (fun i w => scatter_vec false (S i) v w (fun s3 => idle i (vec_end L (S i) v s3))) wsc)
          by (unfold wsc; by rewrite imap_imap).
        rewrite imap_imap. fold s1. apply (Hgo (fun s3 => K (vec_end L 0 v s3) (Code IRM_OK)) (fun i s3 => idle i (vec_end L (S i) v s3))).
      + apply (in_step_frame _ s2); [|apply vec_end_frame|intros; apply vec_end_frame].
        apply (in_step_known (Known (v :: k_vecs kr) (k_mask kr) (k_ids kr) (k_nx kr))); [| |done|done|done].
        * apply (in_step_put kr s1 _ v ls true I1). intros n0 Hn0. rewrite Hlc in Hn0. by apply Hls.
        * intros v0 Hv0. cbn in *. destruct (decide (v0 = v)) as [->|]; [left|]. right. apply elem_of_list_filter.
          split; [done|]. by apply elem_of_cons in Hv0 as [->|].
      + done.
      + rewrite (f_root _ _ (vec_end_frame O v s2)). exact Hr1.
      + assert (Hx : forall n w, (n <= length ws)%nat -> range_start (p_map w) n = range_start (p_map s) n ->
                  match v with
                  | Tempc | Pressure => exists b part, start_cell (p_map s) !! n = Some b /\ mirrors (p_map s) n l part /\
                       p_x (vec_end L n v (put_work v (ls n) w)) = l_set_cells L v b part (p_x w)
                  | _ => p_x (vec_end L n v (put_work v (ls n) w)) = p_x w
                  end).
        { intros n w Hn Hb. specialize (Hls n Hn). rewrite Hr1 in Hls. change (p_map s1) with (p_map s) in Hls.
          assert (exists b part, start_cell (p_map s) !! n = Some b /\ mirrors (p_map s) n l part /\
             l_set_cells L v (range_start (p_map w) n) (p_work (put_work v (ls n) w) v) (p_x w) = l_set_cells L v b part (p_x w)) as Hx.
          { pose proof Hls as (b & e & Hsb & _). exists b, (ls n). split_and!; [done|done|].
            rewrite Hb. unfold range_start. rewrite Hsb. cbn -[upd]. unfold upd. by rewrite decide_True. }
          destruct v; cbn [vec_end]; done. }
        unfold ws2, wsc. rewrite !imap_imap. apply pairwise_imap.
        * apply (Hx O s1); [lia|done].
        * intros i w Hw. specialize (Hx (S i) (clear w)). cbn [p_x clear with_err p_map] in Hx.
          apply Hx; [by apply lookup_lt_Some in Hw; lia|]. apply (agrees_start s ws i w); [by eapply in_step_agrees|done].
  Qed.

  (** ** Mask *)
  Lemma mask_served k s ws l : in_step k s ws -> nxyz (p_map s) <= Z.of_nat (length l) ->
    exists s' ws' a, length ws' = length ws /\ serves (mask_call L l s) ws s' ws' a /\
      in_step (remember (D := D) (p_map s) k (SetMask l)) s' ws' /\ call_result L (SetMask l) s ws a s' ws'.
  Proof.
    intros I Hl. unfold mask_call. cbn [remember call_result]. change (p_map (clear s)) with (p_map s).
    set (sc := with_mask_root l (clear s)). set (wsc := imap (fun _ w => clear w) ws).
    assert (length wsc = length ws) as Hlc by apply imap_length.
    assert (in_step (Known (k_vecs k) false (k_ids k) (k_nx k)) sc wsc) as Ic.
    { assert (in_step k (clear s) wsc) as [] by (apply (in_step_frame k s); [done|apply frame_clear|intros; apply frame_clear]).
      constructor; try done. intros v n w Hv Hw. destruct n; [injection Hw as <-|].
      - exact (is_vecs v O (clear s) Hv eq_refl).
      - exact (is_vecs v (S n) w Hv Hw). }
    destruct (go_scatter_mask L (R := R) sc wsc) as (ls & Hls & Hgo).
    { by eapply in_step_agrees. }
    { done. }
    rewrite Hlc in Hls, Hgo.
    exists (put_mask (ls O) sc), (imap (fun i w => put_mask (ls (S i)) w) wsc), (Code IRM_OK).
    split; [by rewrite imap_length|]. split; [|split; [|split; [|split]]].
    - intros K. rewrite decide_False by lia. eapply rtc_transitive; [by apply (go_announce L SetPrintChemistryMask SetPrintChemistryMask)|].
      cbn [work].
      replace (imap (fun i w => scatter_mask false (S i) (clear w) (idle i)) ws)
        with (imap (fun i w => scatter_mask false (S i) w (idle i)) wsc) by (unfold wsc; by rewrite imap_imap).
      apply (Hgo (fun s3 => K s3 (Code IRM_OK)) idle).
    - apply (in_step_put_mask (Known (k_vecs k) false (k_ids k) (k_nx k)) sc wsc ls true Ic).
      intros n0 Hn0. rewrite Hlc in Hn0. by apply Hls.
    - done.
    - done.
    - unfold wsc. rewrite imap_imap. by apply pairwise_imap.
  Qed.

  (** ** Values of cells *)
  Lemma get_work {T} q n s0 (k : ps -> prog D T) :
    exists m, performs (announces (method_of_quantity q)) = Some m /\ m <> MpiWorkerBreak /\
      (n <> O -> work L m n s0 k = get_worker L n (answered q n) (clear s0) k).
  Proof. destruct q; eexists; (split; [reflexivity|]); (split; [done|]); intros Hn; destruct n; done. Qed.
  (** The instances of the processes *)
  Definition x_of s ws (n : nat) : X := default (p_x s) (p_x <$> ((s :: ws) !! n)).
  Lemma x_of_at s ws n w : (s :: ws) !! n = Some w -> x_of s ws n = p_x w.
  Proof. intros H. unfold x_of. by rewrite H. Qed.
  Lemma x_of_S s ws i w : ws !! i = Some w -> x_of s ws (S i) = p_x w.
  Proof. intros H. by apply x_of_at. Qed.

  Lemma kept_in_step k s ws q r : in_step k s ws -> nxyz (p_map s) <= Z.of_nat (length r) ->
    in_step (Known (match q with QTemperature => filter (fun v => v <> Tempc) (k_vecs k)
                               | QPressure => filter (fun v => v <> Pressure) (k_vecs k)
                               | _ => k_vecs k end) (k_mask k) (k_ids k) (k_nx k))
      (kept L q true O r s) (imap (fun i w => kept L (answered q (S i)) false (S i) [] w) ws).
  Proof.
    intros I Hr.
    assert (Hput : forall v, v = Tempc \/ v = Pressure ->
      in_step (Known (filter (fun v' => v' <> v) (k_vecs k)) (k_mask k) (k_ids k) (k_nx k))
        (with_root (upd (p_root s) v r) (with_work (upd (p_work s) v (values L q O s)) s))
        (imap (fun i w => with_work (upd (p_work w) v (values L q (S i) w)) w) ws)).
    { intros v Hv.
      assert (forall w', w' ∈ imap (fun i w => with_work (upd (p_work w) v (values L q (S i) w)) w) ws -> exists w l, w ∈ ws /\ w' = put_work v l w) as Hin.
      { intros w' H. apply elem_of_imap in H as (i & w & Hi & ->). exists w, (values L q (S i) w). split; [by eapply elem_of_list_lookup_2|done]. }
      assert (forall n w', (with_root (upd (p_root s) v r) (with_work (upd (p_work s) v (values L q O s)) s) ::
                 imap (fun i w => with_work (upd (p_work w) v (values L q (S i) w)) w) ws) !! n = Some w' ->
                 exists w, (s :: ws) !! n = Some w /\ (forall v', v' <> v -> p_work w' v' = p_work w v') /\ p_mask_work w' = p_mask_work w) as Hall.
      { intros n w' H. apply (lookup_all s) in H as (w & Hw & ->). exists w. split; [done|].
        destruct n; [injection Hw as <-|]; (split; [|done]); intros v' Hv'; cbn -[upd]; unfold upd; by rewrite decide_False. }
      destruct I. constructor; cbn -[upd].
      - done.
      - by rewrite imap_length.
      - intros w' H. destruct (Hin w' H) as (w & l & Hw & ->). exact (is_ranges w Hw).
      - intros w' H. destruct (Hin w' H) as (w & l & Hw & ->). exact (is_val w Hw).
      - done.
      - intros w' H. destruct (Hin w' H) as (w & l & Hw & ->). exact (is_prefix w Hw).
      - intros w' H. destruct (Hin w' H) as (w & l & Hw & ->). exact (is_saved w Hw).
      - intros w' H. destruct (Hin w' H) as (w & l & Hw & ->). exact (is_check w Hw).
      - intros v' Hv'. unfold upd. destruct (decide _); [done|]. by apply is_full.
      - intros Hf. unfold upd. destruct (decide _); [done|]. by apply is_full_old.
      - done.
      - intros v' n w' Hv' H. apply elem_of_list_filter in Hv' as [Hne Hv']. destruct (Hall n w' H) as (w & Hw & E & _).
        unfold upd. rewrite decide_False, E by done. by apply is_vecs.
      - intros Hk n w' H. destruct (Hall n w' H) as (w & Hw & _ & ->). by apply is_mask.
      - intros i Hi. rewrite imap_length. by apply is_ids. }
    destruct q; cbn [kept answered].
    - apply Hput. by left.
    - apply Hput. by right.
    - rewrite imap_id. by destruct k.
    - rewrite imap_id. by destruct k.
    - rewrite imap_id. by destruct k.
    - rewrite imap_id. by destruct k.
  Qed.
  Lemma get_served k s ws q old : in_step k s ws ->
    exists s' ws' a, length ws' = length ws /\ serves (get_call L q old s) ws s' ws' a /\
      in_step (remember (D := D) (p_map s) k (Get q old)) s' ws' /\ call_result L (Get q old) s ws a s' ws'.
  Proof.
    intros I. unfold get_call. cbn [remember call_result]. change (p_map (clear s)) with (p_map s).
    set (sc := clear s). set (wsc := imap (fun _ w => clear w) ws).
    assert (in_step k sc wsc) as Ic by (apply (in_step_frame k s); [done|apply frame_clear|intros; apply frame_clear]).
    assert (length wsc = length ws) as Hlc by apply imap_length.
    set (dst := resize (Z.to_nat (nxyz (p_map s))) (padding L q) (held q old s)).
    assert (Hnx : 0 <= nxyz (p_map s)).
    { pose proof (is_map _ _ _ I) as G. destruct (gm_range G O ltac:(lia)) as (b & e & _ & _ & Hbe & Hec & _).
      destruct (gm_cell G b) as (x & c & _ & Hx); lia. }
    destruct (go_gather_cells L (R := R) sc wsc 1 (fun n j => [l_value L (answered q n) (x_of s ws n) j])
                (values L q O sc) (fun i w => values L (answered q (S i)) (S i) w) dst) as (r & Hrl & Hin & Hout & Hgo).
    { by eapply in_step_agrees. }
    { done. }
    { unfold values, part. rewrite concat_map_single. cbn. destruct q; done. }
    { intros i w Hw. unfold wsc in Hw. rewrite list_lookup_imap in Hw. destruct (ws !! i) as [w0|] eqn:E; [|done]. injection Hw as <-.
      unfold values, part. rewrite concat_map_single. change (p_map (clear w0)) with (p_map w0).
      rewrite (agrees_own s ws i w0) by (done || by eapply in_step_agrees). rewrite (x_of_S s ws i w0 E). done. }
    { unfold dst. rewrite resize_length. cbn. lia. }
    rewrite Hlc in Hgo. change (p_map sc) with (p_map s) in *.
    assert (Hr : Z.of_nat (length r) = nxyz (p_map s)) by (rewrite Hrl; unfold dst; rewrite resize_length; lia).
    exists (kept L q true O r sc), (imap (fun i w => kept L (answered q (S i)) false (S i) [] w) wsc), (Vector IRM_OK r).
    split; [by rewrite imap_length|]. split; [|split; [|split]].
    - intros K.
      destruct (get_work (T := nat * ps * bool) q O s (idle O)) as (m & Hp & Hb & _).
      eapply rtc_transitive; [by apply (go_announce L _ m)|].
      eapply go_ext.
      { intros i w _. destruct (get_work (T := nat * ps * bool) q (S i) w (idle i)) as (m' & Hp' & _ & Hw).
        assert (m' = m) as -> by congruence. by apply Hw. }
      unfold get_worker.
      replace (imap (fun i w => gather_cells L false (S i) (clear w) 1 (values L (answered q (S i)) (S i) (clear w)) []
                 (fun _ => idle i (kept L (answered q (S i)) false (S i) [] (clear w)))) ws)
        with (imap (fun i w => gather_cells L false (S i) w 1 (values L (answered q (S i)) (S i) w) []
                 (fun _ => idle i (kept L (answered q (S i)) false (S i) [] w))) wsc) by (unfold wsc; by rewrite imap_imap).
      rewrite imap_imap. change (held q old sc) with (held q old s).
      apply (Hgo (fun r => K (kept L q true O r sc) (Vector IRM_OK r)) (fun i w => idle i (kept L (answered q (S i)) false (S i) [] w))).
    - pose proof (kept_in_step k sc wsc q r Ic ltac:(cbn; lia)) as I'.
      destruct q; cbn [remember]; try exact I'; destruct k; exact I'.
    - unfold wsc. rewrite imap_imap. apply pairwise_imap; [by destruct q|]. intros i w _. by destruct q.
    - exists r. split; [done|]. split; [lia|]. split.
      + intros j c x n w i Hj Hjc Hx Hn Hw Hi. rewrite (Hin j c x n i Hj Hjc Hx Hn Hi).
        assert (i = O) as -> by lia. eexists. split; [reflexivity|]. by rewrite (x_of_at s ws n w Hw).
      + intros x i Hx Hno Hi. by apply Hout.
  Qed.
End calls.
