(** States, input and mapping in the MPI build: the processes serve the calls. *)
From Coq Require Import ZArith Ascii.
From stdpp Require Import prelude gmap relations.
From Verif.Base Require Import Result.
From Verif.Partition Require Import Spec EndCells EndCellsProofs.
From Verif.Mapping Require Import Model Spec Proofs.
From Verif.Mpi Require Import Comm Methods Model Spec CommProofs Cells Parts Agree Calls Fetch.
Local Open Scope Z_scope.

Section changes.
  Context {D X : Type} (L : local D X) {R : Type}.
  Notation ps := (ps D X).
  Notation step := (@step D R (nat * ps) (loop L)).
  Notation serves := (@serves D X L R).
  Notation empties n := (replicate n (@nil (msg D))).
  Implicit Types s w : ps.
  Implicit Types ws : list ps.

  (** All but the mapping, the distributed vectors, the instances and the error string *)
  Record remapped s s' : Prop := {
    r_val : p_val s' = p_val s; r_prefix : p_prefix s' = p_prefix s; r_root : p_root s' = p_root s;
    r_mask_root : p_mask_root s' = p_mask_root s; r_saved : p_saved s' = p_saved s; r_check : p_check s' = p_check s;
  }.
  Definition same_map (m m' : mapping_state) : Prop :=
    nxyz m' = nxyz m /\ nthreads m' = nthreads m /\ count_chemistry m' = count_chemistry m /\ backward m' = backward m /\
    start_cell m' = start_cell m /\ end_cell m' = end_cell m.
  Lemma in_step_remap k s ws s' g ids : in_step k s ws -> remapped s s' -> good_map (S (length ws)) (p_map s') ->
    nxyz (p_map s') = nxyz (p_map s) ->
    (forall i w, ws !! i = Some w -> remapped w (g i w) /\ same_map (p_map s') (p_map (g i w))) ->
    (forall i, i ∈ ids -> i ∈ k_ids k /\ count_chemistry (p_map s') = count_chemistry (p_map s)) ->
    in_step (Known [] false ids (k_nx k)) s' (imap g ws).
  Proof.
    intros I F G En Fs Hids.
    assert (forall w', w' ∈ imap g ws -> exists w, w ∈ ws /\ remapped w w' /\ same_map (p_map s') (p_map w')) as Hin.
    { intros w' H. apply elem_of_imap in H as (i & w & Hi & ->). exists w. split; [by eapply elem_of_list_lookup_2|by apply Fs]. }
    destruct I. constructor; cbn [k_vecs k_mask k_ids k_nx].
    - congruence.
    - by rewrite imap_length.
    - intros w' H. by destruct (Hin w' H) as (w & Hw & Fw & Hm).
    - intros w' H. destruct (Hin w' H) as (w & Hw & Fw & _). rewrite (r_val _ _ F), (r_val _ _ Fw). by apply is_val.
    - intros f. by rewrite (r_val _ _ F).
    - intros w' H. destruct (Hin w' H) as (w & Hw & Fw & _). rewrite (r_prefix _ _ F), (r_prefix _ _ Fw). by apply is_prefix.
    - intros w' H. destruct (Hin w' H) as (w & Hw & Fw & _). rewrite (r_saved _ _ F), (r_saved _ _ Fw). by apply is_saved.
    - intros w' H. destruct (Hin w' H) as (w & Hw & Fw & _). rewrite (r_check _ _ F), (r_check _ _ Fw). by apply is_check.
    - rewrite En, (r_root _ _ F). done.
    - unfold flag. rewrite En, (r_root _ _ F), (r_val _ _ F). done.
    - rewrite En, (r_mask_root _ _ F). done.
    - intros v n w Hv. by apply elem_of_nil in Hv.
    - done.
    - intros i Hi. destruct (Hids i Hi) as [Hk Hc]. rewrite Hc, (r_saved _ _ F), imap_length. by apply is_ids.
  Qed.

  (** ** States *)
  Lemma op_work {T} o n s0 (k : ps -> prog D T) :
    performs (announces (method_of_op o)) = Some (method_of_op o) /\
    method_of_op o <> MpiWorkerBreak /\ work L (method_of_op o) n s0 k = state_worker L o s0 k.
  Proof. by destruct o. Qed.
  Lemma state_served k s ws o i : in_step k s ws -> may_call L (p_map s) k (State o i) ->
    exists s' ws' a, length ws' = length ws /\ serves (state_call L o i s) ws s' ws' a /\
      in_step (remember (D := D) (p_map s) k (State o i)) s' ws' /\ call_result L (State o i) s ws a s' ws'.
  Proof.
    intros I Hm. set (g := fun (_ : nat) w => (state_end L o i w).1).
    exists (state_end L o i s).1, (imap g ws), (Code (state_end L o i s).2).
    split; [apply imap_length|]. split; [|].
    { intros K. unfold state_call. destruct (op_work (T := nat * ps * bool) o O s (idle O)) as (Hp & Hb & _).
      eapply rtc_transitive; [by apply go_announce|].
      eapply go_ext; [intros j w _; apply (op_work o (S j) w (idle j))|].
      unfold state_worker. eapply rtc_transitive.
      { apply (go_bcast (loop L) _ _ ws _ (fun j w => idle j (g j w))).
        intros j w Hw. eexists _, _. split; [reflexivity|]. split; [done|]. done. }
      cbv beta. destruct (state_end L o i s). rewrite imap_imap. reflexivity. }
    pose proof (is_map _ _ _ I) as G.
    assert (Hsv : forall n w, ws !! n = Some w -> p_saved w = p_saved s) by (intros n w Hw; apply (is_saved _ _ _ I); by eapply elem_of_list_lookup_2).
    assert (Hrg : forall n w, ws !! n = Some w -> same_map (p_map s) (p_map w)) by (intros n w Hw; apply (is_ranges _ _ _ I); by eapply elem_of_list_lookup_2).
    destruct o; cbn [remember call_result].
    - split; [|split; [done|]].
      + apply (in_step_shared k _ s); [done|done| |done|done|done|].
        * intros n w Hw. unfold g. cbn. destruct (Hrg n w Hw) as (_ & _ & _ & _ & -> & ->). rewrite (Hsv n w Hw).
          split_and!; [done|apply (is_prefix _ _ _ I)|done|apply (is_check _ _ _ I)]; by eapply elem_of_list_lookup_2.
        * cbn [k_ids]. intros j Hj. apply elem_of_cons in Hj. cbn. destruct (decide (j = i)) as [->|Hne].
          -- rewrite lookup_insert. eexists _, _. split; [reflexivity|]. split; [apply (gm_split _ _ G)|apply (gm_length _ _ G)].
          -- rewrite lookup_insert_ne by done. destruct Hj as [|Hj]; [done|]. by apply (ids_kept k).
      + apply pairwise_imap; [done|]. intros n w Hw. unfold g. cbn. by destruct (Hrg n w Hw) as (_ & _ & _ & _ & -> & ->).
    - cbn in Hm. destruct (is_ids _ _ _ I i Hm) as (ss & es & Hi & V & Hl).
      assert (forall n w, ws !! n = Some w -> g n w = with_x (l_state L Apply i (p_x w))
               (with_map (MS (nxyz (p_map w)) (nthreads (p_map w)) (count_chemistry (p_map w)) (backward (p_map w)) (forward (p_map w)) ss es) w)) as Hg.
      { intros n w Hw. unfold g, state_end. by rewrite (Hsv n w Hw), Hi. }
      unfold state_end. rewrite Hi. cbn [fst snd]. split; [|split; [done|]].
      + apply (in_step_remap k s); [done|done| |done| |].
        * destruct G. constructor; cbn; done.
        * intros n w Hw. rewrite (Hg n w Hw). split; [done|]. destruct (Hrg n w Hw) as (? & ? & ? & ? & _). done.
        * done.
      + exists ss, es. split; [done|]. apply pairwise_imap; [done|]. intros n w Hw. by rewrite (Hg n w Hw).
    - destruct (p_saved s !! i) as [se|] eqn:Ei.
      + assert (forall n w, ws !! n = Some w -> g n w = with_x (l_state L Delete i (p_x w)) (with_saved (delete i (p_saved w)) w)) as Hg.
        { intros n w Hw. unfold g, state_end. by rewrite (Hsv n w Hw), Ei. }
        unfold state_end. rewrite Ei. cbn [fst snd]. rewrite decide_False by done. split; [|split; [done|]].
        * apply (in_step_shared k _ s); [done|done| |done|done|done|].
          -- intros n w Hw. rewrite (Hg n w Hw). cbn. rewrite (Hsv n w Hw).
             split_and!; [done|apply (is_prefix _ _ _ I)|done|apply (is_check _ _ _ I)]; by eapply elem_of_list_lookup_2.
          -- cbn [k_ids]. intros j Hj. apply elem_of_list_filter in Hj as [Hne Hj]. cbn. rewrite lookup_delete_ne by done. by apply (ids_kept k).
        * apply pairwise_imap; [done|]. intros n w Hw. by rewrite (Hg n w Hw).
      + assert (forall n w, ws !! n = Some w -> g n w = w) as Hg.
        { intros n w Hw. unfold g, state_end. by rewrite (Hsv n w Hw), Ei. }
        unfold state_end. rewrite Ei. cbn [fst snd]. rewrite decide_True by done. split; [|split; [done|]].
        * apply (in_step_known k); [|done|done| |done].
          -- apply (in_step_frame k s); [done|done|]. intros n w Hw. rewrite (Hg n w Hw). done.
          -- intros j Hj. cbn in Hj. by apply elem_of_list_filter in Hj as [_ ?].
        * apply pairwise_imap; [done|]. intros n w Hw. by rewrite (Hg n w Hw).
  Qed.

  (** ** Input *)
  Lemma run_served k s ws b i u t : in_step k s ws ->
    exists s' ws' a, length ws' = length ws /\ serves (run_call L b i u t s) ws s' ws' a /\
      in_step k s' ws' /\ call_result L (RunInput b i u t) s ws a s' ws'.
  Proof.
    intros I. unfold run_call. cbn [call_result].
    set (fl := [bit b; bit i; bit u; Z.of_nat (length t); 0]).
    set (run := fun w => l_run L (b, i, u) t (p_x w)).
    set (mid := fun w => with_x (run w).1.1 (clear w)).
    assert (Hfl : forall w, l_run L (bool_decide (fl !! 0%nat <> Some 0), bool_decide (fl !! 1%nat <> Some 0), bool_decide (fl !! 2%nat <> Some 0)) t (p_x w) = run w).
    { intros w. unfold run, fl. by destruct b, i, u. }
    set (code := fun (_ : nat) w => (l_run L (b, i, u) t (p_x w)).1.2.1.1).
    set (ok := bool_decide ((run s).1.2.1.1 = 0 /\ Forall (fun c => c = 0) (imap code ws))).
    set (r := if ok then IRM_OK else IRM_FAIL).
    set (wsm := imap (fun _ w => mid w) ws).
    assert (agrees (mid s) wsm) as Am.
    { eapply in_step_agrees. apply (in_step_frame k s); [done|done|]. done. }
    assert (length wsm = length ws) as Hlm by apply imap_length.
    set (s1 := if ok then mid s else with_err (p_err (mid s) ++ reports (run s).1.2.1.1 (run s).2 (imap (fun i w => (code i w, (run w).2)) ws)) (mid s)).
    exists (returned L r s1), (imap (fun _ w => returned L r (mid w)) ws), (Code r).
    split; [apply imap_length|]. split; [|split; [|split]].
    - intros K. eapply rtc_transitive; [by apply (go_announce L RunString RunString)|].
      cbn [work]. unfold run_worker. eapply rtc_transitive.
      { apply (go_bcast (loop L) _ _ ws _ (fun i w => Bcast (Text (replicate (length t) blank)) (fun t' =>
          run_part L false fl (text_of t') (clear w) (fun s1 _ => idle i s1)))).
        intros j w Hw. eexists _, _. split; [reflexivity|]. split; [done|]. cbn [ints_of]. cbn [fl lookup list_lookup default]. unfold id. by rewrite Nat2Z.id. }
      cbv beta. eapply rtc_transitive.
      { apply (go_bcast (loop L) _ _ ws _ (fun i w => run_part L false fl t (clear w) (fun s1 _ => idle i s1))).
        intros j w Hw. eexists _, _. split; [reflexivity|]. split; [|done]. cbn. by rewrite replicate_length. }
      cbv beta. unfold run_part. cbn [p_x clear with_err]. rewrite Hfl.
      eapply (go_ext (loop L) _ ws _ (fun i w => handle false (code i w) (run w).2 (mid w) (fun s1 b => idle i (returned L (if b : bool then IRM_OK else IRM_FAIL) s1)))).
      { intros j w Hw. change (p_x (with_err [] w)) with (p_x w). rewrite Hfl. unfold mid, code. change (l_run L (b, i, u) t (p_x w)) with (run w). by destruct (run w) as [[? [[? ?] ?]] ?]. }
      pose proof (go_handle L (R := R) (mid s) wsm (run s).1.2.1.1 (run s).2
        (fun j w' => default 0 (code j <$> ws !! j)) (fun j w' => default [] ((fun w => (run w).2) <$> ws !! j)) Am
        (fun s1 b0 => K (returned L (if b0 : bool then IRM_OK else IRM_FAIL) s1) (Code (if b0 : bool then IRM_OK else IRM_FAIL)))
        (fun j s1 b0 => idle j (returned L (if b0 : bool then IRM_OK else IRM_FAIL) s1))) as H.
      cbv zeta in H.
      assert (imap (fun j (_ : ps) => default 0 (code j <$> ws !! j)) wsm = imap code ws) as E1.
      { apply list_eq. intros j. unfold wsm. rewrite imap_imap, !list_lookup_imap. by destruct (ws !! j). }
      assert (imap (fun j (_ : ps) => (default 0 (code j <$> ws !! j), default [] ((fun w => (run w).2) <$> ws !! j))) wsm = imap (fun i w => (code i w, (run w).2)) ws) as E2.
      { apply list_eq. intros j. unfold wsm. rewrite imap_imap, !list_lookup_imap. by destruct (ws !! j). }
      rewrite E1, E2, Hlm in H. fold ok in H.
      assert (imap (fun j w => handle false (default 0 (code j <$> ws !! j)) (default [] ((fun w => (run w).2) <$> ws !! j)) w
                 (fun s1 b0 => idle j (returned L (if b0 : bool then IRM_OK else IRM_FAIL) s1))) wsm =
              imap (fun i w => handle false (code i w) (run w).2 (mid w) (fun s1 b => idle i (returned L (if b : bool then IRM_OK else IRM_FAIL) s1))) ws) as E3.
      { apply list_eq. intros j. unfold wsm. rewrite imap_imap, !list_lookup_imap. by destruct (ws !! j). }
      rewrite E3 in H. unfold wsm in H. rewrite imap_imap in H. rewrite imap_imap. unfold mid at 1 in H.
      destruct (run s) as [[x0 [[c1 c2] c3]] e0] eqn:Er. exact H.
    - apply (in_step_frame k s); [done| |].
      + apply frame_returned. unfold s1. destruct ok; done.
      + intros j w _. apply frame_returned. done.
    - apply pairwise_imap.
      + unfold s1, returned. destruct ok, (decide _); done.
      + intros j w Hw. unfold returned. destruct (decide _); done.
    - unfold r. clear s1. clearbody mid. clear r. destruct ok eqn:E; unfold ok in E; clear ok.
      + left. split; [done|]. apply bool_decide_eq_true in E as [E1 E2]. intros w Hw. apply elem_of_cons in Hw as [-> | Hw]; [done|].
        apply elem_of_list_lookup in Hw as [j Hj]. rewrite Forall_forall in E2. apply E2. apply elem_of_list_lookup. exists j.
        by rewrite list_lookup_imap, Hj.
      + right. split; [done|]. apply bool_decide_eq_false in E.
        destruct (decide ((run s).1.2.1.1 = 0)) as [E1|E1]; [|exists s; split; [left|done]].
        destruct (decide (Forall (fun c => c = 0) (imap code ws))) as [E2|E2]; [by destruct E|].
        apply not_Forall_Exists in E2; [|apply _]. apply Exists_exists in E2 as (c & Hc & Hne).
        apply elem_of_imap in Hc as (j & w & Hj & ->). exists w. split; [right; by eapply elem_of_list_lookup_2|done].
  Qed.

  (** ** Mapping *)
  Lemma mapped_good t m g m' : nthreads m = Z.of_nat t -> (0 < t)%nat -> create_mapping m g = (m', IRM_OK) ->
    good_map t m' /\ nxyz m' = nxyz m /\ nthreads m' = nthreads m /\ count_chemistry m' = find_count g /\
    backward m' = cm_backward g (find_count g) /\
    (exists ss es, set_end_cells (find_count g) (nthreads m) = Ret (ss, es) /\ start_cell m' = ss /\ end_cell m' = es) /\
    ~ Exists (fun l => l = []) (cm_backward g (find_count g)) /\ Z.of_nat (length g) = nxyz m.
  Proof.
    intros Ht Hpos E.
    destruct (create_mapping_cases m g m' IRM_OK ltac:(lia) E) as [[_ H]|[? _]]; [|done].
    destruct H as (count & W & Hn & Hth & Hc & Hb & _ & Hse).
    pose proof (well_formed_count _ _ _ _ W) as ->. pose proof W as (Lg & H1 & H2 & H3).
    assert (Hsplit : valid_split (find_count g) (start_cell m') (end_cell m') /\ length (start_cell m') = t).
    { destruct Hse as (ss & es & Hse & -> & ->).
      destruct (set_end_cells_valid (find_count g) (nthreads m) ltac:(lia)) as (ss' & es' & Hse' & V & _ & L').
      rewrite Hse in Hse'. injection Hse' as <- <-. split; [done|]. lia. }
    destruct Hsplit as [V Hlen].
    split; [|split_and!; try done].
    - constructor; try done.
      + congruence.
      + rewrite Hb, Hc. unfold cm_backward. rewrite fmap_length, seq_length. lia.
      + intros j c Hj. rewrite Hb in Hj. unfold cm_backward in Hj. rewrite list_lookup_fmap in Hj.
        apply fmap_Some in Hj as (j' & [-> Hlt]%lookup_seq & ->). split.
        * rewrite cells_of_nil. intros Hni. apply Hni, H3; lia.
        * intros x Hx. apply cells_of_elem in Hx as [? Hg]. apply lookup_lt_Some in Hg. lia.
      + intros j1 j2 c1 c2 x Hj1 Hj2 Hx1 Hx2. rewrite Hb in Hj1, Hj2. unfold cm_backward in Hj1, Hj2. rewrite list_lookup_fmap in Hj1, Hj2.
        apply fmap_Some in Hj1 as (j1' & [-> Hlt1]%lookup_seq & ->). apply fmap_Some in Hj2 as (j2' & [-> Hlt2]%lookup_seq & ->).
        apply cells_of_elem in Hx1 as [_ Hg1]. apply cells_of_elem in Hx2 as [_ Hg2]. rewrite Hg1 in Hg2. injection Hg2 as ?. lia.
      + by rewrite Hc.
    - destruct (well_formed_iff (nxyz m) (nthreads m) g) as [Hiff _].
      destruct Hiff as (_ & _ & Hno); [by eexists|]. by rewrite missing_iff.
  Qed.
  Lemma map_served k s ws g : in_step k s ws -> may_call L (p_map s) k (MapCells g) ->
    exists s' ws' a, length ws' = length ws /\ serves (map_call L g s) ws s' ws' a /\
      in_step (remember (D := D) (p_map s) k (MapCells g)) s' ws' /\ call_result L (MapCells g) s ws a s' ws'.
  Proof.
    intros I Hm. unfold map_call. cbn [remember call_result]. change (p_map (clear s)) with (p_map s).
    destruct (decide _) as [Hl|Hl].
    - exists (returned L IRM_FAIL (clear s)), ws, (Code IRM_FAIL). split; [done|]. split; [intros K; reflexivity|].
      split; [apply (in_step_root k s); [done|by apply frame_returned, frame_clear]|].
      split; [|done]. by apply pairwise_same.
    - destruct Hm as [Hm|Hm]; [done|].
      pose proof (is_map _ _ _ I) as G. pose proof (gm_tasks _ _ G) as Ht.
      destruct (create_mapping (p_map s) g) as [m' r] eqn:E.
      destruct (create_mapping_cases (p_map s) g m' r ltac:(lia) E) as [[-> _]|[_ Hno]]; [|done].
      destruct (mapped_good (S (length ws)) _ _ _ Ht ltac:(lia) E) as (G' & Hn' & Hth' & Hc' & Hb' & (ss & es & Hse & Hss & Hes) & Hex & Hlg).
      set (gw := fun (_ : nat) w => with_map (MS (nxyz (p_map w)) (nthreads (p_map w)) (find_count g) (cm_backward g (find_count g)) [] ss es) (clear w)).
      exists (with_map m' (clear s)), (imap gw ws), (Code IRM_OK).
      split; [apply imap_length|]. split; [|split; [|split; [|split]]].
      + intros K. eapply rtc_transitive; [by apply (go_announce L CreateMapping CreateMapping)|].
        cbn [work]. unfold map_worker. eapply rtc_transitive.
        { apply (go_bcast (loop L) _ _ ws _ (fun i w => idle i (gw i w))).
          intros i w Hw. eexists _, _. split; [reflexivity|].
          destruct (is_ranges _ _ _ I w) as (Hnw & Htw & _); [by eapply elem_of_list_lookup_2|]. change (p_map (clear w)) with (p_map w). split.
          - cbn. rewrite replicate_length, Hnw. f_equal. lia.
          - cbn [ints_of]. unfold map_one. rewrite scan_backward, decide_False by done. change (p_map (clear w)) with (p_map w).
            by rewrite Htw, Hse, <- Htw. }
        cbv beta. unfold map_root. change (p_map (clear s)) with (p_map s). rewrite E. rewrite imap_imap. reflexivity.
      + apply (in_step_remap k s); [done|done|done|done| |].
        * intros i w Hw. split; [done|]. destruct (is_ranges _ _ _ I w) as (Hnw & Htw & _); [by eapply elem_of_list_lookup_2|].
          unfold same_map, gw. cbn. rewrite Hn', Hth', Hc', Hb', Hss, Hes. done.
        * intros i Hi. by apply elem_of_nil in Hi.
      + by apply pairwise_imap.
      + done.
      + done.
  Qed.
End changes.
