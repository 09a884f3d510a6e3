(** What the root and the workers do together in the parts of the methods of the MPI build. *)
From Coq Require Import ZArith Ascii.
From stdpp Require Import prelude gmap relations.
From Verif.Base Require Import Result.
From Verif.Partition Require Import Spec.
From Verif.Mapping Require Import Model Spec.
From Verif.Mpi Require Import Comm Methods Model Spec CommProofs Cells.
Local Open Scope Z_scope.

Lemma imap_imap {A B C} (f : nat -> B -> C) (g : nat -> A -> B) l : imap f (imap g l) = imap (fun i x => f i (g i x)) l.
Proof. apply list_eq. intros i. rewrite !list_lookup_imap. by destruct (l !! i). Qed.
Lemma imap_const {A B} (x : B) (l : list A) : imap (fun _ _ => x) l = replicate (length l) x.
Proof.
  apply list_eq. intros i. rewrite list_lookup_imap. destruct (l !! i) eqn:E; cbn.
  - symmetry. apply lookup_replicate. split; [done|]. by eapply lookup_lt_Some.
  - symmetry. apply lookup_replicate_None. by apply lookup_ge_None.
Qed.
Lemma imap_seq {A B} (f : nat -> B) (l : list A) : imap (fun i _ => f i) l = map f (seq 0 (length l)).
Proof.
  apply list_eq. intros i. rewrite list_lookup_imap. change (map ?f ?l) with (f <$> l). rewrite list_lookup_fmap.
  destruct (l !! i) eqn:E; cbn.
  - rewrite lookup_seq_lt; [done|]. by eapply lookup_lt_Some.
  - rewrite lookup_seq_ge; [done|]. by apply lookup_ge_None.
Qed.

Section parts.
  Context {D X : Type} (L : local D X) {R : Type}.
  Notation ps := (ps D X).
  Notation step := (@step D R (nat * ps) (loop L)).
  Notation empties n := (replicate n (@nil (msg D))).
  Notation worker := (prog D (nat * ps * bool)).
  Implicit Types s w : ps.
  Implicit Types ws : list ps.

  Definition idle (i : nat) (s : ps) : worker := Fin ((S i, s), false).

  (** The ranges are the same on all *)
  Definition agrees s ws : Prop :=
    good_map (S (length ws)) (p_map s) /\
    forall w, w ∈ ws -> start_cell (p_map w) = start_cell (p_map s) /\ end_cell (p_map w) = end_cell (p_map s).
  Lemma agrees_len s ws i w n : agrees s ws -> ws !! i = Some w -> range_len (p_map w) n = range_len (p_map s) n.
  Proof. intros [_ A] H. destruct (A w) as [E1 E2]; [by eapply elem_of_list_lookup_2|]. unfold range_len. by rewrite E1, E2. Qed.
  Lemma agrees_start s ws i w n : agrees s ws -> ws !! i = Some w -> range_start (p_map w) n = range_start (p_map s) n.
  Proof. intros [_ A] H. destruct (A w) as [E1 E2]; [by eapply elem_of_list_lookup_2|]. unfold range_start. by rewrite E1. Qed.
  Lemma agrees_own s ws i w n : agrees s ws -> ws !! i = Some w -> own_cells (p_map w) n = own_cells (p_map s) n.
  Proof. intros A H. unfold own_cells. by rewrite (agrees_len s ws i w n A H), (agrees_start s ws i w n A H). Qed.
  Lemma agrees_tasks s ws i w : agrees s ws -> ws !! i = Some w -> tasks w = S (length ws).
  Proof. intros [G A] H. destruct (A w) as [E1 E2]; [by eapply elem_of_list_lookup_2|]. unfold tasks. rewrite E1. apply (gm_length _ _ G). Qed.
  Lemma agrees_root s ws : agrees s ws -> tasks s = S (length ws).
  Proof. intros [G A]. apply (gm_length _ _ G). Qed.

  (** ** Announcement *)
  Lemma go_announce m m' (P : prog D R) ws :
    performs (announces m) = Some m' -> m' <> MpiWorkerBreak ->
    rtc step (Config (announce m P) (imap idle ws) (empties (length ws)))
             (Config P (imap (fun i w => work L m' (S i) w (idle i)) ws) (empties (length ws))).
  Proof.
    intros Hm Hb. unfold announce. apply (go_bcast (loop L) _ (fun _ => P)).
    intros i w _. eexists _, _. split; [reflexivity|]. split; [done|]. cbn. rewrite Hm. by destruct m'.
  Qed.

  (** ** Scatter *)
  Lemma go_scatter_src {V} (wrap : list V -> msg D) ty (src : list V) s ws :
    (forall l, shape (wrap l) = (ty, length l)) ->
    agrees s ws -> nxyz (p_map s) <= Z.of_nat (length src) ->
    exists ls : nat -> list V,
      (forall n, (n <= length ws)%nat -> mirrors (p_map s) n src (ls n)) /\
      forall (K : msg D -> prog D R) (Ks : nat -> ps -> msg D -> worker),
        rtc step (Config (scatter_root wrap ty (p_map s) src K)
                         (imap (fun i w => scatter_worker ty (p_map w) (S i) (Ks i w)) ws) (empties (length ws)))
                 (Config (K (wrap (ls O))) (imap (fun i w => Ks i w (wrap (ls (S i)))) ws) (empties (length ws))).
  Proof.
    intros Hw A Hs. destruct A as [G A']. pose proof (conj G A') as A.
    destruct (scatter_pieces G src Hs) as (d & cs & Hd & Hcs & Hl & Hp).
    exists (fun n => default [] (cs !! n)). split.
    - intros n Hn. destruct (lookup_lt_is_Some_2 cs n) as [c Hc]; [lia|]. rewrite Hc. by apply Hp.
    - intros K Ks. unfold scatter_root. rewrite Hd, Hcs, (gm_len G) by lia.
      destruct cs as [|c0 cs]; [done|]. cbn [map lookup list_lookup default].
      apply go_scatter.
      + rewrite Hw. f_equal. by apply (Hp O c0).
      + rewrite map_length. cbn in Hl. lia.
      + intros i w a Hi Ha. change (map ?f ?l) with (f <$> l) in Ha. rewrite list_lookup_fmap in Ha.
        destruct (cs !! i) as [c|] eqn:Ec; [|done]. cbn in Ha. injection Ha as <-.
        assert (S i < S (length ws))%nat as Hlt by (apply lookup_lt_Some in Hi; lia).
        unfold scatter_worker. rewrite (agrees_len s ws i w _ A Hi), (gm_len G) by done.
        eexists _, _, _, _. split; [reflexivity|]. split; [|].
        * rewrite Hw. f_equal. by apply (Hp (S i) c).
        * done.
  Qed.
  Definition put_work (v : vec) (l : list D) s : ps := with_work (upd (p_work s) v l) s.
  Lemma go_scatter_vec v s ws :
    agrees s ws -> nxyz (p_map s) <= Z.of_nat (length (p_root s v)) ->
    exists ls : nat -> list D,
      (forall n, (n <= length ws)%nat -> mirrors (p_map s) n (p_root s v) (ls n)) /\
      forall K Ks,
        rtc step (Config (scatter_vec true 0 v s K)
                         (imap (fun i w => scatter_vec false (S i) v w (Ks i)) ws) (empties (length ws)))
                 (Config (K (put_work v (ls O) s)) (imap Ks (imap (fun i w => put_work v (ls (S i)) w) ws)) (empties (length ws))).
  Proof.
    intros A Hs. destruct (go_scatter_src Nums TNum (p_root s v) s ws ltac:(done) A Hs) as (ls & Hls & H).
    exists ls. split; [done|]. intros K Ks. rewrite imap_imap. unfold scatter_vec.
    apply (H (fun r => K (with_work (upd (p_work s) v (nums_of r)) s)) (fun i w r => Ks i (with_work (upd (p_work w) v (nums_of r)) w))).
  Qed.
  Definition put_mask (l : list Z) s : ps := with_mask_work l s.
  Lemma go_scatter_mask s ws :
    agrees s ws -> nxyz (p_map s) <= Z.of_nat (length (p_mask_root s)) ->
    exists ls : nat -> list Z,
      (forall n, (n <= length ws)%nat -> mirrors (p_map s) n (p_mask_root s) (ls n)) /\
      forall K Ks,
        rtc step (Config (scatter_mask true 0 s K)
                         (imap (fun i w => scatter_mask false (S i) w (Ks i)) ws) (empties (length ws)))
                 (Config (K (put_mask (ls O) s)) (imap Ks (imap (fun i w => put_mask (ls (S i)) w) ws)) (empties (length ws))).
  Proof.
    intros A Hs. destruct (go_scatter_src Ints TInt (p_mask_root s) s ws ltac:(done) A Hs) as (ls & Hls & H).
    exists ls. split; [done|]. intros K Ks. rewrite imap_imap. unfold scatter_mask.
    apply (H (fun r => K (with_mask_work (ints_of r) s)) (fun i w r => Ks i (with_mask_work (ints_of r) w))).
  Qed.

  (** ** Gather *)
  Lemma go_gather_cells s ws width (row : nat -> Z -> list D) v0 (vs : nat -> ps -> list D) dst :
    agrees s ws -> (forall n j, length (row n j) = width) ->
    v0 = part (m := p_map s) row O ->
    (forall i w, ws !! i = Some w -> vs i w = part (m := p_map s) row (S i)) ->
    Z.of_nat (length dst) = nxyz (p_map s) * Z.of_nat width ->
    exists r,
      length r = length dst /\
      (forall j c x n i, 0 <= j -> backward (p_map s) !! Z.to_nat j = Some c -> x ∈ c ->
         owns (start_cell (p_map s)) (end_cell (p_map s)) n j -> (i < width)%nat ->
         r !! Z.to_nat (Z.of_nat i * nxyz (p_map s) + x) = row n j !! i) /\
      (forall x i, 0 <= x < nxyz (p_map s) -> (forall j c, backward (p_map s) !! j = Some c -> x ∉ c) ->
         r !! Z.to_nat (Z.of_nat i * nxyz (p_map s) + x) = dst !! Z.to_nat (Z.of_nat i * nxyz (p_map s) + x)) /\
      forall K Ks,
        rtc step (Config (gather_cells L true 0 s width v0 dst K)
                         (imap (fun i w => gather_cells L false (S i) w width (vs i w) [] (fun _ => Ks i w)) ws) (empties (length ws)))
                 (Config (K r) (imap Ks ws) (empties (length ws))).
  Proof.
    intros A Hrow -> Hvs Hdst. destruct A as [G A']. pose proof (conj G A') as A.
    set (m := p_map s) in *. set (t := S (length ws)) in *.
    destruct (spread_ok G width (concat (map (part (m := m) row) (seq 0 t))) dst) as (r & Hr & Hrl & Hin & Hout).
    { apply (parts_length G width row Hrow). }
    { done. }
    exists r. split_and!; [done| |done|].
    { intros j c x n i Hj Hjc Hx Hn Hi. rewrite (Hin _ _ _ _ Hjc Hx Hi). apply (parts_lookup G width row Hrow _ _ _ Hn Hi). }
    intros K Ks. unfold gather_cells. fold m. rewrite (agrees_root s ws A). fold t. rewrite (gm_lens G).
    set (K' := fun vs0 : list (msg D) => _ : prog D R).
    assert (K r = K' (map (fun n => Nums (part (m := m) row n)) (seq 0 t))) as ->.
    { unfold K'. rewrite (gathered_parts L G width row Hrow _ eq_refl), Hr. done. }
    assert (map (fun n => Nums (part (m := m) row n)) (seq 0 t) = Nums (part (m := m) row 0) :: imap (fun i w => Nums (vs i w)) ws) as E.
    { unfold t. cbn [seq map]. f_equal. rewrite <- seq_shift, map_map.
      rewrite <- (imap_seq (fun i => Nums (part (m := m) row (S i))) ws). apply imap_ext.
      intros i w Hi. cbn. by rewrite (Hvs i w Hi). }
    rewrite E. apply go_gather.
    - intros i w Hi. eexists _, _. done.
    - change (map shape (Nums (part (m := m) row 0) :: imap (fun i w => Nums (vs i w)) ws) = map (λ n : nat, (TNum, n)) (map (λ len : nat, (len * width)%nat) (map (λ n : nat, length (own_cells m n)) (seq 0 t)))).
      rewrite <- E, !map_map. apply map_ext. intros n. cbn. by rewrite (part_length width row Hrow).
  Qed.

  (** ** Errors *)
  Lemma takes_texts {T} flags : forall (ts : list (list ascii)) n0 acc (k : list (list ascii) -> prog D T),
    length ts = length flags ->
    takes (receive_texts flags (S n0) acc k)
      (empties n0 ++ zip_with (fun (f : bool) t => if f then [Ints [Z.of_nat (length t)]; Text t] else []) flags ts)
      (k (acc ++ map snd (filter (fun p : bool * list ascii => p.1 = true) (zip flags ts)))) (empties (n0 + length flags)).
  Proof.
    induction flags as [|f flags IH]; intros [|t ts] n0 acc k Hl; try done.
    - cbn. rewrite !app_nil_r, Nat.add_0_r. constructor.
    - cbn [zip_with length receive_texts]. cbn in Hl.
      assert (forall q (l : list (list (msg D))), (empties n0 ++ q :: l) !! n0 = Some q) as Hq.
      { intros q l. rewrite lookup_app_r by (rewrite replicate_length; done). by rewrite replicate_length, Nat.sub_diag. }
      assert (forall q q' (l : list (list (msg D))), <[n0 := q']> (empties n0 ++ q :: l) = empties n0 ++ q' :: l) as Hi.
      { intros q q' l. rewrite insert_app_r_alt by (rewrite replicate_length; done). by rewrite replicate_length, Nat.sub_diag. }
      assert (forall l : list (list (msg D)), empties n0 ++ [] :: l = empties (S n0) ++ l) as He.
      { intros l. rewrite replicate_S_end, <- app_assoc. done. }
      replace (n0 + S (length flags))%nat with (S n0 + length flags)%nat by lia.
      destruct f.
      + eapply takes_recv.
        { unfold received. rewrite Hq. rewrite decide_True by (cbn; split; [done|lia]). by rewrite Hi. }
        eapply takes_recv.
        { unfold received. rewrite Hq. rewrite decide_True by (cbn; split; [done|lia]). by rewrite Hi. }
        rewrite He. rewrite filter_cons_True by done. cbn [text_of map].
        specialize (IH ts (S n0) (acc ++ [t]) k ltac:(lia)). rewrite <- app_assoc in IH. exact IH.
      + rewrite He. rewrite filter_cons_False by done. by apply IH; lia.
  Qed.

  Definition text_msgs (b : bool) (t : list ascii) : list (msg D) :=
    if b then [Ints [Z.of_nat (length t)]; Text t] else [].
  Lemma failures_zero codes : failures codes = 0 <-> Forall (fun c => c = 0) codes.
  Proof.
    unfold failures. split.
    - intros H. apply Forall_forall. intros c Hc. destruct (decide (c = 0)) as [|Hne]; [done|].
      assert (c ∈ filter (fun c => c <> 0) codes) as Hin by (by apply elem_of_list_filter).
      destruct (filter _ codes); [by apply elem_of_nil in Hin|]. done.
    - intros H. destruct (filter (fun c => c <> 0) codes) as [|c l] eqn:E; [done|].
      assert (c ∈ filter (fun c => c <> 0) codes) as Hin by (rewrite E; left).
      apply elem_of_list_filter in Hin as [Hc Hin]. rewrite Forall_forall in H. by destruct Hc, (H c Hin).
  Qed.
  (** The texts the root adds *)
  Definition reports (c0 : Z) (t0 : list ascii) (cts : list (Z * list ascii)) : list ascii :=
    (if decide (c0 <> 0) then t0 else []) ++ concat (map snd (filter (fun p : Z * list ascii => p.1 <> 0) cts)).
  Lemma go_handle s ws c0 t0 (code : nat -> ps -> Z) (text : nat -> ps -> list ascii) :
    agrees s ws ->
    let b := bool_decide (c0 = 0 /\ Forall (fun c => c = 0) (imap code ws)) in
    let s' := if b then s else with_err (p_err s ++ reports c0 t0 (imap (fun i w => (code i w, text i w)) ws)) s in
    forall K Ks,
      rtc step (Config (handle true c0 t0 s K)
                       (imap (fun i w => handle false (code i w) (text i w) w (Ks i)) ws) (empties (length ws)))
               (Config (K s' b) (imap (fun i w => Ks i w b) ws) (empties (length ws))).
  Proof.
    intros A b s' K Ks. unfold handle. rewrite (agrees_root s ws A).
    assert (codes_of (Ints [c0] :: imap (fun i w => @Ints D [code i w]) ws) = c0 :: imap code ws) as Hcodes.
    { unfold codes_of. cbn [map int_of]. f_equal. apply list_eq. intros i. change (map ?f ?l) with (f <$> l).
      rewrite list_lookup_fmap, !list_lookup_imap. by destruct (ws !! i). }
    eapply rtc_transitive.
    { apply (go_gather (loop L) _ _ _ ws (fun i w => Ints [code i w]) _
               (fun i w => Bcast (Ints [0]) (fun v =>
                 if decide (int_of v = 0) then Ks i w true
                 else if decide (code i w <> 0) then send_text (text i w) (Barrier (Ks i w false))
                 else Barrier (Ks i w false)))).
      - intros i w _. eexists _, _. done.
      - cbn [map]. change (map ?f (imap ?g ws)) with (f <$> imap g ws).
        cbn [replicate map shape fst length]. f_equal. apply list_eq. intros i.
        change (map ?f (replicate ?n ?x)) with (f <$> replicate n x).
        rewrite !list_lookup_fmap, list_lookup_imap. destruct (ws !! i) as [w|] eqn:E; cbn.
        + assert (replicate (length ws) 1%nat !! i = Some 1%nat) as ->.
          { apply lookup_replicate. split; [done|]. by eapply lookup_lt_Some. }
          done.
        + assert (replicate (length ws) 1%nat !! i = None) as ->.
          { apply lookup_replicate_None. by apply lookup_ge_None. }
          done. }
    cbv beta zeta. rewrite Hcodes. set (f := failures (c0 :: imap code ws)).
    eapply rtc_transitive.
    { apply (go_bcast (loop L) _ _ ws _ (fun i w => if decide (f = 0) then Ks i w true
                 else if decide (code i w <> 0) then send_text (text i w) (Barrier (Ks i w false))
                 else Barrier (Ks i w false))).
      intros i w _. eexists _, _. split; [reflexivity|]. done. }
    cbv beta. subst b s'. destruct (decide (f = 0)) as [Hf|Hf].
    - apply failures_zero in Hf. apply Forall_cons in Hf. rewrite bool_decide_eq_true_2 by done. reflexivity.
    - rewrite bool_decide_eq_false_2.
      2:{ intros HH. apply Hf. apply failures_zero. by apply Forall_cons. }
      eapply rtc_transitive.
      { eapply (go_exchange (loop L) _ _ ws (fun i w => text_msgs (bool_decide (code i w <> 0)) (text i w)) _
                 (fun i w => Barrier (Ks i w false))).
        - intros i w _. unfold text_msgs. destruct (decide _) as [H|H].
          + by rewrite bool_decide_eq_true_2.
          + by rewrite bool_decide_eq_false_2.
        - set (flags := map (fun c => bool_decide (c <> 0)) (imap code ws)).
          pose proof (takes_texts flags (imap text ws) 0 []
            (fun ts => Barrier (K (with_err (p_err s ++ (if decide (c0 <> 0) then t0 else []) ++ concat ts) s) false))) as H.
          assert (length flags = length ws) as Hfl by (unfold flags; by rewrite map_length, imap_length).
          rewrite Hfl in H. specialize (H ltac:(by rewrite imap_length)). cbn [app replicate plus] in H.
          assert (zip_with (fun (f : bool) t => if f then [Ints [Z.of_nat (length t)]; Text t] else []) flags (imap text ws)
                  = imap (fun i w => text_msgs (bool_decide (code i w <> 0)) (text i w)) ws) as E.
          { apply list_eq. intros i. rewrite lookup_zip_with. unfold flags. change (map ?f ?l) with (f <$> l).
            rewrite list_lookup_fmap, !list_lookup_imap. by destruct (ws !! i). }
          rewrite E in H. exact H. }
      cbv beta. cbn [app].
      eapply rtc_transitive; [apply (go_barrier (loop L) _ ws _ (fun i w => Ks i w false)); done|].
      unfold reports.
      assert (map snd (filter (fun p : bool * list ascii => p.1 = true) (zip (map (fun c => bool_decide (c <> 0)) (imap code ws)) (imap text ws)))
              = map snd (filter (fun p : Z * list ascii => p.1 <> 0) (imap (fun i w => (code i w, text i w)) ws))) as ->; [|reflexivity].
      clear. revert code text. induction ws as [|w ws IH]; intros code text; [done|]. cbn [imap map zip_with].
      change (zip_with pair ?a ?b) with (zip a b). rewrite !filter_cons. cbn [fst].
      specialize (IH (fun i w => code (S i) w) (fun i w => text (S i) w)).
      change (imap (code ∘ S) ws) with (imap (fun i w => code (S i) w) ws).
      change (imap (text ∘ S) ws) with (imap (fun i w => text (S i) w) ws).
      destruct (decide (code 0%nat w <> 0)) as [H|H].
      + rewrite decide_True by (by apply bool_decide_eq_true_2). cbn [map snd]. f_equal. exact IH.
      + rewrite decide_False; [exact IH|]. by rewrite bool_decide_eq_false_2.
  Qed.
End parts.
