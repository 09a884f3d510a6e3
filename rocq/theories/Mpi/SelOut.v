(** GetSelectedOutput in the MPI build: the processes serve the call. *)
From Coq Require Import ZArith Ascii.
From stdpp Require Import prelude gmap relations.
From Verif.Base Require Import Result.
From Verif.Partition Require Import Spec EndCellsProofs.
From Verif.Mapping Require Import Model Spec.
From Verif.Mpi Require Import Comm Methods Model Spec CommProofs Cells Parts Agree Calls Fetch RunCells.
Local Open Scope Z_scope.

Section rows.
  Context {D : Type} {t : nat} {m : mapping_state} (G : good_map t m).
  Definition first_cell (n : nat) : nat := Z.to_nat (range_start m n).
  Lemma own_at n l : (n < t)%nat -> (l < length (own_cells m n))%nat ->
    own_cells m n !! l = Some (Z.of_nat (first_cell n + l)) /\ 0 <= range_start m n.
  Proof.
    intros Hn Hl. destruct (gm_range G n Hn) as (b & e & Hb & He & H0 & H1 & Hr & Hs).
    unfold own_cells in *. rewrite Hr in *. change (map ?f ?l) with (f <$> l) in *. rewrite fmap_length, seq_length in Hl.
    rewrite list_lookup_fmap, lookup_seq_lt by done. cbn. unfold first_cell. rewrite Hs in *. split; [f_equal; lia|lia].
  Qed.
  Lemma so_put_ok n ncol (data dst : list D) (f : Z -> nat -> D) :
    (n < t)%nat ->
    (forall l j k, own_cells m n !! l = Some j -> (k < ncol)%nat -> data !! (k * length (own_cells m n) + l)%nat = Some (f j k)) ->
    Z.of_nat (length dst) = nxyz m * Z.of_nat ncol ->
    exists r, so_put m (first_cell n) (length (own_cells m n), ncol, data) dst = Some r /\ length r = length dst /\
      (forall j c x k, j ∈ own_cells m n -> backward m !! Z.to_nat j = Some c -> x ∈ c -> (k < ncol)%nat ->
         r !! Z.to_nat (Z.of_nat k * nxyz m + x) = Some (f j k)) /\
      (forall x k, 0 <= x < nxyz m -> (forall j c, j ∈ own_cells m n -> backward m !! Z.to_nat j = Some c -> x ∉ c) ->
         r !! Z.to_nat (Z.of_nat k * nxyz m + x) = dst !! Z.to_nat (Z.of_nat k * nxyz m + x)).
  Proof.
    intros Hn Hv Hd. unfold so_put. set (cs := own_cells m n) in *.
    assert (Hcs : forall j, j ∈ cs -> 0 <= j < count_chemistry m).
    { intros j Hj. apply (own_cells_elem G n j Hn) in Hj. by apply (owns_in_range _ _ _ _ _ (gm_split _ _ G) Hj). }
    assert (Hbk : forall j, j ∈ cs -> exists c, backward m !! Z.to_nat j = Some c).
    { intros j Hj. destruct (gm_cell G j (Hcs j Hj)) as (x & c & Hc & _). by exists (x :: c). }
    set (cell := fun l => Z.of_nat (first_cell n + l)).
    assert (Hat : forall l, (l < length cs)%nat -> cs !! l = Some (cell l)) by (intros l Hl; by apply own_at).
    set (wr := fun k l => match backward m !! Z.to_nat (cell l) with
                          | Some gs => map (fun x => (Z.of_nat k * nxyz m + x, f (cell l) k)) gs
                          | None => [] end).
    rewrite (mapM_fun _ (fun k => map (wr k) (seq 0 (length cs)))).
    2:{ intros k Hk. apply elem_of_seq in Hk. apply mapM_fun. intros l Hl. apply elem_of_seq in Hl.
        destruct (Hbk (cell l)) as [c Hc]; [eapply elem_of_list_lookup_2, Hat; lia|]. unfold wr. rewrite Hc.
        unfold cell in Hc. rewrite Nat2Z.id in Hc. rewrite Hc. rewrite (Hv l (cell l) k); [done|apply Hat; lia|lia]. }
    set (W := concat (concat (map (fun k => map (wr k) (seq 0 (length cs))) (seq 0 ncol)))).
    assert (Hw : forall z y, (z, y) ∈ W <->
              exists j c x k, j ∈ cs /\ backward m !! Z.to_nat j = Some c /\ x ∈ c /\ (k < ncol)%nat /\ z = Z.of_nat k * nxyz m + x /\ y = f j k).
    { intros z y. unfold W. rewrite elem_of_concat. setoid_rewrite elem_of_concat. split.
      - intros (l & (ll & Hll & Hl) & Hz). apply elem_of_list_fmap in Hll as (k & -> & Hk).
        apply elem_of_list_fmap in Hl as (i & -> & Hi). apply elem_of_seq in Hk. apply elem_of_seq in Hi.
        assert (cell i ∈ cs) as Hin by (eapply elem_of_list_lookup_2, Hat; lia).
        destruct (Hbk _ Hin) as [c Hc]. unfold wr in Hz. rewrite Hc in Hz.
        apply elem_of_list_fmap in Hz as (x & [= -> ->] & Hx). exists (cell i), c, x, k. split_and!; try done. lia.
      - intros (j & c & x & k & Hj & Hc & Hx & Hk & -> & ->).
        apply elem_of_list_lookup in Hj as [l Hl]. pose proof (lookup_lt_Some _ _ _ Hl) as Hll.
        rewrite (Hat l Hll) in Hl. injection Hl as <-.
        exists (wr k l). split.
        + exists (map (wr k) (seq 0 (length cs))). split; apply elem_of_list_fmap.
          * exists k. split; [done|]. apply elem_of_seq. lia.
          * exists l. split; [done|]. apply elem_of_seq. lia.
        + unfold wr. rewrite Hc. apply elem_of_list_fmap. by exists x. }
    destruct (store_fun W dst) as (r & Er & Hr & Hin & Hout).
    - intros z y Hz. apply Hw in Hz as (j & c & x & k & Hj & Hc & Hx & Hk & -> & _).
      destruct (gm_cells _ _ G _ _ Hc) as [_ Hcx]. specialize (Hcx x Hx). nia.
    - intros z y y' H1 H2. apply Hw in H1 as (j & c & x & k & Hj & Hc & Hx & Hk & Hz & ->).
      apply Hw in H2 as (j' & c' & x' & k' & Hj' & Hc' & Hx' & Hk' & Hz' & ->).
      destruct (gm_cells _ _ G _ _ Hc) as [_ Hcx]. destruct (gm_cells _ _ G _ _ Hc') as [_ Hcx'].
      destruct (key_inj (nxyz m) k k' x x') as [-> ->]; [by apply Hcx|by apply Hcx'|congruence|].
      assert (Z.to_nat j' = Z.to_nat j) by (by eapply (gm_disjoint _ _ G)).
      pose proof (Hcs j Hj). pose proof (Hcs j' Hj'). assert (j' = j) as -> by lia. done.
    - exists r. split_and!; [done|done| |].
      + intros j c x k Hj Hc Hx Hk. apply Hin. apply Hw. by exists j, c, x, k.
      + intros x k Hx Hno. apply Hout; [nia|]. intros y Hy.
        apply Hw in Hy as (j & c & x' & k' & Hj & Hc & Hx' & Hk' & Hz & _).
        destruct (gm_cells _ _ G _ _ Hc) as [_ Hcx].
        destruct (key_inj (nxyz m) k k' x x') as [-> ->]; [done|by apply Hcx|done|]. by apply (Hno j c).
  Qed.

  Definition so_msgs (ncol : nat) (data : nat -> list D) (n : nat) : list (msg D) :=
    [Ints [Z.of_nat (length (own_cells m n)); Z.of_nat ncol]; Nums (data n)].
  (** The root receives the tables of the processes [n0 + 1, ..., n0 + cnt] *)
  Lemma so_takes ncol (data : nat -> list D) (f : nat -> Z -> nat -> D) cnt : forall n0 dst,
    (n0 + cnt < t)%nat ->
    (forall n l j k, own_cells m n !! l = Some j -> (k < ncol)%nat -> data n !! (k * length (own_cells m n) + l)%nat = Some (f n j k)) ->
    (forall n, length (data n) = (length (own_cells m n) * ncol)%nat) ->
    Z.of_nat (length dst) = nxyz m * Z.of_nat ncol ->
    exists r, length r = length dst /\
      (forall T (K : list D -> prog D T), takes (so_receive m (seq (S n0) cnt) (first_cell (S n0)) dst K)
        (replicate n0 [] ++ map (so_msgs ncol data) (seq (S n0) cnt))
        (K r) (replicate (n0 + cnt) [])) /\
      (forall n j c y k, (n0 < n <= n0 + cnt)%nat -> j ∈ own_cells m n -> backward m !! Z.to_nat j = Some c -> y ∈ c -> (k < ncol)%nat ->
         r !! Z.to_nat (Z.of_nat k * nxyz m + y) = Some (f n j k)) /\
      (forall y k, 0 <= y < nxyz m ->
         (forall n j c, (n0 < n <= n0 + cnt)%nat -> j ∈ own_cells m n -> backward m !! Z.to_nat j = Some c -> y ∉ c) ->
         r !! Z.to_nat (Z.of_nat k * nxyz m + y) = dst !! Z.to_nat (Z.of_nat k * nxyz m + y)).
  Proof.
    induction cnt as [|cnt IH]; intros n0 dst Ht Hf Hlen Hd.
    - exists dst. split; [done|]. split; [intros; cbn; rewrite app_nil_r, Nat.add_0_r; constructor|]. split; [lia|done].
    - cbn [seq map so_receive].
      assert (forall q (l : list (list (msg D))), (replicate n0 [] ++ q :: l) !! n0 = Some q) as Hq.
      { intros q l. rewrite lookup_app_r by (rewrite replicate_length; done). by rewrite replicate_length, Nat.sub_diag. }
      assert (forall q q' (l : list (list (msg D))), <[n0 := q']> (replicate n0 [] ++ q :: l) = replicate n0 [] ++ q' :: l) as Hi.
      { intros q q' l. rewrite insert_app_r_alt by (rewrite replicate_length; done). by rewrite replicate_length, Nat.sub_diag. }
      assert (forall l : list (list (msg D)), replicate n0 [] ++ [] :: l = replicate (S n0) [] ++ l) as He.
      { intros l. rewrite replicate_S_end, <- app_assoc. done. }
      destruct (so_put_ok (S n0) ncol (data (S n0)) dst (f (S n0))) as (d1 & E1 & Hl1 & Hin1 & Hout1); [lia|by apply Hf|done|].
      destruct (IH (S n0) d1) as (r & Hlr & Htk & Hin & Hout); [lia|done|done|lia|].
      exists r. split; [lia|]. split; [|split].
      + intros T K. eapply takes_recv.
        { unfold received, so_msgs. rewrite Hq, decide_True by (cbn; split; [done|lia]). by rewrite Hi. }
        cbn [ints_of]. rewrite !Nat2Z.id. eapply takes_recv.
        { unfold received. rewrite Hq, decide_True by (cbn; rewrite Hlen; split; [done|lia]). by rewrite Hi. }
        cbn [nums_of]. rewrite E1, He. replace (n0 + S cnt)%nat with (S n0 + cnt)%nat by lia.
        destruct cnt as [|cnt]; [cbn in *; exact (Htk T K)|].
        replace (first_cell (S n0) + length (own_cells m (S n0)))%nat with (first_cell (S (S n0))); [exact (Htk T K)|].
        unfold first_cell. rewrite (gm_next G (S n0)) by lia.
        destruct (gm_range G (S n0)) as (b & e & Hb & Hend & H0 & H1 & Hr & Hs); [lia|]. rewrite Hs. lia.
      + intros n j c y k Hnn Hj Hc Hy Hk. destruct (decide (n = S n0)) as [->|Hne].
        * rewrite Hout; [by apply (Hin1 j c)| |].
          { destruct (gm_cells _ _ G _ _ Hc) as [_ Hcx]. by apply Hcx. }
          intros n' j' c' Hn' Hj' Hc' Hy'.
          assert (Z.to_nat j' = Z.to_nat j) as Hjj by (by eapply (gm_disjoint _ _ G)).
          apply (own_cells_elem G) in Hj; [|lia]. apply (own_cells_elem G) in Hj'; [|lia].
          pose proof (owns_in_range _ _ _ _ _ (gm_split _ _ G) Hj). pose proof (owns_in_range _ _ _ _ _ (gm_split _ _ G) Hj').
          assert (j' = j) as -> by lia. pose proof (valid_split_owner_unique _ _ _ _ _ _ (gm_split _ _ G) Hj Hj'). lia.
        * apply (Hin n j c); [lia|done..].
      + intros y k Hy Hno. rewrite Hout; [|done|].
        * apply Hout1; [done|]. intros j c Hj Hc. apply (Hno (S n0) j c); [lia|done..].
        * intros n j c Hnn Hj Hc. apply (Hno n j c); [lia|done..].
  Qed.
End rows.

Section selout.
  Context {D X : Type} (L : local D X) {R : Type}.
  Notation ps := (ps D X).
  Notation step := (step (loop L) (R := R)).
  Notation idle := (idle (D := D) (X := X)).
  Notation empties n := (replicate n (@nil (msg D))).
  Implicit Types (s w : ps) (ws : list ps).

  Lemma selout_served k s ws u ncol old : in_step k s ws -> tables L u ncol s ws ->
    exists s' ws' a, length ws' = length ws /\ serves L (R := R) (so_call L old s) ws s' ws' a /\
      in_step k s' ws' /\ so_result L u ncol old s ws a s' ws'.
  Proof.
    intros I (Hu & Hcur & Htab). pose proof (is_map _ _ _ I) as G. pose proof (nx_nonneg _ _ _ I) as Hnx.
    set (m := p_map s). change (good_map (S (length ws)) m) in G.
    set (data := fun n => default [] ((fun w => match l_table L (p_x w) u with Some (_, _, d) => d | None => [] end) <$> (s :: ws) !! n)).
    assert (Hd : forall n w, (s :: ws) !! n = Some w -> l_table L (p_x w) u = Some (length (own_cells m n), ncol, data n) /\
                length (data n) = (length (own_cells m n) * ncol)%nat).
    { intros n w Hw. destruct (Htab n w Hw) as (d & E1 & E2). rewrite (cells_from_own k s ws n) in E1, E2; [|done|apply lookup_lt_Some in Hw; exact Hw|done|apply lookup_lt_Some in Hw; exact Hw].
      unfold data. rewrite Hw. cbn. unfold m. by rewrite E1. }
    (* beyond the processes there are no cells *)
    assert (Hlen : forall n, length (data n) = (length (own_cells m n) * ncol)%nat).
    { intros n. destruct ((s :: ws) !! n) as [w|] eqn:Hw; [by eapply Hd|]. unfold data. rewrite Hw. cbn.
      unfold own_cells, range_len. rewrite lookup_ge_None_2; [done|]. rewrite (gm_length _ _ G). apply lookup_ge_None in Hw. exact Hw. }
    set (f := fun n j k => default (l_zero L) (data n !! (k * length (own_cells m n) + Z.to_nat (j - range_start m n))%nat)).
    assert (Hf : forall n l j k, own_cells m n !! l = Some j -> (k < ncol)%nat -> data n !! (k * length (own_cells m n) + l)%nat = Some (f n j k)).
    { intros n l j k0 Hl Hk. pose proof (lookup_lt_Some _ _ _ Hl) as Hll.
      assert (j = range_start m n + Z.of_nat l) as ->.
      { unfold own_cells in Hl. destruct (range_len m n); [|done]. change (map ?g ?x) with (g <$> x) in Hl. rewrite list_lookup_fmap in Hl.
        destruct (seq 0 n0 !! l) as [l'|] eqn:El; [|done]. apply lookup_seq in El as [-> _]. cbn in Hl. injection Hl as <-. lia. }
      unfold f. replace (Z.to_nat (range_start m n + Z.of_nat l - range_start m n)) with l by lia.
      destruct (lookup_lt_is_Some_2 (data n) (k0 * length (own_cells m n) + l)) as [y Hy]; [rewrite Hlen; nia|]. by rewrite Hy. }
    set (dst := resize (Z.to_nat (nxyz m) * ncol) (l_zero L) old).
    assert (Hdst : Z.of_nat (length dst) = nxyz m * Z.of_nat ncol) by (unfold dst; rewrite resize_length; unfold m; lia).
    destruct (so_put_ok G O ncol (data O) dst (f O)) as (d1 & E1 & Hl1 & Hin1 & Hout1); [lia|by apply Hf|done|].
    destruct (so_takes G ncol data f (length ws) O d1) as (r & Hlr & Htk & Hin & Hout); [lia|done|done|fold m in Hl1 |- *; lia|].
    set (sc := clear s). set (wsc := imap (fun _ w => clear w) ws).
    assert (in_step k sc wsc) as Ic by (apply (in_step_frame k s); [done|apply frame_clear|intros; apply frame_clear]).
    assert (length wsc = length ws) as Hlc by apply imap_length.
    exists sc, wsc, (Vector IRM_OK r). split; [done|]. split; [|split; [done|split; [by apply pairwise_imap|exists r; split; [done|]]]].
    - intros K. unfold so_call. eapply rtc_transitive; [by apply (go_announce L GetSelectedOutput GetSelectedOutput)|].
      cbn [work]. change (p_x (clear s)) with (p_x s). rewrite Hcur. unfold so_worker.
      eapply rtc_transitive.
      { apply (go_bcast (loop L) _ _ ws _ (fun i w => Send (Ints [Z.of_nat (length (own_cells m (S i))); Z.of_nat ncol])
          (Send (Nums (data (S i))) (so_end L false 0 [] (clear w) (fun s1 _ => idle i s1))))).
        intros i w Hw. eexists _, _. split; [reflexivity|]. split; [done|]. cbv zeta. cbn [int_of].
        rewrite decide_False by lia. change (p_x (clear w)) with (p_x w). destruct (Hd (S i) w Hw) as [-> Hl].
        rewrite take_ge by lia. done. }
      cbv beta. rewrite decide_False by lia. destruct (Hd O s eq_refl) as [-> _].
      change (p_map (clear s)) with m. fold dst.
      assert (first_cell (m := m) O = O) as E0 by (unfold first_cell; by rewrite (gm_first G)).
      rewrite E0 in E1. fold m in E1. rewrite E1.
      assert (tasks (clear s) - 1 = length ws)%nat as -> by (change (tasks (clear s)) with (tasks s); rewrite (agrees_root s ws) by (by eapply in_step_agrees); lia).
      assert (length ws = O \/ first_cell (m := m) 1 = length (own_cells m O)) as Hfc.
      { destruct (decide (length ws = O)) as [|Hne]; [by left|right]. unfold first_cell. rewrite (gm_next G O) by lia. rewrite (gm_first G). lia. }
      eapply rtc_transitive.
      { eapply (go_exchange (loop L) _ _ ws (fun i w => so_msgs (m := m) ncol data (S i)) _ (fun i w => so_end L false 0 [] (clear w) (fun s1 _ => idle i s1))).
        - intros i w Hw. reflexivity.
        - assert (imap (fun i (_ : ps) => so_msgs (m := m) ncol data (S i)) ws = map (so_msgs (m := m) ncol data) (seq 1 (length ws))) as ->.
          { rewrite imap_seq, <- seq_shift, map_map. done. }
          specialize (Htk R (fun so => so_end L true 0 so (clear s) K)). cbn [replicate app plus] in Htk. fold m in Htk.
          destruct Hfc as [Hz|Hfc]; [|rewrite Hfc in Htk; exact Htk].
          rewrite Hz in Htk |- *. exact Htk. }
      unfold so_end.
      pose proof (go_handle L (R := R) sc wsc 0 [] (fun _ _ => 0) (fun _ _ => []) (in_step_agrees _ _ _ Ic)
        (fun s1 b => let r0 := if b : bool then IRM_OK else IRM_FAIL in K (returned L r0 s1) (Vector r0 r))
        (fun i s1 b => let r0 := if b : bool then IRM_OK else IRM_FAIL in idle i (returned L r0 s1))) as H.
      cbv zeta in H. rewrite bool_decide_eq_true_2 in H.
      2:{ split; [done|]. apply Forall_forall. intros c Hc. by apply elem_of_imap in Hc as (? & ? & _ & ->). }
      rewrite Hlc in H. unfold wsc in H at 1. rewrite imap_imap in H. unfold returned in H. rewrite !decide_True in H by done. exact H.
    - split; [unfold m in *; lia|]. split.
      + intros j c x n w i Hj Hc Hx Hn Hw Hi.
        assert (n < S (length ws))%nat as Hnl by (apply lookup_lt_Some in Hw; exact Hw).
        pose proof (proj2 (own_cells_elem G n j Hnl) Hn) as Hjn.
        destruct (gm_range G n Hnl) as (b & e & Hb & He & H0 & H1 & Hr & Hs).
        destruct (Hd n w Hw) as [Et _].
        exists (f n j i). split.
        * destruct n as [|n].
          -- rewrite Hout; [by apply (Hin1 j c)| |].
             { destruct (gm_cells _ _ G _ _ Hc) as [_ Hcx]. by apply Hcx. }
             intros n' j' c' Hn' Hj' Hc' Hx'.
             assert (Z.to_nat j' = Z.to_nat j) as Hjj by (by eapply (gm_disjoint _ _ G)).
             apply (own_cells_elem G) in Hj'; [|lia].
             pose proof (owns_in_range _ _ _ _ _ (gm_split _ _ G) Hj').
             assert (j' = j) as -> by lia. pose proof (valid_split_owner_unique _ _ _ _ _ _ (gm_split _ _ G) Hn Hj'). lia.
          -- by apply (Hin (S n) j c x i); [lia|..].
        * exists b, (length (own_cells m n)), (data n). split; [done|]. split; [done|].
          apply elem_of_list_lookup in Hjn as [l Hl]. rewrite <- (Hf n l j i Hl Hi). do 2 f_equal.
          unfold own_cells in Hl. fold m in Hr, Hs. rewrite Hr, Hs in Hl. change (map ?g ?y) with (g <$> y) in Hl. rewrite list_lookup_fmap in Hl.
          destruct (seq _ _ !! l) as [l'|] eqn:El; [|done]. apply lookup_seq in El as [-> _]. cbn in Hl. injection Hl as <-. lia.
      + intros x i Hx Hno Hi. rewrite Hout; [apply Hout1; [done|]|done|]; intros; by eapply Hno.
  Qed.
End selout.
