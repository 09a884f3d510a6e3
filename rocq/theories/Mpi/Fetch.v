(** Concentrations in the MPI build: the processes serve the calls. *)
From Coq Require Import ZArith Ascii.
From stdpp Require Import prelude gmap relations.
From Verif.Base Require Import Result.
From Verif.Partition Require Import Spec EndCellsProofs.
From Verif.Mapping Require Import Model Spec.
From Verif.Mpi Require Import Comm Methods Model Spec CommProofs Cells Parts Agree Calls.
Local Open Scope Z_scope.

Section fetch.
  Context {D X : Type} (L : local D X) {R : Type}.
  Notation ps := (ps D X).
  Notation step := (@step D R (nat * ps) (loop L)).
  Notation serves := (@serves D X L R).
  Notation empties n := (replicate n (@nil (msg D))).
  Implicit Types s w : ps.
  Implicit Types ws : list ps.

  (** The four numbers of a cell, as the root has them *)
  Definition given_of s (j : Z) : D * D * D * D :=
    match backward (p_map s) !! Z.to_nat j with
    | Some (x :: _) =>
        let at_ v := default (l_zero L) (p_root s v !! Z.to_nat x) in
        (at_ Density, at_ Porosity, at_ RV, at_ Saturation)
    | _ => (l_zero L, l_zero L, l_zero L, l_zero L)
    end.
  Lemma given_of_given k s ws j : in_step k s ws -> 0 <= j < count_chemistry (p_map s) -> given s j (given_of s j).
  Proof.
    intros I Hj. destruct (gm_cell (is_map _ _ _ I) j Hj) as (x & c & Hc & Hx).
    exists x, c. split; [done|]. unfold given_of. rewrite Hc.
    assert (forall v, v ∈ four -> p_root s v !! Z.to_nat x = Some (default (l_zero L) (p_root s v !! Z.to_nat x))) as H.
    { intros v Hv. destruct (lookup_lt_is_Some_2 (p_root s v) (Z.to_nat x)) as [y Hy].
      - pose proof (is_full _ _ _ I v Hv). lia.
      - by rewrite Hy. }
    split_and!; apply H; unfold four; set_solver.
  Qed.
  Lemma params_given k s ws n w l j : in_step k s ws -> (forall v, v ∈ four -> v ∈ k_vecs k) ->
    (s :: ws) !! n = Some w -> own_cells (p_map s) n !! l = Some j -> params w l = Some (given_of s j).
  Proof.
    intros I Hk Hw Hl.
    assert (n < S (length ws))%nat as Hn by (apply lookup_lt_Some in Hw; exact Hw).
    pose proof (is_map _ _ _ I) as G.
    destruct (gm_range G n Hn) as (b & e & Hb & He & Hbe & Hec & Hb0 & _).
    assert (l < length (own_cells (p_map s) n))%nat as Hll by (by eapply lookup_lt_Some).
    pose proof (own_cells_length (m := p_map s) n b e Hb He ltac:(lia)) as Hlen.
    rewrite (own_cells_lookup n b e l Hb He Hll) in Hl. injection Hl as <-.
    destruct (gm_cell G (b + Z.of_nat l) ltac:(lia)) as (x & c & Hc & Hx).
    assert (forall v, v ∈ four -> p_work w v !! l = Some (default (l_zero L) (p_root s v !! Z.to_nat x))) as H.
    { intros v Hv. destruct (is_vecs _ _ _ I v n w (Hk v Hv) Hw) as (b' & e' & Hb' & He' & _ & Hm).
      assert (b' = b) as -> by congruence. assert (e' = e) as -> by congruence.
      destruct (Hm (b + Z.of_nat l) ltac:(lia)) as (x' & c' & Hc' & E). rewrite Hc in Hc'. injection Hc' as <- <-.
      replace (Z.to_nat (b + Z.of_nat l - b)) with l in E by lia. rewrite E.
      destruct (lookup_lt_is_Some_2 (p_root s v) (Z.to_nat x)) as [y Hy].
      - pose proof (is_full _ _ _ I v Hv). lia.
      - by rewrite Hy. }
    unfold params, given_of. rewrite Hc. rewrite !H by (unfold four; set_solver). done.
  Qed.
  Lemma own_all k s ws n w : in_step k s ws -> (s :: ws) !! n = Some w -> own_cells (p_map w) n = own_cells (p_map s) n.
  Proof.
    intros I Hw. destruct n; [by injection Hw as <-|]. apply (agrees_own s ws n); [by eapply in_step_agrees|done].
  Qed.
  Lemma val_all k s ws n w : in_step k s ws -> (s :: ws) !! n = Some w -> p_val w = p_val s.
  Proof.
    intros I Hw. destruct n; [by injection Hw as <-|]. apply (is_val _ _ _ I). by eapply elem_of_list_lookup_2.
  Qed.
  Lemma nx_nonneg k s ws : in_step k s ws -> 0 <= nxyz (p_map s).
  Proof.
    intros I. pose proof (is_map _ _ _ I) as G. destruct (gm_range G O ltac:(lia)) as (b & e & _ & _ & Hbe & Hec & _).
    destruct (gm_cell G b) as (x & c & _ & Hx); lia.
  Qed.

  (** ** GetConcentrations *)
  Lemma conc_served k s ws old : in_step k s ws -> (forall v, v ∈ four -> v ∈ k_vecs k) ->
    exists s' ws' a, length ws' = length ws /\ serves (conc_call L s) ws s' ws' a /\
      in_step k s' ws' /\ call_result L (GetConc old) s ws a s' ws' /\ frame s s' /\ pairwise (fun _ => frame) (s :: ws) (s' :: ws').
  Proof.
    intros I Hk. unfold conc_call. cbn [call_result]. change (p_map (clear s)) with (p_map s).
    set (sc := clear s). set (wsc := imap (fun _ w => clear w) ws).
    assert (in_step k sc wsc) as Ic by (apply (in_step_frame k s); [done|apply frame_clear|intros; apply frame_clear]).
    assert (length wsc = length ws) as Hlc by apply imap_length.
    pose proof (nx_nonneg _ _ _ I) as Hnx.
    set (row := fun n j => map (fun c => l_conc L (x_of s ws n) (p_val s) (given_of s j) j c) (seq 0 (l_ncomp L))).
    assert (Hrow : forall n j, length (row n j) = l_ncomp L) by (intros; unfold row; by rewrite map_length, seq_length).
    assert (Hconcs : forall n w, (s :: ws) !! n = Some w -> concs L n (clear w) = Some (part (m := p_map s) row n)).
    { intros n w Hw. unfold concs, part. change (p_map (clear w)) with (p_map w). rewrite (own_all k s ws n w I Hw).
      rewrite (mapM_imap _ (row n)); [done|]. intros l j Hl. cbn [fst snd].
      change (params (clear w) l) with (params w l). rewrite (params_given k s ws n w l j I Hk Hw Hl).
      cbn [p_val p_x clear with_err]. rewrite (val_all k s ws n w I Hw). unfold row. by rewrite (x_of_at s ws n w Hw). }
    set (dst := replicate (Z.to_nat (nxyz (p_map s)) * l_ncomp L) (l_inactive L)).
    destruct (go_gather_cells L (R := R) sc wsc (l_ncomp L) row (part (m := p_map s) row O)
                (fun i w => part (m := p_map s) row (S i)) dst) as (r & Hrl & Hin & Hout & Hgo).
    { by eapply in_step_agrees. }
    { done. }
    { done. }
    { done. }
    { unfold dst. rewrite replicate_length. cbn. lia. }
    rewrite Hlc in Hgo. change (p_map sc) with (p_map s) in *.
    exists sc, wsc, (Vector IRM_OK r).
    split; [done|]. split; [|split; [done|split; [|split]]].
    - intros K. eapply rtc_transitive; [by apply (go_announce L GetConcentrations GetConcentrations)|].
      cbn [work]. unfold conc_worker, conc_root. unfold sc at 1. rewrite (Hconcs O s eq_refl).
      eapply go_ext.
      { intros i w Hw. rewrite (Hconcs (S i) w Hw). reflexivity. }
      replace (imap (fun i w => gather_cells L false (S i) (clear w) (l_ncomp L) (part (m := p_map s) row (S i)) [] (fun _ => idle i (clear w))) ws)
        with (imap (fun i w => gather_cells L false (S i) w (l_ncomp L) (part (m := p_map s) row (S i)) [] (fun _ => idle i w)) wsc)
        by (unfold wsc; by rewrite imap_imap).
      apply (Hgo (fun r => K sc (Vector IRM_OK r)) idle).
    - split; [by apply pairwise_imap|]. exists r. split; [done|]. split; [unfold dst in Hrl; rewrite replicate_length in Hrl; lia|]. split.
      + intros j c x n w i Hj Hjc Hx Hn Hw Hi. rewrite (Hin j c x n i Hj Hjc Hx Hn Hi).
        unfold row. change (map ?f ?l) with (f <$> l). rewrite list_lookup_fmap, lookup_seq_lt by done. cbn.
        eexists. split; [reflexivity|]. exists (given_of s j). rewrite (x_of_at s ws n w Hw). split; [|done].
        apply (given_of_given k s ws); [done|]. split; [done|]. by eapply (gm_backward (is_map _ _ _ I)).
      + intros x i Hx Hno Hi. by apply Hout.
    - apply frame_clear.
    - apply pairwise_imap; [apply frame_clear|]. intros. apply frame_clear.
  Qed.

  (** ** SetConcentrations *)
  Definition values_of (t : list D) s (j : Z) : list D :=
    match backward (p_map s) !! Z.to_nat j with
    | Some (x :: _) => map (fun k => default (l_zero L) (t !! Z.to_nat (Z.of_nat k * nxyz (p_map s) + x))) (seq 0 (l_ncomp L))
    | _ => replicate (l_ncomp L) (l_zero L)
    end.
  Lemma values_of_length t s j : length (values_of t s j) = l_ncomp L.
  Proof. unfold values_of. destruct (backward _ !! _) as [[|x c]|]; [by rewrite replicate_length|by rewrite map_length, seq_length|by rewrite replicate_length]. Qed.
  Lemma conc_pick_ok t s n : good_map n (p_map s) -> nxyz (p_map s) * Z.of_nat (l_ncomp L) <= Z.of_nat (length t) ->
    exists d, conc_pick L (p_map s) t = Some d /\ Z.of_nat (length d) = count_chemistry (p_map s) /\
      (forall j, 0 <= j < count_chemistry (p_map s) -> d !! Z.to_nat j = Some (values_of t s j)) /\
      (forall j x c k, backward (p_map s) !! Z.to_nat j = Some (x :: c) -> (k < l_ncomp L)%nat ->
         values_of t s j !! k = t !! Z.to_nat (Z.of_nat k * nxyz (p_map s) + x)).
  Proof.
    intros G Ht. unfold conc_pick. rewrite decide_True by apply (gm_count _ _ G).
    assert (Hat : forall x k, 0 <= x < nxyz (p_map s) -> (k < l_ncomp L)%nat ->
              0 <= Z.of_nat k * nxyz (p_map s) + x /\
              t !! Z.to_nat (Z.of_nat k * nxyz (p_map s) + x) = Some (default (l_zero L) (t !! Z.to_nat (Z.of_nat k * nxyz (p_map s) + x)))).
    { intros x k Hx Hk. split; [nia|]. destruct (lookup_lt_is_Some_2 t (Z.to_nat (Z.of_nat k * nxyz (p_map s) + x))) as [y Hy]; [nia|]. by rewrite Hy. }
    rewrite (mapM_fun _ (fun c => match c with
        | x :: _ => map (fun k => default (l_zero L) (t !! Z.to_nat (Z.of_nat k * nxyz (p_map s) + x))) (seq 0 (l_ncomp L))
        | [] => [] end)).
    2:{ intros c Hc. apply elem_of_list_lookup in Hc as [j Hj]. destruct (gm_cells _ _ G _ _ Hj) as [Hne Hcx].
        destruct c as [|x c]; [done|]. apply mapM_fun. intros k Hk. apply elem_of_seq in Hk.
        destruct (Hat x k) as [H1 H2]; [apply Hcx; left|lia|]. rewrite decide_True by done. exact H2. }
    eexists. split; [reflexivity|]. rewrite map_length. split; [apply (gm_count _ _ G)|]. split.
    - intros j Hj. destruct (gm_cell G j Hj) as (x & c & Hc & _). change (map ?f (backward ?m)) with (f <$> backward m).
      rewrite list_lookup_fmap, Hc. cbn. unfold values_of. by rewrite Hc.
    - intros j x c k Hc Hk. unfold values_of. rewrite Hc. change (map ?f ?l) with (f <$> l).
      rewrite list_lookup_fmap, lookup_seq_lt by done. cbn. symmetry. apply Hat; [|done].
      destruct (gm_cells _ _ G _ _ Hc) as [_ Hcx]. apply Hcx. left.
  Qed.
  Lemma conc_store_ok (P : Z -> D * D * D * D) (V : Z -> list D) n w cells :
    own_cells (p_map w) n = cells -> (forall l j, cells !! l = Some j -> params w l = Some (P j)) ->
    (forall j, length (V j) = l_ncomp L) ->
    conc_store L n (concat (map V cells)) w =
      Some (with_x (foldl (fun x j => l_set_conc L x (p_val w) (P j) j (V j)) (p_x w) cells) w).
  Proof.
    intros Hc Hp HV. unfold conc_store. rewrite Hc.
    set (F := fun (s'0 : option ps) (li : nat * Z) => _ : option ps).
    assert (forall pre post x0, cells = pre ++ post ->
              foldl F (Some (with_x x0 w)) (imap (fun l i => ((length pre + l)%nat, i)) post) =
              Some (with_x (foldl (fun x j => l_set_conc L x (p_val w) (P j) j (V j)) x0 post) w)) as H.
    { intros pre post. revert pre. induction post as [|j post IH]; intros pre x0 E; [done|]. cbn [imap foldl].
      assert (cells !! length pre = Some j) as Hj by (rewrite E; apply list_lookup_middle; done).
      assert (F (Some (with_x x0 w)) ((length pre + 0)%nat, j) = Some (with_x (l_set_conc L x0 (p_val w) (P j) j (V j)) w)) as ->.
      { unfold F. cbn [fst snd]. rewrite Nat.add_0_r, (Hp _ _ Hj). cbn [p_x with_x].
        assert (take (l_ncomp L) (drop (length pre * l_ncomp L) (concat (map V cells))) = V j) as ->; [|done].
        rewrite E. change (map V ?l) with (V <$> l). rewrite fmap_app, concat_app.
        rewrite drop_app_alt.
        2:{ rewrite (concat_width (l_ncomp L)), fmap_length; [done|]. intros l Hl. apply elem_of_list_fmap in Hl as (? & -> & _). apply HV. }
        cbn [fmap list_fmap concat]. by rewrite take_app_alt by (by rewrite HV). }
      rewrite <- (IH (pre ++ [j])).
      - f_equal. apply imap_ext. intros i y _. cbn. f_equal. rewrite app_length. cbn. lia.
      - by rewrite E, <- app_assoc. }
    specialize (H [] cells (p_x w) eq_refl). cbn [length plus] in H. rewrite <- H. f_equal. by destruct w.
  Qed.
  Lemma setconc_served k s ws t : in_step k s ws -> may_call L (p_map s) k (SetConc t) ->
    exists s' ws' a, length ws' = length ws /\ serves (setconc_call L t s) ws s' ws' a /\
      in_step k s' ws' /\ call_result L (SetConc t) s ws a s' ws'.
  Proof.
    intros I [Hk Ht]. unfold setconc_call. cbn [call_result]. change (p_map (clear s)) with (p_map s).
    pose proof (is_map _ _ _ I) as G.
    destruct (conc_pick_ok t s _ G Ht) as (d & Ed & Hd & Hdj & HV).
    set (V := values_of t s) in *. rewrite Ed. rewrite (pieces_rows G V d Hd Hdj), (gm_len G) by lia.
    assert (HVl : forall j, length (V j) = l_ncomp L) by (intros; apply values_of_length).
    set (X' := fun n w => foldl (fun x j => l_set_conc L x (p_val s) (given_of s j) j (V j)) (p_x w) (own_cells (p_map s) n)).
    set (after := fun n w => with_x (X' n w) (clear w)).
    assert (Hst : forall n w, (s :: ws) !! n = Some w -> conc_store L n (concat (map V (own_cells (p_map s) n))) (clear w) = Some (after n w)).
    { intros n w Hw. rewrite (conc_store_ok (given_of s) V n (clear w) (own_cells (p_map s) n)).
      - unfold after, X'. cbn [p_val p_x clear with_err]. by rewrite (val_all k s ws n w I Hw).
      - change (p_map (clear w)) with (p_map w). by apply (own_all k s ws).
      - intros l j Hl. change (params (clear w) l) with (params w l). by apply (params_given k s ws n).
      - done. }
    assert (Hlen : forall n, length (concat (map V (own_cells (p_map s) n))) = (length (own_cells (p_map s) n) * l_ncomp L)%nat).
    { intros n. rewrite (concat_width (l_ncomp L)), map_length; [done|]. intros l Hl. apply elem_of_list_fmap in Hl as (? & -> & _). apply HVl. }
    exists (after O s), (imap (fun i w => after (S i) w) ws), (Code IRM_OK).
    split; [apply imap_length|]. split; [|split; [|split]].
    - intros K. eapply rtc_transitive; [by apply (go_announce L SetConcentrations SetConcentrations)|].
      cbn [work]. unfold setconc_worker. cbn [seq map].
      pose proof (Hst O s eq_refl) as H0.
      set (k0 := fun v : msg D => match conc_store L 0 (nums_of v) (clear s) with Some s1 => K s1 (Code IRM_OK) | None => Undef end).
      assert (K (after O s) (Code IRM_OK) = k0 (Nums (concat (map V (own_cells (p_map s) 0))))) as -> by (unfold k0; cbn [nums_of]; by rewrite H0).
      rewrite imap_imap. apply (go_scatter (loop L)).
      + cbn [shape]. by rewrite Hlen.
      + by rewrite !map_length, seq_length.
      + intros i w a Hw Ha. change (map ?f ?l) with (f <$> l) in Ha. rewrite <- list_fmap_compose, list_lookup_fmap in Ha.
        assert (i < length ws)%nat as Hi by (by eapply lookup_lt_Some).
        rewrite lookup_seq_lt in Ha by done. cbn in Ha. injection Ha as <-.
        change (p_map (clear w)) with (p_map w). rewrite (agrees_len s ws i w _ (in_step_agrees _ _ _ I) Hw), (gm_len G) by lia.
        eexists _, _, _, _. split; [reflexivity|]. split; [cbn [shape]; by rewrite Hlen|].
        cbn [nums_of]. by rewrite (Hst (S i) w Hw).
    - apply (in_step_frame k s); [done|done|]. done.
    - done.
    - exists (given_of s), V. split.
      + intros j Hj. split; [by eapply given_of_given|]. split; [done|]. intros x c k0 Hc Hk0. by apply (HV j x c).
      + assert (forall n, (n < S (length ws))%nat -> cells_from (p_map s) n = own_cells (p_map s) n) as Hcf.
        { intros n Hn. destruct (gm_range G n Hn) as (b & e & Hb & He & _ & _ & Hr & Hs). unfold cells_from, own_cells. by rewrite Hb, He, Hr, Hs. }
        apply pairwise_imap; [rewrite Hcf by lia; done|]. intros i w Hw. rewrite Hcf; [done|]. apply lookup_lt_Some in Hw. lia.
  Qed.

  (** ** GetSpeciesConcentrations *)
  Lemma species_served k s ws old : in_step k s ws ->
    exists s' ws' a, length ws' = length ws /\ serves (species_call L old s) ws s' ws' a /\
      in_step k s' ws' /\ call_result L (GetSpecies old) s ws a s' ws' /\ frame s s' /\ pairwise (fun _ => frame) (s :: ws) (s' :: ws').
  Proof.
    intros I. unfold species_call. cbn [call_result]. change (p_map (clear s)) with (p_map s).
    set (sc := clear s). set (wsc := imap (fun _ w => clear w) ws).
    assert (in_step k sc wsc) as Ic by (apply (in_step_frame k s); [done|apply frame_clear|intros; apply frame_clear]).
    assert (length wsc = length ws) as Hlc by apply imap_length.
    pose proof (nx_nonneg _ _ _ I) as Hnx. pose proof (is_map _ _ _ I) as G.
    assert (Hfl : forall w f, w ∈ ws -> flag (clear w) f = flag s f) by (intros w f Hw; unfold flag; cbn; by rewrite (is_val _ _ _ I w Hw)).
    assert (forall r, (forall K, rtc step (Config (announce GetSpeciesConcentrations (species_root L old sc (fun r => K sc (Vector IRM_OK r)))) (imap idle ws) (empties (length ws)))
                                          (Config (K sc (Vector IRM_OK r)) (imap idle wsc) (empties (length ws)))) ->
              (if flag s SpeciesSave then
                 covers (p_map s) (s :: ws) (l_nspec L) (fun _ j w i y => y = l_species L (p_x w) j i)
                   (resize (l_nspec L * Z.to_nat (nxyz (p_map s))) (l_zero L) old) r
               else r = []) ->
              exists s' ws' a, length ws' = length ws /\ serves (fun K => announce GetSpeciesConcentrations (species_root L old sc (fun r => K sc (Vector IRM_OK r)))) ws s' ws' a /\
                in_step k s' ws' /\
                (same_instances (s :: ws) (s' :: ws') /\
                exists r, a = Vector IRM_OK r /\ if flag s SpeciesSave then
                 covers (p_map s) (s :: ws) (l_nspec L) (fun _ j w i y => y = l_species L (p_x w) j i)
                   (resize (l_nspec L * Z.to_nat (nxyz (p_map s))) (l_zero L) old) r else r = []) /\
                frame s s' /\ pairwise (fun _ => frame) (s :: ws) (s' :: ws')) as Hend.
    { intros r H1 H2. exists sc, wsc, (Vector IRM_OK r). split; [done|]. split; [exact H1|]. split; [done|].
      split; [split; [by apply pairwise_imap|by exists r]|]. split; [apply frame_clear|].
      apply pairwise_imap; [apply frame_clear|]. intros. apply frame_clear. }
    destruct (flag s SpeciesSave) eqn:Ef.
    - set (dst := resize (l_nspec L * Z.to_nat (nxyz (p_map s))) (l_zero L) old) in *.
      assert (Hdst : Z.of_nat (length dst) = nxyz (p_map s) * Z.of_nat (l_nspec L)) by (unfold dst; rewrite resize_length; lia).
      destruct (species_put_ok L G O (species_vals L (m := p_map s) (p_x s) O) dst (fun j k => l_species L (p_x s) j k)) as (d1 & E1 & Hl1 & Hin1 & Hout1); [lia| |done|].
      { intros l j k0 Hl Hk. by apply species_vals_lookup. }
      destruct (species_takes L G (T := R) (x_of s ws) (length ws) O d1 (fun r => Undef)) as (r & Hlr & _ & Hin & Hout); [lia|lia|].
      assert (Htk : forall K : list D -> prog D R, takes (species_receive L (p_map s) (seq 1 (length ws)) d1 K)
                (map (fun n => [Nums (species_vals L (m := p_map s) (x_of s ws n) n)]) (seq 1 (length ws))) (K r) (empties (length ws))).
      { intros K. destruct (species_takes L G (x_of s ws) (length ws) O d1 K) as (r' & Hlr' & Htk & Hin' & Hout'); [lia|lia|].
        cbn [replicate app] in Htk. cbn [plus] in Htk.
        assert (r' = r) as ->; [|exact Htk].
        apply list_eq. intros i.
        destruct (decide (i < length r)%nat) as [Hi|Hi]; [|by rewrite !lookup_ge_None_2 by lia].
        (* position i is species kk of grid cell x *)
        assert (0 < nxyz (p_map s)) as Hn0 by nia.
        set (kk := Z.to_nat (Z.of_nat i / nxyz (p_map s))). set (x := Z.of_nat i mod nxyz (p_map s)).
        assert (0 <= x < nxyz (p_map s)) as Hx by (apply Z.mod_pos_bound; lia).
        assert (i = Z.to_nat (Z.of_nat kk * nxyz (p_map s) + x)) as Ei.
        { unfold kk, x. rewrite Z2Nat.id by (apply Z.div_pos; lia).
          pose proof (Z.div_mod (Z.of_nat i) (nxyz (p_map s)) ltac:(lia)). lia. }
        assert (kk < l_nspec L)%nat as Hkk.
        { unfold kk. assert (Z.of_nat i / nxyz (p_map s) < Z.of_nat (l_nspec L)); [|pose proof (Z.div_pos (Z.of_nat i) (nxyz (p_map s))); lia].
          apply Z.div_lt_upper_bound; lia. }
        destruct (decide (Exists (fun n => Exists (fun j => Exists (fun c => x ∈ c) (option_list (backward (p_map s) !! Z.to_nat j))) (own_cells (p_map s) n)) (seq 1 (length ws)))) as [He|He].
        - apply Exists_exists in He as (n & Hn & He). apply Exists_exists in He as (j & Hj & He). apply Exists_exists in He as (c & Hc & Hxc).
          apply elem_of_seq in Hn. destruct (backward (p_map s) !! Z.to_nat j) as [c0|] eqn:Ec; [|by apply elem_of_nil in Hc].
          apply elem_of_list_singleton in Hc as ->.
          rewrite Ei, (Hin n j c0 x kk), (Hin' n j c0 x kk); try done; lia.
        - rewrite Ei. assert (forall n j c, (0 < n <= 0 + length ws)%nat -> j ∈ own_cells (p_map s) n -> backward (p_map s) !! Z.to_nat j = Some c -> x ∉ c) as Hno.
          { intros n j c Hn Hj Hc Hxc. apply He. apply Exists_exists. exists n. split; [apply elem_of_seq; lia|].
            apply Exists_exists. exists j. split; [done|]. apply Exists_exists. exists c. rewrite Hc. split; [left|done]. }
          rewrite Hout, Hout'; try done. }
      apply (Hend r).
      + intros K. eapply rtc_transitive; [by apply (go_announce L GetSpeciesConcentrations GetSpeciesConcentrations)|].
        cbn [work]. unfold species_root, species_worker.
        change (flag sc SpeciesSave) with (flag s SpeciesSave). rewrite Ef.
        change (p_map sc) with (p_map s). change (species_own L 0 sc) with (species_vals L (m := p_map s) (p_x s) O). fold dst. rewrite E1.
        assert (tasks sc - 1 = length ws)%nat as -> by (change (tasks sc) with (tasks s); rewrite (agrees_root s ws) by (by eapply in_step_agrees); lia).
        unfold wsc. rewrite imap_imap.
        eapply (go_exchange (loop L) _ _ ws (fun i w => [Nums (species_vals L (m := p_map s) (x_of s ws (S i)) (S i))])).
        * intros i w Hw. rewrite (Hfl w SpeciesSave) by (by eapply elem_of_list_lookup_2). rewrite Ef. cbn [sends foldr].
          unfold species_own, species_vals. change (p_map (clear w)) with (p_map w).
          rewrite (agrees_own s ws i w) by (done || by eapply in_step_agrees). rewrite (x_of_S s ws i w Hw). reflexivity.
        * assert (imap (fun i (_ : ps) => [Nums (species_vals L (m := p_map s) (x_of s ws (S i)) (S i))]) ws =
                  map (fun n => [Nums (species_vals L (m := p_map s) (x_of s ws n) n)]) (seq 1 (length ws))) as ->.
          { rewrite imap_seq, <- seq_shift, map_map. done. }
          exact (Htk (fun r => K sc (Vector IRM_OK r))).
      + split; [lia|]. split.
        * intros j c x n w i Hj Hc Hx Hn Hw Hi.
          assert (n < S (length ws))%nat as Hnl by (apply lookup_lt_Some in Hw; exact Hw).
          pose proof (proj2 (own_cells_elem G n j Hnl) Hn) as Hjn.
          eexists. split; [|reflexivity]. destruct n as [|n].
          -- injection Hw as <-. rewrite Hout; [by apply (Hin1 j c)| |].
             { destruct (gm_cells _ _ G _ _ Hc) as [_ Hcx]. by apply Hcx. }
             intros n' j' c' Hn' Hj' Hc' Hx'.
             assert (Z.to_nat j' = Z.to_nat j) as Hjj by (by eapply (gm_disjoint _ _ G)).
             apply (own_cells_elem G) in Hj'; [|lia].
             pose proof (owns_in_range _ _ _ _ _ (gm_split _ _ G) Hj').
             assert (j' = j) as -> by lia. pose proof (valid_split_owner_unique _ _ _ _ _ _ (gm_split _ _ G) Hn Hj'). lia.
          -- rewrite (Hin (S n) j c x i); [|lia|done..]. by rewrite (x_of_at s ws (S n) w Hw).
        * intros x i Hx Hno Hi. rewrite Hout; [apply Hout1; [done|]|done|]; intros; by eapply Hno.
    - apply (Hend []); [|done]. intros K. eapply rtc_transitive; [by apply (go_announce L GetSpeciesConcentrations GetSpeciesConcentrations)|].
      cbn [work]. unfold species_root, species_worker.
      change (flag sc SpeciesSave) with (flag s SpeciesSave). rewrite Ef.
      eapply go_ext.
      { intros i w Hw. rewrite (Hfl w SpeciesSave) by (by eapply elem_of_list_lookup_2). rewrite Ef. reflexivity. }
      unfold wsc. rewrite imap_imap. reflexivity.
  Qed.
End fetch.
