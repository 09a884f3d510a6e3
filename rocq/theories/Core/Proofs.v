From stdpp Require Import prelude gmap.
From Verif.Base Require Import Result Arith.
From Verif.Bin Require Import Model Proofs.
From Verif.Partition Require Import Spec EndCellsProofs Rebalance.
From Verif.Core Require Import Move MoveProofs Threads ThreadsProofs Spec Model.
Local Open Scope Z_scope.

Section contents.
  Context {E : Type}.
  Implicit Types (ws : list (store E)) (w : nat) (t : rtype) (m i : Z) (e : entity E) (s : store E).

  Lemma holds_at ws w t m e : holds ws w t m e <-> at_rx ws w t m = Some e.
  Proof.
    unfold holds, at_rx. destruct (ws !! w) as [s|].
    - split; [by intros (? & [= ->] & ?)|eauto].
    - split; [by intros (? & ? & ?)|done].
  Qed.
  Lemma holds_uz_at ws w t m e : holds_uz ws w t m e <-> at_uz ws w t m = Some e.
  Proof.
    unfold holds_uz, at_uz. destruct (ws !! w) as [s|].
    - split; [by intros (? & [= ->] & ?)|eauto].
    - split; [by intros (? & ? & ?)|done].
  Qed.

  Lemma content_owner count ss es ws w s i c u : valid_split count ss es -> owns ss es w i ->
    ws !! w = Some s -> content ss es ws i c u <-> c = cell_of (rx s) i /\ u = cell_of (uz s) i.
  Proof.
    intros V Ho Hs. split.
    - intros (w' & s' & Ho' & Hs' & Hc & Hu).
      rewrite (valid_split_owner_unique _ _ _ _ _ _ V Ho' Ho) in Hs'. simplify_eq.
      split; apply map_eq; intros t; rewrite lookup_cell_of; auto.
    - intros [-> ->]. exists w, s. split_and!; try done; intros t; by rewrite lookup_cell_of.
  Qed.

  Lemma owner_store count ss es ws i : valid_split count ss es -> length ws = length es ->
    0 <= i < count -> exists w s, owns ss es w i /\ ws !! w = Some s.
  Proof.
    intros V L Hi. destruct (valid_split_owner_exists _ _ _ _ V Hi) as [w Hw].
    destruct Hw as (a & b & Ha & Hb & Hab).
    destruct (lookup_lt_is_Some_2 ws w) as [s Hs].
    { rewrite L. by eapply lookup_lt_Some. }
    exists w, s. split; [|done]. by exists a, b.
  Qed.

  Lemma content_exists count ss es ws i : valid_split count ss es -> length ws = length es ->
    0 <= i < count -> exists c u, content ss es ws i c u.
  Proof.
    intros V L Hi. destruct (owner_store _ _ _ ws i V L Hi) as (w & s & Ho & Hs).
    eexists _, _. by apply (content_owner _ _ _ _ _ _ _ _ _ V Ho Hs).
  Qed.

  (** ** Moving *)
  Lemma moved_home o n w t m (L : list rtype) (x y : option (entity E)) :
    (forall e, x = Some e -> numbered m e /\ t ∈ L) -> (w = n -> o <> n -> y = None) -> o <> n ->
    w = n -> moved L o n w t m x y = x.
  Proof.
    intros Hx Hy Hne ->. unfold moved. rewrite decide_False by done.
    destruct x as [e|].
    - destruct (Hx e eq_refl) as [[? ?] ?]. rewrite decide_True by done. f_equal. by apply renumber_id.
    - rewrite (Hy eq_refl Hne). by destruct (decide _).
  Qed.

  Lemma move_consistent pz count ss es ss' es' ws :
    consistent pz count ss es ws -> valid_split count ss' es' -> length es' = length es ->
    exists ws', move_cells pz count es es' ws = Ret ws' /\ consistent pz count ss' es' ws' /\
      same_contents count ss es ws ss' es' ws'.
  Proof.
    intros [V L Hr Hu] V' Hl.
    destruct (move_cells_spec pz count ss es ss' es' ws V V' Hl L) as (ws' & Em & L' & Ho & Hi).
    exists ws'. split; [done|].
    assert (Nr : forall w t m o, owns ss es o m -> w <> o -> at_rx ws w t m = None).
    { intros w t m o Hom Hne. destruct (at_rx ws w t m) as [e|] eqn:Ea; [|done].
      apply holds_at in Ea. destruct (Hr _ _ _ _ Ea) as (Hw & _). destruct Hne.
      exact (valid_split_owner_unique count ss es w o m V Hw Hom). }
    assert (Nu : forall w t m o, owns ss es o m -> w <> o -> at_uz ws w t m = None).
    { intros w t m o Hom Hne. destruct (at_uz ws w t m) as [e|] eqn:Ea; [|done].
      apply holds_uz_at in Ea. destruct (Hu _ _ _ _ Ea) as (_ & Hw & _). destruct Hne.
      exact (valid_split_owner_unique count ss es w o m V Hw Hom). }
    assert (Or : forall w t m, ~ 0 <= m < count -> at_rx ws w t m = None).
    { intros w t m Hm. destruct (at_rx ws w t m) as [e|] eqn:Ea; [|done].
      apply holds_at in Ea. destruct (Hr _ _ _ _ Ea) as (Hw & _). destruct Hm. exact (owns_in_range count ss es w m V Hw). }
    assert (Ou : forall w t m, ~ 0 <= m < count -> at_uz ws w t m = None).
    { intros w t m Hm. destruct (at_uz ws w t m) as [e|] eqn:Ea; [|done].
      apply holds_uz_at in Ea. destruct (Hu _ _ _ _ Ea) as (_ & Hw & _). destruct Hm. exact (owns_in_range count ss es w m V Hw). }
    assert (K : forall m o n, 0 <= m < count -> owns ss es o m -> owns ss' es' n m ->
      forall w t, at_rx ws' w t m = (if decide (w = n) then at_rx ws o t m else None) /\
                  at_uz ws' w t m = (if decide (w = n) then at_uz ws o t m else None)).
    { intros m o n Hm Hom Hnm w t. destruct (Hi m Hm o n Hom Hnm w t) as [-> ->].
      destruct (decide (o = n)) as [->|Hne].
      { rewrite (decide_True (P := n = n \/ pz = false)) by (by left). destruct (decide (w = n)) as [->|Hwn]; [done|].
        split; [by apply (Nr _ _ _ n)|by apply (Nu _ _ _ n)]. }
      split.
      - destruct (decide (w = n)) as [->|Hwn].
        + apply moved_home; try done.
          * intros e Ee. apply holds_at in Ee. destruct (Hr _ _ _ _ Ee) as (_ & ? & ?). done.
          * intros _ _. by apply (Nr _ _ _ o).
        + unfold moved. destruct (decide (w = o)); [done|].
          rewrite decide_False by (by intros [? _]). by apply (Nr _ _ _ o).
      - destruct pz.
        + rewrite (decide_False (P := o = n \/ true = false)) by (by intros [?|?]). destruct (decide (w = n)) as [->|Hwn].
          * apply moved_home; try done.
            -- intros e Ee. apply holds_uz_at in Ee. destruct (Hu _ _ _ _ Ee) as (_ & _ & ? & _).
               split; [done|]. apply elem_of_all_types.
            -- intros _ _. by apply (Nu _ _ _ o).
          * unfold moved. destruct (decide (w = o)); [done|].
            rewrite decide_False by (by intros [? _]). by apply (Nu _ _ _ o).
        + rewrite (decide_True (P := o = n \/ false = false)) by (by right).
          assert (Z0 : forall w t, at_uz ws w t m = None).
          { intros w' t'. destruct (at_uz ws w' t' m) as [e|] eqn:Ea; [|done].
            apply holds_uz_at in Ea. by destruct (Hu _ _ _ _ Ea) as (? & _). }
          rewrite !Z0. by destruct (decide _). }
    split.
    - split; [done|lia| |].
      + intros w t m e Hh%holds_at. destruct (decide (0 <= m < count)) as [Hm|Hm].
        * destruct (valid_split_owner_exists _ _ _ _ V Hm) as [o Hom].
          destruct (valid_split_owner_exists _ _ _ _ V' Hm) as [n Hnm].
          destruct (K m o n Hm Hom Hnm w t) as [Kr _]. rewrite Kr in Hh.
          destruct (decide (w = n)) as [->|]; [|done].
          apply holds_at in Hh. destruct (Hr _ _ _ _ Hh) as (_ & ? & ?). done.
        * destruct (Ho m Hm w t) as [Hx _]. rewrite Hx, Or in Hh; done.
      + intros w t m e Hh%holds_uz_at. destruct (decide (0 <= m < count)) as [Hm|Hm].
        * destruct (valid_split_owner_exists _ _ _ _ V Hm) as [o Hom].
          destruct (valid_split_owner_exists _ _ _ _ V' Hm) as [n Hnm].
          destruct (K m o n Hm Hom Hnm w t) as [_ Ku]. rewrite Ku in Hh.
          destruct (decide (w = n)) as [->|]; [|done].
          apply holds_uz_at in Hh. destruct (Hu _ _ _ _ Hh) as (? & _ & ? & ?). done.
        * destruct (Ho m Hm w t) as [_ Hx]. rewrite Hx, Ou in Hh; done.
    - intros i Hm c u.
      destruct (owner_store _ _ _ ws i V L Hm) as (o & s & Hom & Hs).
      destruct (owner_store _ _ _ ws' i V' ltac:(lia) Hm) as (n & s' & Hnm & Hs').
      rewrite (content_owner _ _ _ _ _ _ _ _ _ V Hom Hs), (content_owner _ _ _ _ _ _ _ _ _ V' Hnm Hs').
      assert (Q : cell_of (rx s') i = cell_of (rx s) i /\ cell_of (uz s') i = cell_of (uz s) i).
      { split; apply cell_of_ext; intros t; destruct (K i o n Hm Hom Hnm n t) as [Kr Ku];
          rewrite decide_True in Kr by done; rewrite decide_True in Ku by done;
          unfold at_rx, at_uz in Kr, Ku; rewrite Hs, Hs' in Kr; by rewrite Hs, Hs' in Ku. }
      destruct Q as [-> ->]. done.
  Qed.

  Lemma same_contents_refl count ss es ws : same_contents count ss es ws ss es ws.
  Proof. done. Qed.
  Lemma same_contents_trans count ss1 es1 ws1 ss2 es2 ws2 ss3 es3 ws3 :
    same_contents count ss1 es1 ws1 ss2 es2 ws2 -> same_contents count ss2 es2 ws2 ss3 es3 ws3 ->
    same_contents count ss1 es1 ws1 ss3 es3 ws3.
  Proof. intros H1 H2 i Hi c u. by rewrite (H1 i Hi), (H2 i Hi). Qed.
End contents.

(** ** The reaction step *)
Definition cell_closed {E} (c : gmap rtype E) : Prop := forall (t : rtype) x, c !! t = Some x -> t ∈ cell_types.

Lemma run_actions_inv {W} (I : W -> Prop) (acts : list (action W)) w :
  (forall a, a ∈ acts -> forall w, I w -> I (a w).1) -> I w -> I (run_actions acts w).1.
Proof.
  revert w. induction acts as [|a r IH]; intros w Ha Hw; [done|]. cbn [run_actions].
  pose proof (Ha a ltac:(by left) w Hw) as H1. destruct (a w) as [w' ok]. cbn in H1.
  destruct ok; [|done]. apply IH; [|done]. intros a' Ha'. apply Ha. by right.
Qed.

Lemma concat_rows {A} count ss es (rows : list (list A)) : valid_split count ss es ->
  length rows = length es ->
  (forall o l s e, rows !! o = Some l -> ss !! o = Some s -> es !! o = Some e -> Z.of_nat (length l) = e - s + 1) ->
  Z.of_nat (length (concat rows)) = count /\
  forall o l s e i, rows !! o = Some l -> ss !! o = Some s -> es !! o = Some e -> s <= i <= e ->
    concat rows !! Z.to_nat i = l !! Z.to_nat (i - s).
Proof.
  intros V L Hl.
  assert (Len : forall o, (o < length es)%nat -> forall s, ss !! o = Some s ->
     Z.of_nat (length (concat (take o rows))) = s).
  { induction o as [|o IH]; intros Ho s Hs.
    - rewrite (vs_first _ _ _ V) in Hs. simplify_eq. done.
    - destruct (lookup_lt_is_Some_2 rows o ltac:(lia)) as [l Hlo].
      destruct (lookup_lt_is_Some_2 es o ltac:(lia)) as [e He].
      destruct (lookup_lt_is_Some_2 ss o) as [s0 Hs0]. { rewrite (vs_len _ _ _ V). lia. }
      rewrite (take_S_r _ _ _ Hlo), concat_app, app_length. cbn [concat]. rewrite app_nil_r.
      rewrite Nat2Z.inj_add, (IH ltac:(lia) s0 Hs0), (Hl o l s0 e Hlo Hs0 He).
      rewrite (vs_contig _ _ _ V o e s He Hs). lia. }
  split.
  - pose proof (vs_last _ _ _ V) as La. pose proof (vs_nonempty_list _ _ _ V) as Ne.
    assert (length es <> 0%nat). { rewrite <- (vs_len _ _ _ V). by destruct ss. }
    rewrite last_lookup in La. set (o := pred (length es)) in *.
    destruct (lookup_lt_is_Some_2 rows o ltac:(lia)) as [l Hlo].
    destruct (lookup_lt_is_Some_2 ss o) as [s0 Hs0]. { rewrite (vs_len _ _ _ V). lia. }
    pose proof (Len o ltac:(lia) s0 Hs0) as Ht. pose proof (Hl o l s0 _ Hlo Hs0 La) as Hll.
    assert (Er : rows = take (S o) rows). { rewrite take_ge; [done|lia]. }
    rewrite Er, (take_S_r _ _ _ Hlo), concat_app, app_length. cbn [concat]. rewrite app_nil_r. lia.
  - intros o l s e i Ho Hs He Hi.
    assert (Er : rows = take o rows ++ l :: drop (S o) rows) by (symmetry; by apply take_drop_middle).
    pose proof (Len o ltac:(rewrite <- L; by eapply lookup_lt_Some) s Hs) as Ht.
    pose proof (Hl o l s e Ho Hs He) as Hll.
    rewrite Er, concat_app. cbn [concat]. rewrite lookup_app_r by lia. rewrite lookup_app_l by lia.
    f_equal. lia.
Qed.

Section model.
  Context {E R D P : Type}.
  Notation cellc := (gmap rtype E).
  Context (react : P -> Z -> cellc -> bool * cellc * R)
          (part : D -> D -> cellc -> cellc -> cellc * cellc)
          (dry : D -> bool).
  Implicit Types m : module E R D P.

  Definition react_closed : Prop := forall p i c, cell_closed c -> cell_closed (react p i c).1.2.
  Definition part_closed : Prop := forall a b c u, cell_closed c -> cell_closed u ->
    cell_closed (part a b c u).1 /\ cell_closed (part a b c u).2.

  Definition m_consistent m : Prop :=
    consistent (md_pz m) (md_count m) (md_ss m) (md_es m) (md_ws m).
  Definition m_content m := content (md_ss m) (md_es m) (md_ws m).

  (** What a reaction step does to cell [i] on its own: success, new saturated
      and unsaturated content, selected-output row. *)
  Definition step_alone m (i : Z) (c u : cellc) : bool * cellc * cellc * option R :=
    alone (react (md_par m)) (m_part part m) (m_dry dry m) (md_pz m) i c u.

  Lemma threads_consistent (rct : Z -> cellc -> bool * cellc * R) (prt : Z -> cellc -> cellc -> cellc * cellc)
      (dr : Z -> bool) pz count ss es ws sched :
    (forall i c, cell_closed c -> cell_closed (rct i c).1.2) ->
    (forall i c u, cell_closed c -> cell_closed u -> cell_closed (prt i c u).1 /\ cell_closed (prt i c u).2) ->
    consistent pz count ss es ws ->
    finished (run_schedule sched (start_threads rct prt dr pz ss es ws)) ->
    consistent pz count ss es
      ((fun t => wk_st (th_w t)) <$> run_schedule sched (start_threads rct prt dr pz ss es ws)).
  Proof.
    intros Rc Pc [V L Hr Hu] F.
    destruct (run_threads rct prt dr pz count ss es ws sched V L F) as [Lt _].
    set (ts := run_schedule sched (start_threads rct prt dr pz ss es ws)) in *.
    pose (I := fun (o : nat) (w : worker E R) =>
      (forall (t : rtype) (k : Z) e, rx (wk_st w) !! (t, k) = Some e ->
         owns ss es o k /\ numbered k e /\ t ∈ cell_types) /\
      (forall (t : rtype) (k : Z) e, uz (wk_st w) !! (t, k) = Some e ->
         pz = true /\ owns ss es o k /\ numbered k e /\ t ∈ cell_types)).
    assert (Put : forall i c b t k e, put_cell (E:=E) i c b !! (t, k) = Some e ->
       b !! (t, k) = Some e \/ (k = i /\ exists x, c !! t = Some x /\ e = Ent i i x)).
    { intros i c b t k e. rewrite lookup_put_cell. destruct (decide (k = i)) as [->|]; [|by left].
      destruct (c !! t) as [x|]; [|done]. intros [= <-]. right. eauto. }
    assert (Cl : forall o w i, I o w -> cell_closed (cell_of (rx (wk_st w)) i) /\
        cell_closed (cell_of (uz (wk_st w)) i)).
    { intros o w i [I1 I2]. split; intros t x; rewrite lookup_cell_of.
      - destruct (rx (wk_st w) !! (t, i)) as [e|] eqn:Ee; [|done]. intros _. by apply (I1 t i e).
      - destruct (uz (wk_st w) !! (t, i)) as [e|] eqn:Ee; [|done]. intros _. by apply (I2 t i e). }
    assert (G : forall o t, ts !! o = Some t -> I o (th_w t)).
    { intros o t Ho.
      assert (Lo : (o < length ws)%nat). { rewrite <- Lt. by eapply lookup_lt_Some. }
      destruct (lookup_lt_is_Some_2 ws o Lo) as [st Hst].
      pose proof (vs_len _ _ _ V) as Hlen.
      destruct (lookup_lt_is_Some_2 ss o ltac:(lia)) as [s Hs].
      destruct (lookup_lt_is_Some_2 es o ltac:(lia)) as [e He].
      assert (Hout : (th_w t, th_ok t) = run_actions (thread_actions rct prt dr pz (range s e)) (Wk st [])).
      { pose proof (finished_schedule _ _ F) as Eq. fold ts in Eq.
        assert (H : ((fun t : thread (worker E R) => (th_w t, th_ok t)) <$> ts) !! o = Some (th_w t, th_ok t)).
        { by rewrite list_lookup_fmap, Ho. }
        rewrite Eq, list_lookup_fmap in H. unfold start_threads in H.
        rewrite lookup_zip_with in H.
        assert (Hz : zip ss es !! o = Some (s, e)) by (apply lookup_zip_with_Some; eauto).
        rewrite Hz, Hst in H. cbn in H. unfold outcome_of in H. cbn [th_rest th_w th_ok] in H.
        destruct (run_actions _ _) as [w' ok]. cbn in H. congruence. }
      replace (th_w t) with (run_actions (thread_actions rct prt dr pz (range s e)) (Wk st [])).1
        by (by rewrite <- Hout).
      apply run_actions_inv.
      2: { split.
           - intros t' k e' He'. apply (Hr o t' k e'). by exists st.
           - intros t' k e' He'. apply (Hu o t' k e'). by exists st. }
      intros a [Ha|Ha]%elem_of_app w Iw.
      - destruct pz eqn:Ez; [|by apply elem_of_nil in Ha].
        apply elem_of_list_fmap in Ha as (i & -> & Hi%elem_of_range).
        assert (Ow : owns ss es o i) by (by exists s, e).
        destruct (Cl o w i Iw) as [C1 C2]. destruct (Pc i _ _ C1 C2) as [P1 P2].
        unfold part_action. destruct (prt i _ _) as [c u]. cbn in P1, P2. cbn [fst].
        destruct Iw as [I1 I2]. split; cbn [wk_st rx uz]; intros t' k e' [H|(-> & x & Hx & ->)]%Put; eauto.
        + split_and!; [done|done|]. by apply (P1 t' x).
        + split_and!; [done|done|done|]. by apply (P2 t' x).
      - apply elem_of_list_fmap in Ha as (i & -> & Hi%elem_of_range).
        assert (Ow : owns ss es o i) by (by exists s, e).
        destruct (Cl o w i Iw) as [C1 C2]. pose proof (Rc i _ C1) as R1.
        unfold react_action. destruct (dr i); [done|].
        destruct (rct i _) as [[ok c] row]. cbn in R1.
        destruct Iw as [I1 I2]. destruct ok; cbn [fst]; split; cbn [wk_st rx uz]; try done;
          (intros t' k e' [H|(-> & x & Hx & ->)]%Put; [eauto|]; split_and!; [done|done|]; by apply (R1 t' x)). }
    split; [done|by rewrite fmap_length, Lt| |].
    - intros w t m e (s & Hs & He). rewrite list_lookup_fmap in Hs.
      destruct (ts !! w) as [th|] eqn:Hw; [|done]. injection Hs as <-.
      by destruct (G w th Hw) as [G1 _]; apply (G1 t m e).
    - intros w t m e (s & Hs & He). rewrite list_lookup_fmap in Hs.
      destruct (ts !! w) as [th|] eqn:Hw; [|done]. injection Hs as <-.
      by destruct (G w th Hw) as [_ G2]; apply (G2 t m e).
  Qed.

  (** All finished executions of all reaction steps. *)
  Lemma run_cells_spec (A : arith) (by_cell : bool) (f : num A) sched tt ct m :
    react_closed -> part_closed -> m_consistent m ->
    finished (run_schedule sched (m_threads react part dry m)) ->
    rebalance_sound A by_cell f (md_count m) ->
    length tt = length (md_es m) -> Z.of_nat (length ct) = md_count m ->
    match run_cells react part dry A by_cell f sched tt ct m with
    | Ret (m', r) =>
        m_consistent m' /\ md_count m' = md_count m /\ md_rep m' = md_rep m /\ md_pz m' = md_pz m /\
        md_states m' = md_states m /\ md_sat m' = md_sat m /\ md_par m' = md_par m /\
        md_old m' = (if md_pz m then md_sat m else md_old m) /\
        length (md_ws m') = length (md_ws m) /\
        ((r = IRM_OK /\
          Z.of_nat (length (concat (md_rows m'))) = md_count m /\
          forall i c u, 0 <= i < md_count m -> m_content m i c u ->
            a_ok (step_alone m i c u) = true /\
            m_content m' i (a_sz (step_alone m i c u)) (a_uz (step_alone m i c u)) /\
            concat (md_rows m') !! Z.to_nat i = Some (a_row (step_alone m i c u))) \/
         (r = IRM_FAIL /\ exists i c u, 0 <= i < md_count m /\ m_content m i c u /\
            a_ok (step_alone m i c u) = false))
    | Throw => False
    | UB => by_cell = false
    end.
  Proof.
    intros Rc Pc C F Hic Ltt Lct. pose proof C as [V L Hr Hu].
    unfold run_cells. unfold m_threads in *.
    destruct (run_threads _ _ _ _ _ _ _ _ _ V L F) as [Lt Ht].
    assert (C1 := threads_consistent _ _ _ _ _ _ _ _ _ (fun i => Rc (md_par m) i)
      (fun i => Pc (md_old m (md_rep m i)) (md_sat m (md_rep m i))) C F).
    change (fun i => part (md_old m (md_rep m i)) (md_sat m (md_rep m i))) with (m_part part m) in C1.
    set (ts := run_schedule sched _) in *.
    destruct (forallb th_ok ts) eqn:Hall.
    - pose proof (Hic (md_ss m) (md_es m) tt ct V Ltt Lct) as Rb.
      destruct (rebalance A by_cell f (md_count m) (md_ss m) (md_es m) tt ct) as [[ss' es']| |]; [|done|done].
      destruct Rb as [V' L'].
      destruct (move_consistent _ _ _ _ ss' es' _ C1 V' L') as (ws2 & -> & C2 & Sc).
      split_and!; try done; cbn [md_ws md_count md_rep md_pz md_states md_sat md_par md_old].
      { rewrite (cs_len _ _ _ _ _ C2), L'. done. }
      left. split; [done|].
      assert (OK : forall o t, ts !! o = Some t -> th_ok t = true).
      { intros o t Ho. rewrite forallb_forall in Hall. apply Hall. apply elem_of_list_In.
        by eapply elem_of_list_lookup_2. }
      destruct (concat_rows (md_count m) (md_ss m) (md_es m) ((fun t => wk_rows (th_w t)) <$> ts) V)
        as [CR1 CR2].
      { rewrite fmap_length. lia. }
      { intros o l s e Ho Hs He. rewrite list_lookup_fmap in Ho.
        destruct (ts !! o) as [t|] eqn:Eo; [|done]. injection Ho as <-.
        destruct (Ht o t Eo) as (st & s' & e' & Hst & Hs' & He' & _ & _ & _ & _ & Hc). simplify_eq.
        destruct (Hc (OK o t Eo)) as [_ ->]. rewrite fmap_length. unfold range.
        rewrite fmap_length, seq_length.
        pose proof (vs_nonempty _ _ _ V o _ _ Hs He). lia. }
      split; [exact CR1|]. intros i c u Hi Hcu.
      destruct (owner_store _ _ _ (md_ws m) i V L Hi) as (o & st & Ho & Hst).
      apply (content_owner _ _ _ _ _ _ _ _ _ V Ho Hst) in Hcu as [-> ->].
      destruct (lookup_lt_is_Some_2 ts o) as [t Eo]. { rewrite Lt. by eapply lookup_lt_Some. }
      pose proof Ho as (s & e & Hs & He & Hse).
      destruct (Ht o t Eo) as (st' & s' & e' & Hst' & Hs' & He' & Hok & _ & _ & _ & Hc).
      assert (st' = st) as -> by congruence. assert (s' = s) as -> by congruence.
      assert (e' = e) as -> by congruence.
      destruct (Hc (OK o t Eo)) as [Hc1 Hc2]. destruct (Hc1 i Hse) as [Hc3 Hc4].
      assert (Hf : forallb (fun i => a_ok (cell_alone (react (md_par m)) (m_part part m) (m_dry dry m)
                     (md_pz m) st i)) (range s e) = true).
      { rewrite <- Hok. by apply (OK o). }
      split_and!.
      + rewrite forallb_forall in Hf. unfold cell_alone in Hf. apply Hf. apply elem_of_list_In.
        by apply elem_of_range.
      + unfold m_content. cbn [md_ss md_es md_ws]. apply (Sc i Hi). exists o, (wk_st (th_w t)).
        split_and!.
        * by exists s, e.
        * by rewrite list_lookup_fmap, Eo.
        * intros v. rewrite <- lookup_cell_of. by rewrite Hc3.
        * intros v. rewrite <- lookup_cell_of. by rewrite Hc4.
      + cbn [md_rows]. rewrite (CR2 o (wk_rows (th_w t)) s e i); [|by rewrite list_lookup_fmap, Eo|done..].
        rewrite Hc2, list_lookup_fmap. unfold range. rewrite list_lookup_fmap, lookup_seq_lt by lia.
        cbn. do 2 f_equal. replace (s + Z.of_nat (Z.to_nat (i - s))) with i by lia. done.
    - split_and!; try done; cbn [md_ws md_count md_rep md_pz md_states md_sat md_par md_old].
      { by rewrite fmap_length. }
      right. split; [done|].
      assert (Hex : exists o t, ts !! o = Some t /\ th_ok t = false).
      { clear -Hall. induction ts as [|t ts IH]; [done|]. cbn in Hall.
        destruct (th_ok t) eqn:Et.
        - destruct (IH Hall) as (o & t' & ? & ?). by exists (S o), t'.
        - by exists 0%nat, t. }
      destruct Hex as (o & t & Eo & Hf). destruct (Ht o t Eo) as (st & s & e & Hst & Hs & He & Hok & _).
      rewrite Hf in Hok. symmetry in Hok.
      assert (Hex : exists i, i ∈ range s e /\ a_ok (cell_alone (react (md_par m)) (m_part part m) (m_dry dry m)
                     (md_pz m) st i) = false).
      { clear -Hok. induction (range s e) as [|i l IH]; [done|]. cbn [forallb] in Hok.
        destruct (a_ok (cell_alone (react (md_par m)) (m_part part m) (m_dry dry m) (md_pz m) st i)) eqn:Ea.
        - destruct (IH Hok) as (j & ? & ?). exists j. split; [by right|done].
        - exists i. split; [by left|done]. }
      destruct Hex as (i & Hi%elem_of_range & Hfi).
      assert (Ow : owns (md_ss m) (md_es m) o i) by (by exists s, e).
      exists i, (cell_of (rx st) i), (cell_of (uz st) i). split_and!.
      + apply (owns_in_range _ _ _ _ _ V Ow).
      + apply (owns_in_range _ _ _ _ _ V Ow).
      + by apply (content_owner _ _ _ _ _ _ _ _ _ V Ow Hst).
      + exact Hfi.
  Qed.
End model.
