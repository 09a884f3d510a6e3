From stdpp Require Import prelude gmap.
From Verif.Base Require Import Result Arith.
From Verif.Bin Require Import Model Proofs.
From Verif.Partition Require Import Spec EndCellsProofs Rebalance.
From Verif.Core Require Import Move MoveProofs Threads ThreadsProofs Spec Model Proofs History.
Local Open Scope Z_scope.

Section proofs.
  Context {E R D P : Type}.
  Notation cellc := (gmap rtype E).
  Implicit Types (ws : list (store E)) (m : module E R D P) (new : Z -> cellc).

  (** ** Initial conditions *)
  Lemma lookup_init_cell new (b : bin E) (i : Z) (t : rtype) (k : Z) :
    init_cell new b i !! (t, k) =
    if decide (k = i /\ t ∈ cell_types) then
      match new i !! t with Some x => Some (Ent i i x) | None => b !! (t, k) end
    else b !! (t, k).
  Proof.
    unfold init_cell. generalize cell_types. intros L. revert b.
    induction L as [|v L IH]; intros b; cbn [foldl].
    { rewrite decide_False; [done|]. intros [_ H]. by apply elem_of_nil in H. }
    rewrite IH. destruct (decide (k = i)) as [->|Hk].
    - destruct (decide (t = v)) as [->|Htv].
      + rewrite (decide_True (P := i = i /\ v ∈ v :: L)) by (split; [done|by left]).
        destruct (new i !! v) as [x|] eqn:En.
        * destruct (decide _); [done|]. by rewrite lookup_insert.
        * by destruct (decide _).
      + assert (K : (match new i !! v with Some x => <[(v, i):=Ent i i x]> b | None => b end) !! (t, i) = b !! (t, i)).
        { destruct (new i !! v); [|done]. rewrite lookup_insert_ne; [done|]. by intros [= ->]. }
        rewrite K. destruct (decide (i = i /\ t ∈ L)) as [[_ H]|H].
        * rewrite decide_True; [done|]. split; [done|by right].
        * rewrite decide_False; [done|]. intros [_ [->|?]%elem_of_cons]; [done|]. by apply H.
    - rewrite !decide_False by (by intros [? _]).
      destruct (new i !! v); [|done]. rewrite lookup_insert_ne; [done|]. by intros [= _ ->].
  Qed.

  Lemma lookup_init_cells new (ks : list Z) (b : bin E) (t : rtype) (k : Z) :
    foldl (init_cell new) b ks !! (t, k) =
    if decide (k ∈ ks /\ t ∈ cell_types) then
      match new k !! t with Some x => Some (Ent k k x) | None => b !! (t, k) end
    else b !! (t, k).
  Proof.
    revert b. induction ks as [|i ks IH]; intros b; cbn [foldl].
    { rewrite decide_False; [done|]. intros [H _]. by apply elem_of_nil in H. }
    rewrite IH, lookup_init_cell.
    destruct (decide (t ∈ cell_types)) as [Ht|Ht].
    2: { by rewrite !decide_False by (by intros [_ ?]). }
    destruct (decide (k = i)) as [->|Hk].
    - rewrite (decide_True (P := i = i /\ _)) by done.
      rewrite (decide_True (P := i ∈ i :: ks /\ _)) by (split; [by left|done]).
      destruct (new i !! t); by destruct (decide _).
    - rewrite (decide_False (P := k = i /\ _)) by (by intros [? _]).
      destruct (decide (k ∈ ks /\ t ∈ cell_types)) as [[H1 H2]|H].
      + rewrite decide_True; [done|]. split; [by right|done].
      + rewrite decide_False; [done|]. intros [[?|?]%elem_of_cons ?]; [done|]. by apply H.
  Qed.

  (** Content after new initial conditions: given reactants replace those of the
      cell, all others stay. *)
  Definition overridden (nw c : cellc) : cellc :=
    foldr (fun t r => match nw !! t with Some x => <[t := x]> r | None => r end) c cell_types.
  Lemma lookup_overridden nw c (t : rtype) :
    overridden nw c !! t = if decide (t ∈ cell_types) then
      match nw !! t with Some x => Some x | None => c !! t end else c !! t.
  Proof.
    unfold overridden. generalize cell_types. intros L. induction L as [|v L IH]; cbn [foldr].
    { rewrite decide_False; [done|]. by intros ?%elem_of_nil. }
    destruct (decide (t = v)) as [->|Hne].
    - rewrite (decide_True (P := v ∈ v :: L)) by (by left).
      destruct (nw !! v) as [x|] eqn:En; [by rewrite lookup_insert|].
      rewrite IH. by destruct (decide _).
    - assert (K : (match nw !! v with Some x => <[v:=x]> (foldr (fun t r => match nw !! t with
          Some x => <[t := x]> r | None => r end) c L) | None => foldr (fun t r => match nw !! t with
          Some x => <[t := x]> r | None => r end) c L end) !! t =
          foldr (fun t r => match nw !! t with Some x => <[t := x]> r | None => r end) c L !! t).
      { destruct (nw !! v); [|done]. by rewrite lookup_insert_ne. }
      rewrite K, IH. destruct (decide (t ∈ L)).
      + rewrite decide_True; [done|by right].
      + rewrite decide_False; [done|]. by intros [?|?]%elem_of_cons.
  Qed.

  Lemma init_consistent new pz count ss es ws :
    consistent pz count ss es ws ->
    let ws' := distribute_initial ss es (init_worker0 new count ws) in
    consistent pz count ss es ws' /\
    forall i c u, 0 <= i < count -> content ss es ws i c u -> content ss es ws' i (overridden (new i) c) u.
  Proof.
    intros [V L Hr Hu] ws'.
    assert (Ne : length es <> 0%nat).
    { rewrite <- (vs_len _ _ _ V). pose proof (vs_nonempty_list _ _ _ V). by destruct ss. }
    destruct ws as [|w0 r]; [cbn in L; lia|]. cbn [init_worker0] in ws'.
    set (w0' := St (foldl (init_cell new) (rx w0) (cells_upto count)) (uz w0)) in *.
    set (ws1 := w0' :: r) in *.
    assert (L1 : length ws1 = length es) by (by cbn in L |- *).
    assert (A0 : forall t k, at_rx ws1 0 t k =
      if decide (0 <= k < count /\ t ∈ cell_types) then
        match new k !! t with Some x => Some (Ent k k x) | None => at_rx (w0 :: r) 0 t k end
      else at_rx (w0 :: r) 0 t k).
    { intros t k. unfold at_rx. cbn [lookup list_lookup ws1 w0' rx]. rewrite lookup_init_cells.
      destruct (decide (t ∈ cell_types)) as [Ht|Ht].
      2: { by rewrite !decide_False by (by intros [_ ?]). }
      destruct (decide (0 <= k < count)) as [Hk|Hk].
      - rewrite !decide_True; [done|done|]. split; [by apply elem_of_cells_upto|done].
      - rewrite !decide_False; [done|by intros [? _]|]. intros [?%elem_of_cells_upto _]; done. }
    assert (AS : forall n t k, at_rx ws1 (S n) t k = at_rx (w0 :: r) (S n) t k) by done.
    assert (AU : forall n t k, at_uz ws1 n t k = at_uz (w0 :: r) n t k) by (by intros [|n]).
    destruct (distribute_initial_spec count ss es ws1 V L1) as (Ld & D1 & D2 & D3).
    fold ws' in Ld, D1, D2, D3.
    assert (Nr : forall w t k o, owns ss es o k -> w <> o -> at_rx (w0 :: r) w t k = None).
    { intros w t k o Hom Hne. destruct (at_rx (w0 :: r) w t k) as [e|] eqn:Ea; [|done].
      apply holds_at in Ea. destruct (Hr _ _ _ _ Ea) as (Hw & _). destruct Hne.
      exact (valid_split_owner_unique count ss es w o k V Hw Hom). }
    assert (Out : forall w t k, ~ 0 <= k < count -> at_rx ws' w t k = None).
    { intros w t k Hk. rewrite D1 by (by right).
      assert (Z0 : at_rx (w0 :: r) w t k = None).
      { destruct (at_rx (w0 :: r) w t k) as [e|] eqn:Ea; [|done]. apply holds_at in Ea.
        destruct (Hr _ _ _ _ Ea) as (Hw & _). destruct Hk. exact (owns_in_range count ss es w k V Hw). }
      destruct w as [|w].
      - rewrite A0, decide_False by (by intros [? _]). done.
      - by rewrite AS. }
    assert (K : forall k o, owns ss es o k -> forall w t, at_rx ws' w t k =
      if decide (w = o) then
        (if decide (t ∈ cell_types) then
          match new k !! t with Some x => Some (Ent k k x) | None => at_rx (w0 :: r) o t k end
        else at_rx (w0 :: r) o t k)
      else None).
    { intros k o Ho w t. pose proof (owns_in_range _ _ _ _ _ V Ho) as Hk.
      assert (Ex : forall k, at_rx ws1 0 t k = if decide (0 <= k < count) then
         (if decide (t ∈ cell_types) then match new k !! t with Some x => Some (Ent k k x)
            | None => at_rx (w0 :: r) 0 t k end else at_rx (w0 :: r) 0 t k) else at_rx (w0 :: r) 0 t k).
      { intros k'. rewrite A0. destruct (decide (0 <= k' < count)), (decide (t ∈ cell_types));
          by first [rewrite decide_True by done | rewrite decide_False by naive_solver]. }
      destruct o as [|n].
      - rewrite D1 by (by left). destruct w as [|w].
        + rewrite Ex, decide_True by done. rewrite (decide_True (P := 0%nat = 0%nat)) by done. done.
        + rewrite (decide_False (P := S w = 0%nat)) by done. rewrite AS. by apply (Nr _ _ _ 0%nat).
      - rewrite (D2 k n Ho). unfold moved. destruct (decide (w = 0%nat)) as [->|Hw0].
        { by rewrite (decide_False (P := 0%nat = S n)). }
        destruct w as [|w]; [done|]. rewrite AS, Ex, (decide_True (P := 0 <= k < count)) by done.
        rewrite (Nr 0%nat t k (S n) Ho) by done.
        destruct (decide (S w = S n)) as [[= ->]|Hne].
        + destruct (decide (t ∈ cell_types)) as [Ht|Ht].
          * rewrite decide_True by done. by destruct (new k !! t).
          * by rewrite decide_False by (by intros [_ ?]).
        + rewrite decide_False by (by intros [? _]). by apply (Nr _ _ _ (S n)). }
    split.
    - split; [done|lia| |].
      + intros w t k e Hh%holds_at. destruct (decide (0 <= k < count)) as [Hk|Hk]; [|by rewrite Out in Hh].
        destruct (valid_split_owner_exists _ _ _ _ V Hk) as [o Ho].
        rewrite (K k o Ho) in Hh. destruct (decide (w = o)) as [->|]; [|done].
        destruct (decide (t ∈ cell_types)) as [Ht|Ht].
        * destruct (new k !! t) as [x|]; [by injection Hh as <-|].
          apply holds_at in Hh. by apply (Hr _ _ _ _ Hh).
        * apply holds_at in Hh. by apply (Hr _ _ _ _ Hh).
      + intros w t k e Hh%holds_uz_at. rewrite D3, AU in Hh. apply holds_uz_at in Hh.
        by apply (Hu _ _ _ _ Hh).
    - intros i c u Hi Hcu.
      destruct (owner_store _ _ _ (w0 :: r) i V L Hi) as (o & s & Ho & Hs).
      apply (content_owner _ _ _ _ _ _ _ _ _ V Ho Hs) in Hcu as [-> ->].
      destruct (lookup_lt_is_Some_2 ws' o) as [s' Hs'].
      { rewrite Ld, L1, <- L. by eapply lookup_lt_Some. }
      apply (content_owner _ _ _ _ _ _ _ _ _ V Ho Hs'). split; apply map_eq; intros t.
      + rewrite lookup_overridden, !lookup_cell_of.
        pose proof (K i o Ho o t) as Kt. rewrite (decide_True (P := o = o)) in Kt by done.
        unfold at_rx in Kt. rewrite Hs, Hs' in Kt. rewrite Kt.
        destruct (decide (t ∈ cell_types)); [|done]. by destruct (new i !! t).
      + rewrite !lookup_cell_of. pose proof (D3 o t i) as Ut. rewrite AU in Ut.
        unfold at_uz in Ut. rewrite Hs, Hs' in Ut. by rewrite Ut.
  Qed.

  (** ** Changes in place *)
  Lemma lookup_modify (t : rtype) (g : Z -> E -> E) (ks : list Z) (b : bin E) (u : rtype) (k : Z) : NoDup ks ->
    foldl (fun b i => alter (fun e => Ent (e_n e) (e_end e) (g i (e_body e))) (t, i) b) b ks !! (u, k) =
    if decide (u = t /\ k ∈ ks) then (fun e => Ent (e_n e) (e_end e) (g k (e_body e))) <$> b !! (u, k)
    else b !! (u, k).
  Proof.
    revert b. induction ks as [|i ks IH]; intros b Hnd; cbn [foldl].
    { rewrite decide_False; [done|]. intros [_ H]. by apply elem_of_nil in H. }
    apply NoDup_cons in Hnd as [Hi Hnd]. rewrite (IH _ Hnd).
    destruct (decide ((t, i) = (u, k))) as [[= -> ->]|Hne].
    - rewrite lookup_alter. rewrite (decide_False (P := u = u /\ k ∈ ks)) by (by intros [_ ?]).
      rewrite decide_True; [done|]. split; [done|by left].
    - rewrite lookup_alter_ne by done. destruct (decide (u = t /\ k ∈ ks)) as [[-> H]|H].
      + rewrite decide_True; [done|]. split; [done|by right].
      + rewrite decide_False; [done|]. intros [-> [->|?]%elem_of_cons]; [done|]. by apply H.
  Qed.

  Definition modified (t : rtype) (g : E -> E) (c : cellc) : cellc := alter g t c.

  Lemma modify_consistent (t : rtype) (g : Z -> E -> E) m :
    m_consistent m -> m_consistent (modify_cells t g m) /\
    forall i c u, 0 <= i < md_count m -> m_content m i c u ->
      m_content (modify_cells t g m) i (alter (g i) t c) u.
  Proof.
    intros [V L Hr Hu]. pose proof (vs_len _ _ _ V) as Hlen.
    set (ws' := md_ws (modify_cells t g m)).
    assert (Lz : length ws' = length (md_ws m)).
    { unfold ws'. cbn. rewrite zip_with_length, zip_with_length. lia. }
    assert (W : forall o s', ws' !! o = Some s' -> exists s a b,
      md_ws m !! o = Some s /\ md_ss m !! o = Some a /\ md_es m !! o = Some b /\
      uz s' = uz s /\ forall u k, rx s' !! (u, k) =
        if decide (u = t /\ a <= k <= b) then (fun e => Ent (e_n e) (e_end e) (g k (e_body e))) <$> rx s !! (u, k)
        else rx s !! (u, k)).
    { intros o s' Hs'. unfold ws' in Hs'. cbn in Hs'. apply lookup_zip_with_Some in Hs' as ([a b] & s & -> & Hz & Hs).
      apply lookup_zip_with_Some in Hz as (a' & b' & [= <- <-] & Ha & Hb).
      exists s, a, b. split_and!; try done. intros u k. cbn [modify_worker rx fst snd].
      rewrite lookup_modify by apply range_nodup.
      destruct (decide (u = t /\ a <= k <= b)) as [[-> H]|H].
      - rewrite decide_True; [done|]. split; [done|]. by apply elem_of_range.
      - rewrite decide_False; [done|]. intros [-> H1%elem_of_range]. by apply H. }
    split.
    - split; cbn [modify_cells with_ws md_count md_ss md_es md_pz]; [done|fold ws'; unfold ws' in *; lia| |].
      + intros w u k e (s' & Hs' & He). destruct (W w s' Hs') as (s & a & b & Hs & _ & _ & _ & Hx).
        rewrite Hx in He. destruct (rx s !! (u, k)) as [e0|] eqn:E0.
        * destruct (Hr w u k e0) as (H1 & H2 & H3); [by exists s|]. split_and!; try done.
          destruct (decide _); [|by simplify_eq]. cbn in He. injection He as <-. exact H2.
        * by destruct (decide _).
      + intros w u k e (s' & Hs' & He). destruct (W w s' Hs') as (s & a & b & Hs & _ & _ & Hu' & _).
        rewrite Hu' in He. apply (Hu w u k e). by exists s.
    - intros i c u Hi Hcu.
      destruct (owner_store _ _ _ (md_ws m) i V L Hi) as (o & s & Ho & Hs).
      apply (content_owner _ _ _ _ _ _ _ _ _ V Ho Hs) in Hcu as [-> ->].
      destruct (lookup_lt_is_Some_2 ws' o) as [s' Hs'].
      { rewrite Lz. by eapply lookup_lt_Some. }
      unfold m_content. apply (content_owner _ (md_ss m) (md_es m) _ _ _ _ _ _ V Ho Hs').
      destruct (W o s' Hs') as (s0 & a & b & Hs0 & Ha & Hb & Hu' & Hx).
      assert (s0 = s) as -> by congruence. rewrite Hu'. split; [|done].
      apply map_eq. intros v. rewrite lookup_cell_of, Hx.
      destruct Ho as (a' & b' & Ha' & Hb' & Hab). assert (a' = a) as -> by congruence.
      assert (b' = b) as -> by congruence.
      destruct (decide (v = t)) as [->|Hv].
      + rewrite lookup_alter, lookup_cell_of, decide_True by done.
        by destruct (rx s !! (t, i)).
      + rewrite lookup_alter_ne, lookup_cell_of, decide_False by (done || by intros [? _]). done.
  Qed.

  (** ** Saved states *)
  (** State [k] is stored, in all workers, and consists of [ss], [es], [ws]. *)
  Definition stored m (k : Z) (ss es : list Z) (ws : list (store E)) : Prop :=
    length ws = length (md_states m) /\ length ws <> 0%nat /\
    forall o st, md_states m !! o = Some st -> exists v, st !! k = Some v /\
      sv_ss v = ss /\ sv_es v = es /\ ws !! o = Some (St (sv_rx v) (sv_uz v)).
  Definition not_stored m (k : Z) : Prop := forall o st, md_states m !! o = Some st -> st !! k = None.

  Lemma apply_all_stored k (sts : list (gmap Z (saved E))) ws : length ws = length sts ->
    (forall o st, sts !! o = Some st -> exists v, st !! k = Some v /\
      ws !! o = Some (St (sv_rx v) (sv_uz v))) -> apply_all k sts = Some ws.
  Proof.
    revert ws. induction sts as [|st sts IH]; intros ws L H.
    { by destruct ws. }
    destruct ws as [|w ws]; [done|]. cbn [apply_all].
    destruct (H 0%nat st eq_refl) as (v & -> & Hw). cbn in Hw. injection Hw as ->.
    rewrite (IH ws); [done|by injection L|]. intros o st' Ho. by apply (H (S o) st').
  Qed.

  Lemma apply_stored m k ss es ws : stored m k ss es ws ->
    state_apply k m =
      Ret (Mod (md_count m) (md_rep m) ss es ws (md_states m) (md_pz m)
             (md_sat m) (md_old m) (md_par m) (md_rows m), IRM_OK).
  Proof.
    intros (L & Ne & H). unfold state_apply.
    destruct (md_states m) as [|st0 sts] eqn:Es; [cbn in L; lia|].
    destruct (H 0%nat st0 eq_refl) as (v & -> & <- & <- & _).
    rewrite (apply_all_stored k (st0 :: sts) ws L); [done|].
    intros o st Ho. destruct (H o st Ho) as (v' & ? & _ & _ & ?). eauto.
  Qed.

  Lemma apply_not_stored m k : not_stored m k -> md_states m <> [] ->
    state_apply k m = Ret (m, IRM_INVALIDARG) /\ state_delete k m = Ret (m, IRM_INVALIDARG).
  Proof.
    intros H Ne. unfold not_stored in H. unfold state_apply, state_delete.
    destruct (md_states m) as [|st0 sts] eqn:Es; [done|]. by rewrite (H 0%nat st0 eq_refl).
  Qed.

  Lemma consistent_wn pz count ss es ws o (s : store E) :
    consistent pz count ss es ws -> ws !! o = Some s -> well_numbered (rx s).
  Proof. intros [_ _ Hr _] Hs t k e He. apply (Hr o t k e). by exists s. Qed.

  Lemma save_stored m k : m_consistent m -> length (md_states m) = length (md_ws m) ->
    stored (state_save k m).1 k (md_ss m) (md_es m) (md_ws m).
  Proof.
    intros C Ls. pose proof C as [V L _ _]. unfold stored, state_save. cbn [fst with_states md_states].
    split. { rewrite zip_with_length. lia. }
    split. { rewrite L, <- (vs_len _ _ _ V). pose proof (vs_nonempty_list _ _ _ V). by destruct (md_ss m). }
    intros o st' Ho. apply lookup_zip_with_Some in Ho as (w & st & -> & Hw & Hst).
    eexists. split; [apply lookup_insert|]. cbn [sv_ss sv_es sv_rx sv_uz].
    split_and!; try done. rewrite Hw. do 2 f_equal. rewrite phreeqc2bin_empty; [by destruct w|].
    by eapply consistent_wn.
  Qed.

  Lemma save_other m k k' : k <> k' -> length (md_states m) = length (md_ws m) ->
    (forall ss es ws, stored m k' ss es ws -> stored (state_save k m).1 k' ss es ws) /\
    (not_stored m k' -> not_stored (state_save k m).1 k').
  Proof.
    intros Hne Ls. split.
    - intros ss es ws (L & Ne & H). unfold stored, state_save. cbn [fst with_states md_states].
      split. { rewrite zip_with_length. lia. }
      split; [done|]. intros o st' Ho. apply lookup_zip_with_Some in Ho as (w & st & -> & Hw & Hst).
      rewrite lookup_insert_ne by done. by apply H.
    - intros H o st' Ho. unfold state_save in Ho. cbn [fst with_states md_states] in Ho.
      apply lookup_zip_with_Some in Ho as (w & st & -> & Hw & Hst).
      rewrite lookup_insert_ne by done. by apply (H o).
  Qed.

  Lemma delete_stored m k ss es ws : stored m k ss es ws ->
    state_delete k m = Ret (with_states m (delete k <$> md_states m), IRM_OK) /\
    not_stored (with_states m (delete k <$> md_states m)) k.
  Proof.
    intros (L & Ne & H). unfold state_delete. split.
    - destruct (md_states m) as [|st0 sts] eqn:Es; [cbn in L; lia|].
      by destruct (H 0%nat st0 eq_refl) as (v & -> & _).
    - intros o st'. cbn [with_states md_states]. rewrite list_lookup_fmap.
      destruct (md_states m !! o); [|done]. intros [= <-]. apply lookup_delete.
  Qed.
  Lemma delete_other m k k' : k <> k' ->
    (forall ss es ws, stored m k' ss es ws -> stored (with_states m (delete k <$> md_states m)) k' ss es ws) /\
    (not_stored m k' -> not_stored (with_states m (delete k <$> md_states m)) k').
  Proof.
    intros Hne. split.
    - intros ss es ws (L & Ne & H). split; [cbn; by rewrite fmap_length|]. split; [done|].
      intros o st'. cbn [with_states md_states]. rewrite list_lookup_fmap.
      destruct (md_states m !! o) as [st|] eqn:Es; [|done]. intros [= <-].
      rewrite lookup_delete_ne by done. by apply H.
    - intros H o st'. cbn [with_states md_states]. rewrite list_lookup_fmap.
      destruct (md_states m !! o) as [st|] eqn:Es; [|done]. intros [= <-].
      rewrite lookup_delete_ne by done. by apply (H o).
  Qed.

  (** ** The invariant of all histories *)
  Record inv m : Prop := {
    iv_cons : m_consistent m;
    iv_len : length (md_states m) = length (md_ws m);
    iv_states : forall k, not_stored m k \/ exists ss es ws,
      stored m k ss es ws /\ consistent (md_pz m) (md_count m) ss es ws;
  }.

  Context (react : P -> Z -> cellc -> bool * cellc * R)
          (part : D -> D -> cellc -> cellc -> cellc * cellc)
          (dry : D -> bool) (A : arith)
          (Rc : react_closed react) (Pc : part_closed part).

  Lemma consistent_uz_on pz count ss es ws : consistent pz count ss es ws -> consistent (E:=E) true count ss es ws.
  Proof.
    intros [V L Hr Hu]. split; [done|done|done|]. intros w t k e H.
    destruct (Hu w t k e H) as (_ & ?). done.
  Qed.

  Lemma inv_same_states m m' : md_states m' = md_states m -> md_pz m' = md_pz m ->
    md_count m' = md_count m -> length (md_ws m') = length (md_ws m) -> m_consistent m' -> inv m -> inv m'.
  Proof.
    intros E1 E2 E3 L C [_ L0 S]. split; [done|by rewrite E1, L|]. intros k. rewrite E2, E3.
    unfold not_stored, stored in *. rewrite E1. apply S.
  Qed.

  Lemma exec_inv o m : inv m -> op_ok react part dry A o m ->
    match exec_op react part dry A o m with
    | Ret (m', r) => inv m' /\ md_count m' = md_count m
    | Throw => False
    | UB => exists f sched tt ct, o = ORun A false f sched tt ct
    end.
  Proof.
    intros I Ho. pose proof I as [C L S]. pose proof C as [V Lw _ _].
    assert (Ne : length (md_ws m) <> 0%nat).
    { rewrite Lw, <- (vs_len _ _ _ V). pose proof (vs_nonempty_list _ _ _ V). by destruct (md_ss m). }
    destruct o as [bc f sched tm ct|k|k|k|new|t g|sat par|]; cbn [exec_op].
    - destruct Ho as (F & Hic & Ltt & Lct).
      pose proof (run_cells_spec react part dry A bc f sched tm ct m Rc Pc C F Hic Ltt Lct) as H.
      destruct (run_cells react part dry A bc f sched tm ct m) as [[m' r]| |]; [|done|subst; eauto].
      destruct H as (C' & Ec & _ & Ep & Es & _ & _ & _ & Ll & _). split; [|done].
      by apply (inv_same_states m).
    - destruct (state_save k m) as [m' r] eqn:Em.
      assert (Em' : m' = (state_save k m).1) by (by rewrite Em). subst m'. clear Em. split; [|done].
      split; [exact C| |].
      + cbn. rewrite zip_with_length. lia.
      + intros k'. destruct (decide (k = k')) as [<-|Hne].
        * right. exists (md_ss m), (md_es m), (md_ws m). split; [by apply save_stored|]. exact C.
        * destruct (save_other m k k' Hne L) as [H1 H2].
          destruct (S k') as [H|(ss & es & ws & H & H')]; [left; auto|right; eauto 10].
    - destruct (S k) as [H|(ss & es & ws & H & H')].
      + rewrite (proj1 (apply_not_stored m k H ltac:(by destruct (md_states m); [cbn in L; lia|]))).
        done.
      + rewrite (apply_stored _ _ _ _ _ H). split; [|done]. split; [exact H'| |exact S].
        cbn. by destruct H as (-> & _).
    - destruct (S k) as [H|(ss & es & ws & H & H')].
      + rewrite (proj2 (apply_not_stored m k H ltac:(by destruct (md_states m); [cbn in L; lia|]))).
        done.
      + destruct (delete_stored _ _ _ _ _ H) as [-> Hd]. split; [|done].
        split; [exact C|cbn; by rewrite fmap_length|].
        intros k'. destruct (decide (k = k')) as [<-|Hne]; [by left|].
        destruct (delete_other m k k' Hne) as [H1 H2].
        destruct (S k') as [H3|(ss3 & es3 & ws3 & H3 & H3')]; [left; auto|right; eauto 10].
    - split; [|done]. destruct (init_consistent new _ _ _ _ _ C) as [C' _].
      apply (inv_same_states m); try done. cbn. rewrite (cs_len _ _ _ _ _ C'). lia.
    - split; [|done]. destruct (modify_consistent t g m C) as [C' _].
      apply (inv_same_states m); try done. pose proof (cs_len _ _ _ _ _ C') as Lc. cbn in Lc |- *. lia.
    - split; [|done]. by apply (inv_same_states m).
    - split; [|done]. split; [by eapply consistent_uz_on|done|].
      intros k. destruct (S k) as [H|(ss & es & ws & H & H')]; [by left|]. right.
      exists ss, es, ws. split; [done|]. by eapply consistent_uz_on.
  Qed.

  Lemma fresh_inv m : fresh m -> inv m.
  Proof.
    intros (V & Ew & Es). split.
    - split; [done|rewrite Ew; by rewrite replicate_length| |].
      + intros w t k e (s & Hs & He). rewrite Ew in Hs. apply lookup_replicate in Hs as [-> _].
        cbn [rx uz] in He. by rewrite lookup_empty in He.
      + intros w t k e (s & Hs & He). rewrite Ew in Hs. apply lookup_replicate in Hs as [-> _].
        cbn [rx uz] in He. by rewrite lookup_empty in He.
    - rewrite Ew, Es. by rewrite !replicate_length.
    - intros k. left. intros o st Ho. rewrite Es in Ho. apply lookup_replicate in Ho as [-> _].
      apply lookup_empty.
  Qed.

  Lemma history_inv m l m' : inv m -> history react part dry A m l m' -> inv m' /\ md_count m' = md_count m.
  Proof.
    intros I H. induction H as [|l m1 o m2 r H IH Ho Ex]; [done|].
    destruct IH as [I1 E1]. pose proof (exec_inv o m1 I1 Ho) as X. rewrite Ex in X.
    destruct X as [X1 X2]. split; [done|congruence].
  Qed.

  (** ** A saved state survives everything but saving or deleting it *)
  Definition keeps (k : Z) (o : op (E:=E) (D:=D) (P:=P) A) : Prop :=
    match o with OSave _ k' => k' <> k | ODelete _ k' => k' <> k | _ => True end.

  Lemma exec_keeps o m m' r k ss es ws : inv m -> op_ok react part dry A o m -> keeps k o ->
    exec_op react part dry A o m = Ret (m', r) -> stored m k ss es ws -> stored m' k ss es ws.
  Proof.
    intros I Ho Hk Ex St. pose proof I as [C L S]. pose proof C as [V Lw _ _].
    assert (Ne : md_states m <> []).
    { destruct (md_states m); [|done]. cbn in L.
      assert (length (md_ws m) <> 0%nat).
      { rewrite Lw, <- (vs_len _ _ _ V). pose proof (vs_nonempty_list _ _ _ V). by destruct (md_ss m). }
      lia. }
    destruct o as [bc f sched tm ct|k'|k'|k'|new|t g|sat par|]; cbn [exec_op keeps] in *.
    - destruct Ho as (F & Hic & Ltt & Lct).
      pose proof (run_cells_spec react part dry A bc f sched tm ct m Rc Pc C F Hic Ltt Lct) as H.
      rewrite Ex in H. destruct H as (_ & _ & _ & _ & Es & _). unfold stored. by rewrite Es.
    - injection Ex as <- _. by apply (proj1 (save_other m k' k Hk L)).
    - destruct (S k') as [H|(ss' & es' & ws' & H & H')].
      + rewrite (proj1 (apply_not_stored m k' H Ne)) in Ex. by injection Ex as <- _.
      + rewrite (apply_stored _ _ _ _ _ H) in Ex. injection Ex as <- _. exact St.
    - destruct (S k') as [H|(ss' & es' & ws' & H & H')].
      + rewrite (proj2 (apply_not_stored m k' H Ne)) in Ex. by injection Ex as <- _.
      + rewrite (proj1 (delete_stored _ _ _ _ _ H)) in Ex. injection Ex as <- _.
        by apply (proj1 (delete_other m k' k Hk)).
    - by injection Ex as <- _.
    - by injection Ex as <- _.
    - by injection Ex as <- _.
    - by injection Ex as <- _.
  Qed.

  Lemma inv_states_nonempty m : inv m -> md_states m <> [].
  Proof.
    intros [[V Lw _ _] L _] Hm. rewrite Hm in L. cbn in L.
    assert (length (md_ws m) <> 0%nat).
    { rewrite Lw, <- (vs_len _ _ _ V). pose proof (vs_nonempty_list _ _ _ V). by destruct (md_ss m). }
    lia.
  Qed.

  Lemma exec_keeps_not o m m' r k : inv m -> op_ok react part dry A o m -> keeps k o ->
    exec_op react part dry A o m = Ret (m', r) -> not_stored m k -> not_stored m' k.
  Proof.
    intros I Ho Hk Ex St. pose proof I as [C L S]. pose proof (inv_states_nonempty m I) as Ne.
    destruct o as [bc f sched tm ct|k'|k'|k'|new|t g|sat par|]; cbn [exec_op keeps] in *.
    - destruct Ho as (F & Hic & Ltt & Lct).
      pose proof (run_cells_spec react part dry A bc f sched tm ct m Rc Pc C F Hic Ltt Lct) as H.
      rewrite Ex in H. destruct H as (_ & _ & _ & _ & Es & _). unfold not_stored. by rewrite Es.
    - injection Ex as <- _. by apply (proj2 (save_other m k' k Hk L)).
    - destruct (S k') as [H|(ss' & es' & ws' & H & H')].
      + rewrite (proj1 (apply_not_stored m k' H Ne)) in Ex. by injection Ex as <- _.
      + rewrite (apply_stored _ _ _ _ _ H) in Ex. injection Ex as <- _. exact St.
    - destruct (S k') as [H|(ss' & es' & ws' & H & H')].
      + rewrite (proj2 (apply_not_stored m k' H Ne)) in Ex. by injection Ex as <- _.
      + rewrite (proj1 (delete_stored _ _ _ _ _ H)) in Ex. injection Ex as <- _.
        by apply (proj2 (delete_other m k' k Hk)).
    - by injection Ex as <- _.
    - by injection Ex as <- _.
    - by injection Ex as <- _.
    - by injection Ex as <- _.
  Qed.

  Lemma history_keeps m l m' k ss es ws : inv m -> Forall (keeps k) l ->
    history react part dry A m l m' -> stored m k ss es ws -> stored m' k ss es ws.
  Proof.
    intros I Hk H St. revert Hk. induction H as [|l m1 o m2 r H IH Ho Ex]; intros Hk; [done|].
    apply Forall_app in Hk as [Hk1 Hk2]. apply Forall_cons in Hk2 as [Hk2 _].
    destruct (history_inv m l m1 I H) as [I1 _].
    exact (exec_keeps o m1 m2 r k ss es ws I1 Ho Hk2 Ex (IH Hk1)).
  Qed.
End proofs.
