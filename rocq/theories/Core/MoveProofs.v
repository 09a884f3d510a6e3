From stdpp Require Import prelude gmap sorting.
From Verif.Base Require Import Result.
From Verif.Bin Require Import Model Proofs.
From Verif.Partition Require Import Spec EndCellsProofs.
From Verif.Core Require Import Move.
Local Open Scope Z_scope.

Lemma owner_before count ss es o j k e :
  valid_split count ss es -> owns ss es o k -> (j < o)%nat -> es !! j = Some e -> e < k.
Proof.
  intros V (s & eo & Hs & He & Hk) Hj Hej.
  pose proof (lookup_lt_Some _ _ _ Hej) as L. rewrite <- (vs_len _ _ _ V) in L.
  destruct (lookup_lt_is_Some_2 _ _ L) as [sj Hsj].
  pose proof (valid_split_start_le _ _ _ _ _ _ _ _ V Hj Hsj Hej Hs). lia.
Qed.

Lemma advance_owner count ss es o k i :
  valid_split count ss es -> owns ss es o k -> (i <= o)%nat -> advance k (drop i es) i = Some o.
Proof.
  intros V Ho Hi. remember (o - i)%nat as d eqn:Hd. revert i Hi Hd.
  induction d as [|d IH]; intros i Hi Hd.
  - assert (i = o) as -> by lia. destruct Ho as (s & e & Hs & He & Hk).
    rewrite (drop_S _ _ _ He). simpl. rewrite decide_False by lia. done.
  - assert (Hlt : (i < o)%nat) by lia.
    assert (is_Some (es !! i)) as [e He].
    { apply lookup_lt_is_Some_2. destruct Ho as (s & e & Hs & He & Hk).
      apply lookup_lt_Some in He. lia. }
    rewrite (drop_S _ _ _ He). simpl.
    pose proof (owner_before _ _ _ _ _ _ _ V Ho Hlt He). rewrite decide_True by lia.
    apply IH; lia.
Qed.

Lemma owner_mono count ss es o1 o2 k1 k2 :
  valid_split count ss es -> owns ss es o1 k1 -> owns ss es o2 k2 -> k1 <= k2 -> (o1 <= o2)%nat.
Proof.
  intros V H1 (s2 & e2 & Hs2 & He2 & Hk2) Hk. destruct (decide (o1 <= o2)%nat) as [|N]; [done|].
  pose proof (owner_before _ _ _ o1 o2 k1 e2 V H1 ltac:(lia) He2). lia.
Qed.

Section move.
  Context {E : Type}.
  Local Notation bin := (bin E).
  Local Notation store := (store E).

  Definition at_rx (ws : list store) (w : nat) (t : rtype) (m : Z) : option (entity E) :=
    match ws !! w with Some s => rx s !! (t, m) | None => None end.
  Definition at_uz (ws : list store) (w : nat) (t : rtype) (m : Z) : option (entity E) :=
    match ws !! w with Some s => uz s !! (t, m) | None => None end.

  (** What worker [w] holds of a moved cell, in terms of what it and the old
      worker held; [L]: the types that are transferred. *)
  Definition moved (L : list rtype) (o n w : nat) (t : rtype) (m : Z)
      (old_e cur : option (entity E)) : option (entity E) :=
    if decide (w = o) then None
    else if decide (w = n /\ t ∈ L) then
      match old_e with Some e => Some (renumber m e) | None => cur end
    else cur.

  Lemma move_cell_spec pz ws k o n :
    o <> n -> (o < length ws)%nat -> (n < length ws)%nat ->
    exists ws', move_cell pz ws k o n = Ret ws' /\ length ws' = length ws /\
      (forall w t m, at_rx ws' w t m =
         if decide (m = k) then moved cell_types o n w t m (at_rx ws o t m) (at_rx ws w t m)
         else at_rx ws w t m) /\
      (forall w t m, at_uz ws' w t m =
         if decide (m = k /\ pz = true) then moved all_types o n w t m (at_uz ws o t m) (at_uz ws w t m)
         else at_uz ws w t m).
  Proof.
    intros Hne Lo Ln. unfold move_cell.
    destruct (lookup_lt_is_Some_2 _ _ Lo) as [wo Ho]. destruct (lookup_lt_is_Some_2 _ _ Ln) as [wn Hn].
    rewrite Ho, Hn. eexists. split; [done|]. split; [by rewrite !insert_length|].
    assert (LK : forall w, <[o:=St (delete_cell k (rx wo)) (if pz then bin_remove k (uz wo) else uz wo)]>
      (<[n:=St (bin2phreeqc_n (phreeqc2bin_n (rx wo) ∅ k) (rx wn) k)
              (if pz then bin_add (uz wo) k (uz wn) else uz wn)]> ws) !! w =
      if decide (w = o) then Some (St (delete_cell k (rx wo)) (if pz then bin_remove k (uz wo) else uz wo))
      else if decide (w = n) then Some (St (bin2phreeqc_n (phreeqc2bin_n (rx wo) ∅ k) (rx wn) k)
              (if pz then bin_add (uz wo) k (uz wn) else uz wn))
      else ws !! w).
    { intros w. destruct (decide (w = o)) as [->|].
      - rewrite list_lookup_insert; [done|]. by rewrite insert_length.
      - rewrite list_lookup_insert_ne by done. destruct (decide (w = n)) as [->|].
        + by rewrite list_lookup_insert.
        + by rewrite list_lookup_insert_ne. }
    split; intros w t m; unfold at_rx, at_uz, moved; rewrite LK, ?Ho.
    - destruct (decide (w = o)) as [->|Hwo].
      + cbn [rx]. unfold delete_cell. rewrite lookup_bin_remove, Ho. done.
      + destruct (decide (w = n)) as [->|Hwn].
        * cbn [rx]. rewrite lookup_bin2phreeqc_n, Hn. destruct (decide (m = k)) as [->|Hm]; [|done].
          rewrite lookup_phreeqc2bin_n, lookup_empty.
          destruct (decide (t ∈ cell_types)).
          -- rewrite !decide_True by done. by destruct (rx wo !! (t, k)).
          -- rewrite !decide_False by naive_solver. done.
        * rewrite (decide_False (P := w = n /\ _)) by naive_solver. by destruct (decide (m = k)).
    - pose proof (elem_of_all_types t) as Ht. destruct (decide (w = o)) as [->|Hwo].
      + cbn [uz]. rewrite Ho. destruct pz; [rewrite lookup_bin_remove|];
          destruct (decide (m = k)), (decide (m = k /\ _)); naive_solver.
      + destruct (decide (w = n)) as [->|Hwn].
        * cbn [uz]. rewrite Hn. rewrite (decide_True (P := n = n /\ _)) by done.
          destruct pz.
          -- rewrite lookup_bin_add. destruct (decide (m = k)) as [->|].
             ++ rewrite decide_True by done. done.
             ++ by rewrite decide_False by naive_solver.
          -- by rewrite decide_False by naive_solver.
        * rewrite (decide_False (P := w = n /\ _)) by naive_solver. by destruct (decide _).
  Qed.

  Lemma move_loop_spec pz count ss es ss' es' : valid_split count ss es -> valid_split count ss' es' ->
    length es' = length es ->
    forall ks, StronglySorted Z.lt ks -> Forall (fun k => 0 <= k < count) ks ->
    forall old nnew ws, length ws = length es ->
    (forall k o, k ∈ ks -> owns ss es o k -> (old <= o)%nat) ->
    (forall k o, k ∈ ks -> owns ss' es' o k -> (nnew <= o)%nat) ->
    exists ws', move_loop pz es es' ks old nnew ws = Ret ws' /\ length ws' = length ws /\
      (forall m, m ∉ ks -> forall w t, at_rx ws' w t m = at_rx ws w t m /\ at_uz ws' w t m = at_uz ws w t m) /\
      (forall m, m ∈ ks -> forall o n, owns ss es o m -> owns ss' es' n m -> forall w t,
        at_rx ws' w t m = (if decide (o = n) then at_rx ws w t m
                           else moved cell_types o n w t m (at_rx ws o t m) (at_rx ws w t m)) /\
        at_uz ws' w t m = (if decide (o = n \/ pz = false) then at_uz ws w t m
                           else moved all_types o n w t m (at_uz ws o t m) (at_uz ws w t m))).
  Proof.
    intros V V' Hlen ks. induction ks as [|k ks IH]; intros Hsort Hin old nnew ws Hl Hold Hnew.
    { exists ws. split_and!; try done. intros m Hm. by apply elem_of_nil in Hm. }
    apply Forall_cons in Hin as [Hk Hin]. apply StronglySorted_inv in Hsort as [Hsort Hlt].
    destruct (valid_split_owner_exists _ _ _ _ V Hk) as [o Ho].
    destruct (valid_split_owner_exists _ _ _ _ V' Hk) as [n Hn].
    assert (Hkn : k ∉ ks). { intros H. pose proof (proj1 (Forall_forall _ _) Hlt k H). lia. }
    simpl. rewrite (advance_owner _ _ _ o k _ V Ho), (advance_owner _ _ _ n k _ V' Hn).
    2: by apply (Hnew k); [by left|]. 2: by apply (Hold k); [by left|].
    assert (Lo : (o < length ws)%nat).
    { destruct Ho as (s & e & Hs & He & _). apply lookup_lt_Some in He. lia. }
    assert (Ln : (n < length ws)%nat).
    { destruct Hn as (s & e & Hs & He & _). apply lookup_lt_Some in He. lia. }
    assert (Hold' : forall k0 o0, k0 ∈ ks -> owns ss es o0 k0 -> (o <= o0)%nat).
    { intros k0 o0 Hk0 H0. eapply owner_mono; [exact V|exact Ho|exact H0|].
      pose proof (proj1 (Forall_forall _ _) Hlt k0 Hk0). lia. }
    assert (Hnew' : forall k0 o0, k0 ∈ ks -> owns ss' es' o0 k0 -> (n <= o0)%nat).
    { intros k0 o0 Hk0 H0. eapply owner_mono; [exact V'|exact Hn|exact H0|].
      pose proof (proj1 (Forall_forall _ _) Hlt k0 Hk0). lia. }
    destruct (decide (o = n)) as [->|Hne].
    - destruct (IH Hsort Hin n n ws Hl Hold' Hnew') as (ws' & E1 & L1 & K1 & K2).
      exists ws'. split; [done|]. split; [done|]. split.
      + intros m [_ Hm]%not_elem_of_cons. by apply K1.
      + intros m Hm o' n' Ho' Hn' w t. destruct (decide (m = k)) as [->|].
        * assert (o' = n) as -> by (by eapply valid_split_owner_unique; [exact V| |]).
          assert (n' = n) as -> by (by eapply valid_split_owner_unique; [exact V'| |]).
          rewrite !decide_True by auto. by apply K1.
        * apply K2; try done. by apply elem_of_cons in Hm as [?|?].
    - destruct (move_cell_spec pz ws k o n Hne Lo Ln) as (w1 & -> & L1 & M1 & M2). simpl.
      destruct (IH Hsort Hin o n w1 ltac:(lia) Hold' Hnew') as (ws' & E1 & L2 & K1 & K2).
      exists ws'. split; [done|]. split; [lia|]. split.
      + intros m [Hm1 Hm2]%not_elem_of_cons w t. destruct (K1 m Hm2 w t) as [-> ->].
        rewrite M1, M2. rewrite (decide_False (P := m = k)) by done.
        by rewrite decide_False by (intros [? _]; done).
      + intros m Hm o' n' Ho' Hn' w t. destruct (decide (m = k)) as [->|Hmk].
        * assert (o' = o) as -> by (by eapply valid_split_owner_unique; [exact V| |]).
          assert (n' = n) as -> by (by eapply valid_split_owner_unique; [exact V'| |]).
          destruct (K1 k Hkn w t) as [-> ->]. rewrite M1, M2.
          rewrite (decide_False (P := o = n)) by done. rewrite decide_True by done. split; [done|].
          destruct pz.
          -- rewrite decide_True by done. rewrite decide_False by (intros [?|?]; done). done.
          -- rewrite decide_False by (intros [_ ?]; done). rewrite decide_True by (by right). done.
        * apply elem_of_cons in Hm as [?|Hm]; [done|].
          destruct (K2 m Hm o' n' Ho' Hn' w t) as [-> ->].
          rewrite !M1, !M2. rewrite !(decide_False (P := m = k)) by done.
          rewrite !(decide_False (P := m = k /\ pz = true)) by (intros [? _]; done). done.
  Qed.

  Lemma elem_of_cells_upto count m : m ∈ cells_upto count <-> 0 <= m < count.
  Proof.
    unfold cells_upto. rewrite elem_of_list_fmap. split.
    - intros (i & -> & Hi%elem_of_seq). lia.
    - intros H. exists (Z.to_nat m). rewrite elem_of_seq. lia.
  Qed.

  Lemma seq_sorted a n : StronglySorted Z.lt (Z.of_nat <$> seq a n).
  Proof.
    revert a. induction n as [|n IH]; intros a; simpl; [constructor|].
    constructor; [apply IH|]. apply Forall_fmap, Forall_forall.
    intros x Hx%elem_of_seq. simpl. lia.
  Qed.

  Lemma move_cells_spec pz count ss es ss' es' ws :
    valid_split count ss es -> valid_split count ss' es' -> length es' = length es ->
    length ws = length es ->
    exists ws', move_cells pz count es es' ws = Ret ws' /\ length ws' = length ws /\
      (forall m, ~ 0 <= m < count -> forall w t,
         at_rx ws' w t m = at_rx ws w t m /\ at_uz ws' w t m = at_uz ws w t m) /\
      (forall m, 0 <= m < count -> forall o n, owns ss es o m -> owns ss' es' n m -> forall w t,
        at_rx ws' w t m = (if decide (o = n) then at_rx ws w t m
                           else moved cell_types o n w t m (at_rx ws o t m) (at_rx ws w t m)) /\
        at_uz ws' w t m = (if decide (o = n \/ pz = false) then at_uz ws w t m
                           else moved all_types o n w t m (at_uz ws o t m) (at_uz ws w t m))).
  Proof.
    intros V V' L Lw. unfold move_cells.
    destruct (move_loop_spec pz count ss es ss' es' V V' L (cells_upto count)
                (seq_sorted _ _)) with (old := 0%nat) (nnew := 0%nat) (ws := ws)
      as (ws' & E1 & L1 & K1 & K2); try done; try (intros; lia).
    - apply Forall_forall. intros k. apply elem_of_cells_upto.
    - exists ws'. split; [done|]. split; [done|]. split.
      + intros m Hm. apply K1. by rewrite elem_of_cells_upto.
      + intros m Hm. apply K2. by rewrite elem_of_cells_upto.
  Qed.

  (** ** Distribution of initial conditions *)

  Lemma elem_of_range s e m : m ∈ range s e <-> s <= m <= e.
  Proof.
    unfold range. rewrite elem_of_list_fmap. split.
    - intros (i & -> & Hi%elem_of_seq). lia.
    - intros H. exists (Z.to_nat (m - s)). rewrite elem_of_seq. lia.
  Qed.

  Lemma give_cells_spec n ks (ws : list store) : n <> 0%nat -> (n < length ws)%nat ->
    length (foldl (give_cell n) ws ks) = length ws /\
    forall w t m,
      at_rx (foldl (give_cell n) ws ks) w t m =
        (if decide (w = n /\ m ∈ ks /\ t ∈ cell_types) then
           match at_rx ws 0 t m with Some e => Some (renumber m e) | None => at_rx ws w t m end
         else at_rx ws w t m) /\
      at_uz (foldl (give_cell n) ws ks) w t m = at_uz ws w t m.
  Proof.
    intros Hn. revert ws. induction ks as [|k ks IH]; intros ws L.
    { split; [done|]. intros w t m. split; [|done].
      rewrite decide_False; [done|]. intros (_ & H & _). by apply elem_of_nil in H. }
    cbn [foldl].
    assert (G : length (give_cell n ws k) = length ws /\ forall w t m,
      at_rx (give_cell n ws k) w t m =
        (if decide (w = n /\ m = k /\ t ∈ cell_types) then
           match at_rx ws 0 t m with Some e => Some (renumber m e) | None => at_rx ws w t m end
         else at_rx ws w t m) /\ at_uz (give_cell n ws k) w t m = at_uz ws w t m).
    { unfold give_cell. destruct (lookup_lt_is_Some_2 ws 0 ltac:(lia)) as [w0 H0].
      destruct (lookup_lt_is_Some_2 ws n L) as [wn Hwn]. rewrite H0, Hwn.
      split; [by rewrite insert_length|]. intros w t m. unfold at_rx, at_uz.
      rewrite H0. destruct (decide (w = n)) as [->|Hw].
      - rewrite list_lookup_insert by done. cbn [rx uz]. rewrite Hwn. split; [|done].
        rewrite lookup_bin2phreeqc_n. destruct (decide (m = k)) as [->|Hm].
        + rewrite lookup_phreeqc2bin_n, lookup_empty. destruct (decide (t ∈ cell_types)).
          * rewrite !decide_True by done. by destruct (rx w0 !! (t, k)).
          * rewrite !decide_False by (intros (? & ?); naive_solver). done.
        + by rewrite decide_False by (intros (? & ? & ?); done).
      - rewrite list_lookup_insert_ne by done. rewrite decide_False by (intros (? & ?); done). done. }
    destruct G as [GL G]. destruct (IH (give_cell n ws k) ltac:(lia)) as [IL IHs].
    split; [lia|]. intros w t m. destruct (IHs w t m) as [-> ->].
    destruct (G w t m) as [G1 G2]. destruct (G 0%nat t m) as [G0 _].
    rewrite (decide_False (P := 0%nat = n /\ _)) in G0 by (intros [? _]; done).
    rewrite G0. split; [|by rewrite G2]. rewrite G1.
    destruct (decide (w = n)) as [->|Hw].
    2: { rewrite !decide_False by (intros (? & _); done). done. }
    destruct (decide (t ∈ cell_types)) as [Ht|Ht].
    2: { rewrite !decide_False by (intros (_ & _ & ?); done). done. }
    destruct (decide (m = k)) as [->|Hm].
    - rewrite (decide_True (P := n = n /\ k = k /\ _)) by done.
      rewrite (decide_True (P := n = n /\ k ∈ k :: ks /\ _)) by (split_and!; [done|by left|done]).
      destruct (decide (n = n /\ k ∈ ks /\ _)); by destruct (at_rx ws 0 t k).
    - rewrite (decide_False (P := n = n /\ m = k /\ _)) by (intros (_ & ? & _); done).
      destruct (decide (m ∈ ks)) as [Hi|Hi].
      + rewrite !decide_True; [done| |by split_and!]. split_and!; [done|by right|done].
      + rewrite !decide_False; [done| |by intros (_ & ? & _)].
        intros (_ & [?|?]%elem_of_cons & _); done.
  Qed.

  Lemma delete_cells0_spec ks (ws : list store) : ks <> [] ->
    length (delete_cells0 ks ws) = length ws /\
    forall w t m,
      at_rx (delete_cells0 ks ws) w t m =
        (if decide (w = 0%nat /\ m ∈ ks) then None else at_rx ws w t m) /\
      at_uz (delete_cells0 ks ws) w t m = at_uz ws w t m.
  Proof.
    intros Hks. assert (F : forall ks (b : bin) t m,
      foldl (fun w k => delete_cell k w) b ks !! (t, m) = if decide (m ∈ ks) then None else b !! (t, m)).
    { clear. induction ks as [|k ks IH]; intros b t m; cbn [foldl].
      - rewrite decide_False; [done|]. apply not_elem_of_nil.
      - rewrite IH. unfold delete_cell. rewrite lookup_bin_remove.
        destruct (decide (m ∈ ks)) as [H1|H1].
        + rewrite decide_True by (by right). done.
        + destruct (decide (m = k)) as [->|H2].
          * rewrite decide_True by (by left). done.
          * rewrite decide_False; [done|]. by intros [?|?]%elem_of_cons. }
    destruct ws as [|w0 ws].
    { split; [done|]. intros w t m. split; [|done]. unfold at_rx. cbn. by destruct (decide _). }
    split; [done|]. intros w t m. unfold at_rx, at_uz, delete_cells0.
    destruct ks as [|k ks]; [done|]. destruct w as [|w].
    - cbn [lookup list_lookup rx uz]. split; [|done]. rewrite F.
      destruct (decide (m ∈ k :: ks)) as [Hi|Hi].
      + by rewrite decide_True.
      + rewrite decide_False; [done|]. by intros [_ ?].
    - cbn [lookup list_lookup]. split; [|done]. rewrite decide_False; [done|]. by intros [? _].
  Qed.

  Lemma distribute_spec ss es : length ss = length es ->
    (forall j s e, ss !! j = Some s -> es !! j = Some e -> s <= e) ->
    (forall j1 j2 m, owns ss es j1 m -> owns ss es j2 m -> j1 = j2) ->
    forall n ws, n <> 0%nat -> (n + length es <= length ws)%nat ->
    length (distribute n ss es ws) = length ws /\
    (forall m, (forall j, ~ owns ss es j m) -> forall w t,
       at_rx (distribute n ss es ws) w t m = at_rx ws w t m) /\
    (forall m j, owns ss es j m -> forall w t,
       at_rx (distribute n ss es ws) w t m =
         moved cell_types 0 (n + j) w t m (at_rx ws 0 t m) (at_rx ws w t m)) /\
    (forall w t m, at_uz (distribute n ss es ws) w t m = at_uz ws w t m).
  Proof.
    revert es. induction ss as [|s ss IH]; intros es Hl Hne Hdis n ws Hn Lw.
    { split; [done|]. split; [done|]. split; [|done].
      intros m j (s & e & Hs & _). by rewrite lookup_nil in Hs. }
    destruct es as [|e es]; [done|]. cbn [distribute]. cbn [length] in *.
    set (ws1 := foldl (give_cell n) ws (range s e)).
    set (ws2 := delete_cells0 (range s e) ws1).
    destruct (give_cells_spec n (range s e) ws Hn ltac:(lia)) as [L1 G1]. fold ws1 in L1, G1.
    assert (Hse : s <= e) by (by apply (Hne 0%nat)).
    destruct (delete_cells0_spec (range s e) ws1) as [L2 G2].
    { intros Hr. assert (Hin : s ∈ range s e) by (apply elem_of_range; lia). rewrite Hr in Hin.
      by apply elem_of_nil in Hin. }
    fold ws2 in L2, G2.
    assert (Sh : forall j m, owns ss es j m -> owns (s :: ss) (e :: es) (S j) m).
    { intros j m (s' & e' & ? & ? & ?). by exists s', e'. }
    assert (Hin0 : forall m, m ∈ range s e <-> owns (s :: ss) (e :: es) 0 m).
    { intros m. rewrite elem_of_range. split.
      - intros H. by exists s, e.
      - intros (s' & e' & [= <-] & [= <-] & H). done. }
    destruct (IH es ltac:(lia)) with (n := S n) (ws := ws2) as (L3 & D1 & D2 & D3).
    { intros j s' e' ? ?. by apply (Hne (S j)). }
    { intros j1 j2 m H1 H2. pose proof (Hdis _ _ _ (Sh _ _ H1) (Sh _ _ H2)). lia. }
    { done. }
    { lia. }
    split; [lia|]. split.
    { intros m Hno w t. rewrite D1 by (intros j Hj; by apply (Hno (S j)), Sh).
      assert (Hnr : m ∉ range s e) by (rewrite Hin0; apply Hno).
      destruct (G2 w t m) as [-> _]. rewrite decide_False by (by intros [_ ?]).
      destruct (G1 w t m) as [-> _]. rewrite decide_False by (by intros (_ & ? & _)). done. }
    split.
    2: { intros w t m. rewrite D3. destruct (G2 w t m) as [_ ->]. by destruct (G1 w t m) as [_ ->]. }
    intros m j Hj w t. destruct j as [|j].
    - assert (Hm : m ∈ range s e) by (by apply Hin0).
      rewrite D1.
      2: { intros j' Hj'. pose proof (Hdis _ _ _ Hj (Sh _ _ Hj')). done. }
      destruct (G2 w t m) as [-> _]. unfold moved. rewrite Nat.add_0_r.
      destruct (decide (w = 0%nat)) as [->|Hw].
      { by rewrite decide_True. }
      rewrite decide_False by (by intros [? _]). destruct (G1 w t m) as [-> _].
      destruct (decide (w = n /\ t ∈ cell_types)) as [[-> Ht]|N].
      + by rewrite decide_True.
      + rewrite decide_False; [done|]. intros (? & _ & ?). tauto.
    - assert (Hj' : owns ss es j m). { destruct Hj as (s' & e' & ? & ? & ?). by exists s', e'. }
      assert (Hnr : m ∉ range s e).
      { rewrite Hin0. intros H0. pose proof (Hdis _ _ _ Hj H0). done. }
      rewrite (D2 m j Hj' w t). replace (n + S j)%nat with (S n + j)%nat by lia.
      assert (Eq : forall w, at_rx ws2 w t m = at_rx ws w t m).
      { intros w'. destruct (G2 w' t m) as [-> _]. rewrite decide_False by (by intros [_ ?]).
        destruct (G1 w' t m) as [-> _]. rewrite decide_False by (by intros (_ & ? & _)). done. }
      by rewrite !Eq.
  Qed.

  (** Summary for a valid split: cells of thread 0 stay, a cell of thread n >= 1
      moves from worker 0 to worker n. *)
  Lemma distribute_initial_spec count ss es ws : valid_split count ss es -> length ws = length es ->
    length (distribute_initial ss es ws) = length ws /\
    (forall m, owns ss es 0 m \/ ~ 0 <= m < count -> forall w t,
       at_rx (distribute_initial ss es ws) w t m = at_rx ws w t m) /\
    (forall m n, owns ss es (S n) m -> forall w t,
       at_rx (distribute_initial ss es ws) w t m =
         moved cell_types 0 (S n) w t m (at_rx ws 0 t m) (at_rx ws w t m)) /\
    (forall w t m, at_uz (distribute_initial ss es ws) w t m = at_uz ws w t m).
  Proof.
    intros V Lw. unfold distribute_initial. pose proof (vs_len _ _ _ V) as Hlen.
    destruct ss as [|s ss]; [by destruct (vs_nonempty_list _ _ _ V)|].
    destruct es as [|e es]; [done|]. cbn [tail length] in *.
    assert (Sh : forall j m, owns ss es j m <-> owns (s :: ss) (e :: es) (S j) m).
    { intros j m. split; intros (s' & e' & ? & ? & ?); by exists s', e'. }
    destruct (distribute_spec ss es ltac:(lia)) with (n := 1%nat) (ws := ws) as (L1 & D1 & D2 & D3).
    { intros j s' e' ? ?. by apply (vs_nonempty _ _ _ V (S j)). }
    { intros j1 j2 m H1 H2.
      pose proof (valid_split_owner_unique _ _ _ _ _ _ V (proj1 (Sh _ _) H1) (proj1 (Sh _ _) H2)). lia. }
    { done. }
    { lia. }
    split; [done|]. split.
    { intros m Hm. apply D1. intros j Hj0. pose proof (proj1 (Sh _ _) Hj0) as Hj. destruct Hm as [Hm|Hm].
      - pose proof (valid_split_owner_unique _ _ _ _ _ _ V Hm Hj). done.
      - by pose proof (owns_in_range _ _ _ _ _ V Hj). }
    split; [|done]. intros m n Hn. apply (D2 m n). by apply Sh.
  Qed.
End move.
