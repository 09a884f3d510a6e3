From stdpp Require Import prelude gmap sorting.
From Verif.Bin Require Import Model.
Local Open Scope Z_scope.

Lemma elem_of_all_types t : t ∈ all_types.
Proof. destruct t; unfold all_types; set_solver. Qed.
Lemma all_types_nodup : NoDup all_types.
Proof. unfold all_types. repeat constructor; set_solver. Qed.
Lemma cell_types_nodup : NoDup cell_types.
Proof. unfold cell_types. repeat constructor; set_solver. Qed.

Section bin.
  Context {E : Type}.
  Local Notation bin := (bin E).

  (** Transfer of some types of cell [n] from [src], transforming each entity. *)
  Lemma foldl_transfer (f : entity E -> entity E) (L : list rtype) (n : Z) (src b : bin) (t : rtype) (m : Z) :
    foldl (fun b t => match src !! (t, n) with Some e => <[(t, n) := f e]> b | None => b end)
      b L !! (t, m) =
    if decide (m = n /\ t ∈ L) then
      match src !! (t, n) with Some e => Some (f e) | None => b !! (t, m) end
    else b !! (t, m).
  Proof.
    revert b. induction L as [|u L IH]; intros b; simpl.
    { rewrite decide_False; [done|]. intros [_ H]. set_solver. }
    rewrite IH. clear IH. destruct (src !! (u, n)) as [e|] eqn:Eu.
    - destruct (decide (m = n)) as [->|Hm].
      + destruct (decide (t = u)) as [->|Ht].
        * rewrite Eu, lookup_insert. destruct (decide (n = n /\ u ∈ u :: L)) as [|N]; [|set_solver].
          by destruct (decide _).
        * rewrite lookup_insert_ne by congruence.
          destruct (decide (n = n /\ t ∈ L)), (decide (n = n /\ t ∈ u :: L)); set_solver.
      + rewrite lookup_insert_ne by congruence.
        rewrite !decide_False by naive_solver. done.
    - destruct (decide (m = n /\ t ∈ L)) as [|N1], (decide (m = n /\ t ∈ u :: L)) as [|N2]; try done.
      + set_solver.
      + assert (t = u) as -> by set_solver. by rewrite Eu.
  Qed.

  Lemma foldl_delete (L : list rtype) (n : Z) (b : bin) (t : rtype) (m : Z) :
    foldl (fun b t => delete (t, n) b) b L !! (t, m) =
    if decide (m = n /\ t ∈ L) then None else b !! (t, m).
  Proof.
    revert b. induction L as [|u L IH]; intros b; simpl.
    { rewrite decide_False; [done|]. intros [_ H]. set_solver. }
    rewrite IH. destruct (decide ((u, n) = (t, m))) as [[= -> ->]|Hne].
    - rewrite lookup_delete. rewrite (decide_True (P := m = m /\ t ∈ t :: L)) by set_solver.
      by destruct (decide _).
    - rewrite lookup_delete_ne by done.
      destruct (decide (m = n /\ t ∈ L)), (decide (m = n /\ t ∈ u :: L)); try done; set_solver.
  Qed.

  Lemma lookup_bin_remove (n : Z) (b : bin) (t : rtype) (m : Z) :
    bin_remove n b !! (t, m) = if decide (m = n) then None else b !! (t, m).
  Proof.
    unfold bin_remove. rewrite foldl_delete.
    pose proof (elem_of_all_types t).
    destruct (decide (m = n /\ _)), (decide (m = n)); naive_solver.
  Qed.

  Lemma lookup_bin_add (src : bin) (n : Z) (b : bin) (t : rtype) (m : Z) :
    bin_add src n b !! (t, m) =
    if decide (m = n) then
      match src !! (t, n) with Some e => Some (renumber n e) | None => b !! (t, m) end
    else b !! (t, m).
  Proof.
    unfold bin_add, bin_set. rewrite foldl_transfer.
    pose proof (elem_of_all_types t).
    destruct (decide (m = n /\ _)), (decide (m = n)); naive_solver.
  Qed.

  Lemma foldl_copy (dst s : Z) (L : list rtype) (b : bin) : dst <> s ->
    foldl (fun b t => match b !! (t, s) with Some e => bin_set t dst e b | None => b end) b L =
    foldl (fun b' t => match (b : bin) !! (t, s) with Some e => bin_set t dst e b' | None => b' end) b L.
  Proof.
    intros Hne.
    assert (G : forall (b0 b1 : bin), (forall t, b0 !! (t, s) = b1 !! (t, s)) ->
      foldl (fun b t => match b !! (t, s) with Some e => bin_set t dst e b | None => b end) b0 L =
      foldl (fun b' t => match b1 !! (t, s) with Some e => bin_set t dst e b' | None => b' end) b0 L).
    { induction L as [|u L IH]; intros b0 b1 Hb; [done|]. simpl. rewrite Hb.
      apply IH. intros t. destruct (b1 !! (u, s)); [|apply Hb].
      unfold bin_set. rewrite lookup_insert_ne by congruence. apply Hb. }
    by apply G.
  Qed.

  Lemma foldl_copy_lookup (dst s : Z) (L : list rtype) (b b0 : bin) (t : rtype) (m : Z) : dst <> s ->
    foldl (fun b' t => match b !! (t, s) with Some e => bin_set t dst e b' | None => b' end) b0 L !! (t, m)
    = if decide (m = dst /\ t ∈ L) then
        match b !! (t, s) with Some e => Some (renumber dst e) | None => b0 !! (t, m) end
      else b0 !! (t, m).
  Proof.
    intros Hne. revert b0.
    induction L as [|u L IH]; intros b0; simpl.
    { rewrite decide_False; [done|]. intros [_ H]. set_solver. }
    rewrite IH. clear IH. unfold bin_set. destruct (b !! (u, s)) as [e|] eqn:Eu.
    - destruct (decide (m = dst)) as [->|Hm].
      + destruct (decide (t = u)) as [->|Ht].
        * rewrite Eu, lookup_insert. rewrite (decide_True (P := dst = dst /\ u ∈ u :: L)) by set_solver.
          by destruct (decide _).
        * rewrite lookup_insert_ne by congruence.
          destruct (decide (dst = dst /\ t ∈ L)), (decide (dst = dst /\ t ∈ u :: L)); set_solver.
      + rewrite lookup_insert_ne by congruence.
        rewrite !decide_False by naive_solver. done.
    - destruct (decide (m = dst /\ t ∈ L)) as [|N1], (decide (m = dst /\ t ∈ u :: L)) as [|N2]; try done.
      + set_solver.
      + assert (t = u) as -> by set_solver. by rewrite Eu.
  Qed.

  Lemma lookup_bin_copy (dst s : Z) (b : bin) (t : rtype) (m : Z) : dst <> s ->
    bin_copy dst s b !! (t, m) =
    if decide (m = dst) then renumber dst <$> b !! (t, s) else b !! (t, m).
  Proof.
    intros Hne. unfold bin_copy. rewrite decide_False by done.
    rewrite foldl_copy by done. rewrite foldl_copy_lookup by done.
    rewrite !lookup_bin_remove. rewrite (decide_False (P := s = dst)) by congruence.
    pose proof (elem_of_all_types t).
    destruct (decide (m = dst)) as [->|Hm].
    - rewrite decide_True by done. by destruct (b !! (t, s)).
    - rewrite decide_False by naive_solver. done.
  Qed.

  Lemma lookup_phreeqc2bin_n (w sb : bin) (n : Z) (t : rtype) (m : Z) :
    phreeqc2bin_n w sb n !! (t, m) =
    if decide (m = n /\ t ∈ cell_types) then
      match w !! (t, n) with Some e => Some (renumber n e) | None => sb !! (t, m) end
    else sb !! (t, m).
  Proof. apply foldl_transfer. Qed.

  Lemma lookup_bin2phreeqc_n (sb w : bin) (n : Z) (t : rtype) (m : Z) :
    bin2phreeqc_n sb w n !! (t, m) =
    if decide (m = n) then
      match sb !! (t, n) with Some e => Some e | None => w !! (t, m) end
    else w !! (t, m).
  Proof.
    unfold bin2phreeqc_n. rewrite (foldl_transfer id).
    pose proof (elem_of_all_types t).
    destruct (decide (m = n /\ _)), (decide (m = n)); naive_solver.
  Qed.

  (** Every reactant is stored under its own number. *)
  Definition well_numbered (w : bin) : Prop :=
    forall (t : rtype) (k : Z) e, w !! (t, k) = Some e -> e_n e = k /\ e_end e = k.

  Lemma renumber_id k (e : entity E) : e_n e = k -> e_end e = k -> renumber k e = e.
  Proof. destruct e; simpl; intros -> ->. done. Qed.
  Lemma well_numbered_renumber (w : bin) (t : rtype) (k : Z) e :
    well_numbered w -> w !! (t, k) = Some e -> renumber k e = e.
  Proof. intros W H. destruct (W _ _ _ H). by apply renumber_id. Qed.

  Lemma elem_of_keys_of (t : rtype) (w : bin) (k : Z) : k ∈ keys_of t w <-> is_Some (w !! (t, k)).
  Proof.
    unfold keys_of. rewrite merge_sort_Permutation, elem_of_list_fmap. split.
    - intros ([t' k'] & -> & [Ht Hin]%elem_of_list_filter). simpl in *. subst t'.
      apply elem_of_list_fmap in Hin as ([? e] & -> & Hin%elem_of_map_to_list). eauto.
    - intros [e He]. exists (t, k). split; [done|]. apply elem_of_list_filter. split; [done|].
      apply elem_of_list_fmap. exists ((t, k), e). split; [done|]. by apply elem_of_map_to_list.
  Qed.

  Lemma foldl_store_lookup (t : rtype) (w : bin) (Hw : well_numbered w) (L : list Z) (b : bin) (u : rtype) (m : Z) :
    foldl (fun b k => match w !! (t, k) with Some e => bin_set t (e_n e) e b | None => b end) b L !! (u, m)
    = if decide (u = t /\ m ∈ L) then
        match w !! (t, m) with Some e => Some e | None => b !! (u, m) end
      else b !! (u, m).
  Proof.
    revert b. induction L as [|k L IH]; intros b; simpl.
    { rewrite decide_False; [done|]. intros [_ H]. set_solver. }
    rewrite IH. clear IH. unfold bin_set. destruct (w !! (t, k)) as [e|] eqn:Ek.
    - destruct (Hw _ _ _ Ek) as [Hn Hend]. rewrite Hn. rewrite renumber_id by done.
      destruct (decide (u = t)) as [->|Hu].
      + destruct (decide (m = k)) as [->|Hm].
        * rewrite Ek, lookup_insert. rewrite (decide_True (P := t = t /\ k ∈ k :: L)) by set_solver.
          by destruct (decide _).
        * rewrite lookup_insert_ne by congruence.
          destruct (decide (t = t /\ m ∈ L)), (decide (t = t /\ m ∈ k :: L)); set_solver.
      + rewrite lookup_insert_ne by congruence. rewrite !decide_False by naive_solver. done.
    - destruct (decide (u = t /\ m ∈ L)) as [|N1], (decide (u = t /\ m ∈ k :: L)) as [|N2]; try done.
      + set_solver.
      + assert (m = k) as -> by set_solver. by rewrite Ek.
  Qed.

  Lemma lookup_store_all (t : rtype) (w b : bin) (u : rtype) (m : Z) : well_numbered w ->
    store_all t w b !! (u, m) =
    if decide (u = t) then match w !! (t, m) with Some e => Some e | None => b !! (u, m) end
    else b !! (u, m).
  Proof.
    intros Hw. unfold store_all. rewrite foldl_store_lookup by done.
    destruct (decide (u = t)) as [->|].
    - destruct (w !! (t, m)) as [e|] eqn:Em; [|by destruct (decide _)].
      rewrite decide_True; [done|]. split; [done|]. apply elem_of_keys_of. eauto.
    - by rewrite decide_False by naive_solver.
  Qed.

  Lemma lookup_phreeqc2bin (w b : bin) (u : rtype) (m : Z) : well_numbered w ->
    phreeqc2bin w b !! (u, m) = match w !! (u, m) with Some e => Some e | None => b !! (u, m) end.
  Proof.
    intros Hw. unfold phreeqc2bin. pose proof (elem_of_all_types u) as Hu.
    revert b Hu. generalize all_types. intros L. induction L as [|t L IH]; intros b Hu.
    { set_solver. }
    simpl. destruct (decide (u ∈ L)) as [Hin|Hnin].
    - rewrite IH by done. rewrite lookup_store_all by done.
      destruct (w !! (u, m)) eqn:Em; [done|]. destruct (decide (u = t)) as [->|]; [|done].
      by rewrite Em.
    - assert (u = t) as -> by set_solver. clear Hu IH.
      assert (G : forall b, foldl (fun b t => store_all t w b) b L !! (t, m) = b !! (t, m)).
      { induction L as [|v L IH]; intros b'; [done|]. simpl. rewrite IH by set_solver.
        rewrite lookup_store_all by done. rewrite decide_False; [done|]. set_solver. }
      rewrite G, lookup_store_all, decide_True by done. done.
  Qed.

  (** Everything in the bin comes from some reactant that carries the number. *)
  Lemma phreeqc2bin_origin (w : bin) (t : rtype) (n : Z) e :
    phreeqc2bin w ∅ !! (t, n) = Some e -> exists k e', w !! (t, k) = Some e' /\ e_n e' = n.
  Proof.
    assert (G1 : forall u (L : list Z) (b : bin),
      foldl (fun b k => match w !! (u, k) with Some e => bin_set u (e_n e) e b | None => b end) b L !! (t, n)
        = Some e -> b !! (t, n) = Some e \/ exists k e', w !! (t, k) = Some e' /\ e_n e' = n).
    { intros u L. induction L as [|k L IH]; intros b; cbn [foldl]; [by left|].
      intros [H|H]%IH; [|by right]. destruct (w !! (u, k)) as [e'|] eqn:Ek; [|by left].
      unfold bin_set in H. destruct (decide ((u, e_n e') = (t, n))) as [[= -> Hn]|Hne].
      - right. eauto.
      - rewrite lookup_insert_ne in H by done. by left. }
    assert (G2 : forall L (b : bin), foldl (fun b u => store_all u w b) b L !! (t, n) = Some e ->
      b !! (t, n) = Some e \/ exists k e', w !! (t, k) = Some e' /\ e_n e' = n).
    { induction L as [|u L IH]; intros b; cbn [foldl]; [by left|].
      intros [H|H]%IH; [|by right]. by apply G1 in H. }
    intros H. apply G2 in H as [H|H]; [|done]. by rewrite lookup_empty in H.
  Qed.

  Lemma phreeqc2bin_empty (w : bin) : well_numbered w -> phreeqc2bin w ∅ = w.
  Proof.
    intros Hw. apply map_eq. intros [u m]. rewrite lookup_phreeqc2bin by done.
    destruct (w !! (u, m)); [done|]. by rewrite lookup_empty.
  Qed.
End bin.
