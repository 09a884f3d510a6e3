(** Proofs about the rows RunCellsThread records and about GetSelectedOutput. *)
From Coq Require Import String.
From stdpp Require Import prelude strings gmap.
From Verif.Base Require Import Result.
From Verif.SelOut Require Import Model Spec Proofs.
Arguments latest : simpl never.

Section Threads.
Context {D : Type}.
Notation var := (var D).
Notation table := (table D).
Notation log := (log D).

(** What row 0 of [t] punches elsewhere. *)
Definition row0 (t : table) : list (string * var) :=
  zip (t_head t) (map (fun col => default VEmpty (col !! 0)) (t_cols t)).
Definition punches (ps : list (string * var)) : list event := map (fun p => Punch p.1 p.2) ps.

Definition cell_punches (wet : nat -> bool) (run : nat -> option smap) (n : Z) (i : nat)
  : list (string * var) :=
  if wet i then
    match run i with
    | Some sm => match (list_to_map sm : gmap Z table) !! n with Some t => row0 t | None => [] end
    | None => []
    end
  else [].
Definition cell_events wet run n i : list event := punches (cell_punches wet run n i) ++ [End].

Lemma row0_made es (t : table) row :
  made es t -> l_done (log_of es) !! 0 = Some row ->
  row0 t = map (fun k => (k, latest k row)) (t_head t).
Proof.
  intros H Hr. apply made_inv in H. unfold row0.
  rewrite (inv_head _ _ H), (inv_cols _ _ H), map_map.
  induction (l_heads (log_of es)) as [|k ks IH]; [done|]. cbn [map zip zip_with]. f_equal; [|done].
  f_equal. unfold column. destruct (l_done (log_of es)) as [|x dn]; [done|].
  injection Hr as ->. done.
Qed.

Lemma transfer_row0 es (t : table) row u :
  made es t -> l_done (log_of es) !! 0 = Some row ->
  exists code, serialize 0 t = Ret code /\ deserialize code u = do_events (punches (row0 t) ++ [End]) u.
Proof.
  intros H Hr. destruct (transfer_made es t 0 row u H Hr) as (code & E1 & E2).
  exists code. split; [done|]. rewrite E2, (row0_made es t row H Hr). unfold arrive, punches.
  by rewrite map_map.
Qed.

Definition holds (cm : gmap Z table) (keys : list Z) (evs : Z -> list event) : Prop :=
  (forall n, n ∈ keys -> exists t, cm !! n = Some t /\ made (evs n) t) /\
  (forall n, is_Some (cm !! n) -> n ∈ keys).

Lemma events_total es es' (t : table) : made es t -> exists t', do_events es' t = Ret t' /\ made (es ++ es') t'.
Proof.
  intros H. destruct (events_inv es' t _ (made_inv _ _ H)) as (t' & E & _). exists t'. split; [done|].
  by eapply made_app.
Qed.

Lemma store_rows_spec (sm : smap) : forall cm,
  NoDup sm.*1 ->
  (forall n t, (n, t) ∈ sm -> exists es, made es t /\ 1 <= length (l_done (log_of es))) ->
  (forall n, n ∈ sm.*1 -> exists es c, cm !! n = Some c /\ made es c) ->
  exists cm', store_rows sm cm = Ret (true, cm') /\
    (forall n t c, (n, t) ∈ sm -> cm !! n = Some c ->
       exists c', do_events (punches (row0 t) ++ [End]) c = Ret c' /\ cm' !! n = Some c') /\
    (forall n, n ∉ sm.*1 -> cm' !! n = cm !! n).
Proof.
  induction sm as [|[n t] sm IH]; intros cm Hnd Ht Hc; cbn [store_rows].
  - exists cm. split; [done|]. split; [intros n t c H; by apply elem_of_nil in H|done].
  - cbn in Hnd. apply NoDup_cons in Hnd as [Hn Hnd].
    destruct (Hc n) as (es & c & Ec & Mc); [left|]. rewrite Ec.
    destruct (Ht n t) as (es' & Mt & Hlen); [left|].
    destruct (lookup_lt_is_Some_2 (l_done (log_of es')) 0) as [row Hrow]; [lia|].
    destruct (transfer_row0 es' t row c Mt Hrow) as (code & E1 & E2). rewrite E1. cbn [obind]. rewrite E2.
    destruct (events_total es (punches (row0 t) ++ [End]) c Mc) as (c' & E3 & M3). rewrite E3. cbn [obind].
    destruct (IH (<[n := c']> cm)) as (cm' & E4 & H1 & H2).
    + done.
    + intros n' t' Hin. apply (Ht n' t'). by right.
    + intros n' Hin. destruct (decide (n' = n)) as [->|Hne]; [done|].
      rewrite lookup_insert_ne by done. apply Hc. by right.
    + exists cm'. split; [done|]. split.
      * intros n' t' c0 Hin Hcm. apply elem_of_cons in Hin as [[= -> ->]|Hin].
        -- assert (c0 = c) by congruence. subst. exists c'. split; [done|].
           rewrite H2 by done. apply lookup_insert.
        -- assert (n' <> n).
           { intros ->. apply Hn. apply elem_of_list_fmap. by exists (n, t'). }
           apply (H1 n' t' c0 Hin). by rewrite lookup_insert_ne.
      * intros n' Hn'. rewrite fmap_cons, not_elem_of_cons in Hn'. destruct Hn' as [Hne Hn'].
        rewrite H2 by done. by rewrite lookup_insert_ne.
Qed.

Lemma skip_rows_spec (sm : smap) : forall cm : gmap Z table,
  NoDup sm.*1 ->
  (forall n, n ∈ sm.*1 -> is_Some (cm !! n)) ->
  exists cm', skip_rows sm cm = Ret cm' /\
    (forall n c, n ∈ sm.*1 -> cm !! n = Some c -> cm' !! n = Some (end_row c)) /\
    (forall n, n ∉ sm.*1 -> cm' !! n = cm !! n).
Proof.
  induction sm as [|[n t] sm IH]; intros cm Hnd Hc; cbn [skip_rows].
  - exists cm. split; [done|]. split; [intros n c H; by apply elem_of_nil in H|done].
  - cbn in Hnd. apply NoDup_cons in Hnd as [Hn Hnd].
    destruct (Hc n) as [c Ec]; [left|]. rewrite Ec.
    destruct (IH (<[n := end_row c]> cm)) as (cm' & E4 & H1 & H2); [done| |].
    + intros n' Hin. destruct (decide (n' = n)) as [->|Hne]; [done|].
      rewrite lookup_insert_ne by done. apply Hc. by right.
    + exists cm'. split; [done|]. split.
      * intros n' c0 Hin Hcm. rewrite fmap_cons in Hin. apply elem_of_cons in Hin as [->|Hin].
        -- cbn in Hcm |- *. assert (c0 = c) by congruence. subst. rewrite H2 by done. apply lookup_insert.
        -- assert (n' <> n) by (intros ->; done).
           apply (H1 n' c0 Hin). by rewrite lookup_insert_ne.
      * intros n' Hn'. rewrite fmap_cons, not_elem_of_cons in Hn'. destruct Hn' as [Hne Hn'].
        rewrite H2 by done. by rewrite lookup_insert_ne.
Qed.

Lemma in_map_lookup (sm : smap) n (t : table) :
  NoDup sm.*1 -> (n, t) ∈ sm -> (list_to_map sm : gmap Z table) !! n = Some t.
Proof. intros H1 H2. by apply elem_of_list_to_map. Qed.

Lemma in_keys (sm : smap) n : n ∈ sm.*1 -> exists t : table, (n, t) ∈ sm.
Proof. intros [[n' t] [-> H]]%elem_of_list_fmap. by exists t. Qed.

Lemma loop_spec wet run keys cells : forall sm cm evs,
  NoDup keys -> sm.*1 = keys -> holds cm keys evs ->
  (forall i sm', i ∈ cells -> wet i = true -> run i = Some sm' -> run_tables keys sm') ->
  exists cm', cell_loop wet run cells sm cm
      = Ret (bool_decide (before_failure wet run cells = cells), cm') /\
    holds cm' keys (fun n => evs n ++ flat_map (cell_events wet run n) (before_failure wet run cells)).
Proof.
  induction cells as [|i cells IH]; intros sm cm evs Hnd Hk [Hh1 Hh2] Hrun; cbn [cell_loop before_failure].
  - exists cm. split; [done|]. split; [|done]. intros n Hn. destruct (Hh1 n Hn) as (t & ? & ?).
    exists t. cbn. by rewrite app_nil_r.
  - assert (Hrun' : forall i sm', i ∈ cells -> wet i = true -> run i = Some sm' -> run_tables keys sm')
      by (intros i' sm' Hi; apply Hrun; by right).
    assert (Hext : forall cm', holds cm' keys (fun n => evs n ++ cell_events wet run n i) ->
      forall cm2, holds cm2 keys (fun n => (evs n ++ cell_events wet run n i) ++
        flat_map (cell_events wet run n) (before_failure wet run cells)) ->
      holds cm2 keys (fun n => evs n ++ flat_map (cell_events wet run n) (i :: before_failure wet run cells))).
    { intros _ _ cm2 [A B]. split; [|done]. intros n Hn. destruct (A n Hn) as (t & ? & ?). exists t.
      split; [done|]. cbn [flat_map]. by rewrite app_assoc. }
    assert (Hdec : bool_decide (before_failure wet run cells = cells)
                   = bool_decide (i :: before_failure wet run cells = i :: cells)).
    { apply bool_decide_ext. split; [by intros ->|by intros [=]]. }
    destruct (wet i) eqn:Ew.
    + destruct (run i) as [sm'|] eqn:Er.
      * assert (Hrt : run_tables keys sm') by (apply (Hrun i); [left|done..]).
        destruct Hrt as [Hk' Ht].
        destruct (store_rows_spec sm' cm) as (cm1 & E & H1 & H2).
        -- by rewrite Hk'.
        -- done.
        -- intros n. rewrite Hk'. intros Hn. destruct (Hh1 n Hn) as (t & ? & ?). eauto.
        -- rewrite E. cbn [obind].
           assert (Hh : holds cm1 keys (fun n => evs n ++ cell_events wet run n i)).
           { split.
             - intros n Hn. destruct (Hh1 n Hn) as (c & Ec & Mc).
               destruct (in_keys sm' n) as [t Hin]; [by rewrite Hk'|].
               destruct (H1 n t c Hin Ec) as (c' & Ec' & Hc'). exists c'. split; [done|].
               unfold cell_events, cell_punches. rewrite Ew, Er.
               rewrite (in_map_lookup sm' n t); [|by rewrite Hk'|done].
               by eapply made_app.
             - intros n Hs. destruct (decide (n ∈ keys)) as [|Hn]; [done|].
               apply Hh2. rewrite <- H2; [done|]. by rewrite Hk'. }
           destruct (IH sm' cm1 _ Hnd Hk' Hh Hrun') as (cm2 & E2 & Hh').
           rewrite E2. rewrite (bool_decide_false (Some sm' = None)) by done. cbn [andb].
           exists cm2. rewrite <- Hdec. split; [done|]. by apply (Hext cm1).
      * rewrite (bool_decide_true (None = None)) by done. cbn [andb].
        exists cm. rewrite bool_decide_false by done. split; [done|]. split; [|done].
        intros n Hn. destruct (Hh1 n Hn) as (t & ? & ?). exists t. cbn. by rewrite app_nil_r.
    + destruct (skip_rows_spec sm cm) as (cm1 & E & H1 & H2).
      * by rewrite Hk.
      * intros n. rewrite Hk. intros Hn. destruct (Hh1 n Hn) as (t & ? & ?). eauto.
      * rewrite E. cbn [obind].
        assert (Hh : holds cm1 keys (fun n => evs n ++ cell_events wet run n i)).
        { split.
          - intros n Hn. destruct (Hh1 n Hn) as (c & Ec & Mc). exists (end_row c). split.
            + apply H1; [by rewrite Hk|done].
            + unfold cell_events, cell_punches. rewrite Ew. by eapply made_app.
          - intros n Hs. destruct (decide (n ∈ keys)) as [|Hn]; [done|].
            apply Hh2. rewrite <- H2; [done|]. by rewrite Hk. }
        destruct (IH sm cm1 _ Hnd Hk Hh Hrun') as (cm2 & E2 & Hh').
        rewrite E2. cbn [andb]. exists cm2. rewrite <- Hdec. split; [done|]. by apply (Hext cm1).
Qed.

Definition blank_events (hs : list string) : list (event (D := D)) := map (fun h => Punch h VEmpty) hs.

Lemma blanks_spec (sm : smap (D := D)) : forall cm,
  NoDup sm.*1 ->
  exists cm', blanks sm cm = Ret cm' /\
    (forall n t, (n, t) ∈ sm -> exists b, cm' !! n = Some b /\ made (blank_events (t_head t)) b) /\
    (forall n, n ∉ sm.*1 -> cm' !! n = cm !! n).
Proof.
  induction sm as [|[n t] sm IH]; intros cm Hnd; cbn [blanks].
  - exists cm. split; [done|]. split; [intros n t H; by apply elem_of_nil in H|done].
  - cbn in Hnd. apply NoDup_cons in Hnd as [Hn Hnd].
    destruct (made_ex (blank_events (t_head t))) as (b & Mb & _).
    unfold blank. unfold made, blank_events in Mb. rewrite Mb. cbn [obind].
    destruct (IH (<[n := b]> cm) Hnd) as (cm' & E & H1 & H2). exists cm'. split; [done|]. split.
    + intros n' t' Hin. apply elem_of_cons in Hin as [[= -> ->]|Hin]; [|by apply H1].
      exists b. split; [|done]. rewrite H2 by done. apply lookup_insert.
    + intros n' Hn'. rewrite fmap_cons, not_elem_of_cons in Hn'. destruct Hn' as [Hne Hn'].
      rewrite H2 by done. by rewrite lookup_insert_ne.
Qed.

(** ** The log of a thread *)
Fixpoint note_all (ks hs : list string) : list string :=
  match ks with [] => hs | k :: ks' => note_all ks' (note k hs) end.

Lemma note_prefix k hs : hs `prefix_of` note k hs.
Proof. unfold note. case_decide; [done|]. by exists [k]. Qed.
Lemma note_all_prefix ks : forall hs, hs `prefix_of` note_all ks hs.
Proof.
  induction ks as [|k ks IH]; intros hs; cbn; [done|]. etrans; [apply note_prefix|apply IH].
Qed.
Lemma note_all_known ks : forall hs, (forall k, k ∈ ks -> k ∈ hs) -> note_all ks hs = hs.
Proof.
  induction ks as [|k ks IH]; intros hs H; cbn; [done|].
  assert (note k hs = hs) as -> by (unfold note; rewrite decide_True; [done|apply H; left]).
  apply IH. intros k' ?. apply H. by right.
Qed.
Lemma note_all_new ks hs : NoDup (hs ++ ks) -> note_all ks hs = hs ++ ks.
Proof.
  revert hs. induction ks as [|k ks IH]; intros hs H; cbn; [by rewrite app_nil_r|].
  assert (note k hs = hs ++ [k]) as ->.
  { unfold note. rewrite decide_False; [done|]. apply NoDup_app in H as (_ & H & _).
    intros Hk. apply (H k Hk). left. }
  rewrite IH; by rewrite <- app_assoc.
Qed.

Lemma log_punches ps : forall l : log,
  foldl log_event l (punches ps) = Log (note_all ps.*1 (l_heads l)) (l_done l) (l_cur l ++ ps).
Proof.
  induction ps as [|[k v] ps IH]; intros [hs dn cur]; cbn.
  - by rewrite app_nil_r.
  - unfold punches in IH. rewrite IH. cbn. by rewrite <- app_assoc.
Qed.

Lemma latest_app_empty k (a b : list (string * var)) :
  latest k a = VEmpty -> latest k (a ++ b) = latest k b.
Proof. unfold latest. rewrite foldl_app. by intros ->. Qed.

Lemma latest_keyed k hs (f : string -> var) :
  latest k (map (fun h => (h, f h)) hs) = if decide (k ∈ hs) then f k else VEmpty.
Proof.
  induction hs as [|h hs IH] using rev_ind; [done|].
  rewrite map_app. cbn [map]. rewrite latest_app. cbn [fst snd].
  destruct (decide (h = k)) as [->|Hne].
  - rewrite decide_True; [done|]. apply elem_of_app. right. by apply elem_of_list_singleton.
  - rewrite IH. destruct (decide (k ∈ hs)) as [Hk|Hk].
    + rewrite decide_True; [done|]. apply elem_of_app. by left.
    + rewrite decide_False; [done|]. rewrite elem_of_app, elem_of_list_singleton. naive_solver.
Qed.

Lemma log_cells (f : nat -> list (string * var)) cells : forall l : log,
  l_heads l <> [] -> (forall k, latest k (l_cur l) = VEmpty) ->
  exists rows,
    l_done (foldl log_event l (flat_map (fun i => punches (f i) ++ [End]) cells)) = l_done l ++ rows /\
    l_heads (foldl log_event l (flat_map (fun i => punches (f i) ++ [End]) cells))
      = note_all (flat_map (fun i => (f i).*1) cells) (l_heads l) /\
    Forall2 (fun i row => forall k, latest k row = latest k (f i)) cells rows.
Proof.
  induction cells as [|i cells IH]; intros l Hne Hcur; cbn [flat_map].
  - exists []. rewrite app_nil_r. split; [done|]. split; [done|constructor].
  - rewrite !foldl_app, log_punches. cbn [foldl].
    assert (Hne' : note_all (f i).*1 (l_heads l) <> []).
    { destruct (note_all_prefix (f i).*1 (l_heads l)) as [z ->]. by destruct (l_heads l). }
    cbn [log_event l_heads]. rewrite decide_False by done. cbn [l_done l_cur].
    destruct (IH (Log (note_all (f i).*1 (l_heads l)) (l_done l ++ [l_cur l ++ f i]) []))
      as (rows & E1 & E2 & H); [done..|].
    exists ((l_cur l ++ f i) :: rows). cbn [l_done l_heads] in *. rewrite E1, E2. split_and!.
    + by rewrite <- app_assoc.
    + clear. generalize (l_heads l). induction (f i).*1 as [|k ks IH]; intros hs; cbn; [done|apply IH].
    + constructor; [|done]. intros k. by apply latest_app_empty.
Qed.

Lemma latest_blank k hs : latest k (map (fun h => (h, VEmpty)) hs) = VEmpty (D := D).
Proof. rewrite (latest_keyed k hs (fun _ => VEmpty)). by case_decide. Qed.

Lemma log_thread hs (f : nat -> list (string * var)) cells :
  NoDup hs -> hs <> [] ->
  let l := log_of (blank_events hs ++ flat_map (fun i => punches (f i) ++ [End]) cells) in
  l_heads l = note_all (flat_map (fun i => (f i).*1) cells) hs /\
  Forall2 (fun i row => forall k, latest k row = latest k (f i)) cells (l_done l).
Proof.
  intros Hnd Hne. unfold log_of. rewrite foldl_app.
  assert (E : foldl log_event (Log [] [] []) (blank_events hs)
              = Log hs [] (map (fun h => (h, VEmpty)) hs)).
  { replace (blank_events hs) with (punches (map (fun h => (h, VEmpty)) hs))
      by (unfold punches, blank_events; by rewrite map_map).
    rewrite log_punches. cbn [l_heads l_done l_cur app]. f_equal.
    assert (E : (map (λ h : string, (h, VEmpty (D:=D))) hs).*1 = hs).
    { clear. induction hs as [|h hs IH]; [done|]. cbn. f_equal. exact IH. }
    rewrite E. by rewrite note_all_new. }
  rewrite E. destruct (log_cells f cells (Log hs [] (map (fun h => (h, VEmpty)) hs)))
    as (rows & E1 & E2 & H); [done|intros; apply latest_blank|].
  cbn [l_done l_heads app] in *. rewrite E1, E2. done.
Qed.

(** The value of a cell is what its punches leave. *)
Lemma cell_value_latest wet run keys n i :
  NoDup keys -> n ∈ keys ->
  (wet i = true -> exists sm, run i = Some sm /\ run_tables keys sm) ->
  forall k, cell_value wet run n i k (latest k (cell_punches wet run n i)).
Proof.
  intros Hnd Hn Hrun k. unfold cell_value, cell_punches. destruct (wet i); [|done].
  destruct (Hrun eq_refl) as (sm & -> & Hk & Ht).
  destruct (in_keys sm n) as [t Hin]; [by rewrite Hk|].
  rewrite (in_map_lookup sm n t); [|by rewrite Hk|done].
  destruct (Ht n t Hin) as (es & Mt & Hl).
  destruct (lookup_lt_is_Some_2 (l_done (log_of es)) 0) as [row Hrow]; [lia|].
  rewrite (row0_made es t row Mt Hrow). exists sm, t. split; [done|]. split; [done|].
  rewrite (latest_keyed k (t_head t) (fun k => latest k row)).
  destruct (decide (k ∈ t_head t)) as [Hk'|Hk']; [left|right; done]. split; [done|].
  apply made_inv in Mt. eapply shows_latest; [done..|]. by rewrite <- (inv_head _ _ Mt).
Qed.

Lemma before_failure_in wet (run : nat -> option (smap (D := D))) cells i :
  i ∈ before_failure wet run cells -> i ∈ cells /\ (wet i = true -> is_Some (run i)).
Proof.
  induction cells as [|x cells IH]; cbn; [by rewrite elem_of_nil|].
  destruct (wet x) eqn:Ew; cbn [andb].
  - destruct (run x) as [sm|] eqn:Er.
    + rewrite bool_decide_false by done. rewrite elem_of_cons. intros [->|H].
      * split; [left|]. intros. by rewrite Er.
      * destruct (IH H). split; [by right|done].
    + rewrite bool_decide_true by done. by rewrite elem_of_nil.
  - rewrite elem_of_cons. intros [->|H].
    + split; [left|]. congruence.
    + destruct (IH H). split; [by right|done].
Qed.
End Threads.
