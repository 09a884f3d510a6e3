(** C24-C27, C54, C55: selected output. *)
From Coq Require Import String.
From stdpp Require Import prelude strings gmap.
From Verif.Base Require Import Result.
From Verif.SelOut Require Import Model Spec Proofs ThreadProofs GetProofs.
Arguments latest : simpl never.

(** ** C24: tables *)

Theorem table_faithful {D} (es : list (event (D := D))) :
  exists t, made es t /\
    col_count t = length (l_heads (log_of es)) /\
    row_count t = (if decide (l_heads (log_of es) = []) then 0 else S (length (l_done (log_of es)))) /\
    (forall c k, l_heads (log_of es) !! c = Some k -> get t 0 (Z.of_nat c) = Ret (VR_OK, VStr k)) /\
    (forall r row c k, l_done (log_of es) !! r = Some row -> l_heads (log_of es) !! c = Some k ->
       get t (Z.of_nat r + 1) (Z.of_nat c) = Ret (VR_OK, latest k row)) /\
    (forall r c, (r < 0 \/ Z.of_nat (row_count t) <= r)%Z ->
       exists e, get t r c = Ret (VR_INVALIDROW, e)) /\
    (forall r c, (0 <= r < Z.of_nat (row_count t))%Z -> (c < 0 \/ Z.of_nat (col_count t) <= c)%Z ->
       exists e, get t r c = Ret (VR_INVALIDCOL, e)).
Proof.
  destruct (made_ex es) as (t & M & H). exists t. split; [done|].
  assert (Hcc : col_count t = length (l_heads (log_of es))) by (unfold col_count; by rewrite (inv_head _ _ H)).
  split; [done|]. split.
  { unfold row_count. rewrite Hcc, (inv_rows _ _ H). destruct (l_heads (log_of es)); done. }
  split; [intros; by eapply get_head|]. split.
  { intros r row c k Hr Hc. destruct (get_cell t _ r c k H) as (row' & E1 & E2); [by eapply lookup_lt_Some|done|].
    by assert (row' = row) as -> by congruence. }
  split.
  - intros r c Hr. unfold get. rewrite decide_True by lia. eauto.
  - intros r c Hr Hc. unfold get. rewrite decide_False by lia. rewrite decide_True by lia. eauto.
Qed.
Print Assumptions table_faithful.

Theorem table_rectangular {D} (es : list (event (D := D))) t :
  made (es ++ [End]) t -> forall col, col ∈ t_cols t -> length col = t_rows t.
Proof.
  intros M%made_inv col. rewrite (inv_cols _ _ M), (inv_rows _ _ M).
  intros [k [-> Hk]]%elem_of_list_fmap. rewrite column_length.
  rewrite decide_False; [lia|]. unfold log_of. rewrite foldl_app. cbn.
  case_decide as E; cbn; [|apply not_elem_of_nil].
  exfalso. unfold log_of in Hk. rewrite foldl_app in Hk. cbn in Hk. rewrite decide_True in Hk by done.
  rewrite E in Hk. by apply elem_of_nil in Hk.
Qed.
Print Assumptions table_rectangular.

Theorem table_headings_stay {D} (es es' : list (event (D := D))) t t' :
  made es t -> made (es ++ es') t' -> t_head t `prefix_of` t_head t' /\ NoDup (t_head t').
Proof.
  intros M%made_inv M'%made_inv. rewrite (inv_head _ _ M), (inv_head _ _ M').
  split; [|apply (inv_nodup _ _ M')].
  unfold log_of. rewrite foldl_app. generalize (foldl log_event (Log [] [] []) es). clear.
  induction es' as [|e es' IH]; intros l; cbn; [done|]. etrans; [|apply IH].
  destruct e; cbn; [apply note_prefix|]. by case_decide.
Qed.
Print Assumptions table_headings_stay.

(** Two rows, a heading first seen in the second, a value punched twice, a row end too early. *)
Example table_case : exists t : table Z,
  made [End; Punch "pH" (VDbl 7%Z); Punch "pe" (VDbl 4%Z); Punch "pH" (VDbl 8%Z); End;
        Punch "Ca" (VDbl 1%Z); End] t /\
  get t 1 0 = Ret (VR_OK, VDbl 8%Z) /\ get t 1 2 = Ret (VR_OK, VEmpty) /\
  get t 2 0 = Ret (VR_OK, VEmpty) /\ get t 2 2 = Ret (VR_OK, VDbl 1%Z) /\
  get t 0 2 = Ret (VR_OK, VStr "Ca") /\ row_count t = 3 /\
  get t 3 0 = Ret (VR_INVALIDROW, VErr (-4)%Z).
Proof.
  eexists. split; [vm_compute; reflexivity|]. repeat split; vm_compute; reflexivity.
Qed.

(** ** C25: the transfer encoding *)

Theorem row_transfer {D} (es us : list (event (D := D))) t u r :
  made es t -> r < length (l_done (log_of es)) ->
  made (us ++ [End]) u ->
  exists code u', serialize r t = Ret code /\ deserialize code u = Ret u' /\
    (t_head t <> [] ->
     t_rows u' = S (t_rows u) /\
     (forall k v, shows t r k v -> shows u' (t_rows u) k v) /\
     (forall k, k ∈ t_head u' -> k ∉ t_head t -> shows u' (t_rows u) k VEmpty) /\
     (forall r' k v, r' < t_rows u -> shows u r' k v -> shows u' r' k v)) /\
    (forall k, k ∈ t_head u' <-> k ∈ t_head u \/ k ∈ t_head t) /\
    t_head u `prefix_of` t_head u' /\
    (t_head u = [] -> t_head u' = t_head t).
Proof.
  intros Mt Hr Mu. destruct (lookup_lt_is_Some_2 (l_done (log_of es)) r Hr) as [row Hrow].
  destruct (transfer_made es t r row u Mt Hrow) as (code & E1 & E2).
  destruct (events_total _ (arrive (t_head t) row) _ Mu) as (u' & E3 & Mu').
  exists code, u'. split; [done|]. split; [by rewrite E2|].
  pose proof (made_inv _ _ Mt) as It. pose proof (made_inv _ _ Mu) as Iu. pose proof (made_inv _ _ Mu') as Iu'.
  set (lu := log_of (us ++ [End])) in *.
  assert (Hcur : l_heads lu <> [] -> l_cur lu = []).
  { unfold lu, log_of. rewrite foldl_app. cbn. case_decide; cbn; [done|done]. }
  assert (Hnone : l_heads lu = [] -> l_done lu = [] /\ l_cur lu = []).
  { intros E. split.
    - assert (forall es : list (event (D := D)), l_heads (log_of es) = [] -> l_done (log_of es) = []) as Hx.
      { clear. induction es as [|e es IH] using rev_ind; [done|]. unfold log_of in *. rewrite foldl_app. cbn.
        destruct e as [k v|]; cbn.
        - intros H. pose proof (note_elem k (l_heads (foldl log_event (Log [] [] []) es))) as Hk.
          rewrite H in Hk. by apply elem_of_nil in Hk.
        - case_decide; cbn; [done|]. done. }
      by apply Hx.
    - destruct (l_cur lu) as [|p c] eqn:Ec; [done|].
      pose proof (inv_cur _ _ Iu p) as Hp. rewrite Ec, E in Hp.
      exfalso. eapply not_elem_of_nil. apply Hp. left. }
  assert (Hc : l_cur lu = []) by (destruct (l_heads lu); [by apply Hnone|by apply Hcur]).
  assert (Harr : arrive (t_head t) row = punches (map (fun k => (k, latest k row)) (t_head t)) ++ [End]).
  { unfold arrive, punches. by rewrite map_map. }
  assert (Hkeys : (map (fun k => (k, latest k row)) (t_head t)).*1 = t_head t).
  { generalize (t_head t). clear. induction l as [|h hs IH]; [done|]. cbn. f_equal. exact IH. }
  assert (Elog : log_of ((us ++ [End]) ++ arrive (t_head t) row)
    = log_event (Log (note_all (t_head t) (l_heads lu)) (l_done lu)
                  (map (fun k => (k, latest k row)) (t_head t))) End).
  { unfold log_of. rewrite foldl_app. fold (log_of (us ++ [End])). fold lu. rewrite Harr, foldl_app, log_punches.
    by rewrite Hc, Hkeys. }
  assert (Hheads : l_heads (log_of ((us ++ [End]) ++ arrive (t_head t) row)) = note_all (t_head t) (l_heads lu)).
  { rewrite Elog. cbn. case_decide; done. }
  assert (Hmem : forall ks hs k, k ∈ note_all ks hs <-> k ∈ hs \/ k ∈ ks).
  { clear. induction ks as [|x ks IH]; intros hs k; cbn.
    - rewrite elem_of_nil. tauto.
    - rewrite IH, elem_of_cons. unfold note. case_decide as Hx.
      + split; [tauto|]. intros [?|[->|?]]; auto.
      + rewrite elem_of_app, elem_of_list_singleton. tauto. }
  split; [intros Hne|split; [|split]].
  - assert (Hne' : note_all (t_head t) (l_heads lu) <> []).
    { destruct (t_head t) as [|k ks] eqn:Ek; [done|]. intros E.
      assert (k ∈ note_all (k :: ks) (l_heads lu)) as Hin by (apply Hmem; right; left).
      rewrite E in Hin. by apply elem_of_nil in Hin. }
    assert (Hdone : l_done (log_of ((us ++ [End]) ++ arrive (t_head t) row))
      = l_done lu ++ [map (fun k => (k, latest k row)) (t_head t)]).
    { rewrite Elog. cbn. rewrite decide_False by done. done. }
    pose proof (inv_rows _ _ Iu) as Hru.
    assert (Hlast : l_done (log_of ((us ++ [End]) ++ arrive (t_head t) row)) !! t_rows u
      = Some (map (fun k => (k, latest k row)) (t_head t))).
    { rewrite Hdone, Hru. by rewrite list_lookup_middle. }
    split.
    { rewrite (inv_rows _ _ Iu'), Hdone, app_length, Hru. cbn. lia. }
    split; [|split].
    + intros k v Hs. assert (Hk : k ∈ t_head t).
      { destruct Hs as (c & Hc' & _). by eapply elem_of_list_lookup_2. }
      assert (v = latest k row) as ->.
      { eapply shows_inj; [exact It|exact Hs|]. eapply shows_latest; [done..|]. by rewrite <- (inv_head _ _ It). }
      replace (latest k row) with (latest k (map (fun k => (k, latest k row)) (t_head t))).
      * eapply shows_latest; [done|done|]. rewrite Hheads. apply Hmem. by right.
      * rewrite (latest_keyed k (t_head t) (fun k => latest k row)). by rewrite decide_True.
    + intros k Hk Hk'.
      replace VEmpty with (latest k (map (fun k => (k, latest k row)) (t_head t))).
      * eapply shows_latest; [done|done|]. by rewrite <- (inv_head _ _ Iu').
      * rewrite (latest_keyed k (t_head t) (fun k => latest k row)). by rewrite decide_False.
    + intros r' k v Hr' Hs. assert (Hk : k ∈ t_head u).
      { destruct Hs as (c & Hc' & _). by eapply elem_of_list_lookup_2. }
      rewrite Hru in Hr'. destruct (lookup_lt_is_Some_2 _ _ Hr') as [row' Hrow'].
      assert (v = latest k row') as ->.
      { eapply shows_inj; [exact Iu|exact Hs|]. eapply shows_latest; [done..|]. by rewrite <- (inv_head _ _ Iu). }
      eapply shows_latest; [done| |].
      * rewrite Hdone. by apply lookup_app_l_Some.
      * rewrite Hheads. apply Hmem. left. by rewrite <- (inv_head _ _ Iu).
  - intros k. rewrite (inv_head _ _ Iu'), (inv_head _ _ Iu), Hheads. apply Hmem.
  - rewrite (inv_head _ _ Iu'), (inv_head _ _ Iu), Hheads. apply note_all_prefix.
  - rewrite (inv_head _ _ Iu'), (inv_head _ _ Iu), Hheads. intros ->.
    rewrite note_all_new; [done|]. cbn. rewrite (inv_head _ _ It). apply (inv_nodup _ _ It).
Qed.
Print Assumptions row_transfer.

(** All five kinds of values, two strings one after the other, into a table with another heading. *)
Example transfer_case : exists t u code u' : _,
  made [Punch "a" (VStr "two words"); Punch "b" VEmpty; Punch "c" (VLong (-3)); Punch "d" (VDbl 5%Z);
        Punch "e" (VStr "xyz"); Punch "f" (VErr (-2)); End] t /\
  made [Punch "z" (VLong 1); End] u /\
  serialize 0 t = Ret code /\ deserialize code u = Ret u' /\
  map (fun c => get u' 2 c) [0%Z; 1%Z; 2%Z; 3%Z; 4%Z; 5%Z; 6%Z]
  = map (fun v => Ret (VR_OK, v)) [VEmpty; VStr "two words"; VEmpty; VLong (-3); VDbl 5%Z; VStr "xyz"; VErr (-2)].
Proof.
  eexists. eexists. eexists. eexists.
  split; [vm_compute; reflexivity|]. split; [vm_compute; reflexivity|].
  split; [vm_compute; reflexivity|]. split; vm_compute; reflexivity.
Qed.

(** ** C27: one row per cell *)

Theorem thread_rows {D} keys (dummy : smap (D := D)) wet run cells :
  NoDup keys -> dummy.*1 = keys ->
  (forall n t, (n, t) ∈ dummy -> exists es, made es t) ->
  (forall i sm, i ∈ cells -> wet i = true -> run i = Some sm -> run_tables keys sm) ->
  exists ok cm, run_thread true (Some dummy) wet run cells = Ret (ok, cm) /\
    (ok = true <-> forall i, i ∈ cells -> wet i = true -> is_Some (run i)) /\
    (forall n, is_Some (cm !! n) <-> n ∈ keys) /\
    (forall n t0, (n, t0) ∈ dummy -> t_head t0 <> [] -> exists t,
       cm !! n = Some t /\
       t_head t0 `prefix_of` t_head t /\
       row_count t = S (length (before_failure wet run cells)) /\
       forall r i k, before_failure wet run cells !! r = Some i -> k ∈ t_head t ->
         exists v, cell_value wet run n i k v /\ shows t r k v).
Proof.
  intros Hnd Hk Hd Hrun. unfold run_thread.
  destruct (blanks_spec dummy ∅) as (cm0 & E0 & Hb1 & Hb2); [by rewrite Hk|]. rewrite E0. cbn [obind].
  set (heads := fun n => match (list_to_map dummy : gmap Z (table D)) !! n with Some t => t_head t | None => [] end).
  assert (Hholds : holds cm0 keys (fun n => blank_events (heads n))).
  { split.
    - intros n Hn. destruct (in_keys dummy n) as [t Hin]; [by rewrite Hk|].
      destruct (Hb1 n t Hin) as (b & Eb & Mb). exists b. split; [done|]. unfold heads.
      rewrite (in_map_lookup dummy n t); [done|by rewrite Hk|done].
    - intros n Hs. destruct (decide (n ∈ keys)) as [|Hn]; [done|].
      rewrite Hb2 in Hs by (by rewrite Hk). rewrite lookup_empty in Hs. by destruct Hs. }
  destruct (loop_spec wet run keys cells dummy cm0 _ Hnd Hk Hholds Hrun) as (cm & E & Hh1 & Hh2).
  exists (bool_decide (before_failure wet run cells = cells)), cm. split; [done|]. split; [|split].
  - rewrite bool_decide_eq_true. split.
    + intros Eb i Hi. rewrite <- Eb in Hi. by apply before_failure_in in Hi as [_ ?].
    + clear. induction cells as [|x cells IH]; intros H; cbn; [done|].
      destruct (wet x) eqn:Ew; cbn [andb].
      * destruct (H x) as [sm Es]; [left|done|]. rewrite Es, bool_decide_false by done. f_equal.
        apply IH. intros i Hi. apply H. by right.
      * f_equal. apply IH. intros i Hi. apply H. by right.
  - intros n. split; [apply Hh2|]. intros Hn. destruct (Hh1 n Hn) as (t & -> & _). eauto.
  - intros n t0 Hin Hne.
    assert (Hn : n ∈ keys) by (rewrite <- Hk; apply elem_of_list_fmap; by exists (n, t0)).
    destruct (Hh1 n Hn) as (t & Et & Mt). exists t. split; [done|].
    assert (Eh : heads n = t_head t0).
    { unfold heads. rewrite (in_map_lookup dummy n t0); [done|by rewrite Hk|done]. }
    rewrite Eh in Mt. destruct (Hd n t0 Hin) as [es0 M0]. pose proof (made_inv _ _ M0) as I0.
    assert (Hnd0 : NoDup (t_head t0)) by (rewrite (inv_head _ _ I0); apply (inv_nodup _ _ I0)).
    pose proof (made_inv _ _ Mt) as It.
    destruct (log_thread (t_head t0) (cell_punches wet run n) (before_failure wet run cells) Hnd0 Hne) as [El Ed].
    unfold cell_events in Mt, It. cbn in El, Ed.
    set (l := log_of (blank_events (t_head t0) ++ flat_map (fun i => punches (cell_punches wet run n i) ++ [End])
       (before_failure wet run cells))) in *.
    assert (Hpre : t_head t0 `prefix_of` t_head t).
    { rewrite (inv_head _ _ It), El. apply note_all_prefix. }
    split; [done|]. split.
    + unfold row_count, col_count. rewrite decide_False.
      * rewrite (inv_rows _ _ It). f_equal. symmetry. by eapply Forall2_length.
      * destruct Hpre as [z ->]. rewrite app_length. destruct (t_head t0); cbn; [done|lia].
    + intros r i k Hr Hkk. destruct (Forall2_lookup_l _ _ _ _ _ Ed Hr) as (row & Hrow & Hlat).
      exists (latest k row). split.
      * rewrite Hlat. eapply cell_value_latest; [done..|].
        intros Hw. apply elem_of_list_lookup_2, before_failure_in in Hr as [Hi Hs].
        destruct (Hs Hw) as [sm Es]. exists sm. split; [done|]. by apply (Hrun i).
      * eapply shows_latest; [done|done|]. by rewrite <- (inv_head _ _ It).
Qed.
Print Assumptions thread_rows.

Definition tab1 (v : Z) : table Z :=
  match do_events [Punch "pH" (VDbl v); End] new_table with Ret t => t | _ => new_table end.
Definition col_values {D} (t : table D) : list (list (var D)) := t_cols t.

(** Cells 4..7: 4 dry, 5 and 7 run, 6 dry. *)
Example thread_case :
  match run_thread true (Some [(1%Z, tab1 0)]) (fun i => Nat.odd i)
          (fun i => Some [(1%Z, tab1 (Z.of_nat i))]) [4; 5; 6; 7] with
  | Ret (ok, cm) => (ok, col_values <$> (cm !! 1%Z))
  | _ => (false, None)
  end = (true, Some [[VEmpty; VDbl 5%Z; VEmpty; VDbl 7%Z]]).
Proof. vm_compute. reflexivity. Qed.

(** Without headings in the dummy run the rows of dry cells before the first heading are lost. *)
Theorem thread_rows_no_heading_refuted :
  ~ forall (dummy : smap (D := Z)) wet run cells ok cm n t,
      run_thread true (Some dummy) wet run cells = Ret (ok, cm) -> cm !! n = Some t ->
      t_rows t = length (before_failure wet run cells).
Proof.
  intros H.
  specialize (H [(1%Z, new_table)] (fun i => Nat.odd i) (fun i => Some [(1%Z, tab1 (Z.of_nat i))]) [4; 5]).
  destruct (run_thread true (Some [(1%Z, new_table)]) (fun i => Nat.odd i)
    (fun i => Some [(1%Z, tab1 (Z.of_nat i))]) [4; 5]) as [[ok cm]| |] eqn:E; [|vm_compute in E; discriminate..].
  assert (Hx : match run_thread true (Some [(1%Z, new_table)]) (fun i => Nat.odd i)
    (fun i => Some [(1%Z, tab1 (Z.of_nat i))]) [4; 5] with
    | Ret (_, cm) => t_rows <$> (cm !! 1%Z) | _ => None end = Some 1) by (vm_compute; reflexivity).
  rewrite E in Hx. destruct (cm !! 1%Z) as [t|] eqn:Et; [|done].
  specialize (H ok cm 1%Z t E Et). cbn in Hx. injection Hx as Hx. rewrite Hx in H. vm_compute in H. discriminate.
Qed.
Print Assumptions thread_rows_no_heading_refuted.

(** A failing cell ends the thread: the cells after it have no rows at all. *)
Theorem thread_stops_refuted :
  ~ forall (dummy : smap (D := Z)) wet run cells ok cm n t,
      (forall i sm, wet i = true -> run i = Some sm -> run_tables [1%Z] sm) ->
      dummy = [(1%Z, tab1 0)] ->
      run_thread true (Some dummy) wet run cells = Ret (ok, cm) -> cm !! n = Some t ->
      t_rows t = length cells.
Proof.
  intros H.
  specialize (H [(1%Z, tab1 0)] (fun _ => true)
    (fun i => if decide (i = 5) then None else Some [(1%Z, tab1 (Z.of_nat i))]) [4; 5; 6; 7]).
  destruct (run_thread true (Some [(1%Z, tab1 0)]) (fun _ => true)
    (fun i => if decide (i = 5) then None else Some [(1%Z, tab1 (Z.of_nat i))]) [4; 5; 6; 7])
    as [[ok cm]| |] eqn:E; [|vm_compute in E; discriminate..].
  assert (Hx : match run_thread true (Some [(1%Z, tab1 0)]) (fun _ => true)
    (fun i => if decide (i = 5) then None else Some [(1%Z, tab1 (Z.of_nat i))]) [4; 5; 6; 7] with
    | Ret (_, cm) => t_rows <$> (cm !! 1%Z) | _ => None end = Some 1) by (vm_compute; reflexivity).
  rewrite E in Hx. destruct (cm !! 1%Z) as [t|] eqn:Et; [|done].
  specialize (H ok cm 1%Z t). cbn in Hx. injection Hx as Hx. rewrite Hx in H.
  assert (1 = 4); [|done]. apply H; [|done|done|done]. clear.
  intros i sm _ Hr. case_decide; [done|]. injection Hr as <-. split; [done|].
  intros n' t' Hin. apply elem_of_list_singleton in Hin as [= -> ->].
  exists [Punch "pH" (VDbl (Z.of_nat i)); End]. split; [done|]. cbn. rewrite decide_False by done. cbn. lia.
Qed.
Print Assumptions thread_stops_refuted.

(** ** C26: GetSelectedOutput *)

Section Get.
Context {D : Type} (inactive : D) (of_long : Z -> D) (zero : D).
Notation to_double := (to_double inactive of_long).

(** The definition [n] of the cells [0..count-1], run without failure by threads owning [splits]. *)
Record run_setup (keys : list Z) (dummy : smap (D := D)) (wet : nat -> bool)
    (run : nat -> option (smap (D := D))) (n : Z) (hs : list string) (count : nat) : Prop := {
  rs_keys : NoDup keys;
  rs_dummy : dummy.*1 = keys;
  rs_made : forall n t, (n, t) ∈ dummy -> exists es, made es t;
  rs_heads : exists t0, (n, t0) ∈ dummy /\ t_head t0 = hs;
  rs_some : hs <> [];
  rs_run : forall i, i < count -> wet i = true -> exists sm, run i = Some sm /\ run_tables keys sm /\
             forall t, (n, t) ∈ sm -> forall k, k ∈ t_head t -> k ∈ hs }.

Lemma threads_show keys dummy wet run n hs count :
  run_setup keys dummy wet run n hs count ->
  forall splits start, concat splits = seq start (count - start) -> start <= count ->
  exists ws, Forall2 (fun cells w => run_thread true (Some dummy) wet run cells = Ret (true, w)) splits ws /\
    tables_show inactive of_long (length hs) n ws start
      (fun c i => match hs !! c with Some k => to_double (latest k (cell_punches wet run n i)) | None => zero end) /\
    tables_end n ws start = count.
Proof.
  intros [Hnd Hk Hd (t0 & Hin & Hhs) Hne Hrun]. induction splits as [|cells splits IH]; intros start Hc Hs.
  - cbn in Hc. assert (start = count). { destruct (count - start) eqn:E; [lia|done]. } subst.
    exists []. split; [constructor|]. done.
  - cbn [concat] in Hc. cbn in Hc.
    assert (Hlen : length cells <= count - start).
    { apply (f_equal length) in Hc. rewrite app_length, seq_length in Hc. lia. }
    assert (Hsplit : seq start (count - start) = seq start (length cells) ++ seq (start + length cells) (count - (start + length cells))).
    { replace (count - start) with (length cells + (count - (start + length cells))) by lia. apply seq_app. }
    rewrite Hsplit in Hc. apply app_inj_1 in Hc as [Hcells Hrest]; [|by rewrite seq_length].
    destruct (IH (start + length cells)) as (ws & HF & Hshow & Hend); [done|lia|].
    assert (Hci : forall i, i ∈ cells -> i < count).
    { intros i Hi. rewrite Hcells in Hi. apply elem_of_seq in Hi. lia. }
    destruct (thread_rows keys dummy wet run cells) as (ok & cm & E & Hok & Hdom & Htab); [done|done|done| |].
    { intros i sm Hi Hw Hr. destruct (Hrun i (Hci i Hi) Hw) as (sm' & E & H & _). congruence. }
    assert (ok = true) as ->.
    { apply Hok. intros i Hi Hw. destruct (Hrun i (Hci i Hi) Hw) as (sm & -> & _). eauto. }
    exists (cm :: ws). split; [by constructor|].
    (* the log of this thread *)
    destruct (blanks_spec dummy ∅) as (cm0 & E0 & Hb1 & Hb2); [by rewrite Hk|].
    set (heads := fun n => match (list_to_map dummy : gmap Z (table D)) !! n with Some t => t_head t | None => [] end).
    assert (Hholds : holds cm0 keys (fun n => blank_events (heads n))).
    { split.
      - intros n' Hn'. destruct (in_keys dummy n') as [t Hin']; [by rewrite Hk|].
        destruct (Hb1 n' t Hin') as (b & Eb & Mb). exists b. split; [done|]. unfold heads.
        rewrite (in_map_lookup dummy n' t); [done|by rewrite Hk|done].
      - intros n' Hs'. destruct (decide (n' ∈ keys)) as [|Hn']; [done|].
        rewrite Hb2 in Hs' by (by rewrite Hk). rewrite lookup_empty in Hs'. by destruct Hs'. }
    destruct (loop_spec wet run keys cells dummy cm0 _ Hnd Hk Hholds) as (cm' & E' & Hh1 & Hh2).
    { intros i sm Hi Hw Hr. destruct (Hrun i (Hci i Hi) Hw) as (sm' & Es & H & _). congruence. }
    unfold run_thread in E. rewrite E0 in E. cbn [obind] in E. rewrite E' in E. injection E as Eb <-.
    apply bool_decide_eq_true in Eb.
    assert (Hn : n ∈ keys) by (rewrite <- Hk; apply elem_of_list_fmap; by exists (n, t0)).
    destruct (Hh1 n Hn) as (t & Et & Mt).
    assert (Eh : heads n = hs).
    { unfold heads. rewrite (in_map_lookup dummy n t0); [done|by rewrite Hk|done]. }
    rewrite Eh, Eb in Mt. destruct (Hd n t0 Hin) as [es0 M0]. pose proof (made_inv _ _ M0) as I0.
    assert (Hnd0 : NoDup hs) by (rewrite <- Hhs, (inv_head _ _ I0); apply (inv_nodup _ _ I0)).
    pose proof (made_inv _ _ Mt) as It.
    destruct (log_thread hs (cell_punches wet run n) cells Hnd0 Hne) as [El Ed].
    unfold cell_events in It. cbn in El, Ed.
    set (l := log_of (blank_events hs ++ flat_map (fun i => punches (cell_punches wet run n i) ++ [End]) cells)) in *.
    assert (Hheads : l_heads l = hs).
    { rewrite El. apply note_all_known. intros k [i [Hk' Hi]]%elem_of_list_In%in_flat_map.
      apply elem_of_list_In in Hk', Hi. revert Hi. unfold cell_punches.
      destruct (wet i) eqn:Ew; [|intros Hx; by apply elem_of_nil in Hx].
      destruct (Hrun i (Hci i Hk') Ew) as (sm & -> & [Hsk Hst] & Hsub).
      destruct (in_keys sm n) as [ti Hti]; [by rewrite Hsk|].
      rewrite (in_map_lookup sm n ti); [|by rewrite Hsk|done].
      destruct (Hst n ti Hti) as (es & Mti & Hl1).
      destruct (lookup_lt_is_Some_2 (l_done (log_of es)) 0) as [row Hrow]; [lia|].
      rewrite (row0_made es ti row Mti Hrow). intros Hx. apply (Hsub ti Hti).
      clear -Hx. induction (t_head ti) as [|h hs' IH]; [by apply elem_of_nil in Hx|].
      cbn in Hx. apply elem_of_cons in Hx as [->|Hx]; [left|right]. by apply IH. }
    assert (Hdl : length (l_done l) = length cells) by (symmetry; by eapply Forall2_length).
    cbn [tables_show tables_end]. rewrite Et, (inv_rows _ _ It), Hdl. split; [|done].
    exists t, l. split; [done|]. split; [done|]. split; [by rewrite Hheads|]. split.
    + intros c k r row Hck Hrow. rewrite Hheads in Hck. rewrite Hck.
      destruct (Forall2_lookup_r _ _ _ _ _ Ed Hrow) as (i & Hi & Hlat). rewrite Hlat.
      rewrite Hcells in Hi. apply lookup_seq in Hi as [-> _]. done.
    + by rewrite Hdl.
Qed.

Theorem selected_output_cells keys dummy wet run n hs splits nxyz bwd fwd so :
  run_setup keys dummy wet run n hs (length bwd) -> (0 <= n)%Z -> splits <> [] ->
  concat splits = seq 0 (length bwd) ->
  (forall i js j, bwd !! i = Some js -> (j ∈ js <-> fwd j = Some i /\ j < nxyz)) ->
  exists ws, Forall2 (fun cells w => run_thread true (Some dummy) wet run cells = Ret (true, w)) splits ws /\
  exists so', get_selected_output inactive of_long zero nxyz bwd n ws so = Ret (IRM_OK, Some so') /\
    length so' = nxyz * length hs /\
    (forall c k j i, hs !! c = Some k -> j < nxyz -> fwd j = Some i -> i < length bwd ->
       exists v, cell_value wet run n i k v /\ so' !! (c * nxyz + j) = Some (to_double v)) /\
    (forall c j, c < length hs -> j < nxyz -> fwd j = None ->
       so' !! (c * nxyz + j) = resize_to (nxyz * length hs) zero so !! (c * nxyz + j)).
Proof.
  intros Hset Hn Hne Hc Hb.
  destruct (threads_show _ _ _ _ _ _ _ Hset splits 0) as (ws & HF & Hshow & Hend);
    [by rewrite Nat.sub_0_r|lia|].
  exists ws. split; [done|].
  assert (Hws : ws <> []) by (destruct HF; done).
  set (fwd' := fun j => if decide (j < nxyz) then fwd j else None).
  destruct (get_spec inactive of_long nxyz (length hs) bwd fwd') with
    (zero := zero) (cur := n) (ws := ws) (so := so)
    (f := fun c i => match hs !! c with Some k => to_double (latest k (cell_punches wet run n i)) | None => zero end)
    as (so' & E & Hl & Hv); [| |done|done|done|lia|].
  - intros i js j H1 H2. apply (Hb i js j H1) in H2 as [H2 H3]. unfold fwd'. by rewrite decide_True.
  - intros i js j H1 H2. apply (Hb i js j H1). unfold fwd' in H2. case_decide; done.
  - exists so'. split; [done|]. split; [done|]. split.
    + intros c k j i Hck Hj Hf Hi. rewrite Hv; [|by eapply lookup_lt_Some|done].
      unfold fwd'. rewrite decide_True, Hf, decide_True, Hck by (done || lia).
      exists (latest k (cell_punches wet run n i)). split; [|done].
      destruct Hset as [Hnd Hk Hd (t0 & Hin & Hhs) Hne' Hrun].
      eapply cell_value_latest; [exact Hnd| |].
      * rewrite <- Hk. apply elem_of_list_fmap. by exists (n, t0).
      * intros Hw. destruct (Hrun i Hi Hw) as (sm & ? & ? & _). eauto.
    + intros c j Hcc Hj Hf. rewrite Hv by done. unfold fwd'. by rewrite decide_True, Hf.
Qed.

(** The same values whatever the threads. *)
Theorem selected_output_threads keys dummy wet run n hs splits splits' nxyz bwd fwd so ws ws' :
  run_setup keys dummy wet run n hs (length bwd) -> (0 <= n)%Z -> splits <> [] -> splits' <> [] ->
  concat splits = seq 0 (length bwd) -> concat splits' = seq 0 (length bwd) ->
  (forall i js j, bwd !! i = Some js -> (j ∈ js <-> fwd j = Some i /\ j < nxyz)) ->
  Forall2 (fun cells w => run_thread true (Some dummy) wet run cells = Ret (true, w)) splits ws ->
  Forall2 (fun cells w => run_thread true (Some dummy) wet run cells = Ret (true, w)) splits' ws' ->
  get_selected_output inactive of_long zero nxyz bwd n ws so
  = get_selected_output inactive of_long zero nxyz bwd n ws' so.
Proof.
  intros Hset Hn Hne Hne' Hc Hc' Hb HF HF'.
  assert (Huniq : forall sp w1 w2,
    Forall2 (fun cells w => run_thread true (Some dummy) wet run cells = Ret (true, w)) sp w1 ->
    Forall2 (fun cells w => run_thread true (Some dummy) wet run cells = Ret (true, w)) sp w2 -> w1 = w2).
  { clear. intros sp w1 w2 H. revert w2. induction H as [|c w sp w1 E _ IH]; intros w2 H2; inversion H2; [done|].
    subst. f_equal; [congruence|by apply IH]. }
  assert (Hall : forall sp w, sp <> [] -> concat sp = seq 0 (length bwd) ->
    Forall2 (fun cells w => run_thread true (Some dummy) wet run cells = Ret (true, w)) sp w ->
    exists so', get_selected_output inactive of_long zero nxyz bwd n w so = Ret (IRM_OK, Some so') /\
      length so' = nxyz * length hs /\ forall c j, c < length hs -> j < nxyz -> so' !! (c * nxyz + j) =
      match (if decide (j < nxyz) then fwd j else None) with
      | Some i => if decide (i < length bwd) then
          Some (match hs !! c with Some k => to_double (latest k (cell_punches wet run n i)) | None => zero end)
          else resize_to (nxyz * length hs) zero so !! (c * nxyz + j)
      | None => resize_to (nxyz * length hs) zero so !! (c * nxyz + j) end).
  { clear -Hset Hn Hb Huniq. intros sp w Hne Hc HF.
    destruct (threads_show _ _ _ _ _ _ _ Hset sp 0) as (ws & HF2 & Hshow & Hend);
      [by rewrite Nat.sub_0_r|lia|].
    assert (w = ws) as -> by (by eapply Huniq).
    assert (Hws : ws <> []) by (destruct HF; done).
    destruct (get_spec inactive of_long nxyz (length hs) bwd (fun j => if decide (j < nxyz) then fwd j else None))
      with (zero := zero) (cur := n) (ws := ws) (so := so)
      (f := fun c i => match hs !! c with Some k => to_double (latest k (cell_punches wet run n i)) | None => zero end)
      as (so' & E & Hl & Hv); [| |done|done|done|lia|].
    - intros i js j H1 H2. apply (Hb i js j H1) in H2 as [H2 H3]. by rewrite decide_True.
    - intros i js j H1 H2. apply (Hb i js j H1). case_decide; done.
    - exists so'. split; [done|]. split; [done|]. intros c j Hcc Hj. rewrite Hv by done.
      destruct (if decide (j < nxyz) then fwd j else None) as [i|]; [|done].
      destruct (decide (i < tables_end n ws 0)) as [H1|H1];
        [rewrite decide_True by lia|rewrite decide_False by lia]; done. }
  destruct (Hall splits ws Hne Hc HF) as (s1 & E1 & L1 & V1).
  destruct (Hall splits' ws' Hne' Hc' HF') as (s2 & E2 & L2 & V2).
  rewrite E1, E2. do 3 f_equal. apply list_eq. intros p.
  destruct (decide (p < nxyz * length hs)) as [Hp|Hp].
  - assert (nxyz <> 0) by lia.
    replace p with ((p / nxyz) * nxyz + p mod nxyz) by (rewrite (Nat.div_mod_eq p nxyz) at 3; lia).
    rewrite V1, V2; [done|..]; try (apply Nat.mod_upper_bound; done); by apply Nat.div_lt_upper_bound.
  - rewrite !lookup_ge_None_2 by lia. done.
Qed.
End Get.
Print Assumptions selected_output_cells.
Print Assumptions selected_output_threads.

(** Three chemistry cells on a grid of five, two threads: cell 1 dry, grid cell 4 not mapped. *)
Definition run2 (failing : nat -> bool) : list (gmap Z (table Z)) :=
  omap (fun cells => match run_thread true (Some [(1%Z, tab1 0)]) (fun i => negb (Nat.eqb i 1))
    (fun i => if failing i then None else Some [(1%Z, tab1 (Z.of_nat i + 70))]) cells with
    | Ret (_, cm) => Some cm | _ => None end) [[0]; [1; 2]].
Example selected_output_case :
  get_selected_output 999%Z (fun z => z) 0%Z 5 [[0; 2]; [1]; [3]] 1 (run2 (fun _ => false)) []
  = Ret (IRM_OK, Some [70; 999; 70; 72; 0]%Z).
Proof. vm_compute. reflexivity. Qed.

(** After a failed step the rows of later threads are given to the wrong cells, with IRM_OK. *)
Definition run3 (failing : nat -> bool) : list (gmap Z (table Z)) :=
  omap (fun cells => match run_thread true (Some [(1%Z, tab1 0)]) (fun i => true)
    (fun i => if failing i then None else Some [(1%Z, tab1 (Z.of_nat i + 70))]) cells with
    | Ret (_, cm) => Some cm | _ => None end) [[0; 1]; [2; 3]].
Theorem selected_output_shift_refuted :
  ~ forall failing so j, get_selected_output 999%Z (fun z => z) 0%Z 4 [[0]; [1]; [2]; [3]] 1 (run3 failing) []
      = Ret (IRM_OK, Some so) -> j < 4 -> failing j = false ->
      so !! j = Some (Z.of_nat j + 70)%Z \/ so !! j = Some 0%Z.
Proof.
  intros H. specialize (H (fun i => Nat.eqb i 1) [70; 72; 73; 0]%Z 2).
  destruct H as [H|H]; [vm_compute; reflexivity|lia|done|discriminate..].
Qed.
Print Assumptions selected_output_shift_refuted.

(** Grid cells without chemistry keep whatever the vector held. *)
Theorem selected_output_unmapped_refuted :
  ~ forall so so', get_selected_output 999%Z (fun z => z) 0%Z 5 [[0; 2]; [1]; [3]] 1 (run2 (fun _ => false)) so
      = Ret (IRM_OK, Some so') -> so' !! 4 = Some 999%Z.
Proof.
  intros H. specialize (H [] [70; 999; 70; 72; 0]%Z). discriminate H. vm_compute. reflexivity.
Qed.
Print Assumptions selected_output_unmapped_refuted.

(** A thread whose table has fewer columns than worker 0's is read out of bounds. *)
Theorem selected_output_columns_refuted :
  ~ forall ws : list (gmap Z (table Z)),
      (forall w, w ∈ ws -> exists es t, w = {[1%Z := t]} /\ made (es ++ [End]) t /\ t_rows t = 1) ->
      get_selected_output 999%Z (fun z => z) 0%Z 2 [[0]; [1]] 1 ws [] <> UB.
Proof.
  intros H.
  pose (e1 := [Punch "pH" (VDbl 7%Z); Punch "pe" (VDbl 4%Z)]).
  pose (e2 := [Punch "pH" (VDbl 7%Z)]).
  destruct (made_ex (e1 ++ [End])) as (t1 & M1 & _). destruct (made_ex (e2 ++ [End])) as (t2 & M2 & _).
  specialize (H [{[1%Z := t1]}; {[1%Z := t2]}]).
  vm_compute in M1, M2. injection M1 as <-. injection M2 as <-. apply H.
  - intros w Hw. rewrite !elem_of_cons, elem_of_nil in Hw. destruct Hw as [->|[->|[]]].
    + exists e1. eexists. split; [done|]. split; [vm_compute; reflexivity|done].
    + exists e2. eexists. split; [done|]. split; [vm_compute; reflexivity|done].
  - vm_compute. reflexivity.
Qed.
Print Assumptions selected_output_columns_refuted.

(** ** C54: the current selected output *)

Theorem current_kept_one {D} (dummy : smap (D := D)) n t on :
  dummy = [(n, t)] -> current_after on dummy n = n.
Proof. intros ->. by destruct on. Qed.
Print Assumptions current_kept_one.

Theorem current_after_run {D} (dummy : smap (D := D)) cur :
  current_after false dummy cur = cur /\
  (dummy <> [] -> exists t, last dummy = Some (current_after true dummy cur, t)).
Proof.
  split; [done|]. intros H. unfold current_after. destruct (last dummy) as [[n t]|] eqn:E.
  - by exists t.
  - by apply last_None in E.
Qed.
Print Assumptions current_after_run.

Theorem current_kept_refuted :
  ~ forall (dummy : smap (D := Z)) cur, cur ∈ dummy.*1 -> current_after true dummy cur = cur.
Proof.
  intros H. specialize (H [(1%Z, tab1 0); (2%Z, tab1 0)] 1%Z). discriminate H. cbn. left.
Qed.
Print Assumptions current_kept_refuted.

(** ** C55: CheckSelectedOutput in the thread build *)

Lemma check_counts_true {D} keys count (ws : list (gmap Z (table D))) :
  (forall k, k ∈ keys -> count_rows k ws = Ret count) -> check_counts keys count ws = Ret true.
Proof.
  induction keys as [|k keys IH]; intros H; [done|]. cbn [check_counts]. rewrite H by left. cbn.
  rewrite decide_True by done. apply IH. intros k' ?. apply H. by right.
Qed.

Theorem check_accepts_rows {D} on count (ws : list (gmap Z (table D))) :
  (forall w0 k t, head ws = Some w0 -> w0 !! k = Some t -> count_rows k ws = Ret count) ->
  check_selected_output on count ws = Ret true.
Proof.
  intros H. unfold check_selected_output. destruct on; [|done]. cbn [negb]. case_decide; [done|].
  destruct ws as [|w0 ws]; [done|]. cbn [mpi_tasks Nat.sub take forallb].
  apply check_counts_true. intros k [[k' t] [-> Hin%elem_of_map_to_list]]%elem_of_list_fmap. by eapply H.
Qed.
Print Assumptions check_accepts_rows.

Theorem check_headings_refuted :
  ~ forall count (ws : list (gmap Z (table Z))), check_selected_output true count ws = Ret true ->
      forall w w' t t', w ∈ ws -> w' ∈ ws -> w !! 1%Z = Some t -> w' !! 1%Z = Some t' -> t_head t = t_head t'.
Proof.
  intros H.
  pose (tb := fun k => match do_events [Punch k (VDbl 7%Z); End] new_table with Ret t => t | _ => new_table end).
  assert (Hx : t_head (tb "pH"%string) = t_head (tb "pe"%string)); [|discriminate Hx].
  apply (H 2%Z [{[1%Z := tb "pH"%string]}; {[1%Z := tb "pe"%string]}]) with
    (w := {[1%Z := tb "pH"%string]}) (w' := {[1%Z := tb "pe"%string]}).
  - vm_compute. reflexivity.
  - left.
  - right. left.
  - apply lookup_singleton.
  - apply lookup_singleton.
Qed.
Print Assumptions check_headings_refuted.
