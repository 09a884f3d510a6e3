From stdpp Require Import prelude gmap.
From Verif.Bin Require Import Model Proofs.
From Verif.Partition Require Import Spec EndCellsProofs.
From Verif.Core Require Import Move MoveProofs Threads.
Local Open Scope Z_scope.

Section interleave.
  Context {W : Type}.
  Implicit Types (t : thread W) (ts : list (thread W)).

  (** Where a thread will end. *)
  Definition outcome_of (t : thread W) : W * bool :=
    let '(w, ok) := run_actions (th_rest t) (th_w t) in (w, th_ok t && ok).

  Lemma thread_step_outcome t : outcome_of (thread_step t) = outcome_of t.
  Proof.
    unfold outcome_of, thread_step. destruct t as [w [|a r] ok]; [done|]. cbn [th_rest th_w run_actions].
    destruct (a w) as [w' []]; cbn [th_rest th_w th_ok run_actions]; [done|].
    by rewrite andb_false_r.
  Qed.

  Lemma run_schedule_outcome sched ts :
    length (run_schedule sched ts) = length ts /\
    outcome_of <$> run_schedule sched ts = outcome_of <$> ts.
  Proof.
    revert ts. induction sched as [|n sched IH]; intros ts; [done|].
    cbn [run_schedule foldl]. fold (run_schedule sched (alter thread_step n ts)).
    destruct (IH (alter thread_step n ts)) as [L E]. rewrite alter_length in L.
    split; [done|]. rewrite E. apply list_eq. intros i. rewrite !list_lookup_fmap.
    destruct (decide (n = i)) as [->|Hne].
    - rewrite list_lookup_alter. destruct (ts !! i); [|done]. cbn. by rewrite thread_step_outcome.
    - by rewrite list_lookup_alter_ne.
  Qed.

  Lemma finished_outcome t : th_rest t = [] -> outcome_of t = (th_w t, th_ok t).
  Proof. intros H. unfold outcome_of. rewrite H. cbn. by rewrite andb_true_r. Qed.

  Lemma finished_schedule sched ts : finished (run_schedule sched ts) ->
    (fun t => (th_w t, th_ok t)) <$> run_schedule sched ts = outcome_of <$> ts.
  Proof.
    intros F. rewrite <- (proj2 (run_schedule_outcome sched ts)).
    apply list_eq. intros i. rewrite !list_lookup_fmap.
    destruct (run_schedule sched ts !! i) as [t|] eqn:Hi; [|done]. cbn.
    rewrite finished_outcome; [done|]. by apply (Forall_lookup_1 _ _ i t F).
  Qed.

  (** Some schedule finishes. *)
  Lemma iter_step_finishes k t : (length (th_rest t) <= k)%nat -> th_rest (Nat.iter k thread_step t) = [].
  Proof.
    revert t. induction k as [|k IH]; intros t Hk.
    - cbn. destruct (th_rest t); [done|]. cbn in Hk. lia.
    - rewrite Nat.iter_succ_r. apply IH. unfold thread_step.
      destruct (th_rest t) as [|a r] eqn:Er; [rewrite Er; cbn; lia|].
      cbn [length] in Hk. destruct (a (th_w t)) as [w []]; cbn; lia.
  Qed.

  Lemma run_schedule_app s1 s2 ts : run_schedule (s1 ++ s2) ts = run_schedule s2 (run_schedule s1 ts).
  Proof. unfold run_schedule. by rewrite foldl_app. Qed.
  Lemma run_schedule_replicate k n ts :
    run_schedule (replicate k n) ts = alter (Nat.iter k thread_step) n ts.
  Proof.
    revert ts. induction k as [|k IH]; intros ts.
    - cbn [replicate run_schedule foldl]. symmetry. apply list_eq. intros i.
      destruct (decide (n = i)) as [->|]; [rewrite list_lookup_alter|by rewrite list_lookup_alter_ne].
      by destruct (ts !! i).
    - cbn [replicate]. change (n :: replicate k n) with ([n] ++ replicate k n).
      rewrite run_schedule_app, IH. cbn. apply list_eq. intros i.
      destruct (decide (n = i)) as [->|].
      + rewrite !list_lookup_alter. destruct (ts !! i); [|done]. cbn [fmap option_fmap option_map].
        by rewrite <- Nat.iter_succ_r.
      + by rewrite !list_lookup_alter_ne by done.
  Qed.

  Lemma finishing_schedule ts : exists sched, finished (run_schedule sched ts).
  Proof.
    assert (G : forall m, (m <= length ts)%nat -> exists sched,
      forall i t, (i < m)%nat -> run_schedule sched ts !! i = Some t -> th_rest t = []).
    { induction m as [|m IH]; intros Hm; [exists []; intros; lia|].
      destruct (IH ltac:(lia)) as [s Hs].
      destruct (lookup_lt_is_Some_2 (run_schedule s ts) m) as [t Ht].
      { rewrite (proj1 (run_schedule_outcome s ts)). lia. }
      exists (s ++ replicate (length (th_rest t)) m). intros i t' Hi.
      rewrite run_schedule_app, run_schedule_replicate. destruct (decide (m = i)) as [->|].
      - rewrite list_lookup_alter, Ht. intros [= <-]. by apply iter_step_finishes.
      - rewrite list_lookup_alter_ne by done. apply Hs. lia. }
    destruct (G (length ts) ltac:(lia)) as [s Hs]. exists s. apply Forall_lookup. intros i t Hi.
    apply (Hs i t); [|done]. apply lookup_lt_Some in Hi.
    rewrite (proj1 (run_schedule_outcome s ts)) in Hi. done.
  Qed.

  Lemma run_actions_app (a b : list (action W)) w :
    run_actions (a ++ b) w =
    let '(w', ok) := run_actions a w in if ok then run_actions b w' else (w', false).
  Proof.
    revert w. induction a as [|x a IH]; intros w; [done|]. cbn [app run_actions].
    destruct (x w) as [w' []]; [apply IH|done].
  Qed.
End interleave.

Section run_cells.
  Context {E R : Type}.
  Notation cellc := (gmap rtype E).
  Implicit Types (b : bin E) (i m : Z) (t : rtype) (c u : gmap rtype E).

  Lemma lookup_cell_of b i t : cell_of b i !! t = e_body <$> b !! (t, i).
  Proof.
    unfold cell_of. pose proof (elem_of_all_types t) as Hin. pose proof all_types_nodup as Hnd.
    revert Hin Hnd. generalize all_types. intros L. induction L as [|v L IH]; intros Hin Hnd.
    { by apply elem_of_nil in Hin. }
    apply NoDup_cons in Hnd as [Hv Hnd]. cbn [foldr].
    apply elem_of_cons in Hin as [->|Hin].
    - destruct (b !! (v, i)) as [e|] eqn:Eb; [by rewrite lookup_insert|].
      clear IH Hnd. cbn. induction L as [|x L IH]; [apply lookup_empty|]. cbn [foldr].
      apply not_elem_of_cons in Hv as [Hx Hv].
      destruct (b !! (x, i)); [rewrite lookup_insert_ne by done|]; by apply IH.
    - destruct (decide (v = t)) as [->|Hne]; [done|].
      destruct (b !! (v, i)); [rewrite lookup_insert_ne by done|]; by apply IH.
  Qed.

  Lemma lookup_put_cell i c b t m :
    put_cell i c b !! (t, m) = if decide (m = i) then Ent i i <$> c !! t else b !! (t, m).
  Proof.
    unfold put_cell. pose proof (elem_of_all_types t) as Hin.
    assert (G : forall L b, foldl (fun b t => match c !! t with
                      | Some x => <[(t, i) := Ent i i x]> b
                      | None => delete (t, i) b end) b L !! (t, m) =
        if decide (m = i /\ t ∈ L) then Ent i i <$> c !! t else b !! (t, m)).
    { clear. induction L as [|v L IH]; intros b; cbn [foldl].
      { rewrite decide_False; [done|]. intros [_ H]. by apply elem_of_nil in H. }
      rewrite IH. destruct (decide (m = i /\ t ∈ L)) as [[-> Ht]|N].
      { rewrite decide_True; [done|]. split; [done|]. by right. }
      destruct (decide ((v, i) = (t, m))) as [[= -> ->]|Hne].
      - rewrite decide_True by (split; [done|by left]).
        destruct (c !! t); [by rewrite lookup_insert|by rewrite lookup_delete].
      - rewrite decide_False.
        + destruct (c !! v); [by rewrite lookup_insert_ne|by rewrite lookup_delete_ne].
        + intros [-> [->|?]%elem_of_cons]; [done|]. by apply N. }
    rewrite G. destruct (decide (m = i)) as [->|Hm].
    - by rewrite decide_True.
    - rewrite decide_False; [done|]. by intros [? _].
  Qed.

  Lemma cell_of_put_same i c b : cell_of (put_cell i c b) i = c.
  Proof.
    apply map_eq. intros t. rewrite lookup_cell_of, lookup_put_cell, decide_True by done.
    by destruct (c !! t).
  Qed.
  Lemma cell_of_ext b b' i : (forall t, b !! (t, i) = b' !! (t, i)) -> cell_of b i = cell_of b' i.
  Proof. intros H. apply map_eq. intros t. by rewrite !lookup_cell_of, H. Qed.
  Lemma put_cell_well_numbered i c b : well_numbered b -> well_numbered (put_cell i c b).
  Proof.
    intros Hb t k e. rewrite lookup_put_cell. destruct (decide (k = i)) as [->|]; [|apply Hb].
    destruct (c !! t); [|done]. by intros [= <-].
  Qed.

  Context (react : Z -> cellc -> bool * cellc * R) (part : Z -> cellc -> cellc -> cellc * cellc)
          (dry : Z -> bool).
  Implicit Types w : worker E R.

  (** Two workers agree on everything but the cells of [ks]. *)
  Definition same_except (ks : list Z) (s s' : store E) : Prop :=
    forall t m, m ∉ ks -> rx s' !! (t, m) = rx s !! (t, m) /\ uz s' !! (t, m) = uz s !! (t, m).

  Lemma same_except_cells ks s s' m : same_except ks s s' -> m ∉ ks ->
    cell_of (rx s') m = cell_of (rx s) m /\ cell_of (uz s') m = cell_of (uz s) m.
  Proof. intros H Hm. split; apply cell_of_ext; intros t; by destruct (H t m Hm). Qed.

  Lemma run_parts ks w : NoDup ks -> exists w',
    run_actions (part_action part <$> ks) w = (w', true) /\ wk_rows w' = wk_rows w /\
    same_except ks (wk_st w) (wk_st w') /\
    (well_numbered (rx (wk_st w)) -> well_numbered (rx (wk_st w'))) /\
    (well_numbered (uz (wk_st w)) -> well_numbered (uz (wk_st w'))) /\
    forall i, i ∈ ks -> (cell_of (rx (wk_st w')) i, cell_of (uz (wk_st w')) i) =
      part i (cell_of (rx (wk_st w)) i) (cell_of (uz (wk_st w)) i).
  Proof.
    revert w. induction ks as [|k ks IH]; intros w Hnd.
    { exists w. split_and!; try done. intros i Hi. by apply elem_of_nil in Hi. }
    apply NoDup_cons in Hnd as [Hk Hnd]. cbn [fmap list_fmap run_actions]. unfold part_action at 1.
    destruct (part k (cell_of (rx (wk_st w)) k) (cell_of (uz (wk_st w)) k)) as [c u] eqn:Ep.
    set (w1 := Wk (St (put_cell k c (rx (wk_st w))) (put_cell k u (uz (wk_st w)))) (wk_rows w)).
    destruct (IH w1 Hnd) as (w' & E1 & Er & Es & Wr & Wu & Ec).
    assert (E0 : same_except [k] (wk_st w) (wk_st w1)).
    { intros t m Hm. cbn [w1 wk_st rx uz]. rewrite !lookup_put_cell.
      rewrite !decide_False by (intros ->; apply Hm; by left). done. }
    exists w'. split_and!.
    - exact E1.
    - done.
    - intros t m [Hm1 Hm2]%not_elem_of_cons. destruct (Es t m Hm2) as [-> ->].
      apply E0. intros [?|?%elem_of_nil]%elem_of_cons; done.
    - intros H. apply Wr. by apply put_cell_well_numbered.
    - intros H. apply Wu. by apply put_cell_well_numbered.
    - intros i [->|Hi]%elem_of_cons.
      + destruct (same_except_cells _ _ _ k Es Hk) as [-> ->].
        cbn [w1 wk_st rx uz]. rewrite !cell_of_put_same. by rewrite Ep.
      + rewrite (Ec i Hi). assert (i ∉ [k]).
        { intros [->|?%elem_of_nil]%elem_of_cons; done. }
        by destruct (same_except_cells _ _ _ i E0 H) as [-> ->].
  Qed.

  (** One cell on its own. *)
  Definition react_alone (i : Z) (c : cellc) : bool * cellc * option R :=
    if dry i then (true, c, None) else let '(ok, c', row) := react i c in (ok, c', Some row).

  Lemma run_reacts ks w : NoDup ks -> exists w' ok,
    run_actions (react_action react dry <$> ks) w = (w', ok) /\
    ok = forallb (fun i => (react_alone i (cell_of (rx (wk_st w)) i)).1.1) ks /\
    same_except ks (wk_st w) (wk_st w') /\ uz (wk_st w') = uz (wk_st w) /\
    (well_numbered (rx (wk_st w)) -> well_numbered (rx (wk_st w'))) /\
    (ok = true ->
      (forall i, i ∈ ks -> cell_of (rx (wk_st w')) i = (react_alone i (cell_of (rx (wk_st w)) i)).1.2) /\
      wk_rows w' = wk_rows w ++ ((fun i => (react_alone i (cell_of (rx (wk_st w)) i)).2) <$> ks)).
  Proof.
    revert w. induction ks as [|k ks IH]; intros w Hnd.
    { exists w, true. split_and!; try done. intros _. split.
      - intros i Hi. by apply elem_of_nil in Hi.
      - by rewrite app_nil_r. }
    apply NoDup_cons in Hnd as [Hk Hnd]. cbn [fmap list_fmap run_actions forallb].
    assert (G : exists w1 ok1, react_action react dry k w = (w1, ok1) /\
      ok1 = (react_alone k (cell_of (rx (wk_st w)) k)).1.1 /\
      same_except [k] (wk_st w) (wk_st w1) /\ uz (wk_st w1) = uz (wk_st w) /\
      (well_numbered (rx (wk_st w)) -> well_numbered (rx (wk_st w1))) /\
      (ok1 = true -> cell_of (rx (wk_st w1)) k = (react_alone k (cell_of (rx (wk_st w)) k)).1.2 /\
         wk_rows w1 = wk_rows w ++ [(react_alone k (cell_of (rx (wk_st w)) k)).2])).
    { unfold react_action, react_alone. destruct (dry k).
      { eexists _, _. split_and!; try done. }
      destruct (react k (cell_of (rx (wk_st w)) k)) as [[ok c] row] eqn:Er.
      assert (SE : same_except [k] (wk_st w) (St (put_cell k c (rx (wk_st w))) (uz (wk_st w)))).
      { intros t m Hm. cbn [rx uz]. rewrite !lookup_put_cell.
        rewrite !decide_False by (intros ->; apply Hm; by left). done. }
      destruct ok; eexists _, _; (split; [done|]); cbn [wk_st rx uz wk_rows fst snd]; split_and!; try done.
      - apply put_cell_well_numbered.
      - intros _. by rewrite cell_of_put_same.
      - apply put_cell_well_numbered. }
    destruct G as (w1 & ok1 & -> & Hok1 & SE & Uz & Wn & Hc). rewrite <- Hok1.
    destruct ok1.
    2: { exists w1, false. split_and!; try done. intros t m [Hm ?]%not_elem_of_cons.
         apply SE. intros [?|?%elem_of_nil]%elem_of_cons; done. }
    destruct (IH w1 Hnd) as (w' & ok & E1 & Eok & Es & Eu & Wr & Ec).
    assert (Hsame : forall i, i ∈ ks -> cell_of (rx (wk_st w1)) i = cell_of (rx (wk_st w)) i).
    { intros i Hi. apply (same_except_cells [k]); [done|].
      intros [->|?%elem_of_nil]%elem_of_cons; done. }
    exists w', ok. split_and!.
    - exact E1.
    - cbn [andb]. rewrite Eok. clear -Hsame. induction ks as [|i ks IH]; [done|].
      cbn [forallb]. rewrite Hsame by (by left). f_equal. apply IH. intros j Hj. apply Hsame. by right.
    - intros t m [Hm1 Hm2]%not_elem_of_cons. destruct (Es t m Hm2) as [-> ->].
      apply SE. intros [?|?%elem_of_nil]%elem_of_cons; done.
    - by rewrite Eu, Uz.
    - intros H. by apply Wr, Wn.
    - intros ->. destruct (Ec eq_refl) as [Ec1 Ec2]. destruct (Hc eq_refl) as [Hc1 Hc2]. split.
      + intros i [->|Hi]%elem_of_cons.
        * by rewrite (proj1 (same_except_cells _ _ _ k Es Hk)).
        * by rewrite Ec1, Hsame.
      + rewrite Ec2, Hc2, <- app_assoc. f_equal. cbn [app fmap list_fmap]. f_equal.
        clear -Hsame. induction ks as [|i ks IH]; [done|]. cbn [fmap list_fmap].
        rewrite Hsame by (by left). f_equal. apply IH. intros j Hj. apply Hsame. by right.
  Qed.

  (** Both phases for one cell on its own. *)
  Definition alone (pz : bool) (i : Z) (c u : cellc) : bool * cellc * cellc * option R :=
    let '(c1, u1) := if pz then part i c u else (c, u) in
    let '(ok, c2, row) := react_alone i c1 in (ok, c2, u1, row).
  Definition a_ok (x : bool * cellc * cellc * option R) := x.1.1.1.
  Definition a_sz (x : bool * cellc * cellc * option R) := x.1.1.2.
  Definition a_uz (x : bool * cellc * cellc * option R) := x.1.2.
  Definition a_row (x : bool * cellc * cellc * option R) := x.2.

  Definition cell_alone pz (s : store E) (i : Z) := alone pz i (cell_of (rx s) i) (cell_of (uz s) i).

  Lemma run_thread pz ks s : NoDup ks -> exists w' ok,
    run_actions (thread_actions react part dry pz ks) (Wk s []) = (w', ok) /\
    ok = forallb (fun i => a_ok (cell_alone pz s i)) ks /\
    same_except ks s (wk_st w') /\
    (well_numbered (rx s) -> well_numbered (rx (wk_st w'))) /\
    (well_numbered (uz s) -> well_numbered (uz (wk_st w'))) /\
    (ok = true ->
      (forall i, i ∈ ks -> cell_of (rx (wk_st w')) i = a_sz (cell_alone pz s i) /\
                           cell_of (uz (wk_st w')) i = a_uz (cell_alone pz s i)) /\
      wk_rows w' = (fun i => a_row (cell_alone pz s i)) <$> ks).
  Proof.
    intros Hnd. unfold thread_actions. rewrite run_actions_app.
    assert (P : exists w1, run_actions (if pz then part_action part <$> ks else []) (Wk s []) = (w1, true) /\
      wk_rows w1 = [] /\ same_except ks s (wk_st w1) /\
      (well_numbered (rx s) -> well_numbered (rx (wk_st w1))) /\
      (well_numbered (uz s) -> well_numbered (uz (wk_st w1))) /\
      forall i, i ∈ ks -> (cell_of (rx (wk_st w1)) i, cell_of (uz (wk_st w1)) i) =
        if pz then part i (cell_of (rx s) i) (cell_of (uz s) i)
        else (cell_of (rx s) i, cell_of (uz s) i)).
    { destruct pz.
      - destruct (run_parts ks (Wk s []) Hnd) as (w1 & ? & ? & ? & ? & ? & ?). exists w1. by split_and!.
      - exists (Wk s []). by split_and!. }
    destruct P as (w1 & -> & R1 & S1 & Wr1 & Wu1 & C1).
    destruct (run_reacts ks w1 Hnd) as (w' & ok & -> & Hok & S2 & U2 & Wr2 & C2).
    assert (A : forall i, i ∈ ks ->
      a_ok (cell_alone pz s i) = (react_alone i (cell_of (rx (wk_st w1)) i)).1.1 /\
      a_sz (cell_alone pz s i) = (react_alone i (cell_of (rx (wk_st w1)) i)).1.2 /\
      a_uz (cell_alone pz s i) = cell_of (uz (wk_st w1)) i /\
      a_row (cell_alone pz s i) = (react_alone i (cell_of (rx (wk_st w1)) i)).2).
    { intros i Hi. unfold cell_alone, alone, a_ok, a_sz, a_uz, a_row. rewrite <- (C1 i Hi).
      by destruct (react_alone i (cell_of (rx (wk_st w1)) i)) as [[? ?] ?]. }
    exists w', ok. split_and!.
    - done.
    - rewrite Hok. clear -A. induction ks as [|i ks IH]; [done|]. cbn [forallb].
      destruct (A i ltac:(by left)) as [-> _]. f_equal. apply IH. intros j Hj. apply A. by right.
    - intros t m Hm. destruct (S2 t m Hm) as [-> ->]. by apply S1.
    - auto.
    - intros H. rewrite U2. auto.
    - intros ->. destruct (C2 eq_refl) as [C3 C4]. split.
      + intros i Hi. destruct (A i Hi) as (_ & -> & -> & _). rewrite C3 by done. by rewrite U2.
      + rewrite C4, R1. cbn [app]. clear -A. induction ks as [|i ks IH]; [done|].
        cbn [fmap list_fmap]. destruct (A i ltac:(by left)) as (_ & _ & _ & ->). f_equal.
        apply IH. intros j Hj. apply A. by right.
  Qed.

  Lemma range_nodup s e : NoDup (range s e).
  Proof. unfold range. apply NoDup_fmap_2; [intros x y; lia|apply NoDup_seq]. Qed.

  (** Every finished execution of all threads. *)
  Lemma run_threads pz count ss es ws sched :
    valid_split count ss es -> length ws = length es ->
    let ts := run_schedule sched (start_threads react part dry pz ss es ws) in
    finished ts ->
    length ts = length ws /\
    forall (o : nat) (t : thread (worker E R)), ts !! o = Some t -> exists (st : store E) (s e : Z),
      ws !! o = Some st /\ ss !! o = Some s /\ es !! o = Some e /\
      th_ok t = forallb (fun i => a_ok (cell_alone pz st i)) (range s e) /\
      same_except (range s e) st (wk_st (th_w t)) /\
      (well_numbered (rx st) -> well_numbered (rx (wk_st (th_w t)))) /\
      (well_numbered (uz st) -> well_numbered (uz (wk_st (th_w t)))) /\
      (th_ok t = true ->
        (forall i, s <= i <= e ->
           cell_of (rx (wk_st (th_w t))) i = a_sz (cell_alone pz st i) /\
           cell_of (uz (wk_st (th_w t))) i = a_uz (cell_alone pz st i)) /\
        wk_rows (th_w t) = (fun i => a_row (cell_alone pz st i)) <$> range s e).
  Proof.
    intros V Lw ts F. pose proof (vs_len _ _ _ V) as Hlen.
    pose proof (finished_schedule _ _ F) as Eq. fold ts in Eq.
    assert (L0 : length (start_threads react part dry pz ss es ws) = length ws).
    { unfold start_threads. rewrite zip_with_length, zip_with_length. lia. }
    split. { unfold ts. rewrite (proj1 (run_schedule_outcome _ _)). done. }
    intros o t Ho.
    assert (Lo : (o < length ws)%nat).
    { apply lookup_lt_Some in Ho. unfold ts in Ho. rewrite (proj1 (run_schedule_outcome _ _)) in Ho. lia. }
    destruct (lookup_lt_is_Some_2 ws o Lo) as [st Hst].
    destruct (lookup_lt_is_Some_2 ss o ltac:(lia)) as [s Hs].
    destruct (lookup_lt_is_Some_2 es o ltac:(lia)) as [e He].
    exists st, s, e.
    assert (Hout : (th_w t, th_ok t) = run_actions (thread_actions react part dry pz (range s e)) (Wk st [])).
    { assert (H : ((fun t : thread (worker E R) => (th_w t, th_ok t)) <$> ts) !! o = Some (th_w t, th_ok t)).
      { by rewrite list_lookup_fmap, Ho. }
      rewrite Eq, list_lookup_fmap in H. unfold start_threads in H.
      rewrite lookup_zip_with in H.
      assert (Hz : zip ss es !! o = Some (s, e)).
      { apply lookup_zip_with_Some. eauto. }
      rewrite Hz, Hst in H. cbn in H. unfold outcome_of in H. cbn [th_rest th_w th_ok] in H.
      destruct (run_actions _ _) as [w' ok]. cbn in H. congruence. }
    destruct (run_thread pz (range s e) st (range_nodup s e)) as (w' & ok & E1 & E2 & E3 & E4 & E5 & E6).
    rewrite E1 in Hout. injection Hout as -> ->.
    split_and!; try done. intros Hok. destruct (E6 Hok) as [E7 E8]. split; [|done].
    intros i Hi. apply E7. by apply elem_of_range.
  Qed.
End run_cells.
