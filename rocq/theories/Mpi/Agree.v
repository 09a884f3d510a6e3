(** The processes of the MPI build in step: what keeps them so. *)
From Coq Require Import ZArith Ascii.
From stdpp Require Import prelude gmap relations.
From Verif.Base Require Import Result.
From Verif.Partition Require Import Spec.
From Verif.Mapping Require Import Model Spec.
From Verif.Mpi Require Import Comm Methods Model Spec CommProofs Cells Parts.
Local Open Scope Z_scope.

Lemma elem_of_imap {A B} (f : nat -> A -> B) l y :
  y ∈ imap f l -> exists i x, l !! i = Some x /\ y = f i x.
Proof.
  intros H. apply elem_of_list_lookup in H as (i & H). rewrite list_lookup_imap in H.
  destruct (l !! i) as [x|] eqn:E; [|done]. cbn in H. injection H as <-. eauto.
Qed.
Lemma lookup_all {A} (s s' : A) ws g n w' :
  (s' :: imap g ws) !! n = Some w' ->
  exists w, (s :: ws) !! n = Some w /\ w' = match n with O => s' | S i => g i w end.
Proof.
  destruct n as [|n]; intros H; [injection H as <-; by exists s|]. change (imap g ws !! n = Some w') in H.
  rewrite list_lookup_imap in H. destruct (ws !! n) as [w|] eqn:E; [|done]. injection H as <-. by exists w.
Qed.

Section calls.
  Context {D X : Type} (L : local D X) {R : Type}.
  Notation ps := (ps D X).
  Notation step := (@step D R (nat * ps) (loop L)).
  Notation empties n := (replicate n (@nil (msg D))).
  Implicit Types s w : ps.
  Implicit Types ws : list ps.

  Definition serves (P : (ps -> answer D -> prog D R) -> prog D R) ws s' ws' a : Prop :=
    forall K, rtc step (Config (P K) (imap idle ws) (empties (length ws)))
                       (Config (K s' a) (imap idle ws') (empties (length ws))).

  Lemma in_step_agrees k s ws : in_step k s ws -> agrees s ws.
  Proof. intros I. split; [apply (is_map _ _ _ I)|]. intros w Hw. destruct (is_ranges _ _ _ I w Hw) as (_ & _ & _ & _ & ? & ?). done. Qed.

  (** Same but for the error string and the instances *)
  Record frame s s' : Prop := {
    f_map : p_map s' = p_map s; f_val : p_val s' = p_val s; f_prefix : p_prefix s' = p_prefix s;
    f_root : p_root s' = p_root s; f_work : p_work s' = p_work s; f_mask_root : p_mask_root s' = p_mask_root s;
    f_mask_work : p_mask_work s' = p_mask_work s; f_saved : p_saved s' = p_saved s; f_check : p_check s' = p_check s;
  }.
  Lemma frame_refl s : frame s s.
  Proof. done. Qed.
  Lemma frame_clear s : frame s (clear s).
  Proof. done. Qed.
  Lemma frame_returned s s' r : frame s s' -> frame s (returned L r s').
  Proof. intros F. unfold returned. destruct (decide _); [done|]. destruct F. done. Qed.
  Lemma frame_trans s1 s2 s3 : frame s1 s2 -> frame s2 s3 -> frame s1 s3.
  Proof. intros [] []. constructor; congruence. Qed.
  Lemma in_step_frame k s ws s' g : in_step k s ws -> frame s s' ->
    (forall i w, ws !! i = Some w -> frame w (g i w)) -> in_step k s' (imap g ws).
  Proof.
    intros I F Fs.
    assert (forall w', w' ∈ imap g ws -> exists w, w ∈ ws /\ frame w w') as Hin.
    { intros w' H. apply elem_of_imap in H as (i & w & Hi & ->). exists w. split; [by eapply elem_of_list_lookup_2|by apply Fs]. }
    assert (forall n w', (s' :: imap g ws) !! n = Some w' -> exists w, (s :: ws) !! n = Some w /\ frame w w') as Hall.
    { intros n w' H. apply (lookup_all s) in H as (w & Hw & ->). exists w. split; [done|].
      destruct n; [by injection Hw as <-|by apply Fs]. }
    destruct I. constructor.
    - by rewrite (f_map _ _ F).
    - by rewrite (f_map _ _ F), imap_length.
    - intros w' H. destruct (Hin w' H) as (w & Hw & Fw). rewrite (f_map _ _ F), (f_map _ _ Fw). by apply is_ranges.
    - intros w' H. destruct (Hin w' H) as (w & Hw & Fw). rewrite (f_val _ _ F), (f_val _ _ Fw). by apply is_val.
    - intros f. by rewrite (f_val _ _ F).
    - intros w' H. destruct (Hin w' H) as (w & Hw & Fw). rewrite (f_prefix _ _ F), (f_prefix _ _ Fw). by apply is_prefix.
    - intros w' H. destruct (Hin w' H) as (w & Hw & Fw). rewrite (f_saved _ _ F), (f_saved _ _ Fw). by apply is_saved.
    - intros w' H. destruct (Hin w' H) as (w & Hw & Fw). rewrite (f_check _ _ F), (f_check _ _ Fw). by apply is_check.
    - rewrite (f_map _ _ F), (f_root _ _ F). done.
    - unfold flag. rewrite (f_map _ _ F), (f_root _ _ F), (f_val _ _ F). done.
    - rewrite (f_map _ _ F), (f_mask_root _ _ F). done.
    - intros v n w' Hv H. destruct (Hall n w' H) as (w & Hw & Fw). rewrite (f_map _ _ F), (f_root _ _ F), (f_work _ _ Fw). by apply is_vecs.
    - intros Hk n w' H. destruct (Hall n w' H) as (w & Hw & Fw). rewrite (f_map _ _ F), (f_mask_root _ _ F), (f_mask_work _ _ Fw). by apply is_mask.
    - intros i Hi. rewrite (f_map _ _ F), (f_saved _ _ F), imap_length. by apply is_ids.
  Qed.
  Lemma imap_id ws : imap (fun _ w => w) ws = ws.
  Proof. apply list_eq. intros i. rewrite list_lookup_imap. by destruct (ws !! i). Qed.
  Lemma in_step_root k s ws s' : in_step k s ws -> frame s s' -> in_step k s' ws.
  Proof. intros I F. rewrite <- (imap_id ws). apply (in_step_frame k s); [done|done|]. intros. apply frame_refl. Qed.
  Lemma in_step_known k k' s ws : in_step k s ws ->
    (forall v, v ∈ k_vecs k' -> v ∈ k_vecs k) -> (k_mask k' = true -> k_mask k = true) ->
    (forall i, i ∈ k_ids k' -> i ∈ k_ids k) -> k_nx k' = k_nx k -> in_step k' s ws.
  Proof. intros [] H1 H2 H3 H4. constructor; try done; eauto. congruence. Qed.
  Lemma pairwise_imap (P : nat -> ps -> ps -> Prop) s ws s' g :
    P O s s' -> (forall i w, ws !! i = Some w -> P (S i) w (g i w)) -> pairwise P (s :: ws) (s' :: imap g ws).
  Proof.
    intros H0 H. split; [cbn; by rewrite imap_length|]. intros n w w' Hw Hw'.
    apply (lookup_all s) in Hw' as (w1 & Hw1 & ->). assert (w1 = w) as -> by congruence.
    destruct n; [injection Hw as <-; done|by apply H].
  Qed.
  Lemma pairwise_same (P : nat -> ps -> ps -> Prop) s ws s' :
    P O s s' -> (forall i w, ws !! i = Some w -> P (S i) w w) -> pairwise P (s :: ws) (s' :: ws).
  Proof. intros H0 H. rewrite <- (imap_id ws) at 2. by apply pairwise_imap. Qed.

  (** ** Settings *)
  Lemma setting_work {T} f n s0 (k : ps -> prog D T) :
    performs (announces (method_of_setting f)) = Some (method_of_setting f) /\
    method_of_setting f <> MpiWorkerBreak /\ work L (method_of_setting f) n s0 k = set_worker n f (clear s0) k.
  Proof. by destruct f. Qed.
  Lemma accepted_iff f (v : msg D) : accepted f v = true <-> admissible f v.
  Proof.
    destruct f; cbn; try done; destruct v as [[|u [|]]| |]; cbn; try done; rewrite bool_decide_eq_true; lia.
  Qed.
  Lemma same_equal (a b : msg D) : same L a b = true -> equal L a b.
  Proof.
    destruct a as [l|[|x [|]]|], b as [l'|[|y [|]]|]; cbn; try done.
    - intros H%bool_decide_eq_true. left. by f_equal.
    - intros H. right. by exists x, y.
  Qed.
  Lemma stored_shape f (old v : msg D) : shape v = kind f -> shape old = kind f -> shape (stored f old v) = kind f.
  Proof. intros Hv Ho. unfold stored. destruct (accepted f v); [done|]. by destruct f. Qed.

  Definition set_one f (v : msg D) s : ps := with_val (upd (p_val s) f v) s.
  Lemma upd_eq {V} (g : setting -> V) f x : upd g f x f = x.
  Proof. unfold upd. by rewrite decide_True. Qed.
  Lemma upd_ne {V} (g : setting -> V) f f' x : f' <> f -> upd g f x f' = g f'.
  Proof. intros. unfold upd. by rewrite decide_False. Qed.
  Lemma in_step_set k s ws f v : in_step k s ws -> shape v = kind f ->
    (f = PartitionUZ -> flag (set_one f v s) PartitionUZ = true -> nxyz (p_map s) <= Z.of_nat (length (p_root s OldSaturation))) ->
    in_step k (set_one f v s) (imap (fun _ => set_one f v) ws).
  Proof.
    intros I Hv Hu.
    assert (forall w', w' ∈ imap (fun _ => set_one f v) ws -> exists w, w ∈ ws /\ w' = set_one f v w) as Hin.
    { intros w' H. apply elem_of_imap in H as (i & w & Hi & ->). exists w. split; [by eapply elem_of_list_lookup_2|done]. }
    assert (forall n w', (set_one f v s :: imap (fun _ => set_one f v) ws) !! n = Some w' -> exists w, (s :: ws) !! n = Some w /\ w' = set_one f v w) as Hall.
    { intros n w' H. apply (lookup_all s) in H as (w & Hw & ->). exists w. split; [done|]. destruct n; [by injection Hw as ->|done]. }
    destruct I. constructor; cbn -[upd].
    - done.
    - by rewrite imap_length.
    - intros w' H. destruct (Hin w' H) as (w & Hw & ->). exact (is_ranges w Hw).
    - intros w' H. destruct (Hin w' H) as (w & Hw & ->). cbn -[upd]. by rewrite (is_val w Hw).
    - intros f'. unfold upd. destruct (decide _) as [->|]; [done|]. done.
    - intros w' H. destruct (Hin w' H) as (w & Hw & ->). exact (is_prefix w Hw).
    - intros w' H. destruct (Hin w' H) as (w & Hw & ->). exact (is_saved w Hw).
    - intros w' H. destruct (Hin w' H) as (w & Hw & ->). exact (is_check w Hw).
    - done.
    - intros Hf. destruct (decide (f = PartitionUZ)) as [->|Hne]; [by apply Hu|].
      apply is_full_old. unfold flag in *. cbn -[upd] in Hf. by rewrite upd_ne in Hf by done.
    - done.
    - intros v' n w' Hv' H. destruct (Hall n w' H) as (w & Hw & ->). exact (is_vecs v' n w Hv' Hw).
    - intros Hk n w' H. destruct (Hall n w' H) as (w & Hw & ->). exact (is_mask Hk n w Hw).
    - intros i Hi. rewrite imap_length. by apply is_ids.
  Qed.
  Lemma in_step_root_vec k s ws v l : in_step k s ws -> v ∉ k_vecs k -> nxyz (p_map s) <= Z.of_nat (length l) ->
    in_step k (with_root (upd (p_root s) v l) s) ws.
  Proof.
    intros [] Hv Hl. constructor; cbn -[upd]; try done.
    - intros v' Hv'. unfold upd. destruct (decide _); [done|]. by apply is_full.
    - intros Hf. unfold upd. destruct (decide _); [done|]. by apply is_full_old.
    - intros v' n w Hv' H. unfold upd. rewrite decide_False by (intros ->; done).
      destruct n; cbn in H; [injection H as <-|].
      + by apply (is_vecs v' O s).
      + by apply (is_vecs v' (S n) w).
    - intros Hk n w H. destruct n; cbn in H; [injection H as <-|].
      + by apply (is_mask Hk O s).
      + by apply (is_mask Hk (S n) w).
  Qed.
  (** The parts of a vector are distributed *)
  Lemma in_step_put k s ws v (ls : nat -> list D) b : in_step k s ws ->
    (forall n, (n <= length ws)%nat -> mirrors (p_map s) n (p_root s v) (ls n)) ->
    in_step (Known (if b : bool then v :: k_vecs k else k_vecs k) (k_mask k) (k_ids k) (k_nx k))
      (put_work v (ls O) s) (imap (fun i w => put_work v (ls (S i)) w) ws).
  Proof.
    intros I Hls.
    assert (forall w', w' ∈ imap (fun i w => put_work v (ls (S i)) w) ws -> exists i w, w ∈ ws /\ w' = put_work v (ls (S i)) w) as Hin.
    { intros w' H. apply elem_of_imap in H as (i & w & Hi & ->). exists i, w. split; [by eapply elem_of_list_lookup_2|done]. }
    assert (forall n w', (put_work v (ls O) s :: imap (fun i w => put_work v (ls (S i)) w) ws) !! n = Some w' ->
               exists w, (n <= length ws)%nat /\ (s :: ws) !! n = Some w /\ w' = put_work v (ls n) w) as Hall.
    { intros n w' H. apply (lookup_all s) in H as (w & Hw & ->). exists w.
      split_and!; [apply lookup_lt_Some in Hw; cbn in Hw; lia|done|]. destruct n; [by injection Hw as ->|done]. }
    destruct I. constructor; cbn -[upd put_work].
    - done.
    - by rewrite imap_length.
    - intros w' H. destruct (Hin w' H) as (i & w & Hw & ->). exact (is_ranges w Hw).
    - intros w' H. destruct (Hin w' H) as (i & w & Hw & ->). exact (is_val w Hw).
    - done.
    - intros w' H. destruct (Hin w' H) as (i & w & Hw & ->). exact (is_prefix w Hw).
    - intros w' H. destruct (Hin w' H) as (i & w & Hw & ->). exact (is_saved w Hw).
    - intros w' H. destruct (Hin w' H) as (i & w & Hw & ->). exact (is_check w Hw).
    - done.
    - done.
    - done.
    - intros v' n w' Hv' H. destruct (Hall n w' H) as (w & Hn & Hw & ->). cbn -[upd]. unfold upd.
      destruct (decide _) as [->|Hne]; [by apply Hls|].
      apply is_vecs; [|done]. destruct b; [|done]. by apply elem_of_cons in Hv' as [->|].
    - intros Hk n w' H. destruct (Hall n w' H) as (w & Hn & Hw & ->). exact (is_mask Hk n w Hw).
    - intros i Hi. rewrite imap_length. by apply is_ids.
  Qed.
  Lemma in_step_put_same k s ws v (ls : nat -> list D) : in_step k s ws ->
    (forall n, (n <= length ws)%nat -> mirrors (p_map s) n (p_root s v) (ls n)) ->
    in_step k (put_work v (ls O) s) (imap (fun i w => put_work v (ls (S i)) w) ws).
  Proof. intros I H. destruct k as [kv km ki nx]. exact (in_step_put (Known kv km ki nx) s ws v ls false I H). Qed.
  Lemma in_step_put_mask k s ws (ls : nat -> list Z) b : in_step k s ws ->
    (forall n, (n <= length ws)%nat -> mirrors (p_map s) n (p_mask_root s) (ls n)) ->
    in_step (Known (k_vecs k) b (k_ids k) (k_nx k))
      (put_mask (ls O) s) (imap (fun i w => put_mask (ls (S i)) w) ws).
  Proof.
    intros I Hls.
    assert (forall w', w' ∈ imap (fun i w => put_mask (ls (S i)) w) ws -> exists i w, w ∈ ws /\ w' = put_mask (ls (S i)) w) as Hin.
    { intros w' H. apply elem_of_imap in H as (i & w & Hi & ->). exists i, w. split; [by eapply elem_of_list_lookup_2|done]. }
    assert (forall n w', (put_mask (ls O) s :: imap (fun i w => put_mask (ls (S i)) w) ws) !! n = Some w' ->
               exists w, (n <= length ws)%nat /\ (s :: ws) !! n = Some w /\ w' = put_mask (ls n) w) as Hall.
    { intros n w' H. apply (lookup_all s) in H as (w & Hw & ->). exists w.
      split_and!; [apply lookup_lt_Some in Hw; cbn in Hw; lia|done|]. destruct n; [by injection Hw as ->|done]. }
    destruct I. constructor; cbn -[upd put_mask].
    - done.
    - by rewrite imap_length.
    - intros w' H. destruct (Hin w' H) as (i & w & Hw & ->). exact (is_ranges w Hw).
    - intros w' H. destruct (Hin w' H) as (i & w & Hw & ->). exact (is_val w Hw).
    - done.
    - intros w' H. destruct (Hin w' H) as (i & w & Hw & ->). exact (is_prefix w Hw).
    - intros w' H. destruct (Hin w' H) as (i & w & Hw & ->). exact (is_saved w Hw).
    - intros w' H. destruct (Hin w' H) as (i & w & Hw & ->). exact (is_check w Hw).
    - done.
    - done.
    - done.
    - intros v' n w' Hv' H. destruct (Hall n w' H) as (w & Hn & Hw & ->). exact (is_vecs v' n w Hv' Hw).
    - intros Hk n w' H. destruct (Hall n w' H) as (w & Hn & Hw & ->). cbn. by apply Hls.
    - intros i Hi. rewrite imap_length. by apply is_ids.
  Qed.
  (** Other members that are the same on all *)
  Record kept_data s s' : Prop := {
    d_map : p_map s' = p_map s; d_val : p_val s' = p_val s; d_root : p_root s' = p_root s; d_work : p_work s' = p_work s;
    d_mask_root : p_mask_root s' = p_mask_root s; d_mask_work : p_mask_work s' = p_mask_work s;
  }.
  Lemma in_step_shared k k' s ws s' g : in_step k s ws -> kept_data s s' ->
    (forall i w, ws !! i = Some w -> kept_data w (g i w) /\ p_prefix (g i w) = p_prefix s' /\
       p_saved (g i w) = p_saved s' /\ p_check (g i w) = p_check s') ->
    k_vecs k' = k_vecs k -> k_mask k' = k_mask k -> k_nx k' = k_nx k ->
    (forall i, i ∈ k_ids k' -> exists ss es, p_saved s' !! i = Some (ss, es) /\
       valid_split (count_chemistry (p_map s)) ss es /\ length ss = S (length ws)) ->
    in_step k' s' (imap g ws).
  Proof.
    intros I F Fs Hkv Hkm Hkn Hki.
    assert (forall w', w' ∈ imap g ws -> exists w, w ∈ ws /\ kept_data w w' /\ p_prefix w' = p_prefix s' /\
       p_saved w' = p_saved s' /\ p_check w' = p_check s') as Hin.
    { intros w' H. apply elem_of_imap in H as (i & w & Hi & ->). exists w. split; [by eapply elem_of_list_lookup_2|by apply Fs]. }
    assert (forall n w', (s' :: imap g ws) !! n = Some w' -> exists w, (s :: ws) !! n = Some w /\ kept_data w w') as Hall.
    { intros n w' H. apply (lookup_all s) in H as (w & Hw & ->). exists w. split; [done|].
      destruct n; [by injection Hw as <-|by apply Fs]. }
    destruct I. constructor.
    - rewrite (d_map _ _ F). congruence.
    - by rewrite (d_map _ _ F), imap_length.
    - intros w' H. destruct (Hin w' H) as (w & Hw & Fw & _). rewrite (d_map _ _ F), (d_map _ _ Fw). by apply is_ranges.
    - intros w' H. destruct (Hin w' H) as (w & Hw & Fw & _). rewrite (d_val _ _ F), (d_val _ _ Fw). by apply is_val.
    - intros f. by rewrite (d_val _ _ F).
    - intros w' H. by destruct (Hin w' H) as (w & Hw & Fw & ? & ? & ?).
    - intros w' H. by destruct (Hin w' H) as (w & Hw & Fw & ? & ? & ?).
    - intros w' H. by destruct (Hin w' H) as (w & Hw & Fw & ? & ? & ?).
    - rewrite (d_map _ _ F), (d_root _ _ F). done.
    - unfold flag. rewrite (d_map _ _ F), (d_root _ _ F), (d_val _ _ F). done.
    - rewrite (d_map _ _ F), (d_mask_root _ _ F). done.
    - intros v n w' Hv H. rewrite Hkv in Hv. destruct (Hall n w' H) as (w & Hw & Fw). rewrite (d_map _ _ F), (d_root _ _ F), (d_work _ _ Fw). by apply is_vecs.
    - intros Hk n w' H. rewrite Hkm in Hk. destruct (Hall n w' H) as (w & Hw & Fw). rewrite (d_map _ _ F), (d_mask_root _ _ F), (d_mask_work _ _ Fw). by apply is_mask.
    - intros i Hi. rewrite (d_map _ _ F), imap_length. by apply Hki.
  Qed.
  Lemma ids_kept k s ws : in_step k s ws ->
    forall i, i ∈ k_ids k -> exists ss es, p_saved s !! i = Some (ss, es) /\
       valid_split (count_chemistry (p_map s)) ss es /\ length ss = S (length ws).
  Proof. intros []. done. Qed.
End calls.
