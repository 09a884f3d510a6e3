(** Executions of processes that exchange messages: order of steps does not matter; how to follow one. *)
From Coq Require Import ZArith Ascii.
From stdpp Require Import prelude relations.
From Verif.Mpi Require Import Comm.

Section proofs.
  Context {D R W : Type} (loop : W -> msg D * (msg D -> prog D (W * bool))).
  Notation step := (@step D R W loop).
  Notation config := (config D R W).
  Notation worker := (prog D (W * bool)).
  Implicit Types c : config.

  (** ** Order of the steps *)
  Lemma no_send_bcast m (ws : list worker) ws' i a k :
    mapM (after_bcast loop m) ws = Some ws' -> ws !! i = Some (Send a k) -> False.
  Proof.
    intros E H. apply mapM_Some in E.
    destruct (Forall2_lookup_l _ _ _ _ _ E H) as (? & _ & H'). done.
  Qed.
  Lemma no_send_gather (ws : list worker) ws' i a k :
    mapM (in_gather loop) ws = Some ws' -> ws !! i = Some (Send a k) -> False.
  Proof.
    intros E H. apply mapM_Some in E.
    destruct (Forall2_lookup_l _ _ _ _ _ E H) as (? & _ & H'). done.
  Qed.
  Lemma no_send_barrier (ws : list worker) ws' i a k :
    mapM (after_barrier loop) ws = Some ws' -> ws !! i = Some (Send a k) -> False.
  Proof.
    intros E H. apply mapM_Some in E.
    destruct (Forall2_lookup_l _ _ _ _ _ E H) as (? & _ & H'). done.
  Qed.
  Lemma after_scatters_Forall2 ms ws ws' :
    after_scatters loop ms ws = Some ws' ->
    length ms = length ws /\ Forall2 (fun mp p' => after_scatter loop mp.1 mp.2 = Some p') (zip ms ws) ws'.
  Proof.
    revert ws ws'. induction ms as [|m ms IH]; intros [|p ws] ws' E; cbn in E; try done.
    - injection E as <-. split; [done|constructor].
    - destruct (after_scatter loop m p) eqn:E1; [|done].
      destruct (after_scatters loop ms ws) eqn:E2; [|done]. injection E as <-.
      destruct (IH _ _ E2) as [H1 H2]. split; [cbn; congruence|]. cbn. constructor; [exact E1|exact H2].
  Qed.
  Lemma no_send_scatter ms (ws : list worker) ws' i a k :
    after_scatters loop ms ws = Some ws' -> ws !! i = Some (Send a k) -> False.
  Proof.
    intros E H. destruct (after_scatters_Forall2 _ _ _ E) as [Hl HF].
    destruct (ms !! i) as [m|] eqn:Em.
    - destruct (Forall2_lookup_l _ _ _ i (m, Send a k) HF) as (? & _ & H').
      { rewrite lookup_zip_with, Em. cbn. rewrite H. done. }
      done.
    - apply lookup_ge_None in Em. apply lookup_lt_Some in H. lia.
  Qed.
  Lemma collective_no_send c c' i a k :
    collective loop c = Some c' -> c_workers c !! i = Some (Send a k) -> False.
  Proof.
    unfold collective. intros E H. destruct (c_root c); try done.
    - destruct (mapM _ _) eqn:E1; [|done]. eauto using no_send_bcast.
    - destruct (mapM _ _) eqn:E1; [|done]. eauto using no_send_gather.
    - destruct ms; [done|]. destruct (decide _); [|done].
      destruct (after_scatters _ _ _) eqn:E1; [|done]. eauto using no_send_scatter.
    - destruct (mapM _ _) eqn:E1; [|done]. eauto using no_send_barrier.
  Qed.

  (** Two different steps from the same state lead to states from which one step each leads to the
      same state. *)
  Lemma step_diamond c c1 c2 :
    step c c1 -> step c c2 -> c1 = c2 \/ exists d, step c1 d /\ step c2 d.
  Proof.
    intros H1 H2. inversion H1 as [? ? A1|? i m k q A1 A2|? i t n k m qs A1 A2]; subst;
      inversion H2 as [? ? B1|? i' m' k' q' B1 B2|? i' t' n' k' m' qs' B1 B2]; subst.
    - left. congruence.
    - exfalso. eauto using collective_no_send.
    - exfalso. unfold collective in A1. rewrite B1 in A1. done.
    - exfalso. eauto using collective_no_send.
    - destruct (decide (i = i')) as [->|Hne].
      + left. congruence.
      + right. eexists. split.
        * apply (step_send _ _ i' m' k' q'); cbn.
          -- rewrite list_lookup_insert_ne; done.
          -- rewrite list_lookup_insert_ne; done.
        * cbn. rewrite (list_insert_commute _ i' i) by done.
          rewrite (list_insert_commute (c_queues c) i' i) by done.
          apply (step_send _ (Config (c_root c) (<[i':=k']> (c_workers c)) (<[i':=q' ++ [m']]> (c_queues c))) i m k q); cbn.
          -- rewrite list_lookup_insert_ne; done.
          -- rewrite list_lookup_insert_ne; done.
    - right. unfold received in B2. destruct i' as [|j]; [done|].
      destruct (c_queues c !! j) as [[|a r]|] eqn:Eq; try done.
      destruct (decide _) as [Hd|]; [|done]. injection B2 as -> <-.
      destruct (decide (i = j)) as [->|Hne].
      + assert (q = m' :: r) as -> by congruence. eexists. split.
        * apply (step_recv _ _ (S j) t' n' k' m' (<[j := r ++ [m]]> (c_queues c))); cbn; [done|].
          rewrite list_lookup_insert by (eauto using lookup_lt_Some). cbn.
          rewrite decide_True by done. rewrite list_insert_insert. done.
        * replace (<[j:=r ++ [m]]> (c_queues c)) with (<[j:=r ++ [m]]> (<[j:=r]> (c_queues c)))
            by apply list_insert_insert.
          apply (step_send _ (Config (k' m') (c_workers c) (<[j:=r]> (c_queues c))) j m k r); cbn; [done|].
          rewrite list_lookup_insert; eauto using lookup_lt_Some.
      + eexists. split.
        * apply (step_recv _ _ (S j) t' n' k' m' (<[j := r]> (<[i := q ++ [m]]> (c_queues c)))); cbn; [done|].
          rewrite list_lookup_insert_ne, Eq by done. rewrite decide_True by done. done.
        * rewrite (list_insert_commute (c_queues c) j i) by done.
          apply (step_send _ (Config (k' m') (c_workers c) (<[j:=r]> (c_queues c))) i m k q); cbn; [done|].
          rewrite list_lookup_insert_ne; done.
    - exfalso. unfold collective in B1. rewrite A1 in B1. done.
    - right. unfold received in A2. destruct i as [|j]; [done|].
      destruct (c_queues c !! j) as [[|a r]|] eqn:Eq; try done.
      destruct (decide _) as [Hd|]; [|done]. injection A2 as -> <-.
      destruct (decide (i' = j)) as [->|Hne].
      + assert (q' = m :: r) as -> by congruence. eexists. split.
        * apply (step_send _ (Config (k m) (c_workers c) (<[j:=r]> (c_queues c))) j m' k' r); cbn; [done|].
          rewrite list_lookup_insert; eauto using lookup_lt_Some.
        * cbn. rewrite list_insert_insert.
          apply (step_recv _ (Config (c_root c) (<[j:=k']> (c_workers c)) (<[j:=m :: r ++ [m']]> (c_queues c)))
                   (S j) t n k m (<[j := r ++ [m']]> (c_queues c))); cbn; [done|].
          rewrite list_lookup_insert by (eauto using lookup_lt_Some). cbn.
          rewrite decide_True by done. rewrite list_insert_insert. done.
      + eexists. split.
        * apply (step_send _ (Config (k m) (c_workers c) (<[j:=r]> (c_queues c))) i' m' k' q'); cbn; [done|].
          rewrite list_lookup_insert_ne; done.
        * cbn. rewrite (list_insert_commute (c_queues c) i' j) by done.
          apply (step_recv _ (Config (c_root c) (<[i':=k']> (c_workers c)) (<[i':=q' ++ [m']]> (c_queues c)))
                   (S j) t n k m (<[j := r]> (<[i' := q' ++ [m']]> (c_queues c)))); cbn; [done|].
          rewrite list_lookup_insert_ne, Eq by done. rewrite decide_True by done. done.
    - left. rewrite A1 in B1. injection B1 as -> -> -> ->. rewrite A2 in B2. injection B2 as -> ->. done.
  Qed.

  (** If some execution ends after n steps, every execution can be continued to the same end, and then
      has n steps. *)
  Definition ended c : Prop := forall c', ~ step c c'.
  Lemma step_joins n c e c1 :
    nsteps step n c e -> ended e -> step c c1 -> exists n', n = S n' /\ nsteps step n' c1 e.
  Proof.
    revert c c1. induction n as [|n IH]; intros c c1 H He H1.
    - apply nsteps_once_inv in H1 || idtac. inversion H; subst. exfalso. exact (He _ H1).
    - inversion H as [|? ? c2 ? H2 H3]; subst. exists n. split; [done|].
      destruct (step_diamond _ _ _ H1 H2) as [->|(d & Hd1 & Hd2)]; [done|].
      destruct (IH _ _ H3 He Hd2) as (n' & -> & Hn). econstructor; eassumption.
  Qed.
  Lemma run_joins n c e k c1 :
    nsteps step n c e -> ended e -> nsteps step k c c1 -> k <= n /\ nsteps step (n - k) c1 e.
  Proof.
    intros H He Hk. revert n H. induction Hk as [x|k x y z Hxy Hyz IH]; intros n H.
    - split; [lia|]. replace (n - 0) with n by lia. done.
    - destruct (step_joins _ _ _ _ H He Hxy) as (n' & -> & Hn).
      destruct (IH _ Hn) as [Hle Hz]. split; [lia|]. replace (S n' - S k) with (n' - k) by lia. done.
  Qed.

  Lemma through_ended r ws c : through r ws c -> ended c.
  Proof.
    intros -> c' H. inversion H as [? ? A|? i m k q A _|? i t n k m qs A _]; subst; cbn in *; try done.
    rewrite list_lookup_fmap in A. destruct (ws !! i); cbn in A; done.
  Qed.

  (** ** Following the root and the workers together *)
  Notation empties n := (replicate n (@nil (msg D))).

  Lemma step_bcast m k (ws ws' : list worker) qs :
    Forall2 (fun p p' => after_bcast loop m p = Some p') ws ws' ->
    step (Config (Bcast m k) ws qs) (Config (k m) ws' qs).
  Proof.
    intros H. apply step_collective. cbn.
    assert (mapM (after_bcast loop m) ws = Some ws') as -> by (by apply mapM_Some). done.
  Qed.
  Lemma step_gather m sizes k (ws : list worker) vs ws' qs :
    Forall2 (fun p r => in_gather loop p = Some r) ws (zip vs ws') -> length vs = length ws' ->
    map shape (m :: vs) = map (fun n => ((shape m).1, n)) sizes ->
    step (Config (Gather m sizes k) ws qs) (Config (k (m :: vs)) ws' qs).
  Proof.
    intros H Hl Hs. apply step_collective. cbn [collective c_root c_workers c_queues].
    assert (mapM (in_gather loop) ws = Some (zip vs ws')) as -> by (by apply mapM_Some).
    rewrite fst_zip, snd_zip by lia. rewrite decide_True by done. done.
  Qed.
  Lemma step_scatter m ms t n k (ws ws' : list worker) qs :
    shape m = (t, n) -> length ms = length ws ->
    Forall2 (fun mp p' => after_scatter loop mp.1 mp.2 = Some p') (zip ms ws) ws' ->
    step (Config (Scatter (m :: ms) t n k) ws qs) (Config (k m) ws' qs).
  Proof.
    intros Hm Hl H. apply step_collective. cbn [collective c_root c_workers c_queues].
    rewrite decide_True by done.
    assert (after_scatters loop ms ws = Some ws') as ->; [|done].
    clear Hm. revert ws ws' Hl H. induction ms as [|a ms IH]; intros [|p ws] ws' Hl H; try done.
    - cbn in H. inversion H. done.
    - cbn in H. inversion H as [|? p' ? ws2 H1 H2]; subst. cbn. cbn in H1. rewrite H1.
      rewrite (IH ws ws2) by (done || (cbn in Hl; lia)). done.
  Qed.
  Lemma step_barrier k (ws ws' : list worker) qs :
    Forall2 (fun p p' => after_barrier loop p = Some p') ws ws' ->
    step (Config (Barrier k) ws qs) (Config k ws' qs).
  Proof.
    intros H. apply step_collective. cbn.
    assert (mapM (after_barrier loop) ws = Some ws') as -> by (by apply mapM_Some). done.
  Qed.

  (** All messages of all workers are sent. *)
  Definition sends {A} (ms : list (msg D)) (k : prog D A) : prog D A := foldr (fun m p => Send m p) k ms.
  Lemma run_sends_one r (ws : list worker) qs i ms k q :
    ws !! i = Some (sends ms k) -> qs !! i = Some q ->
    rtc step (Config r ws qs) (Config r (<[i := k]> ws) (<[i := q ++ ms]> qs)).
  Proof.
    revert ws qs q. induction ms as [|m ms IH]; intros ws qs q Hw Hq.
    - cbn in Hw. rewrite app_nil_r, !list_insert_id by done. reflexivity.
    - cbn in Hw. eapply rtc_l.
      { apply (step_send _ (Config r ws qs) i m (sends ms k) q); done. }
      cbn. etrans.
      { apply (IH _ _ (q ++ [m])); rewrite list_lookup_insert; eauto using lookup_lt_Some. }
      rewrite !list_insert_insert, <- app_assoc. reflexivity.
  Qed.
  Lemma run_sends_aux r (mss : list (list (msg D))) : forall (ks : list worker) (pre : list worker) (qpre : list (list (msg D))),
    length mss = length ks -> length pre = length qpre ->
    rtc step (Config r (pre ++ zip_with sends mss ks) (qpre ++ empties (length ks)))
             (Config r (pre ++ ks) (qpre ++ mss)).
  Proof.
    induction mss as [|ms mss IH]; intros [|k ks] pre qpre Hl Hp; try done.
    cbn [zip_with length replicate]. etrans.
    { apply (run_sends_one r _ _ (length pre) ms k []).
      - rewrite lookup_app_r, Nat.sub_diag by lia. done.
      - rewrite Hp, lookup_app_r, Nat.sub_diag by lia. done. }
    rewrite insert_app_r_alt, Nat.sub_diag by lia. cbn [list_insert insert].
    rewrite insert_app_r_alt by lia. rewrite Hp, Nat.sub_diag. cbn.
    specialize (IH ks (pre ++ [k]) (qpre ++ [ms])).
    rewrite <- !app_assoc in IH. cbn in IH. apply IH; [cbn in Hl; lia|rewrite !app_length; cbn; lia].
  Qed.
  Lemma run_sends r mss (ks : list worker) :
    length mss = length ks ->
    rtc step (Config r (zip_with sends mss ks) (empties (length ks))) (Config r ks mss).
  Proof. intros H. apply (run_sends_aux r mss ks [] []); done. Qed.

  (** The root receives. *)
  Inductive takes {A} : prog D A -> list (list (msg D)) -> prog D A -> list (list (msg D)) -> Prop :=
  | takes_refl p qs : takes p qs p qs
  | takes_recv i t n k qs m qs1 p' qs' :
      received i t n qs = Some (m, qs1) -> takes (k m) qs1 p' qs' -> takes (Recv i t n k) qs p' qs'.
  Lemma takes_trans {A} (p1 p2 p3 : prog D A) q1 q2 q3 :
    takes p1 q1 p2 q2 -> takes p2 q2 p3 q3 -> takes p1 q1 p3 q3.
  Proof. induction 1; intros; [done|]. econstructor; eauto. Qed.
  Lemma run_takes p qs p' qs' (ws : list worker) :
    takes p qs p' qs' -> rtc step (Config p ws qs) (Config p' ws qs').
  Proof.
    induction 1 as [|i t n k qs m qs1 p' qs' H _ IH]; [reflexivity|].
    eapply rtc_l; [|exact IH]. apply (step_recv _ (Config (Recv i t n k) ws qs) i t n k m qs1); done.
  Qed.

  Lemma imap_length {A B} (f : nat -> A -> B) l : length (imap f l) = length l.
  Proof. revert f. induction l; intros; cbn; [done|]. f_equal. apply IHl. Qed.

  (** Each lemma: all are at the same kind of call; what they go on with. [F]: the workers before,
      [G]: after. *)
  Section sync.
    Context {U : Type}.
    Implicit Types us : list U.

    Lemma go_bcast m (k : msg D -> prog D R) us (F G : nat -> U -> worker) qs :
      (forall i u, us !! i = Some u ->
         exists b k', at_call loop (F i u) = Bcast b k' /\ shape b = shape m /\ k' m = G i u) ->
      rtc step (Config (Bcast m k) (imap F us) qs) (Config (k m) (imap G us) qs).
    Proof.
      intros H. apply rtc_once. apply step_bcast.
      apply Forall2_same_length_lookup. split; [by rewrite !imap_length|].
      intros i p p' H1 H2. rewrite list_lookup_imap in H1, H2.
      destruct (us !! i) as [u|] eqn:Eu; [|done]. cbn in H1, H2. injection H1 as <-. injection H2 as <-.
      destruct (H i u Eu) as (b & k' & Hc & Hs & <-). unfold after_bcast. rewrite Hc.
      rewrite decide_True by done. done.
    Qed.
    Lemma go_barrier (k : prog D R) us (F G : nat -> U -> worker) qs :
      (forall i u, us !! i = Some u -> F i u = Barrier (G i u)) ->
      rtc step (Config (Barrier k) (imap F us) qs) (Config k (imap G us) qs).
    Proof.
      intros H. apply rtc_once. apply step_barrier.
      apply Forall2_same_length_lookup. split; [by rewrite !imap_length|].
      intros i p p' H1 H2. rewrite list_lookup_imap in H1, H2.
      destruct (us !! i) as [u|] eqn:Eu; [|done]. cbn in H1, H2. injection H1 as <-. injection H2 as <-.
      rewrite (H i u Eu). done.
    Qed.
    Lemma go_gather m sizes (k : list (msg D) -> prog D R) us (v : nat -> U -> msg D) (F G : nat -> U -> worker) qs :
      (forall i u, us !! i = Some u -> exists ss k', F i u = Gather (v i u) ss k' /\ k' [] = G i u) ->
      map shape (m :: imap v us) = map (fun n => ((shape m).1, n)) sizes ->
      rtc step (Config (Gather m sizes k) (imap F us) qs) (Config (k (m :: imap v us)) (imap G us) qs).
    Proof.
      intros H Hs. apply rtc_once. apply step_gather; [|by rewrite !imap_length|done].
      apply Forall2_same_length_lookup. split; [by rewrite zip_with_length, !imap_length, Nat.min_id|].
      intros i p p' H1 H2. rewrite list_lookup_imap in H1.
      rewrite lookup_zip_with, !list_lookup_imap in H2.
      destruct (us !! i) as [u|] eqn:Eu; [|done]. cbn in H1, H2. injection H1 as <-. injection H2 as <-.
      destruct (H i u Eu) as (ss & k' & -> & <-). done.
    Qed.
    Lemma go_scatter m ms t n (k : msg D -> prog D R) us (F G : nat -> U -> worker) qs :
      shape m = (t, n) -> length ms = length us ->
      (forall i u a, us !! i = Some u -> ms !! i = Some a ->
         exists ms' t' n' k', F i u = Scatter ms' t' n' k' /\ shape a = (t', n') /\ k' a = G i u) ->
      rtc step (Config (Scatter (m :: ms) t n k) (imap F us) qs) (Config (k m) (imap G us) qs).
    Proof.
      intros Hm Hms H. apply rtc_once. apply step_scatter; [done|by rewrite imap_length|].
      apply Forall2_same_length_lookup. split; [by rewrite zip_with_length, !imap_length, Hms, Nat.min_id|].
      intros i p p' H1 H2. rewrite lookup_zip_with, list_lookup_imap in H1.
      rewrite list_lookup_imap in H2.
      destruct (ms !! i) as [a|] eqn:Ec; [|done]. cbn in H1.
      destruct (us !! i) as [u|] eqn:Eu; [|done]. cbn in H1, H2. injection H1 as <-. injection H2 as <-.
      destruct (H i u a Eu Ec) as (ms' & t' & n' & k' & Hf & Hs & <-). cbn. unfold after_scatter. rewrite Hf.
      cbn. rewrite decide_True by done. done.
    Qed.
    (** The workers send, the root receives everything. *)
    Lemma go_exchange (p p' : prog D R) us (ms : nat -> U -> list (msg D)) (F G : nat -> U -> worker) :
      (forall i u, us !! i = Some u -> F i u = sends (ms i u) (G i u)) ->
      takes p (imap ms us) p' (empties (length us)) ->
      rtc step (Config p (imap F us) (empties (length us))) (Config p' (imap G us) (empties (length us))).
    Proof.
      intros H Ht.
      assert (imap F us = zip_with sends (imap ms us) (imap G us)) as ->.
      { apply list_eq. intros i. rewrite lookup_zip_with, !list_lookup_imap.
        destruct (us !! i) as [u|] eqn:Eu; [|done]. cbn. by rewrite (H i u Eu). }
      etrans; [|apply run_takes; exact Ht].
      rewrite <- (imap_length G us) at 1. apply run_sends. by rewrite !imap_length.
    Qed.
    Lemma go_ext (p : prog D R) us (F F' : nat -> U -> worker) qs c :
      (forall i u, us !! i = Some u -> F i u = F' i u) ->
      rtc step (Config p (imap F' us) qs) c -> rtc step (Config p (imap F us) qs) c.
    Proof.
      intros H. assert (imap F us = imap F' us) as ->; [|done].
      apply list_eq. intros i. rewrite !list_lookup_imap. destruct (us !! i) as [u|] eqn:Eu; [|done].
      cbn. by rewrite (H i u Eu).
    Qed.
  End sync.
End proofs.
