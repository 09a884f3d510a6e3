(** Sessions of the MPI build: every call is served, in every execution. *)
From Coq Require Import ZArith Ascii.
From stdpp Require Import prelude gmap relations.
From Verif.Base Require Import Result.
From Verif.Mapping Require Import Model Spec.
From Verif.Mpi Require Import Comm Methods Model Spec CommProofs Cells Parts Agree Calls Fetch Changes RunCells DumpProofs.
Local Open Scope Z_scope.

Section sessions.
  Context {D X : Type} (L : local D X).
  Notation ps := (ps D X).
  Notation result := (ps * list (answer D))%type.
  Notation step := (step (loop L) (R := result)).
  Notation idle := (idle (D := D) (X := X)).
  Notation empties n := (replicate n ([] : list (msg D))).
  Implicit Types (s w : ps) (ws : list ps) (c : call D).

  Lemma call_served k s ws c : lawful L -> in_step k s ws -> may_call L (p_map s) k c ->
    exists s' ws' a, length ws' = length ws /\ serves L (R := result) (perform L c s) ws s' ws' a /\
      in_step (remember (p_map s) k c) s' ws' /\ call_result L c s ws a s' ws'.
  Proof.
    intros Lw I Hc. destruct c as [f x|f b|x y z|f z|t|v l|l|q old|old|l|old|o i|b i u t| |g|old| |on ap op fails old]; cbn [perform].
    - apply set_served; [done|]. cbn in *. by rewrite Hc.
    - apply set_served; [done|]. cbn in *. rewrite !elem_of_cons in Hc.
      destruct Hc as [-> | [-> | [-> | [-> | [-> | [-> | Hc]]]]]]; try done. by apply elem_of_nil in Hc.
    - by apply set_served.
    - apply set_served; [done|]. cbn in *. destruct Hc as [Hc|[-> _]]; [|done]. rewrite !elem_of_cons in Hc.
      destruct Hc as [-> | [-> | [-> | [-> | [-> | [-> | [-> | Hc]]]]]]]; try done. by apply elem_of_nil in Hc.
    - by apply prefix_served.
    - by apply vec_served.
    - by apply mask_served.
    - by apply get_served.
    - destruct (conc_served L (R := result) k s ws old I Hc) as (s' & ws' & a & H1 & H2 & H3 & H4 & _). by exists s', ws', a.
    - by apply setconc_served.
    - destruct (species_served L (R := result) k s ws old I) as (s' & ws' & a & H1 & H2 & H3 & H4 & _). by exists s', ws', a.
    - by apply state_served.
    - by apply run_served.
    - by apply cells_served.
    - by apply map_served.
    - done.
    - done.
    - by apply dump_served.
  Qed.

  Lemma may_call_same m m' k c : nxyz m = nxyz m' -> nthreads m = nthreads m' -> may_call L m k c -> may_call L m' k c.
  Proof. intros H1 H2. destruct c; cbn; try done; by rewrite <- H1, <- ?H2. Qed.
  Lemma remember_same m m' k c : nxyz m = nxyz m' -> remember m k c = remember m' k c.
  Proof. intros H1. destruct c; cbn; try done; by rewrite <- H1. Qed.
  Lemma remember_nx m k c : k_nx (remember m k c) = k_nx k.
  Proof. destruct c as [| | | | |v l| |[]| | | |[]| | | | | |]; cbn; try done; by destruct (decide _). Qed.
  Lemma may_run_same m m' k cs : nxyz m = nxyz m' -> nthreads m = nthreads m' -> may_run L m k cs -> may_run L m' k cs.
  Proof.
    intros H1 H2. revert k. induction cs as [|c cs IH]; intros k; [done|]. intros [Hc Hr].
    split; [by apply (may_call_same m)|]. rewrite <- (remember_same m m') by done. by apply IH.
  Qed.

  Lemma remember_all_same m m' k (cs : list (call D)) : nxyz m = nxyz m' -> foldl (remember m) k cs = foldl (remember m') k cs.
  Proof.
    intros H. revert k. induction cs as [|c cs IH]; intros k; [done|]. cbn [foldl]. by rewrite (remember_same m m'), IH.
  Qed.

  Lemma session_served cs : lawful L -> forall k s ws acc, in_step k s ws -> may_run L (p_map s) k cs ->
    exists s' ws' ans, length ws' = length ws /\ in_step (foldl (remember (p_map s)) k cs) s' ws' /\ history L cs s ws ans s' ws' /\
      rtc step (Config (session L cs s acc) (imap idle ws) (empties (length ws)))
               (Config (Fin (s', acc ++ ans)) (map (fun e => Fin (e, true)) (imap (fun i w => (S i, w)) ws')) (empties (length ws))).
  Proof.
    intros Lw. induction cs as [|c cs IH]; intros k s ws acc I Hr.
    - exists s, ws, []. split; [done|]. split; [done|]. split; [constructor|]. cbn [session]. rewrite app_nil_r.
      change (map ?f ?l) with (f <$> l). rewrite fmap_imap. unfold announce.
      apply (go_bcast (loop L) _ (fun _ => Fin (s, acc))). intros i w _. eexists _, _. split; [reflexivity|]. done.
    - destruct Hr as [Hc Hr].
      destruct (call_served k s ws c Lw I Hc) as (s1 & ws1 & a & Hl1 & Hgo & I1 & Hres).
      assert (nxyz (p_map s1) = nxyz (p_map s)) as En by (rewrite (is_nx _ _ _ I1), remember_nx; symmetry; apply (is_nx _ _ _ I)).
      assert (nthreads (p_map s1) = nthreads (p_map s)) as Et.
      { rewrite (gm_tasks _ _ (is_map _ _ _ I1)), (gm_tasks _ _ (is_map _ _ _ I)), Hl1. done. }
      destruct (IH (remember (p_map s) k c) s1 ws1 (acc ++ [a]) I1) as (s2 & ws2 & ans & Hl2 & I2 & Hh & Hgo2).
      { by apply (may_run_same (p_map s)). }
      exists s2, ws2, (a :: ans). split; [congruence|]. split; [|split].
      + cbn [foldl]. by rewrite (remember_all_same (p_map s) (p_map s1)).
      + by eapply history_cons.
      + cbn [session]. eapply rtc_transitive; [apply (Hgo (fun s' a => session L cs s' (acc ++ [a])))|].
        rewrite Hl1 in Hgo2. rewrite <- app_assoc in Hgo2. exact Hgo2.
  Qed.

  Lemma session_runs k s ws cs : lawful L -> in_step k s ws -> may_run L (p_map s) k cs ->
    exists (n : nat) s' ws' ans, length ws' = length ws /\ in_step (foldl (remember (p_map s)) k cs) s' ws' /\ history L cs s ws ans s' ws' /\
      forall i (x : config D result (nat * ps)), nsteps step i (start L cs s ws) x -> (i <= n)%nat /\
        exists e, nsteps step (n - i)%nat x e /\ through (s', ans) (imap (fun j w => (S j, w)) ws') e.
  Proof.
    intros Lw I Hr. destruct (session_served cs Lw k s ws [] I Hr) as (s' & ws' & ans & Hl & I' & Hh & Hgo).
    apply rtc_nsteps in Hgo as [n Hn]. exists n, s', ws', ans. split; [done|]. split; [done|]. split; [done|].
    intros i c Hi. eassert (through (s', ans) (imap (fun j w => (S j, w)) ws') _) as Ht.
    { unfold through. rewrite imap_length, Hl. reflexivity. }
    destruct (run_joins (loop L) _ _ _ _ _ Hn (through_ended (loop L) _ _ _ Ht) Hi) as [Hle Hc]. split; [done|]. by eexists.
  Qed.

  (** One call that is served, then the end *)
  Lemma one_call s ws c s' ws' a : length ws' = length ws -> serves L (R := result) (perform L c s) ws s' ws' a ->
    exists n : nat, forall i (x : config D result (nat * ps)), nsteps step i (start L [c] s ws) x -> (i <= n)%nat /\
      exists e, nsteps step (n - i)%nat x e /\ through (s', [a]) (imap (fun j w => (S j, w)) ws') e.
  Proof.
    intros Hl Hgo.
    assert (rtc step (start L [c] s ws) (Config (Fin (s', [a])) (map (fun e => Fin (e, true)) (imap (fun i w => (S i, w)) ws')) (empties (length ws)))) as H.
    { eapply rtc_transitive; [apply (Hgo (fun s' a => session L [] s' ([] ++ [a])))|]. cbn [session app].
      change (map ?f ?l) with (f <$> l). rewrite fmap_imap. unfold announce.
      apply (go_bcast (loop L) _ (fun _ => Fin (s', [a]))). intros i w _. eexists _, _. split; [reflexivity|]. done. }
    apply rtc_nsteps in H as [n Hn]. exists n. intros i x Hi.
    eassert (through (s', [a]) (imap (fun j w => (S j, w)) ws') _) as Ht.
    { unfold through. rewrite imap_length, Hl. reflexivity. }
    destruct (run_joins (loop L) _ _ _ _ _ Hn (through_ended (loop L) _ _ _ Ht) Hi) as [Hle Hc]. split; [done|]. by eexists.
  Qed.

  (** The last call of a session *)
  Lemma history_last cs c s ws ans s' ws' : history L (cs ++ [c]) s ws ans s' ws' ->
    exists s1 ws1 ans1 a, ans = ans1 ++ [a] /\ history L cs s ws ans1 s1 ws1 /\ call_result L c s1 ws1 a s' ws'.
  Proof.
    revert s ws ans. induction cs as [|c0 cs IH]; intros s ws ans H; cbn in H.
    - inversion H as [|? ? ? ? a s1 ws1 ans1 ? ? Hc Hr]; subst. inversion Hr; subst. exists s, ws, [], a. split; [done|]. split; [constructor|done].
    - inversion H as [|? ? ? ? a s1 ws1 ans1 ? ? Hc Hr]; subst. destruct (IH _ _ _ Hr) as (s2 & ws2 & ans2 & a2 & -> & H1 & H2).
      exists s2, ws2, (a :: ans2), a2. split; [done|]. split; [by eapply history_cons|done].
  Qed.
  Lemma may_run_app m k cs cs' : may_run L m k (cs ++ cs') <-> may_run L m k cs /\ may_run L m (foldl (remember m) k cs) cs'.
  Proof. revert k. induction cs as [|c cs IH]; intros k; cbn; [by split; [|intros [_ ?]]|]. rewrite IH. tauto. Qed.
End sessions.
