(** Lemmas for the loop of a worker *)
From Coq Require Import ZArith Lia.
From stdpp Require Import prelude.
From Verif.Mpi Require Import Methods.
From Verif.Worker Require Import Model Spec.
Local Open Scope Z_scope.

Lemma performs_users n : performs n = None <-> users n.
Proof.
  unfold users. split.
  - intros H. destruct (decide (0 <= n <= 60)) as [Hn|]; [|lia]. exfalso.
    assert (Hc : exists k, (k < 61)%nat /\ n = Z.of_nat k) by (exists (Z.to_nat n); lia).
    destruct Hc as (k & Hk & ->). do 61 (destruct k as [|k]; [done|]). lia.
  - intros Hn. destruct n as [|p|p]; [lia| |done]. destruct Hn as [|Hn]; [lia|].
    do 6 (destruct p as [p|p|]; try lia; try reflexivity).
Qed.
Lemma performs_break n : performs n = Some MpiWorkerBreak <-> n = 23.
Proof.
  split; [|by intros ->]. intros H. destruct (decide (users n)) as [Hu|Hu].
  - apply performs_users in Hu. congruence.
  - unfold users in Hu.
    assert (Hc : exists k, (k < 61)%nat /\ n = Z.of_nat k) by (exists (Z.to_nat n); lia).
    destruct Hc as (k & Hk & ->). do 61 (destruct k as [|k]; [first [discriminate H|reflexivity]|]). lia.
Qed.

Lemma performs_own n : ~ users n -> performs n = all_methods !! Z.to_nat n.
Proof.
  intros Hu. unfold users in Hu.
  assert (Hc : exists k, (k < 61)%nat /\ n = Z.of_nat k) by (exists (Z.to_nat n); lia).
  destruct Hc as (k & Hk & ->). do 61 (destruct k as [|k]; [reflexivity|]). lia.
Qed.

Lemma calls_announced f c k a : proper a -> calls f c k (announced a) = answers f c k a /\ announced a <> 23.
Proof.
  destruct a as [m|n]; cbn [announced proper answers].
  - intros [H1 H2]. split; [|by destruct m].
    unfold calls. rewrite decide_False; [|unfold users; destruct m; cbn; lia]. by destruct m.
  - intros Hu. unfold calls. rewrite decide_True by done. split; [done|]. unfold users in Hu. lia.
Qed.
Lemma before_announced acts rest : Forall proper acts ->
  before_break (map announced acts ++ 23 :: rest) = map announced acts.
Proof.
  induction acts as [|a acts IH]; intros H; [done|]. apply Forall_cons in H as [Ha H]. cbn.
  rewrite decide_False by by apply (calls_announced None None 0). by rewrite IH.
Qed.

Section proofs.
  Context {U : Type}.
  Context (own : collective_method -> worker U -> ran U Z) (f_code : nat -> Z -> worker U -> ran U (Z * Z))
          (c_code : nat -> Z -> nat -> worker U -> ran U Z).
  Notation turn := (turn own f_code c_code).
  Notation mpi_worker := (mpi_worker own f_code c_code).
  Notation perform := (perform own f_code c_code).

  Lemma registered_last (u : U) rs :
    registered (foldl register (new_worker u) rs) = (last_f rs, last_c rs, last_cookie rs) /\
    w_rest (foldl register (new_worker u) rs) = u /\ w_reports (foldl register (new_worker u) rs) = 0%nat.
  Proof.
    induction rs as [|r rs IH] using rev_ind; [done|]. rewrite foldl_snoc.
    set (w := foldl register (new_worker u) rs) in *. destruct IH as (IH & Hu & Hr).
    unfold registered in IH. inversion IH as [[E1 E2 E3]].
    unfold last_f, last_c, last_cookie. rewrite !omap_app.
    destruct r; cbn; rewrite ?app_nil_r, ?last_snoc; unfold registered; cbn; rewrite ?E1, ?E2, ?E3; done.
  Qed.

  Lemma turn_steady n w : steady own f_code c_code ->
    fst (turn n w) = calls (w_f w) (w_c w) (w_cookie w) n /\ registered (snd (turn n w)) = registered w.
  Proof.
    intros (S1 & S2 & S3). unfold Model.turn, Model.perform, calls.
    destruct (performs n) as [m|] eqn:Ep.
    - assert (Hnu : ~ users n) by (intros Hu%performs_users; congruence).
      rewrite decide_False by done. rewrite <- (performs_own n Hnu), Ep.
      specialize (S1 m w). destruct (own m w) as [rv w'|w']; cbn [fst snd left] in *; [|done].
      split; [done|]. by destruct (decide (rv < 0)).
    - rewrite decide_True by by apply performs_users.
      unfold call_fortran. destruct (w_f w) as [f|] eqn:Ef.
      + destruct (S2 f n w) as (ret & w1 & -> & R1). unfold registered in R1. inversion R1 as [[R2 R3 R4]].
        unfold call_c. rewrite R3. destruct (w_c w) as [c|] eqn:Ec.
        * destruct (S3 c n (w_cookie w1) w1) as (ret' & w2 & H2 & R5). rewrite H2, R4. cbn [fst snd]. split; [done|].
          assert (registered w2 = registered w) by (rewrite R5; unfold registered; congruence).
          by destruct (decide ((if decide (ret' = 0) then if decide (ret = 0) then irm_ok else irm_fail else irm_fail) < 0)).
        * cbn [fst snd]. split; [done|]. assert (registered w1 = registered w) by (unfold registered; congruence).
          by destruct (decide ((if decide (ret = 0) then irm_ok else irm_fail) < 0)).
      + unfold call_c. destruct (w_c w) as [c|] eqn:Ec.
        * destruct (S3 c n (w_cookie w) w) as (ret' & w2 & H2 & R5). rewrite H2. cbn [fst snd]. split; [done|].
          by destruct (decide ((if decide (ret' = 0) then irm_ok else irm_fail) < 0)).
        * cbn [fst snd]. split; [done|]. by destruct (decide (irm_ok < 0)).
  Qed.

  Lemma loop_ends ns : forall w,
    o_status (mpi_worker ns w) = (if decide (23 ∈ ns) then Returned 0 else Waiting) /\
    o_left (mpi_worker ns w) = after_break ns /\
    mpi_worker (before_break ns) w =
      Outcome (o_events (mpi_worker ns w)) (o_worker (mpi_worker ns w)) Waiting [].
  Proof.
    induction ns as [|n ns IH]; intros w.
    - split_and!; [|done|done]. rewrite decide_False; [done|]. apply not_elem_of_nil.
    - cbn [Model.mpi_worker after_break before_break]. destruct (decide (n = 23)) as [->|Hn].
      + rewrite !(decide_True (P := performs 23 = Some MpiWorkerBreak)) by done.
        rewrite decide_True by (by left). split_and!; done.
      + rewrite !(decide_False (P := performs n = Some MpiWorkerBreak)) by (by rewrite performs_break).
        cbn [Model.mpi_worker]. rewrite (decide_False (P := performs n = Some MpiWorkerBreak)) by (by rewrite performs_break).
        destruct (turn n w) as [ev w'] eqn:Et. destruct (IH w') as (H1 & H2 & H3). cbn [o_status o_left o_events o_worker].
        split_and!; [|done|by rewrite H3].
        rewrite H1. destruct (decide (23 ∈ ns)) as [Hin|Hin].
        * rewrite decide_True by by right. done.
        * rewrite decide_False; [done|]. intros [?|?]%elem_of_cons; congruence.
  Qed.

  Lemma loop_steady ns : forall w, steady own f_code c_code ->
    o_events (mpi_worker ns w) = mjoin (calls (w_f w) (w_c w) (w_cookie w) <$> before_break ns) /\
    registered (o_worker (mpi_worker ns w)) = registered w.
  Proof.
    induction ns as [|n ns IH]; intros w Hs; [done|]. cbn [Model.mpi_worker before_break].
    destruct (decide (n = 23)) as [->|Hn]; [done|].
    rewrite (decide_False (P := performs n = Some MpiWorkerBreak)) by (by rewrite performs_break).
    destruct (turn_steady n w Hs) as [H1 H2]. destruct (turn n w) as [ev w'] eqn:Et. cbn [fst snd] in H1, H2.
    destruct (IH w' Hs) as [H3 H4]. cbn [o_events o_worker fmap list_fmap mjoin list_join].
    unfold registered in H2. inversion H2 as [[E1 E2 E3]]. split.
    - rewrite H1, H3, E1, E2, E3. done.
    - rewrite H4. unfold registered. congruence.
  Qed.

  Lemma reports_fail (w : worker U) : w_reports (if decide (irm_fail < 0) then report w else w) = S (w_reports w).
  Proof. done. Qed.
  Lemma reports_ok (w : worker U) : w_reports (if decide (irm_ok < 0) then report w else w) = w_reports w.
  Proof. done. Qed.
  Lemma turn_reports n w : steady own f_code c_code -> quiet own f_code c_code ->
    (fails own f_code c_code n w -> w_reports (snd (turn n w)) = S (w_reports w)) /\
    (~ fails own f_code c_code n w -> w_reports (snd (turn n w)) = w_reports w).
  Proof.
    intros (S1 & S2 & S3) (Q1 & Q2 & Q3). unfold fails, Model.turn, Model.perform.
    destruct (performs n) as [m|] eqn:Ep.
    - assert (Hnu : ~ users n) by (intros Hu%performs_users; congruence).
      rewrite !(decide_False (P := users n)) by done. rewrite <- (performs_own n Hnu), Ep.
      destruct (Q1 m w) as (rv & w' & Ho & Hq). rewrite Ho. cbn [snd]. split.
      + intros (m' & rv' & w1 & Hm & Ho' & Hlt). assert (m' = m) as -> by congruence.
        assert (rv' = rv) as -> by congruence. rewrite decide_True by done. cbn. by rewrite Hq.
      + intros Hnf. rewrite decide_False; [done|]. intros Hlt. apply Hnf. by exists m, rv, w'.
    - rewrite !(decide_True (P := users n)) by by apply performs_users.
      unfold call_fortran. destruct (w_f w) as [f|] eqn:Ef.
      + destruct (S2 f n w) as (ret & w1 & Hf & R1). pose proof (Q2 _ _ _ _ _ Hf) as Hq1.
        unfold registered in R1. inversion R1 as [[R2 R3 R4]]. rewrite Hf.
        unfold call_c. rewrite R3. destruct (w_c w) as [c|] eqn:Ec.
        * rewrite R4. destruct (S3 c n (w_cookie w) w1) as (ret' & w2 & Hc & R5).
          pose proof (Q3 _ _ _ _ _ _ Hc) as Hq2. rewrite Hc. cbn [snd]. split.
          -- intros [(f' & r & w' & E1 & E2 & Hr)|(c' & r & w1' & w' & E1 & E2 & Hr & r' & E3)].
             ++ assert (f' = f) as -> by congruence. assert (r = ret) as -> by congruence.
                rewrite (decide_False (P := ret = 0)) by done.
                destruct (decide (ret' = 0)); rewrite ?reports_fail, ?reports_ok; lia.
             ++ assert (c' = c) as -> by congruence. assert (w1' = w1) as -> by congruence.
                assert (r = ret') as -> by congruence. rewrite (decide_False (P := ret' = 0)) by done. rewrite reports_fail. lia.
          -- intros Hnf. destruct (decide (ret' = 0)) as [->|Hr].
             ++ destruct (decide (ret = 0)) as [->|Hr]; [rewrite ?reports_fail, ?reports_ok; lia|].
                destruct Hnf. left. by exists f, ret, w1.
             ++ destruct Hnf. right. exists c, ret', w1, w2. split_and!; [done|done|done|]. by exists ret.
        * cbn [snd]. split.
          -- intros [(f' & r & w' & E1 & E2 & Hr)|(c' & r & w1' & w' & E1 & _)]; [|done].
             assert (f' = f) as -> by congruence. assert (r = ret) as -> by congruence.
             rewrite (decide_False (P := ret = 0)) by done. rewrite reports_fail. lia.
          -- intros Hnf. destruct (decide (ret = 0)) as [->|Hr]; [rewrite ?reports_fail, ?reports_ok; lia|].
             destruct Hnf. left. by exists f, ret, w1.
      + unfold call_c. destruct (w_c w) as [c|] eqn:Ec.
        * destruct (S3 c n (w_cookie w) w) as (ret' & w2 & Hc & R5).
          pose proof (Q3 _ _ _ _ _ _ Hc) as Hq2. rewrite Hc. cbn [snd]. split.
          -- intros [(f' & r & w' & E1 & _)|(c' & r & w1' & w' & E1 & E2 & Hr & ->)]; [done|].
             assert (c' = c) as -> by congruence. assert (r = ret') as -> by congruence.
             rewrite (decide_False (P := ret' = 0)) by done. rewrite reports_fail. lia.
          -- intros Hnf. destruct (decide (ret' = 0)) as [->|Hr]; [rewrite ?reports_fail, ?reports_ok; lia|].
             destruct Hnf. right. by exists c, ret', w, w2.
        * cbn [snd]. split; [|done]. intros [(f' & r & w' & E1 & _)|(c' & r & w1' & w' & E1 & _)]; done.
  Qed.

  Lemma loop_app ns ns' : forall w, 23 ∉ ns ->
    mpi_worker (ns ++ ns') w =
      let o := mpi_worker ns w in let o' := mpi_worker ns' (o_worker o) in
      Outcome (o_events o ++ o_events o') (o_worker o') (o_status o') (o_left o').
  Proof.
    induction ns as [|n ns IH]; intros w Hn; [cbn; by destruct (mpi_worker ns' w)|].
    apply not_elem_of_cons in Hn as [Hn Hns]. cbn [app Model.mpi_worker].
    rewrite !(decide_False (P := performs n = Some MpiWorkerBreak)) by (rewrite performs_break; congruence).
    destruct (turn n w) as [ev w']. rewrite IH by done. cbn. by rewrite app_assoc.
  Qed.

  Lemma loop_one n w : n <> 23 ->
    o_events (mpi_worker [n] w) = fst (turn n w) /\ o_worker (mpi_worker [n] w) = snd (turn n w).
  Proof.
    intros Hn. cbn [Model.mpi_worker]. rewrite decide_False by by rewrite performs_break.
    destruct (turn n w) as [ev w']. cbn. by rewrite app_nil_r.
  Qed.

  (** Without any condition on the functions *)
  Lemma turn_calls n w :
    match performs n with
    | Some m => fst (turn n w) = [Module m]
    | None => exists n' c k, fst (turn n w) `sublist_of` (match w_f w with Some f => [Fortran f n] | None => [] end ++ [CFunction c n' k])
              /\ (forall f, w_f w = Some f -> head (fst (turn n w)) = Some (Fortran f n))
    end.
  Proof.
    unfold Model.turn, Model.perform. destruct (performs n) as [m|]; [by destruct (own m w)|].
    unfold call_fortran. destruct (w_f w) as [f|] eqn:Ef.
    - destruct (f_code f n w) as [[ret n'] w1|w1].
      + unfold call_c. destruct (w_c w1) as [c|].
        * exists n', c, (w_cookie w1). destruct (c_code c n' (w_cookie w1) w1); cbn [fst app]; split;
            [done|by intros ? [= ->]|done|by intros ? [= ->]].
        * exists 0, 0%nat, 0%nat. cbn [fst app]. split; [|by intros ? [= ->]].
          apply sublist_skip, sublist_nil_l.
      + exists 0, 0%nat, 0%nat. cbn [fst app]. split; [|by intros ? [= ->]]. apply sublist_skip, sublist_nil_l.
    - unfold call_c. destruct (w_c w) as [c|].
      + exists n, c, (w_cookie w). destruct (c_code c n (w_cookie w) w); cbn [fst app]; split; done.
      + exists 0, 0%nat, 0%nat. cbn [fst app]. split; [apply sublist_nil_l|done].
  Qed.
End proofs.
