From Coq Require Import ZArith String Lia.
From stdpp Require Import prelude strings.
From Verif.Base Require Import Result.
From Verif.Settings Require Import Model.
From Verif.Run Require Import Model Spec.
Open Scope list_scope.

Section run.
  Context {S : Type} (engine : bool -> S -> S * answer) (out_text err_text : S -> string).
  Context (nthreads : nat) (print : flags).
  Notation flag_of := (flag_of nthreads).
  Notation thread := (thread engine out_text err_text nthreads print).
  Notation step := (step engine out_text err_text nthreads print).

  Lemma flag_chosen f n : (n < nthreads + 2)%nat -> flag_of f n = true <-> chosen nthreads f n.
  Proof.
    intros Hn. unfold flag_of, chosen. destruct (Nat.ltb_spec n nthreads).
    - intuition lia.
    - destruct (Nat.eqb_spec n nthreads); intuition lia.
  Qed.

  Lemma thread_state tell n s : (thread tell n s).1.1 = (engine (flag_of print n) s).1.
  Proof. unfold thread. destruct (engine _ s).2 as [k|]; [|done]. by destruct (0 <? k)%Z. Qed.
  Lemma thread_code tell n s :
    (thread tell n s).1.2 = IRM_OK <-> worked (engine (flag_of print n) s).2.
  Proof.
    unfold thread, worked. destruct (engine _ s).2 as [k|].
    - destruct (Z.ltb_spec 0 k); simpl; split; try done.
      + intros (k' & [= <-] & Hk). lia.
      + eauto.
    - simpl. split; [done|]. by intros (? & ? & _).
  Qed.
  Lemma thread_codes tell n s : (thread tell n s).1.2 = IRM_OK \/ (thread tell n s).1.2 = IRM_FAIL.
  Proof. unfold thread. destruct (engine _ s).2 as [k|]; [|by right]. destruct (0 <? k)%Z; [by right|by left]. Qed.

  (** After any duplicate-free order: every position that was met holds its own result. *)
  Lemma fold_step tell f order : forall st,
    NoDup order -> length st.1.1 = length st.1.2 ->
    let r := fold_left (step tell f) order st in
    length r.1.1 = length st.1.1 /\ length r.1.2 = length st.1.2 /\
    (forall n s, st.1.1 !! n = Some s ->
       r.1.1 !! n = Some (if decide (n ∈ order /\ flag_of f n = true) then (thread tell n s).1.1 else s)
       /\ r.1.2 !! n = (if decide (n ∈ order /\ flag_of f n = true) then Some (thread tell n s).1.2 else st.1.2 !! n))
    /\ r.2 = st.2 ++ concat (map (fun n => if flag_of f n then match st.1.1 !! n with Some s => (thread tell n s).2 | None => [] end else []) order).
  Proof.
    induction order as [|m order IH]; intros st Hnd Hlen r.
    - simpl in r. subst r. split; [done|]. split; [done|]. split; [|by rewrite app_nil_r].
      intros n s Hs. rewrite !decide_False; [done| |]; intros [H _]; by apply elem_of_nil in H.
    - apply NoDup_cons in Hnd as [Hm Hnd]. simpl in r.
      assert (length (step tell f st m).1.1 = length st.1.1 /\ length (step tell f st m).1.2 = length st.1.2) as [L1 L2].
      { unfold step. destruct (flag_of f m); [|done]. destruct (st.1.1 !! m); [|done]. simpl. by rewrite !insert_length. }
      specialize (IH (step tell f st m) Hnd ltac:(congruence)). fold r in IH. simpl in IH.
      destruct IH as (I1 & I2 & I3 & I4). split; [congruence|]. split; [congruence|]. split.
      + intros n s Hs. destruct (decide (n = m)) as [->|Hne].
        * destruct (flag_of f m) eqn:Ef.
          -- assert ((step tell f st m).1.1 !! m = Some (thread tell m s).1.1
              /\ (step tell f st m).1.2 !! m = Some (thread tell m s).1.2) as [E1 E2].
            { unfold step. rewrite Ef, Hs. simpl. pose proof (lookup_lt_Some _ _ _ Hs).
              rewrite !list_lookup_insert by lia. done. }
            destruct (I3 m _ E1) as [I3a I3b]. rewrite I3a, I3b. rewrite !(decide_False (P := m ∈ order /\ _)) by tauto.
            rewrite !decide_True by (split; [left|done]). done.
          -- assert (step tell f st m = st) as E by (unfold step; by rewrite Ef).
            rewrite E in *. destruct (I3 m _ Hs) as [I3a I3b]. rewrite I3a, I3b.
            rewrite !decide_False by (intros [_ ?]; congruence). done.
        * assert ((step tell f st m).1.1 !! n = st.1.1 !! n /\ (step tell f st m).1.2 !! n = st.1.2 !! n) as [E1 E2].
          { unfold step. destruct (flag_of f m); [|done]. destruct (st.1.1 !! m); [|done]. simpl.
            rewrite !list_lookup_insert_ne by done. done. }
          rewrite <- E1 in Hs. destruct (I3 n s Hs) as [-> ->]. rewrite E2.
          assert (n ∈ m :: order <-> n ∈ order) as Hiff by (rewrite elem_of_cons; tauto).
          destruct (decide (n ∈ order /\ flag_of f n = true)) as [Hd|Hd].
          -- rewrite !decide_True by tauto. done.
          -- rewrite !decide_False by tauto. done.
      + rewrite I4. simpl. assert (forall n, n ∈ order -> (step tell f st m).1.1 !! n = st.1.1 !! n) as E.
        { intros n Hn. unfold step. destruct (flag_of f m); [|done]. destruct (st.1.1 !! m); [|done]. simpl.
          apply list_lookup_insert_ne. intros ->. done. }
        assert (map (fun n => if flag_of f n then match (step tell f st m).1.1 !! n with Some s => (thread tell n s).2 | None => [] end else []) order
          = map (fun n => if flag_of f n then match st.1.1 !! n with Some s => (thread tell n s).2 | None => [] end else []) order) as ->.
        { apply map_ext_in. intros n Hn. rewrite E; [done|]. by apply elem_of_list_In. }
        rewrite (assoc_L (++)). f_equal. unfold step. destruct (flag_of f m); [|by rewrite app_nil_r].
        destruct (st.1.1 !! m); [done|by rewrite app_nil_r].
  Qed.

  Lemma run_threads_spec tell f order vs :
    order ≡ₚ seq 0 (nthreads + 2) -> length vs = (nthreads + 2)%nat ->
    let r := run_threads engine out_text err_text nthreads print tell f order vs in
    length r.1.1 = (nthreads + 2)%nat /\ length r.1.2 = (nthreads + 2)%nat /\
    (forall n s, vs !! n = Some s ->
       r.1.1 !! n = Some (if flag_of f n then (thread tell n s).1.1 else s)
       /\ r.1.2 !! n = Some (if flag_of f n then (thread tell n s).1.2 else IRM_OK))
    /\ r.2 = concat (map (fun n => if flag_of f n then match vs !! n with Some s => (thread tell n s).2 | None => [] end else []) order).
  Proof.
    intros Hp Hl. assert (NoDup order) as Hnd by (rewrite Hp; apply NoDup_seq).
    pose proof (fold_step tell f order (vs, replicate (nthreads + 2) IRM_OK, []) Hnd) as H.
    simpl in H. rewrite replicate_length in H. specialize (H Hl). destruct H as (H1 & H2 & H3 & H4).
    unfold run_threads. split; [congruence|]. split; [done|]. split; [|done].
    intros n s Hs. pose proof (lookup_lt_Some _ _ _ Hs) as Hn. rewrite Hl in Hn.
    destruct (H3 n s Hs) as [-> ->].
    assert (n ∈ order) as Hin by (rewrite Hp; apply elem_of_seq; lia).
    rewrite lookup_replicate_2 by done.
    destruct (flag_of f n) eqn:Ef.
    - rewrite !decide_True by done. done.
    - rewrite !decide_False by (intros [_ ?]; congruence). done.
  Qed.

  Lemma run_code_ok rs : run_code rs = IRM_OK <-> forall n r, rs !! n = Some r -> r = IRM_OK.
  Proof.
    unfold run_code. case_decide as H.
    - split; [|done]. intros _ n r Hr. rewrite Forall_lookup in H. by apply (H n).
    - split; [done|]. intros Hr. exfalso. apply H. by apply Forall_lookup.
  Qed.
  Lemma run_code_codes rs : run_code rs = IRM_OK \/ run_code rs = IRM_FAIL.
  Proof. unfold run_code. case_decide; [by left|by right]. Qed.
End run.
