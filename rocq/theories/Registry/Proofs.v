From stdpp Require Import prelude gmap.
From Verif.Base Require Import Result.
From Verif.Registry Require Import Model Spec.
Local Open Scope Z_scope.

Lemma size_of_int_nonneg id : 0 <= id < 2 ^ 31 -> size_of_int id = Z.to_N id.
Proof. intros H. unfold size_of_int. rewrite Z.mod_small; lia. Qed.

Lemma size_of_int_neg id : - 2 ^ 31 <= id < 0 -> (Z.to_N (2 ^ 31) <= size_of_int id)%N.
Proof.
  intros H. unfold size_of_int.
  rewrite <- (Z_mod_plus_full id 1). rewrite Z.mod_small; lia.
Qed.

Lemma int_of_size_small n : Z.of_N n < 2 ^ 31 -> int_of_size n = Z.of_N n.
Proof. intros H. unfold int_of_size. rewrite Z.mod_small; lia. Qed.

Lemma size_of_int_inj a b : is_int a -> is_int b -> size_of_int a = size_of_int b -> a = b.
Proof.
  unfold is_int; intros Ha Hb.
  destruct (decide (0 <= a)), (decide (0 <= b)).
  - rewrite !size_of_int_nonneg by lia. lia.
  - intros E. pose proof (size_of_int_neg b ltac:(lia)) as H.
    rewrite <- E, size_of_int_nonneg in H by lia. lia.
  - intros E. pose proof (size_of_int_neg a ltac:(lia)) as H.
    rewrite E, size_of_int_nonneg in H by lia. lia.
  - unfold size_of_int.
    rewrite <- (Z_mod_plus_full a 1), <- (Z_mod_plus_full b 1).
    rewrite !Z.mod_small by lia. lia.
Qed.

(** ** Refinement to the set of live ids *)

(** Keys are below the counter, and the user's view [a] agrees with the map. *)
Definition Rel (s : registry) (a : gmap Z kind) : Prop :=
  (forall i k, instances s !! i = Some k -> (i < next_index s)%N) /\
  (forall i k, a !! i = Some k -> 0 <= i < Z.of_N (next_index s)) /\
  (forall id, is_int id -> instances s !! size_of_int id = a !! id).

Lemma rel_init : Rel reg_init ∅.
Proof.
  repeat split; cbn; intros *; rewrite ?lookup_empty; try discriminate; done.
Qed.

Lemma creations_nonneg ops : 0 <= creations ops.
Proof. induction ops as [|[] ops IH]; cbn [creations]; lia. Qed.

Lemma rel_create s a k ok s' x :
  Rel s a -> Z.of_N (next_index s) < 2 ^ 31 ->
  create s k ok = (s', x) ->
  Rel s' (alive_step a (Create k ok, x)) /\
  Z.of_N (next_index s') = Z.of_N (next_index s) + 1 /\
  (if ok then x = OId (Z.of_N (next_index s)) else x = OId (-1)).
Proof.
  intros (H1 & H2 & H3) Hlt. unfold create.
  rewrite int_of_size_small by lia.
  assert (Hself : size_of_int (Z.of_N (next_index s)) = next_index s)
    by (rewrite size_of_int_nonneg by lia; lia).
  destruct ok; intros [= <- <-]; cbn [next_index instances alive_step].
  - split; [|split; [lia|done]]. split; [|split]; cbn.
    + intros i k'. destruct (decide (next_index s = i)) as [->|Hne].
      * lia.
      * rewrite lookup_insert_ne by done. intros E%H1. lia.
    + intros i k'. destruct (decide (Z.of_N (next_index s) = i)) as [<-|Hne].
      * lia.
      * rewrite lookup_insert_ne by done. intros E%H2. lia.
    + intros id Hid. destruct (decide (Z.of_N (next_index s) = id)) as [<-|Hne].
      * rewrite Hself, !lookup_insert. done.
      * rewrite !lookup_insert_ne; [by apply H3|done|].
        rewrite <- Hself. intros E%size_of_int_inj; [done| |done].
        unfold is_int; lia.
  - split; [|split; [lia|done]]. split; [|split]; cbn.
    + intros i k'. rewrite lookup_delete_Some. intros [Hne E].
      rewrite lookup_insert_ne in E by done. apply H1 in E. lia.
    + intros i k' E%H2. lia.
    + intros id Hid. rewrite <- H3 by done.
      destruct (decide (next_index s = size_of_int id)) as [Heq|Hne].
      * rewrite <- Heq, lookup_delete.
        destruct (instances s !! next_index s) eqn:E; [|done].
        apply H1 in E. lia.
      * rewrite lookup_delete_ne, lookup_insert_ne by done. done.
Qed.

Lemma rel_destroy s a id s' r :
  Rel s a -> is_int id -> destroy s id = (s', r) ->
  Rel s' (if decide (r = IRM_OK) then delete id a else a) /\
  next_index s' = next_index s /\
  r = match a !! id with Some _ => IRM_OK | None => IRM_BADINSTANCE end.
Proof.
  intros (H1 & H2 & H3) Hid. unfold destroy.
  pose proof (H3 id Hid) as E3. rewrite E3.
  destruct (a !! id) as [k|] eqn:Ea; intros [= <- <-]; cbn [decide_rel].
  - split; [|done]. rewrite decide_True by done. split; [|split]; cbn.
    + intros i k' [_ E]%lookup_delete_Some. by eapply H1.
    + intros i k' [_ E]%lookup_delete_Some. by eapply H2.
    + intros id' Hid'. destruct (decide (id = id')) as [<-|Hne].
      * rewrite !lookup_delete. done.
      * rewrite !lookup_delete_ne; [by apply H3|done|].
        intros E%size_of_int_inj; done.
  - rewrite decide_False by done. done.
Qed.

Lemma rel_step s a o s' x :
  Rel s a -> op_int o ->
  Z.of_N (next_index s) + creations [o] <= 2 ^ 31 ->
  step s o = Ret (s', x) ->
  Rel s' (alive_step a (o, x)) /\
  Z.of_N (next_index s') = Z.of_N (next_index s) + creations [o] /\
  expected a o x /\
  (forall k, o = Create k true -> x = OId (Z.of_N (next_index s))).
Proof.
  intros HR Hint Hlt. destruct o as [k ok|id|id|id|id| | ]; cbn [step creations] in *.
  - destruct (create s k ok) as [s1 x1] eqn:Ec. intros [= <- <-].
    destruct (rel_create _ _ _ _ _ _ HR ltac:(lia) Ec) as (HR' & Hn & Hx).
    split; [done|]. split; [lia|]. destruct ok; subst x1; cbn; [|done].
    split; [|intros ? _; done].
    exists (Z.of_N (next_index s)). split; [done|]. split; [|lia].
    destruct (a !! Z.of_N (next_index s)) eqn:E; [|done].
    apply HR in E. lia.
  - destruct (destroy s id) as [s1 r] eqn:Ed. intros [= <- <-].
    destruct (rel_destroy _ _ _ _ _ HR Hint Ed) as (HR' & Hn & ->).
    split; [|split; [rewrite Hn; lia|split; [done|done]]].
    cbn. destruct (a !! id); [rewrite decide_True in HR' by done
      |rewrite decide_False in HR' by done]; done.
  - unfold destroy_bmi, get_bmi_instance, get_instance.
    pose proof (proj2 (proj2 HR) id Hint) as E3. rewrite E3.
    destruct (a !! id) as [[]|] eqn:Ea.
    + intros [= <- <-]. cbn. rewrite Ea. split; [done|]. split; [lia|done].
    + destruct (destroy s id) as [s1 r] eqn:Ed. intros [= <- <-].
      destruct (rel_destroy _ _ _ _ _ HR Hint Ed) as (HR' & Hn & ->).
      rewrite Ea in *. rewrite decide_True in HR' by done. cbn. rewrite Ea.
      split; [done|]. split; [rewrite Hn; lia|done].
    + intros [= <- <-]. cbn. rewrite Ea. split; [done|]. split; [lia|done].
  - intros [= <- <-]. cbn. split; [done|]. split; [lia|].
    split; [|done]. unfold get_instance. f_equal. by apply HR.
  - intros [= <- <-]. cbn. split; [done|]. split; [lia|].
    split; [|done]. unfold get_bmi_instance, get_instance.
    pose proof (proj2 (proj2 HR) id Hint) as ->. done.
  - intros [= <- <-]. cbn. split; [|split; [lia|done]].
    split; [|split]; cbn; intros *; rewrite ?lookup_empty; done.
  - unfold cleanup_bmi. destruct (has_bmi s); cbn; [done|].
    intros [= <- <-]. split; [done|]. split; [lia|done].
Qed.

Lemma creations_cons o ops : creations (o :: ops) = creations [o] + creations ops.
Proof. destruct o; cbn [creations]; lia. Qed.

Lemma run_rel ops s a s' tr :
  Rel s a -> Forall op_int ops ->
  Z.of_N (next_index s) + creations ops <= 2 ^ 31 ->
  run s ops = Ret (s', tr) ->
  Rel s' (fold_left alive_step tr a) /\ well_behaved a tr /\
  NoDup (ids_returned tr) /\ Forall (fun i => Z.of_N (next_index s) <= i) (ids_returned tr).
Proof.
  revert s a tr. induction ops as [|o ops IH]; intros s a tr HR Hint Hc.
  - intros [= <- <-]. cbn. split; [done|]. split; [done|]. split; constructor.
  - inversion Hint as [|? ? Ho Hos]; subst.
    rewrite creations_cons in Hc. pose proof (creations_nonneg ops).
    cbn [run]. destruct (step s o) as [[s1 x]| |] eqn:Es; cbn [obind]; try done.
    destruct (run s1 ops) as [[s2 tr2]| |] eqn:Er; cbn [obind]; try done.
    intros [= <- <-].
    destruct (rel_step _ _ _ _ _ HR Ho ltac:(lia) Es) as (HR1 & Hn & Hx & Hid).
    edestruct (IH s1 _ tr2 HR1 Hos ltac:(lia) Er) as (HR2 & Hw & Hnd & Hall).
    split; [done|]. split; [done|].
    pose proof (creations_nonneg [o]).
    assert (Hweak : Forall (fun i => Z.of_N (next_index s) <= i) (ids_returned tr2)).
    { eapply Forall_impl; [exact Hall|]. cbn. intros; lia. }
    destruct o as [k [] |id|id|id|id| | ]; cbn [ids_returned]; try done.
    rewrite (Hid k eq_refl). cbn [creations] in Hn. split.
    + constructor; [|done]. rewrite Forall_forall in Hall.
      intros Hin%Hall. lia.
    + constructor; [lia|done].
Qed.

Lemma registry_history ops s tr :
  Forall op_int ops -> creations ops <= 2 ^ 31 ->
  run reg_init ops = Ret (s, tr) ->
  well_behaved ∅ tr /\ NoDup (ids_returned tr).
Proof.
  intros H1 H2 H3.
  destruct (run_rel _ _ _ _ _ rel_init H1 ltac:(cbn; lia) H3) as (_ & ? & ? & _). done.
Qed.

Lemma destroy_next s id : next_index (destroy s id).1 = next_index s.
Proof. unfold destroy. case_match; done. Qed.
Lemma destroy_bmi_next s id : next_index (destroy_bmi s id).1 = next_index s.
Proof. unfold destroy_bmi. case_match; [apply destroy_next|done]. Qed.

Lemma has_bmi_spec s : has_bmi s = true <-> exists i, instances s !! i = Some Bmi.
Proof.
  unfold has_bmi. rewrite existsb_exists. split.
  - intros [[i k] [Hin Hb]]. apply elem_of_list_In, elem_of_map_to_list in Hin.
    apply bool_decide_eq_true in Hb. cbn in Hb. subst. eauto.
  - intros [i Hi]. exists (i, Bmi). split; [|done].
    by apply elem_of_list_In, elem_of_map_to_list.
Qed.

(** The only call that can fail to return is CleanupBMI with a live BMI
    instance. *)
Lemma registry_stuck ops1 s tr :
  Forall op_int ops1 -> creations ops1 <= 2 ^ 31 ->
  run reg_init ops1 = Ret (s, tr) ->
  forall o, step s o = UB <->
    (o = CleanupBMI /\ exists i, alive tr !! i = Some Bmi).
Proof.
  intros H1 H2 H3 o.
  destruct (run_rel _ _ _ _ _ rel_init H1 ltac:(cbn; lia) H3) as (HR & _).
  fold (alive tr) in HR.
  assert (Hn : Z.of_N (next_index s) <= 2 ^ 31).
  { clear HR. assert (forall ops s0 s1 tr0, run s0 ops = Ret (s1, tr0) ->
      Z.of_N (next_index s1) = Z.of_N (next_index s0) + creations ops) as Hcnt.
    { induction ops as [|o0 ops IH]; intros s0 s1 tr0; cbn [run].
      - intros [= <- <-]. cbn; lia.
      - destruct (step s0 o0) as [[s2 x]| |] eqn:Es; cbn [obind]; try done.
        destruct (run s2 ops) as [[s3 tr2]| |] eqn:Er; cbn [obind]; try done.
        intros [= <- <-]. rewrite creations_cons, (IH _ _ _ Er).
        destruct o0 as [k [] |id|id|id|id| | ]; cbn [step creations] in *.
        + revert Es. intros [= <- _]. cbn. lia.
        + revert Es. intros [= <- _]. cbn. lia.
        + pose proof (destroy_next s0 id) as Hd. destruct (destroy s0 id).
          cbn in Hd. injection Es as <- _. lia.
        + pose proof (destroy_bmi_next s0 id) as Hd. destruct (destroy_bmi s0 id).
          cbn in Hd. injection Es as <- _. lia.
        + revert Es. intros [= <- _]. lia.
        + revert Es. intros [= <- _]. lia.
        + revert Es. intros [= <- _]. cbn; lia.
        + revert Es. unfold cleanup_bmi. destruct (has_bmi s0); cbn; [done|].
          intros [= <- _]. lia. }
    rewrite (Hcnt _ _ _ _ H3). cbn. lia. }
  split.
  - destruct o as [k ok|id|id|id|id| | ]; cbn [step]; try done.
    + destruct (destroy s id); done.
    + destruct (destroy_bmi s id); done.
    + unfold cleanup_bmi. destruct (has_bmi s) eqn:Eb; cbn; [|done].
      intros _. split; [done|]. apply has_bmi_spec in Eb as [i Hi].
      exists (Z.of_N i). destruct HR as (HRa & HRb & HRc).
      pose proof (HRa _ _ Hi).
      rewrite <- HRc by (unfold is_int; lia).
      rewrite size_of_int_nonneg, N2Z.id by lia. done.
  - intros [-> [i Hi]]. cbn [step]. unfold cleanup_bmi.
    assert (has_bmi s = true) as ->; [|done].
    apply has_bmi_spec.
    destruct HR as (HRa & HRb & HRc). exists (size_of_int i).
    pose proof (HRb _ _ Hi).
    rewrite HRc; [done|unfold is_int; lia].
Qed.

(** ** Concurrent use *)

(** No two threads are about to delete the same object, and every object about
    to be deleted is still registered. *)
Definition CInv (s : creg) : Prop :=
  (forall t i, pending s !! t = Some i -> exists k, instances (cr_reg s) !! i = Some k) /\
  (forall t1 t2 i, pending s !! t1 = Some i -> pending s !! t2 = Some i -> t1 = t2) /\
  (forall i k, instances (cr_reg s) !! i = Some k -> (i < next_index (cr_reg s))%N).

(** A schedule in which no thread starts destroying an id that another thread
    is in the middle of destroying (a discipline of the callers). *)
Fixpoint exclusive (s : creg) (os : list cstep_op) : Prop :=
  match os with
  | [] => True
  | o :: os' =>
      (match o with
       | CFind t id => forall t' i, pending s !! t' = Some i -> t' <> t -> i <> size_of_int id
       | _ => True
       end) /\
      (forall s' x, cstep s o = Ret (s', x) -> exclusive s' os')
  end.

Lemma cstep_inv s o :
  CInv s ->
  (match o with
   | CFind t id => forall t' i, pending s !! t' = Some i -> t' <> t -> i <> size_of_int id
   | _ => True
   end) ->
  exists s' x, cstep s o = Ret (s', x) /\ CInv s'.
Proof.
  intros (I1 & I2 & I3) Hex. destruct o as [k|t id|t]; cbn [cstep].
  - unfold create. eexists _, _. split; [done|]. split; [|split]; cbn.
    + intros t i [k' Hk]%I1. destruct (decide (next_index (cr_reg s) = i)) as [->|Hne].
      * rewrite lookup_insert. eauto.
      * rewrite lookup_insert_ne by done. eauto.
    + exact I2.
    + intros i k'. destruct (decide (next_index (cr_reg s) = i)) as [->|Hne]; [lia|].
      rewrite lookup_insert_ne by done. intros E%I3. lia.
  - destruct (instances (cr_reg s) !! size_of_int id) eqn:E.
    + eexists _, _. split; [done|]. split; [|split]; cbn.
      * intros t' i. destruct (decide (t = t')) as [->|Hne].
        { rewrite lookup_insert. intros [= <-]. eauto. }
        rewrite lookup_insert_ne by done. apply I1.
      * intros t1 t2 i. destruct (decide (t = t1)) as [->|Hne1], (decide (t1 = t2)) as [->|Hne2];
          try done; rewrite ?lookup_insert; intros E1 E2.
        { rewrite lookup_insert_ne in E2 by done. injection E1 as <-.
          exfalso. by eapply Hex. }
        destruct (decide (t = t2)) as [->|Hne3].
        { rewrite lookup_insert in E2. rewrite lookup_insert_ne in E1 by done.
          injection E2 as <-. exfalso. by eapply Hex. }
        rewrite lookup_insert_ne in E1, E2 by done. by eapply I2.
      * exact I3.
    + eexists _, _. split; [done|]. split; [|split]; done.
  - destruct (pending s !! t) as [i|] eqn:Ep.
    + destruct (I1 _ _ Ep) as [k ->]. eexists _, _. split; [done|].
      split; [|split]; cbn.
      * intros t' i' [Hne E]%lookup_delete_Some.
        destruct (I1 _ _ E) as [k' Hk']. exists k'.
        rewrite lookup_delete_ne; [done|]. intros <-. apply Hne. by eapply I2.
      * intros t1 t2 i' [_ E1]%lookup_delete_Some [_ E2]%lookup_delete_Some. by eapply I2.
      * intros i' k' [_ E]%lookup_delete_Some. by eapply I3.
    + eexists _, _. split; [done|]. split; [|split]; done.
Qed.

Lemma cstep_id s o s' x :
  cstep s o = Ret (s', x) ->
  next_index (cr_reg s) = next_index (cr_reg s') /\ x = None \/
  (next_index (cr_reg s') = next_index (cr_reg s) + 1)%N /\
  x = Some (int_of_size (next_index (cr_reg s))).
Proof.
  destruct o as [k|t id|t]; cbn [cstep].
  - unfold create. intros [= <- <-]. right. done.
  - case_match; intros [= <- <-]; left; done.
  - repeat case_match; try done; intros [= <- <-]; left; done.
Qed.

Fixpoint ccreations (os : list cstep_op) : Z :=
  match os with
  | [] => 0
  | CCreate _ :: r => ccreations r + 1
  | _ :: r => ccreations r
  end.

Lemma ccreations_nonneg os : 0 <= ccreations os.
Proof. induction os as [|[] os IH]; cbn [ccreations]; lia. Qed.

Lemma crun_ids os s s' ids :
  Z.of_N (next_index (cr_reg s)) + ccreations os <= 2 ^ 31 ->
  crun s os = Ret (s', ids) ->
  NoDup ids /\ Forall (fun i => Z.of_N (next_index (cr_reg s)) <= i) ids.
Proof.
  revert s ids. induction os as [|o os IH]; intros s ids Hc; cbn [crun].
  - intros [= <- <-]. split; constructor.
  - destruct (cstep s o) as [[s1 x]| |] eqn:Es; cbn [obind]; try done.
    destruct (crun s1 os) as [[s2 ids2]| |] eqn:Er; cbn [obind]; try done.
    pose proof (ccreations_nonneg os).
    assert (Hcs : ccreations (o :: os) =
      ccreations os + match o with CCreate _ => 1 | _ => 0 end)
      by (destruct o; cbn [ccreations]; lia).
    destruct (cstep_id _ _ _ _ Es) as [[Hn ->]|[Hn ->]]; intros [= <- <-].
    + rewrite Hn in *. eapply IH; [|exact Er]. destruct o; lia.
    + assert (Ho : exists k, o = CCreate k).
      { destruct o as [k|t id|t]; [eauto| |]; cbn [cstep] in Es; repeat case_match;
          try done; simplify_eq/=; lia. }
      destruct Ho as [k ->].
      destruct (IH s1 ids2 ltac:(lia) Er) as [Hnd Hall].
      rewrite int_of_size_small by lia. split.
      * constructor; [|done]. rewrite Forall_forall in Hall. intros Hi%Hall. lia.
      * constructor; [lia|]. eapply Forall_impl; [exact Hall|]. cbn; intros; lia.
Qed.

Lemma crun_exclusive os s :
  CInv s -> exclusive s os -> exists s' ids, crun s os = Ret (s', ids).
Proof.
  revert s. induction os as [|o os IH]; intros s HI; cbn [exclusive crun]; [eauto|].
  intros [Ho Hrest]. destruct (cstep_inv s o HI Ho) as (s1 & x & Es & HI1).
  rewrite Es. cbn [obind]. destruct (IH s1 HI1 (Hrest _ _ Es)) as (s2 & ids & ->).
  cbn [obind]. eauto.
Qed.

Definition creg_init : creg := CReg reg_init ∅.
Lemma cinv_init : CInv creg_init.
Proof. repeat split; cbn; intros *; rewrite ?lookup_empty; done. Qed.
