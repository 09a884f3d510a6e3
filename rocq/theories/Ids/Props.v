(** Properties of the ids of IPhreeqc instances (C92) and of their maps under threads (C93). *)
From Coq Require Import ZArith Lia.
From stdpp Require Import prelude gmap.
From Verif.Base Require Import Result.
From Verif.Ids Require Import Model Spec Proofs NameProofs.
From Verif.Ids Require Threads.
Local Open Scope Z_scope.

(** ** C92 *)
(** Whatever the calls, as long as they leave the workers of modules alone, nothing undefined happens and
    all answers are those of the table. *)
Theorem ids_history ops : may_all table0 ops ->
  exists h tr t, run heap0 ops = Ret (h, tr) /\ tr.*1 = ops /\ history table0 tr t.
Proof.
  intros Y. destruct (run_history ops heap0 table0 agree0 Y) as (h & tr & t & E & H & _ & F). eauto 10.
Qed.
Print Assumptions ids_history.

(** Two answers are the same id exactly if they name the same instance, whatever was destroyed in between. *)
Theorem ids_name_one ops h tr k k' id id' : may_all table0 ops -> run heap0 ops = Ret (h, tr) ->
  named tr k id -> named tr k' id' -> id = id' <-> k = k'.
Proof.
  intros Y E N N'. destruct (run_history ops heap0 table0 agree0 Y) as (h2 & tr2 & t & E2 & H & _ & F).
  rewrite E in E2. injection E2 as <- <-. destruct (named_given _ _ H) as (g & Inj & G).
  destruct (G _ _ N) as [P Gk], (G _ _ N') as [P' Gk']. split; [congruence|].
  intros <-. assert (Z.to_N id = Z.to_N id') by (by eapply Inj). lia.
Qed.
Print Assumptions ids_name_one.

Lemma run_app ops1 : forall h h1 tr1 ops2, run h ops1 = Ret (h1, tr1) ->
  run h (ops1 ++ ops2) = obind (run h1 ops2) (fun '(h2, tr2) => Ret (h2, tr1 ++ tr2)).
Proof.
  induction ops1 as [|o r IH]; intros h h1 tr1 ops2; cbn.
  - intros [= <- <-]. by destruct (run h ops2) as [[]| |].
  - destruct (step h o) as [[h' x]| |]; cbn; try done. destruct (run h' r) as [[h2 tr2]| |] eqn:E; cbn; try done.
    intros [= <- <-]. rewrite (IH _ _ _ ops2 E). by destruct (run h2 ops2) as [[]| |].
Qed.
Lemma free_dead l a : a ∈ l -> forall h, h_live h !! a = None -> free_all l h = UB.
Proof.
  intros H. induction l as [|b l IH]; [by apply elem_of_nil in H|]. intros h D. cbn. unfold free.
  destruct (h_live h !! b) as [ph|] eqn:E; [|done]. cbn. apply elem_of_cons in H as [->|H]; [congruence|].
  apply IH; [done|]. cbn. destruct (decide (a = b)) as [->|]; [apply lookup_delete|]. by rewrite lookup_delete_ne.
Qed.
(** RM_GetIPhreeqcId gives an id that DestroyIPhreeqc takes, though the worker is not the user's. After that the
    module can be neither destroyed nor asked for the id again: the worker is deleted twice, or read after it was
    deleted. The same with DestroyIPhreeqcPhast, and for all modules after CleanupIPhreeqcPhast. *)
Theorem ids_worker_destroyed_refuted ops h tr m i id : may_all table0 ops -> run heap0 (ops ++ [MId m i]) = Ret (h, tr) ->
  last tr = Some (MId m i, OId id) -> 0 <= id ->
  run heap0 (ops ++ [IDestroy id; MDestroy m]) = UB /\ run heap0 (ops ++ [PDestroy id; MDestroy m]) = UB /\
  run heap0 (ops ++ [IDestroy id; MId m i]) = UB /\ run heap0 (ops ++ [PCleanup; MDestroy m]) = UB.
Proof.
  intros Y E La P. destruct (run_history ops heap0 table0 agree0 Y) as (h1 & tr1 & t & E1 & H & A & F).
  rewrite (run_app _ _ _ _ _ E1) in E. rewrite !(run_app _ _ _ _ _ E1).
  cbn [run] in E. destruct (step h1 (MId m i)) as [[h2 x]| |] eqn:S; [|done..]. cbn in E. injection E as <- <-.
  rewrite last_snoc in La. injection La as ->. pose proof A as [C M NM SZ O W]. pose proof (c_made _ _ C) as B.
  cbn [step] in S. destruct (h_mods h1 !! m) as [ws|] eqn:Em; [|injection S as <- <-; cbn in P; lia].
  destruct (decide (0 <= i)) as [Pi|]; [|injection S as <- <-; cbn in P; lia].
  destruct (ws !! Z.to_nat i) as [a|] eqn:Ea; [|injection S as <- <-; cbn in P; lia].
  assert (t_own t !! a = Some (Worker m (Z.to_nat i))) as Wa by (apply W; eauto).
  pose proof (c_keys _ _ C _ _ Wa) as La.
  destruct (decide _); [|done]. injection S as <- <-. rewrite id_of_id by lia.
  assert (a ∈ ws) as In by (apply elem_of_list_lookup; eauto).
  assert (get (h_ids h1) (Z.of_N a) = Some a /\ get (h_phast h1) (Z.of_N a) = Some a) as [G1 G2].
  { unfold get. rewrite size_nonneg, N2Z.id by lia. by rewrite (c_ids _ _ C), (c_phast _ _ C), Wa. }
  destruct (free_core h1 _ a _ C Wa) as (h2 & Fr & C2 & D1 & D2 & D3).
  assert (h_live h2 !! a = None) as Dead by (rewrite (c_live _ _ C2), decide_True; done).
  split; [|split; [|split]].
  - cbn [run step]. unfold destroy. rewrite decide_True by lia. rewrite G1, Fr. cbn [obind]. rewrite D3, Em.
    by rewrite (free_dead ws a In h2 Dead).
  - cbn [run step]. unfold destroy. rewrite decide_True by lia. rewrite G2, Fr. cbn [obind]. rewrite D3, Em.
    by rewrite (free_dead ws a In h2 Dead).
  - cbn [run step]. unfold destroy. rewrite decide_True by lia. rewrite G1, Fr. cbn [obind]. rewrite D3, Em.
    rewrite decide_True by done. rewrite Ea. rewrite decide_False; [done|]. rewrite Dead. by intros [? ?].
  - cbn [run step].
    assert ((map_to_list (h_phast h1)).*2 = (map_to_list (h_phast h1)).*1) as E2.
    { assert (forall l : list (N * N), (forall p, p ∈ l -> p.2 = p.1) -> l.*2 = l.*1) as Aux.
      { intros l. induction l as [|p l IH]; intros Hl; [done|]. cbn. f_equal; [apply Hl; left|]. apply IH.
        intros q Hq. apply Hl. by right. }
      apply Aux. intros [k v] Hin. apply elem_of_map_to_list in Hin. rewrite (c_phast _ _ C) in Hin.
      destruct (t_own t !! k) as [o|]; [|done]. destruct (phast_kind o); by simplify_eq/=. }
    destruct (free_all_core (map_to_list (h_phast h1)).*2 h1 _ C) as (h3 & -> & C3 & B1 & B2 & B3).
    { rewrite E2. apply NoDup_fst_map_to_list. }
    { intros b. rewrite E2. intros Hb. apply elem_of_list_fmap in Hb as ([k v] & -> & Hin). apply elem_of_map_to_list in Hin.
      rewrite (c_phast _ _ C) in Hin. cbn. destruct (t_own t !! k); [eauto|done]. }
    cbn [obind]. rewrite B3, Em. rewrite (free_dead ws a In h3); [done|]. rewrite (c_live _ _ C3).
    rewrite decide_True; [done|]. apply elem_of_list_fmap. exists (a, a). split; [done|]. apply elem_of_map_to_list.
    by rewrite (c_phast _ _ C), Wa.
Qed.
Print Assumptions ids_worker_destroyed_refuted.

(** The workers of a module that could not be made stay for good: they belong to no module. *)
Theorem ids_lost_workers_refuted nxyz threads cores h tr : 0 < nxyz -> 0 < cores ->
  workers_of nxyz threads cores <= 2 ^ 31 ->
  run heap0 [MCreate nxyz threads cores false] = Ret (h, tr) ->
  (forall m, h_mods h !! m = None) /\ tr = [(MCreate nxyz threads cores false, OId (-1))] /\
  forall id, 0 <= id < workers_of nxyz threads cores -> get (h_ids h) id = Some (Z.to_N id) /\ is_Some (h_live h !! Z.to_N id).
Proof.
  intros P1 P2 L E. destruct (step_does heap0 table0 (MCreate nxyz threads cores false) agree0) as (h1 & t1 & x & S & D & A).
  { split; [done|]. split; [done|]. pose proof (worker_count_pos nxyz threads cores P1 P2). cbn. lia. }
  cbn [run] in E. rewrite S in E. cbn in E. injection E as <- <-. inversion D as [| | | | | | | | | | | |? ? ? own n Ow| | | |]; subst.
  pose proof A as [C M NM SZ O W]. split; [|split; [done|]].
  - intros m. specialize (SZ m). cbn in SZ. destruct (h_mods h1 !! m); [|done]. by rewrite lookup_empty in SZ.
  - intros id R. assert (t_own (Table (t_made table0 + n) own (t_mods table0 + 1) (t_size table0)) !! Z.to_N id = Some Lost) as Eo.
    { cbn. rewrite Ow. rewrite decide_True; [done|]. unfold n; cbn. lia. }
    unfold get. rewrite size_nonneg by lia. rewrite (c_ids _ _ C), (c_live _ _ C), Eo. cbn. eauto.
Qed.
Print Assumptions ids_lost_workers_refuted.

Lemma run_creates (k : nat) : forall h, (h_made h + N.of_nat k < 2 ^ 64)%N -> h_ids h !! 0%N = Some 0%N ->
  exists h' tr, run h (replicate k ICreate) = Ret (h', tr) /\ h_made h' = (h_made h + N.of_nat k)%N /\ h_ids h' !! 0%N = Some 0%N.
Proof.
  induction k as [|k IH]; intros h L E.
  - exists h, []. split; [done|]. split; [lia|done].
  - cbn [replicate run step].
    assert (h_ids (make false h).1 !! 0%N = Some 0%N) as E1.
    { unfold make; cbn. unfold insert_new. destruct (h_ids h !! index (h_made h)) eqn:F; [done|].
      rewrite lookup_insert_ne; [done|]. intros Z. congruence. }
    destruct (IH (make false h).1) as (h2 & tr & R & D1 & D2); [cbn; lia|done|].
    destruct (make false h) as [h1 a] eqn:Mk. cbn [fst] in *. cbn [obind]. rewrite R. cbn [obind].
    assert (h_made h1 = h_made h + 1)%N as D3 by (by injection Mk as <- _).
    eexists _, _. split; [reflexivity|]. split; [rewrite D1, D3; lia|done].
Qed.
(** The id is an int: after 2^32 instances the next one is given id 0, and id 0 leads to the first. *)
Theorem ids_wrap_refuted : exists ops h tr, run heap0 (ICreate :: ops ++ [ICreate; IGet 0]) = Ret (h, tr) /\
  last (take (length tr - 1) tr) = Some (ICreate, OId 0) /\ last tr = Some (IGet 0, OPtr (Some 0%N)) /\ h_made h = (2 ^ 32 + 1)%N.
Proof.
  assert (exists k, k = (2 ^ 32 - 1)%N) as [k Ek] by eauto.
  destruct (run_creates (N.to_nat k) (make false heap0).1) as (h1 & tr1 & R & D1 & D2).
  { rewrite N2Nat.id. subst k. vm_compute. done. }
  { vm_compute. done. }
  rewrite N2Nat.id in D1. exists (replicate (N.to_nat k) ICreate).
  change (ICreate :: replicate (N.to_nat k) ICreate ++ [ICreate; IGet 0]) with
    ([ICreate] ++ (replicate (N.to_nat k) ICreate ++ [ICreate; IGet 0])).
  assert (run heap0 [ICreate] = Ret ((make false heap0).1, [(ICreate, OId 0)])) as R0 by reflexivity.
  rewrite (run_app _ _ _ _ _ R0), (run_app _ _ _ _ _ R). generalize (replicate (N.to_nat k) ICreate). intros _.
  assert (h_made h1 = 2 ^ 32)%N as Em. { rewrite D1. subst k. reflexivity. }
  clear R R0 D1 Ek. cbn [run step]. destruct (make false h1) as [h2 a] eqn:Mk. cbn [obind].
  assert (a = 2 ^ 32 /\ h_made h2 = 2 ^ 32 + 1)%N as [-> Em2].
  { unfold make in Mk. rewrite Em in Mk. injection Mk as <- <-. done. }
  assert (h_ids h2 !! 0%N = Some 0%N) as E2.
  { unfold make in Mk. injection Mk as <- _. cbn. unfold insert_new. destruct (h_ids h1 !! index (h_made h1)) eqn:F; [done|].
    rewrite lookup_insert_ne; [done|]. intros Z. rewrite Z in F. congruence. }
  assert (get (h_ids h2) 0 = Some 0%N) as G by exact E2.
  rewrite G. assert (id_of (2 ^ 32) = 0) as -> by reflexivity.
  exists h2, ([(ICreate, OId 0)] ++ tr1 ++ [(ICreate, OId 0); (IGet 0, OPtr (Some 0%N))]). split; [done|].
  assert (forall y z : op * out, [(ICreate, OId 0)] ++ tr1 ++ [y; z] = ((ICreate, OId 0) :: tr1 ++ [y]) ++ [z]) as Sn.
  { intros y z. cbn. by rewrite <- app_assoc. }
  rewrite Sn. split; [|split; [by rewrite last_snoc|done]].
  rewrite app_length. cbn [length]. replace (_ - 1)%nat with (length ((ICreate, OId 0) :: tr1 ++ [(ICreate, OId 0)])) by (cbn; lia).
  rewrite take_app. rewrite app_comm_cons, last_snoc. done.
Qed.
Print Assumptions ids_wrap_refuted.

(** Two instances of the user around a module of three workers: ids 0 and 4, workers 1 to 3 *)
Definition ids_ops : list op := [ICreate; MCreate 1 0 4 true; PCreate; MId 0 2; MDestroy 0; IGet 3; IDestroy 0; PGet 4].
Lemma does_id t m i t' x : does t (MId m i) t' x -> t' = t.
Proof. by inversion 1. Qed.
Lemma does_get t id t' x : does t (IGet id) t' x -> t' = t.
Proof. by inversion 1. Qed.
Example ids_case : may_all table0 ids_ops /\
  exists h tr, run heap0 ids_ops = Ret (h, tr) /\ tr.*2 = [OId 0; OId 0; OId 4; OId 3; OId 0; OPtr None; OIpq 0; OPtr (Some 4%N)] /\
    named tr (Work 0 2) 3 /\ named tr (Made 2) 4.
Proof.
  split.
  - unfold ids_ops. cbn [may_all].
    split; [done|]. intros t1 x1 D1. inversion D1; subst. cbn.
    split; [done|]. intros t2 x2 D2. inversion D2 as [| | | | | | | | | | |? ? ? own n Ow| | | | |]; subst. cbn in Ow. cbn.
    split; [done|]. intros t3 x3 D3. inversion D3; subst. cbn.
    split; [done|]. intros t4 x4 D4. apply does_id in D4 as ->.
    split; [done|]. intros t5 x5 D5. cbn in D5.
    inversion D5 as [| | | | | | | | | | | | |m k own' Sm Ow'|m Sm| |]; subst; cbn in *;
      [|by rewrite lookup_insert in Sm].
    split; [done|]. intros t6 x6 D6. apply does_get in D6 as ->.
    split.
    { split; [done|]. intros m i [_ Ha]. cbn in Ha. rewrite Ow', lookup_insert_ne, Ow in Ha by done. cbn in Ha.
      by rewrite lookup_insert in Ha. }
    intros t7 x7 D7. split; [done|]. done.
  - eexists _, _. split; [vm_compute; reflexivity|]. split; [done|]. split.
    + by apply (named_worker _ 3).
    + by apply (named_phast _ 2).
Qed.
Example ids_worker_destroyed_case : run heap0 [MCreate 1 1 1 true; IDestroy 0; MDestroy 0] = UB.
Proof. reflexivity. Qed.

(** ** C93 *)
Import Threads.
(** Any number of threads, any calls: the map of all instances is never touched by two threads at once with one
    of them changing it, and the locks never block all the threads. *)
Theorem instances_no_race ps ts : (forall p, p ∈ ps -> exists cs, program cs p) -> rtc turn (start ps) ts ->
  ~ race VInst ts /\ (finished ts \/ exists ts', turn ts ts').
Proof.
  intros P R. assert (inv guard_inst ts) as I.
  { eapply inv_reach; [|exact R]. apply inv_start. intros p Hp. destruct (P p Hp) as [cs Hc].
    eapply wf_program; [exact Hc|]. intros c q _ B. by eapply wf_body_inst. }
  split; [|by eapply inv_progress]. by eapply inv_no_race.
Qed.
Print Assumptions instances_no_race.

(** The map of the modules: if no module is destroyed meanwhile *)
Theorem modules_no_race ps ts :
  (forall p, p ∈ ps -> exists cs, program cs p /\ MDestroy ∉ cs /\ MCleanup ∉ cs) -> rtc turn (start ps) ts -> ~ race VMods ts.
Proof.
  intros P R. assert (inv guard_mods ts) as I.
  { eapply inv_reach; [|exact R]. apply inv_start. intros p Hp. destruct (P p Hp) as (cs & Hc & N1 & N2).
    eapply wf_program; [exact Hc|]. intros c q Hin B. eapply wf_body_mods; [exact B|..]; by intros ->. }
  by eapply inv_no_race.
Qed.
Print Assumptions modules_no_race.

(** The map of the IPhreeqcPhast instances: if a single thread makes, destroys or looks for them *)
Theorem phast_no_race ps ts k : (forall p, p ∈ ps -> exists cs, program cs p) ->
  (forall i p, ps !! i = Some p -> i <> k -> exists cs, program cs p /\ Forall (fun c => c = ICreate \/ c = IGet \/ c = MGet) cs) ->
  rtc turn (start ps) ts -> ~ race VPhast ts.
Proof.
  intros P Q R (i & j & h & h' & a & b & p & q & N & Ei & Ej & -> & B).
  assert (forall i h a p, ts !! i = Some (h, a :: p) -> touches VPhast a -> i = k) as Only.
  { clear - Q R. intros i h a p E T. destruct (decide (i = k)) as [|N]; [done|]. exfalso.
    pose proof (reach_length _ _ R) as Le. assert (is_Some (ps !! i)) as [p0 E0].
    { apply lookup_lt_is_Some. apply lookup_lt_Some in E. rewrite Le in E. unfold start in E. by rewrite fmap_length in E. }
    destruct (Q _ _ E0 N) as (cs & Pc & F).
    assert (Forall (fun a => ~ touches VPhast a) p0) as F0.
    { clear - Pc F. induction Pc as [|c cs p q B Pc IH]; [done|]. apply Forall_cons in F as [Hc F].
      apply Forall_app. split; [|by apply IH].
      destruct B; try (by destruct Hc as [?|[?|?]]); repeat constructor; by intros [?|?]. }
    assert (Forall (fun a => ~ touches VPhast a) (a :: p)) as F1.
    { eapply (reach_suffix _ _ _ R i [] p0); [|exact E|exact F0]. unfold start. by rewrite list_lookup_fmap, E0. }
    by inversion F1. }
  apply N. rewrite (Only _ _ _ _ Ei); [|by right]. by rewrite (Only _ _ _ _ Ej).
Qed.
Print Assumptions phast_no_race.

Ltac go i := eapply rtc_l; [eapply (turn_act _ i); [reflexivity|]; constructor;
  try (apply (bool_decide_unpack _); vm_compute; exact Logic.I)|]; cbn [insert list_insert].
(** Two threads that each make a module: both change the map of the IPhreeqcPhast instances, and no lock is
    taken for that. *)
Theorem modules_made_race_refuted n m : exists ts,
  program [MCreate] (enter_m ++ times (S n) make_p) /\ program [MCreate] (enter_m ++ times (S m) make_p) /\
  rtc turn (start [enter_m ++ times (S n) make_p; enter_m ++ times (S m) make_p]) ts /\ race VPhast ts.
Proof.
  eexists. split; [rewrite <- (app_nil_r (_ ++ _)); repeat constructor|].
  split; [rewrite <- (app_nil_r (_ ++ _)); repeat constructor|]. split.
  - unfold start, times, enter_m, make_p, make_i. cbn [replicate concat app fmap list_fmap].
    do 6 go 0%nat. do 6 go 1%nat. apply rtc_refl.
  - do 8 eexists. split; [|split; [|split; [|split; [reflexivity|]]]]; [|exact (eq_refl : _ !! 0%nat = _)|exact (eq_refl : _ !! 1%nat = _)|right; reflexivity].
    done.
Qed.
Print Assumptions modules_made_race_refuted.
(** CreateIPhreeqcPhast changes the map in critical(IPhreeqcPhastLib), but IPhreeqcPhastLib::GetInstance reads it in
    critical(IPhreeqcLib). *)
Theorem phast_get_race_refuted : exists p q ts, body PCreate p /\ body PGet q /\ rtc turn (start [p; q]) ts /\ race VPhast ts.
Proof.
  do 3 eexists. split; [apply b_pcreate|]. split; [apply b_pget|]. split.
  - unfold start, find_p, make_p, make_i. cbn [app fmap list_fmap]. do 4 go 0%nat. go 1%nat. apply rtc_refl.
  - do 8 eexists. split; [|split; [|split; [|split; [reflexivity|]]]]; [|exact (eq_refl : _ !! 0%nat = _)|exact (eq_refl : _ !! 1%nat = _)|left; reflexivity].
    done.
Qed.
Print Assumptions phast_get_race_refuted.
(** PhreeqcRM::Destroy searches the map of the modules without the lock, while another thread makes a module. *)
Theorem module_destroy_race_refuted n m : exists p q ts, p = enter_m ++ times n make_p /\ q = [Reads VMods] ++ free_m m /\
  body MCreate p /\ body MDestroy q /\ rtc turn (start [p; q]) ts /\ race VMods ts.
Proof.
  do 3 eexists. split; [reflexivity|]. split; [reflexivity|]. split; [apply b_mcreate|]. split; [apply b_mdestroy|]. split.
  - unfold start, enter_m. cbn [app fmap list_fmap]. go 0%nat. apply rtc_refl.
  - do 8 eexists. split; [|split; [|split; [|split; [reflexivity|]]]]; [|exact (eq_refl : _ !! 0%nat = _)|exact (eq_refl : _ !! 1%nat = _)|left; reflexivity].
    done.
Qed.
Print Assumptions module_destroy_race_refuted.
(** Three threads: one makes a module, one makes and destroys an instance, one looks for one *)
Example threads_case : forall p, p ∈ [enter_m ++ times 3 make_p; make_i ++ find_i ++ free_i; find_i] -> exists cs, program cs p.
Proof.
  intros p Hp. rewrite !elem_of_cons, elem_of_nil in Hp. destruct Hp as [->|[->|[->|[]]]].
  - exists [MCreate]. rewrite <- (app_nil_r (_ ++ _)). repeat constructor.
  - exists [ICreate; IDestroy]. constructor; [constructor|]. rewrite <- (app_nil_r (_ ++ _)). constructor; [apply b_idestroy_i|constructor].
  - exists [IGet]. rewrite <- (app_nil_r find_i). repeat constructor.
Qed.
(** The same, with the module made by the first thread only, is covered by [phast_no_race] *)
Example phast_case : forall i p, [enter_m ++ times 3 make_p; make_i ++ find_i] !! i = Some p -> i <> 0%nat ->
  exists cs, program cs p /\ Forall (fun c => c = ICreate \/ c = IGet \/ c = MGet) cs.
Proof.
  intros [|[|i]] p E N; [done| |done]. injection E as <-. exists [ICreate; IGet]. split.
  - apply (program_cons ICreate [IGet] make_i find_i); [constructor|]. rewrite <- (app_nil_r find_i). repeat constructor.
  - apply Forall_cons. split; [by left|]. apply Forall_cons. split; [by right; left|done].
Qed.
