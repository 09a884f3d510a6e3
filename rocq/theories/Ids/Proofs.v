(** The heap of the model agrees with the table of the specification. *)
From Coq Require Import ZArith Lia.
From stdpp Require Import prelude gmap.
From Verif.Base Require Import Result.
From Verif.Registry Require Model.
From Verif.Ids Require Import Model Spec.
Local Open Scope Z_scope.

Lemma index_id a : (a < 2 ^ 64)%N -> index a = a.
Proof. intros H. apply N.mod_small, H. Qed.
Lemma id_of_id a : (a < 2 ^ 31)%N -> id_of a = Z.of_N a.
Proof.
  intros H. unfold id_of. rewrite index_id by lia. unfold Registry.Model.int_of_size.
  rewrite Z.mod_small by lia. lia.
Qed.
Lemma size_nonneg id : 0 <= id < 2 ^ 64 -> Registry.Model.size_of_int id = Z.to_N id.
Proof. intros H. unfold Registry.Model.size_of_int. by rewrite Z.mod_small. Qed.
Lemma size_neg id : - 2 ^ 31 <= id < 0 -> (2 ^ 31 <= Registry.Model.size_of_int id)%N.
Proof.
  intros H. unfold Registry.Model.size_of_int.
  rewrite <- (Z_mod_plus_full id 1 (2 ^ 64)), Z.mod_small; lia.
Qed.

(** The maps of the heap against who owns what *)
Record core (h : heap) (f : N -> option owner) : Prop := {
  c_made : (h_made h <= 2 ^ 31)%N;
  c_keys : forall a o, f a = Some o -> (a < h_made h)%N;
  c_live : forall a, h_live h !! a = phast_kind <$> f a;
  c_ids : forall a, h_ids h !! a = (fun _ => a) <$> f a;
  c_phast : forall a, h_phast h !! a = match f a with Some o => if phast_kind o then Some a else None | None => None end }.
Lemma core_ext h f g : (forall a, f a = g a) -> core h f -> core h g.
Proof.
  intros E [H1 H2 H3 H4 H5]. split; [done|..]; intros a; rewrite <- ?E; [|done..].
  apply H2.
Qed.
Lemma core_mods h f k n ms : k = h_made h -> core h f -> core (Heap k (h_ids h) (h_phast h) (h_live h) n ms) f.
Proof. by intros -> [? ? ? ? ?]. Qed.

Lemma free_core h f a o : core h f -> f a = Some o ->
  exists h', free a h = Ret h' /\ core h' (fun b => if decide (b = a) then None else f b) /\
    h_made h' = h_made h /\ h_nmods h' = h_nmods h /\ h_mods h' = h_mods h.
Proof.
  intros C Fa. pose proof C as [H1 H2 H3 H4 H5]. pose proof (H2 _ _ Fa) as Lt.
  unfold free. rewrite (H3 a), Fa; cbn. eexists. split; [done|]. split; [|done].
  rewrite index_id by lia. split; cbn; [done|..].
  - intros b o'. destruct (decide (b = a)); [done|]. apply H2.
  - intros b. destruct (decide (b = a)) as [->|n]; [by rewrite lookup_delete|]. by rewrite lookup_delete_ne.
  - intros b. destruct (decide (b = a)) as [->|n]; [by rewrite lookup_delete|]. by rewrite lookup_delete_ne.
  - intros b. destruct (phast_kind o) eqn:K; destruct (decide (b = a)) as [->|n].
    + by rewrite lookup_delete.
    + by rewrite lookup_delete_ne.
    + by rewrite H5, Fa, K.
    + apply H5.
Qed.
Lemma free_all_core l : forall h f, core h f -> NoDup l -> (forall a, a ∈ l -> is_Some (f a)) ->
  exists h', free_all l h = Ret h' /\ core h' (fun b => if decide (b ∈ l) then None else f b) /\
    h_made h' = h_made h /\ h_nmods h' = h_nmods h /\ h_mods h' = h_mods h.
Proof.
  induction l as [|a l IH]; intros h f C ND L; cbn [free_all].
  - exists h. split; [done|]. split; [|done]. eapply core_ext; [|exact C]. intros b. destruct (decide _) as [e|]; [|done].
    by apply elem_of_nil in e.
  - apply NoDup_cons in ND as [Na ND]. destruct (L a) as [o Fa]; [left|].
    destruct (free_core _ _ _ _ C Fa) as (h1 & -> & C1 & E1 & E2 & E3). cbn [obind].
    destruct (IH _ _ C1 ND) as (h2 & E & C2 & D1 & D2 & D3).
    { intros b Hb. rewrite decide_False by (by intros ->). apply L. by right. }
    exists h2. split; [done|]. split; [|by rewrite D1, D2, D3]. eapply core_ext; [|exact C2].
    intros b; cbn. destruct (decide (b ∈ l)) as [i|i]; destruct (decide (b = a)) as [->|n];
      destruct (decide (_ ∈ a :: _)) as [j|j]; try done; exfalso.
    + apply j. by right.
    + apply j. left.
    + apply elem_of_cons in j. naive_solver.
Qed.
Lemma make_core h f ph o : core h f -> (h_made h < 2 ^ 31)%N -> phast_kind o = ph ->
  core (make ph h).1 (fun a => if decide (a = h_made h) then Some o else f a) /\ (make ph h).2 = h_made h /\
  h_made (make ph h).1 = (h_made h + 1)%N /\ h_nmods (make ph h).1 = h_nmods h /\ h_mods (make ph h).1 = h_mods h.
Proof.
  intros [H1 H2 H3 H4 H5] Lt K. unfold make; cbn. split; [|done].
  assert (f (h_made h) = None) as Fn.
  { destruct (f (h_made h)) as [o'|] eqn:E; [|done]. apply H2 in E. lia. }
  rewrite index_id by lia. unfold insert_new. rewrite (H4 (h_made h)), (H5 (h_made h)), Fn; cbn.
  split; cbn; [lia|..].
  - intros a o'. destruct (decide _) as [->|]; [lia|]. intros E. apply H2 in E. lia.
  - intros a. destruct (decide (a = h_made h)) as [->|]; [by rewrite lookup_insert; cbn; rewrite K|]. by rewrite lookup_insert_ne.
  - intros a. destruct (decide (a = h_made h)) as [->|]; [by rewrite lookup_insert|]. by rewrite lookup_insert_ne.
  - intros a. destruct ph; destruct (decide (a = h_made h)) as [->|]; rewrite ?K.
    + by rewrite lookup_insert.
    + by rewrite lookup_insert_ne.
    + by rewrite H5, Fn.
    + apply H5.
Qed.
Lemma make_workers_core n : forall h f (o : nat -> owner), core h f -> (h_made h + N.of_nat n <= 2 ^ 31)%N ->
  (forall i, phast_kind (o i) = true) ->
  let r := make_workers n h in
  core r.1 (fun a => if decide (h_made h <= a < h_made h + N.of_nat n)%N then Some (o (N.to_nat (a - h_made h))) else f a) /\
  (forall i, r.2 !! i = if decide (i < n)%nat then Some (h_made h + N.of_nat i)%N else None) /\
  h_made r.1 = (h_made h + N.of_nat n)%N /\ h_nmods r.1 = h_nmods h /\ h_mods r.1 = h_mods h.
Proof.
  induction n as [|n IH]; intros h f o C Le K; cbn [make_workers].
  - cbn. split; [|split; [|by rewrite N.add_0_r]].
    + eapply core_ext; [|exact C]. intros a. cbn. destruct (decide _); [lia|done].
    + intros i. destruct (decide _); [lia|]. by destruct i.
  - destruct (make_core h f true (o O) C) as (C1 & E1 & E2 & E3 & E4); [lia|done|].
    destruct (make true h) as [h1 a]; cbn in C1, E1, E2, E3, E4. subst a.
    destruct (IH h1 _ (fun i => o (S i)) C1) as (C2 & L2 & D1 & D2 & D3); [lia|done|].
    destruct (make_workers n h1) as [h2 l]; cbn in C2, L2, D1, D2, D3 |- *.
    split; [|split; [|rewrite D1, D2, D3, E2, E3, E4; split; [lia|done]]].
    + eapply core_ext; [|exact C2]. intros a; cbn. rewrite E2.
      destruct (decide (h_made h + 1 <= a < _)%N) as [i|i].
      * rewrite decide_True by lia. do 2 f_equal. lia.
      * destruct (decide (a = h_made h)) as [->|].
        { rewrite decide_True by lia. do 2 f_equal. lia. }
        by rewrite decide_False by lia.
    + intros [|i]; cbn; [by rewrite N.add_0_r|]. rewrite L2, E2.
      destruct (decide (i < n)%nat).
      * rewrite decide_True by lia. f_equal. lia.
      * by rewrite decide_False by lia.
Qed.

Record agree (h : heap) (t : table) : Prop := {
  a_core : core h (fun a => t_own t !! a);
  a_made : h_made h = t_made t;
  a_nmods : h_nmods h = t_mods t;
  a_size : forall m, t_size t !! m = length <$> h_mods h !! m;
  a_old : forall m, is_Some (h_mods h !! m) -> (m < h_nmods h)%N;
  a_work : forall m i a, t_own t !! a = Some (Worker m i) <-> exists ws, h_mods h !! m = Some ws /\ ws !! i = Some a }.
Lemma agree0 : agree heap0 table0.
Proof.
  split; cbn; [split; cbn; try done; intros a; rewrite ?lookup_empty; try done|..].
  - done.
  - done.
  - intros m. by rewrite !lookup_empty.
  - intros m [? E]. by rewrite lookup_empty in E.
  - intros m i a. rewrite lookup_empty. split; [done|]. intros (ws & E & _). by rewrite lookup_empty in E.
Qed.

Lemma get_ids h t id : agree h t -> is_int id ->
  (exists o, has t id o /\ get (h_ids h) id = Some (Z.to_N id) /\
     get (h_phast h) id = if phast_kind o then Some (Z.to_N id) else None) \/
  ((forall o, ~ has t id o) /\ get (h_ids h) id = None /\ get (h_phast h) id = None).
Proof.
  intros A I. unfold is_int in I. pose proof (a_core _ _ A) as C. unfold get, has.
  destruct (decide (0 <= id)) as [p|n].
  - rewrite size_nonneg by lia. rewrite (c_ids _ _ C), (c_phast _ _ C).
    destruct (t_own t !! Z.to_N id) as [o|] eqn:E; [left; by exists o|right]. split; [|done]. by intros o [_ ?].
  - right. pose proof (size_neg id) as L. rewrite (c_ids _ _ C), (c_phast _ _ C).
    destruct (t_own t !! Registry.Model.size_of_int id) as [o|] eqn:E.
    + apply (c_keys _ _ C) in E. pose proof (c_made _ _ C). lia.
    + split; [|done]. intros o [? _]. lia.
Qed.
(** What is not a worker goes *)
Lemma agree_free h t a o : agree h t -> t_own t !! a = Some o -> (forall m i, o <> Worker m i) ->
  exists h', free a h = Ret h' /\ agree h' (Table (t_made t) (delete a (t_own t)) (t_mods t) (t_size t)).
Proof.
  intros A E N. pose proof A as [C M NM S O W].
  destruct (free_core h _ a o C E) as (h' & F & C' & E1 & E2 & E3).
  exists h'. split; [done|]. split; cbn; rewrite ?E1, ?E2, ?E3; try done.
  - eapply core_ext; [|exact C']. intros b; cbn. destruct (decide (b = a)) as [->|]; [by rewrite lookup_delete|].
    by rewrite lookup_delete_ne.
  - intros m i b. rewrite <- W. destruct (decide (b = a)) as [->|n].
    + rewrite lookup_delete, E. split; [done|]. intros [= ->]. by destruct (N m i).
    + by rewrite lookup_delete_ne.
Qed.

Lemma own_exists (n : nat) (base : N) (o : nat -> owner) (own : gmap N owner) :
  exists own' : gmap N owner, forall a, own' !! a = if decide (base <= a < base + N.of_nat n)%N then Some (o (N.to_nat (a - base))) else own !! a.
Proof.
  induction n as [|n [own' IH]].
  - exists own. intros a. by rewrite decide_False by lia.
  - exists (<[(base + N.of_nat n)%N := o n]> own'). intros a. destruct (decide (a = base + N.of_nat n)%N) as [->|ne].
    + rewrite lookup_insert, decide_True by lia. do 2 f_equal. lia.
    + rewrite lookup_insert_ne by done. rewrite IH. destruct (decide _) as [i|i].
      * by rewrite decide_True by lia.
      * by rewrite decide_False by lia.
Qed.

Lemma worker_count nxyz threads cores : thread_count nxyz threads cores + 2 = workers_of nxyz threads cores.
Proof.
  unfold thread_count, workers_of. destruct (decide (0 < threads)).
  - destruct (decide (threads < nxyz)); lia.
  - destruct (decide (cores < nxyz)); lia.
Qed.
Lemma worker_count_pos nxyz threads cores : 0 < nxyz -> 0 < cores -> 0 < workers_of nxyz threads cores.
Proof. intros. unfold workers_of. destruct (decide _); lia. Qed.

Lemma step_does h t o : agree h t -> may t o -> exists h' t' x, step h o = Ret (h', x) /\ does t o t' x /\ agree h' t'.
Proof.
  intros A Y. pose proof A as [C M NM S O W]. pose proof (c_made _ _ C) as B. destruct o; cbn [may] in Y.
  - destruct (make_core h _ false User C) as (C1 & E1 & E2 & E3 & E4); [by rewrite M|done|].
    cbn [step]. destruct (make false h) as [h1 a]; cbn in C1, E1, E2, E3, E4. subst a.
    do 3 eexists. split; [reflexivity|]. rewrite id_of_id by lia. rewrite M. split; [constructor|].
    split; cbn; rewrite ?E2, ?E3, ?E4; try done.
    + eapply core_ext; [|exact C1]. intros a; cbn. rewrite M. destruct (decide _) as [->|]; [by rewrite lookup_insert|].
      by rewrite lookup_insert_ne.
    + by rewrite M.
    + intros m i a. rewrite <- W. destruct (decide (a = t_made t)) as [->|n].
      * rewrite lookup_insert. split; [done|]. intros E. apply (c_keys _ _ C) in E. lia.
      * by rewrite lookup_insert_ne.
  - destruct (make_core h _ true UserPhast C) as (C1 & E1 & E2 & E3 & E4); [by rewrite M|done|].
    cbn [step]. destruct (make true h) as [h1 a]; cbn in C1, E1, E2, E3, E4. subst a.
    do 3 eexists. split; [reflexivity|]. rewrite id_of_id by lia. rewrite M. split; [constructor|].
    split; cbn; rewrite ?E2, ?E3, ?E4; try done.
    + eapply core_ext; [|exact C1]. intros a; cbn. rewrite M. destruct (decide _) as [->|]; [by rewrite lookup_insert|].
      by rewrite lookup_insert_ne.
    + by rewrite M.
    + intros m i a. rewrite <- W. destruct (decide (a = t_made t)) as [->|n].
      * rewrite lookup_insert. split; [done|]. intros E. apply (c_keys _ _ C) in E. lia.
      * by rewrite lookup_insert_ne.
  - destruct Y as [I Nw]. cbn [step]. unfold destroy.
    destruct (get_ids h t id A I) as [(o & Ho & G1 & G2)|(No & G1 & G2)]; rewrite G1.
    + rewrite decide_True by apply Ho.
      destruct (agree_free h t _ o A (proj2 Ho)) as (h' & -> & A'); [intros m i ->; by apply (Nw m i)|].
      cbn [obind]. do 3 eexists. split; [reflexivity|]. split; [by econstructor|done].
    + do 3 eexists. split; [by destruct (decide _)|]. split; [by constructor|done].
  - destruct Y as [I Nw]. cbn [step]. unfold destroy.
    destruct (get_ids h t id A I) as [(o & Ho & G1 & G2)|(No & G1 & G2)]; rewrite G2.
    + rewrite decide_True by apply Ho. destruct (phast_kind o) eqn:K.
      * destruct (agree_free h t _ o A (proj2 Ho)) as (h' & -> & A'); [intros m i ->; by apply (Nw m i)|].
        cbn [obind]. do 3 eexists. split; [reflexivity|]. split; [by econstructor|done].
      * do 3 eexists. split; [reflexivity|]. split; [|done]. constructor. intros o' Ho'.
        destruct Ho as [_ E], Ho' as [_ E']. rewrite E in E'. by simplify_eq.
    + do 3 eexists. split; [by destruct (decide _)|]. split; [|done]. constructor. intros o' Ho'. by destruct (No o').
  - cbn [step]. destruct (get_ids h t id A Y) as [(o & Ho & G1 & G2)|(No & G1 & G2)]; rewrite G1.
    + do 3 eexists. split; [reflexivity|]. split; [by econstructor|done].
    + do 3 eexists. split; [reflexivity|]. split; [by constructor|done].
  - cbn [step]. destruct (get_ids h t id A Y) as [(o & Ho & G1 & G2)|(No & G1 & G2)]; rewrite G2.
    + destruct (phast_kind o) eqn:K.
      * do 3 eexists. split; [reflexivity|]. split; [by econstructor|done].
      * do 3 eexists. split; [reflexivity|]. split; [|done]. constructor. intros o' Ho'.
        destruct Ho as [_ E], Ho' as [_ E']. rewrite E in E'. by simplify_eq.
    + do 3 eexists. split; [reflexivity|]. split; [|done]. constructor. intros o' Ho'. by destruct (No o').
  - cbn [step].
    assert ((map_to_list (h_phast h)).*2 = (map_to_list (h_phast h)).*1) as E2.
    { assert (forall l : list (N * N), (forall p, p ∈ l -> p.2 = p.1) -> l.*2 = l.*1) as Aux.
      { intros l. induction l as [|p l IH]; intros Hl; [done|]. cbn. f_equal; [apply Hl; left|]. apply IH.
        intros q Hq. apply Hl. by right. }
      apply Aux. intros [k v] Hin. apply elem_of_map_to_list in Hin. rewrite (c_phast _ _ C) in Hin.
      destruct (t_own t !! k) as [o|]; [|done]. destruct (phast_kind o); by simplify_eq/=. }
    assert (forall a, a ∈ (map_to_list (h_phast h)).*2 <-> exists o, t_own t !! a = Some o /\ phast_kind o = true) as El.
    { intros a. rewrite E2, elem_of_list_fmap. split.
      - intros ([k v] & -> & Hin). apply elem_of_map_to_list in Hin. rewrite (c_phast _ _ C) in Hin. cbn.
        destruct (t_own t !! k) as [o|]; [|done]. exists o. by destruct (phast_kind o).
      - intros (o & E & K). exists (a, a). split; [done|]. apply elem_of_map_to_list. rewrite (c_phast _ _ C). by rewrite E, K. }
    destruct (free_all_core (map_to_list (h_phast h)).*2 h _ C) as (h' & -> & C' & D1 & D2 & D3).
    { rewrite E2. apply NoDup_fst_map_to_list. }
    { intros a Ha. apply El in Ha as (o & -> & _). eauto. }
    cbn [obind]. do 3 eexists. split; [reflexivity|]. split; [constructor|].
    split; cbn; rewrite ?D1, ?D2, ?D3; try done.
    + eapply core_ext; [|exact C']. intros a; cbn. destruct (decide (a ∈ _)) as [i|i].
      * apply El in i as (o & E & K). symmetry. apply map_filter_lookup_None. right. intros x Ex; cbn.
        rewrite E in Ex. simplify_eq. by rewrite K.
      * destruct (t_own t !! a) as [o|] eqn:E.
        { symmetry. apply map_filter_lookup_Some. split; [done|]. cbn. destruct (phast_kind o) eqn:K; [|done].
          destruct i. apply El. eauto. }
        { symmetry. apply map_filter_lookup_None. by left. }
    + intros m i a. rewrite <- W. split; [|by intros E; apply Y in E].
      intros E. apply map_filter_lookup_Some in E as [E K]. done.
  - destruct Y as (P1 & P2 & Le). pose proof (worker_count_pos nxyz threads cores P1 P2) as Pos.
    cbn [step]. rewrite worker_count. cbv zeta.
    set (n := Z.to_nat (workers_of nxyz threads cores)) in *.
    assert (Z.to_N (workers_of nxyz threads cores) = N.of_nat n) as En by (unfold n; lia). rewrite En in Le.
    assert (exists k, n = Datatypes.S k) as [k Ek] by (exists (pred n); lia).
    assert (forall (X : Type) (x y : X), match n with O => x | Datatypes.S _ => y end = y) as Mn by (intros; by rewrite Ek).
    rewrite Mn. clear Mn k Ek.
    destruct ok.
    + destruct (make_workers_core n h _ (fun i => Worker (t_mods t) i) C) as (C1 & L1 & D1 & D2 & D3); [by rewrite M|done|].
      destruct (make_workers n h) as [h1 l]; cbn in C1, L1, D1, D2, D3.
      destruct (own_exists n (t_made t) (fun i => Worker (t_mods t) i) (t_own t)) as [own Ow].
      assert (length l = n) as Ll.
      { apply (anti_symm le).
        - apply lookup_ge_None. rewrite L1. by rewrite decide_False by lia.
        - destruct n as [|k]; [lia|]. apply lookup_lt_is_Some. rewrite L1. rewrite decide_True by lia. eauto. }
      assert (h_mods h !! t_mods t = None) as Fm.
      { destruct (h_mods h !! t_mods t) eqn:E; [|done]. assert (t_mods t < h_nmods h)%N by (apply O; eauto). lia. }
      do 3 eexists. split; [reflexivity|]. rewrite D2, NM. split.
      { apply (do_module t nxyz threads cores own). intros a. rewrite En. apply Ow. }
      split; cbn; rewrite ?D1, ?D2, ?D3.
      * apply core_mods; [done|]. eapply core_ext; [|exact C1]. intros a; cbn. by rewrite Ow, M.
      * by rewrite M, En.
      * done.
      * intros m. destruct (decide (m = t_mods t)) as [->|ne].
        { rewrite !lookup_insert. cbn. rewrite Ll. f_equal. lia. }
        rewrite !lookup_insert_ne by done. apply S.
      * intros m. destruct (decide (m = t_mods t)) as [->|ne]; [intros _; lia|].
        rewrite lookup_insert_ne by done. intros Hm. apply O in Hm. lia.
      * intros m i a. rewrite Ow. destruct (decide (_ <= a < _)%N) as [r|r].
        { destruct (decide (m = t_mods t)) as [->|ne].
          - rewrite lookup_insert. split.
            + intros [= <-]. exists l. split; [done|]. rewrite L1. rewrite decide_True by lia. f_equal. lia.
            + intros (ws & [= <-] & E). rewrite L1 in E. destruct (decide _); [|done]. simplify_eq. do 2 f_equal. lia.
          - rewrite lookup_insert_ne by done. split; [intros [= ]; congruence|].
            intros Hw. apply W in Hw. apply (c_keys _ _ C) in Hw. lia. }
        { rewrite W. destruct (decide (m = t_mods t)) as [->|ne].
          - rewrite lookup_insert, Fm. split; [by intros (? & ? & _)|].
            intros (ws & [= <-] & E). rewrite L1 in E. destruct (decide _); [|done]. simplify_eq. lia.
          - by rewrite lookup_insert_ne. }
    + destruct (make_workers_core n h _ (fun i => Lost) C) as (C1 & L1 & D1 & D2 & D3); [by rewrite M|done|].
      destruct (make_workers n h) as [h1 l]; cbn in C1, L1, D1, D2, D3.
      destruct (own_exists n (t_made t) (fun i => Lost) (t_own t)) as [own Ow].
      do 3 eexists. split; [reflexivity|]. split.
      { apply (do_module_no t nxyz threads cores own). intros a. rewrite En. apply Ow. }
      split; cbn; rewrite ?D1, ?D2, ?D3.
      * apply core_mods; [done|]. eapply core_ext; [|exact C1]. intros a; cbn. by rewrite Ow, M.
      * by rewrite M, En.
      * by rewrite NM.
      * done.
      * intros m Hm. apply O in Hm. lia.
      * intros m i a. rewrite <- W, Ow. destruct (decide _) as [r|r]; [|done].
        split; [done|]. intros E. apply (c_keys _ _ C) in E. lia.
  - cbn [step]. destruct (h_mods h !! m) as [ws|] eqn:E.
    + assert (forall a, a ∈ ws <-> exists i, t_own t !! a = Some (Worker m i)) as El.
      { intros a. rewrite elem_of_list_lookup. split; intros [i Hi]; exists i; [apply W; eauto|].
        apply W in Hi as (ws' & E' & Hi). by simplify_eq. }
      destruct (free_all_core ws h _ C) as (h' & -> & C' & D1 & D2 & D3).
      { apply NoDup_alt. intros i j a Hi Hj.
        assert (t_own t !! a = Some (Worker m i)) as Wi by (apply W; eauto).
        assert (t_own t !! a = Some (Worker m j)) as Wj by (apply W; eauto). by simplify_eq. }
      { intros a Ha. apply El in Ha as [i ->]. eauto. }
      cbn [obind].
      set (own := omap (fun o => match o with Worker m' i => if decide (m' = m) then None else Some (Worker m' i) | o => Some o end) (t_own t)).
      assert (forall a, own !! a = match t_own t !! a with Some (Worker m' i) => if decide (m' = m) then None else Some (Worker m' i) | o => o end) as Ow.
      { intros a. unfold own. rewrite lookup_omap. by destruct (t_own t !! a) as [[]|]. }
      clearbody own. do 3 eexists. split; [reflexivity|]. split.
      { apply (do_mdestroy t m (length ws) own); [|exact Ow]. by rewrite S, E. }
      split; cbn; rewrite ?D1, ?D2, ?D3; try done.
      * apply core_mods; [done|]. eapply core_ext; [|exact C']. intros a; cbn. rewrite Ow.
        destruct (decide (a ∈ ws)) as [i|i].
        { apply El in i as [i ->]. by rewrite decide_True. }
        destruct (t_own t !! a) as [[| |m' i'|]|] eqn:Ea; try done.
        rewrite decide_False; [done|]. intros ->. apply i, El. eauto.
      * intros m'. destruct (decide (m' = m)) as [->|ne]; [by rewrite !lookup_delete|]. rewrite !lookup_delete_ne by done. apply S.
      * intros m' Hm. destruct (decide (m' = m)) as [->|ne]; [rewrite lookup_delete in Hm; by destruct Hm|].
        rewrite lookup_delete_ne in Hm by done. by apply O.
      * intros m' i a. rewrite Ow. destruct (decide (m' = m)) as [->|ne].
        { rewrite lookup_delete. split; [|by intros (? & ? & _)].
          destruct (t_own t !! a) as [[| |m' i'|]|]; try done. destruct (decide _); [done|]. congruence. }
        rewrite lookup_delete_ne by done. rewrite <- W.
        destruct (t_own t !! a) as [[| |m2 i2|]|] eqn:Ea; try done. destruct (decide _) as [->|]; [|done].
        split; [done|]. congruence.
    + do 3 eexists. split; [reflexivity|]. split; [|exact A]. constructor. by rewrite S, E.
  - cbn [step]. destruct (h_mods h !! m) as [ws|] eqn:E.
    + destruct (decide (0 <= i)) as [p|n].
      * destruct (ws !! Z.to_nat i) as [a|] eqn:Ea.
        { assert (t_own t !! a = Some (Worker m (Z.to_nat i))) as Wa by (apply W; eauto).
          rewrite decide_True by (rewrite (c_live _ _ C), Wa; cbn; eauto).
          pose proof (c_keys _ _ C _ _ Wa). rewrite id_of_id by lia.
          do 3 eexists. split; [reflexivity|]. split; [|exact A]. constructor; [done|]. split; [lia|]. by rewrite N2Z.id. }
        { do 3 eexists. split; [reflexivity|]. split; [|exact A]. apply do_id_no. intros n. rewrite S, E; cbn. intros [= <-].
          apply lookup_ge_None in Ea. lia. }
      * do 3 eexists. split; [reflexivity|]. split; [|exact A]. apply do_id_no. lia.
    + do 3 eexists. split; [reflexivity|]. split; [|exact A]. apply do_id_no. intros n. by rewrite S, E.
Qed.
Lemma run_history ops : forall h t, agree h t -> may_all t ops ->
  exists h' tr t', run h ops = Ret (h', tr) /\ history t tr t' /\ agree h' t' /\ tr.*1 = ops.
Proof.
  induction ops as [|o r IH]; intros h t A Y; cbn [run].
  - exists h, [], t. repeat split; try done; try constructor; apply A.
  - destruct Y as [Y1 Y2]. destruct (step_does h t o A Y1) as (h1 & t1 & x & -> & D & A1). cbn [obind].
    destruct (IH h1 t1 A1 (Y2 _ _ D)) as (h2 & tr & t2 & -> & Hi & A2 & E). cbn [obind].
    exists h2, ((o, x) :: tr), t2. split; [done|]. split; [by econstructor|]. split; [done|]. cbn. by f_equal.
Qed.
