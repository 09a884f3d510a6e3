From Coq Require Import ZArith String.
From stdpp Require Import prelude strings gmap.
From Verif.Base Require Import Result.
From Verif.Names Require Import Model.
From Verif.Core Require Import Move.
From Verif.Partition Require Import Spec EndCellsProofs.
From Verif.Transfer Require Import Model Spec Proofs.
From Verif.Raw Require Import Model Spec Lines Proofs.
From Verif.UzMove Require Import Model Spec.
Open Scope Z_scope.
Open Scope list_scope.

Section UzMove.
Context {D : Type} (dcmp : D -> D -> comparison) (lit : string -> D) (rnd : D -> D).
Local Notation reactants := (reactants (D := D)).
Local Notation entity := (entity (D := D)).
Local Notation phys := (phys (D := D)).

Lemma stored_fun (r : reactants) k (a b : entity) : stored r k a -> stored r k b -> (place a).1 = (place b).1 -> a = b.
Proof. destruct a, b; cbn [stored place fst]; intros H1 H2 ?; try done; rewrite H1 in H2; congruence. Qed.
Lemma travels_kind (a b : entity) : (place a).1 = (place b).1 -> travels a -> travels b.
Proof. by destruct a, b. Qed.
Lemma restored_travels e e' : restored lit rnd e e' -> travels e <-> travels e'.
Proof. intros H. pose proof (restored_place _ _ _ _ H). split; apply travels_kind; congruence. Qed.

(** ** One cell *)
Lemma elem_of_cell (b : reactants) k e : e ∈ cell_entities b k <-> stored b k e /\ (forall x, e <> EPress x).
Proof.
  unfold cell_entities. rewrite !elem_of_app, !elem_of_list_In.
  assert (H : forall A (f : A -> entity) o, In e (option_list (f <$> o)) <-> exists x, o = Some x /\ e = f x).
  { intros A f [x|]; cbn; split; [intros [<-|[]]; eauto|intros (y & [= ->] & ->); by left|done|by intros (? & ? & _)]. }
  rewrite !H. split.
  - intros HH; repeat (destruct HH as [HH|HH]); destruct HH as (x & Hx & ->); by split.
  - intros [Hs Hp]. destruct e; cbn [stored] in Hs; try (exfalso; by eapply Hp); eauto 20.
Qed.
Lemma cell_kinds (b : reactants) k : NoDup ((fun e => (place e).1) <$> cell_entities b k).
Proof.
  assert (Sub : (fun e => (place e).1) <$> cell_entities b k `sublist_of` seq 0 10).
  2:{ apply sublist_submseteq, submseteq_Permutation in Sub as [l Hl]. pose proof (NoDup_seq 0 10) as N.
      rewrite Hl in N. by apply NoDup_app in N as [? _]. }
  assert (H : forall A (f : A -> entity) o i, (forall x, (place (f x)).1 = i) ->
    (fun e => (place e).1) <$> option_list (f <$> o) `sublist_of` [i]).
  { intros A f [x|] i Hi; cbn; [rewrite Hi; done|]. apply sublist_nil_l. }
  change (seq 0 10) with (([0] ++ [1] ++ [2] ++ [3] ++ [4] ++ [5] ++ [6] ++ [7] ++ [8] ++ [9])%nat).
  unfold cell_entities. rewrite !fmap_app. repeat (apply sublist_app); by apply H.
Qed.
Lemma number_same k (e : entity) : (place e).2 = k -> number_as k (dump_entity rnd e) = dump_entity rnd e.
Proof. intros <-. by destruct e. Qed.
Lemma dump_cell_same (b : reactants) k : (forall e, e ∈ cell_entities b k -> (place e).2 = k) ->
  dump_cell rnd b k = dump rnd (cell_entities b k).
Proof.
  unfold dump_cell, dump. induction (cell_entities b k) as [|e l IH]; intros H; [done|]. cbn [flat_map].
  rewrite number_same by (apply H; by left). f_equal. apply IH. intros a Ha. apply H. by right.
Qed.
Lemma stored_no_solution k (b : reactants) m e :
  stored (remove_solution k b) m e <-> stored b m e /\ ~ (m = k /\ exists x, e = ESolution x).
Proof.
  destruct e; cbn [stored remove_solution ph_sol ph_ex ph_gas ph_kin ph_pp ph_ss ph_surf ph_mix ph_react ph_temp ph_press].
  { rewrite lookup_delete_Some. split.
    - intros [H1 H2]. split; [done|]. by intros [-> _].
    - intros [H1 H2]. split; [|done]. intros ->. apply H2. eauto. }
  all: (split; [intros H; split; [done|]; by intros (_ & ? & ?)|tauto]).
Qed.
Lemma stored_removed k (b : reactants) m e : stored (remove k b) m e <-> m <> k /\ stored b m e.
Proof.
  destruct e; cbn [stored remove ph_sol ph_ex ph_gas ph_kin ph_pp ph_ss ph_surf ph_mix ph_react ph_temp ph_press];
    rewrite lookup_delete_Some; split; intros [H1 H2]; (split; [congruence|done]).
Qed.

Lemma gather_spec ks : forall b : reactants, (forall k e, k ∈ ks -> travels e -> stored b k e -> (place e).2 = k) ->
  exists es, (gather rnd ks b).1 = dump rnd es /\ NoDup (place <$> es) /\
  (forall e, e ∈ es <-> exists k, k ∈ ks /\ travels e /\ stored b k e) /\
  (forall k e, stored (gather rnd ks b).2 k e <-> k ∉ ks /\ stored b k e).
Proof.
  induction ks as [|k ks IH]; intros b Hn.
  { exists []. split; [done|]. split; [constructor|]. split.
    - intros e. split; [by intros ?%elem_of_nil|by intros (? & ?%elem_of_nil & _)].
    - intros k e. cbn. split; [|tauto]. intros H. split; [by intros ?%elem_of_nil|done]. }
  assert (Hst : forall m e, stored (remove k (remove_solution k b)) m e <-> m <> k /\ stored b m e).
  { intros m e. rewrite stored_removed, stored_no_solution. tauto. }
  destruct (IH (remove k (remove_solution k b))) as (es & E1 & E2 & E3 & E4).
  { intros m e Hm Ht Hs. apply Hst in Hs as [_ Hs]. apply Hn; [by right|done..]. }
  assert (Hce : forall e, e ∈ cell_entities (remove_solution k b) k <-> travels e /\ stored b k e).
  { intros e. rewrite elem_of_cell, stored_no_solution. split.
    - intros [[H1 H2] H3]. split; [|done]. destruct e; try done; [destruct H2; eauto|by eapply H3].
    - intros [H1 H2]. split; [split; [done|]|].
      + intros (_ & x & ->). done.
      + by intros x ->. }
  assert (Hpl : forall e, e ∈ cell_entities (remove_solution k b) k -> (place e).2 = k).
  { intros e He. apply Hce in He as [H1 H2]. apply Hn; [by left|done..]. }
  exists (cell_entities (remove_solution k b) k ++ es). cbn [gather fst snd]. split; [|split; [|split]].
  - rewrite dump_cell_same by done. rewrite E1. unfold dump. by rewrite flat_map_app.
  - rewrite fmap_app. apply NoDup_app. split; [|split; [|done]].
    + apply (NoDup_fmap_1 fst). rewrite <- list_fmap_compose. apply cell_kinds.
    + intros [kd m] H1 H2. apply elem_of_list_fmap in H1 as (e1 & P1 & H1). apply elem_of_list_fmap in H2 as (e2 & P2 & H2).
      assert (m = k) as -> by (rewrite <- (Hpl _ H1), <- P1; done).
      apply E3 in H2 as (m & Hm & Ht & Hs). apply Hst in Hs as [Hmk Hs].
      assert ((place e2).2 = m) as He2 by (apply Hn; [by right|done..]).
      rewrite <- P2 in He2. cbn in He2. congruence.
  - intros e. rewrite elem_of_app, Hce, E3. split.
    + intros [[H1 H2]|(m & Hm & Ht & Hs)]; [exists k; split; [by left|done]|].
      apply Hst in Hs as [_ Hs]. exists m. split; [by right|done].
    + intros (m & Hm & Ht & Hs). destruct (decide (m = k)) as [->|Hne]; [by left|]. right.
      apply elem_of_cons in Hm as [?|Hm]; [done|]. exists m. split; [done|]. split; [done|]. by apply Hst.
  - intros m e. rewrite E4, Hst, not_elem_of_cons. tauto.
Qed.

(** ** Reading *)
Lemma bin_read_file ls : (forall n t, Head "REACTION_PRESSURE_RAW" n t ∉ ls) -> forall (r : reactants) n0,
  bin_read dcmp lit ls r = (read_file dcmp lit ls (r, n0)).1.
Proof.
  induction ls as [|[k n t|l] ls IH]; intros H r n0; [done| |].
  - cbn [bin_read read_file].
    assert (Hl : forall n t, Head "REACTION_PRESSURE_RAW" n t ∉ ls).
    { intros n1 t1 H1. eapply H. right. exact H1. }
    assert (E : exists n1, read_one dcmp lit k n t (bodies ls) (r, n0) = (bin_one dcmp lit k n t (bodies ls) r, n1)).
    { unfold bin_one. rewrite decide_False by (intros ->; eapply H; left).
      unfold read_one. repeat case_decide; eexists; reflexivity. }
    destruct E as [n1 E]. rewrite E. by apply IH.
  - cbn [bin_read read_file]. apply IH. intros n t H1. eapply H. right. exact H1.
Qed.
Lemma dump_no_press (es : list entity) : Forall travels es -> forall n t, Head "REACTION_PRESSURE_RAW" n t ∉ dump rnd es.
Proof.
  intros Hf n t. induction Hf as [|e es He Hf IH]; [by intros ?%elem_of_nil|].
  unfold dump. cbn [flat_map]. rewrite elem_of_app. intros [H|H]; [|done].
  destruct e; try done; cbn [dump_entity] in H; apply elem_of_cons in H as [H|H]; try done;
    apply elem_of_list_fmap in H as (? & ? & _); done.
Qed.

(** ** One exchange *)
Lemma move_uz_spec ks (from into : reactants) :
  (forall k e, k ∈ ks -> travels e -> stored from k e -> (place e).2 = k /\ fits dcmp rnd keywords e) ->
  let q := move_uz dcmp lit rnd ks from into in
  (forall k e, stored q.1 k e <-> k ∉ ks /\ stored from k e) /\
  (forall k e, k ∈ ks -> travels e -> stored from k e -> exists e', restored lit rnd e e' /\ stored q.2 k e') /\
  (forall k e', (forall e, k ∈ ks -> travels e -> (place e).1 = (place e').1 -> ~ stored from k e) ->
     stored q.2 k e' <-> stored into k e').
Proof.
  intros Hf. destruct (gather_spec ks from) as (es & E1 & E2 & E3 & E4); [intros k e H1 H2 H3; by apply Hf|].
  assert (Ff : Forall (fits dcmp rnd keywords) es).
  { apply Forall_forall. intros e (k & H1 & H2 & H3)%E3. by apply (Hf k). }
  assert (Ft : Forall travels es).
  { apply Forall_forall. intros e (k & H1 & H2 & H3)%E3. done. }
  destruct (file_read dcmp lit rnd es into 0%nat E2 Ff) as (r' & R1 & R2 & R3).
  cbv zeta. unfold move_uz. cbv zeta. cbn [fst snd].
  rewrite E1, (bin_read_file _ (dump_no_press es Ft) into 0%nat), R1. cbn [fst].
  split; [exact E4|]. split.
  - intros k e H1 H2 H3. destruct (R2 e) as (e' & A & B); [apply E3; eauto|]. exists e'. split; [done|].
    destruct (Hf k e H1 H2 H3) as [<- _]. done.
  - intros k e' H. apply R3. intros Hin. apply elem_of_list_fmap in Hin as (e & Pe & He).
    apply E3 in He as (m & H1 & H2 & H3). destruct (Hf m e H1 H2 H3) as [Hm _]. rewrite <- Pe in Hm. cbn in Hm. subst m.
    apply (H e H1 H2); [by rewrite <- Pe|done].
Qed.

(** ** All exchanges *)
Section Plan.
Context (count : Z) (ss es ss' es' : list Z) (V : valid_split count ss es) (V' : valid_split count ss' es').

Definition gone (ws0 ws : list reactants) (k : Z) (o n : nat) : Prop :=
  (forall e, travels e -> has_part ws0 o k e -> exists e', restored lit rnd e e' /\ has_part ws n k e') /\
  (forall e', has_part ws n k e' -> exists e, travels e /\ has_part ws0 o k e /\ restored lit rnd e e') /\
  (forall p e, p <> n -> ~ has_part ws p k e).
Definition uz_under (todo : Z -> Prop) (ws0 ws : list reactants) : Prop := forall k,
  (todo k -> forall p e, has_part ws p k e <-> has_part ws0 p k e) /\
  (forall o n, ~ todo k -> 0 <= k < count -> owns ss es o k -> owns ss' es' n k -> o <> n -> gone ws0 ws k o n) /\
  (forall o, 0 <= k < count -> owns ss es o k -> owns ss' es' o k -> forall p e, has_part ws p k e <-> has_part ws0 p k e) /\
  (~ 0 <= k < count -> forall p e, has_part ws p k e <-> has_part ws0 p k e).

Lemma uz_under_step (todo : Z -> Prop) ws0 ws o n ks wo wn :
  uz_placed dcmp rnd count ss es ws0 -> o <> n ->
  (forall k, k ∈ ks -> 0 <= k < count /\ owns ss es o k /\ owns ss' es' n k) ->
  (forall k, {todo k} + {~ todo k}) ->
  ws !! o = Some wo -> ws !! n = Some wn -> uz_under todo ws0 ws ->
  let q := move_uz dcmp lit rnd ks wo wn in
  uz_under (fun k => todo k /\ k ∉ ks) ws0 (<[n := q.2]> (<[o := q.1]> ws)).
Proof.
  intros Hpl Hne Hks Hdec Ho Hn Hu.
  assert (Eo : forall k e, stored wo k e <-> has_part ws o k e).
  { intros k e. unfold has_part. rewrite Ho. split; [eauto|]. by intros (w & [= <-] & ?). }
  assert (En : forall k e, stored wn k e <-> has_part ws n k e).
  { intros k e. unfold has_part. rewrite Hn. split; [eauto|]. by intros (w & [= <-] & ?). }
  assert (Fit : forall k e, k ∈ ks -> travels e -> stored wo k e -> (place e).2 = k /\ fits dcmp rnd keywords e).
  { intros k e Hk Ht Hs. destruct (Hks k Hk) as (Hc & K1 & K2). destruct (Hu k) as (U1 & U2 & _). apply Eo in Hs.
    destruct (Hdec k) as [Hd|Hd].
    - apply U1 in Hs; [|done]. destruct (Hpl _ _ _ Hc Hs) as [_ Hf]. by apply Hf.
    - destruct (U2 o n Hd Hc K1 K2 Hne) as (_ & _ & G). destruct (G o e); done. }
  destruct (move_uz_spec ks wo wn Fit) as (M1 & M2 & M3). cbv zeta in M1, M2, M3. cbv zeta.
  set (q := move_uz dcmp lit rnd ks wo wn) in *. clearbody q.
  assert (Nn : forall k e, has_part (<[n := q.2]> (<[o := q.1]> ws)) n k e <-> stored q.2 k e).
  { intros k e. unfold has_part. rewrite list_lookup_insert by (rewrite insert_length; by eapply lookup_lt_Some).
    split; [by intros (w & [= <-] & ?)|eauto]. }
  assert (No : forall k e, has_part (<[n := q.2]> (<[o := q.1]> ws)) o k e <-> stored q.1 k e).
  { intros k e. unfold has_part. rewrite list_lookup_insert_ne by done. rewrite list_lookup_insert by (by eapply lookup_lt_Some).
    split; [by intros (w & [= <-] & ?)|eauto]. }
  assert (Np : forall p k e, p <> o -> p <> n -> has_part (<[n := q.2]> (<[o := q.1]> ws)) p k e <-> has_part ws p k e).
  { intros p k e H1 H2. unfold has_part. by rewrite !list_lookup_insert_ne. }
  set (ws1 := <[n := q.2]> (<[o := q.1]> ws)) in *. clearbody ws1.
  assert (Keep : forall k p e, k ∉ ks -> has_part ws1 p k e <-> has_part ws p k e).
  { intros k p e Hk. destruct (decide (p = n)) as [->|H1].
    - rewrite Nn, <- En. apply M3. intros; done.
    - destruct (decide (p = o)) as [->|H2]; [|by apply Np]. rewrite No, <- Eo, M1. tauto. }
  intros k. destruct (Hu k) as (U1 & U2 & U3 & U4). split; [|split; [|split]].
  - intros [H1 H2] p e. rewrite Keep by done. by apply U1.
  - intros o1 n1 Ht Hc H1 H2 H12. destruct (decide (k ∈ ks)) as [Hk|Hk].
    2:{ destruct (U2 o1 n1) as (G1 & G2 & G3); [tauto|done..|]. split; [|split].
        - intros e He Hs. destruct (G1 e He Hs) as (e' & R & S). exists e'. split; [done|]. by apply Keep.
        - intros e' Hs. apply G2. by apply Keep.
        - intros p e Hp Hs. apply Keep in Hs; [|done]. by apply (G3 p e). }
    destruct (Hks k Hk) as (_ & K1 & K2).
    rewrite (valid_split_owner_unique _ _ _ _ _ _ V H1 K1), (valid_split_owner_unique _ _ _ _ _ _ V' H2 K2) in *.
    destruct (Hdec k) as [Hd|Hd].
    + assert (None_n : forall p e, p <> o -> ~ has_part ws p k e).
      { intros p e Hp Hs. apply U1 in Hs; [|done]. destruct (Hpl _ _ _ Hc Hs) as [Hown _].
        destruct Hp. exact (valid_split_owner_unique _ _ _ _ _ _ V Hown K1). }
      split; [|split].
      * intros e He Hs. apply U1 in Hs; [|done]. apply Eo in Hs. destruct (M2 k e Hk He Hs) as (e' & R & S).
        exists e'. split; [done|]. by apply Nn.
      * intros e' Hs. apply Nn in Hs.
        assert (Hx : (exists e, travels e /\ (place e).1 = (place e').1 /\ stored wo k e) \/
                ~ (exists e, travels e /\ (place e).1 = (place e').1 /\ stored wo k e)).
        { clear. destruct e'; cbn [place fst]; try (right; by intros ([] & ? & ? & ?)).
          - destruct (ph_ex wo !! k) as [y|] eqn:E; [left; by exists (EExchange y)|right; intros ([] & _ & ? & ?); cbn in *; congruence].
          - destruct (ph_gas wo !! k) as [y|] eqn:E; [left; by exists (EGas y)|right; intros ([] & _ & ? & ?); cbn in *; congruence].
          - destruct (ph_kin wo !! k) as [y|] eqn:E; [left; by exists (EKinetics y)|right; intros ([] & _ & ? & ?); cbn in *; congruence].
          - destruct (ph_pp wo !! k) as [y|] eqn:E; [left; by exists (EPP y)|right; intros ([] & _ & ? & ?); cbn in *; congruence].
          - destruct (ph_ss wo !! k) as [y|] eqn:E; [left; by exists (ESS y)|right; intros ([] & _ & ? & ?); cbn in *; congruence].
          - destruct (ph_surf wo !! k) as [y|] eqn:E; [left; by exists (ESurface y)|right; intros ([] & _ & ? & ?); cbn in *; congruence].
          - destruct (ph_mix wo !! k) as [y|] eqn:E; [left; by exists (EMix y)|right; intros ([] & _ & ? & ?); cbn in *; congruence].
          - destruct (ph_react wo !! k) as [y|] eqn:E; [left; by exists (EReaction y)|right; intros ([] & _ & ? & ?); cbn in *; congruence].
          - destruct (ph_temp wo !! k) as [y|] eqn:E; [left; by exists (ETemp y)|right; intros ([] & _ & ? & ?); cbn in *; congruence]. }
        destruct Hx as [(e & He & Hp & Hse)|Hx].
        -- destruct (M2 k e Hk He Hse) as (e2 & R & S). exists e. split; [done|]. split; [by apply U1, Eo|].
           assert (e2 = e') as <-; [|done]. apply (stored_fun q.2 k); [done..|]. rewrite (restored_place _ _ _ _ R). done.
        -- apply M3 in Hs; [|intros e _ He Hp Hse; apply Hx; eauto]. apply En in Hs. destruct (None_n n e'); done.
      * intros p e Hp Hs. destruct (decide (p = o)) as [->|Hpo].
        -- apply No in Hs. apply M1 in Hs as [? _]. done.
        -- apply Np in Hs; [|done..]. by apply (None_n p e).
    + destruct (U2 o n Hd Hc K1 K2 Hne) as (G1 & G2 & G3).
      assert (Same : forall e', stored q.2 k e' <-> has_part ws n k e').
      { intros e'. rewrite <- En. apply M3. intros e _ _ _ Hs. apply Eo in Hs. by apply (G3 o e). }
      split; [|split].
      * intros e He Hs. destruct (G1 e He Hs) as (e' & R & S). exists e'. split; [done|]. by apply Nn, Same.
      * intros e' Hs. apply G2. by apply Same, Nn.
      * intros p e Hp Hs. destruct (decide (p = o)) as [->|Hpo].
        -- apply No in Hs. apply M1 in Hs as [? _]. done.
        -- apply Np in Hs; [|done..]. by apply (G3 p e).
  - intros o1 Hc H1 H2 p e. rewrite Keep; [by eapply U3|]. intros Hk. destruct (Hks k Hk) as (_ & K1 & K2).
    destruct Hne. rewrite (valid_split_owner_unique _ _ _ _ _ _ V K1 H1). exact (valid_split_owner_unique _ _ _ _ _ _ V' H2 K2).
  - intros Hc p e. rewrite Keep; [by apply U4|]. intros Hk. by apply Hc, Hks.
Qed.
Lemma uz_under_iff (todo todo' : Z -> Prop) ws0 ws : (forall k, todo k <-> todo' k) -> uz_under todo ws0 ws -> uz_under todo' ws0 ws.
Proof.
  intros H Hu k. destruct (Hu k) as (U1 & U2 & U3 & U4). split; [|split; [|done]].
  - intros Hk. apply U1. by apply H.
  - intros o n Hk. apply U2. by rewrite H.
Qed.

(** The saturated parts go as without unsaturated ones; the unsaturated ones are settled. *)
Lemma send_both_spec d1 ws0 tp : uz_placed dcmp rnd count ss es ws0 -> planned count ss es ss' es' tp ->
  forall (todo : Z -> Prop) (ws : list (reactants * reactants)) ws1,
  (forall k, {todo k} + {~ todo k}) -> uz_under todo ws0 ws.*2 -> send_all dcmp d1 tp ws.*1 = Ret ws1 ->
  exists ws', send_both dcmp lit rnd d1 tp ws = Ret ws' /\ ws'.*1 = ws1 /\ length ws' = length ws /\
    uz_under (fun k => todo k /\ ~ in_plan tp k) ws0 ws'.*2.
Proof.
  intros Hpl [_ Hp]. induction tp as [|[key [[o n] ks]] tp IH]; intros todo ws ws1 Hdec Hu Hs.
  { cbn [send_all] in Hs. injection Hs as <-. exists ws. split; [done|]. split; [done|]. split; [done|].
    apply (uz_under_iff todo); [|done]. intros k. split; [|tauto]. intros H. split; [done|].
    by intros (? & ? & ? & ? & ?%elem_of_nil & _). }
  destruct (Hp key o n ks) as (_ & (Hne & _ & _) & Hks); [by left|].
  cbn [send_all] in Hs. cbn [send_both]. rewrite !list_lookup_fmap in Hs.
  destruct (ws !! o) as [wo|] eqn:Ho; [|done]. destruct (ws !! n) as [wn|] eqn:Hn; [|done]. cbn [fmap option_fmap option_map] in Hs.
  destruct (send_cells dcmp d1 ks wo.1 wn.1) as [r| |]; [|done..]. cbn [obind] in *.
  destruct (IH ltac:(intros; apply (Hp key0); by right) (fun k => todo k /\ k ∉ ks)
    (<[n := (r.2, (move_uz dcmp lit rnd ks wo.2 wn.2).2)]> (<[o := (r.1, (move_uz dcmp lit rnd ks wo.2 wn.2).1)]> ws)) ws1)
    as (ws' & E & F & L & U).
  { intros k. destruct (Hdec k); [|right; tauto]. destruct (decide (k ∈ ks)); [right; tauto|left; tauto]. }
  { rewrite !list_fmap_insert. apply (uz_under_step todo ws0 ws.*2 o n ks wo.2 wn.2); try done.
    - by rewrite list_lookup_fmap, Ho.
    - by rewrite list_lookup_fmap, Hn. }
  { by rewrite !list_fmap_insert. }
  exists ws'. rewrite !insert_length in L. split; [done|]. split; [done|]. split; [done|].
  eapply uz_under_iff; [|exact U]. intros k. cbn beta. rewrite in_plan_cons. tauto.
Qed.
Lemma uz_under_end (todo : Z -> Prop) ws0 ws : (forall k, ~ todo k) -> uz_under todo ws0 ws ->
  uz_settled lit rnd count ss es ss' es' ws0 ws.
Proof.
  intros Ht Hu. split; [|split].
  - intros k o n Hc H1 H2 H12. destruct (Hu k) as (_ & U & _). by apply (U o n).
  - intros k o Hc H1 H2. destruct (Hu k) as (_ & _ & U & _). by apply (U o).
  - intros k p e Hc. destruct (Hu k) as (_ & _ & _ & U). by apply U.
Qed.
End Plan.
End UzMove.
