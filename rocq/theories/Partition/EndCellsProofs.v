From stdpp Require Import prelude.
From Verif.Base Require Import Result.
From Verif.Partition Require Import EndCells Spec.
Local Open Scope Z_scope.

(** ** Consecutive ranges *)

Lemma ranges_from_length cell0 cells :
  length (ranges_from cell0 cells).1 = length cells /\
  length (ranges_from cell0 cells).2 = length cells.
Proof.
  revert cell0. induction cells as [|c r IH]; intros cell0; cbn [ranges_from]; [done|].
  specialize (IH (cell0 + c)). destruct (ranges_from (cell0 + c) r) as [ss es].
  cbn in *. lia.
Qed.

Definition zsum (l : list Z) : Z := foldr Z.add 0 l.

Lemma zsum_app l1 l2 : zsum (l1 ++ l2) = zsum l1 + zsum l2.
Proof. unfold zsum. induction l1 as [|x l1 IH]; cbn; lia. Qed.
Lemma zsum_replicate n x : zsum (replicate n x) = Z.of_nat n * x.
Proof.
  induction n as [|n IH]; [done|]. cbn [replicate zsum foldr]. fold (zsum (replicate n x)).
  rewrite IH. lia.
Qed.
Lemma zsum_cons x l : zsum (x :: l) = x + zsum l.
Proof. done. Qed.

Lemma ranges_from_lookup cell0 cells t c :
  cells !! t = Some c ->
  (ranges_from cell0 cells).1 !! t = Some (cell0 + zsum (take t cells)) /\
  (ranges_from cell0 cells).2 !! t = Some (cell0 + zsum (take t cells) + c - 1).
Proof.
  revert cell0 t. induction cells as [|c0 r IH]; intros cell0 t; [done|].
  cbn [ranges_from]. destruct t as [|t]; intros E.
  - simpl in E. injection E as <-. destruct (ranges_from (cell0 + c0) r). simpl.
    split; f_equal; unfold zsum; simpl; lia.
  - specialize (IH (cell0 + c0) t E).
    destruct (ranges_from (cell0 + c0) r) as [ss es]. simpl in IH |- *.
    destruct IH as [-> ->]. unfold zsum; simpl. split; f_equal; lia.
Qed.

Lemma ranges_from_valid cells count :
  cells <> [] -> Forall (fun c => 1 <= c) cells -> zsum cells = count ->
  valid_split count (ranges_from 0 cells).1 (ranges_from 0 cells).2.
Proof.
  intros Hne Hpos Hsum. destruct (ranges_from_length 0 cells) as [L1 L2].
  assert (Hlen : (0 < length cells)%nat) by (destruct cells; cbn; [done|lia]).
  rewrite Forall_lookup in Hpos.
  assert (Hinv : forall t s, (ranges_from 0 cells).1 !! t = Some s ->
     exists c, cells !! t = Some c /\ s = zsum (take t cells)).
  { intros t s Hs. pose proof (lookup_lt_Some _ _ _ Hs) as Hl. rewrite L1 in Hl.
    destruct (lookup_lt_is_Some_2 _ _ Hl) as [c Hc].
    exists c. split; [done|]. destruct (ranges_from_lookup 0 cells t c Hc) as [E _].
    rewrite Hs in E. injection E as ->. lia. }
  assert (Hinv2 : forall t s, (ranges_from 0 cells).2 !! t = Some s ->
     exists c, cells !! t = Some c /\ s = zsum (take t cells) + c - 1).
  { intros t s Hs. pose proof (lookup_lt_Some _ _ _ Hs) as Hl. rewrite L2 in Hl.
    destruct (lookup_lt_is_Some_2 _ _ Hl) as [c Hc].
    exists c. split; [done|]. destruct (ranges_from_lookup 0 cells t c Hc) as [_ E].
    rewrite Hs in E. injection E as ->. lia. }
  split.
  - lia.
  - intros E. rewrite E in L1. cbn in L1. lia.
  - destruct (lookup_lt_is_Some_2 _ _ Hlen) as [c Hc].
    destruct (ranges_from_lookup 0 cells 0 c Hc) as [E _]. rewrite E. cbn. done.
  - rewrite last_lookup, L2.
    assert (Hl : (pred (length cells) < length cells)%nat) by lia.
    destruct (lookup_lt_is_Some_2 _ _ Hl) as [c Hc].
    destruct (ranges_from_lookup 0 cells _ c Hc) as [_ E]. rewrite E. f_equal.
    assert (zsum cells = zsum (take (pred (length cells)) cells) + c); [|lia].
    rewrite <- (take_drop (pred (length cells)) cells) at 1. rewrite zsum_app. f_equal.
    erewrite drop_S by exact Hc. rewrite drop_ge by lia. cbn. lia.
  - intros t s e (c & Hc & ->)%Hinv (c' & Hc' & ->)%Hinv2.
    rewrite Hc in Hc'. injection Hc' as <-. pose proof (Hpos _ _ Hc). cbn in *. lia.
  - intros t e s (c & Hc & ->)%Hinv2 (c' & Hc' & ->)%Hinv.
    rewrite (take_S_r _ _ _ Hc), zsum_app. cbn. lia.
Qed.

(** ** Consequences of a valid split *)

Lemma valid_split_start_le count ss es t1 t2 s1 e1 s2 :
  valid_split count ss es -> (t1 < t2)%nat ->
  ss !! t1 = Some s1 -> es !! t1 = Some e1 -> ss !! t2 = Some s2 -> e1 < s2.
Proof.
  intros V Hlt Hs1 He1. revert s2. induction t2 as [|t2 IH]; intros s2 Hs2; [lia|].
  pose proof (lookup_lt_Some _ _ _ Hs2).
  assert (Hlt2 : (t2 < length es)%nat) by (rewrite <- (vs_len _ _ _ V); lia).
  destruct (lookup_lt_is_Some_2 _ _ Hlt2) as [e Hee].
  pose proof (vs_contig _ _ _ V _ _ _ Hee Hs2) as ->.
  destruct (decide (t1 = t2)) as [->|Hne].
  - rewrite Hee in He1. injection He1 as ->. lia.
  - assert (Hlt3 : (t2 < length ss)%nat) by lia.
    destruct (lookup_lt_is_Some_2 _ _ Hlt3) as [s Hss].
    specialize (IH ltac:(lia) s Hss).
    pose proof (vs_nonempty _ _ _ V _ _ _ Hss Hee). lia.
Qed.

Lemma valid_split_owner_unique count ss es t1 t2 i :
  valid_split count ss es -> owns ss es t1 i -> owns ss es t2 i -> t1 = t2.
Proof.
  intros V (s1 & e1 & Hs1 & He1 & Hi1) (s2 & e2 & Hs2 & He2 & Hi2).
  destruct (decide (t1 < t2)%nat).
  { pose proof (valid_split_start_le _ _ _ _ _ _ _ _ V l Hs1 He1 Hs2). lia. }
  destruct (decide (t2 < t1)%nat).
  { pose proof (valid_split_start_le _ _ _ _ _ _ _ _ V l Hs2 He2 Hs1). lia. }
  lia.
Qed.

Lemma valid_split_owner_exists count ss es i :
  valid_split count ss es -> 0 <= i < count -> exists t, owns ss es t i.
Proof.
  intros V Hi.
  (* the first range whose end is >= i *)
  assert (Hex : exists t e, es !! t = Some e /\ i <= e /\
            forall t' e', (t' < t)%nat -> es !! t' = Some e' -> e' < i).
  { pose proof (vs_last _ _ _ V) as Hl.
    assert (Hlast : exists t e, es !! t = Some e /\ i <= e).
    { rewrite last_lookup in Hl. exists (pred (length es)), (count - 1). split; [done|lia]. }
    clear Hl. destruct Hlast as (t & e & Ht & He). revert e Ht He.
    induction t as [t IH] using lt_wf_ind. intros e Ht He.
    destruct (decide (Exists (fun e' => i <= e') (take t es))) as [Hy|Hn].
    - apply Exists_exists in Hy as (e' & Hin & He').
      apply elem_of_list_lookup in Hin as [t' Ht'].
      apply lookup_take_Some in Ht' as [Ht' Hlt]. eapply IH; eauto.
    - exists t, e. split; [done|]. split; [done|].
      intros t' e' Hlt Ht'. destruct (decide (e' < i)); [done|].
      exfalso. apply Hn. apply Exists_exists. exists e'. split; [|lia].
      apply elem_of_list_lookup. exists t'. by rewrite lookup_take. }
  destruct Hex as (t & e & Ht & He & Hbefore).
  exists t. pose proof (lookup_lt_Some _ _ _ Ht) as Hlt.
  rewrite <- (vs_len _ _ _ V) in Hlt.
  destruct (lookup_lt_is_Some_2 _ _ Hlt) as [s Hs].
  exists s, e. split; [done|]. split; [done|]. split; [|done].
  destruct t as [|t].
  - pose proof (vs_first _ _ _ V) as E. rewrite Hs in E. injection E as ->. lia.
  - assert (Hlt2 : (t < length es)%nat) by (rewrite <- (vs_len _ _ _ V); lia).
    destruct (lookup_lt_is_Some_2 _ _ Hlt2) as [e' He'].
    pose proof (vs_contig _ _ _ V _ _ _ He' Hs) as ->.
    specialize (Hbefore t e' ltac:(lia) He'). lia.
Qed.

Lemma valid_split_one_owner count ss es :
  valid_split count ss es -> exactly_one_owner count ss es.
Proof.
  intros V i Hi. destruct (valid_split_owner_exists _ _ _ _ V Hi) as [t Ht].
  exists t. split; [done|]. intros t' Ht'. by eapply valid_split_owner_unique.
Qed.

Lemma owns_in_range count ss es t i :
  valid_split count ss es -> owns ss es t i -> 0 <= i < count.
Proof.
  intros V (s & e & Hs & He & Hi). split.
  - destruct t as [|t].
    { pose proof (vs_first _ _ _ V) as E. rewrite Hs in E. injection E as ->. lia. }
    pose proof (vs_first _ _ _ V) as E0.
    pose proof (lookup_lt_Some _ _ _ E0) as L0. rewrite (vs_len _ _ _ V) in L0.
    destruct (lookup_lt_is_Some_2 _ _ L0) as [e0 He0].
    pose proof (valid_split_start_le _ _ _ 0 (S t) _ _ _ V ltac:(lia) E0 He0 Hs).
    pose proof (vs_nonempty _ _ _ V _ _ _ E0 He0). lia.
  - pose proof (vs_last _ _ _ V) as E. rewrite last_lookup in E.
    destruct (decide (t = pred (length es))) as [->|Hne].
    { rewrite He in E. injection E as ->. lia. }
    pose proof (lookup_lt_Some _ _ _ He). pose proof (lookup_lt_Some _ _ _ E) as L.
    rewrite <- (vs_len _ _ _ V) in L at 2.
    destruct (lookup_lt_is_Some_2 _ _ L) as [sl Hsl].
    pose proof (valid_split_start_le _ _ _ t (pred (length es)) _ _ _ V ltac:(lia) Hs He Hsl).
    pose proof (vs_nonempty _ _ _ V _ _ _ Hsl E). lia.
Qed.

(** ** SetEndCells *)

Lemma end_cells_sizes_spec count ntasks :
  1 <= ntasks <= count ->
  length (end_cells_sizes count ntasks) = Z.to_nat ntasks /\
  Forall (fun c => 1 <= c) (end_cells_sizes count ntasks) /\
  zsum (end_cells_sizes count ntasks) = count /\
  Forall (fun c => c = count / ntasks \/ c = count / ntasks + 1) (end_cells_sizes count ntasks).
Proof.
  intros H. unfold end_cells_sizes.
  assert (Hm : count - count / ntasks * ntasks = count mod ntasks)
    by (rewrite Z.mod_eq by lia; lia).
  rewrite Hm. pose proof (Z.mod_pos_bound count ntasks ltac:(lia)).
  assert (1 <= count / ntasks) by (apply Z.div_le_lower_bound; lia).
  split; [|split; [|split]].
  - rewrite app_length, !replicate_length. lia.
  - apply Forall_app; split; apply Forall_replicate; lia.
  - rewrite zsum_app, !zsum_replicate, !Z2Nat.id by lia.
    pose proof (Z.div_mod count ntasks ltac:(lia)). lia.
  - apply Forall_app; split; apply Forall_replicate; [right|left]; lia.
Qed.

Lemma set_end_cells_valid count ntasks :
  1 <= ntasks <= count ->
  exists ss es, set_end_cells count ntasks = Ret (ss, es) /\
    valid_split count ss es /\ balanced ss es /\ length ss = Z.to_nat ntasks.
Proof.
  intros H. unfold set_end_cells. rewrite decide_False by lia.
  destruct (end_cells_sizes_spec count ntasks H) as (L & P & S & B).
  destruct (ranges_from_length 0 (end_cells_sizes count ntasks)) as [L1 L2].
  assert (Hne : end_cells_sizes count ntasks <> []).
  { intros E. rewrite E in L. cbn in L. lia. }
  pose proof (ranges_from_valid _ _ Hne P S) as V.
  pose proof (ranges_from_lookup 0 (end_cells_sizes count ntasks)) as Hlk.
  destruct (ranges_from 0 (end_cells_sizes count ntasks)) as [ss es]. cbn [fst snd] in *.
  exists ss, es. split; [done|]. split; [done|]. split; [|lia].
  intros t1 t2 s1 e1 s2 e2 Hs1 He1 Hs2 He2.
  assert (Hsz : forall t s e, ss !! t = Some s -> es !! t = Some e ->
            e - s = count / ntasks - 1 \/ e - s = count / ntasks).
  { intros t s e Hs He. pose proof (lookup_lt_Some _ _ _ Hs) as Hl.
    rewrite L1 in Hl. destruct (lookup_lt_is_Some_2 _ _ Hl) as [c Hc].
    destruct (Hlk t c Hc) as [E1 E2]. rewrite Hs in E1. rewrite He in E2.
    injection E1 as ->. injection E2 as ->.
    rewrite Forall_lookup in B. destruct (B _ _ Hc) as [-> | ->]; lia. }
  destruct (Hsz _ _ _ Hs1 He1), (Hsz _ _ _ Hs2 He2); lia.
Qed.

(** A valid split from increasing ends (used for rebalancing). *)
Lemma valid_split_of_ends count ss es :
  length ss = length es -> es <> [] ->
  ss !! 0%nat = Some 0 -> last es = Some (count - 1) ->
  (forall e, es !! 0%nat = Some e -> 0 <= e) ->
  (forall t e e', es !! t = Some e -> es !! S t = Some e' -> e < e') ->
  (forall t e s, es !! t = Some e -> ss !! S t = Some s -> s = e + 1) ->
  valid_split count ss es.
Proof.
  intros L Hne H0 Hlast Hpos Hincr Hcontig. split; try done.
  - intros ->. destruct es; done.
  - intros [|t] s e Hs He.
    + rewrite H0 in Hs. injection Hs as <-. by apply Hpos.
    + assert (Ht : (t < length es)%nat) by (pose proof (lookup_lt_Some _ _ _ He); lia).
      destruct (lookup_lt_is_Some_2 _ _ Ht) as [e0 He0].
      rewrite (Hcontig _ _ _ He0 Hs). pose proof (Hincr _ _ _ He0 He). lia.
Qed.

Lemma valid_split_ends_incr count ss es t e e' :
  valid_split count ss es -> es !! t = Some e -> es !! S t = Some e' -> e < e'.
Proof.
  intros V He He'. pose proof (lookup_lt_Some _ _ _ He') as L.
  rewrite <- (vs_len _ _ _ V) in L. destruct (lookup_lt_is_Some_2 _ _ L) as [s Hs].
  pose proof (vs_contig _ _ _ V _ _ _ He Hs). pose proof (vs_nonempty _ _ _ V _ _ _ Hs He').
  lia.
Qed.

Lemma valid_split_end_bounds count ss es t e :
  valid_split count ss es -> es !! t = Some e ->
  Z.of_nat t <= e /\ e <= count - 1 - (Z.of_nat (length es) - 1 - Z.of_nat t).
Proof.
  intros V He. split.
  - revert e He. induction t as [|t IH]; intros e He.
    + pose proof (lookup_lt_Some _ _ _ He) as L. rewrite <- (vs_len _ _ _ V) in L.
      pose proof (vs_nonempty _ _ _ V _ _ _ (vs_first _ _ _ V) He). lia.
    + assert (Ht : (t < length es)%nat) by (pose proof (lookup_lt_Some _ _ _ He); lia).
      destruct (lookup_lt_is_Some_2 _ _ Ht) as [e0 He0].
      pose proof (IH _ He0). pose proof (valid_split_ends_incr _ _ _ _ _ _ V He0 He). lia.
  - pose proof (lookup_lt_Some _ _ _ He) as Hl.
    remember (length es - 1 - t)%nat as d eqn:Hd.
    revert t e He Hl Hd. induction d as [|d IH]; intros t e He Hl Hd.
    + assert (t = pred (length es)) as -> by lia.
      pose proof (vs_last _ _ _ V) as E. rewrite last_lookup, He in E.
      injection E as ->. lia.
    + assert (Ht : (S t < length es)%nat) by lia.
      destruct (lookup_lt_is_Some_2 _ _ Ht) as [e1 He1].
      specialize (IH _ _ He1 Ht ltac:(lia)).
      pose proof (valid_split_ends_incr _ _ _ _ _ _ V He He1). lia.
Qed.
