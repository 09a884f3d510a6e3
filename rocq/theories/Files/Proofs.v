From Coq Require Import ZArith String Lia.
From stdpp Require Import prelude strings gmap.
From Verif.Base Require Import Result.
From Verif.Files Require Import Model Spec.
Open Scope list_scope.

(** ** Ranges and blocks *)

Lemma elem_zrange a b j : j ∈ zrange a b <-> (0 <= j /\ a <= j <= b)%Z.
Proof.
  unfold zrange. rewrite elem_of_list_filter, elem_of_list_fmap. split.
  - intros (H & k & -> & Hk%elem_of_seq). lia.
  - intros (H & H1). split; [done|]. exists (Z.to_nat (j - a)). split; [lia|]. apply elem_of_seq. lia.
Qed.

Lemma nodup_zrange a b : NoDup (zrange a b).
Proof.
  unfold zrange. apply NoDup_filter, NoDup_fmap_2_strong.
  - intros x y _ _ H. lia.
  - apply NoDup_seq.
Qed.

Lemma elem_dump_order k : k ∈ dump_order <-> k <> Pressure.
Proof. unfold dump_order. rewrite !elem_of_cons, elem_of_nil. destruct k; intuition congruence. Qed.

Lemma nodup_dump_order : NoDup dump_order.
Proof. apply (bool_decide_unpack _). vm_compute. exact I. Qed.

Lemma elem_concat {B} (b : B) (ls : list (list B)) : b ∈ concat ls <-> exists l, b ∈ l /\ l ∈ ls.
Proof.
  induction ls as [|l ls IH]; simpl.
  - rewrite elem_of_nil. split; [done|]. intros (l & _ & H). by apply elem_of_nil in H.
  - rewrite elem_of_app, IH. split.
    + intros [H|(l' & H & H')]; [exists l|exists l']; rewrite elem_of_cons; auto.
    + intros (l' & H & [->|H']%elem_of_cons); eauto.
Qed.

(** Concatenating duplicate-free lists that carry different keys. *)
Lemma nodup_concat {B K} (key : B -> K) (l : list K) (f : K -> list B) :
  NoDup l -> (forall k, NoDup (f k)) -> (forall k b, b ∈ f k -> key b = k) -> NoDup (concat (map f l)).
Proof.
  intros Hl Hf Hk. induction Hl as [|k l Hin Hl IH]; simpl; [constructor|].
  apply NoDup_app. split_and!; [done| |done].
  intros b Hb Hc. apply elem_concat in Hc as (bs & Hbs & Hm).
  apply elem_of_list_fmap in Hm as (k' & -> & Hk'). apply Hk in Hb, Hbs. congruence.
Qed.

Lemma elem_concat_map {B K} (l : list K) (f : K -> list B) b : b ∈ concat (map f l) <-> exists k, k ∈ l /\ b ∈ f k.
Proof.
  rewrite elem_concat. split.
  - intros (bs & Hb & Hm). apply elem_of_list_fmap in Hm as (k & -> & Hk). eauto.
  - intros (k & Hk & Hb). exists (f k). split; [done|]. apply elem_of_list_fmap. eauto.
Qed.

Lemma elem_range_items n a b it :
  it ∈ range_items n a b <-> it.1.1 = n /\ it.1.2 <> Pressure /\ (0 <= it.2 /\ a <= it.2 <= b)%Z.
Proof.
  unfold range_items. rewrite elem_concat_map. destruct it as [[n' k] j]; simpl. split.
  - intros (k' & Hk & Hm). apply elem_of_list_fmap in Hm as (i & Heq & Hi). injection Heq as -> -> ->.
    apply elem_zrange in Hi. apply elem_dump_order in Hk. done.
  - intros (-> & Hk & Hj). exists k. split; [by apply elem_dump_order|].
    apply elem_of_list_fmap. exists j. split; [done|]. by apply elem_zrange.
Qed.

Lemma nodup_range_items n a b : NoDup (range_items n a b).
Proof.
  unfold range_items. apply (nodup_concat (fun it : nat * kind * Z => it.1.2)).
  - apply nodup_dump_order.
  - intros k. apply NoDup_fmap_2_strong; [|apply nodup_zrange]. intros x y _ _ H. by injection H.
  - intros k it Hm. apply elem_of_list_fmap in Hm as (i & -> & _). done.
Qed.

Lemma elem_block_items block n a b ib it : (0 < block)%Z ->
  it ∈ block_items block n a b ib <->
  it.1.1 = n /\ it.1.2 <> Pressure /\ (0 <= it.2 /\ a <= it.2 <= b /\ (it.2 - a) / block = Z.of_nat ib)%Z.
Proof.
  intros Hb. unfold block_items. case_match eqn:Hle.
  - apply Z.leb_le in Hle. rewrite elem_range_items.
    assert (forall j, (a <= j /\ (j - a) / block = Z.of_nat ib <->
      a + Z.of_nat ib * block <= j <= a + (Z.of_nat ib + 1) * block - 1)%Z) as Hdiv.
    { intros j. split.
      - intros [Hj Hq]. pose proof (Z.mul_div_le (j - a) block Hb). pose proof (Z.mul_succ_div_gt (j - a) block Hb).
        rewrite Hq in *. nia.
      - intros Hj. split; [nia|]. symmetry. apply (Z.div_unique _ _ _ (j - a - Z.of_nat ib * block)); nia. }
    specialize (Hdiv it.2). case_match eqn:Hlt; [apply Z.ltb_lt in Hlt|apply Z.ltb_ge in Hlt];
      split; intros (H1 & H2 & H3); split_and!; try done; try lia; try (apply Hdiv; lia).
  - apply Z.leb_gt in Hle. rewrite elem_of_nil. split; [done|]. intros (_ & _ & _ & Hj & Hq).
    pose proof (Z.mul_div_le (it.2 - a) block Hb). rewrite Hq in *. nia.
Qed.

Lemma nodup_block_items block n a b ib : NoDup (block_items block n a b ib).
Proof. unfold block_items. case_match; [apply nodup_range_items|constructor]. Qed.

Lemma elem_one_block block ranges ib it : (0 < block)%Z ->
  it ∈ one_block block ranges ib <->
  exists r, ranges !! it.1.1 = Some r /\ it.1.2 <> Pressure
    /\ (0 <= it.2 /\ r.1 <= it.2 <= r.2 /\ (it.2 - r.1) / block = Z.of_nat ib)%Z.
Proof.
  intros Hb. unfold one_block. rewrite elem_concat. split.
  - intros (l & Hl & Hm). apply elem_of_lookup_imap_1 in Hm as (n & r & -> & Hr).
    apply elem_block_items in Hl as (Hn & Hk & Hj); [|done]. subst n. eauto.
  - intros (r & Hr & Hk & Hj). exists (block_items block it.1.1 r.1 r.2 ib). split.
    + apply elem_block_items; done.
    + apply elem_of_lookup_imap. eauto.
Qed.

Lemma nodup_one_block block ranges ib : (0 < block)%Z -> NoDup (one_block block ranges ib).
Proof.
  intros Hb. unfold one_block.
  assert (forall s, NoDup (concat (imap (fun n r => block_items block (s + n) r.1 r.2 ib) ranges))) as H.
  2:{ exact (H 0). }
  induction ranges as [|r ranges IH]; intros s; simpl; [constructor|].
  apply NoDup_app. split_and!.
  - apply nodup_block_items.
  - intros it H1 H2. apply elem_block_items in H1 as (Hn & _); [|done].
    apply elem_concat in H2 as (l & Hl & Hm). apply elem_of_lookup_imap_1 in Hm as (n & r' & -> & _).
    apply elem_block_items in Hl as (Hn' & _); [|done]. lia.
  - specialize (IH (S s)). erewrite imap_ext; [exact IH|]. intros i x _. simpl. do 2 f_equal. lia.
Qed.

Lemma max_count_ge ranges : forall m r, r ∈ ranges \/ (r.2 - r.1 + 1 <= m)%Z ->
  (r.2 - r.1 + 1 <= fold_left (fun m r => let count := (r.2 - r.1 + 1)%Z in if (m <? count)%Z then count else m) ranges m)%Z.
Proof.
  induction ranges as [|r0 ranges IH]; intros m r H; simpl.
  - destruct H as [H|H]; [by apply elem_of_nil in H|done].
  - apply IH. destruct H as [H|H]; [apply elem_of_cons in H as [->|H]; [right|by left]|right].
    + case_match eqn:E; [lia|]. apply Z.ltb_ge in E. lia.
    + case_match eqn:E; [|done]. apply Z.ltb_lt in E. lia.
Qed.
Lemma max_count_nonneg ranges : (0 <= max_count ranges)%Z.
Proof.
  pose proof (max_count_ge ranges 0%Z (1, 0)%Z (or_intror (Z.le_refl 0))) as H. exact H.
Qed.

Lemma block_count_ge block ranges r j : (0 < block)%Z -> r ∈ ranges -> (r.1 <= j <= r.2)%Z ->
  ((j - r.1) / block < block_count block ranges)%Z.
Proof.
  intros Hb Hr Hj. unfold block_count. pose proof (max_count_ge ranges 0 r (or_introl Hr)) as H1.
  pose proof (max_count_nonneg ranges) as H0. change (r.2 - r.1 + 1 <= max_count ranges)%Z in H1.
  set (m := max_count ranges) in *. rewrite Z.quot_div_nonneg, Z.rem_mod_nonneg by lia.
  pose proof (Z.div_mod m block ltac:(lia)) as Hm. pose proof (Z.mod_pos_bound m block Hb) as Hmod.
  pose proof (Z.mul_div_le (j - r.1) block Hb) as Hq.
  case_match eqn:E; [apply Z.ltb_lt in E|apply Z.ltb_ge in E]; nia.
Qed.

Lemma elem_dump_items block ranges it : (0 < block)%Z -> (forall r, r ∈ ranges -> 0 <= r.1)%Z ->
  it ∈ dump_items block ranges <-> to_dump ranges it.
Proof.
  intros Hb Hr. unfold dump_items. rewrite elem_concat_map. split.
  - intros (ib & _ & Hm). apply elem_one_block in Hm as (r & Hl & Hk & _ & Hj & _); [|done]. by exists r.
  - intros (r & Hl & Hk & Hj). pose proof (elem_of_list_lookup_2 _ _ _ Hl) as Hin.
    pose proof (block_count_ge block ranges r it.2 Hb Hin Hj) as Hc.
    pose proof (Z.div_pos (it.2 - r.1) block ltac:(lia) Hb).
    exists (Z.to_nat ((it.2 - r.1) / block)). split.
    + apply elem_of_seq. lia.
    + apply elem_one_block; [done|]. exists r. specialize (Hr r Hin). split_and!; try done; lia.
Qed.

Lemma nodup_dump_items block ranges : (0 < block)%Z -> NoDup (dump_items block ranges).
Proof.
  intros Hb. unfold dump_items. assert (forall s n, NoDup (concat (map (one_block block ranges) (seq s n)))) as H; [|apply H].
  intros s n. revert s. induction n as [|n IH]; intros s; simpl; [constructor|].
  apply NoDup_app. split_and!; [by apply nodup_one_block| |apply IH].
  intros it H1 H2. apply elem_one_block in H1 as (r & Hr & _ & _ & _ & Hq); [|done].
  apply elem_concat_map in H2 as (ib & Hib & H2). apply elem_one_block in H2 as (r' & Hr' & _ & _ & _ & Hq'); [|done].
  rewrite Hr in Hr'. injection Hr' as <-. apply elem_of_seq in Hib. lia.
Qed.

(** ** The text *)

Section text.
  Context {A : Type}.
  Implicit Types (t : list A) (entity : nat * kind * Z -> option (list A)).

  Lemma pieces_concat fuel g t : (length t <= fuel)%nat -> (0 < g)%nat -> concat (pieces fuel g t) = t.
  Proof.
    revert t. induction fuel as [|f IH]; intros t Hl Hg; simpl.
    - destruct t; [done|simpl in Hl; lia].
    - destruct t as [|x t]; [done|]. cbn [concat]. rewrite IH; [apply take_drop| |done].
      rewrite drop_length. simpl in *. lia.
  Qed.
  Lemma pieces_short fuel g t p : (0 < g)%nat -> p ∈ pieces fuel g t -> (0 < length p <= g)%nat.
  Proof.
    intros Hg. revert t. induction fuel as [|f IH]; intros t; simpl; [intros H; by apply elem_of_nil in H|].
    destruct t as [|x t]; [intros H; by apply elem_of_nil in H|].
    rewrite elem_of_cons. intros [->|H]; [|by apply IH in H].
    rewrite take_length. simpl. lia.
  Qed.

  Lemma concat_concat {B} (ls : list (list (list B))) : concat (concat ls) = concat (map (@concat B) ls).
  Proof. induction ls as [|l ls IH]; simpl; [done|]. by rewrite concat_app, IH. Qed.

  Lemma worker_text_app entity l1 l2 : worker_text entity (l1 ++ l2) = worker_text entity l1 ++ worker_text entity l2.
  Proof. unfold worker_text. by rewrite map_app, concat_app. Qed.
  Lemma worker_text_concat entity ls : worker_text entity (concat ls) = concat (map (worker_text entity) ls).
  Proof. induction ls as [|l ls IH]; simpl; [done|]. by rewrite worker_text_app, IH. Qed.

  Lemma dump_pieces_text g entity block ranges : (0 < g)%nat ->
    concat (dump_pieces g entity block ranges) = worker_text entity (dump_items block ranges).
  Proof.
    intros Hg. unfold dump_pieces, dump_items. rewrite concat_concat, worker_text_concat. f_equal.
    rewrite !map_map. apply map_ext. intros ib. unfold block_pieces, one_block.
    rewrite concat_concat, worker_text_concat. f_equal.
    change (map ?f ?l) with (f <$> l). rewrite !fmap_imap. apply imap_ext. intros n r _. simpl.
    by apply pieces_concat.
  Qed.
  Lemma dump_pieces_short g entity block ranges p : (0 < g)%nat ->
    p ∈ dump_pieces g entity block ranges -> (0 < length p <= g)%nat.
  Proof.
    intros Hg H. apply elem_concat_map in H as (ib & _ & H). apply elem_concat in H as (l & Hp & Hl).
    apply elem_of_lookup_imap_1 in Hl as (n & r & -> & _). by apply pieces_short in Hp.
  Qed.

  (** Every content the file has on the way extends the first one by a prefix of the text. *)
  Lemma write_pieces_prefix fails (ps : list (list A)) : forall k f g,
    g ∈ (write_pieces fails k ps f).1 -> exists u v, g = f ++ u /\ concat ps = u ++ v.
  Proof.
    induction ps as [|p ps IH]; intros k f g; simpl; [intros H; by apply elem_of_nil in H|].
    destruct (fails k); simpl; [intros H; by apply elem_of_nil in H|].
    rewrite elem_of_cons. intros [->|H]; [by exists p, (concat ps)|].
    apply IH in H as (u & v & -> & ->). exists (p ++ u), v. by rewrite !(assoc_L (++)).
  Qed.
  Lemma last_default {B} (l : list B) : forall x d d', List.last (x :: l) d = List.last (x :: l) d'.
  Proof. induction l as [|y l IHl]; intros x d d'; [done|]. exact (IHl y d d'). Qed.
  Lemma write_pieces_last fails (ps : list (list A)) : forall k f,
    (write_pieces fails k ps f).2 = IRM_OK ->
    List.last (f :: (write_pieces fails k ps f).1) f = f ++ concat ps
    /\ forall i, (i < length ps)%nat -> fails (k + i)%nat = false.
  Proof.
    induction ps as [|p ps IH]; intros k f; cbn [write_pieces].
    - intros _. simpl. rewrite app_nil_r. split; [done|lia].
    - destruct (fails k) eqn:E; [done|]. cbn [fst snd concat]. intros H.
      destruct (IH (S k) (f ++ p) H) as [H1 H2]. split.
      + rewrite (assoc_L (++)), <- H1. set (l := (write_pieces fails (S k) ps (f ++ p)).1).
        change (List.last ((f ++ p) :: l) f = List.last ((f ++ p) :: l) (f ++ p)).
        apply last_default.
      + intros [|i] Hi; [by rewrite Nat.add_0_r|]. rewrite Nat.add_succ_r. apply (H2 i). simpl in Hi. lia.
  Qed.
  Lemma write_pieces_ok fails (ps : list (list A)) : forall k f,
    (forall i, (i < length ps)%nat -> fails (k + i)%nat = false) -> (write_pieces fails k ps f).2 = IRM_OK.
  Proof.
    induction ps as [|p ps IH]; intros k f H; simpl; [done|].
    pose proof (H 0%nat ltac:(simpl; lia)) as H0. rewrite Nat.add_0_r in H0. rewrite H0. simpl.
    apply IH. intros i Hi. rewrite Nat.add_succ_comm. apply H. simpl. lia.
  Qed.
  Lemma write_pieces_codes fails (ps : list (list A)) k f :
    (write_pieces fails k ps f).2 = IRM_OK \/ (write_pieces fails k ps f).2 = IRM_FAIL.
  Proof. revert k f. induction ps as [|p ps IH]; intros k f; simpl; [by left|]. destruct (fails k); [by right|apply IH]. Qed.

  (** ** FileRename *)

  Lemma rename_kept ok1 ok2 ok3 temp name backup old new (fs : gmap string (list A)) g :
    temp <> name -> temp <> backup -> name <> backup ->
    fs !! name = Some old -> fs !! temp = Some new ->
    g ∈ file_rename ok1 ok2 ok3 temp name backup fs -> kept name backup old new g.
  Proof.
    intros H1 H2 H3 Hn Ht. unfold file_rename. rewrite Hn.
    set (fs1 := match fs !! backup with Some _ => fs_remove ok1 backup fs | None => fs end).
    assert (fs1 !! name = Some old /\ fs1 !! temp = Some new) as [Hn1 Ht1].
    { unfold fs1, fs_remove. 
      destruct (fs !! backup), ok1; [|done|done|done]. rewrite !lookup_delete_ne by congruence. done. }
    set (fs2 := fs_rename ok2 name backup fs1).
    assert ((fs2 !! name = Some old \/ fs2 !! backup = Some old) /\ fs2 !! temp = Some new) as [Hn2 Ht2].
    { unfold fs2, fs_rename in *. destruct ok2; [|eauto]. rewrite Hn1. destruct (decide (name = backup)); [done|].
      split; [right; by rewrite lookup_insert|]. by rewrite lookup_insert_ne, lookup_delete_ne by congruence. }
    rewrite !elem_of_cons, elem_of_nil. unfold kept. intros [->|[->|[->|[->|[]]]]]; [eauto|eauto|tauto|].
    unfold fs_rename at 1 2 3. destruct ok3; [|tauto]. rewrite Ht2. destruct (decide (temp = name)); [done|].
    right; right. by rewrite lookup_insert.
  Qed.
  Lemma rename_done temp name backup new (fs : gmap string (list A)) :
    temp <> name -> temp <> backup -> name <> backup -> fs !! temp = Some new ->
    exists g, List.last (file_rename true true true temp name backup fs) fs = g
      /\ g !! name = Some new /\ g !! temp = None
      /\ g !! backup = (match fs !! name with Some old => Some old | None => fs !! backup end)
      /\ forall x, x <> temp -> x <> name -> x <> backup -> g !! x = fs !! x.
  Proof.
    intros H1 H2 H3 Ht. unfold file_rename. destruct (fs !! name) as [old|] eqn:Hn.
    - set (fs1 := match fs !! backup with Some _ => fs_remove true backup fs | None => fs end).
      assert (forall x, x <> backup -> fs1 !! x = fs !! x) as Hx.
      { intros x Hx. unfold fs1, fs_remove in *. destruct (fs !! backup); [|done]. by rewrite lookup_delete_ne by congruence. }
      simpl List.last. eexists; split; [reflexivity|]. unfold fs_rename.
      rewrite (Hx name), Hn by done. destruct (decide (name = backup)); [done|].
      rewrite lookup_insert_ne, lookup_delete_ne, (Hx temp), Ht by congruence.
      destruct (decide (temp = name)); [done|]. split_and!.
      + by rewrite lookup_insert.
      + by rewrite lookup_insert_ne, lookup_delete by congruence.
      + rewrite lookup_insert_ne, lookup_delete_ne, lookup_insert by congruence. done.
      + intros x Ha Hb Hc. rewrite lookup_insert_ne, lookup_delete_ne, lookup_insert_ne, lookup_delete_ne by congruence.
        by apply Hx.
    - simpl List.last. eexists; split; [reflexivity|]. unfold fs_rename. rewrite Ht.
      destruct (decide (temp = name)); [done|]. split_and!.
      + by rewrite lookup_insert.
      + by rewrite lookup_insert_ne, lookup_delete by congruence.
      + by rewrite lookup_insert_ne, lookup_delete_ne by congruence.
      + intros x Ha Hb Hc. by rewrite lookup_insert_ne, lookup_delete_ne by congruence.
  Qed.
End text.
