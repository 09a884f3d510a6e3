(** The cells of the processes of the MPI build: facts about ranges, parts of vectors and writes. *)
From Coq Require Import ZArith Ascii.
From stdpp Require Import prelude gmap relations.
From Verif.Partition Require Import Spec EndCellsProofs.
From Verif.Mapping Require Import Model Spec.
From Verif.Mpi Require Import Comm Methods Model Spec CommProofs.
Local Open Scope Z_scope.

(** ** Lists *)
Lemma concat_lookup {A} (ls : list (list A)) n o l :
  ls !! n = Some l -> (o < length l)%nat ->
  concat ls !! (length (concat (take n ls)) + o)%nat = l !! o.
Proof.
  revert n. induction ls as [|l0 ls IH]; intros [|n] H Ho; cbn in H |- *; try done.
  - injection H as ->. by rewrite lookup_app_l.
  - rewrite app_length, lookup_app_r by lia.
    replace (length l0 + length (concat (take n ls)) + o - length l0)%nat with (length (concat (take n ls)) + o)%nat by lia.
    by apply IH.
Qed.
Lemma concat_width {A} w (ls : list (list A)) :
  (forall l, l ∈ ls -> length l = w) -> length (concat ls) = (length ls * w)%nat.
Proof.
  induction ls as [|l ls IH]; intros H; [done|]. cbn. rewrite app_length, IH, (H l); [done|left|].
  intros l' Hl'. apply H. by right.
Qed.
Lemma concat_row {A} w (ls : list (list A)) n i l :
  (forall l, l ∈ ls -> length l = w) -> ls !! n = Some l -> (i < w)%nat ->
  concat ls !! (n * w + i)%nat = l !! i.
Proof.
  intros Hw Hn Hi. rewrite <- (concat_lookup ls n i l Hn).
  - f_equal. f_equal. rewrite (concat_width w).
    + rewrite take_length_le; [done|]. apply lookup_lt_Some in Hn. lia.
    + intros l' Hl'. apply Hw. by apply elem_of_take in Hl' as (k & Hk & _); eapply elem_of_list_lookup_2.
  - rewrite (Hw l); [done|]. by eapply elem_of_list_lookup_2.
Qed.
Lemma concat_map_snoc {A B} (f : A -> list B) l x : concat (map f (l ++ [x])) = concat (map f l) ++ f x.
Proof. rewrite map_app, concat_app. cbn. by rewrite app_nil_r. Qed.
Lemma concat_map_single {A B} (f : A -> B) l : concat (map (fun x => [f x]) l) = map f l.
Proof. induction l as [|x l IH]; [done|]. cbn. by rewrite IH. Qed.
Lemma mapM_fun {A B} (f : A -> option B) (g : A -> B) l :
  (forall x, x ∈ l -> f x = Some (g x)) -> mapM f l = Some (map g l).
Proof.
  induction l as [|x l IH]; intros H; [done|]. cbn. rewrite (H x) by left. cbn.
  rewrite IH; [done|]. intros y Hy. apply H. by right.
Qed.
Lemma mapM_ex {A B} (f : A -> option B) l :
  (forall x, x ∈ l -> exists y, f x = Some y) -> exists k, mapM f l = Some k.
Proof.
  induction l as [|x l IH]; intros H; [by exists []|]. cbn.
  destruct (H x) as [y ->]; [left|]. cbn.
  destruct IH as [k ->]; [|by eexists]. intros y' Hy. apply H. by right.
Qed.
Lemma mapM_elem {A B} (f : A -> option B) l k y :
  mapM f l = Some k -> (y ∈ k <-> exists x, x ∈ l /\ f x = Some y).
Proof.
  intros E. apply mapM_Some in E. induction E as [|x y' l k Hxy E IH].
  - split; [by intros ?%elem_of_nil|]. by intros (x & ?%elem_of_nil & _).
  - rewrite elem_of_cons, IH. split.
    + intros [-> | (x' & Hx & Hf)]; [exists x; split; [left|done]|exists x'; split; [by right|done]].
    + intros (x' & Hx & Hf). apply elem_of_cons in Hx as [-> | Hx]; [left; congruence|right; eauto].
Qed.
Lemma elem_of_concat {A} (ls : list (list A)) x : x ∈ concat ls <-> exists l, l ∈ ls /\ x ∈ l.
Proof.
  induction ls as [|l ls IH]; cbn.
  - split; [by intros ?%elem_of_nil|]. by intros (l & ?%elem_of_nil & _).
  - rewrite elem_of_app, IH. split.
    + intros [H|(l' & H & Hx)]; [exists l; split; [left|done]|exists l'; split; [by right|done]].
    + intros (l' & H & Hx). apply elem_of_cons in H as [-> | H]; eauto.
Qed.
Lemma resize_length {A} n (x : A) l : length (resize n x l) = n.
Proof. unfold resize. rewrite app_length, take_length, replicate_length. lia. Qed.
Lemma resize_id {A} n (x : A) l : length l = n -> resize n x l = l.
Proof. intros <-. unfold resize. rewrite firstn_all, Nat.sub_diag. cbn. apply app_nil_r. Qed.
Lemma elem_of_imap_pair {A} (l : list A) j x : (j, x) ∈ imap (fun i c => (i, c)) l <-> l !! j = Some x.
Proof.
  rewrite elem_of_list_lookup. split.
  - intros (i & H). rewrite list_lookup_imap in H. destruct (l !! i) eqn:E; [|done]. cbn in H. by injection H as <- <-.
  - intros H. exists j. rewrite list_lookup_imap, H. done.
Qed.

(** ** Writes *)
Lemma store_ok {A} (ws : list (Z * A)) : forall dst,
  (forall x y, (x, y) ∈ ws -> 0 <= x < Z.of_nat (length dst)) ->
  exists r, store ws dst = Some r /\ length r = length dst.
Proof.
  induction ws as [|[x y] ws IH]; intros dst H; [by exists dst|]. cbn.
  rewrite decide_True by (apply (H x y); left).
  destruct (IH (<[Z.to_nat x:=y]> dst)) as (r & -> & Hr).
  - intros x' y' Hx. rewrite insert_length. apply (H x' y'). by right.
  - exists r. by rewrite insert_length in Hr.
Qed.
Lemma store_other {A} (ws : list (Z * A)) : forall dst r x,
  store ws dst = Some r -> 0 <= x -> (forall y, (x, y) ∉ ws) -> r !! Z.to_nat x = dst !! Z.to_nat x.
Proof.
  induction ws as [|[x' y'] ws IH]; intros dst r x E Hx Hn; cbn in E.
  - by injection E as ->.
  - destruct (decide _) as [Hd|]; [|done].
    rewrite (IH _ _ x E Hx); [|intros y Hy; apply (Hn y); by right].
    apply list_lookup_insert_ne. intros Heq. apply (Hn y'). assert (x = x') as -> by lia. left.
Qed.
Lemma store_written {A} (ws : list (Z * A)) : forall dst r x y,
  store ws dst = Some r -> 0 <= x -> (x, y) ∈ ws -> (forall y', (x, y') ∈ ws -> y' = y) -> r !! Z.to_nat x = Some y.
Proof.
  induction ws as [|[x' y'] ws IH]; intros dst r x y E Hx Hin Hu; cbn in E; [by apply elem_of_nil in Hin|].
  destruct (decide _) as [Hd|]; [|done].
  destruct (decide (x ∈ ws.*1)) as [Hw|Hw].
  - apply elem_of_list_fmap in Hw as ([x1 y1] & -> & Hw). cbn in *.
    apply (IH _ _ x1 y E Hx); [|intros; apply Hu; by right].
    by rewrite <- (Hu y1) by (by right).
  - rewrite (store_other _ _ _ _ E Hx).
    + apply elem_of_cons in Hin as [[= -> ->]|Hin].
      * apply list_lookup_insert. lia.
      * destruct Hw. apply elem_of_list_fmap. by exists (x, y).
    + intros y1 Hy. apply Hw. apply elem_of_list_fmap. by exists (x, y1).
Qed.
(** Writes that do not contradict each other *)
Lemma store_fun {A} (ws : list (Z * A)) dst :
  (forall x y, (x, y) ∈ ws -> 0 <= x < Z.of_nat (length dst)) ->
  (forall x y y', (x, y) ∈ ws -> (x, y') ∈ ws -> y' = y) ->
  exists r, store ws dst = Some r /\ length r = length dst /\
    (forall x y, (x, y) ∈ ws -> r !! Z.to_nat x = Some y) /\
    (forall x, 0 <= x -> (forall y, (x, y) ∉ ws) -> r !! Z.to_nat x = dst !! Z.to_nat x).
Proof.
  intros H1 H2. destruct (store_ok ws dst H1) as (r & E & Hr). exists r. split_and!; [done|done| |].
  - intros x y Hx. apply (store_written _ _ _ _ _ E); [apply (H1 _ _ Hx)|done|]. intros y' Hy. by apply (H2 x).
  - intros x Hx Hn. by apply (store_other _ _ _ _ E).
Qed.

(** ** Ranges *)
Section ranges.
  Context {t : nat} {m : mapping_state} (G : good_map t m).

  Lemma gm_pos : (0 < t)%nat.
  Proof. rewrite <- (gm_length _ _ G). destruct (start_cell m) eqn:E; [|cbn; lia]. by destruct (vs_nonempty_list _ _ _ (gm_split _ _ G)). Qed.
  Lemma gm_range n : (n < t)%nat ->
    exists b e, start_cell m !! n = Some b /\ end_cell m !! n = Some e /\ 0 <= b <= e /\ e < count_chemistry m /\
      range_len m n = Some (Z.to_nat (e - b + 1)) /\ range_start m n = b.
  Proof.
    intros Hn. pose proof (gm_split _ _ G) as V. rewrite <- (gm_length _ _ G) in Hn.
    destruct (lookup_lt_is_Some_2 _ _ Hn) as [b Hb].
    rewrite (vs_len _ _ _ V) in Hn. destruct (lookup_lt_is_Some_2 _ _ Hn) as [e He].
    exists b, e. pose proof (vs_nonempty _ _ _ V _ _ _ Hb He) as Hbe.
    assert (owns (start_cell m) (end_cell m) n b) as H1 by (exists b, e; split_and!; [done|done|lia|lia]).
    assert (owns (start_cell m) (end_cell m) n e) as H2 by (exists b, e; split_and!; [done|done|lia|lia]).
    pose proof (owns_in_range _ _ _ _ _ V H1). pose proof (owns_in_range _ _ _ _ _ V H2).
    split_and!; try done; try lia.
    - unfold range_len. rewrite Hb, He. by rewrite decide_True by lia.
    - unfold range_start. by rewrite Hb.
  Qed.
  Lemma gm_len n : (n < t)%nat -> range_len m n = Some (length (own_cells m n)).
  Proof.
    intros Hn. destruct (gm_range n Hn) as (b & e & _ & _ & _ & _ & E & _). rewrite E.
    unfold own_cells. rewrite E. by rewrite map_length, seq_length.
  Qed.
  Lemma own_cells_lookup n b e l : start_cell m !! n = Some b -> end_cell m !! n = Some e ->
    (l < length (own_cells m n))%nat -> own_cells m n !! l = Some (b + Z.of_nat l).
  Proof.
    intros Hb He. unfold own_cells, range_len, range_start. rewrite Hb, He. destruct (decide _); cbn; [|lia].
    rewrite map_length, seq_length. intros Hl.
    change (map ?f ?l) with (f <$> l). rewrite list_lookup_fmap, lookup_seq_lt by done. done.
  Qed.
  Lemma own_cells_length n b e : start_cell m !! n = Some b -> end_cell m !! n = Some e -> b <= e ->
    Z.of_nat (length (own_cells m n)) = e - b + 1.
  Proof.
    intros Hb He Hle. unfold own_cells, range_len, range_start. rewrite Hb, He. rewrite decide_True by lia.
    rewrite map_length, seq_length. lia.
  Qed.
  Lemma own_cells_elem n j : (n < t)%nat -> (j ∈ own_cells m n <-> owns (start_cell m) (end_cell m) n j).
  Proof.
    intros Hn. destruct (gm_range n Hn) as (b & e & Hb & He & Hbe & _). split.
    - intros H. apply elem_of_list_lookup in H as (l & Hl). pose proof (lookup_lt_Some _ _ _ Hl) as Hlt.
      rewrite (own_cells_lookup n b e l Hb He Hlt) in Hl. injection Hl as <-.
      pose proof (own_cells_length n b e Hb He ltac:(lia)). exists b, e. split_and!; [done|done|lia|lia].
    - intros (b' & e' & Hb' & He' & Hj). assert (b' = b) as -> by congruence. assert (e' = e) as -> by congruence.
      pose proof (own_cells_length n b e Hb He ltac:(lia)).
      apply elem_of_list_lookup. exists (Z.to_nat (j - b)). rewrite (own_cells_lookup n b e) by (done || lia).
      f_equal. lia.
  Qed.
  Lemma gm_next n : (S n < t)%nat -> range_start m (S n) = range_start m n + Z.of_nat (length (own_cells m n)).
  Proof.
    intros Hn. destruct (gm_range n ltac:(lia)) as (b & e & Hb & He & Hbe & _ & _ & ->).
    destruct (gm_range (S n) Hn) as (b' & e' & Hb' & He' & _ & _ & _ & ->).
    rewrite (own_cells_length n b e) by (done || lia).
    rewrite (vs_contig _ _ _ (gm_split _ _ G) n e b' He Hb'). lia.
  Qed.
  Lemma gm_first : range_start m 0 = 0.
  Proof. unfold range_start. by rewrite (vs_first _ _ _ (gm_split _ _ G)). Qed.
  Lemma gm_last n : S n = t -> range_start m n + Z.of_nat (length (own_cells m n)) = count_chemistry m.
  Proof.
    intros Hn. destruct (gm_range n ltac:(lia)) as (b & e & Hb & He & Hbe & _ & _ & ->).
    rewrite (own_cells_length n b e) by (done || lia).
    pose proof (vs_last _ _ _ (gm_split _ _ G)) as E. rewrite last_lookup in E.
    rewrite <- (vs_len _ _ _ (gm_split _ _ G)), (gm_length _ _ G), <- Hn in E. cbn in E.
    rewrite He in E. injection E as ->. lia.
  Qed.
  (** Process of a cell *)
  Lemma gm_owner j : 0 <= j < count_chemistry m -> exists n, (n < t)%nat /\ owns (start_cell m) (end_cell m) n j.
  Proof.
    intros Hj. destruct (valid_split_owner_exists _ _ _ _ (gm_split _ _ G) Hj) as [n Hn].
    exists n. split; [|done]. destruct Hn as (b & e & Hb & _). apply lookup_lt_Some in Hb. by rewrite <- (gm_length _ _ G).
  Qed.
  Lemma gm_backward j c : 0 <= j -> backward m !! Z.to_nat j = Some c -> j < count_chemistry m.
  Proof. intros Hj H. apply lookup_lt_Some in H. pose proof (gm_count _ _ G). lia. Qed.
  Lemma gm_cell j : 0 <= j < count_chemistry m -> exists x c, backward m !! Z.to_nat j = Some (x :: c) /\ 0 <= x < nxyz m.
  Proof.
    intros Hj. pose proof (gm_count _ _ G).
    destruct (lookup_lt_is_Some_2 (backward m) (Z.to_nat j)) as [c Hc]; [lia|].
    destruct (gm_cells _ _ G _ _ Hc) as [Hne Hx]. destruct c as [|x c]; [done|].
    exists x, c. split; [done|]. apply Hx. left.
  Qed.
  Lemma gm_lens : mapM (range_len m) (seq 0 t) = Some (map (fun n => length (own_cells m n)) (seq 0 t)).
  Proof. apply mapM_fun. intros n Hn. apply elem_of_seq in Hn. apply gm_len. lia. Qed.

  (** The number of values before those of process [n] *)
  Lemma before_length {A} w (f : Z -> list A) n : (n < t)%nat -> (forall j, length (f j) = w) ->
    Z.of_nat (length (concat (map (fun n => concat (map f (own_cells m n))) (seq 0 n)))) = range_start m n * Z.of_nat w.
  Proof.
    intros Hn Hf. induction n as [|n IH]; [by rewrite gm_first|].
    rewrite seq_S, concat_map_snoc, app_length, Nat2Z.inj_add, IH by lia. cbn [plus].
    rewrite gm_next by done. rewrite (concat_width w), map_length; [lia|].
    intros l Hl. apply elem_of_list_fmap in Hl as (j & -> & _). done.
  Qed.
End ranges.

(** ** Gathering *)
Section gather.
  Context {D X : Type} (L : local D X) {t : nat} {m : mapping_state} (G : good_map t m).

  Lemma gathered_aux w vs : forall n pre buf,
    (n + length vs <= t)%nat ->
    (forall i v, vs !! i = Some v -> length (nums_of v) = (length (own_cells m (n + i)) * w)%nat) ->
    length buf = length (concat (map nums_of vs)) ->
    (vs <> [] -> Z.of_nat (length pre) = range_start m n * Z.of_nat w) ->
    foldl (fun b nv =>
             match b with
             | Some b' =>
                 let d := range_start m (fst nv) * Z.of_nat w in
                 if decide (0 <= d /\ (Z.to_nat d + length (snd nv) <= length b')%nat)
                 then Some (list_inserts (Z.to_nat d) (snd nv) b') else None
             | None => None
             end) (Some (pre ++ buf)) (imap (fun i v => ((n + i)%nat, @nums_of D v)) vs)
    = Some (pre ++ concat (map nums_of vs)).
  Proof.
    induction vs as [|v vs IH]; intros n pre buf Hn Hl Hb Hp.
    - cbn in *. destruct buf; [done|cbn in Hb; lia].
    - cbn [imap foldl fst snd map concat]. cbn [map concat length] in Hb. rewrite app_length in Hb.
      specialize (Hp ltac:(done)). rewrite Nat.add_0_r.
      rewrite decide_True by (rewrite app_length; lia).
      set (l := nums_of v) in *.
      assert (list_inserts (Z.to_nat (range_start m n * Z.of_nat w)) l (pre ++ buf) = (pre ++ l) ++ drop (length l) buf) as ->.
      { replace (Z.to_nat (range_start m n * Z.of_nat w)) with (length pre) by lia.
        apply list_eq. intros i. destruct (decide (i < length pre)%nat).
        { rewrite list_lookup_inserts_lt by lia. rewrite <- app_assoc, !lookup_app_l by lia. done. }
        destruct (decide (i < length pre + length l)%nat).
        { rewrite list_lookup_inserts; [|lia|rewrite app_length; lia].
          rewrite <- app_assoc, (lookup_app_r pre) by lia. by rewrite lookup_app_l by lia. }
        rewrite list_lookup_inserts_ge by lia. rewrite lookup_app_r by lia.
        rewrite lookup_app_r by (rewrite app_length; lia). rewrite lookup_drop, app_length. f_equal. lia. }
      assert (imap ((fun (i : nat) (v : msg D) => ((n + i)%nat, nums_of v)) ∘ S) vs
              = imap (fun i v => ((S n + i)%nat, nums_of v)) vs) as Ei.
      { apply imap_ext. intros i x _. cbn. f_equal. lia. }
      rewrite Ei, IH.
      + by rewrite <- app_assoc.
      + cbn in Hn. lia.
      + intros i v' Hv. specialize (Hl (S i) v' Hv). rewrite Hl. f_equal. f_equal. f_equal. lia.
      + rewrite drop_length. lia.
      + intros Hne. cbn in Hn. destruct vs; [done|]. cbn in Hn.
        rewrite (gm_next G) by lia. rewrite app_length, Nat2Z.inj_add, Hp.
        specialize (Hl O v eq_refl). rewrite Nat.add_0_r in Hl. fold l in Hl. lia.
  Qed.

  (** [row n j]: what process [n] gives for cell [j] *)
  Context (w : nat) (row : nat -> Z -> list D) (Hrow : forall n j, length (row n j) = w).
  Definition part (n : nat) : list D := concat (map (row n) (own_cells m n)).
  Lemma part_length n : length (part n) = (length (own_cells m n) * w)%nat.
  Proof.
    unfold part. rewrite (concat_width w), map_length; [done|].
    intros l Hl. apply elem_of_list_fmap in Hl as (j & -> & _). done.
  Qed.
  Lemma parts_before n : (n < t)%nat ->
    Z.of_nat (length (concat (map part (seq 0 n)))) = range_start m n * Z.of_nat w.
  Proof.
    intros Hn. induction n as [|n IH]; [by rewrite (gm_first G)|].
    rewrite seq_S, concat_map_snoc, app_length, Nat2Z.inj_add, IH by lia. cbn [plus].
    rewrite (gm_next G) by done. rewrite part_length. lia.
  Qed.
  Lemma parts_length : Z.of_nat (length (concat (map part (seq 0 t)))) = count_chemistry m * Z.of_nat w.
  Proof.
    pose proof (gm_pos G) as Ht. assert (t = S (t - 1)) as Et by lia. rewrite Et.
    rewrite seq_S, concat_map_snoc, app_length, Nat2Z.inj_add. cbn [plus].
    rewrite parts_before by lia. rewrite part_length, <- (gm_last G (t - 1)) by lia. lia.
  Qed.
  Lemma parts_lookup j n i : owns (start_cell m) (end_cell m) n j -> (i < w)%nat ->
    concat (map part (seq 0 t)) !! (Z.to_nat j * w + i)%nat = row n j !! i.
  Proof.
    intros (b & e & Hb & He & Hj) Hi.
    assert (n < t)%nat as Hn by (rewrite <- (gm_length _ _ G); by eapply lookup_lt_Some).
    destruct (gm_range G n Hn) as (b' & e' & Hb' & He' & Hbe & Hec & _ & Hs).
    assert (b' = b) as -> by congruence. assert (e' = e) as -> by congruence.
    pose proof (own_cells_length n b e Hb He ltac:(lia)) as Hlen.
    assert (map part (seq 0 t) !! n = Some (part n)) as Hp.
    { change (map ?f ?l) with (f <$> l). by rewrite list_lookup_fmap, lookup_seq_lt by done. }
    assert (take n (map part (seq 0 t)) = map part (seq 0 n)) as Htk.
    { change (map ?f ?l) with (f <$> l). rewrite <- fmap_take. f_equal. apply list_eq. intros i'.
      destruct (decide (i' < n)%nat).
      - rewrite lookup_take, !lookup_seq_lt by lia. done.
      - rewrite lookup_take_ge, lookup_seq_ge by lia. done. }
    pose proof (parts_before n Hn) as Hbef. rewrite Hs in Hbef.
    assert (Hin : (Z.to_nat (j - b) * w + i < length (own_cells m n) * w)%nat).
    { assert (Z.to_nat (j - b) < length (own_cells m n))%nat by lia. nia. }
    replace (Z.to_nat j * w + i)%nat
      with (length (concat (take n (map part (seq 0 t)))) + (Z.to_nat (j - b) * w + i))%nat by (rewrite Htk; nia).
    rewrite (concat_lookup _ n _ (part n) Hp) by (rewrite part_length; done).
    unfold part. apply (concat_row w); [| |done].
    - intros l Hl. apply elem_of_list_fmap in Hl as (j' & -> & _). done.
    - change (map ?f ?l) with (f <$> l). rewrite list_lookup_fmap, (own_cells_lookup n b e) by (done || lia).
      cbn. do 2 f_equal. lia.
  Qed.
  Lemma gathered_parts (vs : list (msg D)) :
    vs = map (fun n => Nums (part n)) (seq 0 t) -> gathered L m w vs = Some (concat (map part (seq 0 t))).
  Proof.
    intros ->. unfold gathered.
    set (vs := map (fun n => Nums (part n)) (seq 0 t)).
    assert (map nums_of vs = map part (seq 0 t)) as Hv by (unfold vs; rewrite map_map; done).
    pose proof (gathered_aux w vs 0 [] (replicate (Z.to_nat (count_chemistry m) * w) (l_zero L))) as H.
    cbn [plus app] in H. rewrite H.
    - by rewrite Hv.
    - unfold vs. rewrite map_length, seq_length. lia.
    - intros i v Hi. unfold vs in Hi. change (map ?f ?l) with (f <$> l) in Hi. rewrite list_lookup_fmap in Hi.
      destruct (decide (i < t)%nat).
      + rewrite lookup_seq_lt in Hi by done. cbn in Hi. injection Hi as <-. apply part_length.
      + rewrite lookup_seq_ge in Hi by lia. done.
    - rewrite Hv, replicate_length. pose proof parts_length. nia.
    - intros _. by rewrite (gm_first G).
  Qed.

  Lemma key_inj n i i' x x' : 0 <= x < n -> 0 <= x' < n ->
    Z.of_nat i * n + x = Z.of_nat i' * n + x' -> i = i' /\ x = x'.
  Proof. intros. assert (Z.of_nat i = Z.of_nat i') by nia. split; [lia|nia]. Qed.

  (** Values per cell to grid cells *)
  Lemma spread_ok (buf dst : list D) :
    Z.of_nat (length buf) = count_chemistry m * Z.of_nat w ->
    Z.of_nat (length dst) = nxyz m * Z.of_nat w ->
    exists r, spread m w buf dst = Some r /\ length r = length dst /\
      (forall j c x i, backward m !! j = Some c -> x ∈ c -> (i < w)%nat ->
         r !! Z.to_nat (Z.of_nat i * nxyz m + x) = buf !! (j * w + i)%nat) /\
      (forall x i, 0 <= x < nxyz m -> (forall j c, backward m !! j = Some c -> x ∉ c) ->
         r !! Z.to_nat (Z.of_nat i * nxyz m + x) = dst !! Z.to_nat (Z.of_nat i * nxyz m + x)).
  Proof.
    intros Hb Hd. unfold spread.
    destruct (mapM_ex (fun jc => mapM (fun x => mapM (fun i =>
                              match buf !! (fst jc * w + i)%nat with
                              | Some y => Some (Z.of_nat i * nxyz m + x, y)
                              | None => None
                              end) (seq 0 w)) (snd jc))
            (imap (fun j c => (j, c)) (backward m))) as [wr Ewr].
    { intros [j c] Hjc. cbn. apply elem_of_imap_pair in Hjc.
      apply mapM_ex. intros x _. apply mapM_ex. intros i Hi. apply elem_of_seq in Hi.
      assert (j * w + i < length buf)%nat as Hlt.
      { apply lookup_lt_Some in Hjc. pose proof (gm_count _ _ G). nia. }
      destruct (lookup_lt_is_Some_2 _ _ Hlt) as [y ->]. by eexists. }
    rewrite Ewr.
    assert (Hw : forall z y, (z, y) ∈ concat (concat wr) <->
              exists j c x i, backward m !! j = Some c /\ x ∈ c /\ (i < w)%nat /\ z = Z.of_nat i * nxyz m + x /\ buf !! (j * w + i)%nat = Some y).
    { intros z y. rewrite elem_of_concat. setoid_rewrite elem_of_concat. setoid_rewrite (mapM_elem _ _ _ _ Ewr). split.
      - intros (l & (ll & ([j c] & Hjc & Ej) & Hl) & Hz). apply elem_of_imap_pair in Hjc. cbn in Ej.
        apply (mapM_elem _ _ _ _ Ej) in Hl as (x & Hx & Ex).
        apply (mapM_elem _ _ _ _ Ex) in Hz as (i & Hi & Ei). apply elem_of_seq in Hi.
        destruct (buf !! (j * w + i)%nat) as [y'|] eqn:Ey; [|done]. injection Ei as <- <-.
        exists j, c, x, i. split_and!; [done|done|lia|done|done].
      - intros (j & c & x & i & Hjc & Hx & Hi & -> & Hy).
        assert (exists ll, mapM (fun x => mapM (fun i =>
                              match buf !! (j * w + i)%nat with
                              | Some y => Some (Z.of_nat i * nxyz m + x, y)
                              | None => None
                              end) (seq 0 w)) c = Some ll) as [ll Ell].
        { apply mapM_ex. intros x' _. apply mapM_ex. intros i' Hi'. apply elem_of_seq in Hi'.
          assert (j * w + i' < length buf)%nat as Hlt.
          { apply lookup_lt_Some in Hjc. pose proof (gm_count _ _ G). nia. }
          destruct (lookup_lt_is_Some_2 _ _ Hlt) as [y' ->]. by eexists. }
        assert (exists l, mapM (fun i =>
                              match buf !! (j * w + i)%nat with
                              | Some y => Some (Z.of_nat i * nxyz m + x, y)
                              | None => None
                              end) (seq 0 w) = Some l) as [l El].
        { apply mapM_ex. intros i' Hi'. apply elem_of_seq in Hi'.
          assert (j * w + i' < length buf)%nat as Hlt.
          { apply lookup_lt_Some in Hjc. pose proof (gm_count _ _ G). nia. }
          destruct (lookup_lt_is_Some_2 _ _ Hlt) as [y' ->]. by eexists. }
        exists l. split.
        + exists ll. split.
          * exists (j, c). split; [by apply elem_of_imap_pair|done].
          * apply (mapM_elem _ _ _ _ Ell). by exists x.
        + apply (mapM_elem _ _ _ _ El). exists i. split; [apply elem_of_seq; lia|]. by rewrite Hy. }
    destruct (store_fun (concat (concat wr)) dst) as (r & Er & Hr & Hin & Hout).
    - intros z y Hz. apply Hw in Hz as (j & c & x & i & Hjc & Hx & Hi & -> & _).
      destruct (gm_cells _ _ G _ _ Hjc) as [_ Hcx]. specialize (Hcx x Hx). nia.
    - intros z y y' H1 H2. apply Hw in H1 as (j & c & x & i & Hjc & Hx & Hi & Hz & Hy).
      apply Hw in H2 as (j' & c' & x' & i' & Hjc' & Hx' & Hi' & Hz' & Hy').
      destruct (gm_cells _ _ G _ _ Hjc) as [_ Hcx]. destruct (gm_cells _ _ G _ _ Hjc') as [_ Hcx'].
      destruct (key_inj (nxyz m) i i' x x') as [-> ->]; [by apply Hcx|by apply Hcx'|congruence|].
      assert (j' = j) as -> by (by eapply (gm_disjoint _ _ G)). congruence.
    - exists r. split_and!; [done|done| |].
      + intros j c x i Hjc Hx Hi.
        assert (j * w + i < length buf)%nat as Hlt.
        { apply lookup_lt_Some in Hjc. pose proof (gm_count _ _ G). nia. }
        destruct (lookup_lt_is_Some_2 _ _ Hlt) as [y Hy]. rewrite Hy. apply Hin. apply Hw.
        by exists j, c, x, i.
      + intros x i Hx Hno. apply Hout; [nia|]. intros y Hy.
        apply Hw in Hy as (j & c & x' & i' & Hjc & Hx' & Hi' & Hz & _).
        destruct (gm_cells _ _ G _ _ Hjc) as [_ Hcx].
        destruct (key_inj (nxyz m) i i' x x') as [-> ->]; [done|by apply Hcx|done|]. by apply (Hno _ _ Hjc).
  Qed.
End gather.


(** ** Scattering *)
Section scatter.
  Context {t : nat} {m : mapping_state} (G : good_map t m).
  Lemma scatter_pieces {A} (src : list A) : nxyz m <= Z.of_nat (length src) ->
    exists d cs, pick m src = Some d /\ pieces m d = Some cs /\ length cs = t /\
      forall n c, cs !! n = Some c -> length c = length (own_cells m n) /\ mirrors m n src c.
  Proof.
    intros Hs. unfold pick. rewrite decide_True by apply (gm_count _ _ G).
    assert (Hc : forall c, c ∈ backward m -> exists x c' y, c = x :: c' /\ 0 <= x /\ src !! Z.to_nat x = Some y).
    { intros c Hc. apply elem_of_list_lookup in Hc as (j & Hj). destruct (gm_cells _ _ G _ _ Hj) as [Hne Hx].
      destruct c as [|x c]; [done|]. specialize (Hx x ltac:(left)).
      destruct (lookup_lt_is_Some_2 src (Z.to_nat x)) as [y Hy]; [lia|]. exists x, c, y. split_and!; [done|lia|done]. }
    destruct (mapM_ex (fun c => match c with
                     | z :: _ => if decide (0 <= z) then src !! Z.to_nat z else None
                     | [] => None
                     end) (backward m)) as [d Ed].
    { intros c Hin. destruct (Hc c Hin) as (x & c' & y & -> & Hx & Hy). exists y. by rewrite decide_True. }
    exists d. rewrite Ed. pose proof (mapM_length _ _ _ Ed) as Hdl. apply mapM_Some in Ed.
    pose proof (gm_count _ _ G) as Hcnt.
    assert (Hpiece : forall n, (n < t)%nat -> piece m d n = Some (take (length (own_cells m n)) (drop (Z.to_nat (range_start m n)) d))).
    { intros n Hn. destruct (gm_range G n Hn) as (b & e & Hb & He & Hbe & Hec & _ & Hst).
      unfold piece. rewrite (gm_len G) by done. rewrite Hst. rewrite decide_True; [done|].
      pose proof (own_cells_length n b e Hb He ltac:(lia)). lia. }
    assert (pieces m d = Some (map (fun n => take (length (own_cells m n)) (drop (Z.to_nat (range_start m n)) d)) (seq 0 t))) as Hps.
    { unfold pieces. rewrite (gm_length _ _ G). apply mapM_fun. intros n Hn. apply elem_of_seq in Hn. apply Hpiece. lia. }
    eexists. split; [done|]. split; [exact Hps|]. split; [by rewrite map_length, seq_length|].
    intros n c Hn. change (map ?f ?l) with (f <$> l) in Hn. rewrite list_lookup_fmap in Hn.
    destruct (decide (n < t)%nat) as [Hlt|]; [|by rewrite lookup_seq_ge in Hn by lia].
    rewrite lookup_seq_lt in Hn by done. cbn in Hn. injection Hn as <-.
    destruct (gm_range G n Hlt) as (b & e & Hb & He & Hbe & Hec & _ & Hst). rewrite Hst.
    pose proof (own_cells_length n b e Hb He ltac:(lia)) as Hlen.
    assert (length (take (length (own_cells m n)) (drop (Z.to_nat b) d)) = length (own_cells m n)) as Htl.
    { rewrite take_length, drop_length. lia. }
    split; [done|]. exists b, e. split_and!; [done|done|lia|].
    intros j Hj. destruct (gm_cell G j) as (x & c & Hjc & Hx); [lia|]. exists x, c. split; [done|].
    rewrite lookup_take, lookup_drop by lia. replace (Z.to_nat b + Z.to_nat (j - b))%nat with (Z.to_nat j) by lia.
    destruct (Forall2_lookup_l _ _ _ _ _ Ed Hjc) as (y & Hy & E). cbn in E. rewrite decide_True in E by lia. congruence.
  Qed.
End scatter.

(** ** Species *)
Lemma mapM_imap {A B} (f : nat * A -> option B) (g : A -> B) l :
  (forall i x, l !! i = Some x -> f (i, x) = Some (g x)) -> mapM f (imap (fun i x => (i, x)) l) = Some (map g l).
Proof.
  intros H.
  assert (forall o, (forall i x, l !! i = Some x -> f ((o + i)%nat, x) = Some (g x)) ->
            mapM f (imap (fun i x => ((o + i)%nat, x)) l) = Some (map g l)) as Ho; [|exact (Ho O H)].
  clear H. induction l as [|x l IH]; intros o H; [done|]. cbn [imap]. cbn.
  pose proof (H O x eq_refl) as H0. rewrite Nat.add_0_r in H0 |- *. rewrite H0. cbn.
  assert (imap ((fun i x => ((o + i)%nat, x)) ∘ S) l = imap (fun i x => ((S o + i)%nat, x)) l) as ->.
  { apply imap_ext. intros i y _. cbn. f_equal. lia. }
  rewrite IH; [done|]. intros i y Hi. specialize (H (S i) y Hi). by replace (S o + i)%nat with (o + S i)%nat by lia.
Qed.
Section species.
  Context {D X : Type} (L : local D X) {t : nat} {m : mapping_state} (G : good_map t m).
  Lemma species_put_ok n (vals dst : list D) (f : Z -> nat -> D) :
    (n < t)%nat ->
    (forall l j k, own_cells m n !! l = Some j -> (k < l_nspec L)%nat -> vals !! (k * length (own_cells m n) + l)%nat = Some (f j k)) ->
    Z.of_nat (length dst) = nxyz m * Z.of_nat (l_nspec L) ->
    exists r, species_put L m n vals dst = Some r /\ length r = length dst /\
      (forall j c x k, j ∈ own_cells m n -> backward m !! Z.to_nat j = Some c -> x ∈ c -> (k < l_nspec L)%nat ->
         r !! Z.to_nat (Z.of_nat k * nxyz m + x) = Some (f j k)) /\
      (forall x k, 0 <= x < nxyz m -> (forall j c, j ∈ own_cells m n -> backward m !! Z.to_nat j = Some c -> x ∉ c) ->
         r !! Z.to_nat (Z.of_nat k * nxyz m + x) = dst !! Z.to_nat (Z.of_nat k * nxyz m + x)).
  Proof.
    intros Hn Hv Hd. unfold species_put. set (cs := own_cells m n) in *.
    assert (Hcs : forall j, j ∈ cs -> 0 <= j < count_chemistry m).
    { intros j Hj. apply (own_cells_elem G n j Hn) in Hj. by apply (EndCellsProofs.owns_in_range _ _ _ _ _ (gm_split _ _ G) Hj). }
    assert (Hbk : forall j, j ∈ cs -> exists c, backward m !! Z.to_nat j = Some c).
    { intros j Hj. destruct (gm_cell G j (Hcs j Hj)) as (x & c & Hc & _). by exists (x :: c). }
    set (wr := fun j => match backward m !! Z.to_nat j with
                        | Some gs => map (fun x => map (fun k => (Z.of_nat k * nxyz m + x, f j k)) (seq 0 (l_nspec L))) gs
                        | None => [] end).
    rewrite (mapM_imap _ wr).
    2:{ intros l j Hl. cbn [fst snd]. unfold wr. destruct (Hbk j) as [c Hc]; [by eapply elem_of_list_lookup_2|]. rewrite Hc.
        apply mapM_fun. intros x _. apply mapM_fun. intros k Hk. apply elem_of_seq in Hk. by rewrite (Hv l j k) by (done || lia). }
    assert (Hw : forall z y, (z, y) ∈ concat (concat (map wr cs)) <->
              exists j c x k, j ∈ cs /\ backward m !! Z.to_nat j = Some c /\ x ∈ c /\ (k < l_nspec L)%nat /\ z = Z.of_nat k * nxyz m + x /\ y = f j k).
    { intros z y. rewrite elem_of_concat. setoid_rewrite elem_of_concat. split.
      - intros (l & (ll & Hll & Hl) & Hz). apply elem_of_list_fmap in Hll as (j & -> & Hj).
        destruct (Hbk j Hj) as [c Hc]. unfold wr in Hl. rewrite Hc in Hl.
        apply elem_of_list_fmap in Hl as (x & -> & Hx). apply elem_of_list_fmap in Hz as (k & [= -> ->] & Hk).
        apply elem_of_seq in Hk. exists j, c, x, k. split_and!; try done. lia.
      - intros (j & c & x & k & Hj & Hc & Hx & Hk & -> & ->).
        exists (map (fun k => (Z.of_nat k * nxyz m + x, f j k)) (seq 0 (l_nspec L))). split.
        + exists (wr j). split; [by apply elem_of_list_fmap; exists j|]. unfold wr. rewrite Hc.
          apply elem_of_list_fmap. by exists x.
        + apply elem_of_list_fmap. exists k. split; [done|]. apply elem_of_seq. lia. }
    destruct (store_fun (concat (concat (map wr cs))) dst) as (r & Er & Hr & Hin & Hout).
    - intros z y Hz. apply Hw in Hz as (j & c & x & k & Hj & Hc & Hx & Hk & -> & _).
      destruct (gm_cells _ _ G _ _ Hc) as [_ Hcx]. specialize (Hcx x Hx). nia.
    - intros z y y' H1 H2. apply Hw in H1 as (j & c & x & k & Hj & Hc & Hx & Hk & Hz & ->).
      apply Hw in H2 as (j' & c' & x' & k' & Hj' & Hc' & Hx' & Hk' & Hz' & ->).
      destruct (gm_cells _ _ G _ _ Hc) as [_ Hcx]. destruct (gm_cells _ _ G _ _ Hc') as [_ Hcx'].
      destruct (key_inj (nxyz m) k k' x x') as [-> ->]; [by apply Hcx|by apply Hcx'|congruence|].
      assert (Z.to_nat j' = Z.to_nat j) by (by eapply (gm_disjoint _ _ G)).
      pose proof (Hcs j Hj). pose proof (Hcs j' Hj'). assert (j' = j) as -> by lia. done.
    - exists r. split_and!; [done|done| |].
      + intros j c x k Hj Hc Hx Hk. apply Hin. apply Hw. by exists j, c, x, k.
      + intros x k Hx Hno. apply Hout; [nia|]. intros y Hy.
        apply Hw in Hy as (j & c & x' & k' & Hj & Hc & Hx' & Hk' & Hz & _).
        destruct (gm_cells _ _ G _ _ Hc) as [_ Hcx].
        destruct (key_inj (nxyz m) k k' x x') as [-> ->]; [done|by apply Hcx|done|]. by apply (Hno j c).
  Qed.

  Definition species_vals (x : X) (n : nat) : list D :=
    concat (map (fun k => map (fun i => l_species L x i k) (own_cells m n)) (seq 0 (l_nspec L))).
  Lemma species_vals_lookup x n l j k : own_cells m n !! l = Some j -> (k < l_nspec L)%nat ->
    species_vals x n !! (k * length (own_cells m n) + l)%nat = Some (l_species L x j k).
  Proof.
    intros Hl Hk. unfold species_vals.
    rewrite (concat_row (length (own_cells m n)) _ k l (map (fun i => l_species L x i k) (own_cells m n))).
    - change (map ?f ?l) with (f <$> l). by rewrite list_lookup_fmap, Hl.
    - intros l' Hl'. apply elem_of_list_fmap in Hl' as (k' & -> & _). by rewrite map_length.
    - change (map (fun k0 => map (fun i => l_species L x i k0) (own_cells m n)) (seq 0 (l_nspec L)))
        with ((fun k0 => map (fun i => l_species L x i k0) (own_cells m n)) <$> seq 0 (l_nspec L)).
      by rewrite list_lookup_fmap, lookup_seq_lt by done.
    - by eapply lookup_lt_Some.
  Qed.
  Lemma species_vals_length x n : length (species_vals x n) = (l_nspec L * length (own_cells m n))%nat.
  Proof.
    unfold species_vals. rewrite (concat_width (length (own_cells m n))), map_length, seq_length; [done|].
    intros l' Hl'. apply elem_of_list_fmap in Hl' as (k' & -> & _). by rewrite map_length.
  Qed.

  (** The root receives the values of the processes [n0 + 1, ..., n0 + cnt] *)
  Lemma species_takes {T} (x : nat -> X) cnt : forall n0 dst (K : list D -> prog D T),
    (n0 + cnt < t)%nat ->
    Z.of_nat (length dst) = nxyz m * Z.of_nat (l_nspec L) ->
    exists r, length r = length dst /\
      takes (species_receive L m (seq (S n0) cnt) dst K)
        (replicate n0 [] ++ map (fun n => [Nums (species_vals (x n) n)]) (seq (S n0) cnt))
        (K r) (replicate (n0 + cnt) []) /\
      (forall n j c y k, (n0 < n <= n0 + cnt)%nat -> j ∈ own_cells m n -> backward m !! Z.to_nat j = Some c -> y ∈ c -> (k < l_nspec L)%nat ->
         r !! Z.to_nat (Z.of_nat k * nxyz m + y) = Some (l_species L (x n) j k)) /\
      (forall y k, 0 <= y < nxyz m ->
         (forall n j c, (n0 < n <= n0 + cnt)%nat -> j ∈ own_cells m n -> backward m !! Z.to_nat j = Some c -> y ∉ c) ->
         r !! Z.to_nat (Z.of_nat k * nxyz m + y) = dst !! Z.to_nat (Z.of_nat k * nxyz m + y)).
  Proof.
    induction cnt as [|cnt IH]; intros n0 dst K Ht Hd.
    - exists dst. split; [done|]. split; [cbn; rewrite app_nil_r, Nat.add_0_r; constructor|]. split; [lia|done].
    - cbn [seq map species_receive].
      assert (forall q (l : list (list (msg D))), (replicate n0 [] ++ q :: l) !! n0 = Some q) as Hq.
      { intros q l. rewrite lookup_app_r by (rewrite replicate_length; done). by rewrite replicate_length, Nat.sub_diag. }
      assert (forall q q' (l : list (list (msg D))), <[n0 := q']> (replicate n0 [] ++ q :: l) = replicate n0 [] ++ q' :: l) as Hi.
      { intros q q' l. rewrite insert_app_r_alt by (rewrite replicate_length; done). by rewrite replicate_length, Nat.sub_diag. }
      assert (forall l : list (list (msg D)), replicate n0 [] ++ [] :: l = replicate (S n0) [] ++ l) as He.
      { intros l. rewrite replicate_S_end, <- app_assoc. done. }
      rewrite (gm_len G) by lia.
      destruct (species_put_ok (S n0) (species_vals (x (S n0)) (S n0)) dst (fun j k => l_species L (x (S n0)) j k)) as (d1 & E1 & Hl1 & Hin1 & Hout1); [lia| |done|].
      { intros l j k Hl Hk. by apply species_vals_lookup. }
      destruct (IH (S n0) d1 K) as (r & Hlr & Htk & Hin & Hout); [lia|lia|].
      exists r. split; [lia|]. split; [|split].
      + eapply takes_recv.
        { unfold received. rewrite Hq, decide_True by (cbn; rewrite species_vals_length; split; [done|lia]). by rewrite Hi. }
        cbn [nums_of]. rewrite E1, He. replace (n0 + S cnt)%nat with (S n0 + cnt)%nat by lia. exact Htk.
      + intros n j c y k Hnn Hj Hc Hy Hk. destruct (decide (n = S n0)) as [->|Hne].
        * rewrite Hout; [by apply (Hin1 j c)| |].
          { destruct (gm_cells _ _ G _ _ Hc) as [_ Hcx]. by apply Hcx. }
          intros n' j' c' Hn' Hj' Hc' Hy'.
          assert (Z.to_nat j' = Z.to_nat j) as Hjj by (by eapply (gm_disjoint _ _ G)).
          apply (own_cells_elem G) in Hj; [|lia]. apply (own_cells_elem G) in Hj'; [|lia].
          pose proof (owns_in_range _ _ _ _ _ (gm_split _ _ G) Hj). pose proof (owns_in_range _ _ _ _ _ (gm_split _ _ G) Hj').
          assert (j' = j) as -> by lia. pose proof (valid_split_owner_unique _ _ _ _ _ _ (gm_split _ _ G) Hj Hj'). lia.
        * apply (Hin n j c); [lia|done..].
      + intros y k Hy Hno. rewrite Hout; [|done|].
        * apply Hout1; [done|]. intros j c Hj Hc. apply (Hno (S n0) j c); [lia|done..].
        * intros n j c Hnn Hj Hc. apply (Hno n j c); [lia|done..].
  Qed.
End species.

(** ** Pieces of rows *)
Section rows.
  Context {t : nat} {m : mapping_state} (G : good_map t m).
  Lemma pieces_rows {A} (V : Z -> A) d :
    Z.of_nat (length d) = count_chemistry m -> (forall j, 0 <= j < count_chemistry m -> d !! Z.to_nat j = Some (V j)) ->
    pieces m d = Some (map (fun n => map V (own_cells m n)) (seq 0 t)).
  Proof.
    intros Hd HV. unfold pieces. rewrite (gm_length _ _ G). apply mapM_fun. intros n Hn. apply elem_of_seq in Hn.
    destruct (gm_range G n ltac:(lia)) as (b & e & Hb & He & Hbe & Hec & _ & Hst).
    pose proof (own_cells_length n b e Hb He ltac:(lia)) as Hlen.
    unfold piece. rewrite (gm_len G) by lia. rewrite Hst. rewrite decide_True by lia. f_equal.
    apply list_eq. intros i. change (map V ?l) with (V <$> l). rewrite list_lookup_fmap.
    destruct (decide (i < length (own_cells m n))%nat) as [Hi|Hi].
    - rewrite lookup_take, lookup_drop, (own_cells_lookup n b e) by done. cbn.
      replace (Z.to_nat b + i)%nat with (Z.to_nat (b + Z.of_nat i)) by lia. apply HV. lia.
    - rewrite lookup_take_ge by lia. rewrite (lookup_ge_None_2 (own_cells m n)) by lia. done.
  Qed.
End rows.
