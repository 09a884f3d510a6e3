(** C38 (what a crash leaves of the dump file), C60 (what a dump holds). *)
From Coq Require Import ZArith String Lia.
From stdpp Require Import prelude strings gmap.
From Verif.Base Require Import Result.
From Verif.Files Require Import Model Spec Proofs.
Open Scope list_scope.

(** ** C38 *)

(** FileRename: whichever of its operations fail, and after whichever of them the process dies, the
    previous text is under its own or the backup name, or the new one is under the name. *)
Theorem file_rename_keeps {A} ok1 ok2 ok3 temp name backup (old new : list A) fs g :
  temp <> name -> temp <> backup -> name <> backup ->
  fs !! name = Some old -> fs !! temp = Some new ->
  g ∈ file_rename ok1 ok2 ok3 temp name backup fs -> kept name backup old new g.
Proof. apply rename_kept. Qed.
Print Assumptions file_rename_keeps.

(** Undisturbed, it leaves the new text under the name, the previous one under the backup name,
    nothing under the temporary one, and every other file as it was. *)
Theorem file_rename_result {A} temp name backup (new : list A) fs :
  temp <> name -> temp <> backup -> name <> backup -> fs !! temp = Some new ->
  exists g, List.last (file_rename true true true temp name backup fs) fs = g
    /\ g !! name = Some new /\ g !! temp = None
    /\ g !! backup = (match fs !! name with Some old => Some old | None => fs !! backup end)
    /\ forall x, x <> temp -> x <> name -> x <> backup -> g !! x = fs !! x.
Proof. apply rename_done. Qed.
Print Assumptions file_rename_result.

Definition three : gmap string (list nat) := {["t" := [3]; "n" := [2]; "b" := [1]]}.
Example file_rename_case :
  map (fun g : gmap string (list nat) => (g !! "t"%string, g !! "n"%string, g !! "b"%string))
    (file_rename true true true "t" "n" "b" three)
  = [(Some [3], Some [2], Some [1]); (Some [3], Some [2], None); (Some [3], None, Some [2]); (None, Some [3], Some [2])].
Proof. vm_compute. reflexivity. Qed.

(** With a backup under the file's own name the previous text is gone after the first operation. *)
Theorem file_rename_same_refuted :
  exists (fs : gmap string (list nat)) g,
    fs !! "n"%string = Some [2] /\ fs !! "t"%string = Some [3]
    /\ g ∈ file_rename true true true "t" "n" "n" fs /\ ~ kept "n" "n" [2] [3] g.
Proof.
  exists three, (fs_remove true "n" three). split; [done|]. split; [done|]. split.
  - vm_compute. right. left.
  - unfold kept. vm_compute. intros [H|[H|H]]; discriminate.
Qed.
Print Assumptions file_rename_same_refuted.

(** DumpModule does not use FileRename. Appending, the previous dump is a prefix of the file at every
    moment, whether a write fails or not ... *)
Theorem append_keeps {A} g fails (entity : nat * kind * Z -> option (list A)) block ranges old f :
  (0 < g)%nat -> f ∈ (dump_module g fails true entity block ranges (Some old)).1 ->
  exists u v, f = old ++ u /\ worker_text entity (dump_items block ranges) = u ++ v.
Proof.
  intros Hg. unfold dump_module. cbn [fst]. rewrite elem_of_cons. intros [->|H].
  - exists [], (worker_text entity (dump_items block ranges)). simpl. by rewrite app_nil_r.
  - apply write_pieces_prefix in H as (u & v & -> & H). exists u, v. split; [done|].
    by rewrite <- (dump_pieces_text g).
Qed.
Print Assumptions append_keeps.

(** ... but writing anew, there is a moment at which neither the previous dump nor the new one is
    on disk, whatever they are. *)
Theorem dump_crash_refuted {A} g fails (entity : nat * kind * Z -> option (list A)) block ranges old :
  (0 < g)%nat -> old <> [] -> worker_text entity (dump_items block ranges) <> [] ->
  exists f, f ∈ (dump_module g fails false entity block ranges (Some old)).1
    /\ f <> old /\ f <> worker_text entity (dump_items block ranges).
Proof. intros Hg Ho Hn. exists []. split; [apply elem_of_cons; by left|]. split; congruence. Qed.
Print Assumptions dump_crash_refuted.

(** IRM_OK is returned exactly when every write worked, and then the file holds the previous
    contents if appending, and the whole new text. *)
Theorem dump_complete {A} g fails append (entity : nat * kind * Z -> option (list A)) block ranges old :
  (0 < g)%nat ->
  let r := dump_module g fails append entity block ranges old in
  (r.2 = IRM_OK <-> forall i, (i < length (dump_pieces g entity block ranges))%nat -> fails i = false)
  /\ (r.2 = IRM_OK \/ r.2 = IRM_FAIL)
  /\ (r.2 = IRM_OK ->
      List.last r.1 [] = (if append then default [] old else []) ++ worker_text entity (dump_items block ranges)).
Proof.
  intros Hg r. unfold r, dump_module. cbn [fst snd]. split_and!.
  - split.
    + intros H. apply write_pieces_last in H as [_ H]. exact H.
    + intros H. apply write_pieces_ok. exact H.
  - apply write_pieces_codes.
  - intros H. apply write_pieces_last in H as [H _].
    rewrite <- (dump_pieces_text g) by done. unfold opened in H at 4. rewrite <- H. apply last_default.
Qed.
Print Assumptions dump_complete.

(** ** C60 *)

(** For ranges of cells numbered from 0 the dump looks at every reactant it has to hold, and at none
    twice, however large the blocks are. *)
Theorem dump_exact block ranges : (0 < block)%Z -> (forall r, r ∈ ranges -> 0 <= r.1)%Z ->
  NoDup (dump_items block ranges) /\ forall it, it ∈ dump_items block ranges <-> to_dump ranges it.
Proof. intros Hb Hr. split; [by apply nodup_dump_items|]. intros it. by apply elem_dump_items. Qed.
Print Assumptions dump_exact.

(** So when the cells are divided among the workers, every kind of every cell is dumped from exactly
    one worker. *)
Theorem dump_each_cell_once block ranges n : (0 < block)%Z -> partition ranges n ->
  forall k j, k <> Pressure -> (0 <= j < n)%Z -> exists! w, (w, k, j) ∈ dump_items block ranges.
Proof.
  intros Hb [Hp Hr] k j Hk Hj.
  assert (forall it, it ∈ dump_items block ranges <-> to_dump ranges it) as H.
  { intros it. apply elem_dump_items; [done|]. intros r [w Hw]%elem_of_list_lookup. by apply (Hr w r). }
  destruct (Hp j Hj) as (w & (r & Hw & Hj') & Hu). exists w. split.
  - apply H. by exists r.
  - intros w' (r' & Hw' & _ & Hj'')%H. apply Hu. by exists r'.
Qed.
Print Assumptions dump_each_cell_once.

(** The order: an earlier block first; in a block the lower worker first; of one worker the kinds in
    the order of dump_raw_range, and of one kind the lower cell first. *)
Definition before (block : Z) (ranges : list (Z * Z)) (a b : nat * kind * Z) : Prop :=
  exists ra rb, ranges !! a.1.1 = Some ra /\ ranges !! b.1.1 = Some rb /\
    let ba := ((a.2 - ra.1) / block)%Z in let bb := ((b.2 - rb.1) / block)%Z in
    (ba < bb)%Z \/ (ba = bb /\ (a.1.1 < b.1.1)%nat)
    \/ (ba = bb /\ a.1.1 = b.1.1 /\
        exists i j, dump_order !! i = Some a.1.2 /\ dump_order !! j = Some b.1.2
          /\ ((i < j)%nat \/ (i = j /\ (a.2 < b.2)%Z))).
Theorem dump_ordered block ranges i j a b : (0 < block)%Z -> (i < j)%nat ->
  dump_items block ranges !! i = Some a -> dump_items block ranges !! j = Some b -> before block ranges a b.
Proof.
  intros Hb. revert i j a b.
  (* pairs of positions of a concatenation *)
  assert (forall (B : Type) (R : B -> B -> Prop) (ls : list (list B)),
    (forall l, l ∈ ls -> forall i j x y, (i < j)%nat -> l !! i = Some x -> l !! j = Some y -> R x y) ->
    (forall m n l l' x y, (m < n)%nat -> ls !! m = Some l -> ls !! n = Some l' -> x ∈ l -> y ∈ l' -> R x y) ->
    forall i j x y, (i < j)%nat -> concat ls !! i = Some x -> concat ls !! j = Some y -> R x y) as Hcat.
  { intros B R ls. induction ls as [|l ls IH]; intros H1 H2 i j x y Hij Hx Hy; [done|]. simpl in Hx, Hy.
    apply lookup_app_Some in Hx as [Hx|[Hx1 Hx]]; apply lookup_app_Some in Hy as [Hy|[Hy1 Hy]].
    - apply (H1 l ltac:(by left) i j); done.
    - apply elem_of_list_lookup_2 in Hx, Hy. apply elem_concat in Hy as (l' & Hy & Hl').
      apply elem_of_list_lookup in Hl' as [n Hn]. apply (H2 0 (S n) l l'); [lia|done|done|done|done].
    - apply lookup_lt_Some in Hy. lia.
    - refine (IH _ _ (i - length l) (j - length l) x y _ Hx Hy); [| |lia].
      + intros l' Hl'. apply H1. by right.
      + intros m n l1 l2 x' y' Hmn Hm Hn. apply (H2 (S m) (S n)); [lia|done|done]. }
  unfold dump_items. apply Hcat.
  - intros l Hl. apply elem_of_list_fmap in Hl as (ib & -> & _). unfold one_block. apply Hcat.
    + intros l Hl. apply elem_of_lookup_imap_1 in Hl as (n & r & -> & Hr).
      intros i j a b Hij Ha Hb'.
      pose proof (elem_of_list_lookup_2 _ _ _ Ha) as Ha'. pose proof (elem_of_list_lookup_2 _ _ _ Hb') as Hb''.
      apply elem_block_items in Ha' as (Hna & _ & _ & _ & Hqa); [|done].
      apply elem_block_items in Hb'' as (Hnb & _ & _ & _ & Hqb); [|done].
      exists r, r. rewrite Hna, Hnb. split; [done|]. split; [done|]. right; right. split; [lia|]. split; [done|].
      unfold block_items in Ha, Hb'. case_match; [|done]. revert i j a b Hij Ha Hb' Hna Hnb Hqa Hqb.
      assert (forall s e i j a b, (i < j)%nat -> range_items n s e !! i = Some a -> range_items n s e !! j = Some b ->
        exists i' j', dump_order !! i' = Some a.1.2 /\ dump_order !! j' = Some b.1.2
          /\ ((i' < j')%nat \/ (i' = j' /\ (a.2 < b.2)%Z))) as Hri.
      { intros s e. apply Hcat.
        - intros l Hl i j a b Hij Ha Hb'. apply elem_of_list_fmap in Hl as (k & -> & [ik Hk]%elem_of_list_lookup).
          change (map ?f ?l) with (f <$> l) in Ha, Hb'. apply list_lookup_fmap_Some in Ha as (x & Hx & ->). apply list_lookup_fmap_Some in Hb' as (y & Hy & ->).
          exists ik, ik. simpl. split; [done|]. split; [done|]. right. split; [done|].
          revert i j x y Hij Hx Hy. unfold zrange. generalize (Z.to_nat (e - s + 1)). intros len.
          assert (forall s0 i j x y, (i < j)%nat ->
            filter (fun i => 0 <= i)%Z (map (fun k => (s + Z.of_nat k)%Z) (seq s0 len)) !! i = Some x ->
            filter (fun i => 0 <= i)%Z (map (fun k => (s + Z.of_nat k)%Z) (seq s0 len)) !! j = Some y -> (x < y)%Z) as Hf; [|apply Hf].
          induction len as [|len IHl]; intros s0 i j x y Hij Hx Hy; [done|]. simpl in Hx, Hy.
          rewrite filter_cons in Hx, Hy. case_decide; [|by eapply IHl].
          destruct i as [|i]; destruct j as [|j]; [lia| |lia|simpl in Hx, Hy; apply (IHl (S s0) i j); [lia|done|done]].
          injection Hx as <-. simpl in Hy. apply elem_of_list_lookup_2, elem_of_list_filter in Hy as [_ Hy].
          apply elem_of_list_fmap in Hy as (k' & -> & Hk'%elem_of_seq). lia.
        - intros m m' l l' a b Hm Hl Hl' Ha Hb'.
          change (map ?f ?l) with (f <$> l) in Hl, Hl'. apply list_lookup_fmap_Some in Hl as (k & Hk & ->). apply list_lookup_fmap_Some in Hl' as (k' & Hk' & ->).
          apply elem_of_list_fmap in Ha as (x & -> & _). apply elem_of_list_fmap in Hb' as (y & -> & _).
          exists m, m'. simpl. split; [done|]. split; [done|]. by left. }
      intros i j a b Hij Ha Hb' _ _ _ _. exact (Hri _ _ i j a b Hij Ha Hb').
    + intros m n l l' a b Hmn Hl Hl' Ha Hb'. rewrite list_lookup_imap in Hl, Hl'.
      apply fmap_Some in Hl as (ra & Hra & ->). apply fmap_Some in Hl' as (rb & Hrb & ->).
      apply elem_block_items in Ha as (Hna & _ & _ & _ & Hqa); [|done].
      apply elem_block_items in Hb' as (Hnb & _ & _ & _ & Hqb); [|done].
      exists ra, rb. rewrite Hna, Hnb. split; [done|]. split; [done|]. right; left. split; [lia|done].
  - intros m n l l' a b Hmn Hl Hl' Ha Hb'.
    change (map ?f ?l) with (f <$> l) in Hl, Hl'. apply list_lookup_fmap_Some in Hl as (ib & Hib & ->). apply list_lookup_fmap_Some in Hl' as (ib' & Hib' & ->).
    apply lookup_seq in Hib as [-> _]. apply lookup_seq in Hib' as [-> _].
    apply elem_one_block in Ha as (ra & Hra & _ & _ & _ & Hqa); [|done].
    apply elem_one_block in Hb' as (rb & Hrb & _ & _ & _ & Hqb); [|done].
    exists ra, rb. split; [done|]. split; [done|]. left. lia.
Qed.
Print Assumptions dump_ordered.

(** No write is empty or longer than the buffer, which has two characters more. *)
Theorem dump_pieces_fit {A} g (entity : nat * kind * Z -> option (list A)) block ranges p :
  (0 < g)%nat -> p ∈ dump_pieces g entity block ranges -> (0 < length p <= g)%nat.
Proof. apply dump_pieces_short. Qed.
Print Assumptions dump_pieces_fit.

(** A reaction pressure is never dumped. *)
Theorem pressure_refuted block ranges w j : (0 < block)%Z -> (w, Pressure, j) ∉ dump_items block ranges.
Proof.
  intros Hb H. apply elem_concat_map in H as (ib & _ & H). apply elem_one_block in H as (r & _ & Hk & _); [|done]. by apply Hk.
Qed.
Print Assumptions pressure_refuted.

(** The dump file always has a name afterwards; for an empty argument it is the default one although
    the call reports an invalid argument. *)
Theorem dump_name prefix cn :
  (set_dump_file_name prefix cn).1 <> ""%string
  /\ (cn <> ""%string -> (set_dump_file_name prefix cn).1 = cn)
  /\ ((set_dump_file_name prefix cn).2 <> IRM_OK -> (set_dump_file_name prefix cn).1 = (prefix ++ ".dmp")%string).
Proof.
  unfold set_dump_file_name. case_decide as H; simpl; split_and!; try done. intros E. by destruct prefix.
Qed.
Print Assumptions dump_name.

(** Two workers, of three and two cells, in blocks of two. *)
Definition cells2 : list (Z * Z) := [(0, 2); (3, 4)]%Z.
Example cells2_partition : partition cells2 5.
Proof.
  split.
  - intros j Hj. destruct (decide (j <= 2)%Z).
    + exists 0. split; [exists (0, 2)%Z; split; [done|simpl; lia]|].
      intros [|[|w]] (r & Hr & Hin); [done| |done]. injection Hr as <-. simpl in Hin. lia.
    + exists 1. split; [exists (3, 4)%Z; split; [done|simpl; lia]|].
      intros [|[|w]] (r & Hr & Hin); [|done|done]. injection Hr as <-. simpl in Hin. lia.
  - intros [|[|w]] r Hr; [| |done]; injection Hr as <-; simpl; lia.
Qed.
Definition ent (it : nat * kind * Z) : option (list Z) :=
  match it with (_, Solution, j) => Some [j; j] | (_, Kinetics, 1%Z) => Some [100]%Z | _ => None end.
Example dump_case :
  dump_pieces 3 ent 2 cells2 = [[0; 0; 1]; [1; 100]; [3; 3; 4]; [4]; [2; 2]]%Z
  /\ dump_module 3 (fun k => bool_decide (k = 2)%nat) true ent 2 cells2 (Some [7]%Z)
     = ([[7]; [7; 0; 0; 1]; [7; 0; 0; 1; 1; 100]]%Z, IRM_FAIL)
  /\ (dump_module 3 (fun _ => false) false ent 2 cells2 (Some [7]%Z)).2 = IRM_OK.
Proof. vm_compute. split; [|split]; reflexivity. Qed.
