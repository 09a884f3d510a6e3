(** Proofs about Doublize and GetSelectedOutput. *)
From Coq Require Import String.
From stdpp Require Import prelude strings gmap.
From Verif.Base Require Import Result.
From Verif.SelOut Require Import Model Spec Proofs.

Section Get.
Context {D : Type} (inactive : D) (of_long : Z -> D).
Notation table := (table D).
Notation to_double := (to_double inactive of_long).
Notation doublize := (doublize inactive of_long).

Lemma read_cells_spec col n : forall i, i + n <= length col ->
  read_cells inactive of_long col n i = Ret (map to_double (take n (drop i col))).
Proof.
  induction n as [|n IH]; intros i H; cbn [read_cells].
  - by rewrite take_0.
  - destruct (lookup_lt_is_Some_2 col i) as [v Hv]; [lia|]. rewrite Hv, IH by lia. cbn [obind].
    by rewrite (drop_S _ _ _ Hv).
Qed.

Lemma read_cols_spec nrow (cols : list (list (var D))) :
  Forall (fun col => nrow <= length col) cols ->
  read_cols inactive of_long cols nrow (length cols)
    = Ret (concat (map (fun col => map to_double (take nrow col)) cols)).
Proof.
  induction 1 as [|col cols H _ IH]; [done|]. cbn [length read_cols].
  rewrite read_cells_spec by lia. cbn [obind]. by rewrite IH.
Qed.

Lemma concat_lookup {A} (n c r : nat) (ls : list (list A)) l x :
  Forall (fun l => length l = n) ls -> ls !! c = Some l -> l !! r = Some x ->
  concat ls !! (c * n + r) = Some x.
Proof.
  intros H. revert c. induction H as [|l0 ls H0 _ IH]; intros c Hc Hr; [done|].
  destruct c as [|c]; cbn.
  - injection Hc as ->. rewrite lookup_app_l; [done|]. by eapply lookup_lt_Some.
  - rewrite lookup_app_r by lia. rewrite H0. replace (n + c * n + r - n) with (c * n + r) by lia.
    by apply IH.
Qed.

(** Doublize of a well-formed table: its rows, its columns, the values in column order. *)
Lemma doublize_spec t l :
  inv t l ->
  exists buf, doublize t = Ret (t_rows t, col_count t, buf) /\
    forall c k r row, l_heads l !! c = Some k -> l_done l !! r = Some row ->
      buf !! (c * t_rows t + r) = Some (to_double (latest k row)).
Proof.
  intros H. unfold Model.doublize, col_count.
  assert (Hcols : length (t_cols t) = length (t_head t))
    by (rewrite (inv_cols _ _ H), (inv_head _ _ H), map_length; done).
  assert (Hlen : Forall (fun col => t_rows t <= length col) (t_cols t)).
  { rewrite (inv_cols _ _ H), (inv_rows _ _ H). apply Forall_fmap, Forall_forall. intros k _. cbn.
    rewrite column_length. lia. }
  pose proof (read_cols_spec (t_rows t) (t_cols t) Hlen) as E. rewrite Hcols in E. rewrite E. clear E.
  cbn [obind]. eexists. split; [done|].
  intros c k r row Hc Hr.
  assert (Hlt : r < length (l_done l)) by (by eapply lookup_lt_Some).
  eapply concat_lookup.
  - apply Forall_fmap, Forall_forall. intros col Hin. cbn. rewrite map_length, take_length.
    rewrite Forall_forall in Hlen. specialize (Hlen col Hin). lia.
  - rewrite list_lookup_fmap, (inv_cols _ _ H), list_lookup_fmap, Hc. done.
  - rewrite list_lookup_fmap, (inv_rows _ _ H). unfold column.
    rewrite lookup_take by done.
    rewrite lookup_app_l by (by rewrite map_length). rewrite list_lookup_fmap, Hr. done.
Qed.

Section Writing.
Variables (nxyz ncol : nat) (bwd : list (list nat)) (fwd : nat -> option nat).
Hypothesis bwd_fwd : forall i js j, bwd !! i = Some js -> j ∈ js -> fwd j = Some i /\ j < nxyz.
Hypothesis fwd_bwd : forall i js j, bwd !! i = Some js -> fwd j = Some i -> j ∈ js.

Lemma pos_inj c j c' j' : j < nxyz -> j' < nxyz -> c * nxyz + j = c' * nxyz + j' -> c = c' /\ j = j'.
Proof.
  intros H1 H2 E. assert (c = c').
  { destruct (Nat.lt_total c c') as [Hl|[Hl|Hl]]; [|done|]; exfalso.
    - assert (S c * nxyz <= c' * nxyz) by (apply Nat.mul_le_mono_r; lia). cbn in *. lia.
    - assert (S c' * nxyz <= c * nxyz) by (apply Nat.mul_le_mono_r; lia). cbn in *. lia. }
  subst. lia.
Qed.
Lemma pos_lt c j : c < ncol -> j < nxyz -> c * nxyz + j < nxyz * ncol.
Proof.
  intros H1 H2. assert (S c * nxyz <= ncol * nxyz) by (apply Nat.mul_le_mono_r; lia). cbn in *. lia.
Qed.

Lemma write_cell_spec c x js : forall so : list D,
  c < ncol -> length so = nxyz * ncol -> (forall j, j ∈ js -> j < nxyz) ->
  exists so', write_cell nxyz c js x so = Ret so' /\ length so' = length so /\
    forall c' j', j' < nxyz -> so' !! (c' * nxyz + j')
      = if decide (c' = c /\ j' ∈ js) then Some x else so !! (c' * nxyz + j').
Proof.
  induction js as [|j js IH]; intros so Hc Hl Hj; cbn [write_cell].
  - exists so. split; [done|]. split; [done|]. intros c' j' _.
    rewrite decide_False; [done|]. intros [_ H]. by apply elem_of_nil in H.
  - assert (Hjn : j < nxyz) by (apply Hj; left).
    pose proof (pos_lt c j Hc Hjn) as Hp. rewrite decide_True by lia.
    destruct (IH (<[c * nxyz + j := x]> so)) as (so' & E & Hl' & H); [done|by rewrite insert_length| |].
    { intros j' Hj'. apply Hj. by right. }
    exists so'. split; [done|]. split; [by rewrite Hl', insert_length|].
    intros c' j' Hj'. rewrite H by done.
    destruct (decide (c' = c /\ j' ∈ js)) as [[-> Hin]|Hn].
    + rewrite decide_True; [done|]. split; [done|]. by right.
    + destruct (decide (c' = c /\ j' ∈ j :: js)) as [[-> Hin]|Hn'].
      * apply elem_of_cons in Hin as [->|Hin]; [|naive_solver].
        apply list_lookup_insert. lia.
      * apply list_lookup_insert_ne. intros E'. apply pos_inj in E' as [<- <-]; [|done..].
        apply Hn'. split; [done|left].
Qed.

Lemma write_rows_spec c nrow start buf (f : nat -> D) n : forall irow so,
  c < ncol -> length so = nxyz * ncol -> irow + n <= nrow ->
  start + nrow <= length bwd ->
  (forall r, r < nrow -> buf !! (c * nrow + r) = Some (f (start + r))) ->
  exists so', write_rows nxyz bwd c nrow start buf irow n so = Ret so' /\ length so' = length so /\
    forall c' j', j' < nxyz -> so' !! (c' * nxyz + j')
      = match fwd j' with
        | Some i => if decide (c' = c /\ start + irow <= i < start + irow + n)
                    then Some (f i) else so !! (c' * nxyz + j')
        | None => so !! (c' * nxyz + j')
        end.
Proof.
  induction n as [|n IH]; intros irow so Hc Hl Hn Hs Hb; cbn [write_rows].
  - exists so. split; [done|]. split; [done|]. intros c' j' _.
    destruct (fwd j') as [i|]; [|done]. rewrite decide_False by lia. done.
  - destruct (lookup_lt_is_Some_2 bwd (start + irow)) as [js Hjs]; [lia|].
    rewrite Hjs, Hb by lia.
    destruct (write_cell_spec c (f (start + irow)) js so Hc Hl) as (so1 & E1 & Hl1 & H1).
    { intros j Hj. by eapply bwd_fwd. }
    rewrite E1. cbn [obind].
    destruct (IH (S irow) so1) as (so2 & E2 & Hl2 & H2); [done|congruence|lia|done|done|].
    exists so2. split; [done|]. split; [congruence|].
    intros c' j' Hj'. rewrite H2 by done. rewrite H1 by done.
    destruct (fwd j') as [i|] eqn:Ef.
    + destruct (decide (c' = c /\ start + S irow <= i < start + S irow + n)) as [Ha|Ha].
      * rewrite decide_True by lia. done.
      * destruct (decide (c' = c /\ j' ∈ js)) as [[-> Hin]|Hb'].
        -- destruct (bwd_fwd _ _ _ Hjs Hin) as [E _].
           assert (i = start + irow) by congruence. subst. rewrite decide_True by lia. done.
        -- rewrite decide_False; [done|]. intros [-> Hr].
           assert (i = start + irow) by lia. subst. apply Hb'. split; [done|]. by eapply fwd_bwd.
    + rewrite decide_False; [done|]. intros [_ Hin].
      destruct (bwd_fwd _ _ _ Hjs Hin) as [E _]. congruence.
Qed.

Lemma write_cols_spec nrow start buf (f : nat -> nat -> D) n : forall icol so,
  icol + n = ncol -> length so = nxyz * ncol ->
  start + nrow <= length bwd ->
  (forall c r, c < ncol -> r < nrow -> buf !! (c * nrow + r) = Some (f c (start + r))) ->
  exists so', write_cols nxyz bwd nrow start buf icol n so = Ret so' /\ length so' = length so /\
    forall c' j', c' < ncol -> j' < nxyz -> so' !! (c' * nxyz + j')
      = match fwd j' with
        | Some i => if decide (icol <= c' /\ start <= i < start + nrow)
                    then Some (f c' i) else so !! (c' * nxyz + j')
        | None => so !! (c' * nxyz + j')
        end.
Proof.
  induction n as [|n IH]; intros icol so Hc Hl Hs Hb; cbn [write_cols].
  - exists so. split; [done|]. split; [done|]. intros c' j' Hc' _.
    destruct (fwd j') as [i|]; [|done]. rewrite decide_False by lia. done.
  - destruct (write_rows_spec icol nrow start buf (f icol) nrow 0 so) as (so1 & E1 & Hl1 & H1);
      [lia|done|lia|done|intros; apply Hb; lia|].
    rewrite E1. cbn [obind].
    destruct (IH (S icol) so1) as (so2 & E2 & Hl2 & H2); [lia|congruence|done|done|].
    exists so2. split; [done|]. split; [congruence|].
    intros c' j' Hc' Hj'. rewrite H2 by done. rewrite H1 by done.
    destruct (fwd j') as [i|] eqn:Ef; [|done].
    destruct (decide (S icol <= c' /\ start <= i < start + nrow)) as [Ha|Ha].
    + rewrite decide_True by lia. done.
    + destruct (decide (c' = icol /\ start + 0 <= i < start + 0 + nrow)) as [[-> Hb']|Hb'].
      * rewrite decide_True by lia. done.
      * rewrite decide_False by lia. done.
Qed.

(** The tables of the workers, one after the other, show [f]. *)
Fixpoint tables_show (n_user : Z) (ws : list (gmap Z table)) (start : nat) (f : nat -> nat -> D) : Prop :=
  match ws with
  | [] => True
  | w :: ws' => exists t l, w !! n_user = Some t /\ inv t l /\ length (l_heads l) = ncol /\
      (forall c k r row, l_heads l !! c = Some k -> l_done l !! r = Some row ->
         to_double (latest k row) = f c (start + r)) /\
      tables_show n_user ws' (start + length (l_done l)) f
  end.
Fixpoint tables_end (n_user : Z) (ws : list (gmap Z table)) (start : nat) : nat :=
  match ws with
  | [] => start
  | w :: ws' => tables_end n_user ws' (start + match w !! n_user with Some t => t_rows t | None => 0 end)
  end.
Lemma tables_end_le n_user ws : forall start, start <= tables_end n_user ws start.
Proof. induction ws as [|w ws IH]; intros start; cbn; [done|]. etrans; [|apply IH]. lia. Qed.

Lemma write_workers_spec n_user f ws : forall start so,
  length so = nxyz * ncol -> tables_show n_user ws start f ->
  tables_end n_user ws start <= length bwd ->
  exists so', write_workers inactive of_long nxyz bwd ncol n_user ws start so = Ret so' /\
    length so' = length so /\
    forall c' j', c' < ncol -> j' < nxyz -> so' !! (c' * nxyz + j')
      = match fwd j' with
        | Some i => if decide (start <= i < tables_end n_user ws start)
                    then Some (f c' i) else so !! (c' * nxyz + j')
        | None => so !! (c' * nxyz + j')
        end.
Proof.
  induction ws as [|w ws IH]; intros start so Hl Hsh He; cbn [write_workers].
  - exists so. split; [done|]. split; [done|]. intros c' j' _ _.
    destruct (fwd j'); [|done]. cbn [tables_end]. rewrite decide_False by lia. done.
  - cbn [tables_show] in Hsh. destruct Hsh as (t & l & Ew & Hi & Hnc & Hv & Hrest).
    cbn [tables_end] in *. rewrite Ew in *.
    destruct (doublize_spec t l Hi) as (buf & Eb & Hbuf). rewrite Eb. cbn [obind].
    pose proof (inv_rows _ _ Hi) as Hr. rewrite Hr in *.
    pose proof (tables_end_le n_user ws (start + length (l_done l))) as Hle.
    destruct (write_cols_spec (length (l_done l)) start buf f ncol 0 so) as (so1 & E1 & Hl1 & H1);
      [lia|done|lia| |].
    { intros c r Hc Hrr.
      destruct (lookup_lt_is_Some_2 (l_heads l) c) as [k Hk]; [lia|].
      destruct (lookup_lt_is_Some_2 (l_done l) r) as [row Hrow]; [lia|].
      rewrite (Hbuf c k r row) by done. f_equal. by eapply Hv. }
    rewrite E1. cbn [obind].
    destruct (IH (start + length (l_done l)) so1) as (so2 & E2 & Hl2 & H2); [congruence|done|done|].
    exists so2. split; [done|]. split; [congruence|].
    intros c' j' Hc' Hj'. rewrite H2 by done. rewrite H1 by done.
    destruct (fwd j') as [i|] eqn:Ef; [|done].
    repeat case_decide; try done; exfalso; lia.
Qed.

Lemma resize_to_length (n : nat) (z : D) so : length (resize_to n z so) = n.
Proof. unfold resize_to. rewrite app_length, take_length, replicate_length. lia. Qed.

Lemma get_spec zero cur f ws so :
  (0 <= cur)%Z -> ws <> [] -> tables_show cur ws 0 f -> tables_end cur ws 0 <= length bwd ->
  exists so', get_selected_output inactive of_long zero nxyz bwd cur ws so = Ret (IRM_OK, Some so') /\
    length so' = nxyz * ncol /\
    forall c' j', c' < ncol -> j' < nxyz -> so' !! (c' * nxyz + j')
      = match fwd j' with
        | Some i => if decide (i < tables_end cur ws 0)
                    then Some (f c' i) else resize_to (nxyz * ncol) zero so !! (c' * nxyz + j')
        | None => resize_to (nxyz * ncol) zero so !! (c' * nxyz + j')
        end.
Proof.
  intros Hcur Hne Hsh He. unfold get_selected_output. rewrite decide_False by lia.
  destruct ws as [|w ws]; [done|]. pose proof Hsh as Hsh0.
  destruct Hsh0 as (t & l & Ew & Hi & Hnc & _). rewrite Ew.
  assert (Hcc : col_count t = ncol) by (unfold col_count; by rewrite (inv_head _ _ Hi)).
  rewrite Hcc.
  destruct (write_workers_spec cur f (w :: ws) 0 (resize_to (nxyz * ncol) zero so))
    as (so' & E & Hl & H); [apply resize_to_length|done|done|].
  rewrite E. exists so'. split; [done|]. split; [by rewrite Hl, resize_to_length|].
  intros c' j' Hc' Hj'. rewrite H by done. destruct (fwd j'); [|done].
  repeat case_decide; try done; exfalso; lia.
Qed.
End Writing.
End Get.
