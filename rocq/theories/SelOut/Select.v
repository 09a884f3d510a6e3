(** Choosing a table: the numbers, headings and sizes of the selected outputs, and the loop of the
    documentation that visits all of them.

    Source: src/PhreeqcRM.cpp 3629-3643 (GetCurrentSelectedOutputUserNumber), 4313-4338
    (GetNthSelectedOutputUserNumber), 4638-4748 (GetSelectedOutputColumnCount, Count, Heading,
    Headings, RowCount), 11537-11547 (SetCurrentSelectedOutputUserNumber), 11872-11888
    (SetNthSelectedOutput); src/IPhreeqcPhast/IPhreeqc/IPhreeqc.cpp 302-315, 944-952, 1095-1112.
    Error handler mode 0. Doubles are an arbitrary type. Thread build. *)
From Coq Require Import String.
From stdpp Require Import prelude strings gmap sorting.
From Verif.Base Require Import Result.
From Verif.SelOut Require Import Model Spec Proofs GetProofs Props.

(** What the methods look at: the definitions of worker 0 (SelectedOutput_map, in order of number),
    the tables of the workers (CSelectedOutputMap) and CurrentSelectedOutputUserNumber. *)
Record sel (D : Type) := Sel { z_defs : list Z; z_tabs : list (gmap Z (table D)); z_cur : Z }.
Arguments Sel {D} _ _ _. Arguments z_defs {D} _. Arguments z_tabs {D} _. Arguments z_cur {D} _.

Section Select.
Context {D : Type} (inactive : D) (of_long : Z -> D) (zero : D).
Notation sel := (sel D).

(** IRM_INVALIDARG is -3 and IRM_FAIL is -7 (IrmResult.h). *)
Definition irm_invalidarg : Z := -3.
Definition irm_fail : Z := -7.

(** workers[0]->CSelectedOutputMap.find(CurrentSelectedOutputUserNumber), with the test of the sign *)
Definition current (s : sel) : option (table D) :=
  if decide (0 <= z_cur s)%Z then
    match z_tabs s with w0 :: _ => w0 !! z_cur s | [] => None end
  else None.

(** GetSelectedOutputCount, 4664-4670: the tables of worker 0, not the definitions *)
Definition so_count (s : sel) : nat := match z_tabs s with w0 :: _ => size w0 | [] => 0 end.
(** GetNthSelectedOutputUserNumber, 4313-4338 and IPhreeqc.cpp 302-315: the definitions, not the
    tables. A negative user number goes through the error handler as well and comes back as
    IRM_FAIL. *)
Definition so_nth (s : sel) (i : Z) : Z :=
  if decide (0 <= i)%Z then
    match z_defs s !! Z.to_nat i with
    | Some n => if decide (n < 0)%Z then irm_fail else n
    | None => irm_fail
    end
  else irm_fail.
(** SetCurrentSelectedOutputUserNumber, 11537-11547 and IPhreeqc.cpp 944-952: the result and the
    state. Whether there is such a definition or table is not asked. *)
Definition set_current (s : sel) (n : Z) : Z * sel :=
  if decide (0 <= n)%Z then (0%Z, Sel (z_defs s) (z_tabs s) n) else (irm_invalidarg, s).
(** SetNthSelectedOutput, 11872-11888 *)
Definition set_nth (s : sel) (i : Z) : Z * sel :=
  if decide (0 <= i)%Z then
    match z_defs s !! Z.to_nat i with
    | Some n => if decide (0 <= n)%Z then set_current s n else (irm_invalidarg, s)
    | None => (irm_invalidarg, s)
    end
  else (irm_invalidarg, s).
(** GetSelectedOutputColumnCount, 4638-4661 *)
Definition so_columns (s : sel) : Z :=
  match current s with Some t => Z.of_nat (col_count t) | None => irm_invalidarg end.
(** GetSelectedOutputHeading, 4671-4707; [None] is IRM_INVALIDARG *)
Definition so_heading (s : sel) (icol : Z) : outcome (option string) :=
  match current s with
  | Some t => obind (get t 0 icol) (fun r =>
                match r with (VR_OK, VStr h) => Ret (Some h) | _ => Ret None end)
  | None => Ret None
  end.
(** The loop of GetSelectedOutputHeadings, 4720-4725; a heading not found stays empty *)
Fixpoint heading_loop (s : sel) (icol : Z) (n : nat) : outcome (list string) :=
  match n with
  | O => Ret []
  | S n' => obind (so_heading s icol) (fun h =>
            obind (heading_loop s (icol + 1) n') (fun hs => Ret (default ""%string h :: hs)))
  end.
(** GetSelectedOutputHeadings, 4708-4738: the result and the headings *)
Definition so_headings (s : sel) : outcome (Z * list string) :=
  if decide (0 <= so_columns s)%Z
  then obind (heading_loop s 0 (Z.to_nat (so_columns s))) (fun hs => Ret (0%Z, hs))
  else Ret (irm_invalidarg, []).
(** GetSelectedOutputRowCount, 4739-4746 *)
Definition so_rows (nxyz : nat) : nat := nxyz.

(** ** Histories *)

(** What changes the three members: a run of the input of a definition on worker 0 (the map of
    definitions is ordered), LoadDatabase (IPhreeqc.cpp 1095-1112 forgets the definitions and resets
    the number, CSelectedOutputMap stays), RunCells, and the two setters. *)
Fixpoint insert_def (n : Z) (l : list Z) : list Z :=
  match l with
  | [] => [n]
  | x :: l' => if decide (n < x)%Z then n :: l else if decide (n = x) then l else x :: insert_def n l'
  end.
Definition define (n : Z) (s : sel) : sel := Sel (insert_def n (z_defs s)) (z_tabs s) (z_cur s).
Definition load_database (s : sel) : sel := Sel [] (z_tabs s) 1.
(** RunCells with the tables of Model.v: the tables of the dummy run are those of the definitions
    (IPhreeqc.cpp 1240-1268). [splits] are the cells of the threads. *)
Inductive ran (on : bool) (dummy : smap (D := D)) wet run splits : sel -> sel -> Prop :=
| ran_cells s ws : (on = true -> dummy.*1 = z_defs s) ->
    Forall2 (fun cells w => exists ok, run_thread on (Some dummy) wet run cells = Ret (ok, w)) splits ws ->
    ran on dummy wet run splits s (Sel (z_defs s) ws (current_after on dummy (z_cur s))).
(** Calls that only choose: the setters; the getters leave the state alone. *)
Inductive choose := ByNumber (n : Z) | ByIndex (i : Z).
Definition do_choose (c : choose) (s : sel) : sel :=
  match c with ByNumber n => (set_current s n).2 | ByIndex i => (set_nth s i).2 end.
Definition do_chooses (cs : list choose) (s : sel) : sel := fold_left (fun s c => do_choose c s) cs s.

(** ** Proofs *)

Lemma do_choose_same c s : z_defs (do_choose c s) = z_defs s /\ z_tabs (do_choose c s) = z_tabs s.
Proof.
  destruct c; cbn; unfold set_nth, set_current; repeat case_decide; try done;
    destruct (_ !! _); repeat case_decide; done.
Qed.
Lemma do_chooses_same cs s : z_defs (do_chooses cs s) = z_defs s /\ z_tabs (do_chooses cs s) = z_tabs s.
Proof.
  revert s. induction cs as [|c cs IH]; intros s; [done|].
  destruct (do_choose_same c s) as [<- <-]. apply IH.
Qed.
Lemma insert_def_in n l x : x ∈ insert_def n l <-> x = n \/ x ∈ l.
Proof using. clear.
  induction l as [|y l IH]; cbn; [set_solver|]. repeat case_decide; subst; set_solver.
Qed.
Lemma insert_def_sorted n l : Sorted Z.lt l -> Sorted Z.lt (insert_def n l).
Proof using. clear.
  intros H%Sorted_StronglySorted; [|apply _]. apply StronglySorted_Sorted.
  induction H as [|x l H IH Hx]; cbn; [by repeat constructor|]. repeat case_decide; subst.
  - constructor; [by constructor|]. constructor; [done|]. eapply Forall_impl; [done|]. cbn. lia.
  - by constructor.
  - constructor; [done|]. apply Forall_forall. intros z [->|Hz]%insert_def_in; [lia|].
    by eapply Forall_forall in Hz.
Qed.

Definition w0 (s : sel) : gmap Z (table D) := match z_tabs s with w :: _ => w | [] => ∅ end.
Lemma current_w0 s : current s = if decide (0 <= z_cur s)%Z then w0 s !! z_cur s else None.
Proof. unfold current, w0. case_decide; [|done]. by destruct (z_tabs s). Qed.

Lemma get_heading (t : table D) c :
  (forall h, t_head t !! c = Some h -> get t 0 (Z.of_nat c) = Ret (VR_OK, VStr h)).
Proof.
  intros h Hh. pose proof (lookup_lt_Some _ _ _ Hh) as Hl. unfold get, row_count, col_count.
  rewrite (decide_False (P := length (t_head t) = 0)) by lia.
  rewrite !decide_False, decide_True by lia. by rewrite Nat2Z.id, Hh.
Qed.
Lemma heading_loop_ok s t : current s = Some t -> forall n c, c + n = length (t_head t) ->
  heading_loop s (Z.of_nat c) n = Ret (drop c (t_head t)).
Proof.
  intros Ec. induction n as [|n IH]; intros c Hl; cbn [heading_loop].
  - by rewrite drop_ge by lia.
  - destruct (lookup_lt_is_Some_2 (t_head t) c) as [h Hh]; [lia|].
    unfold so_heading. rewrite Ec, (get_heading t c h Hh). cbn [obind].
    replace (Z.of_nat c + 1)%Z with (Z.of_nat (S c)) by lia. rewrite IH by lia. cbn [obind default].
    by rewrite (drop_S _ h c).
Qed.
Lemma headings_ok s t : current s = Some t -> so_headings s = Ret (0%Z, t_head t).
Proof.
  intros Ec. unfold so_headings, so_columns. rewrite Ec. rewrite decide_True by lia.
  rewrite Nat2Z.id. change 0%Z with (Z.of_nat 0) at 1. by rewrite (heading_loop_ok s t Ec).
Qed.

(** ** C77 *)

(** A heading is given exactly for the columns of the chosen table, nothing is read outside it, and
    headings, columns and the single headings agree. *)
Theorem headings_of_current s :
  (forall icol h, so_heading s icol = Ret (Some h) <->
     (0 <= z_cur s)%Z /\ (0 <= icol)%Z /\ exists t, w0 s !! z_cur s = Some t /\ t_head t !! Z.to_nat icol = Some h) /\
  (forall icol, so_heading s icol = Ret None \/ exists h, so_heading s icol = Ret (Some h)) /\
  (forall t, (0 <= z_cur s)%Z -> w0 s !! z_cur s = Some t ->
     so_headings s = Ret (0%Z, t_head t) /\ so_columns s = Z.of_nat (length (t_head t))) /\
  ((z_cur s < 0)%Z \/ w0 s !! z_cur s = None -> so_headings s = Ret (irm_invalidarg, []) /\ so_columns s = irm_invalidarg).
Proof.
  assert (Hout : forall (t : table D) icol, ~ (0 <= icol < Z.of_nat (length (t_head t)))%Z ->
            exists r e, get t 0 icol = Ret (r, e) /\ r <> VR_OK).
  { intros t icol Hn. unfold get, row_count, col_count. case_decide as E1; [eauto|].
    rewrite decide_True by lia. eauto. }
  assert (Hcase : forall (t : table D) icol, (exists h, (0 <= icol)%Z /\ t_head t !! Z.to_nat icol = Some h /\ get t 0 icol = Ret (VR_OK, VStr h)) \/
            (~ (0 <= icol < Z.of_nat (length (t_head t)))%Z /\ exists r e, get t 0 icol = Ret (r, e) /\ r <> VR_OK)).
  { intros t icol. destruct (decide (0 <= icol < Z.of_nat (length (t_head t)))%Z) as [H|H].
    - left. destruct (lookup_lt_is_Some_2 (t_head t) (Z.to_nat icol)) as [h Hh]; [lia|].
      exists h. split; [lia|]. split; [done|].
      pose proof (get_heading t _ h Hh) as G. by rewrite Z2Nat.id in G by lia.
    - right. auto. }
  split; [|split; [|split]].
  - intros icol h. unfold so_heading. rewrite current_w0. split.
    + case_decide as Hc; [|done]. destruct (w0 s !! z_cur s) as [t|] eqn:Et; [|done].
      destruct (Hcase t icol) as [(h' & Hi & Hh & ->)|(_ & r & e & -> & Hr)]; cbn [obind].
      * intros [= <-]. eauto 6.
      * destruct r; [done|..]; done.
    + intros (Hc & Hi & t & Et & Hh). rewrite decide_True, Et by done.
      destruct (Hcase t icol) as [(h' & _ & Hh' & ->)|(Hn & _)]; cbn [obind]; [congruence|].
      apply lookup_lt_Some in Hh. lia.
  - intros icol. unfold so_heading. destruct (current s) as [t|]; [|by left].
    destruct (Hcase t icol) as [(h' & _ & Hh' & ->)|(_ & r & e & -> & Hr)]; cbn [obind]; [eauto|].
    left. by destruct r.
  - intros t Hc Et. assert (Ec : current s = Some t) by (by rewrite current_w0, decide_True).
    split; [by apply headings_ok|]. unfold so_columns. by rewrite Ec.
  - intros H. assert (Ec : current s = None) by (rewrite current_w0; case_decide; [destruct H; [lia|done]|done]).
    unfold so_headings, so_columns. rewrite Ec. done.
Qed.

(** The tables of the definitions after a run with selected output on. *)
Definition run_ok (defs : list Z) (dummy : smap (D := D)) wet (run : nat -> option (smap (D := D))) (splits : list (list nat)) : Prop :=
  (forall n t, (n, t) ∈ dummy -> exists es, made es t) /\
  forall cells i sm, cells ∈ splits -> i ∈ cells -> wet i = true -> run i = Some sm -> run_tables defs sm.

Lemma ran_keys dummy wet run splits s s1 : ran true dummy wet run splits s s1 -> splits <> [] ->
  Sorted Z.lt (z_defs s) -> run_ok (z_defs s) dummy wet run splits ->
  z_defs s1 = z_defs s /\ z_tabs s1 <> [] /\ forall n, is_Some (w0 s1 !! n) <-> n ∈ z_defs s.
Proof.
  intros H Hne Hs [Hm Hr]. inversion H as [s' ws Hk HF]; subst. cbn. split; [done|].
  destruct HF as [|cells w splits ws [ok Ew] HF]; [done|]. split; [done|]. unfold w0. cbn.
  destruct (thread_rows (z_defs s) dummy wet run cells) as (ok' & cm & E & _ & Hd & _).
  - apply Sorted_StronglySorted in Hs; [|apply _]. clear -Hs. induction Hs as [|x l H IH Hx]; constructor; [|done].
    intros Hin. eapply Forall_forall in Hx; [|done]. lia.
  - by apply Hk.
  - done.
  - intros i sm Hi. apply (Hr cells); [left|done].
  - rewrite E in Ew. injection Ew as _ <-. done.
Qed.

Lemma sorted_nodup l : Sorted Z.lt l -> NoDup l.
Proof using. clear.
  intros Hs%Sorted_StronglySorted; [|apply _]. induction Hs as [|x l H IH Hx]; constructor; [|done].
  intros Hin. eapply Forall_forall in Hx; [|done]. lia.
Qed.

(** The loop of the documentation: for i from 0 to the count, GetNthSelectedOutputUserNumber and
    SetCurrentSelectedOutputUserNumber (or SetNthSelectedOutput). After a run with selected output
    on, and whatever was chosen before, it visits every definition exactly once, and what is then
    shown is that definition's table. *)
Theorem select_visits_all dummy wet run splits s s1 cs :
  ran true dummy wet run splits s s1 -> splits <> [] -> Sorted Z.lt (z_defs s) ->
  run_ok (z_defs s) dummy wet run splits -> Forall (Z.le 0) (z_defs s) ->
  let s2 := do_chooses cs s1 in
  so_count s2 = length (z_defs s) /\
  (forall i, i < so_count s2 -> exists n t s3,
     so_nth s2 (Z.of_nat i) = n /\ n ∈ z_defs s /\
     set_current s2 n = (0%Z, s3) /\ set_nth s2 (Z.of_nat i) = (0%Z, s3) /\ z_cur s3 = n /\
     w0 s1 !! n = Some t /\ so_headings s3 = Ret (0%Z, t_head t) /\
     so_columns s3 = Z.of_nat (length (t_head t))) /\
  (forall n, n ∈ z_defs s -> exists i, i < so_count s2 /\ so_nth s2 (Z.of_nat i) = n) /\
  (forall i j, i < so_count s2 -> j < so_count s2 -> so_nth s2 (Z.of_nat i) = so_nth s2 (Z.of_nat j) -> i = j).
Proof.
  intros Hran Hne Hs Hok H0 s2. destruct (ran_keys _ _ _ _ _ _ Hran Hne Hs Hok) as (Ed & Ht & Hk).
  destruct (do_chooses_same cs s1) as [Ed2 Et2]. fold s2 in Ed2, Et2.
  assert (Ew : w0 s2 = w0 s1) by (unfold w0; by rewrite Et2).
  assert (Ec : so_count s2 = length (z_defs s)).
  { unfold so_count. rewrite Et2. unfold w0 in Hk. destruct (z_tabs s1) as [|w ws] eqn:E; [done|].
    rewrite <- size_dom. replace (dom w) with (list_to_set (z_defs s) : gset Z).
    - apply size_list_to_set, sorted_nodup, Hs.
    - apply set_eq. intros n. rewrite elem_of_list_to_set, elem_of_dom. symmetry. apply Hk. }
  assert (Hnth : forall i n, z_defs s !! i = Some n -> so_nth s2 (Z.of_nat i) = n).
  { intros i n Hi. unfold so_nth. rewrite decide_True, Nat2Z.id, Ed2, Ed, Hi by lia.
    eapply Forall_lookup in H0; [|done]. by rewrite decide_False by lia. }
  split; [done|]. split; [|split].
  - intros i Hi. rewrite Ec in Hi. apply lookup_lt_is_Some_2 in Hi as [n Hn].
    pose proof (Forall_lookup_1 _ _ _ _ H0 Hn) as Hn0. cbn in Hn0.
    assert (Hin : n ∈ z_defs s) by (by eapply elem_of_list_lookup_2).
    destruct (proj2 (Hk n) Hin) as [t Et].
    exists n, t, (Sel (z_defs s2) (z_tabs s2) n). split; [by apply Hnth|]. split; [done|].
    assert (Esc : set_current s2 n = (0%Z, Sel (z_defs s2) (z_tabs s2) n)).
    { unfold set_current. by rewrite decide_True. }
    split; [done|]. split.
    { unfold set_nth. rewrite decide_True, Nat2Z.id by lia.
      assert (Hn2 : z_defs s2 !! i = Some n) by (by rewrite Ed2, Ed). by rewrite Hn2, decide_True by lia. }
    split; [done|]. split; [done|].
    apply (headings_of_current (Sel (z_defs s2) (z_tabs s2) n)); [done|]. cbn [z_cur].
    unfold w0. cbn [z_tabs]. rewrite Et2. exact Et.
  - intros n [i Hi]%elem_of_list_lookup. exists i. split; [rewrite Ec; by eapply lookup_lt_Some|by apply Hnth].
  - intros i j Hi Hj. rewrite Ec in Hi, Hj. apply lookup_lt_is_Some_2 in Hi as [n Hn].
    apply lookup_lt_is_Some_2 in Hj as [n' Hn']. rewrite (Hnth _ _ Hn), (Hnth _ _ Hn'). intros ->.
    eapply NoDup_lookup; [by apply sorted_nodup|done|done].
Qed.

(** Together with the run: the loop meets definition [n], with its headings, and with the values of
    the cells under them; the array has the size that rows and columns tell. *)
Theorem select_values dummy wet run splits s s1 cs n hs nxyz bwd fwd so :
  ran true dummy wet run splits s s1 -> splits <> [] -> Sorted Z.lt (z_defs s) -> Forall (Z.le 0) (z_defs s) ->
  run_setup (z_defs s) dummy wet run n hs (length bwd) -> concat splits = seq 0 (length bwd) ->
  (forall i js j, bwd !! i = Some js -> (j ∈ js <-> fwd j = Some i /\ j < nxyz)) ->
  let s2 := do_chooses cs s1 in
  exists i s3 so', i < so_count s2 /\ so_nth s2 (Z.of_nat i) = n /\ set_current s2 n = (0%Z, s3) /\
    so_headings s3 = Ret (0%Z, hs) /\
    get_selected_output inactive of_long zero nxyz bwd (z_cur s3) (z_tabs s3) so = Ret (IRM_OK, Some so') /\
    Z.of_nat (length so') = (Z.of_nat (so_rows nxyz) * so_columns s3)%Z /\
    forall c k j x, hs !! c = Some k -> j < nxyz -> fwd j = Some x -> x < length bwd ->
      exists v, cell_value wet run n x k v /\ so' !! (c * nxyz + j) = Some (to_double inactive of_long v).
Proof.
  intros Hran Hne Hs H0 Hset Hc Hb s2.
  assert (Hok : run_ok (z_defs s) dummy wet run splits).
  { destruct Hset as [_ _ Hm _ _ Hr]. split; [done|]. intros cells i sm Hin Hi Hw Es.
    destruct (Hr i) as (sm' & E & Hx & _); [|done|congruence].
    assert (Hx : i ∈ concat splits).
    { clear -Hin Hi. induction splits as [|c l IH]; [by apply elem_of_nil in Hin|]. cbn.
      apply elem_of_app. apply elem_of_cons in Hin as [<-|Hin]; [by left|right; by apply IH]. }
    rewrite Hc in Hx. apply elem_of_seq in Hx. lia. }
  destruct (select_visits_all dummy wet run splits s s1 cs Hran Hne Hs Hok H0) as (Ec & Hv & Hall & _).
  destruct (Hset) as [_ Hkeys _ (t0 & Hin0 & Hhs) Hhne _].
  assert (Hnd : n ∈ z_defs s) by (rewrite <- Hkeys; apply elem_of_list_fmap; by exists (n, t0)).
  destruct (Hall n Hnd) as (i & Hi & En). destruct (Hv i Hi) as (n' & t & s3 & En' & _ & Esc & _ & Ecur & Et & Eh & Ecol).
  fold s2 in En, Hi, Esc, Hv, En'. rewrite En in En'. subst n'.
  pose proof (proj1 (Forall_forall _ _) H0 n Hnd) as Hn0. cbn in Hn0.
  assert (Ew : z_tabs s3 = z_tabs s1).
  { unfold set_current in Esc. rewrite decide_True in Esc by done. injection Esc as <-. cbn.
    by apply do_chooses_same. }
  destruct (threads_show inactive of_long zero _ _ _ _ _ _ _ Hset splits 0) as (ws & HF & Hshow & _);
    [by rewrite Nat.sub_0_r|lia|].
  destruct (selected_output_cells inactive of_long zero (z_defs s) dummy wet run n hs splits nxyz bwd fwd so
    Hset Hn0 Hne Hc Hb) as (ws' & HF' & so' & Eg & El & Hval & _).
  assert (Hsame : forall ws1 ws2, Forall2 (fun cells w => exists ok, run_thread true (Some dummy) wet run cells = Ret (ok, w)) splits ws1 ->
    Forall2 (fun cells w => run_thread true (Some dummy) wet run cells = Ret (true, w)) splits ws2 -> ws1 = ws2).
  { clear. induction splits as [|c l IH]; intros ws1 ws2 H1 H2; inversion H1; inversion H2; subst; [done|].
    match goal with H : exists _, _ |- _ => destruct H as [ok E] end.
    f_equal; [congruence|by apply IH]. }
  assert (E1 : z_tabs s1 = ws /\ z_tabs s1 = ws').
  { inversion Hran as [s' ws1 _ HF1]; subst. cbn. split; by apply Hsame. }
  destruct E1 as [E1 E2].
  assert (Ehs : t_head t = hs).
  { unfold w0 in Et. rewrite E1 in Et. destruct ws as [|w ws]; [by rewrite lookup_empty in Et|].
    destruct Hshow as (t1 & l & Et1 & Il & Hl & _). rewrite Et in Et1. injection Et1 as <-.
    destruct (Forall2_cons_inv_r _ _ _ _ HF) as (cells & sp & Er & HF1 & Esp).
    destruct (thread_rows (z_defs s) dummy wet run cells) as (ok & cm & Er' & _ & _ & Hp).
    - by apply sorted_nodup.
    - done.
    - apply Hok.
    - intros x sm Hx. apply (proj2 Hok cells); [rewrite Esp; left|done].
    - rewrite Er in Er'. injection Er' as _ <-. rewrite <- Hhs in Hhne. destruct (Hp n t0 Hin0 Hhne) as (t1 & Et1 & [z Hz] & _).
      rewrite Et in Et1. injection Et1 as <-. rewrite <- (inv_head _ _ Il), <- Hhs in Hl. rewrite Hz in Hl. rewrite Hz, <- Hhs.
      rewrite app_length in Hl. destruct z; [by rewrite app_nil_r|cbn in Hl; lia]. }
  rewrite Ehs in Eh, Ecol. exists i, s3, so'. split; [done|]. split; [done|]. split; [done|]. split; [done|].
  rewrite Ecur, Ew, E2. split; [done|]. split; [|exact Hval].
  rewrite El, Ecol. unfold so_rows. lia.
Qed.
End Select.
Print Assumptions headings_of_current.
Print Assumptions select_visits_all.
Print Assumptions select_values.

(** Definitions 2 and 5, two threads with two cells each; each definition shows the number of the
    cell. *)
Definition two (v : Z) : smap (D := Z) := [(2%Z, tab1 v); (5%Z, tab1 (v + 100))].
Definition two_state : sel Z := Sel [2%Z; 5%Z] [] 1.
Definition two_ran : list (gmap Z (table Z)) :=
  map (fun cells => match run_thread true (Some (two 0)) (fun _ => true) (fun i => Some (two (Z.of_nat i))) cells with
                    | Ret (_, w) => w | _ => ∅ end) [[0; 1]; [2; 3]].
Lemma tab1_made v : exists es, made es (tab1 v) /\ 1 <= length (l_done (log_of es)).
Proof.
  exists [Punch "pH" (VDbl v); End]. split; [done|]. cbn. rewrite decide_False by done. cbn. lia.
Qed.
Lemma two_tables v n t : (n, t) ∈ two v -> exists x, t = tab1 x.
Proof.
  intros H. apply elem_of_cons in H as [[= -> ->]|H]; [eauto|].
  apply elem_of_list_singleton in H as [= -> ->]. eauto.
Qed.
Lemma two_thread cells : exists ok w,
  run_thread true (Some (two 0)) (fun _ => true) (fun i => Some (two (Z.of_nat i))) cells = Ret (ok, w).
Proof.
  destruct (thread_rows [2%Z; 5%Z] (two 0) (fun _ => true) (fun i => Some (two (Z.of_nat i))) cells)
    as (ok & w & E & _); [|done| | |by eauto].
  - apply (bool_decide_unpack _). by vm_compute.
  - intros n t [x ->]%two_tables. destruct (tab1_made x) as (es & M & _). by exists es.
  - intros i sm _ _ [= <-]. split; [done|]. intros n t [x ->]%two_tables. apply tab1_made.
Qed.
Example select_case :
  let splits := [[0; 1]; [2; 3]] in
  ran true (two 0) (fun _ => true) (fun i => Some (two (Z.of_nat i))) splits two_state
      (Sel [2%Z; 5%Z] two_ran 5) /\
  Sorted Z.lt (z_defs two_state) /\ Forall (Z.le 0) (z_defs two_state) /\
  run_setup (z_defs two_state) (two 0) (fun _ => true) (fun i => Some (two (Z.of_nat i))) 5 ["pH"%string] 4 /\
  concat splits = seq 0 4 /\
  let s2 := do_chooses [ByNumber 77; ByIndex 0] (Sel [2%Z; 5%Z] two_ran 5) in
  (so_count s2, so_nth s2 0, so_nth s2 1, so_nth s2 2) = (2, 2%Z, 5%Z, irm_fail) /\
  so_headings (set_current s2 (so_nth s2 1)).2 = Ret (0%Z, ["pH"%string]) /\
  get_selected_output 999%Z (fun z => z) 0%Z 4 [[0]; [1]; [2]; [3]] 5 two_ran [] = Ret (IRM_OK, Some [100; 101; 102; 103]%Z).
Proof.
  intros splits. split; [|split; [|split; [|split; [|split; [done|]]]]].
  - apply (ran_cells true (two 0) _ _ splits two_state two_ran); [done|].
    unfold two_ran, splits. cbn [map].
    repeat constructor; (match goal with |- exists ok, run_thread _ _ _ _ ?c = _ => destruct (two_thread c) as (ok & w & ->) end; by exists ok).
  - repeat constructor.
  - repeat constructor; lia.
  - split.
    + apply (bool_decide_unpack _). by vm_compute.
    + done.
    + intros n t [x ->]%two_tables. destruct (tab1_made x) as (es & M & _). by exists es.
    + exists (tab1 100). split; [|done]. right. left.
    + done.
    + intros i _ _. exists (two (Z.of_nat i)). split; [done|]. split.
      * split; [done|]. intros n t [x ->]%two_tables. apply tab1_made.
      * intros t [x ->]%two_tables k. intros Hk. exact Hk.
  - intros s2. split; [vm_compute; reflexivity|]. split; vm_compute; reflexivity.
Qed.

(** A definition added after the run, with a smaller number, shifts the numbering: the loop meets a
    number without a table and never the table there is. *)
Theorem select_added_refuted :
  exists s s2, s = Sel [5%Z] [ {[ 5%Z := tab1 7 ]} ] 5 /\ s2 = define 2 s /\
    so_count s2 = 1 /\ so_nth s2 0 = 2%Z /\
    (set_current s2 2).1 = 0%Z /\ so_columns (set_current s2 2).2 = irm_invalidarg /\
    forall i, i < so_count s2 -> so_nth s2 (Z.of_nat i) <> 5%Z.
Proof.
  eexists _, _. split; [reflexivity|]. split; [reflexivity|].
  split; [vm_compute; reflexivity|]. split; [vm_compute; reflexivity|]. split; [done|].
  split; [vm_compute; reflexivity|]. intros i Hi.
  assert (Hc : so_count (define 2 (Sel [5%Z] [ {[ 5%Z := tab1 7 ]} ] 5)) = 1) by (vm_compute; reflexivity).
  rewrite Hc in Hi. assert (i = 0) as -> by lia. vm_compute. discriminate.
Qed.
Print Assumptions select_added_refuted.

(** After LoadDatabase the tables of the last run are still counted, but have no numbers. *)
Theorem select_load_refuted {D} (s : sel D) i :
  so_count (load_database s) = so_count s /\ so_nth (load_database s) i = irm_fail.
Proof. split; [done|]. unfold so_nth. by case_decide. Qed.
Print Assumptions select_load_refuted.

(** SetCurrentSelectedOutputUserNumber succeeds for every non-negative number. *)
Theorem set_current_unchecked_refuted {D} (s : sel D) n : ((set_current s n).1 = 0%Z <-> (0 <= n)%Z) /\
  ((0 <= n)%Z -> z_cur (set_current s n).2 = n /\
     (w0 s !! n = None -> so_columns (set_current s n).2 = irm_invalidarg)).
Proof.
  unfold set_current. case_decide as H; cbn; [|by split; [split|]].
  split; [done|]. intros _. split; [done|]. intros Hn. unfold so_columns. rewrite current_w0. cbn.
  rewrite decide_True by done. unfold w0 in *. cbn in *. by rewrite Hn.
Qed.
Print Assumptions set_current_unchecked_refuted.
