(** The maps of instances under threads: which calls touch them, and under which locks. *)
From Coq Require Import Lia.
From stdpp Require Import prelude.

(** IPhreeqc::Instances and InstancesIndex; IPhreeqcPhast::PhastInstances; _Instances and _InstancesIndex of PhreeqcRM *)
Inductive var := VInst | VPhast | VMods.
(** map_lock (thread.h 53), omp critical(IPhreeqcPhastLib), omp critical(IPhreeqcLib), _InstancesLock (PhreeqcRM.h 132) *)
Inductive lock := LMap | LPhastLib | LLib | LMods.
Inductive action := Acquire (l : lock) | Release (l : lock) | Reads (v : var) | Writes (v : var).
Global Instance var_eq_dec : EqDecision var. Proof. solve_decision. Defined.
Global Instance lock_eq_dec : EqDecision lock. Proof. solve_decision. Defined.
Global Instance action_eq_dec : EqDecision action. Proof. solve_decision. Defined.

Definition make_i : list action := [Acquire LMap; Writes VInst; Release LMap].   (* IPhreeqc.cpp 51-55 *)
Definition free_i : list action := [Acquire LMap; Writes VInst; Release LMap].   (* IPhreeqc.cpp 86-92 *)
Definition find_i : list action := [Acquire LMap; Reads VInst; Release LMap].    (* IPhreeqcLib.cpp 1076-1082 *)
Definition make_p : list action := make_i ++ [Writes VPhast].                    (* IPhreeqcPhast.cxx 11-15 *)
Definition free_p : list action := [Writes VPhast] ++ free_i.                    (* IPhreeqcPhast.cxx 28-34 *)
(** IPhreeqcPhastLib.cpp 66-83: the search in critical(IPhreeqcLib); what is found is read after it (80) *)
Definition find_p : list action := [Acquire LLib; Reads VPhast; Release LLib].
Definition enter_m : list action := [Acquire LMods; Writes VMods; Release LMods]. (* PhreeqcRM.h 130-135 *)
Definition leave_m : list action := [Acquire LMods; Writes VMods; Release LMods]. (* PhreeqcRM.h 137-146 *)
Definition find_m : list action := [Acquire LMods; Reads VMods; Release LMods].   (* PhreeqcRM.h 149-158 *)
Definition times (n : nat) (p : list action) : list action := concat (replicate n p).
Definition free_m (n : nat) : list action := times n free_p ++ leave_m.          (* PhreeqcRM.cpp 384-389 *)

Inductive call :=
| ICreate | IDestroy | IGet              (* IPhreeqcLib.cpp 1041-1084 *)
| PCreate | PDestroy | PGet | PCleanup   (* IPhreeqcPhastLib.cpp 23-98 *)
| MCreate | MDestroy | MGet | MCleanup.  (* PhreeqcRM.cpp 76-109, PhreeqcRM.h 128-215 *)
Global Instance call_eq_dec : EqDecision call. Proof. solve_decision. Defined.

(** What a call may do: it depends on what the searches find and on the number of workers. Only what touches
    the three maps is kept. *)
Inductive body : call -> list action -> Prop :=
| b_icreate : body ICreate make_i
| b_idestroy_no : body IDestroy find_i
| b_idestroy_i : body IDestroy (find_i ++ free_i)
| b_idestroy_p : body IDestroy (find_i ++ free_p)
| b_iget : body IGet find_i
| b_pcreate : body PCreate ([Acquire LPhastLib] ++ make_p ++ [Release LPhastLib])
| b_pdestroy_no : body PDestroy find_p
| b_pdestroy : body PDestroy (find_p ++ [Reads VPhast] ++ [Acquire LPhastLib] ++ free_p ++ [Release LPhastLib])
| b_pget_no : body PGet find_p
| b_pget : body PGet (find_p ++ [Reads VPhast])
| b_pcleanup n : body PCleanup ([Reads VPhast] ++ times n free_p)
| b_mcreate n : body MCreate (enter_m ++ times n make_p)
| b_mcreate_fail n : body MCreate (enter_m ++ times n make_p ++ leave_m)
| b_mdestroy_no : body MDestroy [Reads VMods]
| b_mdestroy n : body MDestroy ([Reads VMods] ++ free_m n)
| b_mget : body MGet find_m
| b_mcleanup ns : body MCleanup ([Reads VMods] ++ concat (free_m <$> ns)).

(** A thread: the locks it holds, latest first, and what is left to do. A thread makes any number of calls. *)
Notation thread := (list lock * list action)%type (only parsing).
Inductive program : list call -> list action -> Prop :=
| program_nil : program [] []
| program_cons c cs p q : body c p -> program cs q -> program (c :: cs) (p ++ q).
Inductive act (others : list lock) : thread -> thread -> Prop :=
| act_acquire h l p : l ∉ others -> l ∉ h -> act others (h, Acquire l :: p) (l :: h, p)
| act_release h l p : act others (l :: h, Release l :: p) (h, p)
| act_reads h v p : act others (h, Reads v :: p) (h, p)
| act_writes h v p : act others (h, Writes v :: p) (h, p).
Definition held_by_others (ts : list thread) (i : nat) : list lock := concat (take i ts ++ drop (S i) ts).*1.
Inductive turn : list thread -> list thread -> Prop :=
| turn_act ts i t t' : ts !! i = Some t -> act (held_by_others ts i) t t' -> turn ts (<[i := t']> ts).
Definition start (ps : list (list action)) : list thread := (fun p => ([], p)) <$> ps.
Definition touches (v : var) (a : action) : Prop := a = Reads v \/ a = Writes v.
(** Two threads are about to access the same map, one of them to change it. *)
Definition race (v : var) (ts : list thread) : Prop :=
  exists i j h h' a b p q, i <> j /\ ts !! i = Some (h, a :: p) /\ ts !! j = Some (h', b :: q) /\
    a = Writes v /\ touches v b.
Definition finished (ts : list thread) : Prop := forall t, t ∈ ts -> t.2 = [].

(** ** Discipline *)
Definition level (l : lock) : nat := match l with LPhastLib => 0 | LMap | LLib | LMods => 1 end.
(** [gd v = Some l]: [v] is accessed with [l] held *)
Fixpoint wf (gd : var -> option lock) (h : list lock) (p : list action) : Prop :=
  match p with
  | [] => h = []
  | Acquire l :: r => (forall k, k ∈ h -> level k < level l)%nat /\ wf gd (l :: h) r
  | Release l :: r => match h with k :: h' => k = l /\ wf gd h' r | [] => False end
  | Reads v :: r | Writes v :: r => (forall l, gd v = Some l -> l ∈ h) /\ wf gd h r
  end.
Lemma wf_app g p : forall h q, wf g h p -> wf g [] q -> wf g h (p ++ q).
Proof.
  induction p as [|a p IH]; intros h q; cbn.
  - by intros ->.
  - destruct a as [l|l|v|v].
    + intros [? ?] ?. split; [done|]. by apply IH.
    + destruct h as [|k h]; [done|]. intros [? ?] ?. split; [done|]. by apply IH.
    + intros [? ?] ?. split; [done|]. by apply IH.
    + intros [? ?] ?. split; [done|]. by apply IH.
Qed.
Lemma wf_times g n p : wf g [] p -> wf g [] (times n p).
Proof. intros W. unfold times. induction n; cbn; [done|]. by apply wf_app. Qed.
Lemma wf_concat g ps : (forall p, p ∈ ps -> wf g [] p) -> wf g [] (concat ps).
Proof. intros W. induction ps as [|p ps IH]; cbn; [done|]. apply wf_app; [apply W; left|apply IH; intros; apply W; by right]. Qed.

Definition inv (g : var -> option lock) (ts : list thread) : Prop :=
  (forall i h p, ts !! i = Some (h, p) -> wf g h p) /\
  (forall i j h h' p q l, ts !! i = Some (h, p) -> ts !! j = Some (h', q) -> l ∈ h -> l ∈ h' -> i = j).
Lemma others_elem ts i l : l ∈ held_by_others ts i <-> exists j h p, j <> i /\ ts !! j = Some (h, p) /\ l ∈ h.
Proof.
  unfold held_by_others. rewrite elem_of_list_In, in_concat. split.
  - intros (h & Hh & Hl). apply elem_of_list_In in Hh, Hl. apply elem_of_list_fmap in Hh as ([h' p] & -> & Hin). cbn in *.
    apply elem_of_app in Hin as [Hin|Hin]; apply elem_of_list_lookup in Hin as [j Hj].
    + pose proof (lookup_lt_Some _ _ _ Hj) as Lt. rewrite take_length in Lt.
      rewrite lookup_take in Hj by lia. exists j, h', p. split; [lia|done].
    + rewrite lookup_drop in Hj. exists (S i + j)%nat, h', p. split; [lia|done].
  - intros (j & h & p & N & Hj & Hl). exists h. split; [|by apply elem_of_list_In].
    apply elem_of_list_In, elem_of_list_fmap. exists (h, p). split; [done|]. apply elem_of_app.
    destruct (decide (j < i)%nat).
    + left. apply elem_of_list_lookup. exists j. by rewrite lookup_take.
    + right. apply elem_of_list_lookup. exists (j - S i)%nat. rewrite lookup_drop. replace (S i + (j - S i))%nat with j by lia. done.
Qed.
Lemma inv_start g ps : (forall p, p ∈ ps -> wf g [] p) -> inv g (start ps).
Proof.
  intros W. unfold start. split.
  - intros i h p E. apply list_lookup_fmap_Some in E as (p' & E & [= -> ->]). apply W, elem_of_list_lookup. eauto.
  - intros i j h h' p q l E. apply list_lookup_fmap_Some in E as (p' & _ & [= -> ->]). intros _ N. by apply elem_of_nil in N.
Qed.
Lemma inv_turn g ts ts' : inv g ts -> turn ts ts' -> inv g ts'.
Proof.
  intros [W X] T. destruct T as [ts i t t' E A]. pose proof (lookup_lt_Some _ _ _ E) as Lt.
  assert (forall h p, t = (h, p) -> wf g h p) as Wt by (intros h p ->; eauto).
  assert (forall h p, t' = (h, p) -> wf g h p /\ forall l, l ∈ h -> (l ∈ held_by_others ts i -> False)) as Wt'.
  { intros h p ->. assert (forall h0 p0, t = (h0, p0) -> forall l, l ∈ h0 -> l ∈ held_by_others ts i -> False) as X0.
    { intros h0 p0 -> l Hl Ho. apply others_elem in Ho as (j & h1 & p1 & N & Ej & Hl1). apply N. by eapply X. }
    inversion A; subst.
    - destruct (Wt _ _ eq_refl) as [Lv Wr]. split; [done|]. intros l' Hl' Ho. apply elem_of_cons in Hl' as [->|Hl']; [done|]. by eapply X0.
    - destruct (Wt _ _ eq_refl) as [_ Wr]. split; [done|]. intros l' Hl' Ho. eapply X0; [done|by right|done].
    - destruct (Wt _ _ eq_refl) as [_ Wr]. split; [done|]. by eapply X0.
    - destruct (Wt _ _ eq_refl) as [_ Wr]. split; [done|]. by eapply X0. }
  split.
  - intros j h p. destruct (decide (i = j)) as [<-|N].
    + rewrite list_lookup_insert by done. intros [= ->]. by apply Wt'.
    + rewrite list_lookup_insert_ne by done. apply W.
  - intros j k h h' p q l. destruct (decide (i = j)) as [<-|N], (decide (i = k)) as [<-|N']; try done.
    + rewrite list_lookup_insert, list_lookup_insert_ne by done. intros [= ->] E' Hl Hl'. exfalso.
      eapply (proj2 (Wt' _ _ eq_refl)); [exact Hl|]. apply others_elem. exists k, h', q. done.
    + rewrite list_lookup_insert, list_lookup_insert_ne by done. intros E' [= ->] Hl Hl'. exfalso.
      eapply (proj2 (Wt' _ _ eq_refl)); [exact Hl'|]. apply others_elem. exists j, h, p. done.
    + rewrite !list_lookup_insert_ne by done. apply X.
Qed.
Lemma inv_reach g ts ts' : inv g ts -> rtc turn ts ts' -> inv g ts'.
Proof. intros I R. induction R; [done|]. eauto using inv_turn. Qed.
Lemma inv_no_race g ts v l : inv g ts -> g v = Some l -> ~ race v ts.
Proof.
  intros [W X] G (i & j & h & h' & a & b & p & q & N & Ei & Ej & -> & B).
  pose proof (W _ _ _ Ei) as [Hi _]. assert (l ∈ h') as Hj.
  { pose proof (W _ _ _ Ej) as Wj. destruct B as [-> | ->]; destruct Wj as [Hj _]; by apply Hj. }
  apply N. eapply X; eauto.
Qed.
(** Somebody can go on *)
Lemma inv_progress g ts : inv g ts -> finished ts \/ exists ts', turn ts ts'.
Proof.
  intros [W X].
  assert (forall n i h p l, (n + level l = 2)%nat -> ts !! i = Some (h, p) -> l ∈ h -> exists ts', turn ts ts') as Held.
  { intros n. induction n as [|n IH]; intros i h p l En E Hl.
    - destruct l; cbn in En; lia.
    - pose proof (W _ _ _ E) as Wi. destruct p as [|[k|k|v|v] p]; cbn in Wi.
      + subst h. by apply elem_of_nil in Hl.
      + destruct (decide (k ∈ held_by_others ts i)) as [Ho|Ho].
        * apply others_elem in Ho as (j & h' & q & N & Ej & Hk). apply Wi in Hl.
          destruct n as [|n]; [destruct l, k; cbn in *; lia|].
          assert (level l < level k)%nat as Lk by done.
          destruct l, k; cbn in *; try lia; (eapply (IH j h' q); [|exact Ej|exact Hk]; cbn; lia).
        * eexists. eapply turn_act; [exact E|]. apply act_acquire; [done|]. intros Hk. apply Wi in Hk. lia.
      + destruct h as [|k' h]; [done|]. destruct Wi as [-> _]. eexists. eapply turn_act; [exact E|]. apply act_release.
      + eexists. eapply turn_act; [exact E|]. apply act_reads.
      + eexists. eapply turn_act; [exact E|]. apply act_writes. }
  destruct (decide (Forall (fun t => t.2 = []) ts)) as [F|F].
  { left. intros t Ht. by eapply Forall_forall in F. }
  right. apply not_Forall_Exists in F; [|intros t; apply _]. apply Exists_exists in F as ([h p] & Hin & Np). cbn in Np.
  apply elem_of_list_lookup in Hin as [i E]. pose proof (W _ _ _ E) as Wi.
  destruct p as [|[k|k|v|v] p]; cbn in Wi; [done|..].
  - destruct (decide (k ∈ held_by_others ts i)) as [Ho|Ho].
    + apply others_elem in Ho as (j & h' & q & N & Ej & Hk).
      eapply (Held (2 - level k)%nat j h' q k); [destruct k; cbn; lia|done|done].
    + eexists. eapply turn_act; [exact E|]. apply act_acquire; [done|]. intros Hk. apply Wi in Hk. lia.
  - destruct h as [|k' h]; [done|]. destruct Wi as [-> _]. eexists. eapply turn_act; [exact E|]. apply act_release.
  - eexists. eapply turn_act; [exact E|]. apply act_reads.
  - eexists. eapply turn_act; [exact E|]. apply act_writes.
Qed.

(** The calls under the guards *)
Definition guard_inst (v : var) : option lock := match v with VInst => Some LMap | _ => None end.
Definition guard_mods (v : var) : option lock := match v with VMods => Some LMods | _ => None end.
Definition guard_phast (v : var) : option lock := match v with VPhast => Some LPhastLib | _ => None end.
Ltac wf_tac := cbn; repeat (split || intros); subst; try done;
  try match goal with
  | H : _ ∈ [] |- _ => by apply elem_of_nil in H
  | H : _ ∈ [_] |- _ => apply elem_of_list_singleton in H as ->; cbn; lia
  end; simplify_eq/=; try solve [left | right; left].
Lemma wf_make_p g : (forall l, g VInst = Some l -> l = LMap) -> g VPhast = None -> wf g [] make_p.
Proof. intros G1 G2. wf_tac; match goal with H : _ = Some _ |- _ => apply G1 in H as ->; left end. Qed.
Lemma wf_free_p g : (forall l, g VInst = Some l -> l = LMap) -> g VPhast = None -> wf g [] free_p.
Proof. intros G1 G2. wf_tac; match goal with H : _ = Some _ |- _ => apply G1 in H as ->; left end. Qed.
Lemma wf_leave_m g : (forall l, g VMods = Some l -> l = LMods) -> wf g [] leave_m.
Proof. intros G1. wf_tac; match goal with H : _ = Some _ |- _ => apply G1 in H as ->; left end. Qed.
Lemma wf_free_m g n : (forall l, g VInst = Some l -> l = LMap) -> g VPhast = None ->
  (forall l, g VMods = Some l -> l = LMods) -> wf g [] (free_m n).
Proof. intros. apply wf_app; [apply wf_times; by apply wf_free_p|by apply wf_leave_m]. Qed.
Lemma wf_body_inst c p : body c p -> wf guard_inst [] p.
Proof.
  destruct 1; try solve [wf_tac].
  - apply (wf_app _ [_]); [wf_tac|]. apply wf_times. apply wf_free_p; [by intros l [= <-]|done].
  - apply wf_app; [by apply wf_leave_m|]. apply wf_times, wf_make_p; [by intros l [= <-]|done].
  - apply wf_app; [by apply wf_leave_m|]. apply wf_app; [|by apply wf_leave_m]. apply wf_times, wf_make_p; [by intros l [= <-]|done].
  - apply (wf_app _ [_]); [wf_tac|]. apply wf_free_m; [by intros l [= <-]|done..].
  - apply (wf_app _ [_]); [wf_tac|]. apply wf_concat. intros q Hq. apply elem_of_list_fmap in Hq as (n & -> & _).
    apply wf_free_m; [by intros l [= <-]|done..].
Qed.
Lemma wf_body_mods c p : body c p -> c <> MDestroy -> c <> MCleanup -> wf guard_mods [] p.
Proof.
  destruct 1; intros N1 N2; try done; try solve [wf_tac].
  - apply (wf_app _ [_]); [wf_tac|]. by apply wf_times, wf_free_p.
  - apply wf_app; [apply wf_leave_m; by intros l [= <-]|]. by apply wf_times, wf_make_p.
  - apply wf_app; [apply wf_leave_m; by intros l [= <-]|].
    apply wf_app; [by apply wf_times, wf_make_p|apply wf_leave_m; by intros l [= <-]].
Qed.
Lemma wf_program g cs p : program cs p -> (forall c q, c ∈ cs -> body c q -> wf g [] q) -> wf g [] p.
Proof.
  induction 1 as [|c cs p q B P IH]; intros H; [done|]. apply wf_app.
  - eapply H; [left|done].
  - apply IH. intros c' q' Hc. apply H. by right.
Qed.
(** The parts of a program that are left were in it *)
Lemma reach_suffix (Q : action -> Prop) ts ts' : rtc turn ts ts' ->
  forall i h p h' p', ts !! i = Some (h, p) -> ts' !! i = Some (h', p') -> Forall Q p -> Forall Q p'.
Proof.
  induction 1 as [ts|ts ts1 ts2 T R IH]; intros i h p h' p' E E'.
  - by simplify_eq.
  - intros F. destruct T as [ts k t t' Ek A]. pose proof (lookup_lt_Some _ _ _ Ek) as Lt.
    destruct (decide (k = i)) as [->|N].
    + simplify_eq. destruct t' as [h1 p1]. eapply (IH i h1 p1); [by rewrite list_lookup_insert|done|].
      inversion A; subst; by inversion F.
    + eapply (IH i h p); [by rewrite list_lookup_insert_ne|done|done].
Qed.
Lemma reach_length ts ts' : rtc turn ts ts' -> length ts' = length ts.
Proof. induction 1 as [|ts ts1 ts2 T R IH]; [done|]. rewrite IH. destruct T. by rewrite insert_length. Qed.
