(** Proofs about the BMI layer. *)
From Coq Require Import String QArith Qcanon.
From stdpp Require Import prelude.
From Verif Require Import Bmi.Model Bmi.Spec.
Local Open Scope Qc_scope.
Local Arguments set_insert : simpl never.
Local Opaque set_insert.

Section Proofs.
Context (R : rm) (L : lawful R).
Notation bmi := (bmi R).
Implicit Types b : bmi.

(** The variant of a variable holds what the getter returns *)
Definition current (v : var) b : Prop :=
  if is_array v then s_vec (b_slot R b v) = value R v b else [s_num (b_slot R b v)] = value R v b.

(** All variables are initialized with the right sizes *)
Definition shaped b : Prop := forall v,
  s_init (b_slot R b v) = true /\ s_dim (b_slot R b v) = size R v (b_rm R b)
  /\ (is_array v = true -> length (s_vec (b_slot R b v)) = size R v (b_rm R b)).

Definition right_ptr (v : var) b : ptr := if is_array v then PVec (s_block (b_slot R b v)) else PNum.

(** Pointers are valid and will be refreshed; those outside of [T] are current *)
Definition invx (T : var -> Prop) b : Prop :=
  shaped b /\ forall v p, s_ptr (b_slot R b v) = Some p ->
    p = right_ptr v b /\ b_pset R b = true /\ (v ∈ b_uset R b \/ static v) /\ (~ T v -> current v b)
    /\ ~ write_only v.

(** A step from [b] to [b'] that may refresh variables and set pointers *)
Definition keeps b b' : Prop :=
  b_rm R b' = b_rm R b /\ (b_pset R b = true -> b_pset R b' = true) /\ (forall v, v ∈ b_uset R b -> v ∈ b_uset R b')
  /\ forall v,
    s_init (b_slot R b' v) = s_init (b_slot R b v) /\ s_dim (b_slot R b' v) = s_dim (b_slot R b v)
    /\ s_block (b_slot R b' v) = s_block (b_slot R b v)
    /\ length (s_vec (b_slot R b' v)) = length (s_vec (b_slot R b v))
    /\ (current v b -> current v b')
    /\ (s_ptr (b_slot R b' v) = s_ptr (b_slot R b v)
        \/ s_ptr (b_slot R b v) = None /\ s_ptr (b_slot R b' v) = Some (right_ptr v b')
           /\ current v b' /\ b_pset R b' = true /\ (v ∈ b_uset R b' \/ static v) /\ ~ write_only v).

Lemma keeps_refl b : keeps b b.
Proof. unfold keeps. split_and!; auto. intros v. split_and!; auto. Qed.
Lemma keeps_trans b1 b2 b3 : keeps b1 b2 -> keeps b2 b3 -> keeps b1 b3.
Proof.
  intros (R1 & P1 & U1 & H1) (R2 & P2 & U2 & H2). unfold keeps. split_and!; [congruence|auto|auto|].
  intros v. destruct (H1 v) as (I1 & D1 & B1 & N1 & C1 & Q1), (H2 v) as (I2 & D2 & B2 & N2 & C2 & Q2).
  split_and!; try congruence; auto.
  destruct Q2 as [Q2|(Q2 & Q2' & Q2c & Q2p & Q2u & Q2w)].
  - destruct Q1 as [Q1|(Q1 & Q1' & Q1c & Q1p & Q1u & Q1w)]; [left; congruence|]. right.
    split_and!; auto.
    + rewrite Q2, Q1'. unfold right_ptr. by rewrite B2.
    + destruct Q1u as [Q1u|Q1u]; auto.
  - destruct Q1 as [Q1|(Q1 & Q1' & _)]; [|congruence]. right. rewrite <- Q1. split_and!; done.
Qed.
Lemma keeps_shaped b b' : keeps b b' -> shaped b -> shaped b'.
Proof.
  intros (Hr & _ & _ & H) Hs v. destruct (H v) as (I & D & _ & N & _). destruct (Hs v) as (I' & D' & N').
  rewrite Hr, I, D, N. auto.
Qed.
Lemma keeps_invx T b b' : keeps b b' -> invx T b -> invx T b'.
Proof.
  intros Hk [Hs Hp]. split; [by eapply keeps_shaped|]. intros v p Hv.
  destruct Hk as (Hr & P & U & H). destruct (H v) as (I & D & B & N & C & [Q|(Q & Q' & Qc & Qp & Qu & Qw)]).
  - rewrite Q in Hv. destruct (Hp v p Hv) as (-> & Hps & Hu & Hc & Hw). split_and!; auto.
    + unfold right_ptr. by rewrite B.
    + destruct Hu; auto.
  - rewrite Q' in Hv. injection Hv as <-. auto.
Qed.
(** a variable made current leaves [T] *)
Lemma invx_less (T T' : var -> Prop) b : (forall v, T v -> T' v \/ current v b) -> invx T b -> invx T' b.
Proof.
  intros HT [Hs Hp]. split; [done|]. intros v p Hv. destruct (Hp v p Hv) as (-> & Hps & Hu & Hc & Hw). split_and!; auto.
  intros Hn. destruct (decide (b_pset R b = true)) as [_|]; [|done].
  assert (HC : ~ ~ current v b).
  { intros Hnc. apply Hnc, Hc. intros Ht. destruct (HT v Ht); auto. }
  unfold current in *. destruct (is_array v).
  - destruct (decide (s_vec (b_slot R b v) = value R v b)); [done|]. by destruct HC.
  - destruct (decide ([s_num (b_slot R b v)] = value R v b)); [done|]. by destruct HC.
Qed.

Lemma keeps_ex f b : keeps b (with_ex R f b).
Proof. unfold keeps. cbn. split_and!; auto. intros v. split_and!; auto. Qed.
Lemma keeps_cur c b : keeps b (with_cur R c b).
Proof. unfold keeps. cbn. split_and!; auto. intros v. split_and!; auto. Qed.

Lemma enter_shaped v b : shaped b -> enter R v b = match v with VDensityUser => b | _ => with_cur R (Some v) b end.
Proof.
  intros H. unfold enter, init.
  assert (E : b_slot R match v with VDensityUser => b | _ => with_cur R (Some v) b end v = b_slot R b v) by (destruct v; done).
  rewrite E, (proj1 (H _)). done.
Qed.
Lemma keeps_enter v b : shaped b -> keeps b (enter R v b).
Proof. intros H. rewrite enter_shaped by done. destruct v; first [apply keeps_refl|apply keeps_cur]. Qed.

Lemma copy_to_exact v l b : length l = length (s_vec (b_slot R b v)) -> copy_to R v l b = Done R (with_slot R v (with_vec l) b).
Proof.
  intros H. unfold copy_to, memcpy. rewrite H, Nat.ltb_irrefl. rewrite drop_all, app_nil_r. done.
Qed.
Lemma keeps_copy v b : shaped b -> is_array v = true ->
  exists b', copy_to R v (value R v b) b = Done R b' /\ keeps b b' /\ current v b' /\ b_cur R b' = b_cur R b /\ b_ex R b' = b_ex R b.
Proof.
  intros Hs Ha. rewrite copy_to_exact.
  2: { unfold value. rewrite (l_len R L). destruct (Hs v) as (_ & _ & ->); done. }
  eexists. split; [done|]. split_and!; [|unfold current; rewrite Ha; cbn; by rewrite decide_True|done..].
  unfold keeps. cbn. split_and!; auto. intros w. case_decide as Hw; [subst w|].
  - split_and!; auto.
    + cbn. unfold value. rewrite (l_len R L). destruct (Hs v) as (_ & _ & ->); done.
    + intros _. unfold current. rewrite Ha. cbn. by rewrite decide_True.
  - split_and!; auto. intros Hc. unfold current in *. cbn. rewrite decide_False by done. done.
Qed.
Lemma scalar_value v b : is_array v = false -> value R v b = [scalar R v b].
Proof.
  intros Ha. unfold scalar. pose proof (l_len R L v (b_rm R b)) as Hl. fold (value R v b) in Hl.
  assert (Hz : size R v (b_rm R b) = 1%nat) by (destruct v; done).
  rewrite Hz in Hl. destruct (value R v b) as [|x [|]]; done.
Qed.
Lemma keeps_num v b : is_array v = false ->
  keeps b (with_slot R v (with_num (scalar R v b)) b) /\ current v (with_slot R v (with_num (scalar R v b)) b).
Proof.
  intros Ha.
  assert (Hc : current v (with_slot R v (with_num (scalar R v b)) b)).
  { unfold current. rewrite Ha. cbn. rewrite decide_True by done. cbn. symmetry. change (value R v b = [scalar R v b]).
    by apply scalar_value. }
  split; [|done]. unfold keeps. cbn. split_and!; auto. intros w. case_decide as Hw; [subst w|].
  - split_and!; auto.
  - split_and!; auto. intros Hc'. unfold current in *. cbn. rewrite decide_False by done. done.
Qed.
Lemma shaped_ex f b : shaped b -> shaped (with_ex R f b).
Proof. intros H v. apply H. Qed.
Lemma keeps_refresh v b : shaped b ->
  exists b', refresh R v b = Done R b' /\ keeps b b' /\ current v b' /\ b_cur R b' = b_cur R b
    /\ (is_array v = true -> e_vec (b_ex R b') = value R v b).
Proof.
  intros Hs. unfold refresh. destruct (is_array v) eqn:Ha.
  - destruct (keeps_copy v (with_ex R (ex_vec (value R v b)) b) (shaped_ex _ _ Hs) Ha) as (b' & E & K & C & U & X).
    exists b'. split_and!; [done| |done|by rewrite U|intros _; by rewrite X].
    eapply keeps_trans; [apply keeps_ex|done].
  - eexists. split; [done|].
    destruct (keeps_num v (with_ex R (ex_num (scalar R v b)) b) Ha) as [K C].
    split_and!; [eapply keeps_trans; [apply keeps_ex|exact K]|exact C|done|done].
Qed.

Lemma in_all v : v ∈ all_vars.
Proof. unfold all_vars. destruct v; set_solver. Qed.
Lemma set_insert_in v w u : w ∈ set_insert v u <-> w = v \/ w ∈ u.
Proof.
  Local Transparent set_insert. unfold set_insert. Local Opaque set_insert. rewrite elem_of_list_filter. split; [tauto|]. intros H. split; [done|apply in_all].
Qed.
Lemma keeps_point v upd b : ~ write_only v -> current v b -> (upd = false -> static v) -> s_ptr (b_slot R b v) = None \/ s_ptr (b_slot R b v) = Some (right_ptr v b) ->
  keeps b (point R v upd b).
Proof.
  intros Hwo Hc Hst Hp. unfold keeps, point. cbn. split_and!; auto.
  { intros w Hw. destruct upd; [apply set_insert_in; by right|done]. }
  intros w. case_decide as Hw; [subst w|].
  - cbn. split_and!; auto.
    + intros _. unfold current in *. cbn. by rewrite decide_True.
    + destruct Hp as [Hp|Hp]; [right|left].
      * rewrite Hp. split_and!; [done| | |done| |done].
        -- unfold right_ptr. cbn. by rewrite decide_True.
        -- unfold current in *. cbn. by rewrite decide_True.
        -- destruct upd; [left; apply set_insert_in; by left|right; by apply Hst].
      * rewrite Hp. done.
  - split_and!; auto. intros Hc'. unfold current in *. cbn. by rewrite decide_False.
Qed.

Lemma rbind_done r f (b' : bmi) : rbind R r f = Done R b' -> exists b, r = Done R b /\ f b = Done R b'.
Proof. destruct r; cbn; [|done..]. eauto. Qed.
Lemma leave_done v b b' : leave R v b = Done R b' -> keeps b b' /\ b_cur R b' = None /\ (forall w, current w b -> current w b')
  /\ e_dim (b_ex R b') = s_dim (b_slot R b v) /\ e_num (b_ex R b') = s_num (b_slot R b v) /\ e_vec (b_ex R b') = e_vec (b_ex R b).
Proof.
  unfold leave. intros [= <-]. split_and!; [|done..].
  eapply keeps_trans; [apply keeps_ex|apply keeps_cur].
Qed.
Lemma keeps_sets p u b : (b_pset R b = true -> p = true) -> (forall v, v ∈ b_uset R b -> v ∈ u) -> keeps b (with_sets R p u b).
Proof. intros. unfold keeps. cbn. split_and!; auto. intros v. split_and!; auto. Qed.

(** What a function of a variable leaves current *)
Definition renews (v : var) (t : task) (w : var) : Prop :=
  match t with
  | Info => False
  | GetPtr | GetVar | Update => w = v
  | RMUpdate =>
      match v with
      | VDensityCalculated | VSaturationCalculated => w = v \/ w = VConcentrations
      | VPorosity => w = VPorosity \/ w = VConcentrations \/ w = VSaturationCalculated
      | VSaturationUser => w = VConcentrations
      | _ => w = v
      end
  end.
Definition ptr_ok (v : var) b : Prop := s_ptr (b_slot R b v) = None \/ s_ptr (b_slot R b v) = Some (right_ptr v b).
Lemma keeps_ptr_ok v b b' : keeps b b' -> ptr_ok v b -> ptr_ok v b'.
Proof.
  intros (_ & _ & _ & H) Hp. destruct (H v) as (_ & _ & B & _ & _ & [Q|(_ & Q & _)]); unfold ptr_ok, right_ptr in *.
  - by rewrite Q, B.
  - by right.
Qed.

(** The part of [var_fn] between entering and leaving *)
Definition body (v : var) (t : task) (b : bmi) : res R :=
  let conc b := copy_to R VConcentrations (value R VConcentrations b) b in
  match t, v with
  | Info, _ => Done R b
  | GetPtr, VComponentCount | GetPtr, VGridCellCount => Done R (point R v false (with_slot R v (with_num (scalar R v b)) b))
  | GetVar, VComponentCount => Done R (with_slot R v (with_num (scalar R v b)) b)
  | GetVar, VGridCellCount => Done R (with_sets R true (b_uset R b) (with_slot R v (with_num (scalar R v b)) b))
  | _, VComponentCount | _, VGridCellCount => Thrown R b
  | _, VDensityUser => Thrown R b
  | RMUpdate, VSaturationUser => conc b
  | _, VSaturationUser => Thrown R b
  | GetPtr, VGfw => rbind R (refresh R v b) (fun b => Done R (point R v false b))
  | RMUpdate, VDensityCalculated | RMUpdate, VSaturationCalculated => rbind R (conc b) (refresh R v)
  | RMUpdate, VPorosity =>
      rbind R (refresh R v b) (fun b => rbind R (conc b) (fun b =>
      copy_to R VSaturationCalculated (value R VSaturationCalculated b) b))
  | GetPtr, _ => rbind R (refresh R v b) (fun b => Done R (point R v true b))
  | _, _ => refresh R v b
  end.
Lemma var_fn_body v t b : var_fn R v t b = rbind R (body v t (enter R v b)) (leave R v).
Proof. by destruct t, v. Qed.

Definition refused (v : var) (t : task) : Prop :=
  match t with
  | Info => False
  | GetPtr | GetVar => write_only v
  | Update => write_only v \/ v = VComponentCount \/ v = VGridCellCount
  | RMUpdate => v = VDensityUser \/ v = VComponentCount \/ v = VGridCellCount
  end.
Lemma keeps_with_point v upd b : ~ write_only v -> shaped b -> ptr_ok v b -> (upd = false -> static v) ->
  exists b', rbind R (refresh R v b) (fun b => Done R (point R v upd b)) = Done R b' /\ keeps b b' /\ current v b'.
Proof.
  intros Hwo Hs Hp Hu. destruct (keeps_refresh v b Hs) as (b1 & E & K & C & _). rewrite E. cbn. eexists. split; [done|].
  assert (K2 : keeps b1 (point R v upd b1)) by (apply keeps_point; [done..|by eapply keeps_ptr_ok]).
  split; [by eapply keeps_trans|]. destruct K2 as (_ & _ & _ & K2). by apply K2.
Qed.
Lemma current_keeps v b b' : keeps b b' -> current v b -> current v b'.
Proof. intros (_ & _ & _ & H). apply H. Qed.

Lemma body_spec v t b : shaped b -> ptr_ok v b ->
  (refused v t /\ body v t b = Thrown R b)
  \/ ~ refused v t /\ exists b', body v t b = Done R b' /\ keeps b b' /\ forall w, renews v t w -> current w b'.
Proof.
  intros Hs Hp.
  assert (HR : forall v, exists b', refresh R v b = Done R b' /\ keeps b b' /\ current v b').
  { intros v'. destruct (keeps_refresh v' b Hs) as (b1 & E & K & C & _). eauto. }
  assert (HQ : forall v upd, ~ write_only v -> ptr_ok v b -> (upd = false -> static v) ->
    exists b', rbind R (refresh R v b) (fun b => Done R (point R v upd b)) = Done R b' /\ keeps b b' /\ current v b').
  { intros. by apply keeps_with_point. }
  assert (HP : forall v, ~ write_only v -> is_array v = false -> static v -> ptr_ok v b ->
    keeps b (point R v false (with_slot R v (with_num (scalar R v b)) b))
    /\ current v (point R v false (with_slot R v (with_num (scalar R v b)) b))).
  { intros v' Hwo Ha Hst Hp'. destruct (keeps_num v' b Ha) as [K C].
    assert (K2 : keeps (with_slot R v' (with_num (scalar R v' b)) b) (point R v' false (with_slot R v' (with_num (scalar R v' b)) b)))
      by (apply keeps_point; [done..|by eapply keeps_ptr_ok]).
    split; [by eapply keeps_trans|]. by eapply current_keeps. }
  assert (HC : exists b', copy_to R VConcentrations (value R VConcentrations b) b = Done R b' /\ keeps b b' /\ current VConcentrations b').
  { destruct (keeps_copy VConcentrations b Hs eq_refl) as (b1 & E & K & C & _). eauto. }
  destruct t.
  - (* RMUpdate *)
    destruct v; try (left; split; [cbn; tauto|done]); right; (split; [cbn; intuition discriminate|]);
      try (match goal with |- context [body ?v RMUpdate b] =>
             destruct (HR v) as (b1 & E & K & C); exists b1; split_and!; [cbv beta iota zeta delta [body]; rewrite E; reflexivity|done|by intros w ->] end);
      try (match goal with |- context [body ?v RMUpdate b] =>
             destruct HC as (b1 & E1 & K1 & C1);
             destruct (keeps_refresh v b1 (keeps_shaped _ _ K1 Hs)) as (b2 & E2 & K2 & C2 & _);
             exists b2; split_and!; [cbv beta iota zeta delta [body]; rewrite E1; cbv beta iota delta [rbind]; rewrite E2; reflexivity|by eapply keeps_trans
               |intros w [-> | ->]; [done|by eapply current_keeps]] end).
    + destruct HC as (b1 & E & K & C). exists b1. split_and!; [cbv beta iota zeta delta [body]; rewrite E; reflexivity|done|by intros w ->].
    + destruct (HR VPorosity) as (b1 & E1 & K1 & C1).
      pose proof (keeps_shaped _ _ K1 Hs) as S1.
      destruct (keeps_copy VConcentrations b1 S1 eq_refl) as (b2 & E2 & K2 & C2 & _).
      pose proof (keeps_shaped _ _ K2 S1) as S2.
      destruct (keeps_copy VSaturationCalculated b2 S2 eq_refl) as (b3 & E3 & K3 & C3 & _).
      exists b3. split_and!.
      * cbv beta iota zeta delta [body]. rewrite E1. cbv beta iota delta [rbind]. rewrite E2. exact E3.
      * eapply keeps_trans; [done|]. by eapply keeps_trans.
      * intros w [-> |[-> | ->]]; [|by eapply current_keeps|done].
        eapply current_keeps; [done|]. by eapply current_keeps.
  - (* Update *)
    destruct v; try (left; split; [cbn; unfold write_only; tauto|done]); right;
      (split; [cbn; unfold write_only; intuition discriminate|]);
      match goal with |- context [body ?v Update b] =>
             destruct (HR v) as (b1 & E & K & C); exists b1; split_and!; [cbv beta iota zeta delta [body]; rewrite E; reflexivity|done|by intros w ->] end.
  - (* GetPtr *)
    destruct v; try (left; split; [cbn; unfold write_only; tauto|done]); right;
      (split; [cbn; unfold write_only; intuition discriminate|]);
      try (match goal with |- context [body ?v GetPtr b] =>
             destruct (HQ v true ltac:(unfold write_only; intuition discriminate) Hp ltac:(done)) as (b1 & E & K & C); exists b1; split_and!; [cbv beta iota zeta delta [body]; rewrite E; reflexivity|done|by intros w ->] end);
      try (match goal with |- context [body ?v GetPtr b] =>
             destruct (HQ v false ltac:(unfold write_only; intuition discriminate) Hp ltac:(intros _; unfold static; tauto)) as (b1 & E & K & C);
             exists b1; split_and!; [cbv beta iota zeta delta [body]; rewrite E; reflexivity|done|by intros w ->] end).
    + destruct (HP VComponentCount ltac:(unfold write_only; intuition discriminate) eq_refl ltac:(unfold static; tauto) Hp) as [K C]. eexists. split_and!; [done|done|by intros w ->].
    + destruct (HP VGridCellCount ltac:(unfold write_only; intuition discriminate) eq_refl ltac:(unfold static; tauto) Hp) as [K C]. eexists. split_and!; [done|done|by intros w ->].
  - (* GetVar *)
    destruct v; try (left; split; [cbn; unfold write_only; tauto|done]); right;
      (split; [cbn; unfold write_only; intuition discriminate|]);
      try (match goal with |- context [body ?v GetVar b] =>
             destruct (HR v) as (b1 & E & K & C); exists b1; split_and!; [cbv beta iota zeta delta [body]; rewrite E; reflexivity|done|by intros w ->] end).
    + destruct (keeps_num VComponentCount b eq_refl) as [K C]. eexists. split_and!; [done|done|by intros w ->].
    + destruct (keeps_num VGridCellCount b eq_refl) as [K C].
      assert (K2 : keeps (with_slot R VGridCellCount (with_num (scalar R VGridCellCount b)) b)
        (with_sets R true (b_uset R b) (with_slot R VGridCellCount (with_num (scalar R VGridCellCount b)) b)))
        by (by apply keeps_sets).
      eexists. split_and!; [done|by eapply keeps_trans|intros w ->; by eapply current_keeps].
  - (* Info *)
    right. split; [cbn; tauto|]. exists b. split_and!; [by destruct v|apply keeps_refl|done].
Qed.

Lemma invx_ptr_ok T v b : invx T b -> ptr_ok v b.
Proof. intros [_ H]. unfold ptr_ok. destruct (s_ptr _) eqn:E; [|by left]. destruct (H v _ E) as [-> _]. by right. Qed.
(** Pointers handed out stay the same *)
Definition same_ptrs b b' : Prop := forall v p, s_ptr (b_slot R b v) = Some p -> s_ptr (b_slot R b' v) = Some p.
Lemma same_ptrs_refl b : same_ptrs b b.
Proof. by intros v p. Qed.
Lemma same_ptrs_trans b1 b2 b3 : same_ptrs b1 b2 -> same_ptrs b2 b3 -> same_ptrs b1 b3.
Proof. intros H1 H2 v p H. auto. Qed.
Lemma keeps_same b b' : keeps b b' -> same_ptrs b b'.
Proof. intros (_ & _ & _ & H) v p E. destruct (H v) as (_ & _ & _ & _ & _ & [->|(E' & _)]); congruence. Qed.
Lemma keeps_rm b b' : keeps b b' -> b_rm R b' = b_rm R b.
Proof. by intros (H & _). Qed.

Lemma enter_ptr_ok v w b : shaped b -> ptr_ok w b -> ptr_ok w (enter R v b).
Proof. intros Hs. apply keeps_ptr_ok. by apply keeps_enter. Qed.
Lemma enter_shape v b : shaped b -> shaped (enter R v b).
Proof. intros Hs. eapply keeps_shaped; [by apply keeps_enter|done]. Qed.

Lemma var_fn_done v t b b' : shaped b -> ptr_ok v b -> var_fn R v t b = Done R b' ->
  keeps b b' /\ b_cur R b' = None /\ forall w, renews v t w -> current w b'.
Proof.
  intros Hs Hp E. rewrite var_fn_body in E. apply rbind_done in E as (b1 & E1 & E2).
  destruct (body_spec v t (enter R v b)) as [[_ E]|(_ & b2 & E & K & C)]; [by apply enter_shape|by apply enter_ptr_ok|congruence|].
  rewrite E in E1. injection E1 as ->. destruct (leave_done _ _ _ E2) as (K2 & N & C2 & _).
  split_and!; [|done|auto]. eapply keeps_trans; [by apply keeps_enter|]. by eapply keeps_trans.
Qed.
Lemma var_fn_total v t b : shaped b -> ptr_ok v b -> ~ refused v t -> exists b', var_fn R v t b = Done R b'.
Proof.
  intros Hs Hp Hn. rewrite var_fn_body.
  destruct (body_spec v t (enter R v b)) as [[H _]|(_ & b2 & E & K & C)]; [by apply enter_shape|by apply enter_ptr_ok|done|].
  rewrite E. cbn. by eexists.
Qed.

(** ** Setters *)
Lemma size_assign v l s w : size R w (r_assign R v l s) = size R w s.
Proof. destruct w; cbn; rewrite ?(l_cells R L), ?(l_comps R L); done. Qed.
Lemma size_react t d s w : size R w (r_react R t d s).1 = size R w s.
Proof. destruct w; cbn; rewrite ?(l_cells_react R L), ?(l_comps_react R L); done. Qed.
Lemma touches_dec v w : {touches v w} + {~ touches v w}.
Proof. destruct v; cbn; solve_decision. Qed.
Lemma current_rm w b s : r_value R w s = r_value R w (b_rm R b) -> current w b -> current w (with_rm R s b).
Proof. unfold current, value. cbn. intros ->. done. Qed.
Lemma invx_assign (T : var -> Prop) v l b : invx T b -> invx (fun w => T w \/ touches v w) (with_rm R (r_assign R v l (b_rm R b)) b).
Proof.
  intros [Hs Hp]. split.
  - intros w. cbn. rewrite size_assign. apply Hs.
  - intros w p Hw. destruct (Hp w p Hw) as (-> & Hps & Hu & Hc & Hwo). split_and!; [done..| |done].
    intros Hn. apply current_rm; [apply (l_local R L); tauto|]. apply Hc. tauto.
Qed.
Lemma invx_no_ptr T T' b : b_pset R b = false -> invx T b -> invx T' b.
Proof. intros E [Hs Hp]. split; [done|]. intros v p Hv. destruct (Hp v p Hv) as (_ & E' & _). congruence. Qed.
Lemma touched_renewed v w : settable v -> touches v w -> renews (event v) RMUpdate w.
Proof. destruct v; cbn; tauto. Qed.

Lemma rm_set_done T v l b b' : settable v -> invx T b -> b_cur R b = None -> rm_set R v l b = Done R b' ->
  invx T b' /\ b_cur R b' = None /\ same_ptrs b b' /\ b_rm R b' = r_assign R v l (b_rm R b).
Proof.
  intros Hset HI Hc E. unfold rm_set, rm2bmi in E. cbn [b_pset b_cur with_rm] in E.
  pose proof (invx_assign T v l b HI) as HI'.
  destruct (b_pset R b) eqn:Ep.
  - rewrite Hc, decide_False in E by done.
    destruct (var_fn_done _ _ _ _ (proj1 HI') (invx_ptr_ok _ _ _ HI') E) as (K & N & C).
    split_and!; [|done|by apply (keeps_same _ _ K)|by rewrite (keeps_rm _ _ K)].
    eapply invx_less; [|eapply keeps_invx; [exact K|exact HI']]. intros w [Ht|Ht]; [by left|right].
    apply C. by apply touched_renewed.
  - injection E as <-. split_and!; [|done|by intros w p|done].
    by eapply invx_no_ptr.
Qed.

Lemma memcpy_length l old l' : memcpy l old = Some l' -> length l' = length old.
Proof.
  unfold memcpy. destruct (Nat.ltb_spec (length old) (length l)); [done|]. intros [= <-].
  rewrite app_length, drop_length. lia.
Qed.
Lemma copy_user T v l b b' : write_only v -> invx T b -> copy_to R v l b = Done R b' ->
  invx T b' /\ b_rm R b' = b_rm R b /\ b_cur R b' = b_cur R b /\ same_ptrs b b'.
Proof.
  intros Hwo [Hs Hp] E. unfold copy_to in E. destruct (memcpy _ _) as [l'|] eqn:Em; [|done]. injection E as <-.
  apply memcpy_length in Em. split_and!; [|done..|].
  - split.
    + intros w. cbn. case_decide as Hw; [subst w|apply Hs]. cbn. rewrite Em. apply Hs.
    + intros w p Hw. cbn in Hw. destruct (decide (w = v)) as [->|Hne].
      * cbn in Hw. by destruct (Hp v p Hw) as (_ & _ & _ & _ & ?).
      * rewrite ?decide_False in Hw by done.
        destruct (Hp w p Hw) as (-> & Hps & Hu & Hc & Hwo'). split_and!; [|done..| |done].
        -- unfold right_ptr. cbn. by rewrite decide_False.
        -- intros Hn. specialize (Hc Hn). unfold current in *. cbn. by rewrite decide_False.
  - intros w p Hw. cbn. by case_decide.
Qed.
Lemma copy_value T v b b' : is_array v = true -> invx T b -> copy_to R v (value R v b) b = Done R b' ->
  invx (fun w => T w /\ w <> v) b' /\ b_rm R b' = b_rm R b /\ b_cur R b' = b_cur R b /\ same_ptrs b b'.
Proof.
  intros Ha HI E. destruct (keeps_copy v b (proj1 HI) Ha) as (b1 & E1 & K & C & N & _). rewrite E in E1. injection E1 as <-.
  split_and!; [|by apply keeps_rm|done|by apply keeps_same].
  eapply invx_less; [|eapply keeps_invx; [exact K|exact HI]]. intros w Hw. cbn. destruct (decide (w = v)) as [->|]; [by right|by left].
Qed.
Lemma num_value T v x b : is_array v = false -> value R v b = [x] -> invx T b ->
  invx (fun w => T w /\ w <> v) (with_slot R v (with_num x) b) /\ same_ptrs b (with_slot R v (with_num x) b).
Proof.
  intros Ha Hx HI. destruct (keeps_num v b Ha) as [K C].
  assert (scalar R v b = x) as Ex by (unfold scalar; by rewrite Hx). rewrite Ex in K, C.
  split; [|by apply keeps_same].
  eapply invx_less; [|eapply keeps_invx; [exact K|exact HI]]. intros w Hw. cbn. destruct (decide (w = v)) as [->|]; [by right|by left].
Qed.

(** While the function of a variable runs, the setter of the module does not come back *)
Lemma rm_set_inside v l b : event v = v -> b_cur R b = Some v -> rm_set R v l b = Done R (with_rm R (r_assign R v l (b_rm R b)) b).
Proof.
  intros He Hc. unfold rm_set, rm2bmi. cbn [b_pset b_cur with_rm]. rewrite He, Hc, decide_True by done. by destruct (b_pset R b).
Qed.

Definition ok b : Prop := invx (fun _ => False) b /\ b_cur R b = None.
(** What VarExchange holds before SetVar is what is set *)
Definition given (v : var) (l : list Qc) b : Prop :=
  length l = size R v (b_rm R b) /\ admissible v l
  /\ if is_array v then e_vec (b_ex R b) = l else [e_num (b_ex R b)] = l.

Lemma leave_ok v b b' : invx (fun _ => False) b -> leave R v b = Done R b' -> ok b' /\ same_ptrs b b' /\ b_rm R b' = b_rm R b.
Proof.
  intros HI E. destruct (leave_done _ _ _ E) as (K & N & _). split_and!; [|by apply keeps_same|by apply keeps_rm].
  split; [|done]. by eapply keeps_invx.
Qed.
Lemma invx_sub (T T' : var -> Prop) b : (forall w, T w -> T' w) -> invx T b -> invx T' b.
Proof. intros H. apply invx_less. auto. Qed.

Lemma var_set_ok v l b b' : ok b -> given v l b -> var_set R v b = Done R b' ->
  ok b' /\ same_ptrs b b' /\ b_rm R b' = r_assign R v l (b_rm R b).
Proof.
  intros [HI Hc] (Hlen & Hadm & Hg) E. unfold var_set in E. apply rbind_done in E as (b2 & E & El).
  rewrite (enter_shaped v b (proj1 HI)) in E.
  assert (HIc : forall c, invx (fun _ => False) (with_cur R c b)).
  { intros c. eapply keeps_invx; [apply keeps_cur|done]. }
  assert (Goal2 : invx (fun _ => False) b2 -> same_ptrs b b2 -> b_rm R b2 = r_assign R v l (b_rm R b) ->
    ok b' /\ same_ptrs b b' /\ b_rm R b' = r_assign R v l (b_rm R b)).
  { intros H1 H2 H3. destruct (leave_ok _ _ _ H1 El) as (O & P & Q).
    split_and!; [done|by eapply same_ptrs_trans|congruence]. }
  assert (HA : invx (fun w => False \/ touches v w) (with_rm R (r_assign R v l (b_rm R b)) (with_cur R (Some v) b)))
    by (apply (invx_assign (fun _ => False) v l (with_cur R (Some v) b)); done).
  assert (Hecho : echoes v -> value R v (with_rm R (r_assign R v l (b_rm R b)) (with_cur R (Some v) b)) = l).
  { intros He. by apply (l_echo R L). }
  destruct v; try discriminate E; cbn [is_array] in Hg.
  - (* Concentrations *)
    rewrite rm_set_inside in E by done. cbn [rbind b_ex with_cur] in E. rewrite Hg in E.
    destruct (keeps_refresh VConcentrations _ (proj1 HA)) as (b3 & E3 & K & C & _). 
    change (b_rm R (with_cur R (Some VConcentrations) b)) with (b_rm R b) in E.
    rewrite E3 in E. injection E as <-. apply Goal2.
    + eapply invx_less; [|eapply keeps_invx; [exact K|exact HA]]. intros w [[]| ->]. by right.
    + by apply (keeps_same _ _ K).
    + by rewrite (keeps_rm _ _ K).
  - (* DensityUser *)
    rewrite Hg in E. apply rbind_done in E as (b3 & E1 & E). apply rbind_done in E as (b4 & E2 & E).
    destruct (rm_set_done (fun _ => False) VDensityUser l b b3 I HI Hc E1) as (I3 & N3 & P3 & R3).
    destruct (copy_user _ VDensityUser _ b3 b4 ltac:(by left) I3 E2) as (I4 & R4 & N4 & P4).
    destruct (copy_value _ VConcentrations b4 b2 eq_refl I4 E) as (I5 & R5 & N5 & P5).
    apply Goal2; [|by eapply same_ptrs_trans; [done|]; eapply same_ptrs_trans|congruence].
    eapply invx_sub; [|exact I5]. by intros w [[] _].
  - (* SaturationUser *)
    rewrite rm_set_inside in E by done. cbn [rbind b_ex with_cur with_rm] in E. rewrite Hg in E.
    apply rbind_done in E as (b4 & E2 & E).
    destruct (copy_user _ VSaturationUser _ _ b4 ltac:(by right) HA E2) as (I4 & R4 & N4 & P4).
    destruct (copy_value _ VConcentrations b4 b2 eq_refl I4 E) as (I5 & R5 & N5 & P5).
    apply Goal2; [|by eapply same_ptrs_trans|by rewrite R5, R4].
    eapply invx_sub; [|exact I5]. by intros w [[[]| ->] []].
  - (* Time *)
    rewrite rm_set_inside in E by done. cbn [rbind b_ex with_cur with_rm] in E. rewrite Hg in E.
    injection E as <-.
    destruct (num_value _ VTime (e_num (b_ex R b)) _ eq_refl (eq_trans (Hecho I) (eq_sym Hg)) HA) as [I4 P4].
    apply Goal2; [|done|done]. eapply invx_sub; [|exact I4]. by intros w [[[]| ->] []].
  - (* TimeStep *)
    rewrite rm_set_inside in E by done. cbn [rbind b_ex with_cur with_rm] in E. rewrite Hg in E.
    injection E as <-.
    destruct (num_value _ VTimeStep (e_num (b_ex R b)) _ eq_refl (eq_trans (Hecho I) (eq_sym Hg)) HA) as [I4 P4].
    apply Goal2; [|done|done]. eapply invx_sub; [|exact I4]. by intros w [[[]| ->] []].
  - (* Porosity *)
    rewrite rm_set_inside in E by done. cbn [rbind b_ex with_cur with_rm] in E. rewrite Hg in E.
    apply rbind_done in E as (b4 & E2 & E). apply rbind_done in E as (b5 & E3 & E).
    rewrite <- (Hecho I) in E2 at 1.
    destruct (copy_value _ VPorosity _ b4 eq_refl HA E2) as (I4 & R4 & N4 & P4).
    destruct (copy_value _ VConcentrations b4 b5 eq_refl I4 E3) as (I5 & R5 & N5 & P5).
    destruct (copy_value _ VSaturationCalculated b5 b2 eq_refl I5 E) as (I6 & R6 & N6 & P6).
    apply Goal2; [|by eapply same_ptrs_trans; [done|]; eapply same_ptrs_trans|by rewrite R6, R5, R4].
    eapply invx_sub; [|exact I6]. intros w [[[[[]|[->|[->| ->]]] ?] ?] ?]; done.
  - (* Pressure *)
    rewrite rm_set_inside in E by done. cbn [rbind b_ex with_cur with_rm] in E. rewrite Hg in E.
    rewrite <- (Hecho I) in E at 1.
    destruct (copy_value _ VPressure _ b2 eq_refl HA E) as (I4 & R4 & N4 & P4).
    apply Goal2; [|done|by rewrite R4]. eapply invx_sub; [|exact I4]. by intros w [[[]| ->] []].
  - (* SelectedOutputOn *)
    rewrite rm_set_inside in E by done. injection E as <-. subst l.
    destruct (num_value _ VSelectedOutputOn (e_num (b_ex R b)) _ eq_refl (Hecho I) HA) as [I4 P4].
    apply Goal2; [|done|done].
    eapply invx_sub; [|exact I4]. by intros w [[[]| ->] []].
  - (* Temperature *)
    rewrite rm_set_inside in E by done. cbn [rbind b_ex with_cur with_rm] in E. rewrite Hg in E.
    rewrite <- (Hecho I) in E at 1.
    destruct (copy_value _ VTemperature _ b2 eq_refl HA E) as (I4 & R4 & N4 & P4).
    apply Goal2; [|done|by rewrite R4]. eapply invx_sub; [|exact I4]. by intros w [[[]| ->] []].
Qed.

(** ** The calls *)
Lemma ready_done v b : shaped b -> ready R v b = Done R b.
Proof. intros H. unfold ready. by rewrite (proj1 (H v)). Qed.
Lemma ok_keeps b b' : keeps b b' -> b_cur R b' = None -> ok b -> ok b'.
Proof. intros K N [HI _]. split; [|done]. by eapply keeps_invx. Qed.

Lemma ok_var_fn v t b b' : ok b -> var_fn R v t b = Done R b' -> ok b' /\ same_ptrs b b' /\ b_rm R b' = b_rm R b.
Proof.
  intros O E. destruct O as [HI Hc]. destruct (var_fn_done v t b b' (proj1 HI) (invx_ptr_ok _ _ _ HI) E) as (K & N & _).
  split_and!; [by eapply ok_keeps; [..|split]|by apply keeps_same|by apply keeps_rm].
Qed.

Lemma update_all_done T u b b' : invx T b -> b_cur R b = None -> update_all R u b = Done R b' ->
  keeps b b' /\ b_cur R b' = None /\ forall v, v ∈ u -> current v b'.
Proof.
  revert b. induction u as [|v u IH]; intros b HI Hc E; cbn in E.
  - injection E as <-. split_and!; [apply keeps_refl|done|]. intros v Hv. by apply elem_of_nil in Hv.
  - apply rbind_done in E as (b1 & E1 & E).
    destruct (var_fn_done v Update b b1 (proj1 HI) (invx_ptr_ok _ _ _ HI) E1) as (K & N & C).
    destruct (IH b1) as (K2 & N2 & C2); [by eapply keeps_invx|done|done|].
    split_and!; [by eapply keeps_trans|done|]. intros w [->|Hw]%elem_of_cons; [|by apply C2].
    eapply current_keeps; [done|]. by apply C.
Qed.
Lemma static_dec v : {static v} + {~ static v}.
Proof. destruct v; (left; unfold static; tauto) || (right; unfold static; intuition discriminate). Qed.
(** After a reaction everything but the constant variables may be stale *)
Lemma invx_react b t d : invx (fun _ => False) b -> invx (fun v => ~ static v) (with_rm R (r_react R t d (b_rm R b)).1 b).
Proof.
  intros [Hs Hp]. split.
  - intros v. cbn. rewrite size_react. apply Hs.
  - intros v p Hv. destruct (Hp v p Hv) as (-> & Hps & Hu & Hc & Hwo). split_and!; [done..| |done].
    intros Hn. apply current_rm; [|apply Hc; tauto]. apply (l_static R L).
    destruct (static_dec v); tauto.
Qed.
Lemma update_variables_done b b' : invx (fun v => ~ static v) b -> b_cur R b = None -> update_variables R b = Done R b' ->
  ok b' /\ same_ptrs b b' /\ b_rm R b' = b_rm R b.
Proof.
  intros HI Hc E. destruct (update_all_done _ _ _ _ HI Hc E) as (K & N & C).
  split_and!; [|by apply keeps_same|by apply keeps_rm]. split; [|done].
  destruct (keeps_invx _ _ _ K HI) as [Hs Hp]. destruct HI as [_ Hp0]. split; [done|]. intros v p Hv.
  destruct (Hp v p Hv) as (-> & Hps & Hu & Hcur & Hwo). split_and!; [done..| |done]. intros _.
  destruct K as (_ & _ & _ & K). destruct (K v) as (_ & _ & _ & _ & Kc & [Q|(_ & _ & Q & _)]); [|done].
  rewrite Q in Hv. destruct (Hp0 v _ Hv) as (_ & _ & [Hin|Hst] & Hc0 & _); [by apply C|].
  apply Kc, Hc0. tauto.
Qed.
Lemma run_cells_done b b' : run_cells R b = Done R b' ->
  exists t d, b' = with_rm R (r_react R t d (b_rm R b)).1 b.
Proof. unfold run_cells. destruct (r_react _ _ _ _) as [s [|]] eqn:E; [done|]. intros [= <-]. do 2 eexists. by rewrite E. Qed.

Lemma step_ok o b b' : ok b -> fits R (b_rm R b) o -> step R o b = Done R b' ->
  ok b' /\ same_ptrs b b' /\ forall w, size R w (b_rm R b') = size R w (b_rm R b).
Proof.
  intros O F E. pose proof O as [HI Hc]. pose proof (proj1 HI) as Hs.
  assert (G : forall v t b', var_fn R v t b = Done R b' -> ok b' /\ same_ptrs b b' /\ forall w, size R w (b_rm R b') = size R w (b_rm R b)).
  { intros v t b1 E1. destruct (ok_var_fn _ _ _ _ O E1) as (? & ? & ->). done. }
  assert (V : forall v l f b', given v l (with_ex R f b) -> var_set R v (with_ex R f b) = Done R b' ->
    ok b' /\ same_ptrs b b' /\ forall w, size R w (b_rm R b') = size R w (b_rm R b)).
  { intros v l f b1 Hg E1. destruct (var_set_ok v l (with_ex R f b) b1) as (O1 & P1 & R1); [|done|done|].
    - eapply ok_keeps; [apply keeps_ex|done|done].
    - split_and!; [done|done|]. intros w. rewrite R1. apply size_assign. }
  destruct o as [v|v|v|v|v l|v x|v m|v l| |t]; cbn in E, F.
  - unfold get_ptr in E. destruct (s_ptr _); cbn in E; [|by eapply G]. injection E as <-. split_and!; [done|apply same_ptrs_refl|done].
  - unfold get_array in E. rewrite ready_done in E by done. cbn in E.
    destruct (var_fn R v GetVar b) as [b1|b1|] eqn:E1; cbn in E; [|done..].
    destruct (e_dim (b_ex R b1)) as [|[|n]]; cbn in E; [done| |destruct (Nat.leb (length _) _); cbn in E; [done|]];
      injection E as <-; by eapply G.
  - unfold get_vector in E. rewrite ready_done in E by done. cbn in E.
    destruct (var_fn R v GetVar b) as [b1|b1|] eqn:E1; cbn in E; [|done..]. injection E as <-; by eapply G.
  - unfold get_double in E. rewrite ready_done in E by done. cbn in E.
    destruct (var_fn R v GetVar b) as [b1|b1|] eqn:E1; cbn in E; [|done..]. injection E as <-; by eapply G.
  - unfold set_vector in E. rewrite ready_done in E by done. cbn in E.
    destruct (Nat.eqb_spec (s_dim (b_slot R b v)) (length l)) as [Hd|Hd].
    + eapply (V v l); [|exact E]. split_and!.
      * cbn. rewrite <- Hd. apply Hs.
      * intros ->. done.
      * by rewrite F.
    + injection E as <-. split_and!; [done|apply same_ptrs_refl|done].
  - unfold set_number in E. rewrite ready_done in E by done. cbn in E. destruct F as [Fa Fx].
    eapply (V v [x]); [|exact E]. split_and!; [by destruct v|done|by rewrite Fa].
  - unfold set_pointer in E. rewrite ready_done in E by done. cbn [rbind] in E. cbv zeta in E. destruct F as [Fa Fx].
    destruct (Nat.ltb_spec (length m) (s_dim (b_slot R b v))) as [|Hm]; [done|].
    pose proof (Hs v) as (_ & Hd & _). rewrite Hd in *.
    destruct (size R v (b_rm R b)) as [|[|n]] eqn:En; [done| |].
    + destruct m as [|x m]; [cbn in Hm; lia|]. 
      destruct (is_array v) eqn:Ha; [by destruct (Fa eq_refl)|].
      eapply (V v [x]); [|exact E]. split_and!; [cbn; by rewrite En|exact Fx|by rewrite Ha].
    + destruct (is_array v) eqn:Ha; [|by destruct v].
      eapply (V v (take (S (S n)) m)); [|exact E]. split_and!; [cbn -[take]; rewrite En, take_length; lia| |by rewrite Ha].
      intros ->. done.
  - destruct (rm_set_done (fun _ => False) v l b b' F HI Hc E) as (I1 & N1 & P1 & R1).
    split_and!; [done|done|]. intros w. rewrite R1. apply size_assign.
  - unfold update in E. apply rbind_done in E as (b1 & E1 & E). apply rbind_done in E as (b2 & E2 & E).
    destruct (run_cells_done _ _ E1) as (t & d & ->).
    destruct (rm_set_done (fun v => ~ static v) VTime _ _ b2 I (invx_react b t d HI) Hc E2) as (I2 & N2 & P2 & R2).
    destruct (update_variables_done _ _ I2 N2 E) as (O3 & P3 & R3).
    split_and!; [done|by eapply same_ptrs_trans|]. intros w. rewrite R3, R2, size_assign. cbn. apply size_react.
  - unfold update_until in E. destruct (Qclt_le_dec _ _).
    { injection E as <-. split_and!; [done|apply same_ptrs_refl|done]. }
    apply rbind_done in E as (b0 & E0 & E). apply rbind_done in E as (b1 & E1 & E). apply rbind_done in E as (b2 & E2 & E).
    destruct (rm_set_done (fun _ => False) VTimeStep _ b b0 I HI Hc E0) as (I0 & N0 & P0 & R0).
    destruct (run_cells_done _ _ E1) as (t1 & d1 & ->).
    destruct (rm_set_done (fun v => ~ static v) VTime _ _ b2 I (invx_react b0 t1 d1 I0) N0 E2) as (I2 & N2 & P2 & R2).
    destruct (update_variables_done _ _ I2 N2 E) as (O3 & P3 & R3).
    split_and!; [done|eapply same_ptrs_trans; [done|]; by eapply same_ptrs_trans|].
    intros w. rewrite R3, R2, size_assign. cbn. by rewrite size_react, R0, size_assign.
Qed.

Lemma fits_size s s' o : (forall w, size R w s' = size R w s) -> fits R s o -> fits R s' o.
Proof. intros H. destruct o; cbn; rewrite ?H; done. Qed.
Lemma foldl_bad os r : (forall b, r <> Done R b) -> foldl (fun r o => rbind R r (step R o)) r os = r.
Proof. intros H. induction os as [|o os IH]; [done|]. cbn. destruct r as [b| |]; [by destruct (H b)|done..]. Qed.
Lemma run_cons o os b : run R (o :: os) b = rbind R (step R o b) (run R os).
Proof. unfold run. cbn. destruct (step R o b); cbn; [done|by apply foldl_bad..]. Qed.
Lemma run_app os os' b : run R (os ++ os') b = rbind R (run R os b) (run R os').
Proof.
  revert b. induction os as [|o os IH]; intros b; [done|]. cbn [app]. rewrite !run_cons.
  destruct (step R o b); cbn; [apply IH|done..].
Qed.
Lemma run_ok os b b' : ok b -> Forall (fits R (b_rm R b)) os -> run R os b = Done R b' ->
  ok b' /\ same_ptrs b b' /\ forall w, size R w (b_rm R b') = size R w (b_rm R b).
Proof.
  revert b. induction os as [|o os IH]; intros b O F E.
  - injection E as <-. split_and!; [done|apply same_ptrs_refl|done].
  - rewrite run_cons in E. apply rbind_done in E as (b1 & E1 & E). apply Forall_cons in F as [F1 F].
    destruct (step_ok _ _ _ O F1 E1) as (O1 & P1 & S1).
    destruct (IH b1 O1) as (O2 & P2 & S2); [|done|].
    { eapply Forall_impl; [exact F|]. intros o' Ho. by eapply fits_size. }
    split_and!; [done|by eapply same_ptrs_trans|]. intros w. by rewrite S2.
Qed.

(** ** FindComponents on a new object *)
Definition sized (v : var) b : Prop :=
  s_init (b_slot R b v) = true /\ s_dim (b_slot R b v) = size R v (b_rm R b)
  /\ (is_array v = true -> length (s_vec (b_slot R b v)) = size R v (b_rm R b)).
Lemma resized_length n l : length (resized n l) = n.
Proof. unfold resized. rewrite app_length, take_length, replicate_length. lia. Qed.
Lemma resize_length n s : length (s_vec (resize n s)) = n.
Proof. unfold resize. destruct (Nat.ltb _ _); cbn; apply resized_length. Qed.
Lemma resize_same n s : s_init (resize n s) = s_init s /\ s_dim (resize n s) = s_dim s /\ s_ptr (resize n s) = s_ptr s.
Proof. unfold resize. by destruct (Nat.ltb _ _). Qed.
Lemma info_one v d b : exists b', var_fn R v Info (with_slot R v (with_basic false d) b) = Done R b'
  /\ b_rm R b' = b_rm R b /\ b_cur R b' = None /\ sized v b'
  /\ (forall w, w <> v -> b_slot R b' w = b_slot R b w) /\ (forall w, s_ptr (b_slot R b' w) = s_ptr (b_slot R b w)).
Proof.
  rewrite var_fn_body. set (b0 := with_slot R v (with_basic false d) b).
  assert (E0 : exists c, enter R v b0 = init R v (with_cur R c b0)) by (destruct v; by eexists).
  assert (E1 : body v Info (enter R v b0) = Done R (enter R v b0)) by (by destruct v).
  rewrite E1. cbn [rbind]. unfold leave. eexists. split; [reflexivity|].
  destruct E0 as [c E0]. rewrite E0. clear E0 E1.
  assert (Hi : s_init (b_slot R (with_cur R c b0) v) = false) by (cbn; by rewrite decide_True).
  unfold init. rewrite Hi.
  assert (Hsz : forall n s, length (s_vec (reassign n s)) = length n) by done.
  split_and!.
  - destruct v; reflexivity.
  - destruct v; reflexivity.
  - unfold sized. destruct v; cbn -[resize reassign size]; rewrite ?decide_True by done; cbn -[resize reassign size];
      rewrite ?decide_True by done; cbn -[resize reassign size];
      try (match goal with |- context [resize ?n ?s] => destruct (resize_same n s) as (-> & -> & _); rewrite (resize_length n s) end);
      try (match goal with |- context [reassign ?n ?s] => rewrite (Hsz n s) end);
      split_and!; try done.
    + unfold reassign. cbn -[resize]. by rewrite (proj1 (resize_same _ _)).
    + unfold reassign. cbn -[resize]. by rewrite (proj1 (proj2 (resize_same _ _))).
    + intros _. unfold value. cbn. apply (l_len R L).
  - intros w Hw. destruct v; cbn; rewrite ?decide_False by done; done.
  - intros w. destruct (decide (w = v)) as [->|Hw].
    + destruct v; cbn -[resize reassign size]; rewrite ?decide_True by done; cbn -[resize reassign size];
        rewrite ?decide_True by done; cbn -[resize reassign size]; try done;
        try (match goal with |- context [resize ?n ?s] => by rewrite (proj2 (proj2 (resize_same n s))) end).
      unfold reassign. cbn -[resize]. by rewrite (proj2 (proj2 (resize_same _ _))).
    + destruct v; cbn; rewrite ?decide_False by done; done.
Qed.
Lemma info_all_done u b : exists b', info_all R u b = Done R b' /\ b_rm R b' = b_rm R b /\ (u <> [] -> b_cur R b' = None)
  /\ (forall v, v ∈ u -> sized v b') /\ (forall v, v ∉ u -> b_slot R b' v = b_slot R b v)
  /\ (forall w, s_ptr (b_slot R b' w) = s_ptr (b_slot R b w)).
Proof.
  revert b. induction u as [|v u IH]; intros b; cbn [info_all].
  - exists b. split_and!; try done. intros v Hv. by apply elem_of_nil in Hv.
  - destruct (info_one v (s_dim (b_slot R b v)) b) as (b1 & E1 & R1 & N1 & S1 & O1 & P1).
    rewrite E1. cbn [rbind]. destruct (IH b1) as (b2 & E2 & R2 & N2 & S2 & O2 & P2).
    exists b2. split_and!; [done|congruence| | | |].
    + intros _. destruct u; [|by apply N2]. cbn in E2. congruence.
    + intros w Hw. destruct (decide (w ∈ u)) as [Hu|Hu]; [by apply S2|].
      apply elem_of_cons in Hw as [->|Hw]; [|done]. unfold sized in *. rewrite (O2 v Hu), R2. done.
    + intros w [Hne Hu]%not_elem_of_cons. rewrite (O2 w Hu). by apply O1.
    + intros w. by rewrite P2.
Qed.
Lemma find_new f s : exists b, find_components R f (bmi_new R s) = Done R b /\ ok b /\ b_rm R b = f s.
Proof.
  unfold find_components. destruct (info_all_done all_vars (with_rm R (f (b_rm R (bmi_new R s))) (bmi_new R s)))
    as (b & E & Rm & N & S & _ & P).
  exists b. split_and!; [done| |done]. split; [|by apply N]. split.
  - intros v. apply S, in_all.
  - intros v p Hp. rewrite P in Hp. done.
Qed.
Lemma reached_ok f s os b : reached R f s os b -> ok b /\ forall w, size R w (b_rm R b) = size R w (f s).
Proof.
  intros [F E]. destruct (find_new f s) as (b0 & E0 & O & Hr). rewrite E0 in E. cbn [rbind] in E. rewrite <- Hr in F.
  destruct (run_ok _ _ _ O F E) as (O2 & _ & S2). rewrite Hr in S2. exact (conj O2 S2).
Qed.

Lemma get_ptr_done v b b' p : ok b -> get_ptr R v b = (Done R b', Some p) ->
  ok b' /\ s_ptr (b_slot R b' v) = Some p /\ b_rm R b' = b_rm R b.
Proof.
  intros O E. unfold get_ptr in E. destruct (s_ptr (b_slot R b v)) as [q|] eqn:Eq.
  - injection E as <- <-. done.
  - destruct (var_fn R v GetPtr b) as [b1| |] eqn:E1; [|done..]. injection E as <- Hp.
    by destruct (ok_var_fn _ _ _ _ O E1) as (? & _ & ?).
Qed.
Lemma get_ptr_total v b : ok b -> ~ write_only v -> exists b' p, get_ptr R v b = (Done R b', Some p).
Proof.
  intros O Hn. unfold get_ptr. destruct (s_ptr (b_slot R b v)) as [q|] eqn:Eq; [eauto|].
  destruct O as [HI Hc].
  assert (Hs2 : forall b1, point R v true b1 = point R v true b1) by done.
  assert (HB : exists b1 b2 u, body v GetPtr (enter R v b) = Done R b2 /\ b2 = point R v u b1).
  { pose proof (enter_shape v b (proj1 HI)) as S1.
    destruct (keeps_refresh v _ S1) as (b1 & E1 & _).
    destruct v; try (by destruct Hn; (left + right)); cbv beta iota zeta delta [body]; rewrite ?E1; cbn [rbind]; by do 3 eexists. }
  destruct HB as (b1 & b2 & u & E & ->). rewrite var_fn_body, E. cbn [rbind leave]. do 2 eexists. f_equal.
  cbn. by rewrite decide_True.
Qed.
Lemma ok_shown v p b : ok b -> s_ptr (b_slot R b v) = Some p -> shown R v p b = Some (value R v b).
Proof.
  intros [[Hs Hp] _] E. destruct (Hp v p E) as (-> & _ & _ & Hc & _). specialize (Hc (fun x => x)).
  unfold right_ptr, shown, current in *. destruct (is_array v); [|by rewrite Hc]. by rewrite Nat.eqb_refl, Hc.
Qed.

(** ** Reading and writing *)
Lemma get_var_done v b : shaped b -> ptr_ok v b -> ~ write_only v -> exists b', var_fn R v GetVar b = Done R b'
  /\ e_dim (b_ex R b') = size R v (b_rm R b)
  /\ (if is_array v then e_vec (b_ex R b') = value R v b else [e_num (b_ex R b')] = value R v b).
Proof.
  intros Hs Hp Hn. rewrite var_fn_body. pose proof (enter_shape v b Hs) as S1.
  pose proof (keeps_enter v b Hs) as K0.
  assert (V0 : value R v (enter R v b) = value R v b) by (unfold value; by rewrite (keeps_rm _ _ K0)).
  destruct (body_spec v GetVar (enter R v b)) as [[H _]|(_ & b2 & E & K & C)]; [done|by apply enter_ptr_ok|done|].
  rewrite E. cbn [rbind]. eexists. split; [reflexivity|]. cbn [b_ex with_cur with_ex e_dim e_num e_vec].
  split.
  - pose proof (keeps_shaped _ _ K S1 v) as (_ & -> & _). by rewrite (keeps_rm _ _ K), (keeps_rm _ _ K0).
  - destruct (is_array v) eqn:Ha.
    + assert (Hb : body v GetVar (enter R v b) = refresh R v (enter R v b)).
      { destruct v; try done; destruct Hn; (by left) || (by right). }
      destruct (keeps_refresh v _ S1) as (b3 & E3 & _ & _ & _ & X). rewrite Hb, E3 in E. injection E as <-.
      rewrite X by done. done.
    + pose proof (C v eq_refl) as Cv. unfold current in Cv. rewrite Ha in Cv. rewrite Cv, <- V0. unfold value. by rewrite (keeps_rm _ _ K).
Qed.

Lemma copy_total v l b : length l = length (s_vec (b_slot R b v)) -> exists b', copy_to R v l b = Done R b'.
Proof. intros H. rewrite copy_to_exact by done. eauto. Qed.
Lemma rm_update_density b b' : shaped b -> var_fn R VDensityCalculated RMUpdate b = Done R b' ->
  e_vec (b_ex R b') = value R VDensityCalculated b.
Proof.
  intros Hs E. rewrite var_fn_body in E. apply rbind_done in E as (b2 & E & El).
  destruct (leave_done _ _ _ El) as (_ & _ & _ & _ & _ & ->).
  pose proof (enter_shape VDensityCalculated b Hs) as S1.
  cbv beta iota zeta delta [body] in E. apply rbind_done in E as (b1 & E1 & E).
  destruct (keeps_copy VConcentrations _ S1 eq_refl) as (b1' & E1' & K1 & _). rewrite E1 in E1'. injection E1' as <-.
  destruct (keeps_refresh VDensityCalculated b1 (keeps_shaped _ _ K1 S1)) as (b3 & E3 & _ & _ & _ & X).
  rewrite E in E3. injection E3 as <-. rewrite X by done. unfold value. by rewrite (keeps_rm _ _ K1), (keeps_rm _ _ (keeps_enter _ _ Hs)).
Qed.
Lemma var_set_total v l b : settable v -> ok b -> given v l b -> exists b', var_set R v b = Done R b'.
Proof.
  intros Hset [HI Hc] (Hlen & Hadm & Hg). unfold var_set. rewrite (enter_shaped v b (proj1 HI)).
  set (bl := with_rm R (r_assign R v l (b_rm R b)) (with_cur R (Some v) b)).
  assert (HA : invx (fun w => False \/ touches v w) bl)
    by (apply (invx_assign (fun _ => False) v l (with_cur R (Some v) b)); eapply keeps_invx; [apply keeps_cur|done]).
  assert (HL : is_array v = true -> length l = length (s_vec (b_slot R bl v))).
  { intros Ha. rewrite Hlen. symmetry. by apply (proj1 HI v). }
  assert (HS : forall b' w, shaped b' -> is_array w = true -> length (value R w b') = length (s_vec (b_slot R b' w))).
  { intros b' w Hs Ha. unfold value. rewrite (l_len R L). destruct (Hs w) as (_ & _ & ->); done. }
  assert (HF : forall b', exists b'', leave R v b' = Done R b'') by (intros; by eexists).
  destruct v; try done; cbn [is_array] in Hg.
  - rewrite rm_set_inside by done. cbn [rbind b_ex with_cur]. rewrite Hg.
    change (b_rm R (with_cur R (Some VConcentrations) b)) with (b_rm R b). fold bl.
    destruct (keeps_refresh VConcentrations bl (proj1 HA)) as (b3 & -> & _). cbn [rbind]. apply HF.
  - rewrite Hg.
    assert (HR : exists b1, rm_set R VDensityUser l b = Done R b1 /\ shaped b1
      /\ length (e_vec (b_ex R b1)) = length (s_vec (b_slot R b1 VDensityUser)) /\ invx (fun _ => False) b1).
    { destruct (rm_set R VDensityUser l b) as [b1|b1|] eqn:E1.
      - destruct (rm_set_done (fun _ => False) VDensityUser l b b1 I HI Hc E1) as (I1 & _ & _ & R1).
        exists b1. split_and!; [done|apply I1| |done]. destruct (proj1 I1 VDensityUser) as (_ & _ & ->); [|done].
        unfold rm_set, rm2bmi in E1. cbn [b_pset b_cur with_rm] in E1. destruct (b_pset R b).
        + rewrite decide_False in E1 by (by rewrite Hc).
          assert (S1 : shaped (with_rm R (r_assign R VDensityUser l (b_rm R b)) b)).
          { intros w. cbn. rewrite size_assign. apply (proj1 HI). }
          rewrite (rm_update_density _ _ S1 E1). unfold value. rewrite (l_len R L), R1. done.
        + injection E1 as <-. cbn [b_ex with_rm]. rewrite Hg, Hlen, R1. by rewrite size_assign.
      - exfalso. unfold rm_set, rm2bmi in E1. cbn [b_pset b_cur with_rm] in E1. destruct (b_pset R b); [|done].
        rewrite decide_False in E1 by (by rewrite Hc).
        destruct (var_fn_total VDensityCalculated RMUpdate (with_rm R (r_assign R VDensityUser l (b_rm R b)) b)) as [b2 E2];
          [intros w; cbn; rewrite size_assign; apply (proj1 HI)|by apply (invx_ptr_ok _ _ _ HI)|cbn; intuition discriminate|].
        unfold event in E1. rewrite E2 in E1. done.
      - exfalso. unfold rm_set, rm2bmi in E1. cbn [b_pset b_cur with_rm] in E1. destruct (b_pset R b); [|done].
        rewrite decide_False in E1 by (by rewrite Hc).
        destruct (var_fn_total VDensityCalculated RMUpdate (with_rm R (r_assign R VDensityUser l (b_rm R b)) b)) as [b2 E2];
          [intros w; cbn; rewrite size_assign; apply (proj1 HI)|by apply (invx_ptr_ok _ _ _ HI)|cbn; intuition discriminate|].
        unfold event in E1. rewrite E2 in E1. done. }
    destruct HR as (b1 & -> & S1 & L1 & I1). cbn [rbind].
    destruct (copy_total VDensityUser (e_vec (b_ex R b1)) b1 L1) as [b2 E2]. rewrite E2. cbn [rbind].
    destruct (copy_user _ VDensityUser _ b1 b2 ltac:(by left) I1 E2) as (I2 & _).
    destruct (copy_total VConcentrations (value R VConcentrations b2) b2) as [b3 E3]; [by apply HS; [apply I2|]|].
    rewrite E3. cbn [rbind]. apply HF.
  - rewrite rm_set_inside by done. cbn [rbind b_ex with_cur with_rm]. rewrite Hg.
    destruct (copy_total VSaturationUser l bl (HL eq_refl)) as [b2 E2].
    change (b_rm R (with_cur R (Some VSaturationUser) b)) with (b_rm R b). fold bl. rewrite E2. cbn [rbind].
    destruct (copy_user _ VSaturationUser _ bl b2 ltac:(by right) HA E2) as (I2 & _).
    destruct (copy_total VConcentrations (value R VConcentrations b2) b2) as [b3 E3]; [by apply HS; [apply I2|]|].
    rewrite E3. cbn [rbind]. apply HF.
  - rewrite rm_set_inside by done. cbn [rbind]. apply HF.
  - rewrite rm_set_inside by done. cbn [rbind]. apply HF.
  - rewrite rm_set_inside by done. cbn [rbind b_ex with_cur with_rm]. rewrite Hg.
    change (b_rm R (with_cur R (Some VPorosity) b)) with (b_rm R b). fold bl.
    assert (He : value R VPorosity bl = l) by (by apply (l_echo R L)).
    destruct (copy_total VPorosity l bl (HL eq_refl)) as [b2 E2]. rewrite E2. cbn [rbind].
    rewrite <- He in E2. destruct (copy_value _ VPorosity bl b2 eq_refl HA E2) as (I2 & _).
    destruct (copy_total VConcentrations (value R VConcentrations b2) b2) as [b3 E3]; [by apply HS; [apply I2|]|].
    rewrite E3. cbn [rbind].
    destruct (copy_value _ VConcentrations b2 b3 eq_refl I2 E3) as (I3 & _).
    destruct (copy_total VSaturationCalculated (value R VSaturationCalculated b3) b3) as [b4 E4]; [by apply HS; [apply I3|]|].
    rewrite E4. cbn [rbind]. apply HF.
  - rewrite rm_set_inside by done. cbn [rbind b_ex with_cur with_rm]. rewrite Hg.
    change (b_rm R (with_cur R (Some VPressure) b)) with (b_rm R b). fold bl.
    destruct (copy_total VPressure l bl (HL eq_refl)) as [b2 E2]. rewrite E2. cbn [rbind]. apply HF.
  - rewrite rm_set_inside by done. cbn [rbind]. apply HF.
  - rewrite rm_set_inside by done. cbn [rbind b_ex with_cur with_rm]. rewrite Hg.
    change (b_rm R (with_cur R (Some VTemperature) b)) with (b_rm R b). fold bl.
    destruct (copy_total VTemperature l bl (HL eq_refl)) as [b2 E2]. rewrite E2. cbn [rbind]. apply HF.
Qed.
Lemma set_given v l f b : ok b -> settable v -> given v l (with_ex R f b) ->
  exists b', var_set R v (with_ex R f b) = Done R b' /\ ok b' /\ b_rm R b' = r_assign R v l (b_rm R b).
Proof.
  intros O Hset Hg. assert (O' : ok (with_ex R f b)) by (eapply ok_keeps; [apply keeps_ex|apply O|done]).
  destruct (var_set_total v l _ Hset O' Hg) as [b' E]. destruct (var_set_ok v l _ b' O' Hg E) as (O1 & _ & R1). eauto.
Qed.

(** ** Time *)
Lemma scalar_is v x b : value R v b = [x] -> scalar R v b = x.
Proof. unfold scalar. by intros ->. Qed.
Lemma update_done b b' : ok b -> update R b = Done R b' ->
  let s := (r_react R (scalar R VTime b - scalar R VTimeStep b) (scalar R VTimeStep b) (b_rm R b)).1 in
  b_rm R b' = r_assign R VTime [scalar R VTime (with_rm R s b) + scalar R VTimeStep (with_rm R s b)] s.
Proof.
  intros [HI Hc] E. unfold update in E. apply rbind_done in E as (b1 & E1 & E). apply rbind_done in E as (b2 & E2 & E).
  assert (Eb : b1 = with_rm R (r_react R (scalar R VTime b - scalar R VTimeStep b) (scalar R VTimeStep b) (b_rm R b)).1 b).
  { unfold run_cells in E1. destruct (r_react _ _ _ _) as [s [|]]; [done|]. by injection E1. }
  subst b1.
  destruct (rm_set_done (fun v => ~ static v) VTime _ _ b2 I (invx_react b _ _ HI) Hc E2) as (I2 & N2 & P2 & R2).
  destruct (update_variables_done _ _ I2 N2 E) as (O3 & P3 & R3). cbv zeta. rewrite R3, R2. done.
Qed.
Lemma update_until_done t b b' : ok b -> update_until R t b = Done R b' -> ~ t < scalar R VTime b ->
  let s := r_assign R VTimeStep [t - scalar R VTime b] (b_rm R b) in
  b_rm R b' = r_assign R VTime [t] (r_react R (scalar R VTime (with_rm R s b) - scalar R VTimeStep (with_rm R s b)) (scalar R VTimeStep (with_rm R s b)) s).1.
Proof.
  intros [HI Hc] E Hle. unfold update_until in E. destruct (Qclt_le_dec _ _) as [Hlt|_].
  { destruct Hle. apply Qclt_minus_iff. apply Qclt_minus_iff in Hlt. 
    replace (scalar R VTime b + - t) with (0 + - (t - scalar R VTime b)) by ring. done. }
  apply rbind_done in E as (b0 & E0 & E). apply rbind_done in E as (b1 & E1 & E). apply rbind_done in E as (b2 & E2 & E).
  destruct (rm_set_done (fun _ => False) VTimeStep _ b b0 I HI Hc E0) as (I0 & N0 & P0 & R0).
  assert (Eb : b1 = with_rm R (r_react R (scalar R VTime b0 - scalar R VTimeStep b0) (scalar R VTimeStep b0) (b_rm R b0)).1 b0).
  { unfold run_cells in E1. destruct (r_react _ _ _ _) as [s [|]]; [done|]. by injection E1. }
  subst b1.
  destruct (rm_set_done (fun v => ~ static v) VTime _ _ b2 I (invx_react b0 _ _ I0) N0 E2) as (I2 & N2 & P2 & R2).
  destruct (update_variables_done _ _ I2 N2 E) as (O3 & P3 & R3). cbv zeta. rewrite R3, R2. cbn [b_rm with_rm].
  unfold scalar, value. cbn [b_rm with_rm]. by rewrite !R0.
Qed.
Lemma echo_number v x s : v = VTime \/ v = VTimeStep -> r_value R v (r_assign R v [x] s) = [x].
Proof. intros [-> | ->]; apply (l_echo R L); done. Qed.

Lemma clock_kept v l b b' : b_rm R b' = r_assign R v l (b_rm R b) -> v <> VTime -> v <> VTimeStep ->
  scalar R VTime b' = scalar R VTime b /\ scalar R VTimeStep b' = scalar R VTimeStep b.
Proof.
  intros Hr H1 H2. unfold scalar, value. rewrite Hr.
  rewrite !(l_local R L) by (destruct v; cbn; intuition congruence). done.
Qed.
Lemma step_set x b b' : b_rm R b' = r_assign R VTimeStep [x] (b_rm R b) ->
  scalar R VTime b' = scalar R VTime b /\ scalar R VTimeStep b' = x.
Proof.
  intros Hr. unfold scalar, value. rewrite Hr, (l_local R L) by (cbn; congruence). split; [done|].
  rewrite echo_number by tauto. done.
Qed.
Lemma update_clock b b' : timeless R -> ok b -> update R b = Done R b' ->
  scalar R VTime b' = scalar R VTime b + scalar R VTimeStep b /\ scalar R VTimeStep b' = scalar R VTimeStep b.
Proof.
  intros HT O E. pose proof (update_done _ _ O E) as Hr. cbv zeta in Hr. split.
  - apply scalar_is. unfold value at 1. rewrite Hr, echo_number by tauto. unfold scalar, value. cbn [b_rm with_rm].
    rewrite !HT by tauto. done.
  - unfold scalar, value. rewrite Hr, (l_local R L) by (cbn; congruence). rewrite HT by tauto. done.
Qed.
Lemma update_until_clock t b b' : timeless R -> ok b -> update_until R t b = Done R b' -> ~ t < scalar R VTime b ->
  scalar R VTime b' = t /\ scalar R VTimeStep b' = t - scalar R VTime b.
Proof.
  intros HT O E Hle. pose proof (update_until_done _ _ _ O E Hle) as Hr. cbv zeta in Hr. split.
  - apply scalar_is. unfold value at 1. rewrite Hr, echo_number by tauto. done.
  - apply scalar_is. unfold value at 1. rewrite Hr, (l_local R L) by (cbn; congruence). rewrite HT by tauto.
    by rewrite echo_number by tauto.
Qed.
Lemma onward_step o b b' : timeless R -> ok b -> fits R (b_rm R b) o -> onward o -> 0 <= scalar R VTimeStep b -> step R o b = Done R b' ->
  scalar R VTime b <= scalar R VTime b' /\ 0 <= scalar R VTimeStep b'.
Proof.
  intros HT O F W H0 E. pose proof O as [HI Hc]. pose proof (proj1 HI) as Hs.
  assert (Same : b_rm R b' = b_rm R b -> scalar R VTime b <= scalar R VTime b' /\ 0 <= scalar R VTimeStep b').
  { intros Hr. unfold scalar, value in *. rewrite Hr. split; [apply Qcle_refl|done]. }
  assert (G : forall v t b1, var_fn R v t b = Done R b1 -> b_rm R b1 = b_rm R b).
  { intros v t b1 E1. by destruct (ok_var_fn _ _ _ _ O E1) as (? & ? & ->). }
  assert (Set_ : forall v l, b_rm R b' = r_assign R v l (b_rm R b) -> v <> VTime -> (v = VTimeStep -> exists x, l = [x] /\ 0 <= x) ->
    scalar R VTime b <= scalar R VTime b' /\ 0 <= scalar R VTimeStep b').
  { intros v l Hr H1 H2. destruct (decide (v = VTimeStep)) as [->|Hn].
    - destruct (H2 eq_refl) as (x & -> & Hx). destruct (step_set x b b' Hr) as [-> ->]. split; [apply Qcle_refl|done].
    - destruct (clock_kept v l b b' Hr H1 Hn) as [-> ->]. split; [apply Qcle_refl|done]. }
  assert (V : forall v l f, given v l (with_ex R f b) -> var_set R v (with_ex R f b) = Done R b' -> b_rm R b' = r_assign R v l (b_rm R b)).
  { intros v l f Hg E1. assert (O' : ok (with_ex R f b)) by (eapply ok_keeps; [apply keeps_ex|done|done]).
    by destruct (var_set_ok v l _ b' O' Hg E1) as (_ & _ & ?). }
  destruct o as [v|v|v|v|v l|v x|v m|v l| |t]; cbn in E, F, W.
  - apply Same. unfold get_ptr in E. destruct (s_ptr _); cbn in E; [|by eapply G]. by injection E as <-.
  - apply Same. unfold get_array in E. rewrite ready_done in E by done. cbn in E.
    destruct (var_fn R v GetVar b) as [b1|b1|] eqn:E1; cbn in E; [|done..].
    destruct (e_dim (b_ex R b1)) as [|[|n]]; cbn in E; [done| |destruct (Nat.leb (length _) _); cbn in E; [done|]];
      injection E as <-; by eapply G.
  - apply Same. unfold get_vector in E. rewrite ready_done in E by done. cbn in E.
    destruct (var_fn R v GetVar b) as [b1|b1|] eqn:E1; cbn in E; [|done..]. injection E as <-; by eapply G.
  - apply Same. unfold get_double in E. rewrite ready_done in E by done. cbn in E.
    destruct (var_fn R v GetVar b) as [b1|b1|] eqn:E1; cbn in E; [|done..]. injection E as <-; by eapply G.
  - unfold set_vector in E. rewrite ready_done in E by done. cbn in E.
    destruct (Nat.eqb_spec (s_dim (b_slot R b v)) (length l)) as [Hd|Hd]; [|apply Same; by injection E as <-].
    apply (Set_ v l); [|by intros ->..]. eapply V; [|exact E]. split_and!.
    + cbn. rewrite <- Hd. apply Hs.
    + by intros ->.
    + by rewrite F.
  - unfold set_number in E. rewrite ready_done in E by done. cbn in E. destruct F as [Fa Fx].
    apply (Set_ v [x]); [|apply W|intros Hv; exists x; split; [done|by apply W]].
    eapply V; [|exact E]. split_and!; [by destruct v|done|by rewrite Fa].
  - unfold set_pointer in E. rewrite ready_done in E by done. cbn [rbind] in E. cbv zeta in E. destruct F as [Fa Fx].
    destruct (Nat.ltb_spec (length m) (s_dim (b_slot R b v))) as [|Hm]; [done|].
    pose proof (Hs v) as (_ & Hd & _). rewrite Hd in *.
    destruct (size R v (b_rm R b)) as [|[|n]] eqn:En; [done| |].
    + destruct m as [|x m]; [cbn in Hm; lia|].
      destruct (is_array v) eqn:Ha; [by destruct (Fa eq_refl)|].
      apply (Set_ v [x]); [|apply W|intros Hv; exists x; split; [done|]; destruct W as [_ W]; specialize (W Hv); by inversion W].
      eapply V; [|exact E]. split_and!; [cbn; by rewrite En|exact Fx|by rewrite Ha].
    + destruct (is_array v) eqn:Ha; [|by destruct v].
      apply (Set_ v (take (S (S n)) m)); [|by intros ->..].
      eapply V; [|exact E]. split_and!; [cbn -[take]; rewrite En, take_length; lia|by intros ->|by rewrite Ha].
  - destruct (rm_set_done (fun _ => False) v l b b' F HI Hc E) as (_ & _ & _ & R1). by apply (Set_ v l); [|apply W..].
  - destruct (update_clock _ _ HT O E) as [-> ->]. split; [|done].
    rewrite <- (Qcplus_0_r (scalar R VTime b)) at 1. apply Qcplus_le_compat; [apply Qcle_refl|done].
  - destruct (Qclt_le_dec t (scalar R VTime b)) as [Hlt|Hle].
    + apply Same. unfold update_until in E. destruct (Qclt_le_dec _ _) as [Hl|Hl]; [by injection E as <-|].
      exfalso. apply (Qclt_not_le _ _ Hlt). apply Qcle_minus_iff. exact Hl.
    + destruct (update_until_clock _ _ _ HT O E ltac:(by apply Qcle_not_lt)) as [-> ->]. split; [done|].
      by apply Qcle_minus_iff in Hle.
Qed.
Lemma onward_run os b b' : timeless R -> ok b -> Forall (fits R (b_rm R b)) os -> Forall onward os -> 0 <= scalar R VTimeStep b ->
  run R os b = Done R b' -> scalar R VTime b <= scalar R VTime b' /\ 0 <= scalar R VTimeStep b'.
Proof.
  intros HT. revert b. induction os as [|o os IH]; intros b O F W H0 E.
  - injection E as <-. split; [apply Qcle_refl|done].
  - rewrite run_cons in E. apply rbind_done in E as (b1 & E1 & E). apply Forall_cons in F as [F1 F]. apply Forall_cons in W as [W1 W].
    destruct (step_ok _ _ _ O F1 E1) as (O1 & _ & S1). destruct (onward_step _ _ _ HT O F1 W1 H0 E1) as [L1 H1].
    destruct (IH b1 O1) as [L2 H2]; [|done..|].
    { eapply Forall_impl; [exact F|]. intros o' Ho. by eapply fits_size. }
    split; [by eapply Qcle_trans|done].
Qed.
End Proofs.
