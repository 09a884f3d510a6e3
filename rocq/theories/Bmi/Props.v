(** Theorems about the BMI layer. *)
From Coq Require Import String QArith Qcanon.
From stdpp Require Import prelude.
From Verif Require Import Bmi.Model Bmi.Spec Bmi.Proofs.
Local Open Scope Qc_scope.

(** ** A small module for the examples

    Its state is the numbers of cells and components and what was stored for each variable.
    Concentrations follow saturation and porosity, a reaction adds its length to them and leaves the
    time at which it started in the viscosities. *)
Record demo_state := Demo { d_cells : nat; d_comps : nat; d_val : var -> list Qc }.
Definition demo_size (v : var) (s : demo_state) : nat :=
  match v with
  | VConcentrations => d_cells s * d_comps s
  | VGfw => d_comps s
  | VComponentCount | VGridCellCount | VSelectedOutputOn | VTime | VTimeStep => 1
  | _ => d_cells s
  end.
Definition demo_value (v : var) (s : demo_state) : list Qc := resized (demo_size v s) (d_val s v).
Definition put (v : var) (l : list Qc) (s : demo_state) : demo_state :=
  Demo (d_cells s) (d_comps s) (fun w => if decide (w = v) then l else d_val s w).
Definition shift (v : var) (x : Qc) (s : demo_state) : demo_state := put v (map (Qcplus x) (demo_value v s)) s.
Definition demo_assign (v : var) (l : list Qc) (s : demo_state) : demo_state :=
  if Nat.eqb (length l) (demo_size v s) then
    match v with
    | VDensityUser | VSaturationUser => shift VConcentrations (default 0 (l !! 0%nat)) s
    | VPorosity =>
        let x := default 0 (l !! 0%nat) in shift VSaturationCalculated x (shift VConcentrations x (put VPorosity l s))
    | _ => put v l s
    end
  else s.
Definition demo_react (t d : Qc) (s : demo_state) : demo_state * bool :=
  (put VViscosity (replicate (d_cells s) t) (shift VConcentrations d s), false).
Definition demo : rm := Rm demo_state d_cells d_comps demo_value demo_assign demo_react.

Lemma demo_shape v l s w : demo_size w (put v l s) = demo_size w s.
Proof. done. Qed.
Lemma demo_put_other v l s w : w <> v -> demo_value w (put v l s) = demo_value w s.
Proof. intros H. unfold demo_value. cbn. by rewrite decide_False. Qed.
Lemma resized_same n l : length l = n -> resized n l = l.
Proof. intros <-. unfold resized. by rewrite firstn_all, Nat.sub_diag, app_nil_r. Qed.
Lemma demo_put_same v l s : length l = demo_size v s -> demo_value v (put v l s) = l.
Proof. intros H. unfold demo_value. cbn [d_val put]. rewrite decide_True by done. by apply resized_same. Qed.
Lemma demo_lawful : lawful demo.
Proof.
  split.
  - intros v s. cbn. unfold demo_value. rewrite resized_length. by destruct v.
  - intros v l s. cbn. unfold demo_assign. destruct (Nat.eqb _ _); [|done]. by destruct v.
  - intros v l s. cbn. unfold demo_assign. destruct (Nat.eqb _ _); [|done]. by destruct v.
  - done.
  - done.
  - intros v t d s Hv. change (demo_value v (put VViscosity (replicate (d_cells s) t) (shift VConcentrations d s)) = demo_value v s).
    unfold shift. destruct Hv as [->|[->| ->]]; by rewrite !demo_put_other.
  - intros v l s w Hw. change (demo_value w (demo_assign v l s) = demo_value w s). unfold demo_assign. destruct (Nat.eqb _ _); [|done].
    destruct v; cbn in Hw; unfold shift; rewrite !demo_put_other by tauto; done.
  - intros v l s He Hl _. cbn in Hl. change (demo_value v (demo_assign v l s) = l). unfold demo_assign.
    assert (El : Nat.eqb (length l) (demo_size v s) = true) by (apply Nat.eqb_eq; rewrite Hl; by destruct v). rewrite El.
    apply Nat.eqb_eq in El. destruct v; try done; cbv zeta; unfold shift; rewrite ?demo_put_other by done; by apply demo_put_same.
Qed.
Definition demo_start (cells comps : nat) : demo_state := Demo cells comps (fun _ => []).
Definition n (x : Z) : Qc := Q2Qc (inject_Z x).
(** Two cells, two components, at time 10 with steps of 5 *)
Definition two : demo_state := put VTimeStep [n 5] (put VTime [n 10] (demo_start 2 2)).
Definition plain (l : option (list Qc)) : option (list Q) := fmap (M := option) (map this) l.

(** ** C42: pointers show the current values *)

(** A program that has called FindComponents, then anything but FindComponents and the functions of
    PhreeqcRM outside of the BMI, without an exception: the memory behind each pointer it was given
    shows what the getter returns. *)
Theorem pointer_current : forall R, lawful R -> forall f s os1 v os2 b1 b2 p b3,
  reached R f s os1 b1 -> get_ptr R v b1 = (Done R b2, Some p) ->
  Forall (fits R (f s)) os2 -> run R os2 b2 = Done R b3 ->
  shown R v p b3 = Some (value R v b3).
Proof.
  intros R L f s os1 v os2 b1 b2 p b3 H1 H2 H3 H4.
  destruct (reached_ok R L f s os1 b1 H1) as [O1 S1].
  destruct (get_ptr_done R L v b1 b2 p O1 H2) as (O2 & P2 & R2).
  destruct (run_ok R L os2 b2 b3 O2) as (O3 & P3 & _); [|done|].
  { eapply Forall_impl; [exact H3|]. intros o Ho. eapply fits_size; [|exact Ho]. intros w. by rewrite R2. }
  apply ok_shown; [done|]. by apply P3.
Qed.
Print Assumptions pointer_current.

(** Every variable that has a getter has a pointer. *)
Theorem pointer_given : forall R, lawful R -> forall f s os v b,
  reached R f s os b -> ~ write_only v -> exists b' p, get_ptr R v b = (Done R b', Some p).
Proof. intros R L f s os v b H Hn. apply get_ptr_total; [done|by eapply reached_ok|done]. Qed.
Print Assumptions pointer_given.

Definition prog (os : list op) : res demo := rbind demo (find_components demo id (bmi_new demo two)) (run demo os).
Definition final (r : res demo) : option (bmi demo) := match r with Done _ b => Some b | _ => None end.
(** what the pointer of [v] shows at the end, and what the getter returns *)
Definition seen (v : var) (r : res demo) : option (list Q) :=
  match r with Done _ b | Thrown _ b => match s_ptr (b_slot demo b v) with Some p => plain (shown demo v p b) | None => None end | Bad _ => None end.
Definition true_value (v : var) (r : res demo) : option (list Q) :=
  match r with Done _ b | Thrown _ b => plain (Some (value demo v b)) | Bad _ => None end.

Example pointer_current_example :
  let os := [OSetVector VConcentrations [n 1; n 2; n 3; n 4]; OGetPtr VConcentrations; OUpdate; ORmSet VSaturationUser [n 2; n 2];
             OSetVector VPorosity [n 7; n 7]; OUpdateUntil (n 40)] in
  seen VConcentrations (prog os) = Some [40; 41; 42; 43]%Q /\ true_value VConcentrations (prog os) = Some [40; 41; 42; 43]%Q.
Proof. split; vm_compute; reflexivity. Qed.

(** The functions of PhreeqcRM that tell the BMI nothing: after RunCells called directly, a pointer
    shows the concentrations before the reaction. *)
Theorem pointer_run_cells_refuted :
  let r := prog [OSetVector VConcentrations [n 1; n 2; n 3; n 4]; OGetPtr VConcentrations] in
  let r' := rbind demo r (run_cells demo) in
  seen VConcentrations r' = Some [1; 2; 3; 4]%Q /\ true_value VConcentrations r' = Some [6; 7; 8; 9]%Q.
Proof. split; vm_compute; reflexivity. Qed.
Print Assumptions pointer_run_cells_refuted.

(** A call that throws leaves CurrentVar set: after a refused GetValue("SaturationUser"), the next
    SetSaturationUser is taken for one inside of the variable's own function, and the pointer to the
    concentrations is stale. *)
Definition outcome_of (r : res demo) : option bool := match r with Done _ _ => Some true | Thrown _ _ => Some false | Bad _ => None end.
Definition resume (r : res demo) : res demo := match r with Thrown _ b => Done demo b | _ => r end.
Theorem pointer_throw_refuted :
  let r := prog [OSetVector VConcentrations [n 1; n 2; n 3; n 4]; OGetPtr VConcentrations; OGetVector VSaturationUser] in
  let r' := rbind demo (resume r) (step demo (ORmSet VSaturationUser [n 2; n 2])) in
  outcome_of r = Some false
  /\ seen VConcentrations r' = Some [1; 2; 3; 4]%Q /\ true_value VConcentrations r' = Some [3; 4; 5; 6]%Q.
Proof. split_and!; vm_compute; reflexivity. Qed.
Print Assumptions pointer_throw_refuted.

(** FindComponents with more components makes the vector of concentrations larger; GetValuePtr still
    returns the old pointer, whose memory is gone. *)
Theorem pointer_find_refuted :
  let r := prog [OGetPtr VConcentrations] in
  let r' := rbind demo r (find_components demo (fun s => Demo (d_cells s) 3 (d_val s))) in
  match r' with
  | Done _ b => exists p, (get_ptr demo VConcentrations b).2 = Some p /\ shown demo VConcentrations p b = None
  | _ => False
  end.
Proof. vm_compute. eexists. split; reflexivity. Qed.
Print Assumptions pointer_find_refuted.

(** Even with the same components the pointers are stale after FindComponents: it does not refresh
    them. *)
Theorem pointer_find_stale_refuted :
  let r := prog [OSetVector VConcentrations [n 1; n 2; n 3; n 4]; OGetPtr VConcentrations] in
  let r' := rbind demo r (find_components demo (put VConcentrations [n 9; n 9; n 9; n 9])) in
  seen VConcentrations r' = Some [1; 2; 3; 4]%Q /\ true_value VConcentrations r' = Some [9; 9; 9; 9]%Q.
Proof. split; vm_compute; reflexivity. Qed.
Print Assumptions pointer_find_stale_refuted.

(** With cells that share a solution (C59) the getter of the temperatures does not return what was
    set, but SetValue leaves that in the memory behind the pointer. *)
Definition shared_value (v : var) (s : demo_state) : list Qc :=
  match v with VTemperature => replicate (d_cells s) (default 0 (demo_value v s !! 0%nat)) | _ => demo_value v s end.
Definition shared : rm := Rm demo_state d_cells d_comps shared_value demo_assign demo_react.
Theorem pointer_shared_refuted :
  let r := rbind shared (find_components shared id (bmi_new shared two))
    (run shared [OGetPtr VTemperature; OSetVector VTemperature [n 20; n 30]]) in
  match r with
  | Done _ b => exists p, s_ptr (b_slot shared b VTemperature) = Some p
      /\ plain (shown shared VTemperature p b) = Some [20; 30]%Q /\ plain (Some (value shared VTemperature b)) = Some [20; 20]%Q
  | _ => False
  end.
Proof. vm_compute. eexists. split_and!; reflexivity. Qed.
Print Assumptions pointer_shared_refuted.

(** ** C43: time *)

(** Update advances the time by one step, UpdateUntil to the time given; an earlier time does
    nothing. *)
Theorem update_time : forall R, lawful R -> timeless R -> forall f s os b b', reached R f s os b ->
  (update R b = Done R b' -> scalar R VTime b' = scalar R VTime b + scalar R VTimeStep b
                          /\ scalar R VTimeStep b' = scalar R VTimeStep b)
  /\ forall t, update_until R t b = Done R b' ->
     (scalar R VTime b <= t -> scalar R VTime b' = t /\ scalar R VTimeStep b' = t - scalar R VTime b)
     /\ (t < scalar R VTime b -> b' = b).
Proof.
  intros R L HT f s os b b' H. destruct (reached_ok R L f s os b H) as [O _]. split; [by apply update_clock|].
  intros t E. split.
  - intros Hle. apply update_until_clock; [done..|]. by apply Qcle_not_lt.
  - intros Hlt. unfold update_until in E. destruct (Qclt_le_dec _ _) as [Hl|Hl]; [by injection E|].
    exfalso. apply (Qclt_not_le _ _ Hlt). apply Qcle_minus_iff. exact Hl.
Qed.
Print Assumptions update_time.

(** In a program that does not set the clock back itself, time never goes back. *)
Theorem time_onward : forall R, lawful R -> timeless R -> forall f s os b os' b',
  reached R f s os b -> 0 <= scalar R VTimeStep b ->
  Forall (fits R (f s)) os' -> Forall onward os' -> run R os' b = Done R b' ->
  scalar R VTime b <= scalar R VTime b'.
Proof.
  intros R L HT f s os b os' b' H H0 F W E. destruct (reached_ok R L f s os b H) as [O S].
  eapply onward_run; [done..| |done|done|exact E]. eapply Forall_impl; [exact F|]. intros o. by apply fits_size.
Qed.
Print Assumptions time_onward.

Lemma demo_timeless : timeless demo.
Proof.
  intros v t d s Hv. change (demo_value v (put VViscosity (replicate (d_cells s) t) (shift VConcentrations d s)) = demo_value v s).
  unfold shift. destruct Hv as [-> | ->]; by rewrite !demo_put_other.
Qed.
Example update_time_example :
  true_value VTime (prog [OUpdate; OUpdateUntil (n 40); OUpdateUntil (n 12)]) = Some [40]%Q
  /\ true_value VTimeStep (prog [OUpdate; OUpdateUntil (n 40); OUpdateUntil (n 12)]) = Some [25]%Q.
Proof. split; vm_compute; reflexivity. Qed.

(** The reactions of one Update, or of one UpdateUntil not into the past: one call with the length
    of the step, which starts one step before the present time. *)
Theorem update_reacts : forall R, lawful R -> timeless R -> forall f s os b b', reached R f s os b ->
  (update R b = Done R b' ->
     b_rm R b' = r_assign R VTime [scalar R VTime b + scalar R VTimeStep b]
       (r_react R (scalar R VTime b - scalar R VTimeStep b) (scalar R VTimeStep b) (b_rm R b)).1)
  /\ forall t, scalar R VTime b <= t -> update_until R t b = Done R b' ->
     b_rm R b' = r_assign R VTime [t]
       (r_react R (scalar R VTime b - (t - scalar R VTime b)) (t - scalar R VTime b)
         (r_assign R VTimeStep [t - scalar R VTime b] (b_rm R b))).1.
Proof.
  intros R L HT f s os b b' H. destruct (reached_ok R L f s os b H) as [O _]. split.
  - intros E. rewrite (update_done R L b b' O E). unfold scalar, value. cbn [b_rm with_rm]. by rewrite !HT by tauto.
  - intros t Hle E. rewrite (update_until_done R L t b b' O E) by (by apply Qcle_not_lt).
    destruct (step_set R L (t - scalar R VTime b) b (with_rm R (r_assign R VTimeStep [t - scalar R VTime b] (b_rm R b)) b) eq_refl)
      as [-> ->]. done.
Qed.
Print Assumptions update_reacts.

(** So the reactions of an Update at time 10 with a step of 5 are those from 5 to 10, not from 10
    to 15, and those of UpdateUntil(40) at time 10 start at -20. *)
Theorem update_interval_refuted :
  true_value VTime (prog []) = Some [10]%Q
  /\ true_value VViscosity (prog [OUpdate]) = Some [5; 5]%Q
  /\ true_value VViscosity (prog [OUpdateUntil (n 40)]) = Some [-20; -20]%Q.
Proof. split_and!; vm_compute; reflexivity. Qed.
Print Assumptions update_interval_refuted.

(** GetEndTime is the time that the next Update will reach; RM_BmiGetEndTime of C is not. *)
Theorem end_time : forall R, lawful R -> timeless R -> forall f s os b b', reached R f s os b ->
  update R b = Done R b' -> scalar R VTime b' = get_end_time R b.
Proof. intros R L HT f s os b b' H E. by apply (proj1 (update_time R L HT f s os b b' H)). Qed.
Print Assumptions end_time.
Theorem end_time_c_refuted :
  true_value VTime (prog [OUpdate]) = Some [15]%Q
  /\ plain (match final (prog []) with Some b => Some [get_end_time demo b; c_get_end_time demo b] | None => None end) = Some [15; 10]%Q.
Proof. split; vm_compute; reflexivity. Qed.
Print Assumptions end_time_c_refuted.

(** ** C44: arrays of any size *)

(** Reading: into a vector for arrays of any size; into the caller's memory, for scalars and for
    arrays of more than one element. *)
Theorem array_read : forall R, lawful R -> forall f s os b v, reached R f s os b -> ~ write_only v ->
  (is_array v = true -> exists b', get_vector R v b = (Done R b', Some (value R v b)))
  /\ (is_array v = false \/ 1 < size R v (b_rm R b) -> exists b', get_array R v b = (Done R b', Some (value R v b)))%nat.
Proof.
  intros R L f s os b v H Hn. destruct (reached_ok R L f s os b H) as [[HI Hc] _].
  destruct (get_var_done R L v b (proj1 HI) (invx_ptr_ok R _ _ _ HI) Hn) as (b' & E & D & X). split.
  - intros Ha. exists b'. unfold get_vector. rewrite (ready_done R v b (proj1 HI)). cbn [rbind]. rewrite E. rewrite Ha in X. by rewrite X.
  - intros Hs. exists b'. unfold get_array. rewrite (ready_done R v b (proj1 HI)). cbn [rbind]. rewrite E, D.
    pose proof (l_len R L v (b_rm R b)) as Hl. fold (value R v b) in Hl.
    destruct (is_array v) eqn:Ha.
    + destruct Hs as [Hs|Hs]; [done|]. rewrite X, Hl. destruct (size R v (b_rm R b)) as [|[|m]] eqn:Es; [lia..|].
      rewrite Nat.ltb_irrefl. rewrite <- Hl at 1. by rewrite firstn_all.
    + assert (size R v (b_rm R b) = 1%nat) as -> by (by destruct v). by rewrite X.
Qed.
Print Assumptions array_read.

(** Writing: a vector of the size of the array reaches the module, one of another size does nothing;
    from the caller's memory, for scalars and for arrays of more than one element. *)
Theorem array_written : forall R, lawful R -> forall f s os b v l, reached R f s os b -> settable v ->
  (is_array v = true -> length l = size R v (b_rm R b) ->
     exists b', set_vector R v l b = Done R b' /\ b_rm R b' = r_assign R v l (b_rm R b))
  /\ (length l <> size R v (b_rm R b) -> set_vector R v l b = Done R b)
  /\ (forall x, is_array v = false -> admissible v [x] ->
     exists b', set_number R v x b = Done R b' /\ b_rm R b' = r_assign R v [x] (b_rm R b))
  /\ ((is_array v = false \/ 1 < size R v (b_rm R b))%nat -> length l = size R v (b_rm R b) -> admissible v l ->
     exists b', set_pointer R v l b = Done R b' /\ b_rm R b' = r_assign R v l (b_rm R b)).
Proof.
  intros R L f s os b v l H Hset. destruct (reached_ok R L f s os b H) as [O _]. pose proof O as [HI Hc].
  pose proof (proj1 (proj2 (proj1 HI v))) as Hd.
  unfold set_vector, set_number, set_pointer. rewrite (ready_done R v b (proj1 HI)). cbn [rbind]. rewrite Hd.
  split_and!.
  - intros Ha Hl. rewrite Hl, Nat.eqb_refl.
    destruct (set_given R L v l (ex_vec l) b O Hset) as (b' & E & _ & Hr); [|eauto].
    split_and!; [done|by intros ->|by rewrite Ha].
  - intros Hl. destruct (Nat.eqb_spec (size R v (b_rm R b)) (length l)); [congruence|done].
  - intros x Ha Hx. destruct (set_given R L v [x] (ex_num x) b O Hset) as (b' & E & _ & Hr); [|eauto].
    split_and!; [by destruct v|done|by rewrite Ha].
  - intros Hs Hl Hx. cbv zeta. rewrite Hl, Nat.ltb_irrefl. destruct (is_array v) eqn:Ha.
    + destruct Hs as [Hs|Hs]; [done|]. destruct (size R v (b_rm R b)) as [|[|m]] eqn:Es; [lia..|].
      destruct (set_given R L v l (ex_vec l) b O Hset) as (b' & E & _ & Hr); [split_and!; [cbn; congruence|done|by rewrite Ha]|].
      exists b'. rewrite <- Hl, firstn_all. done.
    + assert (Es : size R v (b_rm R b) = 1%nat) by (by destruct v). rewrite Es in *. destruct l as [|x [|]]; [done| |done].
      destruct (set_given R L v [x] (ex_num x) b O Hset) as (b' & E & _ & Hr); [split_and!; [by cbn|done|by rewrite Ha]|]. eauto.
Qed.
Print Assumptions array_written.

Example array_read_example :
  plain (match final (prog [OSetPointer VPorosity [n 7; n 8]]) with Some b => (get_array demo VPorosity b).2 | None => None end) = Some [7; 8]%Q.
Proof. vm_compute. reflexivity. Qed.

(** A grid of one cell: reading its porosity into the caller's memory gives 0 whatever it is; and
    setting it from there sets what the last call left in VarExchange, here a temperature. *)
Definition one : demo_state := demo_start 1 1.
Definition prog1 (os : list op) : res demo := rbind demo (find_components demo id (bmi_new demo one)) (run demo os).
Theorem array_one_refuted :
  plain (match final (prog1 [OSetVector VPorosity [n 7]]) with Some b => (get_array demo VPorosity b).2 | None => None end) = Some [0]%Q
  /\ true_value VPorosity (prog1 [OSetVector VPorosity [n 7]]) = Some [7]%Q
  /\ true_value VPorosity (prog1 [OSetVector VTemperature [n 25]; OSetPointer VPorosity [n 7]]) = Some [25]%Q.
Proof. split_and!; vm_compute; reflexivity. Qed.
Print Assumptions array_one_refuted.

(** Before FindComponents, the vector of concentrations is empty: after GetValuePtr("Porosity"), a
    SetPorosity writes the concentrations past its end. *)
Theorem array_before_find_refuted :
  let r := rbind demo (Done demo (bmi_new demo two)) (fun b => step demo (OGetPtr VPorosity) b) in
  outcome_of r = Some true /\ outcome_of (rbind demo r (step demo (ORmSet VPorosity [n 1; n 1]))) = None.
Proof. split; vm_compute; reflexivity. Qed.
Print Assumptions array_before_find_refuted.
