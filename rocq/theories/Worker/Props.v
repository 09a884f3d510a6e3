(** Properties of the loop of a worker *)
From Coq Require Import ZArith Lia.
From stdpp Require Import prelude.
From Verif.Mpi Require Import Methods.
From Verif.Worker Require Import Model Spec Proofs.
Local Open Scope Z_scope.

Section props.
  Context {U : Type}.
  Context (own : collective_method -> worker U -> ran U Z) (f_code : nat -> Z -> worker U -> ran U (Z * Z))
          (c_code : nat -> Z -> nat -> worker U -> ran U Z).
  Notation mpi_worker := (mpi_worker own f_code c_code).

  (** C105: the numbers up to the first 23 are handled one after another, each by exactly one call of the module's method with this
      place in the enumeration, or, outside of it, by one call of each registered function with that number and the
      cookie. *)
  Theorem worker_dispatches ns w : steady own f_code c_code ->
    o_events (mpi_worker ns w) = mjoin (calls (w_f w) (w_c w) (w_cookie w) <$> before_break ns) /\
    registered (o_worker (mpi_worker ns w)) = registered w.
  Proof. apply loop_steady. Qed.

  (** The same for registrations made before the loop, in any order: the last of each kind counts. *)
  Theorem worker_registered ns u rs : steady own f_code c_code ->
    o_events (mpi_worker ns (foldl register (new_worker u) rs)) =
      mjoin (calls (last_f rs) (last_c rs) (last_cookie rs) <$> before_break ns) /\
    w_rest (foldl register (new_worker u) rs) = u /\ w_reports (foldl register (new_worker u) rs) = 0%nat.
  Proof.
    intros Hs. destruct (registered_last u rs) as (H & Hu & Hr). split; [|done].
    rewrite (proj1 (loop_steady own f_code c_code ns _ Hs)).
    unfold registered in H. inversion H as [[E1 E2 E3]]. done.
  Qed.

  (** Any program on the root that ends with MpiWorkerBreak: each worker makes, in the same order, just the calls that the program made on
      the root, and returns. *)
  Theorem worker_follows acts w : steady own f_code c_code -> Forall proper acts ->
    let o := mpi_worker (map announced (acts ++ [RootMethod MpiWorkerBreak])) w in
    o_events o = mjoin (answers (w_f w) (w_c w) (w_cookie w) <$> acts) /\ o_status o = Returned 0 /\ o_left o = [].
  Proof.
    intros Hs Hp. cbv zeta. rewrite map_app. cbn [map announced announces].
    rewrite (proj1 (loop_steady own f_code c_code _ w Hs)), before_announced by done.
    destruct (loop_ends own f_code c_code (map announced acts ++ [23]) w) as (H1 & H2 & _). rewrite H1, H2. split_and!.
    - clear H1 H2. induction acts as [|a acts IH]; [done|]. apply Forall_cons in Hp as [Ha Hp].
      cbn. rewrite (proj1 (calls_announced _ _ _ _ Ha)). f_equal. by apply IH.
    - rewrite decide_True; [done|]. apply elem_of_app. right. by left.
    - clear H1 H2. induction acts as [|a acts IH]; [done|]. apply Forall_cons in Hp as [Ha Hp]. cbn.
      rewrite decide_False by by apply (calls_announced None None 0). by apply IH.
  Qed.

  (** Whatever the functions and methods do, fail, throw, or register others: a number of the module calls its method only; another
      number calls no method, and each kind of function at most once, the Fortran one that is registered always, and first. *)
  Theorem worker_separates n w : n <> 23 ->
    if decide (users n)
    then exists n' c k,
      o_events (mpi_worker [n] w) `sublist_of` (match w_f w with Some f => [Fortran f n] | None => [] end ++ [CFunction c n' k]) /\
      (forall f, w_f w = Some f -> head (o_events (mpi_worker [n] w)) = Some (Fortran f n))
    else exists m, all_methods !! Z.to_nat n = Some m /\ o_events (mpi_worker [n] w) = [Module m].
  Proof.
    intros Hn. destruct (loop_one own f_code c_code n w Hn) as [-> _].
    pose proof (turn_calls own f_code c_code n w) as H. destruct (decide (users n)) as [Hu|Hu].
    - apply performs_users in Hu. by rewrite Hu in H.
    - rewrite <- (performs_own n Hu). destruct (performs n) as [m|] eqn:Ep; [by exists m|].
      by apply performs_users in Ep.
  Qed.

  (** Whatever they do, the worker takes all numbers up to the first 23 and none after it; MpiWorker returns then and only then, with
      IRM_OK, and goes on from the state that the turns before left. *)
  Theorem worker_goes_on ns w :
    o_status (mpi_worker ns w) = (if decide (23 ∈ ns) then Returned 0 else Waiting) /\
    o_left (mpi_worker ns w) = after_break ns /\
    (forall ns', 23 ∉ ns ->
      mpi_worker (ns ++ ns') w =
        let o := mpi_worker ns w in let o' := mpi_worker ns' (o_worker o) in
        Outcome (o_events o ++ o_events o') (o_worker o') (o_status o') (o_left o')).
  Proof.
    destruct (loop_ends own f_code c_code ns w) as (H1 & H2 & _). split_and!; [done|done|].
    intros ns' Hn. by apply loop_app.
  Qed.

  (** A task that fails is reported once, others are not. *)
  Theorem worker_reports n w : steady own f_code c_code -> quiet own f_code c_code -> n <> 23 ->
    (fails own f_code c_code n w -> w_reports (o_worker (mpi_worker [n] w)) = S (w_reports w)) /\
    (~ fails own f_code c_code n w -> w_reports (o_worker (mpi_worker [n] w)) = w_reports w).
  Proof.
    intros Hs Hq Hn. destruct (loop_one own f_code c_code n w Hn) as [_ ->]. by apply turn_reports.
  Qed.
End props.

(** A program: the methods give 0; the Fortran functions give their number; the C functions the cookie *)
Definition plain_own (m : collective_method) (w : worker nat) : ran nat Z := Back 0 w.
Definition plain_f (f : nat) (n : Z) (w : worker nat) : ran nat (Z * Z) := Back (Z.of_nat f, n) w.
Definition plain_c (c : nat) (n : Z) (k : nat) (w : worker nat) : ran nat Z := Back (Z.of_nat k) w.
Definition plain := mpi_worker plain_own plain_f plain_c.

Example plain_steady : steady plain_own plain_f plain_c /\ quiet plain_own plain_f plain_c.
Proof.
  unfold steady, quiet. split_and!; try done.
  - intros f n w. by exists (Z.of_nat f), w.
  - intros c n k w. by exists (Z.of_nat k), w.
  - intros m w. by exists 0, w.
  - intros f n w r w' H. assert (w' = w) as -> by (unfold plain_f in H; congruence). done.
  - intros c n k w r w' H. assert (w' = w) as -> by (unfold plain_c in H; congruence). done.
Qed.
Example worker_dispatches_example :
  plain [1000; 24; -1; 23; 1001] (Worker (Some 0%nat) (Some 3%nat) 5 0 7%nat) =
  Outcome [Fortran 0 1000; CFunction 3 1000 5; Module RunCells; Fortran 0 (-1); CFunction 3 (-1) 5]
    (Worker (Some 0%nat) (Some 3%nat) 5 2 7%nat) (Returned 0) [1001].
Proof. reflexivity. Qed.
Example worker_registered_example :
  let rs := [RegisterCookie 4; RegisterC (Some 1%nat); RegisterFortran (Some 0%nat); RegisterC (Some 3%nat)] in
  (last_f rs, last_c rs, last_cookie rs) = (Some 0%nat, Some 3%nat, 4%nat) /\
  o_events (plain [1000] (foldl register (new_worker 7%nat) rs)) = [Fortran 0 1000; CFunction 3 1000 4].
Proof. by split. Qed.
Example worker_unregistered_example :
  plain [1000; 24] (new_worker 7%nat) = Outcome [Module RunCells] (new_worker 7%nat) Waiting [].
Proof. reflexivity. Qed.
Example worker_reports_example :
  fails plain_own plain_f plain_c 1000 (Worker (Some 1%nat) None 0 0 7%nat) /\
  ~ fails plain_own plain_f plain_c 1000 (Worker (Some 0%nat) None 0 0 7%nat).
Proof.
  unfold fails. rewrite !(decide_True (P := users 1000)) by (unfold users; lia). split.
  - left. exists 1%nat, 1, (Worker (Some 1%nat) None 0 0 7%nat). split_and!; [done|done|lia].
  - intros [(f & ret & w' & H1 & H2 & H3)|(c & ret & w1 & w' & H1 & _)]; [|done].
    cbn in H1. assert (f = 0%nat) as -> by congruence. unfold plain_f in H2. by inversion H2.
Qed.

Example worker_follows_example :
  Forall proper [RootTask 1000; RootMethod SetTime; RootMethod RunCells] /\
  map announced [RootTask 1000; RootMethod SetTime; RootMethod RunCells] = [1000; 46; 24].
Proof. split; [|reflexivity]. apply Forall_cons; split; [unfold proper, users; lia|]. by repeat (apply Forall_cons; split; [done|]). Qed.

(** Refuted: workers make the same calls also for GetViscosity. *)
Theorem worker_viscosity_refuted :
  o_events (plain (map announced [RootMethod GetViscosity]) (new_worker 7%nat)) = [Module GetSolutionVolume].
Proof. reflexivity. Qed.

(** Refuted: MpiWorker tells that a task failed. The Fortran function fails for each number, the worker returns IRM_OK. *)
Theorem worker_failure_refuted :
  exists w : worker nat, w_reports w = 0%nat /\
    w_reports (o_worker (plain [1000; 1001; 23] w)) = 2%nat /\
    o_status (plain [1000; 1001; 23] w) = Returned 0.
Proof. exists (Worker (Some 1%nat) None 0 0 7%nat). by split_and!. Qed.

(** Refuted: every number that a program chooses reaches its function. Those from 0 to 60 call a method of the module, or end the loop,
    for all programs and registrations. *)
Theorem worker_number_refuted {U} own f_code c_code n (w : worker U) : 0 <= n <= 60 ->
  forall e, e ∈ o_events (mpi_worker own f_code c_code [n] w) -> exists m, e = Module m.
Proof.
  intros Hn e He. destruct (decide (n = 23)) as [->|H23].
  - cbn in He. by apply elem_of_nil in He.
  - pose proof (worker_separates own f_code c_code n w H23) as H.
    rewrite decide_False in H by (unfold users; lia). destruct H as (m & _ & H). rewrite H in He.
    apply elem_of_list_singleton in He. by exists m.
Qed.

(** Refuted: the C function gets the number that was broadcast, or is called at all. It gets what the Fortran function left, and
    is not called if that throws; the throw is not reported. *)
Definition adding_f (f : nat) (n : Z) (w : worker nat) : ran nat (Z * Z) :=
  if decide (n = 1000) then Back (0, n + 1) w else Thrown w.
Theorem worker_changed_refuted :
  exists w : worker nat, w_c w = Some 3%nat /\
    o_events (mpi_worker plain_own adding_f plain_c [1000] w) = [Fortran 0 1000; CFunction 3 1001 0] /\
    o_events (mpi_worker plain_own adding_f plain_c [1002] w) = [Fortran 0 1002] /\
    w_reports (o_worker (mpi_worker plain_own adding_f plain_c [1002] w)) = w_reports w.
Proof. exists (Worker (Some 0%nat) (Some 3%nat) 0 0 7%nat). by split_and!. Qed.

Print Assumptions worker_dispatches.
Print Assumptions worker_registered.
Print Assumptions worker_separates.
Print Assumptions worker_goes_on.
Print Assumptions worker_reports.
Print Assumptions worker_follows.
Print Assumptions worker_viscosity_refuted.
Print Assumptions worker_failure_refuted.
Print Assumptions worker_number_refuted.
Print Assumptions worker_changed_refuted.
