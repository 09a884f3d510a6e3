(** Error handler modes and the end of RunCells *)
From Coq Require Import ZArith String Lia.
From stdpp Require Import prelude strings pretty.
From Verif.Base Require Import Result.
From Verif.Partition Require Import Spec EndCellsProofs.
From Verif.Init Require Import Model.
From Verif.Settings Require Import Model Props.
From Verif.Print Require Import Model Spec Proofs Props.
From Verif.Modes Require Import Model Spec Proofs.
Local Open Scope Z_scope.

(** * C108 *)

(** After any requests the mode is that of the last one if the build offers it, and otherwise 0. A request never
    throws and never ends the process, whatever the mode was: it is answered with a code. In both builds. *)
Theorem modes_last {D} openmp (l : list Z) (s : settings D) : s_mode s = 0 ->
  let replies r := Forall2 (fun i a => (offered openmp i /\ a = Returned IRM_OK) \/
                                       (~ offered openmp i /\ a = Returned IRM_INVALIDARG)) l r in
  let q := ask (set_error_mode openmp) l s in
  mode_after openmp l (s_mode q.1) /\ replies q.2 /\
  (openmp = false -> mode_after openmp l (s_mode (ask set_mode_mpi l s).1) /\ replies (ask set_mode_mpi l s).2).
Proof.
  intros H0. cbv zeta. assert (Hs : offered openmp (s_mode s)) by (rewrite H0; left; lia).
  assert (Hm : forall m, match last l with None => m = s_mode s | Some i => (offered openmp i /\ m = i) \/ (~ offered openmp i /\ m = 0) end ->
    mode_after openmp l m) by (intros m; unfold mode_after; destruct (last l); [done|congruence]).
  destruct (ask_spec openmp _ (obeys_threads openmp) l s Hs) as (_ & B & C).
  split; [by apply Hm|]. split; [done|]. intros ->.
  destruct (ask_spec false _ obeys_mpi l s Hs) as (_ & B' & C'). split; [by apply Hm|done].
Qed.

Section RunCells.
Context {D : Type} (dry : D -> bool) (d0 : D) (back : list (list Z)) (mask : list Z) (sat : list D) (time : string)
  (run : Z -> bool * string * string).
Local Notation fails := (fails dry d0 back sat run).

(** Unless mode 3 was asked for last, in a build with OpenMP, a failed cell is reported by RunCells in the way of the
    last mode, whatever was asked for before, however the cells are distributed and in whatever order threads run;
    and without a failed cell RunCells returns 0. *)
Theorem modes_failed_cell openmp l uz pr count ss es trace k (s : settings D) :
  s_mode s = 0 -> valid_split count ss es -> (openmp = true -> last l <> Some 3) ->
  let m := s_mode (ask (set_error_mode openmp) l s).1 in
  turns (thread_acts dry d0 back mask sat time run uz m pr (zip ss es)) trace ->
  let q := run_cells dry d0 back mask sat time run m pr (zip ss es) trace k in
  ((exists i e, 0 <= i < count /\ fails i e) -> q.2 = ending m) /\
  ((forall i e, 0 <= i < count -> ~ fails i e) -> q.2 = Returned IRM_OK).
Proof.
  intros H0 V H3 m Ht q. destruct (modes_last openmp l s H0) as (Ha & _ & _). fold m in Ha.
  assert (Hm : m < 3).
  { unfold mode_after in Ha. destruct (last l) as [i|] eqn:E; [|lia].
    destruct Ha as [[[?|[-> ->]] ->]|[_ ->]]; [lia| |lia]. exfalso. by apply H3. }
  destruct (run_error_string_when dry d0 back mask sat time run uz m pr count ss es trace k V Ht) as [A B].
  unfold q, run_cells. cbn [snd]. split.
  - intros Hx. destruct (A Hm Hx) as (-> & _). apply failed_ending.
  - intros Hx. destruct (B (or_intror Hx)) as (-> & _). apply fine_ending.
Qed.

(** In the MPI build, always *)
Theorem modes_failed_cell_mpi l uz pr count ss es k (s : settings D) :
  s_mode s = 0 -> valid_split count ss es ->
  let m := s_mode (ask set_mode_mpi l s).1 in
  let q := run_cells_mpi dry d0 back mask sat time run uz m pr (zip ss es) k in
  ((exists i e, 0 <= i < count /\ fails i e) -> q.2 = ending m) /\
  ((forall i e, 0 <= i < count -> ~ fails i e) -> q.2 = Returned IRM_OK).
Proof.
  intros H0 V m q. destruct (modes_last false l s H0) as (_ & _ & Hl). destruct (Hl eq_refl) as [Ha _]. fold m in Ha.
  assert (Hm : m < 3).
  { unfold mode_after in Ha. destruct (last l) as [i|]; [|lia].
    destruct Ha as [[[?|[? _]] ->]|[_ ->]]; [lia|done|lia]. }
  destruct (turns_possible (thread_acts dry d0 back mask sat time run uz m pr (zip ss es))) as [trace Ht].
  destruct (run_error_string_when dry d0 back mask sat time run uz m pr count ss es trace k V Ht) as [A B].
  unfold q, run_cells_mpi. cbn [snd]. split.
  - intros Hx. destruct (A Hm Hx) as (_ & _ & -> & _). apply failed_ending.
  - intros Hx. destruct (B (or_intror Hx)) as (_ & _ & -> & _). apply fine_ending.
Qed.
End RunCells.

(** ** Cases *)
Definition all_fail (i : Z) : bool * string * string := (false, "out", "bad")%string.
Definition case_cells : list (list Z) := [[0]; [1]].
Definition is_dry (d : Z) : bool := bool_decide (d = 0).
Definition run_case (m : Z) : sink * reply :=
  run_cells is_dry 0 case_cells [0; 0] [1; 1] "60"%string all_fail m true [(0, 1)]
    (if decide (m < 3) then [ASay (error_line "bad")] else []) (Sink "" "" "").

Example modes_last_example :
  (ask (set_error_mode true) [1; 3; 2; 7] (Settings.Props.blank)).2 =
    [Returned IRM_OK; Returned IRM_OK; Returned IRM_OK; Returned IRM_INVALIDARG] /\
  s_mode (ask (set_error_mode true) [1; 3] Settings.Props.blank).1 = 3 /\
  s_mode (ask set_mode_mpi [1; 1; 2; 2] Settings.Props.blank).1 = 2 /\
  s_mode (ask set_mode_mpi [2; 3] Settings.Props.blank).1 = 0 /\ s_mode Settings.Props.blank = 0.
Proof. vm_compute. done. Qed.

Example modes_failed_example :
  valid_split 2 [0] [1] /\ fails is_dry 0 case_cells [1; 1] all_fail 0 "bad" /\
  (run_case 0).2 = Returned IRM_FAIL /\ (run_case 1).2 = Thrown /\ (run_case 2).2 = Exited IRM_FAIL.
Proof.
  split; [split; try done; intros [|t] a b; cbn; intros; simplify_eq; lia|].
  split; [split; [done|by exists "out"%string]|]. vm_compute. done.
Qed.

(** In mode 3 all cells can fail and RunCells returns 0, with an empty error string and nothing in the output, as the
    print mask is 0. *)
Theorem modes_silent_refuted :
  s_mode (ask (set_error_mode true) [3] Settings.Props.blank).1 = 3 /\
  turns (thread_acts is_dry 0 case_cells [0; 0] [1; 1] "60"%string all_fail false 3 true [(0, 1)]) [] /\
  (forall i, 0 <= i < 2 -> fails is_dry 0 case_cells [1; 1] all_fail i "bad") /\
  run_case 3 = (Sink "" "" "", Returned IRM_OK).
Proof.
  split; [done|]. split; [constructor; vm_compute; by repeat constructor|]. split.
  - intros i Hi. assert (i = 0 \/ i = 1) as [-> | ->] by lia; (split; [done|by exists "out"%string]).
  - vm_compute. done.
Qed.

(** A refused request does not leave the mode as it was: a program that had asked for the end of the process at the
    next error goes on after it. *)
Theorem modes_refused_refuted :
  exists i, (ask (set_error_mode false) [2; i] Settings.Props.blank).2 !! 1%nat = Some (Returned IRM_INVALIDARG) /\
    s_mode (ask (set_error_mode false) [2; i] Settings.Props.blank).1 = 0 /\
    s_mode (ask (set_error_mode false) [2] Settings.Props.blank).1 = 2 /\
    ending 2 = Exited IRM_FAIL /\ ending 0 = Returned IRM_FAIL.
Proof. exists 3. done. Qed.

Print Assumptions modes_last.
Print Assumptions modes_failed_cell.
Print Assumptions modes_failed_cell_mpi.
Print Assumptions modes_silent_refuted.
Print Assumptions modes_refused_refuted.
