From Coq Require Import ZArith String.
From stdpp Require Import prelude strings pretty.
From Verif.Partition Require Import Spec EndCellsProofs.
From Verif.Init Require Import Model.
From Verif.Print Require Import Model Spec Proofs.
Open Scope Z_scope.
Open Scope list_scope.

Section Props.
Context {D : Type} (dry : D -> bool) (d0 : D) (back : list (list Z)) (mask : list Z) (sat : list D) (time : string)
  (run : Z -> bool * string * string).
Local Notation entry := (entry dry d0 back mask sat time run).
Local Notation fails := (fails dry d0 back sat run).
Local Notation loop mode pr r := (cell_loop dry back time run mode pr (mask_root back mask) (sat_root d0 back sat) (range r)).

Lemma in_ranges count ss es r i : valid_split count ss es -> r ∈ zip ss es -> i ∈ range r -> 0 <= i < count.
Proof.
  intros V Hr Hi. assert (H : i ∈ concat (map range (zip ss es))).
  { apply elem_of_list_In, in_concat. exists (range r). split; [|by apply elem_of_list_In].
    apply in_map. by apply elem_of_list_In. }
  rewrite (ranges_all _ _ _ V) in H. apply elem_of_seqZ in H. lia.
Qed.
Lemma whole_workers mode pr count ss es : valid_split count ss es ->
  3 <= mode \/ (forall i e, 0 <= i < count -> ~ fails i e) ->
  (pr = true -> texts (map fst (map (fun r => loop mode pr r) (zip ss es))) = texts (map entry (seqZ 0 count))) /\
  errs (map (fun r => loop mode pr r) (zip ss es)) = [] /\
  (forall r, r ∈ zip ss es -> (loop mode pr r).2 = None).
Proof.
  intros V H. rewrite <- (ranges_all _ _ _ V).
  assert (Hr : forall r, r ∈ zip ss es -> (pr = true -> (loop mode pr r).1 = texts (map entry (range r))) /\ (loop mode pr r).2 = None).
  { intros r Hr. apply loop_whole. destruct H as [H|H]; [by left|right]. intros i e Hi. apply H. by eapply in_ranges. }
  clear H V. induction (zip ss es) as [|r rs IH].
  { split; [done|]. split; [done|]. by intros ? ?%elem_of_nil. }
  destruct IH as (I1 & I2 & I3); [intros r0 H0; apply Hr; by right|].
  destruct (Hr r) as [R1 R2]; [by left|]. split; [|split].
  - intros ->. cbn [map texts concat]. rewrite map_app, texts_app, I1, R1; done.
  - unfold errs in *. cbn [map concat]. rewrite R2. exact I2.
  - intros r0 [->|H0]%elem_of_cons; [done|]. by apply I3.
Qed.

(** * C95 The output of RunCells *)

(** If no cell fails, or failures are to be passed over (mode 3), the output file gets the entries of the cells
    to be printed, in the order of the chemistry cells and nothing else: whatever the number of threads, the
    distribution of cells and the order in which threads take their turns. *)
Theorem print_threads uz mode pr count ss es trace k : valid_split count ss es ->
  3 <= mode \/ (forall i e, 0 <= i < count -> ~ fails i e) ->
  turns (thread_acts dry d0 back mask sat time run uz mode pr (zip ss es)) trace ->
  run_threads dry d0 back mask sat time run mode pr (zip ss es) trace k =
    (Sink "" (k_out k +:+ if pr then texts (map entry (seqZ 0 count)) else "") (k_log k), 0).
Proof.
  intros V H Ht. destruct (whole_workers mode pr count ss es V H) as (W1 & W2 & W3).
  assert (Hs : said trace = []).
  { apply Permutation_nil. rewrite (turns_said _ _ Ht). unfold thread_acts.
    clear Ht W1 W2. induction (zip ss es) as [|r rs IH]; [done|]. cbn [map concat]. rewrite worker_said, W3 by by left.
    cbn [app]. apply IH. intros r0 H0. apply W3. by right. }
  destruct (acts_files trace (clear_err k)) as [A1 A2]. rewrite Hs in A1, A2. cbn [texts clear_err k_out k_log] in A1, A2.
  rewrite sapp_nil in A1, A2.
  unfold run_threads, workers_threads. cbv zeta. set (k1 := fold_left _ trace (clear_err k)) in *. clearbody k1. rewrite any_failed_errs, W2. rewrite errors_threads_say, W2.
  unfold finish, clear_err, say. cbv zeta. cbn [k_out k_log map texts]. rewrite !sapp_nil. f_equal. f_equal.
  - destruct pr.
    + rewrite put_all. cbn [put k_out]. rewrite A1. by rewrite W1.
    + by rewrite A1, sapp_nil.
  - destruct pr; [rewrite put_all; cbn [put k_log]|]; done.
Qed.
(** The same file is written by the MPI build. *)
Theorem print_mpi uz mode pr count ss es k : valid_split count ss es ->
  3 <= mode \/ (forall i e, 0 <= i < count -> ~ fails i e) ->
  run_mpi dry d0 back mask sat time run uz mode pr (zip ss es) k =
    (Sink "" (k_out k +:+ if pr then texts (map entry (seqZ 0 count)) else "") (k_log k), 0).
Proof.
  intros V H. destruct (whole_workers mode pr count ss es V H) as (W1 & W2 & W3).
  unfold run_mpi. cbv zeta.
  replace (map (worker_mpi dry d0 back mask sat time run mode pr) (zip ss es)) with (map (fun r => loop mode pr r) (zip ss es))
    by (apply map_ext; intros r; by rewrite worker_mpi_same).
  assert (Hs : said (match zip ss es, map (fun r => loop mode pr r) (zip ss es) with r :: _, w :: _ => worker_acts uz (range r) w.2 | _, _ => [] end) = []).
  { destruct (zip ss es) as [|r rs]; [done|]. cbn [map]. rewrite worker_said, W3; [done|by left]. }
  set (acts := match zip ss es, map _ _ with r :: _, w :: _ => _ | _, _ => [] end) in *. clearbody acts.
  destruct (acts_files acts (clear_err k)) as [A1 A2]. rewrite Hs in A1, A2. cbn [texts clear_err k_out k_log] in A1, A2.
  rewrite sapp_nil in A1, A2. set (k1 := fold_left _ acts (clear_err k)) in *. clearbody k1. rewrite any_failed_errs, W2.
  assert (He : forall n k0, errors_mpi n (map (fun r => loop mode pr r) (zip ss es)) k0 = k0).
  { clear W1 W2. induction (zip ss es) as [|r rs IH]; intros n k0; [done|]. cbn [map].
    pose proof (W3 r ltac:(by left)) as Hr. destruct (loop mode pr r) as [t f]. cbn [snd] in Hr. subst f. cbn [errors_mpi].
    apply IH. intros r0 H0. apply W3. by right. }
  rewrite He. unfold finish, clear_err. cbv zeta. f_equal. f_equal.
  - destruct pr.
    + rewrite put_all. cbn [put k_out]. rewrite A1. by rewrite W1.
    + by rewrite A1, sapp_nil.
  - destruct pr; [rewrite put_all; cbn [put k_log]|]; done.
Qed.

Lemma failed_workers uz mode count ss es : valid_split count ss es -> mode < 3 ->
  (exists i e, 0 <= i < count /\ fails i e) ->
  exists ws, Forall2 (fun r w => ended dry d0 back sat run (range r) w.1 w.2) (zip ss es) ws /\
    texts (map fst (map (fun r => loop mode true r) (zip ss es))) = texts (map (left_text dry d0 back mask sat time run) ws) /\
    (forall pr, map (fun r => (loop mode pr r).2) (zip ss es) = map (fun w => snd <$> w.2) ws) /\
    (forall pr, concat (map said (thread_acts dry d0 back mask sat time run uz mode pr (zip ss es))) = map error_line (error_texts ws)) /\
    error_texts ws <> [].
Proof.
  intros V Hm (i0 & e0 & Hi0 & Hf0).
  assert (Hws : exists ws, Forall2 (fun r w => ended dry d0 back sat run (range r) w.1 w.2) (zip ss es) ws /\
    texts (map fst (map (fun r => loop mode true r) (zip ss es))) = texts (map (left_text dry d0 back mask sat time run) ws) /\
    (forall pr, map (fun r => (loop mode pr r).2) (zip ss es) = map (fun w => snd <$> w.2) ws) /\
    (forall pr, concat (map said (thread_acts dry d0 back mask sat time run uz mode pr (zip ss es))) = map error_line (error_texts ws))).
  { clear V. unfold thread_acts. induction (zip ss es) as [|r rs IH]; [by exists []|].
    destruct IH as (ws & I1 & I2 & I3 & I4).
    destruct (loop_spec dry d0 back mask sat time run mode (range r) Hm) as (ds & failed & E1 & E2 & E3).
    exists ((ds, failed) :: ws). split; [by constructor|]. split; [|split].
    - cbn [map texts]. by rewrite E2, I2.
    - intros pr. cbn [map snd]. by rewrite E3, I3.
    - intros pr. unfold error_texts in *. cbn [map concat snd]. rewrite worker_said, E3, I4. by destruct failed as [[]|]. }
  destruct Hws as (ws & W1 & W2 & W3 & W4). exists ws. split; [done|]. split; [done|]. split; [done|]. split; [done|].
  intros Hn. assert (Hi : i0 ∈ concat (map range (zip ss es))).
  { rewrite (ranges_all _ _ _ V). apply elem_of_seqZ. lia. }
  clear W2 W3 W4 V. induction W1 as [|r [ds failed] rs ws [H1 H2] H3 IH]; [by apply elem_of_nil in Hi|].
  unfold error_texts in Hn. cbn [map concat snd] in Hn. cbn [fst snd] in H1, H2.
  destruct failed as [[j e]|]; [done|].
  cbn [map concat] in Hi. apply elem_of_app in Hi as [Hi|Hi]; [|by apply IH].
  rewrite H2 in Hi. by apply (H1 i0 e0).
Qed.
Lemma errs_of (l : list (string * option string)) ws : map snd l = map (fun w : list Z * option (Z * string) => snd <$> w.2) ws ->
  errs l = error_texts ws.
Proof.
  revert ws. induction l as [|[t f] l IH]; intros [|[d g] ws] H; try done. cbn [map snd] in H. injection H as -> H.
  unfold errs, error_texts in *. cbn [map concat snd]. rewrite (IH ws H). by destruct g as [[]|].
Qed.

(** If a cell fails in modes 0 to 2, every worker gets as far as its first failed cell. The file gets the errors in
    the order in which they happen, what the workers have printed, the errors again in the order of workers, and
    the report of the method; the log the same without what was printed. *)
Theorem print_failed uz mode pr count ss es trace k : valid_split count ss es -> mode < 3 ->
  (exists i e, 0 <= i < count /\ fails i e) ->
  turns (thread_acts dry d0 back mask sat time run uz mode pr (zip ss es)) trace ->
  exists ws first, Forall2 (fun r w => ended dry d0 back sat run (range r) w.1 w.2) (zip ss es) ws /\
    first ≡ₚ error_texts ws /\ error_texts ws <> [] /\
    run_threads dry d0 back mask sat time run mode pr (zip ss es) trace k =
      (Sink failed_report
        (k_out k +:+ texts (map error_line first) +:+
         (if pr then texts (map (left_text dry d0 back mask sat time run) ws) else "") +:+
         texts (map plain_line (error_texts ws)) +:+ failed_report)
        (k_log k +:+ texts (map error_line first) +:+ texts (map plain_line (error_texts ws)) +:+ failed_report), -7).
Proof.
  intros V Hm Hex Ht. destruct (failed_workers uz mode count ss es V Hm Hex) as (ws & W1 & W2 & W3 & W4 & Hne).
  specialize (W4 pr).
  pose proof (turns_said _ _ Ht) as Hp. rewrite W4 in Hp.
  assert (Hfirst : exists first, first ≡ₚ error_texts ws /\ said trace = map error_line first).
  { apply Permutation_map_inv in Hp as (first & E & P). exists first. split; [by symmetry|done]. }
  destruct Hfirst as (first & F1 & F2). exists ws, first. split; [done|]. split; [done|]. split; [done|].
  destruct (acts_files trace (clear_err k)) as [A1 A2]. rewrite F2 in A1, A2. cbn [clear_err k_out k_log] in A1, A2.
  unfold run_threads, workers_threads. cbv zeta. set (k1 := fold_left _ trace (clear_err k)) in *. clearbody k1.
  assert (He : errs (map (fun r => loop mode pr r) (zip ss es)) = error_texts ws) by (apply errs_of; by rewrite map_map).
  rewrite any_failed_errs, He. rewrite errors_threads_say, He.
  assert ((match error_texts ws with [] => false | _ => true end) = true) as -> by by destruct (error_texts ws).
  unfold finish. cbv zeta. rewrite failed_report_eq. cbn [say k_out k_log]. f_equal. f_equal.
  - destruct pr.
    + rewrite put_all. cbn [put k_out]. rewrite A1, W2. by rewrite !sapp_assoc.
    + rewrite A1. by rewrite !sapp_assoc.
  - destruct pr; [rewrite put_all; cbn [put k_log]|]; rewrite A2; by rewrite !sapp_assoc.
Qed.

(** In the MPI build the output of the root has its own error if it failed, what the processes have printed, and
    the errors process by process. *)
Theorem print_failed_mpi uz mode pr count ss es k : valid_split count ss es -> mode < 3 ->
  (exists i e, 0 <= i < count /\ fails i e) ->
  exists ws, Forall2 (fun r w => ended dry d0 back sat run (range r) w.1 w.2) (zip ss es) ws /\
    run_mpi dry d0 back mask sat time run uz mode pr (zip ss es) k =
      (Sink failed_report
        (k_out k +:+ texts (map error_line (error_texts (take 1 ws))) +:+
         (if pr then texts (map (left_text dry d0 back mask sat time run) ws) else "") +:+
         process_reports 0 ws +:+ failed_report)
        (k_log k +:+ texts (map error_line (error_texts (take 1 ws))) +:+ process_reports 0 ws +:+ failed_report), -7).
Proof.
  intros V Hm Hex. destruct (failed_workers uz mode count ss es V Hm Hex) as (ws & W1 & W2 & W3 & _ & Hne).
  specialize (W3 pr). exists ws. split; [done|]. unfold run_mpi. cbv zeta.
  replace (map (worker_mpi dry d0 back mask sat time run mode pr) (zip ss es)) with (map (fun r => loop mode pr r) (zip ss es))
    by (apply map_ext; intros r; by rewrite worker_mpi_same).
  assert (He : errs (map (fun r => loop mode pr r) (zip ss es)) = error_texts ws) by (apply errs_of; by rewrite map_map).
  assert (Hs : said (match zip ss es, map (fun r => loop mode pr r) (zip ss es) with r :: _, w :: _ => worker_acts uz (range r) w.2 | _, _ => [] end)
    = map error_line (error_texts (take 1 ws))).
  { clear W1 W2 He. destruct (zip ss es) as [|r rs], ws as [|[d f] ws]; try done. cbn [map] in *. injection W3 as E _.
    rewrite worker_said, E. unfold error_texts. cbn. by destruct f as [[]|]. }
  set (acts := match zip ss es, map _ _ with r :: _, w :: _ => _ | _, _ => [] end) in *. clearbody acts.
  destruct (acts_files acts (clear_err k)) as [A1 A2]. rewrite Hs in A1, A2. cbn [clear_err k_out k_log] in A1, A2.
  set (k1 := fold_left _ acts (clear_err k)) in *. clearbody k1. rewrite any_failed_errs, He.
  assert ((match error_texts ws with [] => false | _ => true end) = true) as -> by by destruct (error_texts ws).
  assert (Hr : forall k0, errors_mpi 0 (map (fun r => loop mode pr r) (zip ss es)) k0 = say (process_reports 0 ws) k0).
  { clear -W3. generalize 0%nat as n. revert ws W3. induction (zip ss es) as [|r rs IH]; intros [|[d f] ws] W3 n k0; try done.
    - destruct k0. unfold say. cbn. by rewrite !sapp_nil.
    - cbn [map snd] in W3. injection W3 as E W3. cbn [map]. destruct (loop mode pr r) as [t g]. cbn [snd] in E. subst g.
      destruct f as [[i e]|]; cbn [fmap option_fmap option_map snd errors_mpi process_reports]; [|by apply IH].
      rewrite (IH ws W3). unfold say, process_head, error_line, plain_line, lines. cbn [k_err k_out k_log map texts].
      f_equal; destruct (decide (n = 0%nat)); rewrite !sapp_assoc; reflexivity. }
  rewrite Hr. unfold finish. cbv zeta. rewrite failed_report_eq. cbn [say k_out k_log]. f_equal. f_equal.
  - destruct pr.
    + rewrite put_all. cbn [put k_out]. rewrite A1, W2. by rewrite !sapp_assoc.
    + rewrite A1. by rewrite !sapp_assoc.
  - destruct pr; [rewrite put_all; cbn [put k_log]|]; rewrite A2; by rewrite !sapp_assoc.
Qed.

(** * C96 The error string after RunCells *)

(** Whatever fails, whatever the distribution and the order of turns: the error string is empty or has the two lines
    of the report of the method, in both builds; no text of PHREEQC is ever in it. *)
Theorem run_error_string uz mode pr rs trace k :
  let q := run_threads dry d0 back mask sat time run mode pr rs trace k in
  let m := run_mpi dry d0 back mask sat time run uz mode pr rs k in
  ((q.2 = 0 /\ k_err q.1 = ""%string) \/ (q.2 = -7 /\ k_err q.1 = failed_report)) /\
  ((m.2 = 0 /\ k_err m.1 = ""%string) \/ (m.2 = -7 /\ k_err m.1 = failed_report)).
Proof.
  cbv zeta. split.
  - unfold run_threads, finish. cbv zeta. destruct (any_failed _); [right|by left]. split; [done|].
    cbn [fst]. by rewrite failed_report_eq.
  - unfold run_mpi, finish. cbv zeta. destruct (any_failed _); [right|by left]. split; [done|].
    cbn [fst]. by rewrite failed_report_eq.
Qed.
(** Which of the two it is: the report is there exactly if a cell fails and failures are not passed over. *)
Theorem run_error_string_when uz mode pr count ss es trace k : valid_split count ss es ->
  turns (thread_acts dry d0 back mask sat time run uz mode pr (zip ss es)) trace ->
  let q := run_threads dry d0 back mask sat time run mode pr (zip ss es) trace k in
  let m := run_mpi dry d0 back mask sat time run uz mode pr (zip ss es) k in
  (mode < 3 -> (exists i e, 0 <= i < count /\ fails i e) ->
    q.2 = -7 /\ k_err q.1 = failed_report /\ m.2 = -7 /\ k_err m.1 = failed_report) /\
  (3 <= mode \/ (forall i e, 0 <= i < count -> ~ fails i e) ->
    q.2 = 0 /\ k_err q.1 = ""%string /\ m.2 = 0 /\ k_err m.1 = ""%string).
Proof.
  intros V Ht. cbv zeta. split.
  - intros Hm Hf. destruct (print_failed uz mode pr count ss es trace k V Hm Hf Ht) as (ws & first & _ & _ & _ & ->).
    destruct (print_failed_mpi uz mode pr count ss es k V Hm Hf) as (ws' & _ & ->). done.
  - intros H. by rewrite (print_threads uz mode pr count ss es trace k V H Ht), (print_mpi uz mode pr count ss es k V H).
Qed.
(** Some order of turns is always possible. *)
Theorem turns_possible ls : exists trace, turns ls trace.
Proof. apply turns_all. Qed.
End Props.
Print Assumptions print_threads.
Print Assumptions print_mpi.
Print Assumptions print_failed.
Print Assumptions print_failed_mpi.
Print Assumptions run_error_string.
Print Assumptions run_error_string_when.
Print Assumptions turns_possible.

(** Three chemistry cells on a grid of four cells, the first of two grid cells; the second is dry. *)
Definition case_back : list (list Z) := [[0; 3]; [1]; [2]].
Definition case_run (bad : Z -> bool) (i : Z) : bool * string * string :=
  (negb (bad i), ("out " +:+ pretty i +:+ nl)%string, ("bad " +:+ pretty i)%string).
Definition none (i : Z) : bool := false.
Definition case_threads (mask : list Z) (bad : Z -> bool) mode rs trace :=
  run_threads (fun d => bool_decide (d = 0)) 0 case_back mask [5; 0; 5; 5] "60" (case_run bad) mode true rs trace (Sink "" "" "").

Example print_case :
  valid_split 3 [0; 2] [1; 2] /\ (forall i e, 0 <= i < 3 -> ~ fails (fun d => bool_decide (d = 0)) 0 case_back [5; 0; 5; 5] (case_run none) i e) /\
  case_threads [1; 1; 0; 0] none 1 [(0, 1); (2, 2)] [] =
    (Sink "" (lines ["Time:                   60"; "Chemistry cell:         0"; "Grid cell(s) (0-based): 0 3 "; "out 0";
      "Time:                   60"; "Chemistry cell:         1"; "Grid cell(s) (0-based): 1 "; "Cell is dry."]%string) "", 0).
Proof.
  split; [split; try done; intros [|[|t]] a b; cbn; intros; simplify_eq; lia|]. split.
  - intros i e _ [_ [t H]]. done.
  - vm_compute. reflexivity.
Qed.

(** Both of two processes fail, the second in its first cell *)
Example print_failed_mpi_case :
  let bad i := bool_decide (i = 0) || bool_decide (i = 2) in
  (exists i e, 0 <= i < 3 /\ fails (fun d => bool_decide (d = 0)) 0 case_back [5; 0; 5; 5] (case_run bad) i e) /\
  run_mpi (fun d => bool_decide (d = 0)) 0 case_back [1; 1; 1; 1] [5; 0; 5; 5] "60" (case_run bad) false 1 true
    [(0, 1); (2, 2)] (Sink "" "" "") =
    (Sink failed_report
      (lines ["ERROR: bad 0"; "out 0"; "out 2"; "ERROR: Process 0"; ""; "bad 0"; "ERROR: Process 1"; ""] +:+ "bad 2" +:+ failed_report)
      (lines ["ERROR: bad 0"; "ERROR: Process 0"; ""; "bad 0"; "ERROR: Process 1"; ""] +:+ "bad 2" +:+ failed_report), -7)%string.
Proof.
  cbv zeta. split.
  - exists 2, "bad 2"%string. split; [done|]. unfold fails. split; [vm_compute; reflexivity|]. eexists. vm_compute. reflexivity.
  - vm_compute. reflexivity.
Qed.

(** After a failed cell the cells that follow on the same worker are not run nor printed: what is in the file depends
    on the number of threads. *)
Theorem print_failed_distribution_refuted :
  let bad i := bool_decide (i = 0) in let m := [1; 1; 1; 1] in
  let e := lines ["ERROR: bad 0"; "out 0"]%string in let f := (lines ["bad 0"]%string +:+ failed_report)%string in
  turns (thread_acts (fun d => bool_decide (d = 0)) 0 case_back m [5; 0; 5; 5] "60" (case_run bad) false 1 true [(0, 2)])
    [ASay (error_line "bad 0")] /\
  turns (thread_acts (fun d => bool_decide (d = 0)) 0 case_back m [5; 0; 5; 5] "60" (case_run bad) false 1 true [(0, 1); (2, 2)])
    [ASay (error_line "bad 0")] /\
  k_out (case_threads m bad 1 [(0, 2)] [ASay (error_line "bad 0")]).1 = (e +:+ f)%string /\
  k_out (case_threads m bad 1 [(0, 1); (2, 2)] [ASay (error_line "bad 0")]).1 =
    (e +:+ lines ["Time:                   60"; "Chemistry cell:         2"; "Grid cell(s) (0-based): 2 "; "out 2"]%string +:+ f)%string.
Proof.
  cbv zeta. split; [|split; [|split]].
  - apply (turns_step _ 0 _ []); [vm_compute; reflexivity|]. constructor. vm_compute. by repeat constructor.
  - apply (turns_step _ 0 _ []); [vm_compute; reflexivity|]. constructor. vm_compute. by repeat constructor.
  - vm_compute. reflexivity.
  - vm_compute. reflexivity.
Qed.
(** A failed cell that is not to be printed leaves a complaint in the file; with mode 3 its failure is
    reported nowhere; a cell of several grid cells is printed only if the mask of the first is set. *)
Theorem print_mask_refuted :
  let bad i := bool_decide (i = 0) in
  k_out (case_threads [0; 1; 1; 1] bad 1 [(0, 2)] [ASay (error_line "bad 0")]).1 =
    (lines ["ERROR: bad 0"; "GetOutputString: OutputStringOn not set."; "bad 0"]%string +:+ failed_report)%string /\
  case_threads [0; 0; 0; 0] bad 3 [(0, 2)] [] = (Sink "" "" "", 0) /\
  case_threads [0; 0; 0; 1] none 1 [(0, 2)] [] = (Sink "" "" "", 0).
Proof. cbv zeta. split; [|split]; vm_compute; reflexivity. Qed.
(** With partition_uz_solids, one thread empties the error string, outside any critical section, while another adds
    to it: both are next in the same state, and what has been added stays or is gone. *)
Theorem error_string_race_refuted :
  let bad i := bool_decide (i = 2) in
  let acts := thread_acts (fun d => bool_decide (d = 0)) 0 case_back [1; 1; 1; 1] [5; 0; 5; 5] "60" (case_run bad) true 1 true [(0, 1); (2, 2)] in
  let after trace := k_err (fold_left (fun k a => do_act a k) trace (Sink "" "" "")) in
  let t1 := [AClear; AClear; AClear; ASay (error_line "bad 2")] in let t2 := [AClear; AClear; ASay (error_line "bad 2"); AClear] in
  acts = [[AClear; AClear]; [AClear; ASay (error_line "bad 2")]] /\
  turns acts t1 /\ turns acts t2 /\ after t1 = lines ["ERROR: bad 2"]%string /\ after t2 = ""%string.
Proof.
  cbv zeta.
  assert (E : thread_acts (fun d => bool_decide (d = 0)) 0 case_back [1; 1; 1; 1] [5; 0; 5; 5] "60"
    (case_run (fun i => bool_decide (i = 2))) true 1 true [(0, 1); (2, 2)] = [[AClear; AClear]; [AClear; ASay (error_line "bad 2")]])
    by (vm_compute; reflexivity).
  rewrite E. split; [done|]. split; [|split; [|split; vm_compute; reflexivity]].
  - eapply (turns_step _ 0); [done|]. eapply (turns_step _ 0); [done|]. eapply (turns_step _ 1); [done|].
    eapply (turns_step _ 1); [done|]. constructor. by repeat constructor.
  - eapply (turns_step _ 0); [done|]. eapply (turns_step _ 1); [done|]. eapply (turns_step _ 1); [done|].
    eapply (turns_step _ 0); [done|]. constructor. by repeat constructor.
Qed.
Print Assumptions print_failed_distribution_refuted.
Print Assumptions print_mask_refuted.
Print Assumptions error_string_race_refuted.
