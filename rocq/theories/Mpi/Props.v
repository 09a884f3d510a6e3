(** C50, C65-C68: the MPI build. *)
From Coq Require Import ZArith Ascii String.
From stdpp Require Import prelude gmap relations.
From Verif.Base Require Import Result.
From Verif.Partition Require Import Spec EndCellsProofs.
From Verif.Mapping Require Import Model Spec.
From Verif.Mpi Require Import Comm Methods Model Spec CommProofs Agree SelOut DumpProofs Proofs Exec.
From Verif.Files Require Model Proofs.
Local Open Scope Z_scope.

(** * C50: the method the root announces is the one the workers perform *)

Theorem announced_is_performed m : m <> GetViscosity -> performs (announces m) = Some m.
Proof. by destruct m. Qed.
Print Assumptions announced_is_performed.

Theorem announcements_differ m m' : m <> GetViscosity -> m' <> GetViscosity -> announces m = announces m' -> m = m'.
Proof.
  intros H H' E. pose proof (announced_is_performed m H) as P. pose proof (announced_is_performed m' H') as P'. congruence.
Qed.
Print Assumptions announcements_differ.

Theorem announced_is_performed_refuted : performs (announces GetViscosity) = Some GetSolutionVolume.
Proof. reflexivity. Qed.
Print Assumptions announced_is_performed_refuted.

(** * C65: sessions *)

(** Whatever the user calls, in every execution the processes come to the end of the session, always
    with the same answers; these are the ones required, and the processes agree. *)
Theorem sessions_agree {D X} (L : local D X) k s ws cs :
  lawful L -> in_step k s ws -> may_run L (p_map s) k cs ->
  exists n s' ws' ans, length ws' = length ws /\ in_step (foldl (remember (p_map s)) k cs) s' ws' /\
    history L cs s ws ans s' ws' /\
    forall i x, nsteps (step (loop L)) i (start L cs s ws) x -> (i <= n)%nat /\
      exists e, nsteps (step (loop L)) (n - i)%nat x e /\ through (s', ans) (imap (fun j w => (S j, w)) ws') e.
Proof. apply session_runs. Qed.
Print Assumptions sessions_agree.

(** ** A small world: two processes with two cells each; a value is a whole number. The instances
    are a number, which counts what was done to them. *)
Definition vecs_of {A} (f : vec -> A) : list A := f <$> [Density; Porosity; RV; Saturation; OldSaturation; Tempc; Pressure].
Definition num (q : quantity) : Z :=
  match q with QTemperature => 1 | QPressure => 2 | QVolume => 3 | QViscosity => 4 | QDensity => 5 | QSaturation => 6 end.
Definition code_text : irm_result -> list ascii := fun _ => list_ascii_of_string "failed".
Definition world (run : bool * bool * bool -> list ascii -> Z -> Z * (Z * Z * Z) * list ascii) (table : Z -> Z -> option (nat * nat * list Z)) : local Z Z :=
  {| l_eqb := Z.eqb; l_pos := Z.ltb 0; l_zero := 0; l_one := 1; l_inactive := -1;
     l_value := fun q x j => 100 * num q + j;
     l_set_cells := fun v b l x => x + 1;
     l_ncomp := 1; l_conc := fun x _ '(d, po, v, sa) j _ => 1000 * po + j;
     l_set_conc := fun x _ _ _ _ => x + 1;
     l_nspec := 1; l_species := fun x j _ => 10 * j;
     l_state := fun _ _ x => x; l_run := run; l_missing := fun _ _ => false;
     l_run_cells := fun w => (p_x w + 1, 0, [], []);
     l_times := fun (b : bool) cells _ => if b then map (fun _ => 1) cells else [1];
     l_plan := fun s _ =>
       if decide (count_chemistry (p_map s) = 4 /\ start_cell (p_map s) = [0; 2] /\ end_cell (p_map s) = [1; 3]) then (0, [0; 1], [0; 3])
       else (0, start_cell (p_map s), end_cell (p_map s));
     l_move := fun _ _ x => x + 10;
     l_table := table; l_current := fun _ => 1; l_report := code_text;
     l_entity := fun x uz k j => match k with Files.Model.Solution => Some [ascii_of_nat (65 + Z.to_nat j)] | _ => None end;
     l_end := fun x => x |}.
Definition calm : local Z Z := world (fun _ _ x => (x, (0, 0, 0), [])) (fun _ _ => None).

Lemma good_start t m : good_map t m -> length (start_cell m) = t. Proof. by intros []. Qed.
Lemma world_lawful run table : lawful (world run table).
Proof.
  split.
  - intros s vs ss es t G. cbn. destruct (decide _) as [(Hc & Hs & He)|_].
    + intros [= <- <-]. rewrite Hc. split.
      * split; [done|done|done|done|..].
        -- intros n b e H1 H2. destruct n as [|[|n]]; cbn in *; [injection H1 as <-; injection H2 as <-; lia|injection H1 as <-; injection H2 as <-; lia|done].
        -- intros n e b H1 H2. destruct n as [|[|n]]; cbn in *; [injection H1 as <-; injection H2 as <-; done|done|done].
      * apply good_start in G. by rewrite <- G, Hs.
    + intros [= <- <-]. split; [apply (gm_split _ _ G)|apply (gm_length _ _ G)].
  - intros [] cells x; cbn; [apply map_length|done].
Qed.

Definition map4 : mapping_state := MS 4 2 4 [[0]; [1]; [2]; [3]] [0; 1; 2; 3] [0; 2] [1; 3].
Definition initial : setting -> msg Z := fun f =>
  match kind f with
  | (TNum, _) => match f with RebalanceFraction => Nums [1] | _ => Nums [0] end
  | (_, n) => Ints (replicate n 0)
  end.
(** The state of process [n] after construction, its worker instance being [x] *)
Definition process (n : nat) (x : Z) : ps Z Z :=
  {| p_map := map4; p_val := initial; p_prefix := list_ascii_of_string "out";
     p_root := fun v => match n with O => [1; 1; 1; 1] | _ => [] end; p_work := fun v => [1; 1];
     p_mask_root := match n with O => [1; 1; 1; 1] | _ => [] end; p_mask_work := [1; 1];
     p_saved := ∅; p_check := true; p_err := []; p_x := x |}.
Definition nothing_yet : known := Known [Density; Porosity; RV; Saturation; Tempc; Pressure] true [] 4.

Lemma mirrors_ones n : (n < 2)%nat -> mirrors map4 n [1; 1; 1; 1] [1; 1].
Proof.
  intros Hn. destruct n as [|[|n]]; [| |lia].
  - exists 0, 1. split_and!; [done|done|done|]. intros j Hj. assert (j = 0 \/ j = 1) as [-> | ->] by lia; by eexists _, [].
  - exists 2, 3. split_and!; [done|done|done|]. intros j Hj. assert (j = 2 \/ j = 3) as [-> | ->] by lia; by eexists _, [].
Qed.
Lemma processes_in_step x y : in_step nothing_yet (process 0 x) [process 1 y].
Proof.
  constructor.
  - done.
  - constructor.
    + done.
    + done.
    + intros j c Hj. destruct j as [|[|[|[|j]]]]; cbn in Hj; try done; injection Hj as <-; (split; [done|]); intros z Hz;
        apply elem_of_list_singleton in Hz as ->; cbn; lia.
    + intros j1 j2 c1 c2 z H1 H2 Hz1 Hz2.
      assert (forall j c, backward map4 !! j = Some c -> z ∈ c -> z = Z.of_nat j) as Ha.
      { intros j c Hj Hz. destruct j as [|[|[|[|j]]]]; cbn in Hj; try done; injection Hj as <-; by apply elem_of_list_singleton in Hz as ->. }
      pose proof (Ha _ _ H1 Hz1). pose proof (Ha _ _ H2 Hz2). lia.
    + split; [done|done|done|done|..].
      * intros n b e H1 H2. destruct n as [|[|n]]; cbn in *; [injection H1 as <-; injection H2 as <-; lia|injection H1 as <-; injection H2 as <-; lia|done].
      * intros n e b H1 H2. destruct n as [|[|n]]; cbn in *; [injection H1 as <-; injection H2 as <-; done|done|done].
    + done.
  - intros w Hw. by apply elem_of_list_singleton in Hw as ->.
  - intros w Hw. by apply elem_of_list_singleton in Hw as ->.
  - by intros [].
  - intros w Hw. by apply elem_of_list_singleton in Hw as ->.
  - intros w Hw. by apply elem_of_list_singleton in Hw as ->.
  - intros w Hw. by apply elem_of_list_singleton in Hw as ->.
  - intros v _. cbn. lia.
  - intros _. cbn. lia.
  - cbn. lia.
  - intros v n w _ Hw. destruct n as [|[|n]]; [injection Hw as <-; apply mirrors_ones; lia|injection Hw as <-; apply mirrors_ones; lia|done].
  - intros _ n w Hw. destruct n as [|[|n]]; [injection Hw as <-; apply mirrors_ones; lia|injection Hw as <-; apply mirrors_ones; lia|done].
  - intros i Hi. by apply elem_of_nil in Hi.
Qed.

(** What is seen at the end of a run *)
Inductive seen := Answers (l : list (answer Z)) | Undefined | Waiting.
Definition look (e : config Z (ps Z Z * list (answer Z)) (nat * ps Z Z)) : seen :=
  match c_root e with
  | Fin (_, l) => Answers l
  | Undef => Undefined
  | _ => if existsb (fun p => match p with Undef => true | _ => false end) (c_workers e) then Undefined else Waiting
  end.
Definition after (L : local Z Z) (cs : list (call Z)) (x y : Z) : option seen :=
  (look ∘ snd) <$> exec (loop L) 400 (start L cs (process 0 x) [process 1 y]).

Lemma after_all L cs x y v : after L cs x y = Some v ->
  exists n e, look e = v /\ (forall e', ~ step (loop L) e e') /\
    forall i c, nsteps (step (loop L)) i (start L cs (process 0 x) [process 1 y]) c -> (i <= n)%nat /\ nsteps (step (loop L)) (n - i)%nat c e.
Proof. apply exec_all. Qed.

(** All executions of the calls [cs] end in the same state, in which [v] is seen. *)
Definition always (L : local Z Z) (cs : list (call Z)) (x y : Z) (v : seen) : Prop :=
  exists n e, look e = v /\ (forall e', ~ step (loop L) e e') /\
    forall i c, nsteps (step (loop L)) i (start L cs (process 0 x) [process 1 y]) c -> (i <= n)%nat /\ nsteps (step (loop L)) (n - i)%nat c e.

(** A session that meets the requirements: cells run and are moved, a state is saved, the mapping is
    replaced. *)
Definition busy : list (call Z) :=
  [SetNum TimeStep 5; SetFlag RebalanceByCell true; SetPrint true false true; SetInt USolution 7;
   SetVec Porosity [1; 2; 3; 4]; SetVec Tempc [25; 25; 25; 25]; SetMask [0; 0; 1; 0]; State Save 3; Cells;
   Get QTemperature []; GetConc []; SetConc [1; 2; 3; 4]; State Apply 3; MapCells [0; 1; 0; 1];
   SetVec Density [1; 2; 3; 4]; SetVec Porosity [1; 2; 3; 4]; SetVec RV [1; 2; 3; 4]; SetVec Saturation [1; 2; 3; 4];
   GetConc []; RunInput true true true []; Cells].
Lemma busy_may_run : may_run calm map4 nothing_yet busy.
Proof.
  unfold busy.
  repeat (split; [|match goal with |- may_run _ _ (remember ?m ?k ?c) ?r =>
    let k' := eval vm_compute in (remember m k c) in change (remember m k c) with k' end]); cbn [may_call k_vecs k_ids].
  all: try done.
  all: try (cbn; lia).
  all: assert (forall l : list vec, Forall (fun v => v ∈ l) four -> forall v, v ∈ four -> v ∈ l) as Hall by (intros l Hl v Hv; by apply (proj1 (Forall_forall _ _) Hl)).
  all: try (apply Hall; apply (bool_decide_unpack _); vm_compute; exact I).
  - rewrite !elem_of_cons. tauto.
  - left. rewrite !elem_of_cons. tauto.
  - split; [|cbn; lia]. apply Hall; apply (bool_decide_unpack _); vm_compute; exact I.
  - by left.
  - right. exists 2. split_and!; [done|cbn; lia|cbn; lia|]. intros k Hk. rewrite !elem_of_cons, elem_of_nil. lia.
Qed.
Definition busy_answers : seen := Answers
  [Code IRM_OK; Code IRM_OK; Code IRM_OK; Code IRM_INVALIDARG; Code IRM_OK; Code IRM_OK; Code IRM_OK; Code IRM_OK; Code IRM_OK;
   Vector IRM_OK [100; 101; 102; 103]; Vector IRM_OK [1000; 2001; 3002; 4003]; Code IRM_OK; Code IRM_OK; Code IRM_OK;
   Code IRM_OK; Code IRM_OK; Code IRM_OK; Code IRM_OK; Vector IRM_OK [1000; 2001; 1000; 2001]; Code IRM_OK; Code IRM_OK].
Example busy_session :
  lawful calm /\ in_step nothing_yet (process 0 0) [process 1 0] /\ may_run calm (p_map (process 0 0)) nothing_yet busy /\
  always calm busy 0 0 busy_answers.
Proof.
  split; [apply world_lawful|]. split; [apply processes_in_step|]. split; [exact busy_may_run|].
  apply after_all. vm_compute. reflexivity.
Qed.

(** The others answer GetViscosity with the volumes of their solutions (3..): the viscosity of cell [j]
    is 400 + [j] in this world. *)
Theorem viscosity_refuted : always calm [Get QViscosity []] 0 0 (Answers [Vector IRM_OK [400; 401; 302; 303]]).
Proof. apply after_all. vm_compute. reflexivity. Qed.
Print Assumptions viscosity_refuted.

(** * C66: the distributed vectors *)

(** After a session every vector given since the ranges were last replaced is distributed according
    to the ranges in force. *)
Theorem vectors_current {D X} (L : local D X) k s ws cs :
  lawful L -> in_step k s ws -> may_run L (p_map s) k cs ->
  exists n s' ws' ans,
    (forall v j w, v ∈ k_vecs (foldl (remember (p_map s)) k cs) -> (s' :: ws') !! j = Some w ->
       mirrors (p_map s') j (p_root s' v) (p_work w v)) /\
    forall i x, nsteps (step (loop L)) i (start L cs s ws) x -> (i <= n)%nat /\
      exists e, nsteps (step (loop L)) (n - i)%nat x e /\ through (s', ans) (imap (fun j w => (S j, w)) ws') e.
Proof.
  intros Lw I Hr. destruct (session_runs L k s ws cs Lw I Hr) as (n & s' & ws' & ans & _ & I' & _ & Hn).
  exists n, s', ws', ans. split; [|exact Hn]. intros v j w. apply (is_vecs _ _ _ I').
Qed.
Print Assumptions vectors_current.

(** The concentrations at the end of a session are those of the cells with the density, porosity,
    volume and saturation that the user gave for their grid cells. *)
Theorem concentrations_use_given {D X} (L : local D X) k s ws cs old :
  lawful L -> in_step k s ws -> may_run L (p_map s) k (cs ++ [GetConc old]) ->
  exists n s1 ws1 s' ws' ans r,
    covers (p_map s1) (s1 :: ws1) (l_ncomp L) (fun _ j w i y => exists p, given s1 j p /\ y = l_conc L (p_x w) (p_val s1) p j i)
      (replicate (Z.to_nat (nxyz (p_map s1)) * l_ncomp L) (l_inactive L)) r /\
    history L cs s ws ans s1 ws1 /\
    forall i x, nsteps (step (loop L)) i (start L (cs ++ [GetConc old]) s ws) x -> (i <= n)%nat /\
      exists e, nsteps (step (loop L)) (n - i)%nat x e /\ through (s', ans ++ [Vector IRM_OK r]) (imap (fun j w => (S j, w)) ws') e.
Proof.
  intros Lw I Hr. destruct (session_runs L k s ws _ Lw I Hr) as (n & s' & ws' & ans & _ & I' & Hh & Hn).
  apply history_last in Hh as (s1 & ws1 & ans1 & a & -> & Hh & [_ (r & -> & Hc)]).
  exists n, s1, ws1, s', ws', ans1, r. split; [exact Hc|]. split; [exact Hh|exact Hn].
Qed.
Print Assumptions concentrations_use_given.

(** The vectors given before CreateMapping stay distributed according to the old ranges: cell 1 has
    the porosity of grid cell 2. The examples of the distribution call the methods in this order. *)
Theorem mapping_after_vectors_refuted :
  always calm [SetVec Porosity [1; 2; 3; 4]; MapCells [0; 1; 0; 1]; GetConc []] 0 0
    (Answers [Code IRM_OK; Code IRM_OK; Vector IRM_OK [1000; 3001; 1000; 3001]]) /\
  always calm [MapCells [0; 1; 0; 1]; SetVec Porosity [1; 2; 3; 4]; GetConc []] 0 0
    (Answers [Code IRM_OK; Code IRM_OK; Vector IRM_OK [1000; 2001; 1000; 2001]]).
Proof. split; apply after_all; vm_compute; reflexivity. Qed.
Print Assumptions mapping_after_vectors_refuted.

(** StateApply restores the ranges, but not the vectors that were distributed again when the cells
    moved: the root reads beyond its part. *)
Definition again : list (call Z) :=
  [SetVec Density [1; 1; 1; 1]; SetVec Porosity [1; 2; 3; 4]; SetVec RV [1; 1; 1; 1]; SetVec Saturation [1; 1; 1; 1]].
Theorem state_apply_vectors_refuted :
  always calm ([State Save 1; Cells; State Apply 1] ++ [GetConc []]) 0 0 Undefined /\
  always calm ([State Save 1; Cells; State Apply 1] ++ again ++ [GetConc []]) 0 0
    (Answers [Code IRM_OK; Code IRM_OK; Code IRM_OK; Code IRM_OK; Code IRM_OK; Code IRM_OK; Code IRM_OK; Vector IRM_OK [1000; 2001; 3002; 4003]]).
Proof. split; apply after_all; vm_compute; reflexivity. Qed.
Print Assumptions state_apply_vectors_refuted.

(** * C67: every call comes to an end on all processes *)

(** No execution of a session can stop before all processes are through, and none goes on for ever. *)
Theorem sessions_end {D X} (L : local D X) k s ws cs :
  lawful L -> in_step k s ws -> may_run L (p_map s) k cs ->
  exists n, forall i x, nsteps (step (loop L)) i (start L cs s ws) x ->
    (i <= n)%nat /\ ((exists r ws', through r ws' x) \/ exists x', step (loop L) x x').
Proof.
  intros Lw I Hr. destruct (session_runs L k s ws cs Lw I Hr) as (n & s' & ws' & ans & _ & _ & _ & Hn).
  exists n. intros i x Hx. destruct (Hn i x Hx) as (Hi & e & He & Ht). split; [done|].
  inversion He; subst; [left; by eexists _, _|right; by eexists].
Qed.
Print Assumptions sessions_end.

(** GetSelectedOutput, when all processes have the table *)
Theorem selected_output_gathered {D X} (L : local D X) k s ws u ncol old :
  in_step k s ws -> tables L u ncol s ws ->
  exists n s' ws' a, in_step k s' ws' /\ so_result L u ncol old s ws a s' ws' /\
    forall i x, nsteps (step (loop L)) i (start L [SelOut old] s ws) x -> (i <= n)%nat /\
      exists e, nsteps (step (loop L)) (n - i)%nat x e /\ through (s', [a]) (imap (fun j w => (S j, w)) ws') e.
Proof.
  intros I Ht. destruct (selout_served L (R := ps D X * list (answer D)) k s ws u ncol old I Ht) as (s' & ws' & a & Hl & Hgo & I' & Hres).
  destruct (one_call L s ws (SelOut old) s' ws' a Hl Hgo) as [n Hn]. exists n, s', ws', a. split; [done|]. split; [done|exact Hn].
Qed.
Print Assumptions selected_output_gathered.

(** Instances with number 0 have a table of two rows and two columns. *)
Definition tabled : local Z Z :=
  world (fun _ _ x => (x, (0, 0, 0), [])) (fun x _ => if decide (x = 0) then Some (2%nat, 2%nat, [7; 8; 70; 80]) else None).
Example selected_output_example :
  in_step nothing_yet (process 0 0) [process 1 0] /\ tables tabled 1 2 (process 0 0) [process 1 0] /\
  always tabled [SelOut []] 0 0 (Answers [Vector IRM_OK [7; 8; 7; 8; 70; 80; 70; 80]]).
Proof.
  split; [apply processes_in_step|]. split; [|apply after_all; vm_compute; reflexivity].
  split_and!; [done|done|]. intros n w Hw. destruct n as [|[|n]]; [injection Hw as <-|injection Hw as <-|done]; by eexists.
Qed.

(** If only another process lacks the table, the root waits for it for ever. *)
Theorem missing_table_refuted : always tabled [SelOut []] 0 1 Waiting.
Proof. apply after_all. vm_compute. reflexivity. Qed.
Print Assumptions missing_table_refuted.

(** If only the root lacks it, the tables of the others are not received: the next GetErrorString
    waits for ever, as the message it finds is too long. *)
Theorem unreceived_table_refuted :
  always tabled [SelOut []] 1 0 (Answers [Vector IRM_FAIL []]) /\ always tabled [SelOut []; ErrString] 1 0 Waiting.
Proof. split; apply after_all; vm_compute; reflexivity. Qed.
Print Assumptions unreceived_table_refuted.

(** SetPrintChemistryMask with a short vector is refused by the root after it announced the call. *)
Theorem short_mask_refuted : always calm [SetMask [1]] 0 0 Waiting.
Proof. apply after_all. vm_compute. reflexivity. Qed.
Print Assumptions short_mask_refuted.

(** * C68: errors *)

(** RunString fails exactly if the worker instance of a process does. *)
Theorem run_string_failures {D X} (L : local D X) k s ws cs w0 i0 u0 t :
  lawful L -> in_step k s ws -> may_run L (p_map s) k (cs ++ [RunInput w0 i0 u0 t]) ->
  exists n s1 ws1 s' ws' ans r,
    history L cs s ws ans s1 ws1 /\
    (r = IRM_OK /\ (forall w, w ∈ s1 :: ws1 -> (l_run L (w0, i0, u0) t (p_x w)).1.2.1.1 = 0) \/
     r = IRM_FAIL /\ exists w, w ∈ s1 :: ws1 /\ (l_run L (w0, i0, u0) t (p_x w)).1.2.1.1 <> 0) /\
    forall i x, nsteps (step (loop L)) i (start L (cs ++ [RunInput w0 i0 u0 t]) s ws) x -> (i <= n)%nat /\
      exists e, nsteps (step (loop L)) (n - i)%nat x e /\ through (s', ans ++ [Code r]) (imap (fun j w => (S j, w)) ws') e.
Proof.
  intros Lw I Hr. destruct (session_runs L k s ws _ Lw I Hr) as (n & s' & ws' & ans & _ & I' & Hh & Hn).
  apply history_last in Hh as (s1 & ws1 & ans1 & a & -> & Hh & [_ Hres]).
  destruct Hres as [[-> H]|[-> H]]; [exists n, s1, ws1, s', ws', ans1, IRM_OK|exists n, s1, ws1, s', ws', ans1, IRM_FAIL];
    (split; [exact Hh|]); (split; [auto|exact Hn]).
Qed.
Print Assumptions run_string_failures.
Example run_string_example :
  may_run calm map4 nothing_yet ([] ++ [RunInput true true true []]) /\
  always calm [RunInput true true true []] 0 0 (Answers [Code IRM_OK]) /\
  always (world (fun _ _ x => (x, (x, 0, 0), [])) (fun _ _ => None)) [RunInput true true true []] 0 3 (Answers [Code IRM_FAIL]).
Proof. split; [done|]. split; apply after_all; vm_compute; reflexivity. Qed.

(** An error of the InitialPhreeqc or the Utility instance is not reported. *)
Theorem run_string_errors_refuted :
  always (world (fun _ _ x => (x, (0, 5, 6), [])) (fun _ _ => None)) [RunInput true true true []] 0 0 (Answers [Code IRM_OK]).
Proof. apply after_all. vm_compute. reflexivity. Qed.
Print Assumptions run_string_errors_refuted.

(** After an error on another process, GetErrorString takes text without an end. *)
Theorem error_string_refuted :
  always (world (fun _ _ x => (x, (x, 0, 0), [])) (fun _ _ => None)) [RunInput true true true []; ErrString] 0 3 Undefined.
Proof. apply after_all. vm_compute. reflexivity. Qed.
Print Assumptions error_string_refuted.

(** * C91: DumpModule *)

(** After any session, DumpModule leaves the file that the build with threads would leave, and every
    process ends the call. *)
Theorem mpi_dump_as_threads {D X} (L : local D X) k s ws cs append fails old :
  lawful L -> in_step k s ws -> may_run L (p_map s) k cs -> (forall i, fails i = false) ->
  exists n s1 ws1 s' ws' ans,
    let r := Files.Model.dump_module (Z.to_nat 4094) fails append (text_at L (s1 :: ws1)) 5000
               (zip (start_cell (p_map s1)) (end_cell (p_map s1))) (Some old) in
    history L cs s ws ans s1 ws1 /\ pairwise (fun _ w w' => p_x w' = l_end L (p_x w)) (s1 :: ws1) (s' :: ws') /\
    forall i x, nsteps (step (loop L)) i (start L (cs ++ [Dump true append true fails old]) s ws) x -> (i <= n)%nat /\
      exists e, nsteps (step (loop L)) (n - i)%nat x e /\
        through (s', ans ++ [File r.2 (List.last r.1 [])]) (imap (fun j w => (S j, w)) ws') e.
Proof.
  intros Lw I Hr Hf. destruct (session_runs L k s ws (cs ++ [Dump true append true fails old]) Lw I) as (n & s' & ws' & ans & _ & I' & Hh & Hn).
  { by apply may_run_app. }
  apply history_last in Hh as (s1 & ws1 & ans1 & a & -> & Hh & [Hp Ha]).
  exists n, s1, ws1, s', ws', ans1. cbv zeta in Ha |- *. split; [exact Hh|]. split; [exact Hp|]. rewrite <- Ha. exact Hn.
Qed.
Print Assumptions mpi_dump_as_threads.

(** The file has the text of every reactant of every cell once, as the process that has the cell holds
    it. *)
Theorem mpi_dump_exact {D X} (L : local D X) k s ws append fails old :
  lawful L -> in_step k s ws -> (forall i, fails i = false) ->
  exists n s' ws' items,
    NoDup items /\
    (forall p kd j, (p, kd, j) ∈ items <-> kd <> Files.Model.Pressure /\ owns (start_cell (p_map s)) (end_cell (p_map s)) p j) /\
    forall i x, nsteps (step (loop L)) i (start L [Dump true append true fails old] s ws) x -> (i <= n)%nat /\
      exists e, nsteps (step (loop L)) (n - i)%nat x e /\
        through (s', [File IRM_OK ((if append then old else []) ++ concat (map (fun it => default [] (text_at L (s :: ws) it)) items))])
          (imap (fun j w => (S j, w)) ws') e.
Proof.
  intros Lw I Hf. destruct (session_runs L k s ws [Dump true append true fails old] Lw I) as (n & s' & ws' & ans & _ & I' & Hh & Hn); [done|].
  apply (history_last L []) in Hh as (s1 & ws1 & ans1 & a & -> & Hh & [_ Ha]). inversion Hh; subst s1 ws1 ans1. cbn [app] in Hn. clear Hh.
  set (rs := zip (start_cell (p_map s)) (end_cell (p_map s))) in Ha.
  pose proof (gm_split _ _ (is_map _ _ _ I)) as Hs.
  assert (Hpos : forall r, r ∈ rs -> 0 <= r.1).
  { intros r [p Hp]%elem_of_list_lookup. unfold rs in Hp. apply lookup_zip_with_Some in Hp as (b & e & -> & Hb & He). cbn.
    pose proof (vs_nonempty _ _ _ Hs p b e Hb He) as Hbe.
    assert (0 <= b < count_chemistry (p_map s)); [|lia]. apply (owns_in_range _ _ _ p _ Hs). exists b, e. split_and!; [done|done|lia|lia]. }
  exists n, s', ws', (Files.Model.dump_items 5000 rs). split_and!.
  - by apply Files.Proofs.nodup_dump_items.
  - intros p kd j. rewrite Files.Proofs.elem_dump_items by done. unfold Verif.Files.Spec.to_dump, owns. cbn [fst snd]. split.
    + intros (r & Hr & Hk & Hj). unfold rs in Hr. apply lookup_zip_with_Some in Hr as (b & e & -> & Hb & He). split; [done|]. by exists b, e.
    + intros [Hk (b & e & Hb & He & Hj)]. exists (b, e). split; [|done]. unfold rs. apply lookup_zip_with_Some. by exists b, e.
  - assert (a = File IRM_OK ((if append then old else []) ++ concat (map (fun it => default [] (text_at L (s :: ws) it)) (Files.Model.dump_items 5000 rs)))) as <-; [|exact Hn].
    rewrite Ha. cbv zeta. set (r := Files.Model.dump_module _ _ _ _ _ _ _).
    assert (r.2 = IRM_OK) as Hok by (apply Files.Proofs.write_pieces_ok; intros; apply Hf).
    rewrite Hok. f_equal. destruct (Files.Proofs.write_pieces_last _ _ _ _ Hok) as [Hl _].
    unfold r, Files.Model.dump_module. cbn [fst]. erewrite Files.Proofs.last_default, Hl.
    rewrite Files.Proofs.dump_pieces_text by lia. by destruct append.
Qed.
Print Assumptions mpi_dump_exact.

(** If writing any piece fails, the root goes on while the other processes wait for it: no execution
    gets to the end of the session. *)
Theorem mpi_dump_write_error_refuted {D X} (L : local D X) k s ws append fails old :
  in_step k s ws -> ws <> [] ->
  (Files.Model.dump_module (Z.to_nat 4094) fails append (text_at L (s :: ws)) 5000
     (zip (start_cell (p_map s)) (end_cell (p_map s))) (Some old)).2 <> IRM_OK ->
  exists n e, (forall e', ~ step (loop L) e e') /\ (forall r ws', ~ through r ws' e) /\
    forall i x, nsteps (step (loop L)) i (start L [Dump true append true fails old] s ws) x ->
      (i <= n)%nat /\ nsteps (step (loop L)) (n - i)%nat x e.
Proof.
  intros I Hne Hno.
  destruct (dump_stuck L (R := ps D X * list (answer D)) k s ws append fails old (fun s' a => session L [] s' ([] ++ [a])) I Hno) as (f' & ks' & qs & H).
  apply rtc_nsteps in H as [n Hn]. eexists n, _.
  match type of Hn with nsteps _ _ _ ?e => assert (ended (loop L) e) as He end.
  { intros e' H. inversion H as [? ? A|? i m k0 q A B|? i t n0 k0 m qs0 A B]; subst; cbn in *.
    - destruct ws as [|w ws]; [done|]. cbn in A. done.
    - rewrite list_lookup_imap in A. destruct (ws !! i); cbn in A; done.
    - done. }
  split; [exact He|]. split.
  - intros r ws' Ht. unfold through in Ht. apply (f_equal c_root) in Ht. done.
  - intros i x Hi. exact (run_joins (loop L) _ _ _ _ _ Hn He Hi).
Qed.
Print Assumptions mpi_dump_write_error_refuted.

(** In the small world a cell has a solution only, written as a letter. *)
Definition fine (_ : nat) : bool := false.
Example mpi_dump_case :
  lawful calm /\ in_step nothing_yet (process 0 0) [process 1 0] /\
  always calm [Dump true true true fine (list_ascii_of_string "old"); SetFlag RebalanceByCell true; Cells; Dump true false true fine []; Dump true true false fine []] 0 0
    (Answers [File IRM_OK (list_ascii_of_string "oldABCD"); Code IRM_OK; Code IRM_OK; File IRM_OK (list_ascii_of_string "ABCD"); File IRM_FAIL []]).
Proof. split; [apply world_lawful|]. split; [apply processes_in_step|]. apply after_all. vm_compute. reflexivity. Qed.
Example mpi_dump_write_error_case :
  [process 1 0] <> [] /\
  (Files.Model.dump_module (Z.to_nat 4094) (Nat.eqb 1) false (text_at calm [process 0 0; process 1 0]) 5000
     (zip (start_cell map4) (end_cell map4)) (Some [])).2 <> IRM_OK /\
  always calm [Dump true false true (Nat.eqb 1) []] 0 0 Waiting.
Proof. split; [done|]. split; [by vm_compute|]. apply after_all. vm_compute. reflexivity. Qed.
