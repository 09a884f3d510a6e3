(** C88 texts and lines of an instance, C89 list of components, C90 accumulated input. *)
From Coq Require Import Ascii String.
From stdpp Require Import prelude strings gmap.
From Verif.Inst Require Import Model Spec Proofs.
Open Scope string_scope.
Open Scope list_scope.

Definition runs (o : op) : Prop := is_run o \/ exists db, o = LoadDb db.

(** ** C88 *)
Lemma step_run_text {E} (g : engine E) s o : is_run o -> exists name input s', (step g s o).1.2 = (run_text g name input s').1.2 /\
  (exists c t, s' = set_input c t s \/ s' = s) /\ (step g s o).2 = (run_text g name input s').2 /\
  ((step g s o).1.1 = (run_text g name input s').1.1 \/ exists c t, (step g s o).1.1 = set_input c t (run_text g name input s').1.1).
Proof.
  destruct o; try done; intros _; cbn [step fst snd].
  - eexists _, _, s. split; [done|]. split; [by exists true, ""; right|]. split; [done|]. right. by eexists _, _.
  - eexists _, _, (set_input false "" s). split; [done|]. split; [by eexists _, _; left|]. split; [done|]. by left.
  - eexists _, _, (set_input false "" s). split; [done|]. split; [by eexists _, _; left|]. split; [done|]. by left.
Qed.

(** After every run, stopped or not, the lines of errors and warnings are those of their texts. *)
Theorem run_in_step {E} (g : engine E) h o : is_run o -> let s := after g (h ++ [o]) in
  text_lines (i_errlines s) (i_err s) /\ text_lines (i_warnlines s) (i_warn s).
Proof.
  intros Ho s. unfold s. rewrite after_snoc.
  destruct (step_run_text g (after g h) o Ho) as (name & input & s' & _ & _ & _ & Hs).
  destruct (run_text_ends g name input s') as ([H1 H2] & _).
  destruct Hs as [->|(c & t & ->)]; [done|]. by destruct (run_text g name input s').1.1.
Qed.
Print Assumptions run_in_step.

Lemma step_lined {E} (g : engine E) s o : runs o -> (step g s o).1.2 = true -> in_step (step g s o).1.1 /\ lined (step g s o).1.1.
Proof.
  intros [Ho|[db ->]] Hc.
  - destruct (step_run_text g s o Ho) as (name & input & s' & H1 & _ & _ & Hs). rewrite H1 in Hc.
    destruct (run_text_ends g name input s') as (R1 & R2 & _). specialize (R2 Hc).
    destruct Hs as [->|(c & t & ->)]; [done|]. by destruct (run_text g name input s').1.1.
  - cbn [step fst snd] in *. destruct db as [t|]; cbn zeta in *; cbn [fst snd] in *; [|done].
    destruct (read_db g t).2; cbn [fst snd] in *; [|done].
    match goal with |- in_step (run_text g ?n ?i ?x).1.1 /\ _ => destruct (run_text_ends g n i x) as (R1 & R2 & _) end. auto.
Qed.

(** After a run, or a LoadDatabase, that came to its end, every list of lines holds the lines of its text. *)
Theorem run_lined {E} (g : engine E) h o : runs o -> (step g (after g h) o).1.2 = true ->
  let s := after g (h ++ [o]) in
  (i_errors s && i_erron s = true -> text_lines (i_errlines s) (error_string s)) /\
  text_lines (i_warnlines s) (i_warn s) /\
  (i_outon s = true -> text_lines (i_outlines s) (output_string s)) /\
  (i_logon s = true -> text_lines (i_loglines s) (log_string s)) /\
  (i_cur s ∈ i_defs s -> is_Some (i_selon s !! i_cur s) -> text_lines (selected_lines s) (selected_string s)).
Proof.
  intros Ho Hc s. destruct (step_lined g (after g h) o Ho Hc) as ((H1 & H2) & H3 & H4 & H5).
  rewrite <- after_snoc in H1, H2, H3, H4, H5. fold s in H1, H2, H3, H4, H5. split_and!; try done.
  - intros [Ha Hb]%andb_prop. unfold error_string. by rewrite Ha, Hb.
  - intros Hx. unfold output_string. by rewrite Hx.
  - intros Hx. unfold log_string. by rewrite Hx.
  - intros Hx [b Hb]. unfold selected_lines, selected_string. rewrite Hb. by apply H5.
Qed.
Print Assumptions run_lined.

(** The lines of the dump are always those of its text. *)
Theorem dump_lined {E} (g : engine E) h : text_lines (i_dumplines (after g h)) (i_dump (after g h)).
Proof. rewrite (after_dumped g h). apply lines_ok. Qed.
Print Assumptions dump_lined.

(** A text has only one list of lines. *)
Theorem lines_unique ls ls' t : text_lines ls t -> text_lines ls' t -> ls = ls'.
Proof. intros H1 H2. by eapply text_lines_unique. Qed.
Print Assumptions lines_unique.

Theorem line_range ls n : (forall l, ls !! n = Some l -> line ls (Z.of_nat n) = l) /\
  (forall z, (z < 0 \/ Z.of_nat (length ls) <= z)%Z -> line ls z = "").
Proof.
  split.
  - intros l Hl. pose proof (lookup_lt_Some _ _ _ Hl) as Hn. unfold line.
    destruct (Z.ltb_spec (Z.of_nat n) 0); [lia|]. destruct (Z.leb_spec (Z.of_nat (length ls)) (Z.of_nat n)); [lia|].
    cbn. rewrite Nat2Z.id. by apply nth_lookup_Some.
  - intros z Hz. unfold line. destruct (Z.ltb_spec z 0); [done|]. destruct (Z.leb_spec (Z.of_nat (length ls)) z); [done|lia].
Qed.
Print Assumptions line_range.

(** What of selected output [n] is recorded in a run: the flag of the current number decides *)
Theorem sel_recorded {E} (g : engine E) h o t n : is_run o -> (step g (after g h) o).2 = [t] ->
  let s := after g h in
  default "" (i_sels (after g (h ++ [o])) !! n) =
    if default false (i_selon s !! i_cur s) then punched n (drive g (i_eng s) t).1 else "".
Proof.
  intros Ho Ht s. rewrite after_snoc. fold s in Ht |- *.
  destruct (step_run_text g s o Ho) as (name & input & s' & _ & Hs' & H2 & Hs).
  assert (i_sels (step g s o).1.1 = i_sels (run_text g name input s').1.1) as ->.
  { destruct Hs as [->|(c & u & ->)]; [done|]. by destruct (run_text g name input s').1.1. }
  rewrite H2 in Ht. clear Hs H2 Ho o.
  assert (i_selon s = i_selon s' /\ i_cur s = i_cur s' /\ i_eng s = i_eng s') as (-> & -> & ->).
  { destruct Hs' as (c & u & [->| ->]); by destruct s. }
  unfold run_text in *. cbn zeta in *. cbn [fst snd] in *.
  destruct (i_loaded (clear_results s')); [|done]. destruct input as [u|]; [|done]. cbn [fst snd] in *. injection Ht as ->.
  assert (forall x : inst E, i_sels (update_errors x) = i_sels x) as -> by (by intros []).
  unfold do_run. cbn zeta. set (es := (drive g (i_eng (clear_results s')) t).1).
  destruct (finish_keeps (fold_left play es (clear_results s'))) as (_ & _ & _ & _ & _ & _ & _ & _ & F9).
  pose proof (plays_punched es (clear_results s') n) as Hp.
  assert (default "" (i_sels (clear_results s') !! n) = "") as Hz by (by destruct s'). rewrite Hz in Hp.
  assert (sel_on n (clear_results s') = default false (i_selon s' !! i_cur s')) as Ho by (by destruct s'). rewrite Ho in Hp.
  assert (i_eng (clear_results s') = i_eng s') as He by (by destruct s').
  unfold es in *. rewrite He in *. destruct (drive g (i_eng s') t).2; cbn [fst]; [rewrite F9|]; exact Hp.
Qed.
Print Assumptions sel_recorded.

(** So each is recorded as its own flag says as long as that flag is the same as that of the current number. *)
Theorem sel_recorded_own {E} (g : engine E) h o t n : is_run o -> (step g (after g h) o).2 = [t] ->
  let s := after g h in
  default false (i_selon s !! n) = default false (i_selon s !! i_cur s) ->
  default "" (i_sels (after g (h ++ [o])) !! n) =
    if default false (i_selon s !! n) then punched n (drive g (i_eng s) t).1 else "".
Proof. intros Ho Ht s Hn. rewrite Hn. by apply sel_recorded. Qed.
Print Assumptions sel_recorded_own.

(** An engine: its definitions are a list of names; an input adds one; "bad" adds "half" and is stopped. *)
Definition toy_events (e : list string) (m : string) : list (ev (list string)) :=
  [Out ("Reading" +:+ nl +:+ m); Defs {[1%Z; 2%Z]}; Begin; Change (e ++ [m]); Log ("log" +:+ nl); Warn "w";
   Punch 1 ("one" +:+ nl); Punch 2 ("two" +:+ nl); Punch 2 ("2" +:+ nl); Dump false ("d" +:+ nl +:+ "e")].
Definition toy : engine (list string) := Engine
  (fun e t => if decide (t = "bad") then (toy_events e "half" ++ [Err ("ERROR: bad" +:+ nl)], false) else (toy_events e t, true))
  (fun t => if decide (t = "db") then ([Change [t]], true) else ([Err ("ERROR: db" +:+ nl)], false))
  [] (fun e => e) (fun e => "probe").

Example run_lined_case :
  let h := [LoadDb (Some "db"); SetOutOn true; SetLogOn true; SetDumpOn true; SetSelOn true; SetCur 2; SetSelOn true] in
  let o := RunStr "ab" in let s := after toy (h ++ [o]) in
  (step toy (after toy h) o).1.2 = true /\ runs o /\ i_outlines s = ["Reading"; "ab"] /\ selected_lines s = ["two"; "2"] /\
  selected_string s = "two" +:+ nl +:+ "2" +:+ nl /\ i_loglines s = ["log"] /\ i_warnlines s = ["w"] /\ i_dumplines s = ["d"; "e"] /\
  line (selected_lines s) 1 = "2" /\ line (selected_lines s) 2 = "".
Proof. split; [by vm_compute|]. split; [by left|]. vm_compute. split_and!; reflexivity. Qed.

(** A stopped run leaves texts without lines. *)
Theorem stopped_lines_refuted : exists h, let s := after toy h in
  output_string s = "Reading" +:+ nl +:+ "half" /\ i_outlines s = [] /\
  log_string s = "log" +:+ nl /\ i_loglines s = [] /\ selected_string s = "one" +:+ nl /\ selected_lines s = [] /\
  i_errlines s = ["ERROR: bad"].
Proof.
  exists [LoadDb (Some "db"); SetOutOn true; SetLogOn true; SetSelOn true; RunStr "bad"]. vm_compute. split_and!; reflexivity.
Qed.
Print Assumptions stopped_lines_refuted.

(** Other calls change the text of errors but not its lines: a LoadDatabase that fails, AccumulateLine,
    GetSelectedOutputValue, AddError *)
Theorem error_lines_refuted : exists h, let s := after toy h in
  i_errlines s = ["ERROR: bad"] /\ error_string s = "ERROR: bad" +:+ nl /\
  (let s := after toy (h ++ [LoadDb (Some "other")]) in i_errlines s = ["ERROR: bad"] /\ error_string s = "ERROR: db" +:+ nl) /\
  (let s := after toy (h ++ [Accumulate "x"]) in i_errlines s = ["ERROR: bad"] /\ error_string s = "") /\
  (let s := after toy (h ++ [Value None]) in i_errlines s = ["ERROR: bad"] /\ error_string s = "") /\
  (let s := after toy (h ++ [AddErr "more"]) in i_errlines s = ["ERROR: bad"] /\ error_string s = "ERROR: bad" +:+ nl +:+ "more").
Proof. exists [LoadDb (Some "db"); RunStr "bad"]. vm_compute. split_and!; reflexivity. Qed.
Print Assumptions error_lines_refuted.

(** The flag of another selected output is not looked at: set for 2 only, with 1 current, nothing of 2 is
    recorded; set for 1 only, with 1 current, the text of 2 is. *)
Theorem sel_other_flag_refuted :
  (exists h, let s := after toy h in i_selon s !! 2%Z = Some true /\ i_cur s = 2%Z /\ selected_string s = "" /\ selected_lines s = []) /\
  (exists h, let s := after toy h in i_selon s !! 2%Z = None /\ default "" (i_sels s !! 2%Z) = "two" +:+ nl +:+ "2" +:+ nl).
Proof.
  split.
  - exists [LoadDb (Some "db"); SetCur 2; SetSelOn true; SetCur 1; RunStr "ab"; SetCur 2]. vm_compute. split_and!; reflexivity.
  - exists [LoadDb (Some "db"); SetSelOn true; RunStr "ab"]. vm_compute. split_and!; reflexivity.
Qed.
Print Assumptions sel_other_flag_refuted.

(** ** C89 *)
(** every run came to its end or left the definitions as they were *)
Definition no_stopped_change {E} (g : engine E) (h : list op) : Prop :=
  forall p o r, h = p ++ o :: r -> is_run o ->
    (step g (after g p) o).1.2 = true \/ i_eng (after g (p ++ [o])) = i_eng (after g p).
Theorem components_current {E} (g : engine E) h : no_stopped_change g h ->
  i_comps (after g (h ++ [ListComps])) = components g (i_eng (after g h)).
Proof.
  intros Hh. assert (current g (after g h)) as Hc.
  { induction h as [|o h IH] using rev_ind; [done|]. rewrite after_snoc. apply step_current.
    - apply IH. intros p o' r ->. apply (Hh p o' (r ++ [o])). by rewrite <- app_assoc.
    - intros Ho. rewrite <- after_snoc. by apply (Hh h o []). }
  rewrite after_snoc. cbn [step fst snd]. destruct (i_update (after g h)) eqn:Hu; [|by apply Hc]. by destruct (after g h).
Qed.
Print Assumptions components_current.

(** also after a LoadDatabase, whether it fails or not *)
Theorem components_after_load {E} (g : engine E) h db :
  i_comps (after g (h ++ [LoadDb db; ListComps])) = components g (i_eng (after g (h ++ [LoadDb db]))).
Proof.
  replace (h ++ [LoadDb db; ListComps]) with ((h ++ [LoadDb db]) ++ [ListComps]) by (by rewrite <- app_assoc).
  rewrite (after_snoc g (h ++ [LoadDb db])). cbn [step fst snd].
  assert (i_update (after g (h ++ [LoadDb db])) = true) as ->; [|by destruct (after g (h ++ [LoadDb db]))].
  rewrite after_snoc. generalize (after g h) as s. intros s. cbn [step].
  assert (forall es, i_update (fold_left play es (unload g s)) = true) as Hu.
  { intros es. destruct (plays_flags es (unload g s)) as (_ & _ & _ & _ & _ & _ & _ & _ & F9 & _). rewrite F9. by destruct s. }
  assert (forall b (x : inst E), i_update (set_loaded b x) = i_update x) as Hl by (by intros b []).
  assert (forall b t (x : inst E), i_update (set_input b t x) = i_update x) as Hi by (by intros b t []).
  destruct db as [t|]; cbn zeta; cbn [fst snd].
  - destruct (read_db g t).2; cbn [fst snd]; [|by rewrite Hl, Hu].
    match goal with |- i_update (run_text g ?n ?i ?x).1.1 = _ => destruct (run_text_update g n i x) as (R1 & _ & R3 & _);
      destruct (run_text g n i x).1.2 eqn:Eb end; [by apply R1|]. by rewrite R3, Hi, Hl, Hu.
  - by rewrite Hl; unfold complain; cbn zeta; rewrite Hu.
Qed.
Print Assumptions components_after_load.

Example components_case : exists h, no_stopped_change toy h /\ i_comps (after toy (h ++ [ListComps])) = ["db"; "probe"; "Ca"; "Cl"].
Proof.
  exists [LoadDb (Some "db"); RunStr "Ca"; ListComps; Accumulate "x"; RunStr "Cl"]. split; [|by vm_compute].
  intros p o r Hp Ho. left.
  destruct p as [|? [|? [|? [|? [|? [|? p]]]]]]; cbn in Hp; simplify_eq; try done; by vm_compute.
Qed.

(** A stopped run that has defined something leaves the old list. *)
Theorem components_stale_refuted : exists h, let s := after toy (h ++ [ListComps]) in
  i_comps s = ["db"; "probe"; "Ca"] /\ components toy (i_eng s) = ["db"; "probe"; "Ca"; "half"].
Proof. exists [LoadDb (Some "db"); RunStr "Ca"; ListComps; RunStr "bad"]. vm_compute. split; reflexivity. Qed.
Print Assumptions components_stale_refuted.

(** ** C90 *)
(** RunAccumulated gives the engine the lines since the last call that starts anew. *)
Theorem accumulated_run {E} (g : engine E) h mid : current_part h mid ->
  (step g (after g h) RunAcc).2 = if i_loaded (after g h) then [accumulated mid] else [].
Proof.
  intros Hm. destruct (current_part_inv g h) as (mid' & Hp & Hi & _). rewrite (current_part_unique h mid mid' Hm Hp).
  cbn [step fst snd]. destruct (run_text_update g "RunAccumulated" (Some (i_input (after g h))) (after g h)) as (_ & _ & _ & _ & _ & _ & ->).
  by rewrite Hi.
Qed.
Print Assumptions accumulated_run.

Theorem current_part_exists h : exists mid, current_part h mid.
Proof. destruct (current_part_inv toy h) as (mid & H & _). by exists mid. Qed.
Print Assumptions current_part_exists.

(** Run again, the same input is run again. *)
Theorem accumulated_again {E} (g : engine E) h : (step g (after g (h ++ [RunAcc])) RunAcc).2 = (step g (after g h) RunAcc).2.
Proof.
  rewrite after_snoc. cbn [step fst snd]. set (s := after g h).
  destruct (run_text_update g "RunAccumulated" (Some (i_input s)) s) as (_ & _ & _ & R4 & R5 & _ & R7).
  set (q := run_text g "RunAccumulated" (Some (i_input s)) s) in *.
  assert (i_input (set_input true (i_input q.1.1) q.1.1) = i_input q.1.1 /\ i_loaded (set_input true (i_input q.1.1) q.1.1) = i_loaded q.1.1) as [E1 E2].
  { by destruct q.1.1. }
  rewrite E1. match goal with |- (run_text g ?n ?i ?x).2 = _ => destruct (run_text_update g n i x) as (_ & _ & _ & _ & _ & _ & ->) end.
  rewrite E2, R4, R5, R7. done.
Qed.
Print Assumptions accumulated_again.

(** Whether a database is loaded: the last LoadDatabase decides. *)
Theorem loaded_last {E} (g : engine E) h db r : (forall d, LoadDb d ∉ r) ->
  i_loaded (after g (h ++ LoadDb db :: r)) = match db with Some t => (read_db g t).2 | None => false end.
Proof.
  intros Hr. induction r as [|o r IH] using rev_ind.
  - rewrite after_snoc. generalize (after g h) as s. intros s. cbn [step].
    assert (forall b (x : inst E), i_loaded (set_loaded b x) = b) as Hl by (by intros b []).
    assert (forall b t (x : inst E), i_loaded (set_input b t x) = i_loaded x) as Hi by (by intros b t []).
    destruct db as [t|]; cbn zeta; cbn [fst snd]; [|by rewrite Hl].
    destruct (read_db g t).2; cbn [fst snd]; [|by rewrite Hl].
    match goal with |- i_loaded (run_text g ?n ?i ?x).1.1 = _ => destruct (run_text_update g n i x) as (_ & _ & _ & -> & _) end. by rewrite Hi, Hl.
  - rewrite app_comm_cons, app_assoc, after_snoc.
    rewrite <- IH by (intros d Hd; apply (Hr d), elem_of_app; by left).
    assert (forall d, o <> LoadDb d) as Ho. { intros d ->. apply (Hr d), elem_of_app. right. by apply elem_of_list_singleton. }
    generalize (after g (h ++ LoadDb db :: r)) as s. intros s. clear -Ho.
    assert (forall b t (x : inst E), i_loaded (set_input b t x) = i_loaded x) as Hi by (by intros b t []).
    destruct o; cbn [step fst snd]; try (by destruct s).
    + rewrite Hi. match goal with |- i_loaded (run_text g ?n ?i ?x).1.1 = _ => by destruct (run_text_update g n i x) as (_ & _ & _ & -> & _) end.
    + match goal with |- i_loaded (run_text g ?n ?i ?x).1.1 = _ => destruct (run_text_update g n i x) as (_ & _ & _ & -> & _) end. by rewrite Hi.
    + match goal with |- i_loaded (run_text g ?n ?i ?x).1.1 = _ => destruct (run_text_update g n i x) as (_ & _ & _ & -> & _) end. by rewrite Hi.
    + by destruct (Ho db).
    + by destruct s, bad.
    + destruct s. cbn. by case_match.
    + destruct s. cbn. by case_match.
Qed.
Print Assumptions loaded_last.

Example accumulated_case :
  let h := [LoadDb (Some "db"); Accumulate "a"; ClearLines; Accumulate "b"; RunAcc; SetOutOn true; Accumulate "c"; AddWarn "w"; Accumulate "d"] in
  current_part h [SetOutOn true; Accumulate "c"; AddWarn "w"; Accumulate "d"] /\
  (step toy (after toy h) RunAcc).2 = ["c" +:+ nl +:+ "d" +:+ nl].
Proof.
  split; [|by vm_compute]. eexists [_; _; _; _; _]. split_and!.
  - reflexivity.
  - repeat constructor; by intros [].
  - intros m1 m2 Hm. destruct m1 as [|? [|? [|? [|? m1]]]]; cbn in Hm; simplify_eq. by destruct m1.
  - right. eexists [_; _; _; _], _. split; [reflexivity|]. right. split; [done|]. right. by left.
Qed.

(** After a stopped run, too, the next line starts anew; lines accumulated before a run that was stopped are
    run again if no line is added. *)
Example accumulated_stopped_case :
  let h := [LoadDb (Some "db"); Accumulate "a"; RunAcc; RunAcc] in
  (step toy (after toy h) RunAcc).2 = ["a" +:+ nl] /\ (step toy (after toy (h ++ [Accumulate "c"])) RunAcc).2 = ["c" +:+ nl].
Proof. vm_compute. split; reflexivity. Qed.
