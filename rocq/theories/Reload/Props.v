(** C85: what DumpModule writes for all cells, read by a PHREEQC instance, gives back the reactants of all
    cells. *)
From Coq Require Import ZArith String.
From stdpp Require Import prelude strings gmap.
From Verif.Base Require Import Result.
From Verif.Files Require Spec.
From Verif.Transfer Require Import Model.
From Verif.Raw Require Import Model Spec.
From Verif.Raw Require Props.
From Verif.Reload Require Import Model Spec Proofs.
Open Scope Z_scope.
Open Scope list_scope.

(** The cells are divided among the workers, every reactant carries the number of its cell and can be
    written and read (C83). Then the file of a dump that
    reports success is read without error, every reactant of every cell is restored under the number of the
    cell, unsaturated parts joined to the saturated ones, and nothing else is changed in the instance that
    reads, compared with what the previous contents of the file, if kept, leave there. *)
Theorem reload_module {D} (dcmp : D -> D -> comparison) (lit : string -> D) (rnd : D -> D) (j : joins (D := D)) uz
    append (ws : list worker)  ranges n g fails block old r r1 :
  (0 < g)%nat -> 0 < block -> Files.Spec.partition ranges n ->
  Forall (fun w => numbered w.1 /\ numbered w.2) ws -> numbering j ->
  (forall i e, module_has j uz ws ranges i e -> fits dcmp rnd keywords e) ->
  let d := dump_workers j rnd uz append ws ranges g fails block old in
  d.2 = IRM_OK ->
  read_file dcmp lit (if append then default [] old else []) (r, 0%nat) = (r1, 0%nat) ->
  exists r', read_file dcmp lit (List.last d.1 []) (r, 0%nat) = (r', 0%nat) /\
    (forall i e, module_has j uz ws ranges i e -> exists e', restored lit rnd e e' /\ stored r' i e') /\
    (forall i e', (forall e, module_has j uz ws ranges i e -> ~ alike e e') -> stored r' i e' <-> stored r1 i e').
Proof. intros Hg Hb Hp Hw Hj Hf d. by apply (reload_all dcmp lit rnd j uz append ws ranges n g). Qed.
Print Assumptions reload_module.

(** How many workers there were, how the cells were divided among them and how large the blocks were
    makes no difference to what is restored: two dumps of the same cells are read to the same reactants up
    to what one reading leaves open. *)
Theorem reload_workers {D} (dcmp : D -> D -> comparison) (lit : string -> D) (rnd : D -> D) (j : joins (D := D)) uz
    ws ws' ranges ranges' n g fails fails' block block' r :
  (0 < g)%nat -> 0 < block -> 0 < block' ->
  Files.Spec.partition ranges n -> Files.Spec.partition ranges' n ->
  Forall (fun w => numbered w.1 /\ numbered w.2) ws -> Forall (fun w => numbered w.1 /\ numbered w.2) ws' ->
  numbering j ->
  (forall i e, module_has j uz ws ranges i e -> fits dcmp rnd keywords e) ->
  (forall i e, module_has j uz ws ranges i e <-> module_has j uz ws' ranges' i e) ->
  let d := dump_workers j rnd uz false ws ranges g fails block None in
  let d' := dump_workers j rnd uz false ws' ranges' g fails' block' None in
  d.2 = IRM_OK -> d'.2 = IRM_OK ->
  exists r1 r2, read_file dcmp lit (List.last d.1 []) (r, 0%nat) = (r1, 0%nat) /\
    read_file dcmp lit (List.last d'.1 []) (r, 0%nat) = (r2, 0%nat) /\
    (forall i e, module_has j uz ws ranges i e -> exists e1 e2, restored lit rnd e e1 /\ restored lit rnd e e2 /\
       stored r1 i e1 /\ stored r2 i e2) /\
    (forall i e', (forall e, module_has j uz ws ranges i e -> ~ alike e e') -> stored r1 i e' <-> stored r2 i e').
Proof.
  intros Hg Hb Hb' Hp Hp' Hw Hw' Hj Hf He d d' Hd Hd'.
  destruct (reload_module dcmp lit rnd j uz false ws ranges n g fails block None r r Hg Hb Hp Hw Hj Hf Hd
    eq_refl) as (r1 & A1 & A2 & A3).
  destruct (reload_module dcmp lit rnd j uz false ws' ranges' n g fails' block' None r r Hg Hb' Hp' Hw' Hj)
    as (r2 & B1 & B2 & B3); [|done|done|].
  { intros i e H. apply (Hf i). by apply He. }
  exists r1, r2. split; [exact A1|]. split; [exact B1|]. split.
  - intros i e H. destruct (A2 i e H) as (e1 & ? & ?). destruct (B2 i e) as (e2 & ? & ?); [by apply He|].
    by exists e1, e2.
  - intros i e' H. rewrite A3 by done. symmetry. apply B3. intros e Hm. apply H. by apply He.
Qed.
Print Assumptions reload_workers.

(** Two workers with four cells each; cell 7 has minerals, some of them in its unsaturated part, a gas phase,
    a surface, a mix, a reaction, temperatures and pressures. *)
Definition empty_reactants {D} : reactants (D := D) := Reactants ∅ ∅ ∅ ∅ ∅ ∅ ∅ ∅ ∅ ∅ ∅.
Definition case_minerals := Raw.Props.case_pp [("O"%string, 6)].
Definition case_wet : reactants := Reactants ∅ ∅ {[7 := Raw.Props.case_gas]} ∅ {[7 := case_minerals]} ∅
  {[7 := Raw.Props.case_surface]} {[7 := Raw.Props.case_steps]} {[7 := Steps 7 7 "" [2; 3] 2 false]}
  {[7 := Raw.Props.case_mix]} {[7 := Raw.Props.case_reaction]}.
Definition case_dry : reactants := Reactants ∅ ∅ ∅ ∅ {[7 := case_minerals]} ∅ ∅ ∅ ∅ ∅ ∅.
Definition case_joins : joins (D := Z) := Joins
  (fun _ x n => Exchange n n (ex_text x) (ex_comps x) (ex_pitzer x) (ex_new x) (ex_equil x) (ex_soln x) (ex_totals x))
  (fun _ x n => GasPhase n n (gp_text x) (gp_kind x) (gp_total_p x) (gp_vol x) (gp_comps x) (gp_new x)
    (gp_equil x) (gp_soln x) (gp_temp x) (gp_moles x) (gp_vm x) (gp_pr x) (gp_totals x))
  (fun _ x n => Kinetics n n (ki_text x) (ki_comps x) (ki_steps x) (ki_count x) (ki_equal x) (ki_divide x)
    (ki_rk x) (ki_bad x) (ki_cvode x) (ki_cv_steps x) (ki_cv_order x) (ki_totals x))
  (fun y x n => PP n n (pp_text x) (pp_new y) (pp_comps x) (pp_elts x) (pp_totals x))
  (fun _ x n => SSA n n (sa_text x) (sa_list x) (sa_new x) (sa_totals x))
  (fun _ x n => Surface n n (su_text x) (su_comps x) (su_charges x) (su_new x) (su_tidied x) (su_type x)
    (su_dl x) (su_units x) (su_only x) (su_thick x) (su_debye x) (su_visc x) (su_calc x) (su_limit x)
    (su_correct x) (su_trans x) (su_totals x) (su_equil x) (su_soln x)).
Definition case_workers : list (worker (D := Z)) := [(empty_reactants, empty_reactants); (case_wet, case_dry)].
Definition case_ranges : list (Z * Z) := [(0, 3); (4, 7)].

Lemma case_partition : Files.Spec.partition case_ranges 8.
Proof.
  split.
  - intros i Hi. destruct (decide (i <= 3)).
    + exists 0%nat. split; [exists (0, 3); split; [done|cbn; lia]|]. intros [|[|w]] (r & Hr & H); [done| |done].
      injection Hr as <-. cbn in H. lia.
    + exists 1%nat. split; [exists (4, 7); split; [done|cbn; lia]|]. intros [|[|w]] (r & Hr & H); [|done|done].
      injection Hr as <-. cbn in H. lia.
  - intros [|[|w]] r [= <-]; cbn; lia.
Qed.
Lemma empty_numbered {D} : numbered (D := D) empty_reactants.
Proof. split_and!; intros i x [=]. Qed.
Lemma case_numbered : Forall (fun w => numbered w.1 /\ numbered w.2) case_workers.
Proof.
  repeat apply Forall_cons_2; [..|by apply Forall_nil]; (split; [|]); cbn [fst snd]; try apply empty_numbered;
    split_and!; intros i x; cbn [case_wet case_dry ph_sol ph_ex ph_gas ph_kin ph_pp ph_ss ph_surf ph_mix ph_react ph_temp];
    try (rewrite lookup_empty; by intros [=]); rewrite lookup_singleton_Some; by intros [<- <-].
Qed.
Lemma case_fits i e : module_has case_joins true case_workers case_ranges i e -> fits Z.compare id keywords e.
Proof.
  destruct Raw.Props.raw_case as [_ H]. rewrite Forall_forall in H.
  intros (c & w & r & Hw & Hr & Hi & He). destruct c as [|[|c]]; [..|done]; injection Hw as <-.
  - destruct e; cbn [cell_has also fst snd empty_reactants ph_sol ph_ex ph_gas ph_kin ph_pp ph_ss ph_surf ph_mix ph_react ph_temp] in He;
      rewrite ?lookup_empty in He; try done; inversion He.
  - destruct e as [x|x|x|x|x|x|x|x|x|x|x]; cbn [cell_has also fst snd case_wet case_dry ph_sol ph_ex ph_gas ph_kin ph_pp ph_ss ph_surf ph_mix ph_react ph_temp] in He;
      rewrite ?lookup_empty in He; try done; try (by inversion He).
    + apply H. destruct (decide (i = 7)) as [->|Hn].
      * rewrite lookup_singleton in He. inversion He; subst. do 2 right. left.
      * rewrite lookup_singleton_ne in He by done. inversion He.
    + apply H. destruct (decide (i = 7)) as [->|Hn].
      * rewrite lookup_singleton in He. inversion He; subst. cbn [case_joins j_pp]. do 4 right. left.
      * rewrite lookup_singleton_ne in He by done. inversion He.
    + apply H. destruct (decide (i = 7)) as [->|Hn].
      * rewrite lookup_singleton in He. inversion He; subst. do 6 right. left.
      * rewrite lookup_singleton_ne in He by done. inversion He.
    + apply H. apply lookup_singleton_Some in He as [_ <-]. do 7 right. left.
    + apply H. apply lookup_singleton_Some in He as [_ <-]. do 8 right. left.
Qed.
Example reload_case :
  Files.Spec.partition case_ranges 8 /\ Forall (fun w => numbered w.1 /\ numbered w.2) case_workers /\
  numbering case_joins /\
  (forall i e, module_has case_joins true case_workers case_ranges i e -> fits Z.compare id keywords e) /\
  module_has case_joins true case_workers case_ranges 7 (ESurface Raw.Props.case_surface) /\
  module_has case_joins true case_workers case_ranges 7 (EPP case_minerals) /\
  module_has case_joins true case_workers case_ranges 7 (EReaction Raw.Props.case_reaction) /\
  (dump_workers case_joins id true false case_workers case_ranges 3 (fun _ => false) 2 None).2 = IRM_OK /\
  (List.last (dump_workers case_joins id true false case_workers case_ranges 3 (fun _ => false) 2 None).1 [])
    <> [].
Proof.
  split; [exact case_partition|]. split; [exact case_numbered|]. split; [done|]. split; [exact case_fits|]. split_and!.
  - exists 1%nat, (case_wet, case_dry), (4, 7). split; [done|]. split; [done|]. split; [cbn; lia|].
    cbn [cell_has fst snd also case_wet case_dry ph_surf]. rewrite lookup_empty, lookup_singleton. constructor.
  - exists 1%nat, (case_wet, case_dry), (4, 7). split; [done|]. split; [done|]. split; [cbn; lia|].
    cbn [cell_has fst snd also case_wet case_dry ph_pp]. rewrite !lookup_singleton. exact (has_both (j_pp case_joins) 7 case_minerals case_minerals).
  - exists 1%nat, (case_wet, case_dry), (4, 7). split; [done|]. split; [done|]. split; [cbn; lia|]. apply lookup_singleton.
  - vm_compute. reflexivity.
  - vm_compute. discriminate.
Qed.

(** The pressures that the cells of a worker have are not in the file: an instance without any has none
    after reading. *)
Theorem reload_pressure_refuted : exists x r',
  ph_press case_wet !! 7 = Some x /\
  read_file Z.compare Raw.Props.case_lit (List.last
    (dump_workers case_joins id true false case_workers case_ranges 3 (fun _ => false) 2 None).1 [])
    (empty_reactants, 0%nat) = (r', 0%nat) /\ ph_press r' !! 7 = None.
Proof.
  destruct (reload_module Z.compare Raw.Props.case_lit id case_joins true false case_workers case_ranges 8 3
    (fun _ => false) 2 None empty_reactants empty_reactants) as (r' & H1 & _ & H2).
  - lia.
  - lia.
  - exact case_partition.
  - exact case_numbered.
  - done.
  - exact case_fits.
  - vm_compute. reflexivity.
  - reflexivity.
  - eexists _, r'. split; [apply lookup_singleton|]. split; [exact H1|].
    destruct (ph_press r' !! 7) as [x|] eqn:E; [|done]. exfalso. apply (H2 7 (EPress x)) in E.
    { cbn [stored empty_reactants ph_press] in E. by rewrite lookup_empty in E. }
    intros e (c & w & rg & _ & _ & _ & He) Ha. destruct e; done.
Qed.
Print Assumptions reload_pressure_refuted.

(** A reactant whose number is not that of its cell is looked for under its own number: here it is in no
    cell's range and is not written at all. *)
Theorem reload_number_refuted : exists w : worker (D := Z),
  is_Some (ph_pp w.1 !! 3) /\
  (dump_workers case_joins id false false [w] [(0, 3)] 3 (fun _ => false) 2 None) = ([[]], IRM_OK).
Proof.
  exists (Reactants ∅ ∅ ∅ ∅ {[3 := case_minerals]} ∅ ∅ ∅ ∅ ∅ ∅, empty_reactants). split; [by eexists|].
  vm_compute. reflexivity.
Qed.
Print Assumptions reload_number_refuted.
