(** Properties of the initialization of a BMI instance *)
From Coq Require Import String ZArith Lia.
From stdpp Require Import prelude strings.
From Verif.Base Require Import Result.
From Verif.Yaml Require Import Model Spec Proofs.
From Verif.Yaml Require Props.
From Verif.Mapping Require Model Props.
From Verif.Start Require Import Model Spec Proofs.
Local Open Scope Z_scope.

Section props.
  Context {D St : Type} (N : numbers D).
  Context (fresh : Mapping.Model.mapping_state -> St) (run : call D -> St -> outcome St) (nproc : Z).
  Notation initialize_bmi := (initialize_bmi N fresh run nproc).

  (** C107: Initialize of a new instance with a recorded document constructs it with the last count of cells and of threads in the part of the
      document that ends where both were found (the ones given to the constructor, if there is none), and then makes all calls of
      the document, in order, on this instance. *)
  Theorem start_recorded cs b : faithful N -> Forall known cs -> Forall ints_ok cs -> b_module b = None ->
    exists p, looked_at cs p /\
      let n := default (i_nxyz (b_init b)) (last (counts p)) in
      let t := default (i_threads (b_init b)) (last (threads p)) in
      (1 <= n -> 1 <= nproc ->
       exists m r, Mapping.Model.nxyz m = n /\ Mapping.Model.count_chemistry m = n /\
         Mapping.Model.nthreads m = (if decide (t > 0) then t else nproc) `min` n /\
         played run cs (fresh m) r /\
         initialize_bmi (Some (record N cs)) b = obind r (fun s => Ret (Bmi (Init n t) (Some s)))).
  Proof.
    intros HN Hk Hi Hb. destruct (scan_record N cs (b_init b) Hi) as (p & Hp & E). exists p. split; [done|].
    cbv zeta. intros Hn Hproc. unfold Model.initialize_bmi. rewrite E. cbn [obind]. unfold construct_once.
    cbn [b_module]. rewrite Hb. cbn [b_init i_nxyz i_threads].
    set (n := default (i_nxyz (b_init b)) (last (counts p))) in *.
    set (t := default (i_threads (b_init b)) (last (threads p))) in *.
    destruct (Mapping.Props.construct_distribution n t nproc Hn Hproc) as (m & Em & _ & _ & _ & _ & Ht & Hc & _).
    exists m, (initialize N run (record N cs) (fresh m)). split_and!; [|done|done| |].
    - revert Em. unfold Mapping.Model.construct. destruct (EndCells.set_end_cells _ _) as [[]| |]; [|done..].
      by intros [= <-].
    - by apply Yaml.Props.yaml_replay.
    - rewrite Em. cbn [obind b_module b_init]. done.
  Qed.

  Lemma looked_prefix (cs p : list (call D)) : looked_at cs p ->
    (counts p = counts cs \/ counts p <> []) /\ (threads p = threads cs \/ threads p <> []) /\ exists r, cs = p ++ r.
  Proof.
    intros [[-> _]|(q & c & r & -> & -> & _ & H1 & H2)].
    - split_and!; [by left|by left|]. exists []. by rewrite app_nil_r.
    - split_and!; [by right|by right|]. exists r. by rewrite <- app_assoc.
  Qed.
  (** A document with one count of cells: it is the one used wherever it stands, and the one GetGridCellCountYAML gives; likewise
      for the threads. *)
  Theorem start_single cs p n : Forall ints_ok cs -> looked_at cs p ->
    (counts cs = [n] -> counts p = [n] /\ grid_cell_count (record N cs) = Ret n) /\
    (threads cs = [n] -> threads p = [n]) /\
    (counts cs = [] -> counts p = [] /\ grid_cell_count (record N cs) = Ret 0) /\
    (threads cs = [] -> threads p = []).
  Proof.
    intros Hi Hp. destruct (looked_prefix cs p Hp) as (Hc & Ht & r & Er).
    assert (Ec : counts cs = counts p ++ counts r) by (unfold counts; by rewrite Er, omap_app).
    assert (Et : threads cs = threads p ++ threads r) by (unfold threads; by rewrite Er, omap_app).
    assert (Hone : forall (l l' : list Z), [n] = l ++ l' -> l <> [] -> l = [n]).
    { intros [|x l] l' H Hne; [done|]. cbn in H. assert (x = n) as -> by congruence.
      assert (l ++ l' = []) as [-> _]%app_eq_nil by congruence. done. }
    destruct (Yaml.Props.yaml_cell_count D N cs Hi) as [Y1 Y2]. split_and!.
    - intros H. split; [destruct Hc as [Hc|Hc]; [congruence|]; apply (Hone _ (counts r)); congruence|].
      assert (Hsplit : exists a b, cs = a ++ YSetGridCellCount n :: b /\ counts a = []).
      { clear -H. induction cs as [|c cs IH]; [done|]. unfold counts in H. cbn in H.
        destruct c; try (destruct (IH H) as (a & b & -> & Ha); eexists (_ :: a), b; split; [reflexivity|done]).
        assert (count = n) as -> by congruence. by exists [], cs. }
      destruct Hsplit as (a & b & Ecs & Ha). apply (Y1 a n b Ecs). intros m Hm.
      assert (m ∈ counts a) as Hin by (apply elem_of_list_omap; by exists (YSetGridCellCount m)).
      rewrite Ha in Hin. by apply elem_of_nil in Hin.
    - intros H. destruct Ht as [Ht|Ht]; [congruence|]. apply (Hone _ (threads r)); congruence.
    - intros H. split; [rewrite H in Ec; symmetry in Ec; by apply app_eq_nil in Ec as [? _]|].
      apply Y2. intros m Hm.
      assert (m ∈ counts cs) as Hin by (apply elem_of_list_omap; by exists (YSetGridCellCount m)).
      rewrite H in Hin. by apply elem_of_nil in Hin.
    - intros H. rewrite H in Et. symmetry in Et. by apply app_eq_nil in Et as [? _].
  Qed.

  (** Initialize without a document constructs with what the constructor got; and later calls of Initialize construct nothing, but make
      the calls of their document on the instance as it is. *)
  Theorem start_once cs b s : faithful N -> Forall known cs -> Forall ints_ok cs -> b_module b = Some s ->
    initialize_bmi None b = Ret b /\
    exists i r, played run cs s r /\ initialize_bmi (Some (record N cs)) b = obind r (fun s' => Ret (Bmi i (Some s'))).
  Proof.
    intros HN Hk Hi Hb. unfold Model.initialize_bmi, construct_once. rewrite Hb. split; [done|].
    destruct (scan_record N cs (b_init b) Hi) as (p & Hp & E). rewrite E. cbn [obind b_module].
    eexists _, (initialize N run (record N cs) s). split; [by apply Yaml.Props.yaml_replay|]. reflexivity.
  Qed.
  Theorem start_empty nx t : 1 <= nx -> 1 <= nproc ->
    exists m, initialize_bmi None (new_bmi nx t) = Ret (Bmi (Init nx t) (Some (fresh m))) /\
      Mapping.Model.nxyz m = nx /\ Mapping.Model.nthreads m = (if decide (t > 0) then t else nproc) `min` nx.
  Proof.
    intros Hn Hproc. destruct (Mapping.Props.construct_distribution nx t nproc Hn Hproc) as (m & Em & _ & _ & _ & _ & Ht & Hc & _).
    exists m. cbn. rewrite Em. split_and!; [done| |done].
    revert Em. unfold Mapping.Model.construct. destruct (EndCells.set_end_cells _ _) as [[]| |]; [|done..]. by intros [= <-].
  Qed.
End props.

(** Instances that are their mapping, and calls that do nothing; truth values in the place of doubles *)
Definition still (c : call bool) (m : Mapping.Model.mapping_state) : outcome Mapping.Model.mapping_state := Ret m.
Definition start (cs : list (call bool)) := initialize_bmi Yaml.Props.demo_fun id still 4 (Some (record Yaml.Props.demo_fun cs)).
Definition grid (o : outcome (bmi Mapping.Model.mapping_state)) : option (Z * Z) :=
  match o with Ret (Bmi _ (Some m)) => Some (Mapping.Model.nxyz m, Mapping.Model.nthreads m) | _ => None end.

Example start_recorded_example :
  grid (start [YOpenFiles; YThreadCount 2; YSetTime true; YSetGridCellCount 7; YRunCells] new_default) = Some (7, 2) /\
  grid (start [YOpenFiles] new_default) = Some (10, 4) /\
  grid (start [YSetGridCellCount 3] (new_bmi 5 8)) = Some (3, 3).
Proof. split_and!; vm_compute; reflexivity. Qed.
Example looked_at_example :
  let cs := [YOpenFiles; YThreadCount 2; YSetGridCellCount 7; YSetGridCellCount 8] : list (call bool) in
  looked_at cs (take 3 cs).
Proof.
  right. exists [YOpenFiles; YThreadCount 2], (YSetGridCellCount 7), [YSetGridCellCount 8]. split_and!; try done. by left.
Qed.

(** Refuted: the instance has the number of cells that GetGridCellCountYAML gives. With two counts, that gives the first and the instance has the
    second, unless the number of threads stands between them. *)
Theorem start_two_refuted :
  grid_cell_count (record Yaml.Props.demo_fun [YSetGridCellCount 10; YSetGridCellCount 20]) = Ret 10 /\
  grid (start [YSetGridCellCount 10; YSetGridCellCount 20] new_default) = Some (20, 4) /\
  grid (start [YSetGridCellCount 10; YThreadCount 2; YSetGridCellCount 20] new_default) = Some (10, 2) /\
  grid_cell_count (record Yaml.Props.demo_fun [YOpenFiles]) = Ret 0 /\ grid (start [YOpenFiles] new_default) = Some (10, 4).
Proof. split_and!; vm_compute; reflexivity. Qed.

(** Refuted: after Initialize the instance has the number of cells of the document. A second Initialize keeps the first grid, though the
    Initializer has the new number. *)
Theorem start_again_refuted :
  exists b b', start [YSetGridCellCount 3] new_default = Ret b /\ start [YSetGridCellCount 5] b = Ret b' /\
    grid (Ret b') = Some (3, 3) /\ i_nxyz (b_init b') = 5.
Proof. do 2 eexists. split; [vm_compute; reflexivity|]. split; [vm_compute; reflexivity|]. split; vm_compute; reflexivity. Qed.

Print Assumptions start_recorded.
Print Assumptions start_single.
Print Assumptions start_once.
Print Assumptions start_empty.
Print Assumptions start_two_refuted.
Print Assumptions start_again_refuted.
