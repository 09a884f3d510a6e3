(** Histories of API calls on a module whose mapping has been created. *)
From stdpp Require Import prelude gmap.
From Verif.Base Require Import Result Arith.
From Verif.Bin Require Import Model.
From Verif.Partition Require Import Spec Rebalance.
From Verif.Core Require Import Move Threads Spec Model.
Local Open Scope Z_scope.

Section history.
  Context {E R D P : Type}.
  Notation cellc := (gmap rtype E).
  Context (react : P -> Z -> cellc -> bool * cellc * R)
          (part : D -> D -> cellc -> cellc -> cellc * cellc)
          (dry : D -> bool) (A : arith).
  Implicit Types m : module E R D P.

  (** src/PhreeqcRM.cpp 11891: SetPartitionUZSolids(true). *)
  Definition uz_on m : module E R D P :=
    Mod (md_count m) (md_rep m) (md_ss m) (md_es m) (md_ws m) (md_states m) true (md_sat m) (md_old m)
      (md_par m) (md_rows m).

  Inductive op :=
  | ORun (by_cell : bool) (f : num A) (sched : list nat) (tt ct : list (num A))
  | OSave (k : Z) | OApply (k : Z) | ODelete (k : Z)
  | OInit (new : Z -> cellc)          (* InitialPhreeqc2Module and relatives, successful *)
  | OModify (t : rtype) (g : Z -> E -> E)  (* SetConcentrations, SetTemperature, ... *)
  | OEnv (sat : Z -> D) (par : P)     (* setters that only change what a step reads *)
  | OUzOn.

  Definition exec_op (o : op) m : outcome (module E R D P * irm_result) :=
    match o with
    | ORun bc f sched tm ct => run_cells react part dry A bc f sched tm ct m
    | OSave k => Ret (state_save k m)
    | OApply k => state_apply k m
    | ODelete k => state_delete k m
    | OInit new => Ret (initial_module new m, IRM_OK)
    | OModify t g => Ret (modify_cells t g m, IRM_OK)
    | OEnv sat par => Ret (with_env m sat par, IRM_OK)
    | OUzOn => Ret (uz_on m, IRM_OK)
    end.

  (** What a reaction step needs: the schedule runs every thread to its end, one
      time per thread and per cell, and a rebalancing fraction that keeps partitions
      partitions (for binary64: Core/Props.v, b64_fractions_sound). *)
  Definition op_ok (o : op) m : Prop :=
    match o with
    | ORun bc f sched tm ct =>
        finished (run_schedule sched (m_threads react part dry m)) /\
        rebalance_sound A bc f (md_count m) /\
        length tm = length (md_es m) /\ Z.of_nat (length ct) = md_count m
    | _ => True
    end.

  (** A history: calls, each possibly failing with an error code, none undefined. *)
  Inductive history m : list op -> module E R D P -> Prop :=
  | history_nil : history m [] m
  | history_snoc l m1 o m2 r :
      history m l m1 -> op_ok o m1 -> exec_op o m1 = Ret (m2, r) -> history m (l ++ [o]) m2.

  (** After CreateMapping: no contents, no states. *)
  Definition fresh m : Prop :=
    valid_split (md_count m) (md_ss m) (md_es m) /\
    md_ws m = replicate (length (md_es m)) (St ∅ ∅) /\
    md_states m = replicate (length (md_es m)) ∅.
End history.
