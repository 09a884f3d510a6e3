From stdpp Require Import prelude gmap.
From Verif.Base Require Import Result.
From Verif.Registry Require Import Model Spec Proofs.
Local Open Scope Z_scope.

(** C01. For every history of calls that returns, every output is the one
    expected from the set of live ids (which only the visible history
    determines), and all ids handed out are pairwise different.  The guard is
    the number of creations an [int] id can distinguish. *)
Theorem registry_history_expected : forall ops s tr,
  Forall op_int ops -> creations ops <= 2 ^ 31 ->
  run reg_init ops = Ret (s, tr) ->
  well_behaved ∅ tr /\ NoDup (ids_returned tr).
Proof. exact registry_history. Qed.
Print Assumptions registry_history_expected.

Example registry_history_nontrivial :
  exists s tr,
    run reg_init [Create Plain true; Create Bmi true; Destroy 0; Create Plain false;
                  Destroy 0; DestroyBMI 1; Create Bmi true; Lookup 1; LookupBMI 3; Lookup (-1)]
    = Ret (s, tr) /\
    map snd tr = [OId 0; OId 1; OResult IRM_OK; OId (-1); OResult IRM_BADINSTANCE;
                  OResult IRM_OK; OId 3; OInst None; OInst (Some Bmi); OInst None].
Proof. eexists _, _. split; [vm_compute; reflexivity|reflexivity]. Qed.

(** C01. The only call that does not return is the BMI clean-up while a BMI
    instance is alive (it relocks a non-recursive mutex). *)
Theorem registry_only_cleanup_bmi_stuck : forall ops s tr,
  Forall op_int ops -> creations ops <= 2 ^ 31 ->
  run reg_init ops = Ret (s, tr) ->
  forall o, step s o = UB <-> (o = CleanupBMI /\ exists i, alive tr !! i = Some Bmi).
Proof. exact registry_stuck. Qed.
Print Assumptions registry_only_cleanup_bmi_stuck.

Theorem registry_cleanup_bmi_refuted :
  exists ops, Forall op_int ops /\ run reg_init ops = UB.
Proof. exists [Create Bmi true; CleanupBMI]. split; [repeat constructor|vm_compute; reflexivity]. Qed.
Print Assumptions registry_cleanup_bmi_refuted.

(** C01. Under any interleaving of C++ threads, the ids handed out are pairwise
    different ... *)
Theorem registry_concurrent_ids_unique : forall os s' ids,
  ccreations os <= 2 ^ 31 ->
  crun creg_init os = Ret (s', ids) -> NoDup ids.
Proof. intros os s' ids Hc Hr. exact (proj1 (crun_ids os creg_init s' ids Hc Hr)). Qed.
Print Assumptions registry_concurrent_ids_unique.

(** ... and nothing is deleted twice as long as no two threads destroy the same
    id at the same time; ... *)
Theorem registry_concurrent_destroy_exclusive : forall os,
  exclusive creg_init os -> exists s' ids, crun creg_init os = Ret (s', ids).
Proof. intros os. exact (crun_exclusive os creg_init cinv_init). Qed.
Print Assumptions registry_concurrent_destroy_exclusive.

Example registry_concurrent_exclusive_nontrivial :
  exclusive creg_init [CCreate Plain; CCreate Bmi; CFind 1 0; CFind 2 1; CDelete 2; CDelete 1].
Proof.
  repeat (split; [ vm_compute; intros; repeat case_match; simplify_eq; try done
                 | intros ? ? E; vm_compute in E; injection E as <- <- ]); try done.
Qed.

(** ... whereas two threads destroying the same id can both pass the unlocked
    lookup and delete the object twice. *)
Theorem registry_concurrent_double_destroy_refuted :
  exists os, crun creg_init os = UB.
Proof.
  exists [CCreate Plain; CFind 1 0; CFind 2 0; CDelete 1; CDelete 2].
  vm_compute. reflexivity.
Qed.
Print Assumptions registry_concurrent_double_destroy_refuted.
