(** What the ids have to be: a table of the instances that exist and whom they belong to. *)
From Coq Require Import ZArith.
From stdpp Require Import prelude gmap.
From Verif.Base Require Import Result.
From Verif.Ids Require Import Model.
Local Open Scope Z_scope.

(** [Lost]: worker of a module whose construction failed *)
Inductive owner := User | UserPhast | Worker (m : N) (i : nat) | Lost.
(** The id of an instance is the number of its creation. [t_size]: the number of workers of a module. *)
Record table := Table { t_made : N; t_own : gmap N owner; t_mods : N; t_size : gmap N nat }.
Definition table0 : table := Table 0 ∅ 0 ∅.
Definition has (t : table) (id : Z) (o : owner) : Prop := 0 <= id /\ t_own t !! Z.to_N id = Some o.
Definition phast_kind (o : owner) : bool := match o with User => false | _ => true end.
(** The number of workers *)
Definition workers_of (nxyz threads cores : Z) : Z := Z.min (if decide (0 < threads) then threads else cores) nxyz + 2.

Inductive does (t : table) : op -> table -> out -> Prop :=
| do_create : does t ICreate (Table (t_made t + 1) (<[t_made t := User]> (t_own t)) (t_mods t) (t_size t)) (OId (Z.of_N (t_made t)))
| do_pcreate : does t PCreate (Table (t_made t + 1) (<[t_made t := UserPhast]> (t_own t)) (t_mods t) (t_size t)) (OId (Z.of_N (t_made t)))
| do_destroy id o : has t id o ->
    does t (IDestroy id) (Table (t_made t) (delete (Z.to_N id) (t_own t)) (t_mods t) (t_size t)) (OIpq 0)
| do_destroy_no id : (forall o, ~ has t id o) -> does t (IDestroy id) t (OIpq (-6))
| do_pdestroy id o : has t id o -> phast_kind o = true ->
    does t (PDestroy id) (Table (t_made t) (delete (Z.to_N id) (t_own t)) (t_mods t) (t_size t)) (OIpq 0)
| do_pdestroy_no id : (forall o, has t id o -> phast_kind o = false) -> does t (PDestroy id) t (OIpq (-6))
| do_get id o : has t id o -> does t (IGet id) t (OPtr (Some (Z.to_N id)))
| do_get_no id : (forall o, ~ has t id o) -> does t (IGet id) t (OPtr None)
| do_pget id o : has t id o -> phast_kind o = true -> does t (PGet id) t (OPtr (Some (Z.to_N id)))
| do_pget_no id : (forall o, has t id o -> phast_kind o = false) -> does t (PGet id) t (OPtr None)
| do_cleanup : does t PCleanup (Table (t_made t) (filter (fun p => phast_kind p.2 = false) (t_own t)) (t_mods t) (t_size t)) ODone
| do_module nxyz threads cores own :
    (* the next ids, in the order of the workers; all else stays *)
    let n := Z.to_N (workers_of nxyz threads cores) in
    (forall a, own !! a = if decide (t_made t <= a < t_made t + n)%N then Some (Worker (t_mods t) (N.to_nat (a - t_made t))) else t_own t !! a) ->
    does t (MCreate nxyz threads cores true) (Table (t_made t + n) own (t_mods t + 1) (<[t_mods t := N.to_nat n]> (t_size t))) (OId (Z.of_N (t_mods t)))
| do_module_no nxyz threads cores own :
    let n := Z.to_N (workers_of nxyz threads cores) in
    (forall a, own !! a = if decide (t_made t <= a < t_made t + n)%N then Some Lost else t_own t !! a) ->
    does t (MCreate nxyz threads cores false) (Table (t_made t + n) own (t_mods t + 1) (t_size t)) (OId (-1))
| do_mdestroy m n own : t_size t !! m = Some n ->
    (forall a, own !! a = match t_own t !! a with Some (Worker m' i) => if decide (m' = m) then None else Some (Worker m' i) | o => o end) ->
    does t (MDestroy m) (Table (t_made t) own (t_mods t) (delete m (t_size t))) (OId 0)
| do_mdestroy_no m : t_size t !! m = None -> does t (MDestroy m) t (OId (-6))
| do_id m i id : 0 <= i -> has t id (Worker m (Z.to_nat i)) -> does t (MId m i) t (OId id)
| do_id_no m i : (forall n, t_size t !! m = Some n -> ~ 0 <= i < Z.of_nat n) -> does t (MId m i) t (OId (-6)).

(** What a user may do: not destroy the workers of a module by their ids, nor with CleanupIPhreeqcPhast;
    create fewer than 2^31 instances. *)
Definition is_int (id : Z) : Prop := - 2 ^ 31 <= id < 2 ^ 31.
Definition may (t : table) (o : op) : Prop :=
  match o with
  | ICreate | PCreate => (t_made t < 2 ^ 31)%N
  | IDestroy id | PDestroy id => is_int id /\ forall m i, ~ has t id (Worker m i)
  | IGet id | PGet id => is_int id
  | MDestroy _ | MId _ _ => True
  | PCleanup => forall a m i, t_own t !! a <> Some (Worker m i)
  | MCreate nxyz threads cores _ =>
      0 < nxyz /\ 0 < cores /\ (t_made t + Z.to_N (workers_of nxyz threads cores) <= 2 ^ 31)%N
  end.
Fixpoint may_all (t : table) (ops : list op) : Prop :=
  match ops with
  | [] => True
  | o :: r => may t o /\ forall t' x, does t o t' x -> may_all t' r
  end.
Inductive history : table -> list (op * out) -> table -> Prop :=
| history_nil t : history t [] t
| history_cons t o x t1 tr t2 : does t o t1 x -> history t1 tr t2 -> history t ((o, x) :: tr) t2.

(** What an answer names: the instance made by the call at a position, or a worker of a module *)
Inductive key := Made (p : nat) | Work (m : N) (i : Z).
Inductive named (tr : list (op * out)) : key -> Z -> Prop :=
| named_user p id : tr !! p = Some (ICreate, OId id) -> named tr (Made p) id
| named_phast p id : tr !! p = Some (PCreate, OId id) -> named tr (Made p) id
| named_worker p m i id : tr !! p = Some (MId m i, OId id) -> 0 <= id -> named tr (Work m i) id.
