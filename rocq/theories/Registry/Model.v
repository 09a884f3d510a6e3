(** Instance registry: StaticIndexer<PhreeqcRM> and its BMI clients. *)
From stdpp Require Import prelude gmap.
From Verif.Base Require Import Result.

(** A registered object is a plain PhreeqcRM or a BMIPhreeqcRM; this is all
    that the dynamic_casts in src/BMIPhreeqcRM.cpp 32-37, 104 observe. *)
Inductive kind := Plain | Bmi.
Global Instance kind_eq_dec : EqDecision kind. Proof. solve_decision. Defined.

(** src/PhreeqcRM.h 236-241, 252-259: _InstancesIndex and _Instances.
    The pointer stored under a key is identified with the key (each object is
    registered once, under its own _Index). *)
Record registry := Reg { next_index : N; instances : gmap N kind }.

Definition reg_init : registry := Reg 0 ∅.

(** size_t(id) for an int id (64-bit size_t): src/PhreeqcRM.h 152, 178. *)
Definition size_of_int (id : Z) : N := Z.to_N (id `mod` 2 ^ 64)%Z.
(** (int)this->_Index: src/PhreeqcRM.h 231-234. *)
Definition int_of_size (n : N) : Z := ((Z.of_N n + 2 ^ 31) `mod` 2 ^ 32 - 2 ^ 31)%Z.

(** GetInstance: src/PhreeqcRM.h 149-158. *)
Definition get_instance (s : registry) (id : Z) : option kind :=
  instances s !! size_of_int id.
(** BMIPhreeqcRM::GetInstance: src/BMIPhreeqcRM.cpp 99-105. *)
Definition get_bmi_instance (s : registry) (id : Z) : option kind :=
  match get_instance s id with Some Bmi => Some Bmi | _ => None end.

Inductive op :=
| Create (k : kind) (ctor_ok : bool)
    (* CreateReactionModule / CreateBMIModule; [ctor_ok = false]: the
       constructor body throws after the StaticIndexer base was built *)
| Destroy (id : Z)        (* DestroyReactionModule *)
| DestroyBMI (id : Z)     (* DestroyBMIModule *)
| Lookup (id : Z)         (* GetInstance *)
| LookupBMI (id : Z)      (* BMIPhreeqcRM::GetInstance *)
| CleanupAll              (* CleanupReactionModuleInstances *)
| CleanupBMI.             (* CleanupBMIModuleInstances *)

Inductive out :=
| OId (id : Z)
| OResult (r : irm_result)
| OInst (k : option kind)
| ODone.

(** Construction registers (h 130-135); if the constructor body throws, the
    base destructor erases the entry again (h 137-146) and the factory
    returns IRM_OUTOFMEMORY (PhreeqcRM.cpp 83-103, BMIPhreeqcRM.cpp 45-88). *)
Definition create (s : registry) (k : kind) (ctor_ok : bool) : registry * out :=
  let i := next_index s in
  let m := <[i := k]> (instances s) in
  if ctor_ok then (Reg (i + 1) m, OId (int_of_size i))
  else (Reg (i + 1) (delete i m), OId (irm_code IRM_OUTOFMEMORY)).

(** Destroy: src/PhreeqcRM.h 176-187 (delete runs ~StaticIndexer, 137-146). *)
Definition destroy (s : registry) (id : Z) : registry * irm_result :=
  match instances s !! size_of_int id with
  | Some _ => (Reg (next_index s) (delete (size_of_int id) (instances s)), IRM_OK)
  | None => (s, IRM_BADINSTANCE)
  end.

(** DestroyBMIModule: src/BMIPhreeqcRM.cpp 89-98. *)
Definition destroy_bmi (s : registry) (id : Z) : registry * irm_result :=
  match get_bmi_instance s id with
  | Some _ => destroy s id
  | None => (s, IRM_BADINSTANCE)
  end.

(** DestroyAll: src/PhreeqcRM.h 206-218 (takes no lock itself). *)
Definition destroy_all (s : registry) : registry := Reg (next_index s) ∅.

(** CleanupBMIModuleInstances: src/BMIPhreeqcRM.cpp 23-43.  The function holds
    _InstancesLock (line 29) while it deletes the BMI objects, and each
    deletion locks the same non-recursive std::mutex in ~StaticIndexer
    (PhreeqcRM.h 139): undefined behaviour (a self-deadlock in practice) as
    soon as there is one BMI object. *)
Definition has_bmi (s : registry) : bool :=
  existsb (fun p => bool_decide (p.2 = Bmi)) (map_to_list (instances s)).
Definition cleanup_bmi (s : registry) : outcome registry :=
  if has_bmi s then UB else Ret s.

Definition step (s : registry) (o : op) : outcome (registry * out) :=
  match o with
  | Create k ok => Ret (create s k ok)
  | Destroy id => let '(s', r) := destroy s id in Ret (s', OResult r)
  | DestroyBMI id => let '(s', r) := destroy_bmi s id in Ret (s', OResult r)
  | Lookup id => Ret (s, OInst (get_instance s id))
  | LookupBMI id => Ret (s, OInst (get_bmi_instance s id))
  | CleanupAll => Ret (destroy_all s, ODone)
  | CleanupBMI => obind (cleanup_bmi s) (fun s' => Ret (s', ODone))
  end.

(** A history: operations with their visible outputs, oldest first. *)
Fixpoint run (s : registry) (ops : list op) : outcome (registry * list (op * out)) :=
  match ops with
  | [] => Ret (s, [])
  | o :: ops' =>
      obind (step s o) (fun '(s1, x) =>
      obind (run s1 ops') (fun '(s2, tr) => Ret (s2, (o, x) :: tr)))
  end.

(** ** Several C++ threads using the registry

    Creation is atomic (it holds the lock, h 132).  Destroy is not: the lookup
    on line 178 takes no lock, and the object is deleted later on line 182.
    [pending t] is the object thread t is about to delete. *)
Record creg := CReg { cr_reg : registry; pending : gmap nat N }.

Inductive cstep_op :=
| CCreate (k : kind)
| CFind (t : nat) (id : Z)   (* line 178 of Destroy, in thread t *)
| CDelete (t : nat).         (* line 182, in thread t *)

Definition cstep (s : creg) (o : cstep_op) : outcome (creg * option Z) :=
  match o with
  | CCreate k =>
      let '(r, x) := create (cr_reg s) k true in
      Ret (CReg r (pending s), match x with OId i => Some i | _ => None end)
  | CFind t id =>
      match instances (cr_reg s) !! size_of_int id with
      | Some _ => Ret (CReg (cr_reg s) (<[t := size_of_int id]> (pending s)), None)
      | None => Ret (s, None)
      end
  | CDelete t =>
      match pending s !! t with
      | None => Ret (s, None)
      | Some i =>
          match instances (cr_reg s) !! i with
          | Some _ =>
              Ret (CReg (Reg (next_index (cr_reg s)) (delete i (instances (cr_reg s))))
                        (delete t (pending s)), None)
          | None => UB   (* the object was already deleted: double delete *)
          end
      end
  end.

Fixpoint crun (s : creg) (os : list cstep_op) : outcome (creg * list Z) :=
  match os with
  | [] => Ret (s, [])
  | o :: os' =>
      obind (cstep s o) (fun '(s1, x) =>
      obind (crun s1 os') (fun '(s2, ids) =>
        Ret (s2, match x with Some i => i :: ids | None => ids end)))
  end.
