(** What a user of the registry relies on, stated over the visible history of
    calls only. *)
From stdpp Require Import prelude gmap.
From Verif.Base Require Import Result.
From Verif.Registry Require Import Model.

(** Number of creation calls in a history. *)
Fixpoint creations (ops : list op) : Z :=
  match ops with
  | [] => 0
  | Create _ _ :: r => 1 + creations r
  | _ :: r => creations r
  end.

(** Ids handed out to the user. *)
Fixpoint ids_returned (tr : list (op * out)) : list Z :=
  match tr with
  | (Create _ true, OId i) :: r => i :: ids_returned r
  | _ :: r => ids_returned r
  | [] => []
  end.

(** Which instances a user must consider alive after a history, starting from
    the set [a]: creation adds, a destroy call that reported success removes. *)
Definition alive_step (a : gmap Z kind) (e : op * out) : gmap Z kind :=
  match e with
  | (Create k true, OId i) => <[i := k]> a
  | (Destroy i, OResult IRM_OK) => delete i a
  | (DestroyBMI i, OResult IRM_OK) => delete i a
  | (CleanupAll, _) => ∅
  | _ => a
  end.
Definition alive (tr : list (op * out)) : gmap Z kind := fold_left alive_step tr ∅.

(** The int range. *)
Definition is_int (id : Z) : Prop := (- 2 ^ 31 <= id < 2 ^ 31)%Z.

(** Arguments of type int. *)
Definition op_int (o : op) : Prop :=
  match o with
  | Destroy id | DestroyBMI id | Lookup id | LookupBMI id => is_int id
  | _ => True
  end.

(** The output a user expects from a call, given the set of live ids. *)
Definition expected (a : gmap Z kind) (o : op) (x : out) : Prop :=
  match o with
  | Create _ true => exists i, x = OId i /\ a !! i = None /\ 0 <= i
  | Create _ false => x = OId (irm_code IRM_OUTOFMEMORY)
  | Lookup id => x = OInst (a !! id)
  | LookupBMI id => x = OInst (match a !! id with Some Bmi => Some Bmi | _ => None end)
  | Destroy id =>
      x = OResult (match a !! id with Some _ => IRM_OK | None => IRM_BADINSTANCE end)
  | DestroyBMI id =>
      x = OResult (match a !! id with Some Bmi => IRM_OK | _ => IRM_BADINSTANCE end)
  | CleanupAll | CleanupBMI => x = ODone
  end%Z.

(** A history in which every output is the expected one. *)
Fixpoint well_behaved (a : gmap Z kind) (tr : list (op * out)) : Prop :=
  match tr with
  | [] => True
  | (o, x) :: r => expected a o x /\ well_behaved (alive_step a (o, x)) r
  end.
