(** The recorders of a program, by number.

    Source: src/YAMLPhreeqcRM.cpp (constructor, destructor, Clear, YAMLPhreeqcRMLib) and
    src/YAML_interface_C.cpp. The lock around the map of instances makes each operation on the map
    one step; two threads that record into one recorder at the same time are not modelled. *)
From Coq Require Import String ZArith.
From stdpp Require Import prelude strings gmap.
From Verif.Base Require Import Result.
From Verif.Yaml Require Import Model.
Local Open Scope Z_scope.

Section Store.
Context {D : Type} (N : numbers D).

(** InstancesIndex and Instances; an instance is its YAML_doc. *)
Record store := Store { y_next : Z; y_docs : gmap Z (list (list (string * yvalue))) }.
Definition empty_store : store := Store 0 ∅.

(** Conversions of a number to size_t and to int *)
Definition to_size (z : Z) : Z := z mod 18446744073709551616.
Definition to_int (z : Z) : Z := (z + 2147483648) mod 4294967296 - 2147483648.

(** What a program may ask of the C interface *)
Inductive yop := OpCreate | OpDestroy (id : Z) | OpClear (id : Z) | OpCall (id : Z) (c : call D).

(** YAMLPhreeqcRMLib::GetInstance, YAMLPhreeqcRM.cpp 640-652 *)
Definition get_instance (id : Z) (s : store) : option (list (list (string * yvalue))) := y_docs s !! to_size id.

(** The number answered, and the store after. Create: YAMLPhreeqcRM.cpp 13-21 and 608-622; Destroy:
    22-31 and 625-638; Clear: 32-36; a call: the functions of YAML_interface_C.cpp. IRM_OK is 0 and
    IRM_BADINSTANCE is -6. *)
Definition ystep (o : yop) (s : store) : Z * store :=
  match o with
  | OpCreate => (to_int (y_next s), Store (to_size (y_next s + 1))
                  (if y_docs s !! y_next s then y_docs s else <[y_next s := []]> (y_docs s)))
  | OpDestroy id =>
      if id <? 0 then (irm_code IRM_BADINSTANCE, s)
      else match get_instance id s with
           | Some _ => (irm_code IRM_OK, Store (y_next s) (base.delete (to_size id) (y_docs s)))
           | None => (irm_code IRM_BADINSTANCE, s)
           end
  | OpClear id =>
      match get_instance id s with
      | Some _ => (irm_code IRM_OK, Store (y_next s) (<[to_size id := []]> (y_docs s)))
      | None => (irm_code IRM_BADINSTANCE, s)
      end
  | OpCall id c =>
      match get_instance id s with
      | Some d => (irm_code IRM_OK, Store (y_next s) (<[to_size id := d ++ [emit N c]]> (y_docs s)))
      | None => (irm_code IRM_BADINSTANCE, s)
      end
  end.
Fixpoint yrun (os : list yop) (s : store) : list Z * store :=
  match os with
  | [] => ([], s)
  | o :: os' => let '(r, s1) := ystep o s in let '(rs, s2) := yrun os' s1 in (r :: rs, s2)
  end.
End Store.
Arguments yop : clear implicits.
