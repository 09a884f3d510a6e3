(** The IPhreeqc instances of a process and their ids: those made by CreateIPhreeqc, those made by
    IPhreeqcPhastLib, and the workers of reaction modules.

    Source: src/IPhreeqcPhast/IPhreeqc/IPhreeqc.cpp 16-17, 50-55, 70-93, 257-260, IPhreeqcLib.cpp 1041-1084,
    src/IPhreeqcPhast/IPhreeqcPhast.cxx 8-48, IPhreeqcPhastLib.cpp 23-98, src/PhreeqcRM.cpp 83-109, 295-310,
    376-389, 4306-4313, src/RM_interface_C.cpp 1581-1595. The registry of the modules themselves is the
    subject of topic Registry: here a module is known by the number of its creation. *)
From Coq Require Import ZArith.
From stdpp Require Import prelude gmap.
From Verif.Base Require Import Result.
From Verif.Registry Require Model.
Local Open Scope Z_scope.

(** An object is named by the number of its creation. [h_ids]: IPhreeqc::Instances; [h_phast]:
    IPhreeqcPhast::PhastInstances; [h_live]: the objects not deleted yet, with whether they are
    IPhreeqcPhast; [h_mods]: the modules with their vector workers. *)
Record heap := Heap {
  h_made : N;
  h_ids : gmap N N;
  h_phast : gmap N N;
  h_live : gmap N bool;
  h_nmods : N;
  h_mods : gmap N (list N);
}.
Definition heap0 : heap := Heap 0 ∅ ∅ ∅ 0 ∅.
(** Index, a size_t taken from InstancesIndex++ (IPhreeqc.cpp 52) *)
Definition index (a : N) : N := (a mod 2 ^ 64)%N.
(** insert of std::map keeps what is there *)
Definition insert_new (k a : N) (m : gmap N N) : gmap N N :=
  match m !! k with Some _ => m | None => <[k := a]> m end.
(** The constructors: IPhreeqc.cpp 50-55, then IPhreeqcPhast.cxx 11-15 *)
Definition make (phast : bool) (h : heap) : heap * N :=
  let a := h_made h in
  (Heap (a + 1) (insert_new (index a) a (h_ids h))
     (if phast then insert_new (index a) a (h_phast h) else h_phast h)
     (<[a := phast]> (h_live h)) (h_nmods h) (h_mods h), a).
(** The destructors: IPhreeqcPhast.cxx 28-34, IPhreeqc.cpp 86-92. Deleting what was deleted is undefined. *)
Definition free (a : N) (h : heap) : outcome heap :=
  match (h_live h !! a : option bool) with
  | Some phast =>
      Ret (Heap (h_made h) (delete (index a) (h_ids h))
             (if phast then delete (index a) (h_phast h) else h_phast h)
             (delete a (h_live h)) (h_nmods h) (h_mods h))
  | None => UB
  end.
Fixpoint free_all (l : list N) (h : heap) : outcome heap :=
  match l with [] => Ret h | a :: r => obind (free a h) (free_all r) end.
Fixpoint make_workers (n : nat) (h : heap) : heap * list N :=
  match n with
  | O => (h, [])
  | S n' => let '(h1, a) := make true h in let '(h2, l) := make_workers n' h1 in (h2, a :: l)
  end.

Inductive op :=
| ICreate                                  (* CreateIPhreeqc *)
| PCreate                                  (* CreateIPhreeqcPhast *)
| IDestroy (id : Z) | PDestroy (id : Z)    (* DestroyIPhreeqc, DestroyIPhreeqcPhast *)
| IGet (id : Z) | PGet (id : Z)            (* GetInstance of either, as all functions with an id begin *)
| PCleanup                                 (* CleanupIPhreeqcPhast *)
| MCreate (nxyz threads cores : Z) (ok : bool)
    (* CreateReactionModule; [cores]: sysconf; [ok = false]: the constructor throws after it made the workers *)
| MDestroy (m : N)                         (* DestroyReactionModule *)
| MId (m : N) (i : Z).                     (* RM_GetIPhreeqcId *)
Inductive out := OId (id : Z) | OIpq (code : Z) | OPtr (a : option N) | ODone.
Definition ipq_ok : Z := 0.
Definition ipq_badinstance : Z := -6.

Definition id_of (a : N) : Z := Registry.Model.int_of_size (index a).   (* (int)Index *)
(** IPhreeqcLib.cpp 1073-1084, IPhreeqcPhastLib.cpp 66-83 *)
Definition get (l : gmap N N) (id : Z) : option N := l !! Registry.Model.size_of_int id.
(** IPhreeqcLib.cpp 1058-1071, IPhreeqcPhastLib.cpp 45-64 *)
Definition destroy (l : gmap N N) (id : Z) (h : heap) : outcome (heap * out) :=
  if decide (0 <= id) then
    match get l id with
    | Some a => obind (free a h) (fun h' => Ret (h', OIpq ipq_ok))
    | None => Ret (h, OIpq ipq_badinstance)
    end
  else Ret (h, OIpq ipq_badinstance).
(** PhreeqcRM.cpp 296-298: the number of threads *)
Definition thread_count (nxyz threads cores : Z) : Z :=
  let n := if decide (0 < threads) then threads else cores in if decide (n < nxyz) then n else nxyz.

Definition step (h : heap) (o : op) : outcome (heap * out) :=
  match o with
  | ICreate => let '(h', a) := make false h in Ret (h', OId (id_of a))
  | PCreate => let '(h', a) := make true h in Ret (h', OId (id_of a))
  | IDestroy id => destroy (h_ids h) id h
  | PDestroy id => destroy (h_phast h) id h
  | IGet id => Ret (h, OPtr (get (h_ids h) id))
  | PGet id => Ret (h, OPtr (get (h_phast h) id))
  | PCleanup => obind (free_all (map_to_list (h_phast h)).*2 h) (fun h' => Ret (h', ODone))
  | MCreate nxyz threads cores ok =>
      (* 303-315: nthreads + 2 workers; the first is looked at *)
      let n := Z.to_nat (thread_count nxyz threads cores + 2) in
      match n with
      | O => UB
      | _ =>
          let '(h', l) := make_workers n h in
          let m := h_nmods h' in
          if ok then Ret (Heap (h_made h') (h_ids h') (h_phast h') (h_live h') (m + 1) (<[m := l]> (h_mods h')), OId (Z.of_N m))
          (* ~PhreeqcRM is not called: the workers stay *)
          else Ret (Heap (h_made h') (h_ids h') (h_phast h') (h_live h') (m + 1) (h_mods h'), OId (irm_code IRM_OUTOFMEMORY))
      end
  | MDestroy m =>
      match (h_mods h !! m : option (list N)) with
      | Some l =>
          obind (free_all l h) (fun h' =>
            Ret (Heap (h_made h') (h_ids h') (h_phast h') (h_live h') (h_nmods h') (delete m (h_mods h')), OId (irm_code IRM_OK)))
      | None => Ret (h, OId (irm_code IRM_BADINSTANCE))
      end
  | MId m i =>
      match (h_mods h !! m : option (list N)) with
      | Some l =>
          match (if decide (0 <= i) then l !! Z.to_nat i else None) with
          | Some a => if decide (is_Some (h_live h !! a)) then Ret (h, OId (id_of a)) else UB
          | None => Ret (h, OId (irm_code IRM_BADINSTANCE))
          end
      | None => Ret (h, OId (irm_code IRM_BADINSTANCE))
      end
  end.
Fixpoint run (h : heap) (ops : list op) : outcome (heap * list (op * out)) :=
  match ops with
  | [] => Ret (h, [])
  | o :: r => obind (step h o) (fun '(h1, x) => obind (run h1 r) (fun '(h2, tr) => Ret (h2, (o, x) :: tr)))
  end.
