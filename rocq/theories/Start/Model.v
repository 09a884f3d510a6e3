(** Constructing and initializing a BMI instance.

    Source: src/BMIPhreeqcRM.cpp 108-137 (constructors), 152-163 (Construct), 166-206 (Initialize), src/PhreeqcRM.h 5805-5818
    (Initializer). The document is that of the topic Yaml; the mapping that the construction makes is that of the topic
    Mapping. Everything else that the construction makes is a function of this mapping here, and what the calls of a
    document do is arbitrary. Build with OpenMP and YAML, without MPI. *)
From Coq Require Import String ZArith.
From stdpp Require Import prelude strings.
From Verif.Base Require Import Result.
From Verif.Yaml Require Import Model.
From Verif.Mapping Require Model.
Local Open Scope string_scope.
Local Open Scope Z_scope.

(** Initializer, PhreeqcRM.h 5807-5818 *)
Record initializer := Init { i_nxyz : Z; i_threads : Z }.
(** default_nxyz (PhreeqcRM.h 5805) and default_data_for_parallel_processing (PhreeqcRM.cpp 66-70) *)
Definition default_init : initializer := Init 10 (-1).

Section start.
  Context {D St : Type} (N : numbers D).
  (** What a constructed instance is, the methods that a document calls, and the number of processors *)
  Context (fresh : Mapping.Model.mapping_state -> St) (run : call D -> St -> outcome St) (nproc : Z).

  (** The instance; before its construction there is nothing but the initializer. [constructed] is set if there is a module
      (Initialize 198-199). *)
  Record bmi := Bmi { b_init : initializer; b_module : option St }.
  (** Constructors, 108-135 *)
  Definition new_default : bmi := Bmi default_init None.
  Definition new_bmi (nxyz threads : Z) : bmi := Bmi (Init nxyz threads) None.

  (** The loop 175-194, which ends when both were found *)
  Fixpoint scan (doc : list ynode) (found_nxyz found_threads : bool) (i : initializer) : outcome initializer :=
    match doc with
    | [] => Ret i
    | n :: doc' =>
        obind (arg as_str n 0) (fun keyword =>
        obind (if String.eqb keyword "SetGridCellCount"
               then obind (arg as_int n 1) (fun z => Ret (Init z (i_threads i), true))
               else Ret (i, found_nxyz)) (fun r =>
        let '(i1, fn) := r in
        obind (if String.eqb keyword "ThreadCount"
               then obind (arg as_int n 1) (fun z => Ret (Init (i_nxyz i1) z, true))
               else Ret (i1, found_threads)) (fun r' =>
        let '(i2, ft) := r' in
        if ft && fn then Ret i2 else scan doc' fn ft i2)))
    end.
  (** Construct with the test of [constructed], 152-163 and 198-199 *)
  Definition construct_once (b : bmi) : outcome bmi :=
    match b_module b with
    | Some _ => Ret b
    | None => obind (Mapping.Model.construct (i_nxyz (b_init b)) (i_threads (b_init b)) nproc) (fun m =>
                Ret (Bmi (b_init b) (Some (fresh m))))
    end.
  (** Initialize, 166-206; [None] is an empty file name *)
  Definition initialize_bmi (config : option (list ynode)) (b : bmi) : outcome bmi :=
    match config with
    | None => construct_once b
    | Some doc =>
        obind (scan doc false false (b_init b)) (fun i =>
        obind (construct_once (Bmi i (b_module b))) (fun b1 =>
        match b_module b1 with
        | Some s => obind (initialize N run doc s) (fun s' => Ret (Bmi (b_init b1) (Some s')))
        | None => UB
        end))
    end.
End start.
Arguments bmi : clear implicits.
