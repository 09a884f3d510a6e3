(** Running input on the workers, InitialPhreeqc and Utility; loading a database into all of them.

    Source: src/PhreeqcRM.cpp 10509-10787 (RunFile, RunFileThread, RunString, RunStringThread),
    5404-5498 (HandleErrorsInternal), 6929-6996 (LoadDatabase), 11018-11045 and
    11550-11576 (SetChemistryFileName, SetDatabaseFileName). *)
From Coq Require Import ZArith String.
From stdpp Require Import prelude strings.
From Verif.Base Require Import Result.
From Verif.Settings Require Import Model.
Open Scope list_scope.

(** How an engine ends a run: with a number of errors, or by an exception. *)
Inductive answer := Errors (n : Z) | Exception.
(** The caller's flags, and those of SetPrintChemistryOn: workers, InitialPhreeqc, Utility. *)
Record flags := Flags { f_workers : bool; f_initial : bool; f_utility : bool }.
(** What is written: the output text of an instance, its error text, or the note about an unhandled
    exception. *)
Inductive message := Output (t : string) | Error (t : string) | Unhandled (n : nat).

Section run.
  Context {S : Type}.
  (** An engine's run: the flag is SetOutputStringOn. The engine is arbitrary; the switches for its
      files (10609-10613) are part of it. *)
  Context (engine : bool -> S -> S * answer) (out_text err_text : S -> string).
  Context (nthreads : nat) (print : flags).

  Definition flag_of (f : flags) (n : nat) : bool :=
    if (n <? nthreads)%nat then f_workers f
    else if (n =? nthreads)%nat then f_initial f else f_utility f.

  (** RunFileThread (10588-10640) and RunStringThread (10725-10787), which differ in that the latter
      writes the error text itself ([tell]). *)
  Definition thread (tell : bool) (n : nat) (s : S) : S * irm_result * list message :=
    let p := flag_of print n in
    let r := engine p s in
    match r.2 with
    | Errors k =>
        if (0 <? k)%Z then (r.1, IRM_FAIL, if tell then [Error (err_text r.1)] else [])
        else (r.1, IRM_OK, if p then [Output (out_text r.1)] else [])
    | Exception => (r.1, IRM_FAIL, [Unhandled n])
    end.

  (** The vectors [run] and [r_vector] (10544-10566, 10681-10700), and the parallel loop
      (10568-10580, 10701-10712). Instances share nothing but the log, so that a schedule is the
      order in which they are run. *)
  Definition step (tell : bool) (f : flags) (st : list S * list irm_result * list message) (n : nat)
      : list S * list irm_result * list message :=
    if flag_of f n then
      match st.1.1 !! n with
      | Some s => let t := thread tell n s in (<[n := t.1.1]> st.1.1, <[n := t.1.2]> st.1.2, st.2 ++ t.2)
      | None => st
      end
    else st.
  Definition run_threads (tell : bool) (f : flags) (order : list nat) (vs : list S)
      : list S * list irm_result * list message :=
    fold_left (step tell f) order (vs, replicate (nthreads + 2) IRM_OK, []).

  (** HandleErrorsInternal of the thread build, 5476-5498: the error texts of the failed instances,
      and whether it throws. *)
  Definition error_texts (vs : list S) (rs : list irm_result) : list message :=
    concat (zip_with (fun s r => if decide (r = IRM_OK) then [] else [Error (err_text s)]) vs rs).
  Definition run_code (rs : list irm_result) : irm_result :=
    if decide (Forall (fun r => r = IRM_OK) rs) then IRM_OK else IRM_FAIL.

  (** RunString, 10642-10722. *)
  Definition run_input (tell : bool) (mode : Z) (f : flags) (order : list nat) (vs : list S)
      : list S * list message * reply :=
    let r := run_threads tell f order vs in
    (r.1.1, r.2 ++ error_texts r.1.1 r.1.2, return_handler mode (run_code r.1.2)).
  (** RunFile, 10509-10586: the name, trimmed, is stored first by SetChemistryFileName, whose code
      is not looked at but which ends by ReturnHandler itself. *)
  Definition run_file (mode : Z) (name : string) (f : flags) (order : list nat) (vs : list S)
      : list S * list message * reply :=
    match return_handler mode (if decide (name = "")%string then IRM_INVALIDARG else IRM_OK) with
    | Returned _ => run_input false mode f order vs
    | other => (vs, [], other)
    end.

  (** The MPI build (HandleErrorsInternal 5404-5470): every process has one worker, an InitialPhreeqc
      and a Utility of its own, and only the first entry of each process' [r_vector] is gathered.
      Messages are left out. *)
  Definition mpi_run (tell : bool) (mode : Z) (f : flags) (orders : list (list nat)) (procs : list (list S))
      : list (list S) * reply :=
    let rs := zip_with (run_threads tell f) orders procs in
    (map (fun r => r.1.1) rs, return_handler mode (run_code (map (fun r => default IRM_OK (r.1.2 !! 0)) rs))).
End run.

(** LoadDatabase, 6929-6996, of the thread build: an empty name (after trimming) is refused before
    anything is loaded. SetDatabaseFileName's ReturnHandler is inside the [try]: an exception of it
    is caught. The species flag set at the end (6979-6982) is not modelled. *)
Definition load_database {S} (load : S -> S * Z) (mode : Z) (name : string) (vs : list S) : list S * reply :=
  if decide (name = "")%string then
    (vs, if (mode =? 2)%Z then Exited IRM_INVALIDARG else return_handler mode IRM_FAIL)
  else
    let rs := map load vs in
    (map fst rs, return_handler mode (if decide (Forall (fun r : S * Z => r.2 = 0%Z) rs) then IRM_OK else IRM_FAIL)).
