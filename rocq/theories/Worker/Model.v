(** The loop of an MPI worker and the functions a program registers with it.

    Source: src/PhreeqcRM.cpp 7015-7492 (MpiWorker, MpiWorkerBreak), 11845-11871 (SetMpiWorkerCallback...), 110-120
    (ErrorHandler), 9633-9660 (ReturnHandler), the constructor 168-170. Which method belongs to a
    number is Mpi/Methods.v. The methods of the module and the functions of the program are opaque here: each gets
    the whole state of the process, may change it, and may end in an exception. What they send to each other is the
    topic Mpi. Passing the functions on from C and Fortran (RM_interface_C.cpp 2580-2604, RM_interface_F.cpp
    2235-2248) adds the look-up of the instance only (topic Registry). *)
From Coq Require Import ZArith.
From stdpp Require Import prelude.
From Verif.Mpi Require Import Methods.
Local Open Scope Z_scope.

Section worker.
  (** All else of the process *)
  Context {U : Type}.

  (** One process: mpi_worker_callback_fortran, mpi_worker_callback_c ([None] the null pointer, functions being numbered),
      mpi_worker_callback_cookie; the number of reports "Task returned error in MpiWorker." *)
  Record worker := Worker { w_f : option nat; w_c : option nat; w_cookie : nat; w_reports : nat; w_rest : U }.
  (** The constructor, 168-170 *)
  Definition new_worker (u : U) : worker := Worker None None 0 0 u.
  (** SetMpiWorkerCallbackC (11847-11853), SetMpiWorkerCallbackCookie (11856-11862), SetMpiWorkerCallbackFortran (11865-11871) *)
  Definition set_c (c : option nat) (w : worker) : worker := Worker (w_f w) c (w_cookie w) (w_reports w) (w_rest w).
  Definition set_cookie (k : nat) (w : worker) : worker := Worker (w_f w) (w_c w) k (w_reports w) (w_rest w).
  Definition set_f (f : option nat) (w : worker) : worker := Worker f (w_c w) (w_cookie w) (w_reports w) (w_rest w).
  (** Calls of these methods, in any order *)
  Inductive registration := RegisterC (c : option nat) | RegisterCookie (k : nat) | RegisterFortran (f : option nat).
  Definition register (w : worker) (r : registration) : worker :=
    match r with RegisterC c => set_c c w | RegisterCookie k => set_cookie k w | RegisterFortran f => set_f f w end.
  Definition report (w : worker) : worker := Worker (w_f w) (w_c w) (w_cookie w) (S (w_reports w)) (w_rest w).

  (** What was called, with its arguments *)
  Inductive event :=
    | Module (m : collective_method)
    | Fortran (f : nat) (n : Z)
    | CFunction (c : nat) (n : Z) (cookie : nat).
  (** How a call ended *)
  Inductive ran (A : Type) := Back (a : A) (w : worker) | Thrown (w : worker).
  Arguments Back {A} a w.
  Arguments Thrown {A} w.

  (** The methods of the module with their results (0 for those whose result is not used, such as FindComponents 7058); the
      functions of the program, which get a pointer to the number: the result and, for the first one, the number left there *)
  Context (own : collective_method -> worker -> ran Z).
  Context (f_code : nat -> Z -> worker -> ran (Z * Z)).
  Context (c_code : nat -> Z -> nat -> worker -> ran Z).

  Definition irm_ok : Z := 0.
  Definition irm_fail : Z := -7.

  (** 7452-7459 *)
  Definition call_fortran (n : Z) (w : worker) : list event * ran (Z * Z) :=
    match w_f w with
    | None => ([], Back (irm_ok, n) w)
    | Some f => ([Fortran f n],
        match f_code f n w with
        | Back (ret, n') w' => Back ((if decide (ret = 0) then irm_ok else irm_fail), n') w'
        | Thrown w' => Thrown w'
        end)
    end.
  (** 7460-7467; [rv] is return_value before *)
  Definition call_c (rv n : Z) (w : worker) : list event * ran Z :=
    match w_c w with
    | None => ([], Back rv w)
    | Some c => ([CFunction c n (w_cookie w)],
        match c_code c n (w_cookie w) w with
        | Back ret w' => Back (if decide (ret = 0) then rv else irm_fail) w'
        | Thrown w' => Thrown w'
        end)
    end.
  (** The switch, 7033-7469, but for METHOD_MPIWORKERBREAK *)
  Definition perform (n : Z) (w : worker) : list event * ran Z :=
    match performs n with
    | Some m => ([Module m], own m w)
    | None =>
        let '(ev, r) := call_fortran n w in
        match r with
        | Thrown w' => (ev, Thrown w')
        | Back (rv, n') w' => let '(ev', r') := call_c rv n' w' in (ev ++ ev', r')
        end
    end.
  (** One turn with the end of the loop, 7470-7475: ErrorHandler reports a negative result and throws, which is
      caught like every exception. *)
  Definition turn (n : Z) (w : worker) : list event * worker :=
    let '(ev, r) := perform n w in
    match r with
    | Back rv w' => (ev, if decide (rv < 0) then report w' else w')
    | Thrown w' => (ev, w')
    end.

  (** Whether the worker still waits for a number or MpiWorker has returned *)
  Inductive status := Waiting | Returned (result : Z).
  Record outcome := Outcome { o_events : list event; o_worker : worker; o_status : status; o_left : list Z }.
  (** MpiWorker (7016-7479) with the numbers that the root broadcasts. METHOD_MPIWORKERBREAK (7188-7191) ends the loop, with
      return_value as set at its beginning, 7029. *)
  Fixpoint mpi_worker (ns : list Z) (w : worker) : outcome :=
    match ns with
    | [] => Outcome [] w Waiting []
    | n :: ns' =>
        if decide (performs n = Some MpiWorkerBreak) then Outcome [] w (Returned irm_ok) ns'
        else
          let '(ev, w') := turn n w in
          let o := mpi_worker ns' w' in
          Outcome (ev ++ o_events o) (o_worker o) (o_status o) (o_left o)
    end.
End worker.
Arguments worker : clear implicits.
Arguments outcome : clear implicits.
Arguments ran : clear implicits.
Arguments Back {U A} a w.
Arguments Thrown {U A} w.
