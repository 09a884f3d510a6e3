(** Processes that exchange messages: the part of MPI that PhreeqcRM uses.

    Process 0 is the root. A process is a program made of the calls of the MPI library it makes, each
    followed by what it does with the answer. A collective call takes place when all processes have
    reached one of the same kind with matching sizes: the library may let a process go on earlier,
    but a program that is right when nobody goes on earlier does not rely on it. MPI_Send does not
    wait for the receiver (as it does not for short messages); messages of one sender arrive in
    order. A call that does not match those of the others, a receive with too small a buffer or of
    another type, and a call that never returns, all end in a state without a next step. *)
From Coq Require Import ZArith Ascii.
From stdpp Require Import prelude relations.

Section comm.
  Context {D : Type}.

  (** A buffer of MPI_INT, MPI_DOUBLE or MPI_CHAR *)
  Inductive msg := Ints (l : list Z) | Nums (l : list D) | Text (l : list ascii).
  Inductive dtype := TInt | TNum | TText.
  Global Instance dtype_dec : EqDecision dtype. Proof. solve_decision. Defined.
  Definition shape (m : msg) : dtype * nat :=
    match m with Ints l => (TInt, length l) | Nums l => (TNum, length l) | Text l => (TText, length l) end.

  (** [Bcast m k]: [m] is the buffer, whose contents only matter at the root. [Gather m sizes k]: the
      root gives the sizes it expects and gets all buffers, the others get none. [Scatter ms t n k]:
      the root gives all buffers; each process receives [n] elements of type [t]. [Recv i t n k]: at
      most [n] elements of type [t] from process [i], at the root. [Undef]: undefined behaviour. *)
  Inductive prog (A : Type) :=
  | Fin (a : A)
  | Undef
  | Bcast (m : msg) (k : msg -> prog A)
  | Gather (m : msg) (sizes : list nat) (k : list msg -> prog A)
  | Scatter (ms : list msg) (t : dtype) (n : nat) (k : msg -> prog A)
  | Barrier (k : prog A)
  | Send (m : msg) (k : prog A)
  | Recv (i : nat) (t : dtype) (n : nat) (k : msg -> prog A).
End comm.
Arguments msg : clear implicits.
Arguments prog : clear implicits.
Arguments Fin {D A} _. Arguments Undef {D A}. Arguments Bcast {D A} _ _. Arguments Gather {D A} _ _ _.
Arguments Scatter {D A} _ _ _ _. Arguments Barrier {D A} _. Arguments Send {D A} _ _. Arguments Recv {D A} _ _ _ _.

Section system.
  Context {D R W : Type}.
  Notation msg := (msg D).

  (** The root ends with an [R]. A worker runs the body of one method after another: [Fin (w, true)]
      has left the loop, [Fin (w, false)] is back at the beginning of the loop, which is the
      broadcast given by [loop]. *)
  Context (loop : W -> msg * (msg -> prog D (W * bool))).
  Local Notation worker := (prog D (W * bool)).
  Definition at_call (p : worker) : worker :=
    match p with Fin (w, false) => Bcast (loop w).1 (loop w).2 | _ => p end.

  (** [q] holds, for each worker, its messages to the root that were not received yet. *)
  Record config := Config { c_root : prog D R; c_workers : list worker; c_queues : list (list msg) }.

  (** What the workers are at, if all are at the same kind of call *)
  Definition after_bcast (m : msg) (p : worker) : option worker :=
    match at_call p with
    | Bcast b k => if decide (shape b = shape m) then Some (k m) else None
    | _ => None
    end.
  Definition in_gather (p : worker) : option (msg * worker) :=
    match at_call p with Gather m _ k => Some (m, k []) | _ => None end.
  Definition after_scatter (m : msg) (p : worker) : option worker :=
    match at_call p with
    | Scatter _ t n k => if decide (shape m = (t, n)) then Some (k m) else None
    | _ => None
    end.
  Definition after_barrier (p : worker) : option worker :=
    match at_call p with Barrier k => Some k | _ => None end.
  Fixpoint after_scatters (ms : list msg) (ps : list worker) : option (list worker) :=
    match ms, ps with
    | [], [] => Some []
    | m :: ms', p :: ps' =>
        match after_scatter m p, after_scatters ms' ps' with
        | Some p1, Some ps1 => Some (p1 :: ps1)
        | _, _ => None
        end
    | _, _ => None
    end.

  (** The state after a collective call, if one can take place *)
  Definition collective (c : config) : option config :=
    match c_root c with
    | Bcast m k =>
        match mapM (after_bcast m) (c_workers c) with
        | Some ws => Some (Config (k m) ws (c_queues c))
        | None => None
        end
    | Gather m sizes k =>
        match mapM in_gather (c_workers c) with
        | Some r =>
            if decide (map shape (m :: r.*1) = map (fun n => ((shape m).1, n)) sizes)
            then Some (Config (k (m :: r.*1)) (r.*2) (c_queues c)) else None
        | None => None
        end
    | Scatter ms t n k =>
        match ms with
        | m :: ms' =>
            if decide (shape m = (t, n)) then
              match after_scatters ms' (c_workers c) with
              | Some ws => Some (Config (k m) ws (c_queues c))
              | None => None
              end
            else None
        | [] => None
        end
    | Barrier k =>
        match mapM after_barrier (c_workers c) with
        | Some ws => Some (Config k ws (c_queues c))
        | None => None
        end
    | _ => None
    end.
  Definition received (i : nat) (t : dtype) (n : nat) (qs : list (list msg)) : option (msg * list (list msg)) :=
    match i with
    | O => None
    | S i' =>
        match qs !! i' with
        | Some (m :: q) =>
            if decide ((shape m).1 = t /\ (shape m).2 <= n) then Some (m, <[i' := q]> qs) else None
        | _ => None
        end
    end.

  Inductive step : config -> config -> Prop :=
  | step_collective c c' : collective c = Some c' -> step c c'
  | step_send c i m k q :
      c_workers c !! i = Some (Send m k) -> c_queues c !! i = Some q ->
      step c (Config (c_root c) (<[i := k]> (c_workers c)) (<[i := q ++ [m]]> (c_queues c)))
  | step_recv c i t n k m qs :
      c_root c = Recv i t n k -> received i t n (c_queues c) = Some (m, qs) ->
      step c (Config (k m) (c_workers c) qs).

  (** A run is a sequence of steps; [nsteps step n] one of length [n]. All processes are through
      when the root has its result, the workers have left their loops and no message is left. *)
  Definition through (r : R) (ws : list W) (c : config) : Prop :=
    c = Config (Fin r) (map (fun w => Fin (w, true)) ws) (replicate (length ws) []).
End system.
Arguments config : clear implicits.
