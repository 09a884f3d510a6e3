(** What is said about the loop of a worker *)
From Coq Require Import ZArith.
From stdpp Require Import prelude.
From Verif.Mpi Require Import Methods.
From Verif.Worker Require Import Model.
Local Open Scope Z_scope.

(** The numbers of the module are 0 to 60 (src/PhreeqcRM.h 61-123); 23 ends the loop. *)
Definition users (n : Z) : Prop := n < 0 \/ 60 < n.
Global Instance users_dec n : Decision (users n). Proof. unfold users. apply _. Defined.
(** The numbers before the first 23, and those after it *)
Fixpoint before_break (ns : list Z) : list Z :=
  match ns with [] => [] | n :: ns' => if decide (n = 23) then [] else n :: before_break ns' end.
Fixpoint after_break (ns : list Z) : list Z :=
  match ns with [] => [] | n :: ns' => if decide (n = 23) then ns' else after_break ns' end.

(** What was registered last of each kind *)
Definition last_c (rs : list registration) : option nat :=
  default None (last (omap (fun r => match r with RegisterC c => Some c | _ => None end) rs)).
Definition last_f (rs : list registration) : option nat :=
  default None (last (omap (fun r => match r with RegisterFortran f => Some f | _ => None end) rs)).
Definition last_cookie (rs : list registration) : nat :=
  default 0%nat (last (omap (fun r => match r with RegisterCookie k => Some k | _ => None end) rs)).

(** What a program does on the root: methods of the module, and tasks of its own announced by number *)
Inductive root_action := RootMethod (m : collective_method) | RootTask (n : Z).
Definition announced (a : root_action) : Z := match a with RootMethod m => announces m | RootTask n => n end.
(** Methods but those that do not announce themselves and those that end the loop; tasks with numbers of their own *)
Definition proper (a : root_action) : Prop :=
  match a with RootMethod m => m <> GetViscosity /\ m <> MpiWorkerBreak | RootTask n => users n end.
(** What a worker has to call for it *)
Definition answers (f c : option nat) (k : nat) (a : root_action) : list event :=
  match a with
  | RootMethod m => [Module m]
  | RootTask n => match f with Some f => [Fortran f n] | None => [] end ++ match c with Some c => [CFunction c n k] | None => [] end
  end.

Section spec.
  Context {U : Type}.
  Context (own : collective_method -> worker U -> ran U Z) (f_code : nat -> Z -> worker U -> ran U (Z * Z))
          (c_code : nat -> Z -> nat -> worker U -> ran U Z).
  (** What was registered *)
  Definition registered (w : worker U) : option nat * option nat * nat := (w_f w, w_c w, w_cookie w).
  Definition left {A} (r : ran U A) : worker U := match r with Back _ w | Thrown w => w end.

  (** Programs that register their functions before the loop only; the functions return and leave the number as it is. *)
  Definition steady : Prop :=
    (forall m w, registered (left (own m w)) = registered w) /\
    (forall f n w, exists ret w', f_code f n w = Back (ret, n) w' /\ registered w' = registered w) /\
    (forall c n k w, exists ret w', c_code c n k w = Back ret w' /\ registered w' = registered w).
  (** In addition they do not touch the reports, and the methods of the module neither; the methods give a result. *)
  Definition quiet : Prop :=
    (forall m w, exists rv w', own m w = Back rv w' /\ w_reports w' = w_reports w) /\
    (forall f n w r w', f_code f n w = Back r w' -> w_reports w' = w_reports w) /\
    (forall c n k w r w', c_code c n k w = Back r w' -> w_reports w' = w_reports w).

  (** The calls for a number: of the method at this place of the enumeration, or of the registered functions, first the Fortran one *)
  Definition calls (f c : option nat) (k : nat) (n : Z) : list event :=
    if decide (users n)
    then match f with Some f => [Fortran f n] | None => [] end ++ match c with Some c => [CFunction c n k] | None => [] end
    else match all_methods !! Z.to_nat n with Some m => [Module m] | None => [] end.

  (** Whether the task with number [n] fails in state [w]: a method of the module with a negative result, a function of the
      program with one that is not 0 *)
  Definition fails (n : Z) (w : worker U) : Prop :=
    if decide (users n)
    then (exists f ret w', w_f w = Some f /\ f_code f n w = Back (ret, n) w' /\ ret <> 0) \/
         (exists c ret w1 w', w_c w = Some c /\ c_code c n (w_cookie w) w1 = Back ret w' /\ ret <> 0 /\
            match w_f w with Some f => exists r, f_code f n w = Back (r, n) w1 | None => w1 = w end)
    else exists m rv w', all_methods !! Z.to_nat n = Some m /\ own m w = Back rv w' /\ rv < 0.
End spec.
