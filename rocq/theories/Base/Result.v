(** Result codes shared by all models. *)
From stdpp Require Import prelude.

(** src/IrmResult.h: enum IRM_RESULT. *)
Inductive irm_result :=
| IRM_OK            (*  0 *)
| IRM_OUTOFMEMORY   (* -1 *)
| IRM_BADVARTYPE    (* -2 *)
| IRM_INVALIDARG    (* -3 *)
| IRM_INVALIDROW    (* -4 *)
| IRM_INVALIDCOL    (* -5 *)
| IRM_BADINSTANCE   (* -6 *)
| IRM_FAIL.         (* -7 *)

Global Instance irm_result_eq_dec : EqDecision irm_result.
Proof. solve_decision. Defined.

(** The numeric values of the enumeration (src/IrmResult.h). *)
Definition irm_code (r : irm_result) : Z :=
  match r with
  | IRM_OK => 0
  | IRM_OUTOFMEMORY => -1
  | IRM_BADVARTYPE => -2
  | IRM_INVALIDARG => -3
  | IRM_INVALIDROW => -4
  | IRM_INVALIDCOL => -5
  | IRM_BADINSTANCE => -6
  | IRM_FAIL => -7
  end.

(** Outcome of a C++ call: a value, an exception leaving the call, or
    undefined behaviour (out-of-range access, null dereference, relocking a
    non-recursive mutex, ...).  Undefined behaviour is never assumed away. *)
Inductive outcome (A : Type) :=
| Ret (a : A)
| Throw
| UB.
Arguments Ret {A} a.
Arguments Throw {A}.
Arguments UB {A}.

Definition obind {A B} (m : outcome A) (f : A -> outcome B) : outcome B :=
  match m with Ret a => f a | Throw => Throw | UB => UB end.
