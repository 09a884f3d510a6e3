(** What the lines of a text are, which lines are accumulated, without reference to the functions of the
    model. *)
From Coq Require Import Ascii String.
From stdpp Require Import prelude strings gmap.
From Verif.Inst Require Import Model.
Open Scope list_scope.

Fixpoint no_newline (s : string) : Prop :=
  match s with EmptyString => True | String c s' => nat_of_ascii c <> 10%nat /\ no_newline s' end.

(** [ls] are the lines of the text: each ends with a newline, but for the last, if it has characters. *)
Inductive text_lines : list string -> string -> Prop :=
| tl_nil : text_lines [] ""
| tl_last l : l <> ""%string -> no_newline l -> text_lines [l] l
| tl_cons l ls t : no_newline l -> text_lines ls t -> text_lines (l :: ls) (l +:+ String (ascii_of_nat 10) t).

(** Calls that start the input anew *)
Definition resets (o : op) : Prop :=
  match o with ClearLines | RunStr _ | RunFil _ | LoadDb _ => True | _ => False end.
Definition accumulates (o : op) : Prop := match o with Accumulate _ => True | _ => False end.
Fixpoint accumulated (h : list op) : string :=
  match h with
  | [] => ""
  | Accumulate l :: h' => (l +:+ String (ascii_of_nat 10) (accumulated h'))%string
  | _ :: h' => accumulated h'
  end.
(** The part of a history that holds the lines to run: nothing in it starts the input anew, no line follows
    a RunAccumulated in it; and it is the longest such part. *)
Definition current_part (h mid : list op) : Prop :=
  exists pre, h = pre ++ mid /\ Forall (fun o => ~ resets o) mid /\
    (forall m1 m2, mid = m1 ++ RunAcc :: m2 -> Forall (fun o => ~ accumulates o) m2) /\
    (pre = [] \/ exists p o, pre = p ++ [o] /\ (resets o \/ o = RunAcc /\ Exists accumulates mid)).

(** What a run punched for a selected output *)
Fixpoint punched {E} (n : Z) (es : list (ev E)) : string :=
  match es with
  | [] => ""
  | Punch m t :: es' => if decide (m = n) then (t +:+ punched n es')%string else punched n es'
  | _ :: es' => punched n es'
  end.

Definition is_run (o : op) : Prop := match o with RunAcc | RunStr _ | RunFil _ => True | _ => False end.
