(** What a selected-output table should contain: the log of what was punched. *)
From Coq Require Import String.
From stdpp Require Import prelude strings gmap.
From Verif.Base Require Import Result.
From Verif.SelOut Require Import Model.

(** The punches of a table: the headings in order of first appearance, the finished rows, the row
    being filled.  Row ends before the first heading do not count. *)
Record log (D : Type) := Log {
  l_heads : list string;
  l_done : list (list (string * var D));
  l_cur : list (string * var D) }.
Arguments Log {D} _ _ _. Arguments l_heads {D} _. Arguments l_done {D} _. Arguments l_cur {D} _.

Section Spec.
Context {D : Type}.

Definition note (k : string) (hs : list string) : list string :=
  if decide (k ∈ hs) then hs else hs ++ [k].
Definition log_event (l : log D) (e : event) : log D :=
  match e with
  | Punch k v => Log (note k (l_heads l)) (l_done l) (l_cur l ++ [(k, v)])
  | End => if decide (l_heads l = []) then l else Log (l_heads l) (l_done l ++ [l_cur l]) []
  end.
Definition log_of (es : list event) : log D := foldl log_event (Log [] [] []) es.

(** The value a row holds under a heading: the last one punched, or empty. *)
Definition latest (k : string) (row : list (string * var D)) : var D :=
  foldl (fun a p => if decide (p.1 = k) then p.2 else a) VEmpty row.

(** A table some sequence of events produced. *)
Definition made (es : list event) (t : table D) : Prop := do_events es new_table = Ret t.

(** The outcome of looking at row [r] (from 0) under heading [k]. *)
Definition shows (t : table D) (r : nat) (k : string) (v : var D) : Prop :=
  exists c, t_head t !! c = Some k /\ get t (Z.of_nat r + 1) (Z.of_nat c) = Ret (VR_OK, v).

(** The tables of a run of one cell: the definitions [keys], each punched at least once. *)
Definition run_tables (keys : list Z) (sm : smap) : Prop :=
  sm.*1 = keys /\
  forall n t, (n, t) ∈ sm -> exists es, made es t /\ 1 <= length (l_done (log_of es)).

(** The value cell [i] should show for definition [n] and heading [k]: empty when dry, else what
    its run punched in its first row, or empty. *)
Definition cell_value (wet : nat -> bool) (run : nat -> option smap) (n : Z) (i : nat)
    (k : string) (v : var D) : Prop :=
  if wet i then
    exists sm t, run i = Some sm /\ (n, t) ∈ sm /\
      ((k ∈ t_head t /\ shows t 0 k v) \/ (k ∉ t_head t /\ v = VEmpty))
  else v = VEmpty.

(** The cells before the first that is wet and fails. *)
Fixpoint before_failure (wet : nat -> bool) (run : nat -> option (smap (D:=D))) (cells : list nat)
  : list nat :=
  match cells with
  | [] => []
  | i :: cs => if (wet i && bool_decide (run i = None))%bool then [] else i :: before_failure wet run cs
  end.
End Spec.
