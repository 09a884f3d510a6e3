(** What RunCells has to write. *)
From Coq Require Import ZArith String.
From stdpp Require Import prelude strings pretty.
From Verif.Print Require Import Model.
Open Scope Z_scope.
Open Scope list_scope.

Section Spec.
Context {D : Type} (dry : D -> bool) (d0 : D) (back : list (list Z)) (mask : list Z) (sat : list D) (time : string)
  (run : Z -> bool * string * string).

(** The first grid cell of a chemistry cell, and a value there *)
Definition at_first {A} (d : A) (l : list A) (i : Z) : A :=
  match back !! Z.to_nat i with Some (j :: _) => default d (l !! Z.to_nat j) | _ => default d (l !! 0%nat) end.
Definition lines (l : list string) : string := texts (map (fun s => (s +:+ nl)%string) l).
(** The entry of a chemistry cell *)
Definition entry (i : Z) : string :=
  if decide (at_first 0 mask i = 0) then ""%string
  else (lines ["Time:                   " +:+ time; "Chemistry cell:         " +:+ pretty i;
               "Grid cell(s) (0-based): " +:+ texts ((fun j => (pretty j +:+ " ")%string) <$> default [] (back !! Z.to_nat i))]%string +:+
        (if dry (at_first d0 sat i) then lines ["Cell is dry."%string]
         else match run i with (true, t, _) => t | (false, _, _) => lines ["Calculation failure."%string] end))%string.
(** The cell is run and fails with error text [e]. *)
Definition fails (i : Z) (e : string) : Prop := dry (at_first d0 sat i) = false /\ exists t, run i = (false, t, e).

(** How a worker ends: all its cells, or those before one that fails *)
Definition ended (cells done : list Z) (failed : option (Z * string)) : Prop :=
  (forall i e, i ∈ done -> ~ fails i e) /\
  match failed with None => cells = done | Some (i, e) => fails i e /\ exists rest, cells = done ++ i :: rest end.
(** The text it leaves: of the failed cell without heading; if it is not to be printed, a complaint *)
Definition left_text (w : list Z * option (Z * string)) : string :=
  (texts (map entry w.1) +:+
   match w.2 with
   | None => ""
   | Some (i, _) =>
       if decide (at_first 0 mask i = 0) then lines ["GetOutputString: OutputStringOn not set."%string] else (run i).1.2
   end)%string.
Definition error_texts (ws : list (list Z * option (Z * string))) : list string :=
  concat (map (fun w => match w.2 with Some (_, e) => [e] | None => [] end) ws).
(** What the root of the MPI build reports, process by process from number [n]: the text of another process is not
    ended as a line. *)
Fixpoint process_reports (n : nat) (ws : list (list Z * option (Z * string))) : string :=
  match ws with
  | [] => ""
  | (_, None) :: r => process_reports (S n) r
  | (_, Some (_, e)) :: r =>
      (lines ["ERROR: Process " +:+ pretty n; ""]%string +:+ e +:+ (if decide (n = 0%nat) then nl else "") +:+
       process_reports (S n) r)%string
  end.
(** What the user finds in the error string after a failed RunCells *)
Definition failed_report : string :=
  lines ["ERROR: PhreeqcRM failed."; "ERROR: PhreeqcRM::RunCells"; ""; ""]%string.
End Spec.
