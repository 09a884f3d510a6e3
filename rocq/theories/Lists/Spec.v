(** What is said about the lists of variables, without the flags and functions of the model. *)
From Coq Require Import ZArith Ascii String.
From stdpp Require Import prelude strings.
From Verif.Reactant Require Import Model.
From Verif.Lists Require Import Model.
Local Open Scope string_scope.

(** The variables a program can set, as BMIPhreeqcRM.h documents them, in the order in which they are listed *)
Definition settable : list string :=
  ["Concentrations"; "DensityUser"; "FilePrefix"; "NthSelectedOutput"; "SaturationUser"; "Time"; "TimeStep"; "Porosity";
   "Pressure"; "SelectedOutputOn"; "Temperature"].
(** Those it cannot *)
Definition fixed_only : list string :=
  ["ComponentCount"; "Components"; "DensityCalculated"; "ErrorString"; "Gfw"; "GridCellCount"; "SaturationCalculated";
   "SelectedOutput"; "SelectedOutputColumnCount"; "SelectedOutputCount"; "SelectedOutputHeadings";
   "SelectedOutputRowCount"; "SolutionVolume"; "CurrentSelectedOutputUserNumber"; "Viscosity"].
(** Those it can get; [h] says whether the headings of selected output are among them *)
Definition gettable (h : bool) : list string :=
  ["ComponentCount"; "Components"; "Concentrations"; "DensityCalculated"; "ErrorString"; "FilePrefix"; "Gfw";
   "GridCellCount"; "SaturationCalculated"; "SelectedOutput"; "SelectedOutputColumnCount"; "SelectedOutputCount"]
  ++ (if h then ["SelectedOutputHeadings"] else [])
  ++ ["SelectedOutputRowCount"; "SolutionVolume"; "Time"; "TimeStep"; "CurrentSelectedOutputUserNumber"; "Porosity";
      "Pressure"; "SelectedOutputOn"; "Temperature"; "Viscosity"].
(** Those it can have a pointer to *)
Definition pointable : list string :=
  ["ComponentCount"; "Concentrations"; "DensityCalculated"; "Gfw"; "GridCellCount"; "SaturationCalculated";
   "SolutionVolume"; "Time"; "TimeStep"; "Porosity"; "Pressure"; "SelectedOutputOn"; "Temperature"; "Viscosity"].

(** Names are compared without regard to case. *)
Definition known_in (name : string) (l : list string) : Prop := exists s, s ∈ l /\ lowered s = lowered name.

(** A history after Initialize, with any number of selected outputs at its start *)
Definition after (os : list op) (n : nat) : bmi := steps os (initialize (create n)).
(** The names of automatic variables made in it *)
Definition made (os : list op) : list string := mjoin ((fun o => match o with Find new _ => new | _ => [] end) <$> os).
(** No automatic variable has the name of another variable. *)
Definition fresh (os : list op) : Prop := forall s, s ∈ made os -> ~ known_in s (settable ++ fixed_only).
(** In no state of the history is there a selected output. *)
Definition never_tables (os : list op) : Prop :=
  forall o, o ∈ os -> match o with Find _ n | Tables n => n = 0%nat | _ => True end.

(** The elements of a Fortran array of [n] texts of length [w] *)
Fixpoint elements (n w : nat) (bytes : list ascii) : list (list ascii) :=
  match n with O => [] | S n' => take w bytes :: elements n' w (drop w bytes) end.
(** A text with blanks at its end *)
Definition blank_ended (s : string) (bytes : list ascii) : Prop :=
  exists k, bytes = (list_ascii_of_string s ++ replicate k " "%char)%list.
