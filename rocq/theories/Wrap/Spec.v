(** What the documentation promises about arrays of C and Fortran callers. *)
From Coq Require Import ZArith.
From stdpp Require Import prelude.
From Verif.Base Require Import Result.
From Verif.Wrap Require Import Model.

(** The documented number of elements of the result array: cells times components and so on. *)
Definition doc_length (g : getter) (k : counts) : nat :=
  match g with
  | Concentrations => n_xyz k * n_comps k
  | GasCompMoles | GasCompPressures | GasCompPhi => n_xyz k * n_gas k
  | SpeciesConcentrations | SpeciesLog10Gammas | SpeciesLog10Molalities => n_xyz k * n_species k
  | SelectedOutput => n_xyz k * Z.to_nat (n_columns k)
  | Gfw => n_comps k
  | SpeciesD25 | SpeciesZ => n_species k
  | StartCell | EndCell => n_workers k
  | GasPhaseVolume | IthConcentration | IthSpeciesConcentration | Density | Saturation | SolutionVolume
  | Porosity | Pressure | Temperature | Viscosity => n_xyz k
  end.
(** The length of the vector handed to the method: what the method is to fill, where the wrapper makes it. *)
Definition offered (g : getter) (k : counts) : nat :=
  match g with
  | Concentrations | GasCompMoles | GasCompPressures | GasCompPhi | GasPhaseVolume | IthConcentration
  | IthSpeciesConcentration => doc_length g k
  | SelectedOutput => Z.to_nat (n_rows k * n_columns k)
  | _ => 0
  end.
(** ... and of an argument array; [dim] is the length argument where there is one. *)
Definition doc_argument (s : setter) (k : counts) (dim : nat) : nat :=
  match s with
  | SetConcentrations => n_xyz k * n_comps k
  | SetGasCompMoles => n_xyz k * n_gas k
  | SpeciesConcentrations2Module => n_xyz k * n_species k
  | InitialPhreeqc2Module => n_xyz k * 7
  | InitialPhreeqcCell2Module => dim
  | SetIthConcentration | SetIthSpeciesConcentration | SetDensityUser | SetGasPhaseVolume | SetPorosity
  | SetPressure | SetPrintChemistryMask | SetSaturationUser | SetTemperature | CreateMapping
  | InitialSolutions2Module => n_xyz k
  end.

(** [a'] is [a] with [v] written over its beginning: nothing behind [v] is touched. *)
Definition overlaid {A} (v a a' : list A) : Prop :=
  length a' = length a /\
  (forall i, i < length v -> a' !! i = v !! i) /\ (forall i, length v <= i -> a' !! i = a !! i).

(** [v] is the beginning of [a]. *)
Definition begins {A} (n : nat) (a v : list A) : Prop :=
  length v = n /\ forall i, i < n -> v !! i = a !! i.

(** Element (i+1, j+1) of a Fortran array of rank 2. *)
Definition element {A} (t : array2 A) (i j : nat) : option A :=
  if decide (i < a_d1 t /\ j < a_d2 t) then a_el t !! (i + j * a_d1 t) else None.
(** An array has as many elements as its extents say. *)
Definition wf2 {A} (t : array2 A) : Prop := length (a_el t) = a_d1 t * a_d2 t.

(** The getters and setters whose Fortran array is a table with a row per cell. *)
Definition table_getter (g : getter) : Prop :=
  match g with
  | Concentrations | GasCompMoles | GasCompPressures | GasCompPhi | SpeciesConcentrations
  | SpeciesLog10Gammas | SpeciesLog10Molalities | SelectedOutput => True
  | _ => False
  end.
Definition table_setter (s : setter) : Prop :=
  match s with
  | SetConcentrations | SetGasCompMoles | SpeciesConcentrations2Module | InitialPhreeqc2Module => True
  | _ => False
  end.
(** The number of columns of the table. *)
Definition doc_columns (g : getter) (k : counts) : nat :=
  match g with
  | Concentrations => n_comps k
  | GasCompMoles | GasCompPressures | GasCompPhi => n_gas k
  | SpeciesConcentrations | SpeciesLog10Gammas | SpeciesLog10Molalities => n_species k
  | SelectedOutput => Z.to_nat (n_columns k)
  | _ => 1
  end.
Definition doc_set_columns (s : setter) (k : counts) : nat :=
  match s with
  | SetConcentrations => n_comps k
  | SetGasCompMoles => n_gas k
  | SpeciesConcentrations2Module => n_species k
  | InitialPhreeqc2Module => 7
  | _ => 1
  end.

(** The C functions without a test for NULL. *)
Definition unguarded_getters : list getter :=
  [Saturation; Porosity; Pressure; Temperature; Viscosity; IthConcentration; IthSpeciesConcentration;
   StartCell; EndCell].
Definition unguarded_setters : list setter :=
  [SetIthConcentration; SetIthSpeciesConcentration; InitialSolutions2Module].
