(** Specification vocabulary for YAML documents. *)
From Coq Require Import String ZArith.
From stdpp Require Import prelude strings.
From Verif.Base Require Import Result.
From Verif.Yaml Require Import Model.

Section Spec.
Context {D : Type}.

(** The integers among the arguments of a call. *)
Definition ints_of (c : call D) : list Z :=
  match c with
  | YCreateMapping grid2chem => grid2chem
  | YInitialSolutions2Module solutions => solutions
  | YInitialEquilibriumPhases2Module equilibrium_phases => equilibrium_phases
  | YInitialExchanges2Module exchanges => exchanges
  | YInitialSurfaces2Module surfaces => surfaces
  | YInitialGasPhases2Module gas_phases => gas_phases
  | YInitialSolidSolutions2Module solid_solutions => solid_solutions
  | YInitialKinetics2Module kinetics => kinetics
  | YInitialPhreeqc2Module initial_conditions1 => initial_conditions1
  | YInitialPhreeqc2Module_mix initial_conditions1 initial_conditions2 _ => initial_conditions1 ++ initial_conditions2
  | YInitialPhreeqcCell2Module n cell_numbers => [n] ++ cell_numbers
  | YSetCurrentSelectedOutputUserNumber n_user => [n_user]
  | YSetErrorHandlerMode mode => [mode]
  | YSetGridCellCount count => [count]
  | YSetNthSelectedOutput n => [n]
  | YSetPrintChemistryMask cell_mask => cell_mask
  | YSetUnitsExchange option => [option]
  | YSetUnitsGasPhase option => [option]
  | YSetUnitsKinetics option => [option]
  | YSetUnitsPPassemblage option => [option]
  | YSetUnitsSolution option => [option]
  | YSetUnitsSSassemblage option => [option]
  | YSetUnitsSurface option => [option]
  | YStateSave istate => [istate]
  | YStateApply istate => [istate]
  | YStateDelete istate => [istate]
  | YThreadCount nthreads => [nthreads]
  | _ => []
  end%list.
(** They are C++ ints. *)
Definition ints_ok (c : call D) : Prop := Forall (fun z => (-2147483648 <= z <= 2147483647)%Z) (ints_of c).

(** Calls that the reader knows. *)
Definition known (c : call D) : Prop :=
  match c with YLogMessage _ | YSetNthSelectedOutput _ => False | _ => True end.
(** Calls that set up an instance to come, and do nothing to one that exists. *)
Definition setup (c : call D) : bool :=
  match c with YSetGridCellCount _ | YThreadCount _ => true | _ => false end.

(** Making the calls directly, one after the other; the first one that throws ends it. *)
Inductive played {St} (run : call D -> St -> outcome St) : list (call D) -> St -> outcome St -> Prop :=
| played_end s : played run [] s (Ret s)
| played_setup c cs s r : setup c = true -> played run cs s r -> played run (c :: cs) s r
| played_call c cs s s' r : setup c = false -> run c s = Ret s' -> played run cs s' r -> played run (c :: cs) s r
| played_throw c cs s : setup c = false -> run c s = Throw -> played run (c :: cs) s Throw
| played_ub c cs s : setup c = false -> run c s = UB -> played run (c :: cs) s UB.

(** What is written as text can be read from it. *)
Definition faithful (N : numbers D) : Prop := forall d, num_of_text N (num_text N d) = Some d.

(** [same_values n n']: the nodes have the same values in the same order, under any names. *)
Definition same_values (n n' : list (string * yvalue)) : Prop := map snd n = map snd n'.
End Spec.

(** ** Recorders by number *)
From Verif.Yaml Require Import Store.
Section StoreSpec.
Context {D : Type}.
Definition int_ok (z : Z) : Prop := (-2147483648 <= z <= 2147483647)%Z.
Definition is_create (o : yop D) : bool := match o with OpCreate => true | _ => false end.
(** How many recorders were created. *)
Definition creations (os : list (yop D)) : Z := Z.of_nat (length (List.filter is_create os)).

(** [life id made cur os]: the calls recorded under the number [id] after [os], or [None] if there is
    no such recorder; [made] recorders were created before, and [cur] is the answer before. *)
Fixpoint life (id made : Z) (cur : option (list (call D))) (os : list (yop D)) : option (list (call D)) :=
  match os with
  | [] => cur
  | o :: os' =>
      let at_id i new := if Z.eqb i id then match cur with Some l => new l | None => None end else cur in
      match o with
      | OpCreate => life id (made + 1)%Z (if Z.eqb id made then Some [] else cur) os'
      | OpDestroy i => life id made (at_id i (fun _ => None)) os'
      | OpClear i => life id made (at_id i (fun _ => Some [])) os'
      | OpCall i c => life id made (at_id i (fun l => Some (l ++ [c])%list)) os'
      end
  end.
Definition recorded (id : Z) (os : list (yop D)) : option (list (call D)) := life id 0 None os.

(** The numbers a program passes are C ints. *)
Definition op_ok (o : yop D) : Prop :=
  match o with OpCreate => True | OpDestroy i | OpClear i | OpCall i _ => int_ok i end.
End StoreSpec.
