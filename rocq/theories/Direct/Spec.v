(** What a program in C or Fortran means by a call, and which calls the recorder and the module take alike. *)
From Coq Require Import String Ascii ZArith.
From stdpp Require Import prelude strings.
From Verif.Base Require Import Result.
From Verif.Wrap Require Import Model.
From Verif.Yaml Require Import Model Spec.
Local Open Scope string_scope.

Definition ends_in (bad : ascii -> Prop) (t : string) : Prop := exists u a, t = u +:+ String a "" /\ bad a.
Definition begins_in (bad : ascii -> Prop) (t : string) : Prop := exists u a, t = String a u /\ bad a.
Fixpoint has_nul (t : string) : Prop := match t with EmptyString => False | String a u => a = "000"%char \/ has_nul u end.
Fixpoint blanks (n : nat) : string := match n with O => "" | S m => String " " (blanks m) end.
Definition is_blank (a : ascii) : Prop := a = " "%char.
Definition is_name_end (a : ascii) : Prop := a = " "%char \/ a = "009"%char \/ a = "010"%char.
Definition is_space (a : ascii) : Prop := a = " "%char \/ (9 <= nat_of_ascii a <= 13).

(** The text [t] that the caller means by [s]: in Fortran the blanks that fill the variable are not part of it. *)
Definition text_of (l : lang) (s t : string) : Prop :=
  ~ has_nul t /\ match l with C => s = t | F => ~ ends_in is_blank t /\ exists n, s = t +:+ blanks n end.
(** Names of files that both sides leave as they are *)
Definition tidy (l : lang) (t : string) : Prop :=
  match l with F => ~ ends_in is_name_end t | C => ~ ends_in is_space t /\ ~ begins_in is_space t end.

Section Spec.
Context {D : Type}.
(** The call meant *)
Definition meant (l : lang) (c c' : call D) : Prop :=
  match c, c' with
  | YAddOutputVars s u, YAddOutputVars s' u' => text_of l s s' /\ text_of l u u'
  | YLoadDatabase s, YLoadDatabase s' | YLogMessage s, YLogMessage s' | YOutputMessage s, YOutputMessage s'
  | YScreenMessage s, YScreenMessage s' | YSetDumpFileName s, YSetDumpFileName s' | YSetFilePrefix s, YSetFilePrefix s'
  | YWarningMessage s, YWarningMessage s' => text_of l s s'
  | YRunFile w i u s, YRunFile w' i' u' s' | YRunString w i u s, YRunString w' i' u' s' =>
      w = w' /\ i = i' /\ u = u' /\ text_of l s s'
  | _, _ => c = c'
  end.

(** Arrays that have the size that an instance with the counts [k] takes *)
Definition sized (k : counts) (c : call D) : Prop :=
  match c with
  | YCreateMapping a | YInitialSolutions2Module a | YInitialEquilibriumPhases2Module a | YInitialExchanges2Module a
  | YInitialSurfaces2Module a | YInitialGasPhases2Module a | YInitialSolidSolutions2Module a | YInitialKinetics2Module a
  | YSetPrintChemistryMask a => length a = n_xyz k /\ 0 < length a
  | YSetDensityUser a | YSetGasPhaseVolume a | YSetPorosity a | YSetPressure a | YSetRepresentativeVolume a
  | YSetSaturationUser a | YSetTemperature a => length a = n_xyz k /\ 0 < length a
  | YInitialPhreeqc2Module a => length a = n_xyz k * 7 /\ 0 < length a
  | YInitialPhreeqc2Module_mix a b f =>
      length a = n_xyz k * 7 /\ length b = n_xyz k * 7 /\ length f = n_xyz k * 7 /\ 0 < length a
  | YInitialPhreeqcCell2Module _ a => 0 < length a
  | YSetConcentrations a => length a = n_xyz k * n_comps k /\ 0 < length a
  | YSetGasCompMoles a => length a = n_xyz k * n_gas k /\ 0 < length a
  | YSpeciesConcentrations2Module a => length a = n_xyz k * n_species k /\ 0 < length a
  | _ => True
  end.
(** Calls that are the same called or recorded: not the messages of Fortran, nor the two calls that the reader does
    not know; names and inputs that are not trimmed. *)
Definition alike (l : lang) (c : call D) : Prop :=
  match c with
  | YLogMessage _ | YSetNthSelectedOutput _ => False
  | YOutputMessage _ | YScreenMessage _ => l = C
  | YWarningMessage t => l = C /\ ~ ends_in is_space t
  | YLoadDatabase t | YSetDumpFileName t | YSetFilePrefix t | YRunFile _ _ _ t => tidy l t
  | YRunString _ _ _ t => l = F \/ tidy C t
  | _ => True
  end.

(** The sizes are right when the calls are made one after the other. *)
Fixpoint sized_along {St} (run : call D -> St -> outcome St) (cnt : St -> counts) (cs : list (call D)) (s : St) : Prop :=
  match cs with
  | [] => True
  | c :: cs' => sized (cnt s) c /\
      forall s', (if setup c then s' = s else run c s = Ret s') -> sized_along run cnt cs' s'
  end.
(** InitialPhreeqc2Module without second arrays is the one with -1 and 1.0 in them (PhreeqcRM.cpp 6198-6211). *)
Definition one_array {St} (one : D) (run : call D -> St -> outcome St) (cnt : St -> counts) : Prop :=
  forall a s, run (YInitialPhreeqc2Module a) s =
    run (YInitialPhreeqc2Module_mix a (replicate (n_xyz (cnt s) * 7) (-1)%Z) (replicate (n_xyz (cnt s) * 7) one)) s.
End Spec.
