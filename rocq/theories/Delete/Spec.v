(** What a DELETE block asks for. *)
From Coq Require Import String ZArith.
From stdpp Require Import prelude strings pretty.
From Verif.Delete Require Import Model.
Local Open Scope string_scope.

(** A number or a range of numbers, in either order, as one writes them: [7], [3-9], [-4--1] *)
Inductive span := One (a : Z) | Span (a b : Z).
Definition span_text (r : span) : string :=
  match r with One a => pretty a | Span a b => pretty a +:+ "-" +:+ pretty b end.
Definition within (n : Z) (r : span) : Prop :=
  match r with One a => n = a | Span a b => (a <= n <= b)%Z \/ (b <= n <= a)%Z end.
Definition is_int (z : Z) : Prop := (-2147483648 <= z <= 2147483647)%Z.
(** The largest int is not the end of a range *)
Definition fits (r : span) : Prop :=
  match r with One a => is_int a | Span a b => is_int a /\ is_int b /\ (a = b \/ (a < 2147483647 /\ b < 2147483647)%Z) end.

(** What a name means *)
Inductive subject := Of (k : kind) | Of_cells.
Definition means (name : string) (s : subject) : Prop :=
  match s with
  | Of Solution => name = "solution" | Of Exchange => name = "exchange" | Of Surface => name = "surface"
  | Of GasPhase => name = "gas_phase" | Of Kinetics => name = "kinetics" | Of Mix => name = "mix"
  | Of Reaction => name = "reaction"
  | Of PPassemblage => name = "pp_assemblage" \/ name = "equilibrium_phases"
  | Of SSassemblage => name = "ss_assemblage" \/ name = "solid_solution" \/ name = "solid_solutions"
  | Of Temperature => name = "temperature" \/ name = "reaction_temperature"
  | Of Pressure => name = "pressure" \/ name = "reaction_pressure"
  | Of_cells => name = "cell" \/ name = "cells"
  end.
(** A request: a name, numbers on its line, and further lines of numbers *)
Record request := Request { name : string; about : subject; first : list span; more : list (list span) }.
Definition sound_request (r : request) : Prop :=
  means (name r) (about r) /\ Forall fits (first r) /\ Forall (fun l => l <> [] /\ Forall fits l) (more r).
Definition request_lines (r : request) : list (list string) :=
  ((("-" +:+ name r) :: map span_text (first r)) :: map (map span_text) (more r))%list.
Definition block_of (rs : list request) : list (list string) := (["DELETE"] :: concat (map request_lines rs))%list.

(** The numbers asked for *)
Definition listed (s : subject) (rs : list request) (x : span) : Prop :=
  exists r, r ∈ rs /\ about r = s /\ x ∈ (first r ++ concat (more r))%list.
Definition mentioned (s : subject) (rs : list request) : Prop := exists r, r ∈ rs /\ about r = s.
(** A name without any number is everything of the kind. *)
Definition all_of (s : subject) (rs : list request) : Prop := mentioned s rs /\ forall x, ~ listed s rs x.
Definition gone (rs : list request) (k : kind) (n : Z) : Prop :=
  all_of Of_cells rs \/ all_of (Of k) rs \/ exists x, (listed (Of k) rs x \/ listed Of_cells rs x) /\ within n x.

(** Nothing is waiting to be deleted *)
Definition idle (b : lists) : Prop := forall k, items b k = off.
