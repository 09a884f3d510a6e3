(** What a first line says, and what a COPY asks for. *)
From Coq Require Import String Ascii ZArith.
From stdpp Require Import prelude strings pretty gmap.
From Verif.Raw Require Import Model.
From Verif.Delete Require Import Model Spec.
From Verif.Copy Require Import Model.
Local Open Scope string_scope.

(** ** First lines *)

Fixpoint blanks (s : string) : Prop := match s with EmptyString => True | String a s' => blank a = true /\ blanks s' end.
Fixpoint solid (s : string) : Prop := match s with EmptyString => True | String a s' => blank a = false /\ solid s' end.
(** A description as one writes it: it does not begin with a blank. *)
Definition tidy (d : string) : Prop := match d with EmptyString => True | String a _ => blank a = false end.
(** A keyword, a number or a range, and a description; blanks between *)
Definition headed (r : span) (d line : string) : Prop :=
  exists g0 key g1 g2, blanks g0 /\ solid key /\ key <> "" /\ blanks g1 /\ g1 <> "" /\ blanks g2 /\ (d = "" \/ g2 <> "") /\
    tidy d /\ line = g0 +:+ key +:+ g1 +:+ span_text r +:+ g2 +:+ d.
(** A keyword and a description without a number *)
Definition wordy (d : string) : Prop :=
  match d with EmptyString => True | String a _ => blank a = false /\ digit a = None /\ a <> "-"%char /\ a <> "."%char end.
Definition unnumbered (d line : string) : Prop :=
  exists g0 key g1, blanks g0 /\ solid key /\ key <> "" /\ blanks g1 /\ (d = "" \/ g1 <> "") /\ wordy d /\
    line = g0 +:+ key +:+ g1 +:+ d.
Definition lowest (r : span) : Z := match r with One a => a | Span a _ => a end.
Definition highest (r : span) : Z := match r with One a => a | Span a b => Z.max a b end.
Definition ints (r : span) : Prop := match r with One a => is_int a | Span a b => is_int a /\ is_int b end.

(** ** COPY *)

(** What is copied (a kind, or [None] for all), from which number, to which numbers *)
Record order := Order { kinds : option kind; origin : Z; target : span }.
Definition order_line (o : order) : copy_line := CopyLine (kinds o) (pretty (origin o)) (span_text (target o)).
Definition first_of (r : span) : Z := match r with One a => a | Span a _ => a end.
Definition last_of (r : span) : Z := match r with One a => a | Span _ b => b end.
(** Ints; the ends of the range are both not negative, or both less than -1 (or, at the lower end, -1). *)
Definition sound_order (o : order) : Prop :=
  is_int (origin o) /\ ints (target o) /\
  ((0 <= first_of (target o) /\ 0 <= last_of (target o)) \/ (first_of (target o) < 0 /\ last_of (target o) < -1))%Z.
(** One order after the other: every number of the range gets the origin's, with its own number. *)
Definition obeyed {E : kind -> Type} (o : order) (t t' : stores E) : Prop :=
  forall k n, t' k !! n =
    if decide (kinds o = None \/ kinds o = Some k) then
      if decide (first_of (target o) <= n <= last_of (target o) /\ n <> origin o)%Z then
        match t k !! origin o with
        | Some e => Some (Num n n (body e))
        | None => t k !! n
        end
      else t k !! n
    else t k !! n.
Inductive all_obeyed {E : kind -> Type} : list order -> stores E -> stores E -> Prop :=
| obey_none t t' : (forall k, t' k = t k) -> all_obeyed [] t t'
| obey_next o os t t1 t' : obeyed o t t1 -> all_obeyed os t1 t' -> all_obeyed (o :: os) t t'.

(** Nothing waits *)
Definition at_rest {E} (s : engine E) : Prop := (forall k, waiting s k = []) /\ new_copy s = false /\ idle (doomed s).
