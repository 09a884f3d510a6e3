(** Specification vocabulary for name lists, independent of the model's helpers. *)
From Coq Require Import Ascii String Sorting.Sorted.
From stdpp Require Import prelude strings.

(** The element a name stands for: the text before the first opening parenthesis. *)
Fixpoint element (s : string) : string :=
  match s with
  | EmptyString => EmptyString
  | String c s' => if decide (c = "("%char) then EmptyString else String c (element s')
  end.

(** A name that carries a valence state, such as "Fe(2)". *)
Definition valence (s : string) : Prop := element s <> s.

(** Element names are made of characters above the parenthesis in the character set (letters,
    digits, brackets, underscore), and a valence state has at least one character and a closing
    parenthesis. *)
Fixpoint plain (s : string) : Prop :=
  match s with
  | EmptyString => True
  | String c s' => (40 < N_of_ascii c)%N /\ plain s'
  end.
Definition wf_name (s : string) : Prop :=
  plain (element s) /\ (element s = s \/ 4 <= String.length s).

(** Entries listed by strictly increasing name, in byte order. *)
Fixpoint before (a b : string) : Prop :=
  match a, b with
  | EmptyString, String _ _ => True
  | String c a', String d b' =>
      (N_of_ascii c < N_of_ascii d)%N \/ (c = d /\ before a' b')
  | _, EmptyString => False
  end.
Definition ordered {V} (l : list (string * V)) : Prop :=
  StronglySorted (fun p q => before p.1 q.1) l.

(** The amount recorded under a name, if any. *)
Definition amount {V} (l : list (string * V)) (n : string) (v : V) : Prop := (n, v) ∈ l.

(** The amounts of all names that stand for an element, in name order. *)
Fixpoint amounts_of {V} (l : list (string * V)) (e : string) : list V :=
  match l with
  | [] => []
  | (n, v) :: l' => if decide (element n = e) then v :: amounts_of l' e else amounts_of l' e
  end.

(** Their sum, added up in that order. *)
Definition element_sum {V} (zero : V) (add : V -> V -> V) (l : list (string * V)) (e : string) : V :=
  fold_left add (amounts_of l e) zero.

(** No element is recorded both as a bare total and by valence state. *)
Definition no_double {V} (l : list (string * V)) : Prop :=
  forall n v w, (n, v) ∈ l -> valence n -> (element n, w) ∉ l.

(** Does some entry carry this name? *)
Definition named {V} (l : list (string * V)) (n : string) : Prop := exists v, (n, v) ∈ l.

(** A name without its last character. *)
Fixpoint drop_last (s : string) : string :=
  match s with
  | String c (String _ _ as s') => String c (drop_last s')
  | _ => EmptyString
  end.

(** Giving a total for [m] replaces the total of [n]: they belong to the same element and one of
    them is the bare element. *)
Definition replaces (m n : string) : Prop :=
  (valence m /\ n = element m) \/ (~ valence m /\ valence n /\ element n = m).

(** ** Dictionaries *)

(** The text of a word list: every word followed by a newline. *)
Fixpoint text_of (ws : list string) : string :=
  match ws with
  | [] => EmptyString
  | w :: ws' => (w ++ String "010"%char EmptyString) ++ text_of ws'
  end.

(** A word that survives being written to and read from a text with 256-byte lines. *)
Fixpoint has_char (c : ascii) (s : string) : Prop :=
  match s with EmptyString => False | String d s' => c = d \/ has_char c s' end.
Definition printable (w : string) : Prop :=
  ~ has_char "010"%char w /\ ~ has_char "000"%char w /\ String.length w <= 255.
