(** What C and Fortran callers see in their buffers. *)
From Coq Require Import ZArith Ascii String.
From stdpp Require Import prelude strings.
From Verif.Lang Require Import Model.
Open Scope list_scope.

(** A C caller finds the text [s]: it ends at the first NUL, inside the buffer. *)
Definition c_reads (buf s : text) : Prop := exists rest, buf = s ++ NUL :: rest /\ NUL ∉ s.

(** A C caller reading finds no end within the buffer. *)
Definition c_unterminated (buf : text) : Prop := NUL ∉ buf.

(** TRIM of Fortran: without the trailing blanks. *)
Fixpoint trim (s : text) : text :=
  match s with
  | [] => []
  | c :: s' => match trim s' with
               | [] => if decide (c = blank) then [] else [c]
               | t => c :: t
               end
  end.
(** A name a Fortran caller can tell from its padding. *)
Definition no_trailing_blank (s : text) : Prop := trim s = s.

(** The characters of the [i]th of records of [w] characters. *)
Definition record (w i : nat) (b : text) : text := take w (drop (i * w) b).
