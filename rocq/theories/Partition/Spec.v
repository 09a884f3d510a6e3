(** What a valid distribution of cells 0..count-1 over threads is. *)
From stdpp Require Import prelude.
Local Open Scope Z_scope.

(** Thread t owns cell i. *)
Definition owns (starts ends : list Z) (t : nat) (i : Z) : Prop :=
  exists s e, starts !! t = Some s /\ ends !! t = Some e /\ s <= i <= e.

(** Contiguous, ordered, nonempty ranges that cover 0..count-1. *)
Record valid_split (count : Z) (starts ends : list Z) : Prop := {
  vs_len : length starts = length ends;
  vs_nonempty_list : starts <> [];
  vs_first : starts !! 0%nat = Some 0;
  vs_last : last ends = Some (count - 1);
  vs_nonempty : forall t s e, starts !! t = Some s -> ends !! t = Some e -> s <= e;
  vs_contig : forall t e s, ends !! t = Some e -> starts !! S t = Some s -> s = e + 1;
}.

(** Every cell belongs to exactly one thread. *)
Definition exactly_one_owner (count : Z) (starts ends : list Z) : Prop :=
  forall i, 0 <= i < count -> exists! t, owns starts ends t i.

(** Balanced: range sizes differ by at most one. *)
Definition balanced (starts ends : list Z) : Prop :=
  forall t1 t2 s1 e1 s2 e2,
    starts !! t1 = Some s1 -> ends !! t1 = Some e1 ->
    starts !! t2 = Some s2 -> ends !! t2 = Some e2 ->
    Z.abs ((e1 - s1) - (e2 - s2)) <= 1.
