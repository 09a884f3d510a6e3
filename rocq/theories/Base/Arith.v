(** Abstract floating-point arithmetic.  The load-balancing code is modelled
    over an arbitrary instance, so results that hold for every instance hold in
    particular for the compiled program whatever its rounding. *)
From stdpp Require Import prelude.

Record arith := Arith {
  num : Type;
  of_int : Z -> num;                 (* (double) n *)
  quarter : num;                     (* 0.25 *)
  c005 : num;                        (* 0.05 *)
  c095 : num;                        (* 0.95 *)
  fadd : num -> num -> num;
  fsub : num -> num -> num;
  fmul : num -> num -> num;
  fdiv : num -> num -> num;
  fltb : num -> num -> bool;         (* <; false when unordered *)
  fleb : num -> num -> bool;         (* <=; false when unordered *)
  feqb : num -> num -> bool;         (* ==; false when unordered *)
  to_int : num -> option Z;          (* (int) x; None: undefined behaviour *)
  floor_to_int : num -> option Z;    (* (int) floor(x); None: undefined behaviour *)
}.
