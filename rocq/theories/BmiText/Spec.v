(** What callers may expect of the announcements of a variable and of the memory they get. *)
From Coq Require Import ZArith Ascii String.
From stdpp Require Import prelude.
From Verif.BmiText Require Import Model.
Open Scope Z_scope.

(** A list of names in blocks of [w] characters, filled up with blanks. *)
Definition laid_out (w : nat) (names : list text) (bytes : text) : Prop :=
  length bytes = (length names * w)%nat /\
  forall i name, names !! i = Some name ->
    (length name <= w)%nat /\ take w (drop (i * w) bytes) = name ++ replicate (w - length name) " "%char.

(** Numbers one after the other. *)
Definition numbers_at {D} (dbytes : D -> text) (l : list D) (bytes : text) : Prop :=
  length bytes = (length l * 8)%nat /\
  forall k x, l !! k = Some x -> take 8 (drop (k * 8) bytes) = dbytes x.

(** A 32 bit integer, least significant byte first. *)
Definition int_at (z : Z) (bytes : text) : Prop :=
  exists a b c d, bytes = [a; b; c; d] /\
    Z.of_N (N_of_ascii a) + 256 * Z.of_N (N_of_ascii b) + 65536 * Z.of_N (N_of_ascii c) + 16777216 * Z.of_N (N_of_ascii d)
      = z mod 4294967296.

Section Spec.
Context {D : Type} (dbytes : D -> text).

(** The variables whose announcement can be relied on, and when. *)
Definition reliable (v : var) (r : rm D) : Prop :=
  match v with
  | VComponents | VFilePrefix | VColumnCount | VCount | VRowCount | VCurrent => True
  | VHeadings => 0 < r_count r
  | VSelectedOutput =>
      0 < r_count r /\ 1 < Z.of_nat (r_rows r) * r_cols r /\
      exists t, (forall old, r_table r old = t) /\ Z.of_nat (length t) = Z.of_nat (r_rows r) * r_cols r
  | VViscosity => (1 < r_rows r)%nat /\ length (r_viscosity r) = r_rows r
  | VErrorString | VNth | VOn => False
  end.

(** The memory shows the value of the variable, as elements of [w] bytes. *)
Definition shows (v : var) (r : rm D) (w : Z) (bytes : text) : Prop :=
  match v with
  | VComponents => laid_out (Z.to_nat w) (r_components r) bytes
  | VHeadings => laid_out (Z.to_nat w) (r_heads r) bytes
  | VFilePrefix => bytes = r_prefix r /\ w = Z.of_nat (length bytes)
  | VColumnCount => int_at (r_cols r) bytes /\ w = 4
  | VCount => int_at (r_count r) bytes /\ w = 4
  | VRowCount => int_at (Z.of_nat (r_rows r)) bytes /\ w = 4
  | VCurrent => int_at (r_current r) bytes /\ w = 4
  | VSelectedOutput => numbers_at dbytes (r_table r []) bytes /\ w = 8
  | VViscosity => numbers_at dbytes (r_viscosity r) bytes /\ w = 8
  | VErrorString | VNth | VOn => False
  end.

(** Histories in which the list of components changes in FindComponents only, and the number of cells never
    after the instance has been created. *)
Inductive used (zero : D) : bmi D -> Prop :=
| Used_new (r : rm D) : used zero (bmi_new zero r)
| Used_op (o : op D) (b : bmi D) :
    used zero b ->
    match o with
    | Change r => r_components r = r_components (b_rm b) /\ r_rows r = r_rows (b_rm b)
    | Find r => r_rows r = r_rows (b_rm b)
    | _ => True
    end ->
    used zero (do_op zero o b).

End Spec.
