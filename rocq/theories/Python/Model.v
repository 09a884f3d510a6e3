(** Tables and arrays that pass between the module and Python programs.

    Source: src/PhreeqcRM.cpp 3440-3453 (GetBackwardMappingSWIG), 5219-5237 (GetSpeciesStoichiometrySWIG) and the Python
    code in swig/PhreeqcRM.i 187-216 (GetSpeciesStoichiometry, GetBackwardMapping), 351-374 (GetIntVector; GetDoubleVector is alike and not modelled).
    The code that SWIG generates is not in the repository; taken from its documentation: output vectors are new and empty at
    each call and arrive as tuples; push_back of a vector of int takes Python integers within the range of int, that of a vector
    of double takes floats and integers; other values raise an exception. *)
From Coq Require Import ZArith String.
From stdpp Require Import prelude gmap stringmap.
Local Open Scope Z_scope.

(** (int) of a size: the value in 32 bits with sign *)
Definition to_int (n : nat) : Z := (Z.of_nat n + 2147483648) mod 4294967296 - 2147483648.

Section tables.
  Context {A : Type}.
  (** The double loop that both functions share: the vectors with the counts and the elements, from what they hold before *)
  Fixpoint pack (back : list (list A)) (counts : list Z) (elements : list A) : list Z * list A :=
    match back with
    | [] => (counts, elements)
    | b :: back' => pack back' (counts ++ [to_int (length b)]) (elements ++ b)
    end.
  (** "for j in range(n): back.append(allcells[j_tot]); j_tot += 1" from [k] remaining turns; [None] is an IndexError *)
  Fixpoint take_cells (k : nat) (all : list A) (j_tot : nat) (back : list A) : option (list A * nat) :=
    match k with
    | O => Some (back, j_tot)
    | S k' => match all !! j_tot with Some x => take_cells k' all (S j_tot) (back ++ [x]) | None => None end
    end.
End tables.

(** GetBackwardMappingSWIG with the vectors it is given, which it clears (3442-3443) *)
Definition back_swig (back : list (list Z)) (nback cells : list Z) : list Z * list Z := pack back [] [].
(** GetBackwardMapping in Python (203-216): range of a negative number is empty *)
Fixpoint back_rows (i : nat) (count : list Z) (all : list Z) (j_tot : nat) (d : gmap nat (list Z)) : option (gmap nat (list Z)) :=
  match count with
  | [] => Some d
  | n :: count' =>
      match take_cells (Z.to_nat n) all j_tot [] with
      | Some (back, j) => back_rows (S i) count' all j (<[i := back]> d)
      | None => None
      end
  end.
(** With what the vectors hold before, though SWIG gives empty ones *)
Definition py_backward (back : list (list Z)) (nback cells : list Z) : option (gmap nat (list Z)) :=
  let '(count, all) := back_swig back nback cells in back_rows 0 count all 0 ∅.

Section stoichiometry.
  (** The type of coefficients; a stoichiometry (cxxNameDouble) is the list of its entries in order *)
  Context {Q : Type}.
  Definition stoich := list (string * Q).
  (** GetSpeciesStoichiometrySWIG with the vectors it is given: the names are replaced, the others are added to. One stoichiometry
      is read for each name; [None] for a read past the end of the vector. *)
  Fixpoint stoich_pack (names : list string) (st : list stoich) (nelt : list Z) (elts : list string) (coef : list Q)
    : option (list Z * list string * list Q) :=
    match names with
    | [] => Some (nelt, elts, coef)
    | _ :: names' =>
        match st with
        | s :: st' => stoich_pack names' st' (nelt ++ [to_int (length s)]) (elts ++ s.*1) (coef ++ s.*2)
        | [] => None
        end
    end.
  Definition stoich_swig (names : list string) (st : list stoich) (species : list string) (nelt : list Z) (elts : list string)
    (coef : list Q) : option (list string * (list Z * list string * list Q)) :=
    match stoich_pack names st nelt elts coef with Some r => Some (names, r) | None => None end.

  (** GetSpeciesStoichiometry in Python (187-202): the inner loop, and the outer one over the species. *)
  Fixpoint take_elts (k : nat) (elts : list string) (coefs : list Q) (j_tot : nat) (d : stringmap Q) : option (stringmap Q * nat) :=
    match k with
    | O => Some (d, j_tot)
    | S k' =>
        match elts !! j_tot, coefs !! j_tot with
        | Some e, Some c => take_elts k' elts coefs (S j_tot) (<[e := c]> d)
        | _, _ => None
        end
    end.
  Fixpoint stoich_rows (species : list string) (i : nat) (nelt : list Z) (elts : list string) (coefs : list Q) (j_tot : nat)
    (d : stringmap (stringmap Q)) : option (stringmap (stringmap Q)) :=
    match species with
    | [] => Some d
    | s :: species' =>
        match nelt !! i with
        | None => None
        | Some n =>
            match take_elts (Z.to_nat n) elts coefs j_tot ∅ with
            | Some (s_stoich, j) => stoich_rows species' (S i) nelt elts coefs j (<[s := s_stoich]> d)
            | None => None
            end
        end
    end.
  Definition py_stoichiometry (names : list string) (st : list stoich) (species : list string) (nelt : list Z)
    (elts : list string) (coef : list Q) : option (stringmap (stringmap Q)) :=
    match stoich_swig names st species nelt elts coef with
    | Some (species, (nelt, elts, coefs)) => stoich_rows species 0 nelt elts coefs 0 ∅
    | None => None
    end.
End stoichiometry.

(** Python values, and what a program passes for an array: a vector of the module, a numpy array, a list or tuple,
    something else. *)
Inductive pyvalue := PyInt (z : Z) | PyFloat | PyStr (s : string).
Inductive pyarray := AVector (l : list Z) | ANumpy (l : list pyvalue) | AList (l : list pyvalue) | AOther.
(** IntVector, or the argument as it is, or an exception *)
Inductive converted := Vector (l : list Z) | AsItIs | Raises.
Fixpoint push_all (l : list pyvalue) (vv : list Z) : converted :=
  match l with
  | [] => Vector vv
  | PyInt z :: l' => if decide (-2147483648 <= z <= 2147483647) then push_all l' (vv ++ [z]) else Raises
  | _ :: _ => Raises
  end.
(** The test of the first element and the loop, 352-356 and 357-361 *)
Definition convert_elements (l : list pyvalue) : converted :=
  match l with
  | [] => Raises
  | PyInt _ :: _ => push_all l []
  | _ :: _ => AsItIs
  end.
(** "if not isinstance(v, phreeqcrm.IntVector): v = self.GetIntVector(v)", for instance 348-349; GetIntVector 351-362 *)
Definition get_int_vector (v : pyarray) : converted :=
  match v with
  | AVector l => Vector l
  | ANumpy l => convert_elements l
  | AList l => convert_elements l
  | AOther => AsItIs
  end.
