(** Arrays handed over by C and Fortran callers.

    Source: src/RM_interface_C.cpp (the RM_ functions), src/RM_interface_F.cpp (the RMF_ functions the
    Fortran module calls and to which some RM_ functions are delegated), src/RM_interface.F90 (the
    Fortran module: reallocation of result arrays and checks of argument arrays). Lines at each
    definition.

    What the C++ method behind a wrapper computes is a parameter ([meth]); the models of the methods
    are in the other topics, and Props.v puts the two together for concentrations. *)
From Coq Require Import ZArith.
From stdpp Require Import prelude.
From Verif.Base Require Import Result.
From Verif.Mapping Require Import Model.

(** ** The caller's memory

    A pointer argument: NULL, or an array with that many elements. *)
Notation pointer A := (option (list A)).

(** [std::vector<T> v; v.resize(n);] where [n] is an [int]: a negative number becomes a huge
    [size_t] and std::length_error leaves the function. *)
Definition vec_resize {A} (n : Z) (x : A) : outcome (list A) :=
  if decide (n < 0)%Z then Throw else Ret (replicate (Z.to_nat n) x).

(** [memcpy(&v.front(), p, v.size() * sizeof(T))] into a vector of [n] elements. [front()] of an empty
    vector is undefined. *)
Definition copy_in {A} (n : nat) (p : pointer A) : outcome (list A) :=
  if decide (n = 0) then UB
  else match p with
       | None => UB
       | Some a => if decide (n <= length a) then Ret (take n a) else UB
       end.

(** [memcpy(p, &v.front(), v.size() * sizeof(T))] *)
Definition copy_out {A} (v : list A) (p : pointer A) : outcome (pointer A) :=
  if decide (length v = 0) then UB
  else match p with
       | None => UB
       | Some a => if decide (length v <= length a) then Ret (Some (v ++ drop (length v) a)) else UB
       end.

(** [for (int i = 0; i < n; i++) p\[i\] = x;] *)
Definition fill_out {A} (n : nat) (x : A) (p : pointer A) : outcome (pointer A) :=
  if decide (n = 0) then Ret p
  else match p with
       | None => UB
       | Some a => if decide (n <= length a) then Ret (Some (replicate n x ++ drop n a)) else UB
       end.

(** ** Functions that fill an array of the caller *)

Inductive getter :=
  | Concentrations      (* C 1300-1320, F 644-662 *)
  | GasCompMoles        (* C 1445-1465, F 826-842 *)
  | GasCompPressures    (* C 1468-1487, F 846-862 *)
  | GasCompPhi          (* C 1490-1509, F 866-882 *)
  | GasPhaseVolume      (* C 1512-1531, F 886-902 *)
  | SpeciesConcentrations   (* C 1801-1821, F 1216-1231 *)
  | SpeciesLog10Gammas      (* C 1854-1875, F 1261-1276 *)
  | SpeciesLog10Molalities  (* C 1878-1899, F 1280-1295 *)
  | SelectedOutput          (* C 1685-1706, F 1102-1120 *)
  | IthConcentration        (* C calls F; F 666-682 *)
  | IthSpeciesConcentration (* C calls F; F 686-702 *)
  | Density             (* C 1359-1385, F 740-766 *)
  | Saturation          (* C 1656-1680, F 1073-1098 *)
  | SolutionVolume      (* C 1770-1796, F 1188-1212 *)
  | Porosity            (* C 1635-1639 calls F; F 1021-1043 *)
  | Pressure            (* C 1642-1646 calls F; F 1047-1069 *)
  | Temperature         (* C 1212-1216 calls F; F 1358-1380 *)
  | Viscosity           (* C 1964-1968 calls F; F 1463-1485 *)
  | Gfw                 (* C 1536-1557, F 906-922 *)
  | SpeciesD25          (* C 1836-1851, F 1247-1257 *)
  | SpeciesZ            (* C 1934-1949, F 1332-1342 *)
  | StartCell           (* C 1951-1961, F 1345-1354; ints *)
  | EndCell.            (* C 1389-1399, F 768-777; ints *)

(** The shapes of the bodies. *)
Inductive shape :=
  | OnOk      (* the method fills a vector; copied if it returned IRM_OK; its code returned *)
  | OrFill    (* copied if the vector has nxyz elements, otherwise INACTIVE_CELL_VALUE and IRM_FAIL *)
  | OrResize  (* copied if the vector has nxyz elements, otherwise the local vector is resized, IRM_FAIL *)
  | ByCount   (* as many elements as there are components; IRM_FAIL if there are none *)
  | Whole.    (* the whole vector; IRM_OK *)

Definition shape_of (g : getter) : shape :=
  match g with
  | Concentrations | GasCompMoles | GasCompPressures | GasCompPhi | GasPhaseVolume
  | SpeciesConcentrations | SpeciesLog10Gammas | SpeciesLog10Molalities | SelectedOutput
  | IthConcentration | IthSpeciesConcentration => OnOk
  | Density | Saturation | SolutionVolume => OrFill
  | Porosity | Pressure | Temperature | Viscosity => OrResize
  | Gfw => ByCount
  | SpeciesD25 | SpeciesZ | StartCell | EndCell => Whole
  end.

Inductive lang := C | F.

(** [if (p != NULL) ... return IRM_INVALIDARG;] *)
Definition get_null_checked (l : lang) (g : getter) : bool :=
  match l with
  | F => false
  | C => match g with
         | Saturation | Porosity | Pressure | Temperature | Viscosity
         | IthConcentration | IthSpeciesConcentration | StartCell | EndCell => false
         | _ => true
         end
  end.

(** Counts of an instance the wrappers ask for. The columns and rows of the selected output are the
    results of GetSelectedOutputColumnCount and GetSelectedOutputRowCount, negative where those
    fail. *)
Record counts := Counts {
  n_xyz : nat; n_comps : nat; n_gas : nat; n_species : nat; n_workers : nat;
  n_columns : Z; n_rows : Z;
}.

(** The size the vector has before the method is called. *)
Definition asked (g : getter) (k : counts) : Z :=
  match g with
  | Concentrations => Z.of_nat (n_xyz k * n_comps k)
  | GasCompMoles | GasCompPressures | GasCompPhi => Z.of_nat (n_xyz k * n_gas k)
  | GasPhaseVolume | IthConcentration | IthSpeciesConcentration => Z.of_nat (n_xyz k)
  | SelectedOutput => n_columns k * n_rows k
  | _ => 0
  end.

Section getters.
  Context {A : Type} (zero inactive : A).

  (** The method behind the wrapper: the vector it is given, its code and the vector it leaves. For a
      method that returns a vector, the vector returned; the code is not looked at. *)
  Notation method := (list A -> outcome (irm_result * list A)).

  Definition get_body (g : getter) (k : counts) (meth : method) (p : pointer A)
      : outcome (irm_result * pointer A) :=
    obind (vec_resize (asked g k) zero) (fun v0 =>
    obind (meth v0) (fun '(r, v) =>
    match shape_of g with
    | OnOk =>
        if decide (r = IRM_OK) then obind (copy_out v p) (fun p' => Ret (r, p')) else Ret (r, p)
    | OrFill =>
        if decide (length v = n_xyz k) then obind (copy_out v p) (fun p' => Ret (IRM_OK, p'))
        else obind (fill_out (n_xyz k) inactive p) (fun p' => Ret (IRM_FAIL, p'))
    | OrResize =>
        if decide (length v = n_xyz k) then obind (copy_out v p) (fun p' => Ret (IRM_OK, p'))
        else Ret (IRM_FAIL, p)
    | ByCount =>
        if decide (n_comps k = 0) then Ret (IRM_FAIL, p)
        else if decide (n_comps k <= length v) then
          obind (copy_out (take (n_comps k) v) p) (fun p' => Ret (IRM_OK, p'))
        else UB
    | Whole => obind (copy_out v p) (fun p' => Ret (IRM_OK, p'))
    end)).

  (** The whole function; [m] is the instance with that id, if there is one. *)
  Definition get_array (l : lang) (g : getter) (m : option (counts * method)) (p : pointer A)
      : outcome (irm_result * pointer A) :=
    match m with
    | None => Ret (IRM_BADINSTANCE, p)
    | Some (k, meth) =>
        match p with
        | None => if get_null_checked l g then Ret (IRM_INVALIDARG, p) else get_body g k meth p
        | Some _ => get_body g k meth p
        end
    end.
End getters.

(** ** Functions that read an array of the caller *)

Inductive setter :=
  | SetConcentrations   (* C 2425-2441, F 2090-2105 *)
  | SetIthConcentration (* C calls F; F 706-719 *)
  | SetIthSpeciesConcentration (* C calls F; F 723-736 *)
  | SetDensityUser      (* C 2465-2480, F 2125-2138 *)
  | SetGasCompMoles     (* C 2544-2560, F 2205-2217 *)
  | SetGasPhaseVolume   (* C 2563-2579, F 2221-2233 *)
  | SetPorosity         (* C 2630-2646, F 2282-2296 *)
  | SetPressure         (* C 2649-2665, F 2300-2313 *)
  | SetPrintChemistryMask (* C 2681-2697, F 2336-2349; ints *)
  | SetSaturationUser   (* C 2750-2766, F 2404-2417 *)
  | SetTemperature      (* C 2808-2824, F 2462-2475 *)
  | SpeciesConcentrations2Module (* C 2959-2977, F 2614-2631 *)
  | CreateMapping       (* C 791-811, F 121-138; ints *)
  | InitialSolutions2Module  (* C calls F; F 1607-1617; ints; likewise the six other reactants, -1712 *)
  | InitialPhreeqc2Module    (* C 2137-2178 without the second array, F 1719-1744; ints *)
  | InitialPhreeqcCell2Module. (* C 2182-2203, F 1793-1815; ints; the length is an argument *)

Definition set_null_checked (l : lang) (s : setter) : bool :=
  match l, s with
  | _, SpeciesConcentrations2Module => true
  | F, _ => false
  | C, (SetIthConcentration | SetIthSpeciesConcentration | InitialSolutions2Module) => false
  | C, _ => true
  end.

(** The size of the vector; [dim] is the length argument of InitialPhreeqcCell2Module. *)
Definition taken (s : setter) (k : counts) (dim : Z) : Z :=
  match s with
  | SetConcentrations => Z.of_nat (n_xyz k * n_comps k)
  | SetGasCompMoles => Z.of_nat (n_xyz k * n_gas k)
  | SpeciesConcentrations2Module => Z.of_nat (n_xyz k * n_species k)
  | InitialPhreeqc2Module => Z.of_nat (n_xyz k * 7)
  | InitialPhreeqcCell2Module => dim
  | _ => Z.of_nat (n_xyz k)
  end.

Section setters.
  Context {A M : Type}.
  (** The method: the new state of the instance and its code. *)
  Notation method := (list A -> M -> outcome (irm_result * M)).

  Definition set_body (s : setter) (k : counts) (dim : Z) (meth : method) (p : pointer A) (m : M)
      : outcome (irm_result * M) :=
    if decide (taken s k dim < 0)%Z then Throw
    else obind (copy_in (Z.to_nat (taken s k dim)) p) (fun v => meth v m).

  Definition set_array (l : lang) (s : setter) (dim : Z) (i : option (counts * method)) (p : pointer A) (m : M)
      : outcome (irm_result * M) :=
    match i with
    | None => Ret (IRM_BADINSTANCE, m)
    | Some (k, meth) =>
        match p with
        | None => if set_null_checked l s then Ret (IRM_INVALIDARG, m) else set_body s k dim meth p m
        | Some _ => set_body s k dim meth p m
        end
    end.
End setters.

(** RM_GetBackwardMapping, C 878-900 and F 209-231: the caller's list and the length given with it;
    result code, list and length. The states are those of the Mapping topic. *)
Definition get_backward (m : option mapping_state) (n : Z) (p : pointer Z) (size : Z)
    : outcome (irm_result * pointer Z * Z) :=
  match m with
  | None => Ret (IRM_BADINSTANCE, p, size)
  | Some s =>
      match p with
      | None => Ret (IRM_INVALIDARG, p, size)
      | Some a =>
          if decide (0 <= n < count_chemistry s)%Z then
            match backward s !! Z.to_nat n with
            | None => UB
            | Some b =>
                if decide (Z.of_nat (length b) <= size)%Z then
                  if decide (length b <= length a) then Ret (IRM_OK, Some (b ++ drop (length b) a), Z.of_nat (length b))
                  else UB
                else Ret (IRM_INVALIDARG, p, size)
            end
          else Ret (IRM_INVALIDARG, p, size)
      end
  end.

(** ** The Fortran module *)

(** A Fortran array of rank 2: extents and elements in array element order, the first index running
    fastest. *)
Record array2 (A : Type) := Array2 { a_d1 : nat; a_d2 : nat; a_el : list A }.
Arguments Array2 {A}. Arguments a_d1 {A}. Arguments a_d2 {A}. Arguments a_el {A}.

Section fortran.
  Context {A : Type}.

  (** [allocate(t(n1, n2))]: extents that are not positive are zero; the elements are undefined, [junk]
      is what happens to be there. *)
  Definition allocate2 (junk : A) (n1 n2 : Z) : array2 A :=
    Array2 (Z.to_nat n1) (Z.to_nat n2) (replicate (Z.to_nat n1 * Z.to_nat n2) junk).

  (** allocate_double_2d, RM_interface.F90 7735-7748. [size] of an array that is not allocated is
      undefined; it is taken before [allocated] is asked. *)
  Definition allocate_double_2d (junk : A) (t : option (array2 A)) (n1 n2 : Z) : outcome (array2 A) :=
    match t with
    | None => UB
    | Some a =>
        if decide (Z.of_nat (a_d2 a) <> n2 \/ (Z.of_nat (a_d1 a) < n1)%Z) then Ret (allocate2 junk n1 n2)
        else Ret a
    end.

  (** allocate_double_1d, 7694-7709. *)
  Definition allocate_double_1d (junk : A) (t : option (list A)) (n1 : Z) : outcome (list A) :=
    match t with
    | None => Ret (replicate (Z.to_nat n1) junk)
    | Some a => if decide (Z.of_nat (length a) <> n1) then Ret (replicate (Z.to_nat n1) junk) else Ret a
    end.

  (** allocate_integer_1d, 7769-7781: like the rank 2 version. *)
  Definition allocate_integer_1d (junk : A) (t : option (list A)) (n1 : Z) : outcome (list A) :=
    match t with
    | None => UB
    | Some a => if decide (Z.of_nat (length a) <> n1) then Ret (replicate (Z.to_nat n1) junk) else Ret a
    end.

  (** Chk_Double1D and Chk_Integer1D (7676-7692, 7750-7767), Chk_Double2D and Chk_Integer2D (7711-7733,
      7783-7806): numbers of errors. The message is not modelled. *)
  Definition chk_1d (t : list A) (n1 : Z) : nat := if decide (Z.of_nat (length t) < n1)%Z then 1 else 0.
  Definition chk_2d (t : array2 A) (n1 n2 : Z) : nat :=
    (if decide (Z.of_nat (a_d2 t) <> n2) then 1 else 0) + (if decide (Z.of_nat (a_d1 t) < n1)%Z then 1 else 0).

  (** A call ends the program (RM_Abort), or comes back. *)
  Inductive fcall (B : Type) := Abort | Back (b : B).
  Arguments Abort {B}. Arguments Back {B}.

  (** The getters with an array of rank 2, e.g. RM_GetConcentrations 918-936: [n2] is the second
      count asked of the instance. *)
  Definition cols (g : getter) (k : counts) : Z :=
    match g with
    | Concentrations => Z.of_nat (n_comps k)
    | GasCompMoles | GasCompPressures | GasCompPhi => Z.of_nat (n_gas k)
    | SpeciesConcentrations | SpeciesLog10Gammas | SpeciesLog10Molalities => Z.of_nat (n_species k)
    | SelectedOutput => n_columns k
    | _ => 1
    end.
  Definition f90_get2 (zero inactive junk : A) (g : getter) (k : counts)
      (meth : list A -> outcome (irm_result * list A)) (t : option (array2 A))
      : outcome (irm_result * array2 A) :=
    obind (allocate_double_2d junk t (Z.of_nat (n_xyz k)) (cols g k)) (fun a =>
    obind (get_array zero inactive F g (Some (k, meth)) (Some (a_el a))) (fun '(r, p) =>
    match p with Some e => Ret (r, Array2 (a_d1 a) (a_d2 a) e) | None => UB end)).

  (** The getters with an array of rank 1, e.g. RM_GetPorosity 2286-2304. *)
  Definition length1 (g : getter) (k : counts) : Z :=
    match g with
    | Gfw => Z.of_nat (n_comps k)
    | SpeciesD25 | SpeciesZ => Z.of_nat (n_species k)
    | StartCell | EndCell => Z.of_nat (n_workers k)
    | _ => Z.of_nat (n_xyz k)
    end.
  Definition integer_getter (g : getter) : bool := match g with StartCell | EndCell => true | _ => false end.
  Definition f90_get1 (zero inactive junk : A) (g : getter) (k : counts)
      (meth : list A -> outcome (irm_result * list A)) (t : option (list A))
      : outcome (irm_result * list A) :=
    obind ((if integer_getter g then allocate_integer_1d else allocate_double_1d) junk t (length1 g k)) (fun a =>
    obind (get_array zero inactive F g (Some (k, meth)) (Some a)) (fun '(r, p) =>
    match p with Some e => Ret (r, e) | None => UB end)).

  (** The setters: with [rmf_debug] the extents are checked first (Chk_SetConcentrations 5519-5539 and
      the like), except in RM_SetIthConcentration (5976-5994), RM_SetIthSpeciesConcentration
      (6025-6043) and RM_InitialSolutions2Module and its like (4481-4496), which have no check. *)
  Definition f90_checked (s : setter) : bool :=
    match s with
    | SetIthConcentration | SetIthSpeciesConcentration | InitialSolutions2Module => false
    | _ => true
    end.
  Definition rank2 (s : setter) : bool :=
    match s with
    | SetConcentrations | SetGasCompMoles | SpeciesConcentrations2Module | InitialPhreeqc2Module => true
    | _ => false
    end.
  Definition set_cols (s : setter) (k : counts) : Z :=
    match s with
    | SetConcentrations => Z.of_nat (n_comps k)
    | SetGasCompMoles => Z.of_nat (n_gas k)
    | SpeciesConcentrations2Module => Z.of_nat (n_species k)
    | InitialPhreeqc2Module => 7
    | _ => 1
    end.
  Definition f90_set2 {M} (debug : bool) (s : setter) (k : counts)
      (meth : list A -> M -> outcome (irm_result * M)) (t : array2 A) (m : M) : outcome (fcall (irm_result * M)) :=
    if debug && f90_checked s && negb (bool_decide (chk_2d t (Z.of_nat (n_xyz k)) (set_cols s k) = 0)) then Ret Abort
    else obind (set_array F s 0 (Some (k, meth)) (Some (a_el t)) m) (fun x => Ret (Back x)).
  Definition f90_set1 {M} (debug : bool) (s : setter) (dim : Z) (k : counts)
      (meth : list A -> M -> outcome (irm_result * M)) (t : list A) (m : M) : outcome (fcall (irm_result * M)) :=
    if debug && f90_checked s && negb (bool_decide (chk_1d t (taken s k dim) = 0)) then Ret Abort
    else obind (set_array F s dim (Some (k, meth)) (Some t) m) (fun x => Ret (Back x)).
End fortran.
Arguments Abort {B}. Arguments Back {B}.

(** RM_GetBackwardMapping of the Fortran module, 688-715: a local list of 1000 numbers, what is in it
    before the call is undefined ([junk]); the result is allocated with the length that comes back. *)
Definition f90_backward (junk : Z) (m : option mapping_state) (n : Z) : outcome (irm_result * list Z) :=
  obind (get_backward m n (Some (replicate 1000 junk)) 1000) (fun '(r, p, size) =>
  match p with
  | Some my_list => if decide (Z.to_nat size <= length my_list) then Ret (r, take (Z.to_nat size) my_list) else UB
  | None => UB
  end).
