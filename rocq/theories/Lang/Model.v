(** Names and texts handed to C and Fortran callers.

    Source: src/RM_interface_C.cpp 15-36 (rmpadfstring), 912-931 and 963-1295 (name getters),
    1401-1427 (error string), 1428-1442 (file prefix), 1902-1919 (RM_GetSpeciesName);
    src/RM_interface_F.cpp 18-28 (rmpadfstring), 245-640, 780-821, 1297-1315;
    src/BMI_interface_F.cpp 170-236 (RMF_BMI_GetNamesSize, RMF_BMI_GetNames). *)
From Coq Require Import ZArith Ascii String.
From stdpp Require Import prelude strings.
From Verif.Base Require Import Result.
From Verif.Find Require Import Model.
Open Scope list_scope.

Notation text := (list ascii).
Notation NUL := Ascii.zero.
Notation blank := " "%char.

(** What [c_str()] shows of a string: everything before the first NUL. *)
Fixpoint cstr (s : text) : text :=
  match s with
  | [] => []
  | c :: s' => if decide (c = NUL) then [] else c :: cstr s'
  end.

(** Storing characters at the beginning of a caller's buffer; a write past its end is undefined. *)
Definition store (buf cs : text) : outcome text :=
  if decide (length cs <= length buf)%nat then Ret (cs ++ drop (length cs) buf) else UB.

(** strncpy of the C library; the [int] length is converted to [size_t]. *)
Definition strncpy (buf src : text) (n : Z) : outcome text :=
  let n' := (n mod 2 ^ 64)%Z in
  if decide (n' <= Z.of_nat (length buf))%Z then
    let k := Z.to_nat n' in
    store buf (take k src ++ replicate (k - length src) NUL)
  else UB.

(** rmpadfstring of the C interface, RM_interface_C.cpp 15-36. *)
Definition c_padstring (buf src : text) (len : Z) : outcome (irm_result * text) :=
  if decide (len = 0)%Z then Ret (IRM_INVALIDARG, buf)
  else
    let l := ((len - 1) mod 2 ^ 64)%Z in
    if (Z.of_nat (length src) <? l)%Z then obind (store buf (src ++ [NUL])) (fun b => Ret (IRM_OK, b))
    else obind (store buf (take (Z.to_nat l) src ++ [NUL])) (fun b => Ret (IRM_INVALIDARG, b)).

(** rmpadfstring of the Fortran interface, RM_interface_F.cpp 18-28 and BMI_interface_F.cpp 16-26;
    the length is converted to [unsigned int]. *)
Definition f_padstring (buf src : text) (len : Z) : outcome text :=
  let n' := (len mod 2 ^ 32)%Z in
  if decide (n' <= Z.of_nat (length buf))%Z then
    let k := Z.to_nat n' in
    store buf (take k src ++ replicate (k - length src) blank)
  else UB.

(** ** Name getters *)

Inductive getter := Component | ExchangeSpecies | ExchangeName | SurfaceSpecies | SurfaceType | SurfaceName
  | EquilibriumPhases | GasComponents | KineticReactions | SScomps | SSnames | SInames | SpeciesName.

Section getters.
  Context {D : Type}.
  Notation lists := (lists D string).

  (** The vector a getter reads from. *)
  Definition names_of (g : getter) (l : lists) : list string :=
    match g with
    | Component => l_comps l
    | ExchangeSpecies => map fst (l_ex l)
    | ExchangeName => map snd (l_ex l)
    | SurfaceSpecies => map (fun t => t.1.1) (l_surf l)
    | SurfaceType => map (fun t => t.1.2) (l_surf l)
    | SurfaceName => map snd (l_surf l)
    | EquilibriumPhases => l_eq l
    | GasComponents => l_gas l
    | KineticReactions => l_kin l
    | SScomps => map fst (l_ss l)
    | SSnames => map snd (l_ss l)
    | SInames => l_si l
    | SpeciesName => l_species l
    end.
  (** The vector whose size it compares the number with. *)
  Definition count_of (g : getter) (l : lists) : nat :=
    match g with
    | ExchangeName => length (names_of ExchangeSpecies l)
    | SurfaceType | SurfaceName => length (names_of SurfaceSpecies l)
    | SSnames => length (names_of SScomps l)
    | g => length (names_of g l)
    end.

  (** [v\[num\].c_str()] *)
  Definition name_at (v : list string) (num : Z) : outcome text :=
    match v !! Z.to_nat num with Some s => Ret (cstr (list_ascii_of_string s)) | None => UB end.

  (** The test of the number: RM_GetComponent (924) and RM_GetSpeciesName (1911) compare with [<],
      the other eleven with [<=] (975, 997, 1033, 1055, 1078, 1114, 1150, 1186, 1228, 1250, 1285). *)
  Definition c_in_range (g : getter) (num : Z) (count : nat) : bool :=
    match g with
    | Component | SpeciesName => ((0 <=? num) && (num <? Z.of_nat count))%Z
    | _ => ((0 <=? num) && (num <=? Z.of_nat count))%Z
    end.
  (** RM_GetSpeciesName does not look at the length. *)
  Definition length_checked (g : getter) : bool := match g with SpeciesName => false | _ => true end.

  (** The C getters. [m] is the instance if there is one, [buf] the caller's buffer or NULL. *)
  Definition c_get (g : getter) (m : option lists) (num : Z) (buf : option text) (l1 : Z)
      : outcome (irm_result * option text) :=
    match m with
    | None => Ret (IRM_BADINSTANCE, buf)
    | Some l =>
        match buf with
        | None => Ret (IRM_INVALIDARG, None)
        | Some b =>
            if (negb (length_checked g) || (0 <? l1)%Z) && c_in_range g num (count_of g l) then
              obind (name_at (names_of g l) num) (fun s =>
              obind (strncpy b s l1) (fun b' => Ret (IRM_OK, Some b')))
            else Ret (IRM_INVALIDARG, buf)
        end
    end.

  (** The Fortran getters, RM_interface_F.cpp 258-630 and 1297-1315: numbers from 1. They test the
      buffer against NULL except RMF_GetSpeciesName; a Fortran caller never passes NULL. *)
  Definition f_get (g : getter) (m : option lists) (num : Z) (b : text) (l1 : Z)
      : outcome (irm_result * text) :=
    match m with
    | None => Ret (IRM_BADINSTANCE, b)
    | Some l =>
        if (negb (length_checked g) || (0 <? l1)%Z) && ((0 <? num) && (num <=? Z.of_nat (count_of g l)))%Z then
          obind (name_at (names_of g l) (num - 1)) (fun s =>
          obind (f_padstring b s l1) (fun b' => Ret (IRM_OK, b')))
        else Ret (IRM_INVALIDARG, b)
    end.
End getters.

(** RM_GetErrorStringLength and RM_GetErrorString, 1401-1427. *)
Definition c_error_length (s : text) : Z := Z.of_nat (length s).
Definition c_error_string (s buf : text) (l : Z) : outcome (irm_result * text) :=
  obind (strncpy buf (cstr s) l) (fun b => Ret (IRM_OK, b)).

(** BMI_interface_F.cpp 170-199: the length of the longest name. *)
Definition names_size (v : list text) : nat :=
  fold_left (fun size s => if decide (size < length s)%nat then length s else size) v 0%nat.
(** 201-236: every name left-justified in that width ([std::left << std::setw]). *)
Definition setw_left (w : nat) (s : text) : text := s ++ replicate (w - length s) blank.
Definition get_names (v : list text) (dest : text) : outcome text :=
  store dest (concat (map (setw_left (names_size v)) v)).
