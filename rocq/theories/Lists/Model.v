(** The lists of variables of the BMI class: which variables can be set, got and pointed to according to the
    lists of names, and which calls of SetValue, GetValue and GetValuePtr are accepted.

    Source: src/VarManager.cpp (constructor, GetEnum and one [_Var] function per variable), src/BMIVariant.h
    and .cpp, src/BMIPhreeqcRM.cpp 108-160 and 264-460, 618-1330, src/RM_interface_C.cpp 186-280,
    src/BMI_interface_F.cpp 120-240. Lines at each definition.

    All 26 variables are modelled, but only what decides whether a call is accepted: the flags, the
    null pointer and the exceptions. Values, sizes and types are the topics Bmi, BmiText and Auto. Not modelled:
    the builds for Python and the overloads that check more before they call the function of the variable
    (SetValue of a vector checks the dimension, SetValue from memory divides by the item size). *)
From Coq Require Import ZArith Ascii String.
From stdpp Require Import prelude strings gmap.
From Verif.Reactant Require Import Model.

(** ** The variables: the keys of VariantMap (VarManager.cpp 18-69), in the order of src/RMVARS.h. The enumeration
    has more: InputVarNames, OutputVarNames and those of OutputVars... have no entry in the map. *)
Inductive var :=
  | ComponentCount | Components | Concentrations | DensityCalculated | DensityUser | ErrorString | FilePrefix | Gfw
  | GridCellCount | NthSelectedOutput | SaturationCalculated | SaturationUser | SelectedOutput
  | SelectedOutputColumnCount | SelectedOutputCount | SelectedOutputHeadings | SelectedOutputRowCount
  | SolutionVolume | Time | TimeStep | CurrentSelectedOutputUserNumber | Porosity | Pressure | SelectedOutputOn
  | Temperature | Viscosity.
Global Instance var_eq_dec : EqDecision var.
Proof. solve_decision. Defined.
Definition all_vars : list var :=
  [ComponentCount; Components; Concentrations; DensityCalculated; DensityUser; ErrorString; FilePrefix; Gfw;
   GridCellCount; NthSelectedOutput; SaturationCalculated; SaturationUser; SelectedOutput;
   SelectedOutputColumnCount; SelectedOutputCount; SelectedOutputHeadings; SelectedOutputRowCount;
   SolutionVolume; Time; TimeStep; CurrentSelectedOutputUserNumber; Porosity; Pressure; SelectedOutputOn;
   Temperature; Viscosity].

(** The names (VarManager.cpp 18-69) *)
Definition var_name (v : var) : string :=
  match v with
  | ComponentCount => "ComponentCount" | Components => "Components" | Concentrations => "Concentrations"
  | DensityCalculated => "DensityCalculated" | DensityUser => "DensityUser" | ErrorString => "ErrorString"
  | FilePrefix => "FilePrefix" | Gfw => "Gfw" | GridCellCount => "GridCellCount"
  | NthSelectedOutput => "NthSelectedOutput" | SaturationCalculated => "SaturationCalculated"
  | SaturationUser => "SaturationUser" | SelectedOutput => "SelectedOutput"
  | SelectedOutputColumnCount => "SelectedOutputColumnCount" | SelectedOutputCount => "SelectedOutputCount"
  | SelectedOutputHeadings => "SelectedOutputHeadings" | SelectedOutputRowCount => "SelectedOutputRowCount"
  | SolutionVolume => "SolutionVolume" | Time => "Time" | TimeStep => "TimeStep"
  | CurrentSelectedOutputUserNumber => "CurrentSelectedOutputUserNumber" | Porosity => "Porosity"
  | Pressure => "Pressure" | SelectedOutputOn => "SelectedOutputOn" | Temperature => "Temperature"
  | Viscosity => "Viscosity"
  end%string.

(** EnumMap (82-87) and VarManager::GetEnum (131-141) *)
Definition get_enum (name : string) : option var :=
  find (fun v => String.eqb (lowered (var_name v)) (lowered name)) all_vars.

(** ** What is kept of a BMIVariant (BMIVariant.h 24-60): Initialized, HasSetter, HasGetter, HasPtr, and whether
    VoidPtr was set *)
Record entry := Entry { e_init : bool; e_setter : bool; e_getter : bool; e_ptr : bool; e_void : bool }.
(** The constructor, BMIVariant.cpp 2-22 *)
Definition new_entry : entry := Entry false false false false false.

(** The flags set, get, ptr given to SetBasic (BMIVariant.h 80-100), at the lines of VarManager.cpp listed *)
Definition basic (v : var) : bool * bool * bool :=
  match v with
  | ComponentCount => (false, true, true)                     (* 165 *)
  | Components => (false, true, false)                        (* 222 *)
  | Concentrations => (true, true, true)                      (* 297 *)
  | DensityCalculated => (false, true, true)                  (* 346 *)
  | DensityUser => (true, false, false)                       (* 400 *)
  | ErrorString => (false, true, false)                       (* 466 *)
  | FilePrefix => (true, true, false)                         (* 514, 546 *)
  | Gfw => (false, true, true)                                (* 569 *)
  | GridCellCount => (false, true, true)                      (* 613 *)
  | NthSelectedOutput => (true, false, false)                 (* 665 *)
  | SaturationCalculated => (false, true, true)               (* 711 *)
  | SaturationUser => (true, false, false)                    (* 766 *)
  | SelectedOutput => (false, true, false)                    (* 826, 836 *)
  | SelectedOutputColumnCount => (false, true, false)         (* 877 *)
  | SelectedOutputCount => (false, true, false)               (* 926 *)
  | SelectedOutputHeadings => (false, true, false)            (* 991 *)
  | SelectedOutputRowCount => (false, true, false)            (* 1063 *)
  | SolutionVolume => (false, true, true)                     (* 1112 *)
  | Time => (true, true, true)                                (* 1159 *)
  | TimeStep => (true, true, true)                            (* 1205 *)
  | CurrentSelectedOutputUserNumber => (false, true, false)   (* 1251 *)
  | Porosity => (true, true, true)                            (* 1300 *)
  | Pressure => (true, true, true)                            (* 1377 *)
  | SelectedOutputOn => (true, true, true)                    (* 1476 *)
  | Temperature => (true, true, true)                         (* 1544 *)
  | Viscosity => (false, true, true)                          (* 1592 *)
  end.

(** Whether the function calls SetInitialized(true). FilePrefix (524) and SelectedOutput do not call it;
    SelectedOutputHeadings (1005) and SelectedOutputRowCount (1067) call SetInitialized(false). *)
Definition stays_initialized (v : var) : bool :=
  match v with
  | FilePrefix | SelectedOutput | SelectedOutputHeadings | SelectedOutputRowCount => false
  | _ => true
  end.

(** ** The object *)
Record bmi := Bmi {
  b_man : option (var -> entry);    (* var_man, [None] the null pointer; its VariantMap *)
  b_autos : gmap string string;     (* AutoOutputVars of var_man: lower-case name to name *)
  b_tables : nat                    (* GetSelectedOutputCount of the module *)
}.
(** The constructors, BMIPhreeqcRM.cpp 109-137: var_man is a null pointer. *)
Definition create (tables : nat) : bmi := Bmi None ∅ tables.
(** Construct (152-162) as Initialize calls it (198): the first time it makes a VarManager. *)
Definition initialize (b : bmi) : bmi :=
  match b_man b with
  | Some _ => b
  | None => Bmi (Some (fun _ => new_entry)) ∅ (b_tables b)
  end.

Definition put (v : var) (e : entry) (m : var -> entry) : var -> entry := fun w => if decide (w = v) then e else m w.

(** The first part of the function of a variable, for instance 211-232. That of SelectedOutputHeadings sets the
    flags only if there is a selected output (971-1004). FilePrefix does it whether or not it is initialized (509),
    which it never is. *)
Definition begin_var (v : var) (tables : nat) (e : entry) : entry :=
  if e_init e then e
  else
    let '(s, g, p) := basic v in
    if decide (v = SelectedOutputHeadings /\ tables = 0%nat)
    then Entry (stays_initialized v) (e_setter e) (e_getter e) (e_ptr e) (e_void e)
    else Entry (stays_initialized v) s g p (e_void e).

(** The tasks (VarManager.h 18-27) and what a call can come to *)
Inductive task := Info | GetPtr | GetVar | SetVar | RMUpdate | Update.
Inductive answer (A : Type) :=
  | Val (a : A)
  | Unsupported      (* the runtime_error of a variable that does not support the task *)
  | Unknown          (* the runtime_error "Failed in ..." *)
  | Crash.           (* a null pointer is followed, or a vector is read beyond its end *)
Arguments Val {A} a.
Arguments Unsupported {A}.
Arguments Unknown {A}.
Arguments Crash {A}.

(** The switch in the function of a variable: whether the task does not end in an exception *)
Definition accepts (v : var) (t : task) : bool :=
  match t with
  | Info => true
  | GetPtr =>
      match v with
      | DensityUser (* 416 *) | ErrorString (* 482 *) | FilePrefix (* 530 *) | NthSelectedOutput (* 674 *)
      | SaturationUser (* 776 *) | SelectedOutput (* 844 *) | SelectedOutputColumnCount (* 887 *)
      | SelectedOutputCount (* 935 *) | SelectedOutputHeadings (* 1011 *) | SelectedOutputRowCount (* 1073 *)
      | CurrentSelectedOutputUserNumber (* 1261 *) => false
      | _ => true
      end
  | GetVar =>
      match v with
      | DensityUser (* 433 *) | NthSelectedOutput (* 679 *) | SaturationUser (* 782 *) => false
      | _ => true
      end
  | SetVar =>
      match v with
      | ComponentCount (* 187 *) | Components (* 253 *) | DensityCalculated (* 380 *) | ErrorString (* 495 *)
      | Gfw (* 594 *) | GridCellCount (* 636 *) | SaturationCalculated (* 746 *) | SelectedOutput (* 858 *)
      | SelectedOutputColumnCount (* 897 *) | SelectedOutputCount (* 945 *) | SelectedOutputHeadings (* 1034 *)
      | SelectedOutputRowCount (* 1083 *) | SolutionVolume (* 1140 *)
      | CurrentSelectedOutputUserNumber (* 1271 *) | Viscosity (* 1620 *) => false
      | _ => true
      end
  | RMUpdate =>
      match v with
      | ComponentCount (* 191 *) | Components (* 257 *) | DensityUser (* 426 *) | GridCellCount (* 640 *)
      | NthSelectedOutput (* 691 *) | SelectedOutput (* 855 *) | SelectedOutputColumnCount (* 901 *)
      | SelectedOutputCount (* 949 *) | SelectedOutputHeadings (* 1038 *) | SelectedOutputRowCount (* 1087 *)
      | CurrentSelectedOutputUserNumber (* 1275 *) => false
      | _ => true
      end
  | Update =>
      match v with
      | ComponentCount (* 196 *) | Components (* 262 *) | DensityUser (* 433 *) | GridCellCount (* 645 *)
      | NthSelectedOutput (* 691 *) | SaturationUser (* 782 *) | SelectedOutput (* 855 *)
      | SelectedOutputColumnCount (* 906 *) | SelectedOutputCount (* 954 *) | SelectedOutputHeadings (* 1043 *)
      | SelectedOutputRowCount (* 1092 *) | CurrentSelectedOutputUserNumber (* 1280 *) => false
      | _ => true
      end
  end.
(** Whether the task GetPtr calls SetVoidPtr: that of Components only makes a list of texts (235-245). The pointer to
    an array without elements may be null as well, which is not modelled. *)
Definition sets_void (v : var) : bool := match v with Components => false | _ => true end.

(** The function of variable [v], for a task *)
Definition call (v : var) (t : task) (tables : nat) (m : var -> entry) : bool * (var -> entry) :=
  let e := begin_var v tables (m v) in
  let e := match t with
           | GetPtr => if accepts v GetPtr && sets_void v
                       then Entry (e_init e) (e_setter e) (e_getter e) (e_ptr e) true else e
           | _ => e
           end in
  (accepts v t, put v e m).

(** [if (!bv.GetInitialized()) ...] in the functions below *)
Definition inform (v : var) (tables : nat) (m : var -> entry) : var -> entry :=
  if e_init (m v) then m else snd (call v Info tables m).

Definition with_man (m : var -> entry) (b : bmi) : bmi := Bmi (Some m) (b_autos b) (b_tables b).

(** ** The counts and the lists *)
(** GetInputItemCount (304-323), the loop of GetOutputItemCount (324-343) and GetPointableItemCount (344-362) *)
Fixpoint tally (flag : entry -> bool) (vs : list var) (tables : nat) (m : var -> entry) : nat * (var -> entry) :=
  match vs with
  | [] => (0%nat, m)
  | v :: vs' =>
      let m := inform v tables m in
      let '(n, m') := tally flag vs' tables m in
      ((if flag (m v) then 1 else 0) + n, m')%nat
  end.
(** The loops of GetInputVarNames (363-381), GetOutputVarNames (382-405), GetPointableVarNames (406-432) and
    GetReadOnlyVarNames (434-460). The last two pass over InputVarNames and OutputVarNames, which have no entry. *)
Fixpoint names (flag : entry -> bool) (vs : list var) (tables : nat) (m : var -> entry) : list string * (var -> entry) :=
  match vs with
  | [] => ([], m)
  | v :: vs' =>
      let m := inform v tables m in
      let '(l, m') := names flag vs' tables m in
      ((if flag (m v) then [var_name v] else []) ++ l, m')
  end.

(** None of these functions looks whether there is a VarManager. *)
Definition counted (flag : entry -> bool) (more : bmi -> nat) (b : bmi) : answer nat * bmi :=
  match b_man b with
  | None => (Crash, b)
  | Some m => let '(n, m') := tally flag all_vars (b_tables b) m in (Val (n + more b)%nat, with_man m' b)
  end.
Definition listed (flag : entry -> bool) (more : bmi -> list string) (b : bmi) : answer (list string) * bmi :=
  match b_man b with
  | None => (Crash, b)
  | Some m => let '(l, m') := names flag all_vars (b_tables b) m in (Val (l ++ more b), with_man m' b)
  end.
Definition auto_names (b : bmi) : list string := snd <$> map_to_list (b_autos b).

Definition input_count : bmi -> answer nat * bmi := counted e_setter (fun _ => 0%nat).
Definition output_count : bmi -> answer nat * bmi := counted e_getter (fun b => size (b_autos b)).
Definition pointable_count : bmi -> answer nat * bmi := counted e_ptr (fun _ => 0%nat).
Definition input_names : bmi -> answer (list string) * bmi := listed e_setter (fun _ => []).
Definition output_names : bmi -> answer (list string) * bmi := listed e_getter auto_names.
Definition pointable_names : bmi -> answer (list string) * bmi := listed e_ptr (fun _ => []).
Definition read_only_names : bmi -> answer (list string) * bmi := listed (fun e => negb (e_setter e)) (fun _ => []).

(** ** The values *)
(** BMIPhreeqcRM::GetEnum (1314-1322) *)
Definition enum (name : string) (b : bmi) : option var := match b_man b with None => None | Some _ => get_enum name end.

(** SetValue (1096-1290), the overloads for one number or text: nothing is looked up in AutoOutputVars *)
Definition set_value (name : string) (b : bmi) : answer unit * bmi :=
  match b_man b, enum name b with
  | Some m, Some v =>
      let '(ok, m) := call v SetVar (b_tables b) (inform v (b_tables b) m) in
      ((if ok then Val tt else Unsupported), with_man m b)
  | _, _ => (Unknown, b)
  end.
(** GetValue, the overloads that look in AutoOutputVars as well: for memory (618-711), double pointers (784-838) and vectors of
    double (923-965). Without a VarManager they follow the null pointer there. *)
Definition get_value (name : string) (b : bmi) : answer unit * bmi :=
  match b_man b with
  | None => (Crash, b)
  | Some m =>
      match get_enum name with
      | Some v =>
          let '(ok, m) := call v GetVar (b_tables b) (inform v (b_tables b) m) in
          ((if ok then Val tt else Unsupported), with_man m b)
      | None => ((if decide (is_Some (b_autos b !! lowered name)) then Val tt else Unknown), b)
      end
  end.
(** GetValuePtr (1006-1023): whether the pointer returned is not null *)
Definition get_value_ptr (name : string) (b : bmi) : answer bool * bmi :=
  match b_man b, enum name b with
  | Some m, Some v =>
      if e_void (m v) then (Val true, b)
      else let '(ok, m) := call v GetPtr (b_tables b) m in
           ((if ok then Val (e_void (m v)) else Unsupported), with_man m b)
  | _, _ => (Unknown, b)
  end.
(** GetVarType (462-517) for one of the four languages, GetVarUnits (519-545), GetVarItemsize (547-573), GetVarNbytes (575-601):
    whether there is an answer. *)
Definition get_var_info (name : string) (b : bmi) : answer unit * bmi :=
  match b_man b with
  | None => (Crash, b)
  | Some m =>
      match get_enum name with
      | Some v => (Val tt, with_man (inform v (b_tables b) m) b)
      | None => ((if decide (is_Some (b_autos b !! lowered name)) then Val tt else Unknown), b)
      end
  end.

(** ** Other calls *)
(** GenerateAutoOutputVars (252-303), which FindComponents calls at its end: new automatic variables are put into the map, which is not cleared
    (VarManager.cpp 1641), and the function of every variable is called anew. [tables] is the number of selected outputs then. *)
Fixpoint renew (vs : list var) (tables : nat) (m : var -> entry) : var -> entry :=
  match vs with
  | [] => m
  | v :: vs' =>
      let e := m v in
      renew vs' tables
        (snd (call v Info tables (put v (Entry false (e_setter e) (e_getter e) (e_ptr e) (e_void e)) m)))
  end.
Fixpoint add_autos (l : list string) (a : gmap string string) : gmap string string :=
  match l with [] => a | s :: l' => add_autos l' (<[lowered s := s]> a) end.
Definition find_components (new : list string) (tables : nat) (b : bmi) : bmi :=
  match b_man b with
  | None => Bmi None (b_autos b) tables
  | Some m => Bmi (Some (renew all_vars tables m)) (add_autos new (b_autos b)) tables
  end.
(** RM2BMIUpdate (VarManager.cpp 118-130) and UpdateVariables (BMIPhreeqcRM.cpp 218-229): the function of a variable is called;
    which ones is the topic Bmi. *)
Definition refresh (v : var) (t : task) (b : bmi) : bmi :=
  match b_man b with None => b | Some m => with_man (snd (call v t (b_tables b) m)) b end.

Inductive op :=
  | Initialize
  | Counts | Lists                       (* all of the counts, all of the lists *)
  | SetV (name : string) | GetV (name : string) | PtrV (name : string) | InfoV (name : string)
  | Find (new : list string) (tables : nat)
  | Refresh (v : var) (t : task)
  | Tables (n : nat).                    (* selected outputs are defined or deleted by other calls *)
(** A call; one that crashes is not continued *)
Definition step (o : op) (b : bmi) : bmi :=
  match o with
  | Initialize => initialize b
  | Counts => snd (pointable_count (snd (output_count (snd (input_count b)))))
  | Lists => snd (read_only_names (snd (pointable_names (snd (output_names (snd (input_names b)))))))
  | SetV s => snd (set_value s b)
  | GetV s => snd (get_value s b)
  | PtrV s => snd (get_value_ptr s b)
  | InfoV s => snd (get_var_info s b)
  | Find new n => find_components new n b
  | Refresh v t => refresh v t b
  | Tables n => Bmi (b_man b) (b_autos b) n
  end.
Fixpoint steps (os : list op) (b : bmi) : bmi := match os with [] => b | o :: os' => steps os' (step o b) end.

(** ** From C and Fortran *)
(** RM_BmiGetInputVarName (RM_interface_C.cpp 195-207), RM_BmiGetOutputVarName (232-244), RM_BmiGetPointableVarName
    (269-281): [names[i]] is not checked. How the text gets to the caller is in the topic Wrap. *)
Definition nth_name (list_of : bmi -> answer (list string) * bmi) (i : Z) (b : bmi) : answer string :=
  match fst (list_of b) with
  | Val l => if decide (0 <= i)%Z then match l !! Z.to_nat i with Some s => Val s | None => Crash end else Crash
  | Unsupported => Unsupported
  | Unknown => Unknown
  | Crash => Crash
  end.
(** RMF_BMI_GetNamesSize (BMI_interface_F.cpp 171-201) and RMF_BMI_GetNames (204-240): the names one after the other, each
    padded with blanks to the size of the longest *)
Definition longest (l : list string) : nat := foldr (fun s n => Nat.max (String.length s) n) 0%nat l.
Definition pad (n : nat) (s : string) : list ascii :=
  list_ascii_of_string s ++ replicate (n - String.length s) " "%char.
Definition packed (l : list string) : list ascii := mjoin (pad (longest l) <$> l).
(** bmif_get_input_var_names (src/BMI_interface.F90 836-872) and the same for output and pointable variables: the size of an
    element, the number of elements allocated, [dim] there, and the bytes copied to the first element and on. An integer
    division by [itemsize] is made. *)
Definition fortran_names (list_of : bmi -> answer (list string) * bmi) (count_of : bmi -> answer nat * bmi) (b : bmi)
  : answer (nat * nat * list ascii) :=
  let '(l1, b) := list_of b in
  let '(n, b) := count_of b in
  match l1, n, fst (list_of b) with
  | Val l1, Val n, Val l2 =>
      if decide (longest l1 = 0%nat) then Crash
      else Val (longest l1, Nat.div (n * longest l1) (longest l1), packed l2)
  | _, _, _ => Crash
  end.
