(** The BMI layer: variables by name, pointers to them, and time stepping.

    Source: src/BMIPhreeqcRM.cpp (Update, UpdateUntil, UpdateBMI, UpdateVariables,
    GenerateAutoOutputVars, GetValue, GetValuePtr, SetValue, GetEndTime), src/VarManager.cpp (the
    functions of the variables, RM2BMIUpdate), src/BMIVariant.h.

    The module underneath is a parameter: a state with a value for each variable, setters, and the
    reaction step. Variables that are texts or lists of texts and those of the selected output have
    no pointers and are not modelled, nor are the automatic output variables. Values of scalar
    variables (double, int, bool) are vectors of one element. [task] is a parameter of a variable's
    function: the code keeps it in a field, but sets it before each call and reads it only on entry. *)
From Coq Require Import String QArith Qcanon.
From stdpp Require Import prelude.
Local Open Scope Qc_scope.

(** RMVARS.h, without the variables named above; in the order of the enumeration, which is the
    order of UpdateSet and VariantMap *)
Inductive var := VComponentCount | VConcentrations | VDensityCalculated | VDensityUser | VGfw | VGridCellCount
  | VSaturationCalculated | VSaturationUser | VSolutionVolume | VTime | VTimeStep | VPorosity | VPressure
  | VSelectedOutputOn | VTemperature | VViscosity.
Global Instance var_eq_dec : EqDecision var.
Proof. solve_decision. Defined.
Definition all_vars : list var := [VComponentCount; VConcentrations; VDensityCalculated; VDensityUser; VGfw; VGridCellCount;
  VSaturationCalculated; VSaturationUser; VSolutionVolume; VTime; VTimeStep; VPorosity; VPressure; VSelectedOutputOn;
  VTemperature; VViscosity].

Definition is_array (v : var) : bool :=
  match v with VComponentCount | VGridCellCount | VSelectedOutputOn | VTime | VTimeStep => false | _ => true end.

Inductive task := RMUpdate | Update | GetPtr | GetVar | Info.

(** The module underneath *)
Record rm := Rm {
  r_state : Type;
  r_cells : r_state -> nat;      (* GetGridCellCount *)
  r_comps : r_state -> nat;      (* GetComponentCount *)
  r_value : var -> r_state -> list Qc;               (* the getter of a variable *)
  r_assign : var -> list Qc -> r_state -> r_state;   (* its setter, without the call of UpdateBMI *)
  r_react : Qc -> Qc -> r_state -> r_state * bool;   (* the reactions from a time, for a time; [true] if RunCells throws *)
}.

(** ** BMIVariant *)

(** What GetValuePtr hands out: the storage of the vector (a number, changed by each reallocation)
    or the scalar inside the variant. *)
Inductive ptr := PVec (block : nat) | PNum.
Record slot := Slot { s_init : bool; s_dim : nat; s_num : Qc; s_vec : list Qc; s_block : nat; s_cap : nat; s_ptr : option ptr }.
Definition slot_new : slot := Slot false 0 0 [] 0 0 None.

Definition with_ptr (p : option ptr) (s : slot) : slot := Slot (s_init s) (s_dim s) (s_num s) (s_vec s) (s_block s) (s_cap s) p.
Definition with_num (x : Qc) (s : slot) : slot := Slot (s_init s) (s_dim s) x (s_vec s) (s_block s) (s_cap s) (s_ptr s).
Definition with_vec (l : list Qc) (s : slot) : slot := Slot (s_init s) (s_dim s) (s_num s) l (s_block s) (s_cap s) (s_ptr s).
Definition with_basic (i : bool) (d : nat) (s : slot) : slot := Slot i d (s_num s) (s_vec s) (s_block s) (s_cap s) (s_ptr s).
(** vector::resize; the storage is taken to be exactly as large as the largest size so far *)
Definition resized (n : nat) (l : list Qc) : list Qc := take n l ++ replicate (n - length l) 0.
Definition resize (n : nat) (s : slot) : slot :=
  let s := with_vec (resized n (s_vec s)) s in
  if Nat.ltb (s_cap s) n then Slot (s_init s) (s_dim s) (s_num s) (s_vec s) (S (s_block s)) n (s_ptr s) else s.
(** vector::operator= *)
Definition reassign (l : list Qc) (s : slot) : slot := with_vec l (resize (length l) s).
(** BMIVariant::SetDoubleVector, BMIVariant.h 110-113, without the assert: memcpy over the old
    contents; [None] if they are shorter *)
Definition memcpy (l old : list Qc) : option (list Qc) :=
  if Nat.ltb (length old) (length l) then None else Some (l ++ drop (length l) old).

(** ** VarManager *)

(** VarExchange *)
Record exch := Exch { e_dim : nat; e_num : Qc; e_vec : list Qc }.

Section Bmi.
Context (R : rm).
Notation St := (r_state R).
Record bmi := Bmi {
  b_rm : St;
  b_slot : var -> slot;
  b_ex : exch;
  b_pset : bool;           (* PointerSet is not empty *)
  b_uset : list var;       (* UpdateSet *)
  b_cur : option var;      (* CurrentVar; [None] is NotFound *)
}.
(** After Construct *)
Definition bmi_new (s : St) : bmi := Bmi s (fun _ => slot_new) (Exch 0 0 []) false [] None.

(** A call ends normally, throws (what it changed before stays), or is undefined. *)
Inductive res := Done (b : bmi) | Thrown (b : bmi) | Bad.
Definition rbind (r : res) (f : bmi -> res) : res := match r with Done b => f b | _ => r end.

Definition with_rm (s : St) (b : bmi) : bmi := Bmi s (b_slot b) (b_ex b) (b_pset b) (b_uset b) (b_cur b).
Definition with_slot (v : var) (f : slot -> slot) (b : bmi) : bmi :=
  Bmi (b_rm b) (fun w => if decide (w = v) then f (b_slot b w) else b_slot b w) (b_ex b) (b_pset b) (b_uset b) (b_cur b).
Definition with_ex (f : exch -> exch) (b : bmi) : bmi := Bmi (b_rm b) (b_slot b) (f (b_ex b)) (b_pset b) (b_uset b) (b_cur b).
Definition with_cur (c : option var) (b : bmi) : bmi := Bmi (b_rm b) (b_slot b) (b_ex b) (b_pset b) (b_uset b) c.
Definition with_sets (p : bool) (u : list var) (b : bmi) : bmi := Bmi (b_rm b) (b_slot b) (b_ex b) p u (b_cur b).
Definition ex_vec (l : list Qc) : exch -> exch := fun e => Exch (e_dim e) (e_num e) l.
Definition ex_num (x : Qc) : exch -> exch := fun e => Exch (e_dim e) x (e_vec e).

Definition value (v : var) (b : bmi) : list Qc := r_value R v (b_rm b).
Definition scalar (v : var) (b : bmi) : Qc := default 0 (value v b !! 0%nat).

(** The number of elements of a variable, from Nbytes / Itemsize in each function *)
Definition size (v : var) (s : St) : nat :=
  match v with
  | VConcentrations => r_cells R s * r_comps R s
  | VGfw => r_comps R s
  | VComponentCount | VGridCellCount | VSelectedOutputOn | VTime | VTimeStep => 1
  | _ => r_cells R s
  end.

(** if (!bv.GetInitialized()) ..., at the beginning of each function *)
Definition init (v : var) (b : bmi) : bmi :=
  if s_init (b_slot b v) then b
  else
    let n := size v (b_rm b) in
    let b := with_slot v (with_basic true n) b in
    if is_array v then
      match v with
      | VGfw => with_ex (ex_vec (value v b)) (with_slot v (reassign (value v b)) b)
      | _ => with_ex (fun e => ex_vec (resized n (e_vec e)) e) (with_slot v (resize n) b)
      end
    else
      let b := with_slot v (with_num (scalar v b)) b in
      match v with VTime | VTimeStep => with_ex (ex_num (scalar v b)) b | _ => b end.

(** bv_c.SetDoubleVector(c) for another variable, as for Concentrations in VarManager.cpp 360-366 *)
Definition copy_to (v : var) (l : list Qc) (b : bmi) : res :=
  match memcpy l (s_vec (b_slot b v)) with Some l' => Done (with_slot v (with_vec l') b) | None => Bad end.
(** The getter fills VarExchange and from it the variant, or the scalars *)
Definition refresh (v : var) (b : bmi) : res :=
  if is_array v then let l := value v b in copy_to v l (with_ex (ex_vec l) b)
  else Done (with_slot v (with_num (scalar v b)) (with_ex (ex_num (scalar v b)) b)).

(** CopyScalars and SetCurrentVar(NotFound), at the end of each function *)
Definition leave (v : var) (b : bmi) : res :=
  Done (with_cur None (with_ex (fun e => Exch (s_dim (b_slot b v)) (s_num (b_slot b v)) (e_vec e)) b)).
(** SetCurrentVar at the beginning; DensityUser_Var has none (VarManager.cpp 390-394) *)
Definition enter (v : var) (b : bmi) : bmi :=
  init v (match v with VDensityUser => b | _ => with_cur (Some v) b end).

Definition set_insert (v : var) (u : list var) : list var :=
  filter (fun w => w = v \/ w ∈ u) all_vars.
(** PointerSet.insert; and UpdateSet.insert if [upd] *)
Definition point (v : var) (upd : bool) (b : bmi) : bmi :=
  let p := if is_array v then PVec (s_block (b_slot b v)) else PNum in
  with_sets true (if upd then set_insert v (b_uset b) else b_uset b) (with_slot v (with_ptr (Some p)) b).

(** The functions of the variables for all tasks but SetVar; the lines are those of VarManager.cpp. *)
Definition var_fn (v : var) (t : task) (b : bmi) : res :=
  let b := enter v b in
  let conc b := copy_to VConcentrations (value VConcentrations b) b in
  rbind
    match t, v with
    | Info, _ => Done b
    (* 155-205, 603-654 *)
    | GetPtr, VComponentCount | GetPtr, VGridCellCount => Done (point v false (with_slot v (with_num (scalar v b)) b))
    | GetVar, VComponentCount => Done (with_slot v (with_num (scalar v b)) b)
    | GetVar, VGridCellCount => Done (with_sets true (b_uset b) (with_slot v (with_num (scalar v b)) b))
    | _, VComponentCount | _, VGridCellCount => Thrown b
    (* 390-455 *)
    | _, VDensityUser => Thrown b
    (* 756-812 *)
    | RMUpdate, VSaturationUser => conc b
    | _, VSaturationUser => Thrown b
    (* 559-602 *)
    | GetPtr, VGfw => rbind (refresh v b) (fun b => Done (point v false b))
    (* 336-389, 701-755 *)
    | RMUpdate, VDensityCalculated | RMUpdate, VSaturationCalculated => rbind (conc b) (refresh v)
    (* 1290-1366 *)
    | RMUpdate, VPorosity =>
        rbind (refresh v b) (fun b => rbind (conc b) (fun b =>
        copy_to VSaturationCalculated (value VSaturationCalculated b) b))
    (* 272-335, 1102-1240, 1367-1414, 1466-1631 *)
    | GetPtr, _ => rbind (refresh v b) (fun b => Done (point v true b))
    | _, _ => refresh v b
    end
    (leave v).

(** RM2BMIUpdate, VarManager.cpp 118-129 *)
Definition rm2bmi (v : var) (b : bmi) : res :=
  if b_pset b then (if decide (b_cur b = Some v) then Done b else var_fn v RMUpdate b) else Done b.

(** The argument of UpdateBMI in each setter: PhreeqcRM.cpp 11140, 11592, 11937, 12003, 12149,
    12192, 12278, 12302, 12351 *)
Definition event (v : var) : var := match v with VDensityUser => VDensityCalculated | _ => v end.
(** A setter of PhreeqcRM, called on the module of a BMI object *)
Definition rm_set (v : var) (l : list Qc) (b : bmi) : res := rm2bmi (event v) (with_rm (r_assign R v l (b_rm b)) b).

(** The functions of the variables for SetVar *)
Definition var_set (v : var) (b : bmi) : res :=
  let b := enter v b in
  let conc b := copy_to VConcentrations (value VConcentrations b) b in
  rbind
    match v with
    (* 312-316 *)
    | VConcentrations => rbind (rm_set v (e_vec (b_ex b)) b) (refresh v)
    (* 437-449, 793-802 *)
    | VDensityUser | VSaturationUser =>
        rbind (rm_set v (e_vec (b_ex b)) b) (fun b => rbind (copy_to v (e_vec (b_ex b)) b) conc)
    (* 1340-1357 *)
    | VPorosity =>
        rbind (rm_set v (e_vec (b_ex b)) b) (fun b => rbind (copy_to v (e_vec (b_ex b)) b) (fun b =>
        rbind (conc b) (fun b => copy_to VSaturationCalculated (value VSaturationCalculated b) b)))
    (* 1404-1407, 1571-1574 *)
    | VPressure | VTemperature => rbind (rm_set v (e_vec (b_ex b)) b) (fun b => copy_to v (e_vec (b_ex b)) b)
    (* 1184-1187, 1230-1233 *)
    | VTime | VTimeStep =>
        rbind (rm_set v [e_num (b_ex b)] b) (fun b => Done (with_slot v (with_num (e_num (b_ex b))) b))
    (* 1517-1526 *)
    | VSelectedOutputOn => rm_set v [e_num (b_ex b)] (with_slot v (with_num (e_num (b_ex b))) b)
    | _ => Thrown b
    end
    (leave v).

(** ** BMIPhreeqcRM *)

(** The Info task that GetValue and SetValue run first on a variable not yet initialized *)
Definition ready (v : var) (b : bmi) : res := if s_init (b_slot b v) then Done b else var_fn v Info b.

(** GetValuePtr, BMIPhreeqcRM.cpp 1006-1023: the pointer and the state after *)
Definition get_ptr (v : var) (b : bmi) : res * option ptr :=
  match s_ptr (b_slot b v) with
  | Some p => (Done b, Some p)
  | None => let r := var_fn v GetPtr b in
            (r, match r with Done b' => s_ptr (b_slot b' v) | _ => None end)
  end.
(** GetValue into a caller's array of doubles, BMIPhreeqcRM.cpp 784-839, and into a caller's memory,
    618-712, which C and Fortran use: what is copied, and the
    state after *)
Definition get_array (v : var) (b : bmi) : res * option (list Qc) :=
  match rbind (ready v b) (var_fn v GetVar) with
  | Done b' =>
      match e_dim (b_ex b') with
      | 0%nat => (Thrown b', None)
      | 1%nat => (Done b', Some [e_num (b_ex b')])
      | n => if Nat.ltb (length (e_vec (b_ex b'))) n then (Bad, None) else (Done b', Some (take n (e_vec (b_ex b'))))
      end
  | r => (r, None)
  end.
(** GetValue into a vector, BMIPhreeqcRM.cpp 923-965, and into a double, 763-783 *)
Definition get_vector (v : var) (b : bmi) : res * option (list Qc) :=
  match rbind (ready v b) (var_fn v GetVar) with
  | Done b' => (Done b', Some (e_vec (b_ex b')))
  | r => (r, None)
  end.
Definition get_double (v : var) (b : bmi) : res * option Qc :=
  match rbind (ready v b) (var_fn v GetVar) with
  | Done b' => (Done b', Some (e_num (b_ex b')))
  | r => (r, None)
  end.
(** SetValue of a vector, BMIPhreeqcRM.cpp 1207-1238; a vector of the wrong length is reported and
    ignored *)
Definition set_vector (v : var) (l : list Qc) (b : bmi) : res :=
  rbind (ready v b) (fun b =>
  if Nat.eqb (s_dim (b_slot b v)) (length l) then var_set v (with_ex (ex_vec l) b) else Done b).
(** SetValue of a double, an int or a bool, BMIPhreeqcRM.cpp 1096-1118, 1141-1184 *)
Definition set_number (v : var) (x : Qc) (b : bmi) : res :=
  rbind (ready v b) (fun b => var_set v (with_ex (ex_num x) b)).
(** SetValue from a caller's memory, BMIPhreeqcRM.cpp 1024-1095, which C and Fortran use; the memory
    must hold as many numbers as the variable *)
Definition set_pointer (v : var) (mem : list Qc) (b : bmi) : res :=
  rbind (ready v b) (fun b =>
  let n := s_dim (b_slot b v) in
  if Nat.ltb (length mem) n then Bad
  else match n with
       | 0%nat => Thrown b
       | 1%nat => var_set v (with_ex (ex_num (default 0 (mem !! 0%nat))) b)
       | _ => var_set v (with_ex (ex_vec (take n mem)) b)
       end).

(** UpdateVariables, BMIPhreeqcRM.cpp 218-229 *)
Fixpoint update_all (u : list var) (b : bmi) : res :=
  match u with [] => Done b | v :: u' => rbind (var_fn v Update b) (update_all u') end.
Definition update_variables (b : bmi) : res := update_all (b_uset b) b.

(** RunCells; the start and the length of the reactions are those of RunCellsThread, PhreeqcRM.cpp
    10116-10118, 10373-10375 *)
Definition run_cells (b : bmi) : res :=
  let '(s, thrown) := r_react R (scalar VTime b - scalar VTimeStep b) (scalar VTimeStep b) (b_rm b) in if thrown then Thrown (with_rm s b) else Done (with_rm s b).
(** Update, BMIPhreeqcRM.cpp 207-212 *)
Definition update (b : bmi) : res :=
  rbind (run_cells b) (fun b =>
  rbind (rm_set VTime [scalar VTime b + scalar VTimeStep b] b) update_variables).
(** UpdateUntil, BMIPhreeqcRM.cpp 230-240 *)
Definition update_until (t : Qc) (b : bmi) : res :=
  let step := t - scalar VTime b in
  if Qclt_le_dec step 0 then Done b
  else rbind (rm_set VTimeStep [step] b) (fun b =>
       rbind (run_cells b) (fun b =>
       rbind (rm_set VTime [t] b) update_variables)).

(** GetEndTime, BMIPhreeqcRM.cpp 611-614, and what C callers get, RM_interface_C.cpp 143-147, which
    calls the function for the current time *)
Definition get_end_time (b : bmi) : Qc := scalar VTime b + scalar VTimeStep b.
Definition c_get_end_time (b : bmi) : Qc := scalar VTime b.

(** GenerateAutoOutputVars, BMIPhreeqcRM.cpp 274-296, called by FindComponents, which changes the
    module by [f]: all variables are initialized again *)
Fixpoint info_all (u : list var) (b : bmi) : res :=
  match u with
  | [] => Done b
  | v :: u' => rbind (var_fn v Info (with_slot v (with_basic false (s_dim (b_slot b v))) b)) (info_all u')
  end.
Definition find_components (f : St -> St) (b : bmi) : res := info_all all_vars (with_rm (f (b_rm b)) b).

(** What the memory behind a pointer shows; [None] if it was freed *)
Definition shown (v : var) (p : ptr) (b : bmi) : option (list Qc) :=
  match p with
  | PVec k => if Nat.eqb k (s_block (b_slot b v)) then Some (s_vec (b_slot b v)) else None
  | PNum => Some [s_num (b_slot b v)]
  end.
End Bmi.
