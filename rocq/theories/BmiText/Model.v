(** What the BMI class announces about a variable and what it delivers: the text variables, the
    variables of selected output, and the C and Fortran functions on top of them.

    Source: src/VarManager.cpp (one [_Var] function per variable), src/BMIVariant.h and .cpp,
    src/BMIPhreeqcRM.cpp (GetVar..., GetValue, SetValue), src/RM_interface_C.cpp (RM_Bmi...),
    src/BMI_interface_F.cpp (RMF_BMI_...), src/BMI_interface.F90 (bmif_...). Lines at each definition.
    The numeric variables and the pointers are the topic Bmi; the automatic variables are Auto. The
    builds for Python (other types, [SelectedOutputOn] an [int]) are not modelled. *)
From Coq Require Import ZArith Ascii String.
From stdpp Require Import prelude.
From Verif.Base Require Import Result.
From Verif.Reactant Require Import Model.
Open Scope Z_scope.

(** ** Bytes *)
Notation byte := ascii.
Definition text := list byte.
Definition blank : byte := " "%char.
Definition nul : byte := "000"%char.
Definition chars : string -> text := list_ascii_of_string.

(** The four bytes of an [int] (two's complement, least significant first). *)
Definition byte_of (z : Z) : byte := ascii_of_N (Z.to_N (z mod 256)).
Definition int_bytes (z : Z) : text := [byte_of z; byte_of (z / 256); byte_of (z / 65536); byte_of (z / 16777216)].

(** [std::left << std::setfill(' ') << std::setw(w) << s]: at least [w] characters. *)
Definition padded (w : Z) (s : text) : text := s ++ replicate (Z.to_nat w - length s) blank.

(** The size of the longest name (Components_Var 213-217). *)
Definition longest (l : list text) : nat := foldr (fun s n => Nat.max (length s) n) 0%nat l.

(** ** The variables (src/RMVARS.h). [VViscosity] stands for the numeric arrays of the topic Bmi; it is the
    last one of the enumeration. *)
Inductive var := VComponents | VErrorString | VFilePrefix | VNth | VSelectedOutput | VColumnCount | VCount
               | VHeadings | VRowCount | VCurrent | VOn | VViscosity.
Definition all_vars : list var :=
  [VComponents; VErrorString; VFilePrefix; VNth; VSelectedOutput; VColumnCount; VCount; VHeadings; VRowCount; VCurrent; VOn;
   VViscosity].
Global Instance var_eq_dec : EqDecision var.
Proof. solve_decision. Defined.

(** The names given in the constructor of VarManager (VarManager.cpp 9-70). *)
Definition var_names : list (string * var) :=
  [("Components", VComponents); ("ErrorString", VErrorString); ("FilePrefix", VFilePrefix); ("NthSelectedOutput", VNth);
   ("SelectedOutput", VSelectedOutput); ("SelectedOutputColumnCount", VColumnCount); ("SelectedOutputCount", VCount);
   ("SelectedOutputHeadings", VHeadings); ("SelectedOutputRowCount", VRowCount);
   ("CurrentSelectedOutputUserNumber", VCurrent); ("SelectedOutputOn", VOn); ("Viscosity", VViscosity)]%string.

(** VarManager::GetEnum (131-141): EnumMap has lower-case names (82-88), and the name asked for is lowered. *)
Definition get_enum (name : string) : option var :=
  snd <$> find (fun p => String.eqb (lowered (fst p)) (lowered name)) var_names.

(** The types a variable can have. The strings of SetTypes for C++, Fortran and C are one for each. *)
Inductive ctype := TNone | TBool | TInt | TDouble | TString | TStrings.
Global Instance ctype_eq_dec : EqDecision ctype.
Proof. solve_decision. Defined.
Definition ftype (t : ctype) : string :=
  match t with
  | TNone => "" | TBool => "logical" | TInt => "integer" | TDouble => "real(kind=8)" | TString => "character"
  | TStrings => "character(len=:),allocatable,dimension(:)"
  end.

Section Bmi.
Context {D : Type} (zero : D) (dbytes : D -> text).

(** ** The module underneath, as the getters used by the [_Var] functions show it. The getters also clear
    the error string of the module; that no variable but ErrorString looks at it allows leaving this to the
    changes between calls. [r_table] is what GetSelectedOutput makes of the vector given to it: it leaves the
    vector alone when there is no such selected output (PhreeqcRM.cpp 4497-4637). *)
Record rm := Rm {
  r_components : list text;       (* GetComponents *)
  r_errors : text;                (* GetErrorString *)
  r_prefix : text;                (* GetFilePrefix *)
  r_on : bool;                    (* GetSelectedOutputOn *)
  r_count : Z;                    (* GetSelectedOutputCount *)
  r_current : Z;                  (* GetCurrentSelectedOutputUserNumber *)
  r_rows : nat;                   (* GetSelectedOutputRowCount, GetGridCellCount *)
  r_cols : Z;                     (* GetSelectedOutputColumnCount, negative when there is none *)
  r_heads : list text;            (* GetSelectedOutputHeadings *)
  r_table : list D -> list D;     (* GetSelectedOutput *)
  r_viscosity : list D;           (* GetViscosity *)
  r_auto : list text;             (* the names in AutoOutputVars *)
  r_nth : option Z                (* what SetNthSelectedOutput was called with last *)
}.
Definition with_prefix (p : text) (r : rm) : rm :=
  Rm (r_components r) (r_errors r) p (r_on r) (r_count r) (r_current r) (r_rows r) (r_cols r) (r_heads r) (r_table r)
     (r_viscosity r) (r_auto r) (r_nth r).
Definition with_on (b : bool) (r : rm) : rm :=
  Rm (r_components r) (r_errors r) (r_prefix r) b (r_count r) (r_current r) (r_rows r) (r_cols r) (r_heads r) (r_table r)
     (r_viscosity r) (r_auto r) (r_nth r).
Definition with_nth (n : Z) (r : rm) : rm :=
  Rm (r_components r) (r_errors r) (r_prefix r) (r_on r) (r_count r) (r_current r) (r_rows r) (r_cols r) (r_heads r)
     (r_table r) (r_viscosity r) (r_auto r) (Some n).

(** ** BMIVariant (BMIVariant.h 26-78): the scalars that CopyScalars copies. *)
Record meta := Meta {
  m_init : bool;
  m_setter : bool;
  m_getter : bool;
  m_nbytes : Z;
  m_itemsize : Z;
  m_dim : Z;
  m_type : ctype;
  m_b : bool;
  m_i : Z;
  m_d : D
}.
(** BMIVariant(f, name) (BMIVariant.cpp 2-22) *)
Definition meta_new : meta := Meta false false false 0 0 0 TNone false 0 zero.

(** SetBasic and SetTypes (BMIVariant.h 80-99, 106-109): [dim] is left alone when the item size is 0. *)
Definition set_basic (setter getter : bool) (nbytes itemsize : Z) (t : ctype) (m : meta) : meta :=
  Meta (m_init m) setter getter nbytes itemsize (if decide (itemsize = 0) then m_dim m else Z.quot nbytes itemsize) t
       (m_b m) (m_i m) (m_d m).
Definition set_init (b : bool) (m : meta) : meta :=
  Meta b (m_setter m) (m_getter m) (m_nbytes m) (m_itemsize m) (m_dim m) (m_type m) (m_b m) (m_i m) (m_d m).
(** SetItemsize (BMIVariant.h 110): nothing else changes. *)
Definition set_itemsize (z : Z) (m : meta) : meta :=
  Meta (m_init m) (m_setter m) (m_getter m) (m_nbytes m) z (m_dim m) (m_type m) (m_b m) (m_i m) (m_d m).
Definition set_b (b : bool) (m : meta) : meta :=
  Meta (m_init m) (m_setter m) (m_getter m) (m_nbytes m) (m_itemsize m) (m_dim m) (m_type m) b (m_i m) (m_d m).
Definition set_i (z : Z) (m : meta) : meta :=
  Meta (m_init m) (m_setter m) (m_getter m) (m_nbytes m) (m_itemsize m) (m_dim m) (m_type m) (m_b m) z (m_d m).
Definition flag (b : bool) : Z := if b then 1 else 0.

(** VarExchange: a BMIVariant through which values pass. *)
Record exch := Exch { x_meta : meta; x_string : text; x_doubles : list D; x_strings : list text }.
Record bmi := Bmi { b_rm : rm; b_meta : var -> meta; b_ex : exch }.

(** VarManager with a new instance (constructor 9-112). *)
Definition bmi_new (r : rm) : bmi := Bmi r (fun _ => meta_new) (Exch meta_new [] [] []).

(** ** The first part of a [_Var] function: the sizes and types. *)
Definition size_z (s : text) : Z := Z.of_nat (length s).
(** The item size of the headings also covers the names of the automatic variables (SelectedOutputHeadings_Var
    974-988, and again 1020-1031). *)
Definition heads_width (r : rm) : Z := Z.of_nat (Nat.max (longest (r_heads r)) (longest (r_auto r))).
Definition info (v : var) (r : rm) (m : meta) : meta :=
  match v with
  | VComponents =>                                                        (* 211-232 *)
      if m_init m then m
      else let w := Z.of_nat (longest (r_components r)) in
           set_init true (set_basic false true (w * Z.of_nat (length (r_components r))) w TStrings m)
  | VErrorString =>                                                       (* 461-477 *)
      if m_init m then m
      else let n := size_z (r_errors r) in set_init true (set_basic false true n n TString m)
  | VFilePrefix =>                                                        (* 511-525: at every call *)
      let n := size_z (r_prefix r) in set_basic true true n n TString m
  | VNth =>                                                               (* 660-669 *)
      if m_init m then m else set_init true (set_i (-1) (set_basic true false 4 4 TInt m))
  | VSelectedOutput =>                                                    (* 818-840: never initialised *)
      if m_init m then m
      else if decide (0 < r_count r)
           then set_basic false true (8 * Z.of_nat (r_rows r) * r_cols r) 8 TDouble m
           else set_basic false true 8 8 TDouble m
  | VColumnCount | VCurrent =>                                            (* 872-882, 1246-1256 *)
      if m_init m then m else set_init true (set_i (-1) (set_basic false true 4 4 TInt m))
  | VCount =>                                                             (* 921-930 *)
      if m_init m then m else set_init true (set_i (r_count r) (set_basic false true 4 4 TInt m))
  | VHeadings =>                                                          (* 969-1006: never initialised *)
      if m_init m then m
      else set_init false
             (if decide (0 < r_count r)
              then set_basic false true (heads_width r * Z.of_nat (length (r_heads r))) (heads_width r) TStrings m
              else m)
  | VRowCount =>                                                          (* 1058-1068: never initialised *)
      if m_init m then m else set_init false (set_i (Z.of_nat (r_rows r)) (set_basic false true 4 4 TInt m))
  | VOn =>                                                                (* 1471-1482 *)
      if m_init m then m
      else set_init true (set_i (flag (r_on r)) (set_b (r_on r) (set_basic true true 1 1 TBool m)))
  | VViscosity =>                                                         (* 1587-1599 *)
      if m_init m then m else set_init true (set_basic false true (8 * Z.of_nat (r_rows r)) 8 TDouble m)
  end.
(** What this part does to VarExchange (474, 972, 1597). *)
Definition info_ex (v : var) (r : rm) (m : meta) (x : exch) : exch :=
  if m_init m then x
  else match v with
       | VErrorString => Exch (x_meta x) (r_errors r) (x_doubles x) (x_strings x)
       | VHeadings => if decide (0 < r_count r) then Exch (x_meta x) (x_string x) (x_doubles x) (r_heads r) else x
       | VViscosity =>
           Exch (x_meta x) (x_string x) (take (r_rows r) (x_doubles x) ++ replicate (r_rows r - length (x_doubles x)) zero)
                (x_strings x)
       | _ => x
       end.

(** ** The second part, by task. [GetPtr] is refused by all of them but SelectedOutputOn and the numeric
    ones (topic Bmi); the tasks of the updates concern variables with a pointer. [None]: an exception. *)
Inductive task := Info | GetVar | SetVar.
Definition act (v : var) (t : task) (r : rm) (m : meta) (x : exch) : option (rm * meta * exch) :=
  match t, v with
  | Info, _ => Some (r, m, x)
  | GetVar, VComponents => Some (r, m, Exch (x_meta x) (x_string x) (x_doubles x) (r_components r))       (* 245-249 *)
  | GetVar, VErrorString =>                                                                               (* 486-494 *)
      Some (r, set_itemsize (size_z (r_errors r)) m, Exch (x_meta x) (r_errors r) (x_doubles x) (x_strings x))
  | GetVar, VFilePrefix => Some (r, m, Exch (x_meta x) (r_prefix r) (x_doubles x) (x_strings x))          (* 534-541 *)
  | GetVar, VNth => None                                                                                  (* 678-682 *)
  | GetVar, VSelectedOutput =>                                                                            (* 849-854 *)
      Some (r, m, Exch (x_meta x) (x_string x) (r_table r (x_doubles x)) (x_strings x))
  | GetVar, VColumnCount => Some (r, set_i (r_cols r) m, x)                                               (* 891-896 *)
  | GetVar, VCount => Some (r, set_i (r_count r) m, x)                                                    (* 939-944 *)
  | GetVar, VHeadings =>                                                                                  (* 1015-1033 *)
      Some (r, set_itemsize (heads_width r) m, Exch (x_meta x) (x_string x) (x_doubles x) (r_heads r))
  | GetVar, VRowCount => Some (r, set_i (Z.of_nat (r_rows r)) m, x)                                       (* 1077-1082 *)
  | GetVar, VCurrent => Some (r, set_i (r_current r) m, x)                                                (* 1265-1270 *)
  | GetVar, VOn => Some (r, set_i (flag (r_on r)) (set_b (r_on r) m), x)                                  (* 1504-1515 *)
  | GetVar, VViscosity => Some (r, m, Exch (x_meta x) (x_string x) (r_viscosity r) (x_strings x))         (* 1611-1618 *)
  | SetVar, VFilePrefix =>                                                                                (* 542-552 *)
      let n := size_z (x_string x) in
      Some (with_prefix (x_string x) r, set_basic true true n n TString m, x)
  | SetVar, VNth => Some (with_nth (m_i (x_meta x)) r, m, x)                                              (* 683-688 *)
  | SetVar, VOn =>                                                                                        (* 1516-1525 *)
      let b := m_b (x_meta x) in Some (with_on b r, set_i (flag b) (set_b b m), x)
  | SetVar, _ => None
  end.

(** A [_Var] function. CopyScalars (BMIVariant.cpp 45-66) at the end gives VarExchange the scalars. When an
    exception leaves the function ([false]) it has not been reached. *)
Definition var_fn (v : var) (t : task) (b : bmi) : bool * bmi :=
  let m1 := info v (b_rm b) (b_meta b v) in
  let x1 := info_ex v (b_rm b) (b_meta b v) (b_ex b) in
  match act v t (b_rm b) m1 x1 with
  | Some (r, m, x) =>
      (true, Bmi r (fun w => if decide (w = v) then m else b_meta b w) (Exch m (x_string x) (x_doubles x) (x_strings x)))
  | None => (false, Bmi (b_rm b) (fun w => if decide (w = v) then m1 else b_meta b w) x1)
  end.

(** [if (!bv.GetInitialized()) { task = Info; fn(); }], which all functions of BMIPhreeqcRM.cpp begin with. *)
Definition ready (v : var) (b : bmi) : bmi := if m_init (b_meta b v) then b else snd (var_fn v Info b).

(** ** BMIPhreeqcRM *)

(** GetVarItemsize, GetVarNbytes, GetVarType, and whether the variable is listed by GetOutputVarNames and
    GetInputVarNames (BMIPhreeqcRM.cpp 342-391, 465-601) *)
Definition get_itemsize (v : var) (b : bmi) : Z * bmi := let b1 := ready v b in (m_itemsize (b_meta b1 v), b1).
Definition get_nbytes (v : var) (b : bmi) : Z * bmi := let b1 := ready v b in (m_nbytes (b_meta b1 v), b1).
Definition get_type (v : var) (b : bmi) : ctype * bmi := let b1 := ready v b in (m_type (b_meta b1 v), b1).

(** The result of a call that delivers something, ends with an exception, or is undefined. *)
Inductive got (A : Type) := Got (a : A) (b : bmi) | Thrown (b : bmi) | Undefined.
Arguments Got {A} a b.
Arguments Thrown {A} b.
Arguments Undefined {A}.

(** [memcpy(dest, src, n)]: the bytes written. A negative [n] becomes a huge size. *)
Definition memcpy (src : text) (n : Z) : option text :=
  if decide (0 <= n /\ (Z.to_nat n <= length src)%nat) then Some (take (Z.to_nat n) src) else None.
Definition copied (src : text) (n : Z) (b : bmi) : got text :=
  match memcpy src n with Some l => Got l b | None => Undefined end.

(** The call all the getters make. *)
Definition fetch (v : var) (b : bmi) : bool * bmi := var_fn v GetVar (ready v b).

(** GetValue(name, void* dest) (619-712): the bytes stored from [dest] on. [data()] of a string ends with a
    null character. The rest of the function looks for an automatic variable of the name and throws. *)
Definition get_void (v : var) (b : bmi) : got text :=
  let (ok, b1) := fetch v b in
  if ok then
    let m := x_meta (b_ex b1) in
    let n := m_nbytes m in
    match m_type m with
    | TBool => if decide (m_dim m = 1) then Got (int_bytes (flag (m_b m))) b1 else Thrown b1
    | TInt => if decide (m_dim m = 1) then copied (int_bytes (m_i m)) n b1 else Thrown b1
    | TDouble => if decide (m_dim m = 1) then copied (dbytes (m_d m)) n b1
                 else if decide (1 < m_dim m) then copied (concat (map dbytes (x_doubles (b_ex b1)))) n b1
                 else Thrown b1
    | TStrings => let (w, b2) := get_itemsize v b1 in Got (concat (map (padded w) (x_strings (b_ex b2)))) b2
    | TString => if decide (m_dim m = 0 \/ m_dim m = 1) then copied (x_string (b_ex b1) ++ [nul]) n b1 else Thrown b1
    | TNone => Thrown b1
    end
  else Thrown b1.

(** GetValue(name, int* dest) (860-897): nothing is stored, and no exception leaves, when the size is 0. The
    variables with an array of integers do not exist. *)
Definition get_int_ptr (v : var) (b : bmi) : got text :=
  let (ok, b1) := fetch v b in
  if ok then
    let m := x_meta (b_ex b1) in
    if decide (m_dim m = 1) then copied (int_bytes (m_i m)) (m_nbytes m) b1
    else if decide (1 < m_dim m) then Undefined
    else Got [] b1
  else Thrown b1.

(** GetValue(name, std::string&) (910-928), GetValue(name, std::vector<std::string>&) (987-1005) *)
Definition get_string (v : var) (b : bmi) : got text :=
  let (ok, b1) := fetch v b in if ok then Got (x_string (b_ex b1)) b1 else Thrown b1.
Definition get_strings (v : var) (b : bmi) : got (list text) :=
  let (ok, b1) := fetch v b in if ok then Got (x_strings (b_ex b1)) b1 else Thrown b1.

(** SetValue(name, bool) (1098-1119), SetValue(name, int) (1162-1182), SetValue(name, const char* or
    std::string) (1120-1140, 1183-1203). The result is whether it returned. *)
Definition with_ex (f : exch -> exch) (b : bmi) : bmi := Bmi (b_rm b) (b_meta b) (f (b_ex b)).
Definition put (v : var) (f : exch -> exch) (b : bmi) : bool * bmi := var_fn v SetVar (with_ex f (ready v b)).
Definition ex_b (t : bool) (x : exch) : exch := Exch (set_b t (x_meta x)) (x_string x) (x_doubles x) (x_strings x).
Definition ex_i (n : Z) (x : exch) : exch := Exch (set_i n (x_meta x)) (x_string x) (x_doubles x) (x_strings x).
Definition ex_s (s : text) (x : exch) : exch := Exch (x_meta x) s (x_doubles x) (x_strings x).
Definition set_bool (v : var) (t : bool) : bmi -> bool * bmi := put v (ex_b t).
Definition set_int (v : var) (n : Z) : bmi -> bool * bmi := put v (ex_i n).
Definition set_string (v : var) (s : text) : bmi -> bool * bmi := put v (ex_s s).

(** SetValue(name, void* src) (1025-1097), [src] being the memory there. [int dim = Nbytes / itemsize] divides
    by zero for an empty text; a C string ends at the null character. The variables of this topic that can
    be set are SelectedOutputOn, FilePrefix and NthSelectedOutput. *)
Fixpoint c_string (mem : text) : option text :=
  match mem with
  | [] => None
  | c :: mem' => if decide (c = nul) then Some [] else cons c <$> c_string mem'
  end.
Definition int_read (l : text) : Z :=
  let u := foldr (fun c z => Z.of_N (N_of_ascii c) + 256 * z) 0 (take 4 l) in
  if decide (2147483648 <= u) then u - 4294967296 else u.
Definition set_void (v : var) (mem : text) (b : bmi) : option (bool * bmi) :=
  let b1 := ready v b in
  let m := b_meta b1 v in
  if decide (m_itemsize m = 0) then None
  else
    let dim := Z.quot (m_nbytes m) (m_itemsize m) in
    match m_type m with
    | TBool => if decide (dim = 1) then
                 if decide (4 <= length mem)%nat then Some (put v (ex_b (negb (bool_decide (int_read mem = 0)))) b) else None
               else Some (false, b1)
    | TInt => if decide (dim = 1) then
                if decide (4 <= length mem)%nat then Some (put v (ex_i (int_read mem)) b) else None
              else Some (false, b1)
    | TString => match c_string mem with Some s => Some (put v (ex_s s) b) | None => None end
    | _ => Some (false, b1)
    end.

(** ** FindComponents: BMIPhreeqcRM::GenerateAutoOutputVars (253-303), called at its end (PhreeqcRM.cpp
    3261), makes every variable uninitialised and calls its function with Info. [r] is the module at that
    time; variables are visited in the order of the enumeration. *)
Definition renewed (v : var) (b : bmi) : bmi :=
  snd (var_fn v Info (Bmi (b_rm b) (fun w => if decide (w = v) then set_init false (b_meta b w) else b_meta b w) (b_ex b))).
Definition find_components (r : rm) (b : bmi) : bmi :=
  foldl (fun b v => renewed v b) (Bmi r (b_meta b) (b_ex b)) all_vars.

(** ** Histories *)
Inductive op :=
| Change (r : rm)            (* any call of the module that is not FindComponents *)
| Find (r : rm)              (* FindComponents *)
| Ask (v : var)              (* GetVarType, GetVarItemsize, GetVarNbytes, the lists of names *)
| Read (v : var)             (* GetValue *)
| PutB (t : bool) (v : var)  (* SetValue *)
| PutI (n : Z) (v : var)
| PutS (s : text) (v : var).
Definition do_op (o : op) (b : bmi) : bmi :=
  match o with
  | Change r => Bmi r (b_meta b) (b_ex b)
  | Find r => find_components r b
  | Ask v => ready v b
  | Read v => snd (fetch v b)
  | PutB t v => snd (set_bool v t b)
  | PutI n v => snd (set_int v n b)
  | PutS s v => snd (set_string v s b)
  end.
Definition do_ops (l : list op) (b : bmi) : bmi := foldl (fun b o => do_op o b) b l.

(** ** The C interface (RM_interface_C.cpp) *)

(** Storing bytes at the beginning of the caller's memory. *)
Definition stored (l mem : text) : option text :=
  if decide (length l <= length mem)%nat then Some (l ++ drop (length l) mem) else None.
Definition store (g : got text) (mem : text) : got text :=
  match g with
  | Got l b => match stored l mem with Some m => Got m b | None => Undefined end
  | Thrown b => Thrown b
  | Undefined => Undefined
  end.

(** RM_BmiGetValueInt (373-384), RM_BmiSetValueInt (542-553), RM_BmiSetValueChar (500-511) for an existing
    instance. *)
Definition rm_get_value_int (v : var) (dest : text) (b : bmi) : got text := store (get_int_ptr v b) dest.
Definition rm_set_value_int (v : var) (n : Z) (b : bmi) : bool * bmi := set_int v n b.

(** RM_BmiGetValueChar (332-356): [l] is the length the caller states for [dest]. *)
Definition rm_get_value_char (v : var) (dest : text) (l : Z) (b : bmi) : got (option text) :=
  let (n, b1) := get_nbytes v b in
  if decide (l < n + 1) then Got None b1
  else match store (get_void v b1) dest with
       | Got m b2 => if decide (0 <= n /\ (Z.to_nat n < length m)%nat) then Got (Some (<[Z.to_nat n := nul]> m)) b2
                     else Undefined
       | Thrown b2 => Thrown b2
       | Undefined => Undefined
       end.

(** ** The Fortran module (BMI_interface.F90) *)

(** The result of a Fortran function: also the program can stop. *)
Inductive fgot (A : Type) := FGot (a : A) (b : bmi) | Stopped | FThrown (b : bmi) | FUndefined.
Arguments FGot {A} a b.
Arguments Stopped {A}.
Arguments FThrown {A} b.
Arguments FUndefined {A}.
Definition f_of {A} (g : got A) : fgot A :=
  match g with Got a b => FGot a b | Thrown b => FThrown b | Undefined => FUndefined end.
Definition fbind {A B} (g : fgot A) (f : A -> bmi -> fgot B) : fgot B :=
  match g with FGot a b => f a b | Stopped => Stopped | FThrown b => FThrown b | FUndefined => FUndefined end.

(** [dest = temp]: truncated, or filled up with blanks. *)
Definition f_assign (n : nat) (s : text) : text := take n s ++ replicate (n - length s) blank.

(** bmif_get_value_logical (1518-1544): the four bytes go to an integer. *)
Definition f_get_logical (v : var) (junk : text) (b : bmi) : fgot bool :=
  let (t, b1) := get_type v b in
  if String.eqb (ftype t) "logical"
  then fbind (f_of (store (get_void v b1) (f_assign 4 junk))) (fun m b2 => FGot (negb (bool_decide (int_read m = 0))) b2)
  else Stopped.

(** bmif_get_value_char (1548-1583): [temp] is allocated with the item size; its contents are whatever the
    memory held ([junk]). [len] is the length of the caller's variable. *)
Definition f_get_char (v : var) (len : nat) (junk : text) (b : bmi) : fgot text :=
  let (t, b1) := get_type v b in
  if String.eqb (ftype t) "character"
  then let (w, b2) := get_itemsize v b1 in
       fbind (f_of (store (get_void v b2) (f_assign (Z.to_nat w) junk))) (fun m b3 => FGot (f_assign len m) b3)
  else Stopped.

(** bmif_get_value_char1 (1619-1660): the array is allocated with [nbytes / itemsize] elements of the item size,
    contiguous in memory. *)
Definition f_get_char1 (v : var) (junk : text) (b : bmi) : fgot (list text) :=
  let (t, b1) := get_type v b in
  if String.eqb (ftype t) "character(len=:),allocatable,dimension(:)"
  then let (w, b2) := get_itemsize v b1 in
       let (n, b3) := get_nbytes v b2 in
       if decide (w = 0) then FUndefined
       else let dim := Z.to_nat (Z.quot n w) in
            fbind (f_of (store (get_void v b3) (f_assign (dim * Z.to_nat w) junk)))
              (fun m b4 => FGot (map (fun i => take (Z.to_nat w) (drop (i * Z.to_nat w) m)) (seq 0 dim)) b4)
  else Stopped.

(** bmif_set_value_int (2126-2153). [var .eq. "NthSelectedOutput"] compares the characters themselves, trailing
    blanks aside. *)
Fixpoint f_trim (s : string) : string :=
  match s with
  | EmptyString => EmptyString
  | String c s' => let r := f_trim s' in
                   if String.eqb r "" then if decide (c = blank) then EmptyString else String c r else String c r
  end.
Definition f_set_int (name : string) (n : Z) (b : bmi) : fgot bool :=
  match get_enum (f_trim name) with
  | None => FThrown b
  | Some v =>
      let (t, b1) := get_type v b in
      if String.eqb (ftype t) "integer"
      then let k := if String.eqb (f_trim name) "NthSelectedOutput" then n - 1 else n in
           match set_void v (int_bytes k) b1 with
           | Some (ok, b2) => if ok then FGot true b2 else FThrown b2
           | None => FUndefined
           end
      else Stopped
  end.

End Bmi.
Arguments Got {D A} a b.
Arguments Thrown {D A} b.
Arguments Undefined {D A}.
Arguments FGot {D A} a b.
Arguments Stopped {D A}.
Arguments FThrown {D A} b.
Arguments FUndefined {D A}.
Arguments rm D : clear implicits.
Arguments bmi D : clear implicits.
Arguments op D : clear implicits.
Arguments got D A : clear implicits.
Arguments fgot D A : clear implicits.

(** ** The grid (BMIPhreeqcRM.h 594; BMIPhreeqcRM.cpp 1287-1312; RM_interface_C.cpp 150-188, 441-447;
    BMI_interface.F90 1010-1018, 2337-2417): the identifier that goes with a variable, and the rank, size and
    type of a grid. *)
Inductive iface := Cpp | Clang | Fortran.
Definition var_grid (l : iface) : Z := match l with Cpp => 0 | Clang | Fortran => 1 end.
Definition grid_rank (l : iface) (g : Z) : Z := if decide (g = 0) then 1 else 0.
Definition grid_size (l : iface) (nxyz g : Z) : Z := if decide (g = 0) then nxyz else 0.
Definition grid_type (l : iface) (g : Z) : string :=
  match l with
  | Fortran => if decide (g = 1) then "points" else ""
  | _ => if decide (g = 0) then "points" else "Undefined grid identifier"
  end.
