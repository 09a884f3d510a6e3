(** What is asked of the BMI layer.

    A program uses the object through calls. After each call that it makes without an exception,
    the memory behind every pointer it was given shows what the getter of that variable returns. *)
From Coq Require Import String QArith Qcanon.
From stdpp Require Import prelude.
From Verif Require Import Bmi.Model.
Local Open Scope Qc_scope.

(** Variables that only have a setter *)
Definition write_only (v : var) : Prop := v = VDensityUser \/ v = VSaturationUser.
(** Variables that only change when components are found again *)
Definition static (v : var) : Prop := v = VComponentCount \/ v = VGridCellCount \/ v = VGfw.

(** The variables whose getters may return something else after the setter of [v] *)
Definition touches (v w : var) : Prop :=
  match v with
  | VDensityUser | VSaturationUser => w = VConcentrations
  | VPorosity => w = VPorosity \/ w = VConcentrations \/ w = VSaturationCalculated
  | _ => w = v
  end.
(** Variables whose getters return what was last set *)
Definition echoes (v : var) : Prop :=
  match v with VPorosity | VPressure | VTemperature | VTime | VTimeStep | VSelectedOutputOn => True | _ => False end.
(** A flag is 0 or 1 *)
Definition admissible (v : var) (l : list Qc) : Prop := v = VSelectedOutputOn -> l = [0] \/ l = [1].

(** The module underneath is as it should be *)
Record lawful (R : rm) : Prop := Lawful {
  l_len : forall v s, length (r_value R v s) = size R v s;
  l_cells : forall v l s, r_cells R (r_assign R v l s) = r_cells R s;
  l_comps : forall v l s, r_comps R (r_assign R v l s) = r_comps R s;
  l_cells_react : forall t d s, r_cells R (r_react R t d s).1 = r_cells R s;
  l_comps_react : forall t d s, r_comps R (r_react R t d s).1 = r_comps R s;
  l_static : forall v t d s, static v -> r_value R v (r_react R t d s).1 = r_value R v s;
  l_local : forall v l s w, ~ touches v w -> r_value R w (r_assign R v l s) = r_value R w s;
  l_echo : forall v l s, echoes v -> length l = size R v s -> admissible v l -> r_value R v (r_assign R v l s) = l;
}.

(** The calls of a program *)
Inductive op :=
  | OGetPtr (v : var) | OGetArray (v : var) | OGetVector (v : var) | OGetDouble (v : var)
  | OSetVector (v : var) (l : list Qc) | OSetNumber (v : var) (x : Qc) | OSetPointer (v : var) (mem : list Qc)
  | ORmSet (v : var) (l : list Qc)
  | OUpdate | OUpdateUntil (t : Qc).

Definition settable (v : var) : Prop :=
  match v with
  | VConcentrations | VDensityUser | VSaturationUser | VPorosity | VPressure | VTemperature | VTime | VTimeStep
  | VSelectedOutputOn => True
  | _ => False
  end.

Section Spec.
Context (R : rm).
Definition step (o : op) (b : bmi R) : res R :=
  match o with
  | OGetPtr v => (get_ptr R v b).1
  | OGetArray v => (get_array R v b).1
  | OGetVector v => (get_vector R v b).1
  | OGetDouble v => (get_double R v b).1
  | OSetVector v l => set_vector R v l b
  | OSetNumber v x => set_number R v x b
  | OSetPointer v m => set_pointer R v m b
  | ORmSet v l => rm_set R v l b
  | OUpdate => update R b
  | OUpdateUntil t => update_until R t b
  end.
Definition run (os : list op) (b : bmi R) : res R := foldl (fun r o => rbind R r (step o)) (Done R b) os.

(** The value is of the kind of the variable: vectors for arrays, numbers for scalars; through a
    pointer, arrays of one number are excluded (see C44). *)
Definition fits (s : r_state R) (o : op) : Prop :=
  match o with
  | OSetVector v _ => is_array v = true
  | OSetNumber v x => is_array v = false /\ admissible v [x]
  | OSetPointer v m => (is_array v = true -> size R v s <> 1%nat) /\ admissible v (take 1 m)
  | ORmSet v _ => settable v
  | _ => True
  end.

(** The states a program reaches: FindComponents on a new object, then calls without exceptions *)
Definition reached (f : r_state R -> r_state R) (s : r_state R) (os : list op) (b : bmi R) : Prop :=
  Forall (fits (f s)) os /\ rbind R (find_components R f (bmi_new R s)) (run os) = Done R b.
End Spec.

(** ** Time *)

(** Reactions leave time and time step alone *)
Definition timeless (R : rm) : Prop := forall v t d s, v = VTime \/ v = VTimeStep -> r_value R v (r_react R t d s).1 = r_value R v s.
(** Calls that do not set the clock back *)
Definition onward (o : op) : Prop :=
  match o with
  | OSetNumber v x => v <> VTime /\ (v = VTimeStep -> 0 <= x)
  | OSetPointer v m => v <> VTime /\ (v = VTimeStep -> Forall (fun x => 0 <= x) m)
  | ORmSet v l => v <> VTime /\ (v = VTimeStep -> exists x, l = [x] /\ 0 <= x)
  | _ => True
  end.
